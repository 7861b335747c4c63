(** * SpecFind: what a FIND asks for and when it does not raise (C36-C41) *)
From Verif Require Import PyBase Json SpecJson Props SpecPattern SpecGrammar Statements FS Store SpecStore Make SpecMake Find.

Section SpecFind.
  Context {rt : PyRt}.

  (** the property text of a piece can be read *)
  Definition meaning (x : piece) : Prop := exists o, get_property_dict (p_props x) = Ok o.

  (** the nodes that are looked up, and the labels and relationship names that are asked for *)
  Definition asked_nodes (p : pattern) : list piece :=
    left_node p :: if drawn (middle_node p) then [middle_node p; right_node p] else [].
  Definition asked_label (p : pattern) (s : pystr) : Prop :=
    exists x, In x (asked_nodes p) /\ p_label x = Some s.
  Definition asked_name (p : pattern) (s : pystr) : Prop :=
    exists x, In x [left_middle_rel p; middle_right_rel p] /\ drawn x = true /\ p_label x = Some s /\ s <> [].

  (** a node alone *)
  Definition alone (p : pattern) : Prop :=
    drawn (left_node p) = true /\ drawn (left_middle_rel p) = false /\ drawn (middle_node p) = false /\
    drawn (middle_right_rel p) = false /\ drawn (right_node p) = false.

  (** the patterns FIND accepts: one node, or three; relationships with at most one arrow head whose start is there *)
  Record findable (p : pattern) : Prop := {
    fd_left : drawn (left_node p) = true;
    fd_right : drawn (middle_node p) = true -> drawn (right_node p) = true;
    fd_rel1 : drawn (left_middle_rel p) = true ->
              ~ two_heads (left_middle_rel p) /\ (points_right (left_middle_rel p) = true \/ drawn (middle_node p) = true);
    fd_rel2 : drawn (middle_right_rel p) = true -> ~ two_heads (middle_right_rel p) /\ drawn (middle_node p) = true;
    fd_left_props : meaning (left_node p);
    fd_props : forall x, In x [left_middle_rel p; middle_node p; middle_right_rel p] -> drawn x = true -> meaning x }.

  (** the two results: something was found; nothing was found and a line says so *)
  Definition found (w : world) : res (option (list (bool * bool))) * world := (Ok (Some [(true, false)]), w).
  Definition nothing_found (w : world) : res (option (list (bool * bool))) * world :=
    (Ok None, {| w_fs := w_fs w; w_in := w_in w; w_out := w_out w ++ [NO_RESULTS] |}).

  (** Graphs reached from an empty one by successful MAKE calls (of parsed patterns), FIND calls in between.
      [ps] are the patterns made so far. *)
  Inductive reached (g : gdbms) : world -> list pattern -> Prop :=
  | reached_empty : forall G w, stored g G w -> g_db G = [] -> ix_labels (g_ix G) = [] -> ix_names (g_ix G) = [] -> reached g w []
  | reached_make : forall w ps l b w', reached g w ps -> Forall names_ok (patterns_of l) ->
      run (make l g) w = (Ok b, w') -> reached g w' (ps ++ patterns_of l)
  | reached_find : forall w ps f, reached g w ps -> reached g (snd (run (find f g) w)) ps.

  (** the same pattern with another right node *)
  Definition with_right (p : pattern) (x : piece) : pattern :=
    {| left_node := left_node p; left_middle_rel := left_middle_rel p; middle_node := middle_node p;
       middle_right_rel := middle_right_rel p; right_node := x |}.
End SpecFind.

(** ** MAKE and FIND on one line (C45) *)
(** a pattern with nothing in it *)
Definition blank_pattern : pattern :=
  {| left_node := no_piece; left_middle_rel := no_piece; middle_node := no_piece; middle_right_rel := no_piece; right_node := no_piece |}.
(** the two statements one after the other, [sp] between them *)
Definition one_line (kw1 : pystr) (l1 : list (pystr * wpattern)) (sp kw2 : pystr) (l2 : list (pystr * wpattern)) : pystr :=
  show_statement kw1 l1 ++ sp ++ show_statement kw2 l2.


