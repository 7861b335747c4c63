(** * SpecMake: what a MAKE of a list of patterns is meant to put into the graph (C17-C25)

    Written over the parsed pattern (its five pieces and their texts) and the values of PyBase.
    [get_property_dict], the reading of a property text, is the model's; it is characterised by
    C13-C16. *)
From Verif Require Import PyBase Json SpecJson Props Statements FS Store SpecStore Make.

(** ** Pieces *)
(** A piece is drawn when its text is not empty. *)
Definition drawn (x : piece) : bool := match p_text x with Some (_ :: _) => true | _ => false end.
Definition one (b : bool) : Z := if b then 1%Z else 0%Z.
Definition text_of (x : piece) : pystr := match p_text x with Some t => t | None => [] end.
(** The program takes a relationship to point right when the LAST character of its text is '>'. *)
Definition points_right (x : piece) : bool := N.eqb (List.last (text_of x) 0%N) 62.
Definition two_heads (x : piece) : Prop := In 60%N (text_of x) /\ In 62%N (text_of x).

(** ** Numbers: nodes first, then relationships, in drawing order *)
Section Numbers.
  Context (p : pattern) (w : Z).
  Definition num_left : Z := w.
  Definition num_middle : Z := (w + 1)%Z.
  Definition num_right : Z := (w + 1 + one (drawn (middle_node p)))%Z.
  Definition num_rel1 : Z := (w + 1 + one (drawn (middle_node p)) + one (drawn (right_node p)))%Z.
  Definition num_rel2 : Z := (num_rel1 + one (drawn (left_middle_rel p)))%Z.
End Numbers.
(** how many numbers a pattern takes *)
Definition size (p : pattern) : Z :=
  (1 + one (drawn (middle_node p)) + one (drawn (right_node p)) +
   one (drawn (left_middle_rel p)) + one (drawn (middle_right_rel p)))%Z.
Fixpoint size_all (ps : list pattern) : Z := match ps with [] => 0%Z | p :: ps' => (size p + size_all ps')%Z end.

(** ** Nodes and relationships of a pattern *)
Definition drawn_nodes (p : pattern) (w : Z) : list (Z * piece) :=
  (num_left w, left_node p) ::
  (if drawn (middle_node p) then [(num_middle w, middle_node p)] else []) ++
  (if drawn (right_node p) then [(num_right p w, right_node p)] else []).
(** the ones the program stores: the right node is not among them *)
Definition stored_nodes (p : pattern) (w : Z) : list (Z * piece) :=
  (num_left w, left_node p) ::
  (if drawn (middle_node p) then [(num_middle w, middle_node p)] else []).

Record drawn_link := { lk_num : Z; lk_piece : piece; lk_from : Z; lk_to : Z }.
Definition between_nodes (n : Z) (x : piece) (a b : Z) : drawn_link :=
  if points_right x then {| lk_num := n; lk_piece := x; lk_from := a; lk_to := b |}
  else {| lk_num := n; lk_piece := x; lk_from := b; lk_to := a |}.
Definition links (p : pattern) (w : Z) : list drawn_link :=
  (if drawn (left_middle_rel p)
   then [between_nodes (num_rel1 p w) (left_middle_rel p) (num_left w) (num_middle w)] else []) ++
  (if drawn (middle_right_rel p)
   then [between_nodes (num_rel2 p w) (middle_right_rel p) (num_middle w) (num_right p w)] else []).
(** a node owns the relationships that start at it *)
Definition owned (p : pattern) (w : Z) (n : Z) : list drawn_link :=
  filter (fun l => Z.eqb (lk_from l) n) (links p w).

(** ** Patterns the program accepts *)
Record well_drawn (p : pattern) : Prop := {
  wd_left : p_label (left_node p) <> None;
  wd_middle : drawn (middle_node p) = true -> p_label (middle_node p) <> None;
  wd_right : drawn (right_node p) = true -> p_label (right_node p) <> None;
  wd_rel1 : drawn (left_middle_rel p) = true -> drawn (middle_node p) = true /\ ~ two_heads (left_middle_rel p);
  wd_rel2 : drawn (middle_right_rel p) = true ->
            drawn (middle_node p) = true /\ drawn (right_node p) = true /\ ~ two_heads (middle_right_rel p) }.

Section SpecMake.
  Context {rt : PyRt}.

  (** the value stored for a property text *)
  Definition props_value (x : piece) (v : pyval) : Prop :=
    match get_property_dict (p_props x) with
    | Ok None => v = VNone
    | Ok (Some d) => v = VDict d
    | Err _ => False
    end.
  Definition name_value (x : piece) : pyval := match p_label x with Some s => VStr s | None => VNone end.
  Definition metadata (n : Z) : pyval :=
    VDict [(py "wn", VInt n); (py "created_at", VFloat import_time); (py "updated_at", VNone)].

  Definition link_value (l : drawn_link) (v : pyval) : Prop :=
    exists pv, props_value (lk_piece l) pv /\
      v = VDict [(py "relationship_metadata", metadata (lk_num l));
                 (py "relationship_name", name_value (lk_piece l));
                 (py "wn_from_node", VInt (lk_from l));
                 (py "wn_to_node", VInt (lk_to l));
                 (py "properties", pv)].
  Definition node_value (p : pattern) (w : Z) (n : Z) (x : piece) (v : pyval) : Prop :=
    exists pv rels, props_value x pv /\ Forall2 link_value (owned p w n) rels /\
      v = VDict [(py "node_metadata", metadata n);
                 (py "node_label", name_value x);
                 (py "properties", pv);
                 (py "relations", match rels with [] => VNone | _ => VList rels end)].

  (** [items] are the database entries for one pattern / for a list of patterns, numbered from [w] *)
  Definition entries (p : pattern) (w : Z) (items : list (pystr * pyval)) : Prop :=
    Forall2 (fun nx kv => fst kv = str_of_Z (fst nx) /\ node_value p w (fst nx) (snd nx) (snd kv))
            (stored_nodes p w) items.
  Fixpoint entries_all (ps : list pattern) (w : Z) (items : list (pystr * pyval)) : Prop :=
    match ps with
    | [] => items = []
    | p :: ps' => exists a b, items = a ++ b /\ entries p w a /\ entries_all ps' (w + size p)%Z b
    end.

  (** The MAKE can be turned into nodes, and these are their database entries. *)
  Definition acceptable (ps : list pattern) (w : Z) (items : list (pystr * pyval)) : Prop :=
    Forall well_drawn ps /\ entries_all ps w items.

  (** a property text that is needed for a stored node or relationship and has no meaning *)
  Definition meaningless (p : pattern) : Prop :=
    let bad x := exists e, get_property_dict (p_props x) = Err e in
    bad (left_node p) \/ (drawn (middle_node p) = true /\ bad (middle_node p)) \/
    (drawn (left_middle_rel p) = true /\ bad (left_middle_rel p)) \/
    (drawn (middle_right_rel p) = true /\ points_right (middle_right_rel p) = true /\ bad (middle_right_rel p)).

  (** ** Index entries *)
  (** [k] is the key of a stored node that owns the relationship number [z] *)
  Fixpoint owns (ps : list pattern) (w : Z) (k : pystr) (z : Z) : Prop :=
    match ps with
    | [] => False
    | p :: ps' => (exists n x l, In (n, x) (stored_nodes p w) /\ k = str_of_Z n /\ In l (owned p w n) /\ z = lk_num l) \/
                  owns ps' (w + size p)%Z k z
    end.
  Definition label_drawn (ps : list pattern) (s : pystr) : Prop :=
    exists p x, In p ps /\ In x (map snd (drawn_nodes p 0)) /\ p_label x = Some s.
  Definition name_drawn (ps : list pattern) (s : pystr) : Prop :=
    exists p l, In p ps /\ In l (links p 0) /\ p_label (lk_piece l) = Some s /\ s <> [].

  (** ** The effect of a successful MAKE *)
  Definition patterns_of (l : list parsed_make) : list pattern := flat_map pm_patterns l.

  Record made (ps : list pattern) (G G' : graph) : Prop := {
    md_db : exists items, entries_all ps (g_next G) items /\ g_db G' = g_db G ++ items;
    md_rels : forall k z, In z (numbers_of k (ix_rels (g_ix G'))) <->
                          In z (numbers_of k (ix_rels (g_ix G))) \/ owns ps (g_next G) k z;
    md_labels : forall s, In s (ix_labels (g_ix G')) <-> In s (ix_labels (g_ix G)) \/ label_drawn ps s;
    md_names : forall s, In s (ix_names (g_ix G')) <-> In s (ix_names (g_ix G)) \/ name_drawn ps s;
    md_next : g_next G' = (g_next G + size_all ps)%Z }.

  (** ** Reading the stored values back *)
  Definition field (name : pystr) (v : pyval) : option pyval :=
    match v with VDict d => d_get name d | _ => None end.
  (** the relationships that a stored node lists *)
  Definition relations (v : pyval) : list pyval :=
    match field (py "relations") v with Some (VList l) => l | _ => [] end.
  (** [d] has a node number [a] that lists relationship number [n], from [a'] to [b] *)
  Definition lists_link (d : list (pystr * pyval)) (a n a' b : Z) : Prop :=
    exists v r md, In (str_of_Z a, v) d /\ In r (relations v) /\
      field (py "relationship_metadata") r = Some md /\ field (py "wn") md = Some (VInt n) /\
      field (py "wn_from_node") r = Some (VInt a') /\ field (py "wn_to_node") r = Some (VInt b).

  (** every property text of the pattern that has a meaning means something json can write *)
  Definition writable (p : pattern) : Prop :=
    forall x d, In x [left_node p; left_middle_rel p; middle_node p; middle_right_rel p; right_node p] ->
                get_property_dict (p_props x) = Ok (Some d) -> dict_ser d = true.
  (** labels and names are strings without surrogates (true of everything the parser returns) *)
  Definition names_ok (p : pattern) : Prop :=
    forall x s, In x [left_node p; left_middle_rel p; middle_node p; middle_right_rel p; right_node p] ->
                p_label x = Some s -> str_ok s.
End SpecMake.

(** ** The numbers in a transformed MAKE, nodes first, in drawing order *)
Definition node_numbers (m : make_pre) : list Z :=
  np_wn (mp_left m) :: (match mp_middle m with Some n => [np_wn n] | None => [] end) ++
  (match mp_right m with Some n => [np_wn n] | None => [] end).
Definition rel_numbers (m : make_pre) : list Z :=
  let of n := map rp_wn (np_rels n) in
  of (mp_left m) ++ (match mp_middle m with Some n => of n | None => [] end) ++
  (match mp_right m with Some n => of n | None => [] end).
Fixpoint zrange (w : Z) (k : nat) : list Z := match k with O => [] | S k' => w :: zrange (w + 1)%Z k' end.
