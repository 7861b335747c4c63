(** * SpecGrammar: patterns as they are written (C09)

    A drawn node or relationship is the data of its text: the names, the property text and every run of
    white space.  [show_*] is the text, [read_*] what the parser is to return for it. *)
From Verif Require Import PyBase SpecText Checks Statements SpecPattern.

Section SpecGrammar.
  Context {rt : PyRt}.

  (** ( s1 handle s2 : s3 label s4 {props} ) s6 *)
  Record wnode := { wn_s1 : pystr; wn_handle : pystr; wn_s2 : pystr; wn_s3 : pystr; wn_label : pystr;
                    wn_s4 : pystr; wn_props : option pystr; wn_s6 : pystr }.
  Definition show_node (n : wnode) : pystr :=
    py "(" ++ wn_s1 n ++ wn_handle n ++ wn_s2 n ++ py ":" ++ wn_s3 n ++ wn_label n ++ wn_s4 n ++
    opt_text (wn_props n) ++ py ")" ++ wn_s6 n.
  Definition read_node (n : wnode) : piece :=
    {| p_text := Some (show_node n); p_handle := Some (wn_handle n); p_label := Some (wn_label n); p_props := wn_props n |}.
  (** a property text starts with '{' *)
  Definition props_written (o : option pystr) : Prop :=
    forall t, o = Some t -> ParamText t /\ exists body, t = py "{" ++ body.
  Record node_written (n : wnode) : Prop := {
    nw_blanks : Forall all_space [wn_s1 n; wn_s2 n; wn_s3 n; wn_s4 n; wn_s6 n];
    nw_handle : Word (wn_handle n);
    nw_label : Word (wn_label n);
    nw_once : wn_handle n = [] -> wn_s2 n = [];   (* white space is counted once *)
    nw_label_ne : wn_label n <> [];
    nw_props : props_written (wn_props n) }.

  (** <-[ s1 handle s2 : s3 name s4 {props} ]-> s6 *)
  Record wrel := { wr_lt : bool; wr_d1 : nat; wr_s1 : pystr; wr_handle : pystr; wr_s2 : pystr; wr_colon : bool;
                   wr_s3 : pystr; wr_name : pystr; wr_s4 : pystr; wr_props : option pystr;
                   wr_d2 : nat; wr_gt : bool; wr_s6 : pystr }.
  Definition dashes (n : nat) : pystr := repeat 45%N (S n).
  Definition show_rel (r : wrel) : pystr :=
    (if wr_lt r then py "<" else []) ++ dashes (wr_d1 r) ++ py "[" ++ wr_s1 r ++ wr_handle r ++ wr_s2 r ++
    (if wr_colon r then py ":" else []) ++ wr_s3 r ++ wr_name r ++ wr_s4 r ++ opt_text (wr_props r) ++
    py "]" ++ dashes (wr_d2 r) ++ (if wr_gt r then py ">" else []) ++ wr_s6 r.
  Definition read_rel (r : wrel) : piece :=
    {| p_text := Some (show_rel r); p_handle := Some (wr_handle r); p_label := Some (wr_name r); p_props := wr_props r |}.
  Record rel_written (r : wrel) : Prop := {
    rw_blanks : Forall all_space [wr_s1 r; wr_s2 r; wr_s3 r; wr_s4 r; wr_s6 r];
    rw_handle : Word (wr_handle r);
    rw_name : Word (wr_name r);
    rw_once : wr_handle r = [] -> wr_s2 r = [];   (* white space is counted once *)
    (* a name needs its colon *)
    rw_colon : wr_colon r = false -> wr_name r = [] /\ wr_s3 r = [];
    rw_nameless : wr_name r = [] -> wr_s4 r = [];
    rw_props : props_written (wr_props r) }.

  (** one, two or three nodes *)
  Inductive wpattern :=
  | OneNode (a : wnode)
  | TwoNodes (a : wnode) (r : wrel) (b : wnode)
  | ThreeNodes (a : wnode) (r : wrel) (b : wnode) (r' : wrel) (c : wnode).
  Definition show_pattern (p : wpattern) : pystr :=
    match p with
    | OneNode a => show_node a
    | TwoNodes a r b => show_node a ++ show_rel r ++ show_node b
    | ThreeNodes a r b r' c => show_node a ++ show_rel r ++ show_node b ++ show_rel r' ++ show_node c
    end.
  Definition no_piece : piece := {| p_text := None; p_handle := None; p_label := None; p_props := None |}.
  Definition read_pattern (p : wpattern) : pattern :=
    match p with
    | OneNode a => {| left_node := read_node a; left_middle_rel := no_piece; middle_node := no_piece;
                      middle_right_rel := no_piece; right_node := no_piece |}
    | TwoNodes a r b => {| left_node := read_node a; left_middle_rel := read_rel r; middle_node := read_node b;
                           middle_right_rel := no_piece; right_node := no_piece |}
    | ThreeNodes a r b r' c => {| left_node := read_node a; left_middle_rel := read_rel r; middle_node := read_node b;
                                  middle_right_rel := read_rel r'; right_node := read_node c |}
    end.
  Definition pattern_written (p : wpattern) : Prop :=
    match p with
    | OneNode a => node_written a
    | TwoNodes a r b => node_written a /\ rel_written r /\ node_written b
    | ThreeNodes a r b r' c => node_written a /\ rel_written r /\ node_written b /\ rel_written r' /\ node_written c
    end.

  (** a list of patterns, each with the white space before it, with commas between them *)
  Fixpoint show_patterns (l : list (pystr * wpattern)) : pystr :=
    match l with
    | [] => []
    | [(b, p)] => b ++ show_pattern p
    | (b, p) :: l' => b ++ show_pattern p ++ py "," ++ show_patterns l'
    end.

  Definition last_node (p : wpattern) : wnode := match p with OneNode a => a | TwoNodes _ _ b => b | ThreeNodes _ _ _ _ c => c end.
  (** keyword, patterns, ';' on one line, the last pattern's ')' right before the ';' *)
  Definition show_statement (kw : pystr) (l : list (pystr * wpattern)) : pystr := kw ++ show_patterns l ++ py ";".
  Record statement_written (l : list (pystr * wpattern)) : Prop := {
    sw_some : l <> [];
    sw_patterns : Forall (fun bp => all_space (fst bp) /\ pattern_written (snd bp)) l;
    sw_line : no_newline (show_patterns l);
    sw_last : forall l' b p, l = l' ++ [(b, p)] -> wn_s6 (last_node p) = [] }.
  (** the handles of a pattern that were given (an empty handle is none) *)
  Definition given_handles (p : pattern) : list pystr :=
    flat_map (fun x => match p_handle x with Some (c :: h) => [c :: h] | _ => [] end)
      [left_node p; left_middle_rel p; middle_node p; middle_right_rel p; right_node p].

  (** ** statements that pass the checks *)
  Definition arrow_text (r : wrel) : pystr :=
    (if wr_lt r then py "<" else []) ++ dashes (wr_d1 r) ++ py "[" ++ wr_s1 r ++ wr_handle r ++ wr_s2 r ++
    (if wr_colon r then py ":" else []) ++ wr_s3 r ++ wr_name r ++ wr_s4 r ++ opt_text (wr_props r) ++
    py "]" ++ dashes (wr_d2 r) ++ (if wr_gt r then py ">" else []).
  Definition rels_of (p : wpattern) : list wrel :=
    match p with OneNode _ => [] | TwoNodes _ r _ => [r] | ThreeNodes _ r _ r' _ => [r; r'] end.
  Definition opt_list {A} (o : option A) : list A := match o with Some a => [a] | None => [] end.
  Definition props_of (p : wpattern) : list pystr :=
    match p with
    | OneNode a => opt_list (wn_props a)
    | TwoNodes a r b => opt_list (wn_props a) ++ opt_list (wr_props r) ++ opt_list (wn_props b)
    | ThreeNodes a r b r' c => opt_list (wn_props a) ++ opt_list (wr_props r) ++ opt_list (wn_props b) ++
                               opt_list (wr_props r') ++ opt_list (wn_props c)
    end.
  (** [t] is a pair of braces with its content [core], then white space; square brackets in even number *)
  Definition Braced (core t : pystr) : Prop :=
    exists body sp, t = core ++ sp /\ core = py "{" ++ body ++ py "}" /\ all_space sp /\ body <> [] /\
      Forall (fun c => is_word c = true \/ is_space c = true \/ In c (py ":,'"".[]@")) body /\
      Nat.Even (occ 91 body + occ 93 body).
  Definition one_way (r : wrel) : Prop := wr_lt r = negb (wr_gt r).
  Definition upper_name (r : wrel) : Prop := wr_name r = [] \/ str_isupper (wr_name r) = true.
  (** passes the comma and colon count of C08 *)
  Definition prop_good (t : pystr) : Prop := exists core, Braced core t /\ check_param_match core = Ok tt.
  Definition good_list (l : list (pystr * wpattern)) : Prop := Forall (fun bp => all_space (fst bp) /\ pattern_written (snd bp)) l.
  Definition passes (l : list (pystr * wpattern)) : Prop :=
    Forall (fun bp => Forall prop_good (props_of (snd bp)) /\ Forall (fun r => one_way r /\ upper_name r) (rels_of (snd bp))) l.
  Definition distinct_handles (l : list (pystr * wpattern)) : Prop := Forall (fun bp => NoDup (given_handles (read_pattern (snd bp)))) l.
  (** the text of a relationship without the white space behind it, and its name *)
  Definition rel_pair (r : wrel) : pystr * pystr := (arrow_text r, wr_name r).

  Definition starts (kw s : pystr) : Prop := exists r, s = kw ++ r.
  Definition exact_kw_make (m : pystr) : Prop := starts (py "MAKE") m \/ starts (py "make") m.
  (** what a statement text is parsed to *)
  Definition plain (m : pystr) : parsed_make := {| pm_raw := m; pm_patterns := pattern_matches m |}.
End SpecGrammar.
