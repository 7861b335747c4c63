(** * Find: the FIND clause
    clauses/find/transform/find_pre.py, clauses/find/short_circuits, clauses/find/find.py,
    models/wql/clauses/find/find_pre.py, clauses/report/report.py *)
From Verif Require Import PyBase Props Checks Statements FS Store Make.

(** models/wql/clauses/find/find_pre.py:6-10 FindRelationshipPre *)
Record find_rel_pre := { fr_name : option pystr; fr_handle : option pystr;
                         fr_yes : option (list (pystr * pyval)); fr_no : option (list (pystr * pyval)) }.
(** find_pre.py:13-18 FindNodePre *)
Record find_node_pre := { fn_label : pystr; fn_handle : option pystr;
                          fn_yes : option (list (pystr * pyval)); fn_no : option (list (pystr * pyval));
                          fn_rels : list find_rel_pre }.
(** find_pre.py:21-26 FindPre *)
Record find_pre := { fp_left : find_node_pre; fp_middle : option find_node_pre;
                     fp_right : option find_node_pre;
                     fp_labels : list pystr; fp_names : list pystr }.

Section Find.
  Context {rt : PyRt}.

  (** FindNodePre(...): [node_label: str] is required *)
  Definition new_find_node (label handle : option pystr) (props : option (list (pystr * pyval)))
    : res find_node_pre :=
    match label with
    | None => Err ValidationError
    | Some l => Ok {| fn_label := l; fn_handle := handle; fn_yes := props; fn_no := Some []; fn_rels := [] |}
    end.

  Definition find_add_rel (r : find_rel_pre) (n : find_node_pre) : find_node_pre :=
    {| fn_label := fn_label n; fn_handle := fn_handle n; fn_yes := fn_yes n; fn_no := fn_no n;
       fn_rels := fn_rels n ++ [r] |}.

  (** find_pre.py:57-65 (transform), without CRITERIA *)
  Definition find_left (p : pattern) : res find_node_pre :=
    let? props := get_property_dict (p_props (left_node p)) in
    new_find_node (p_label (left_node p)) (p_handle (left_node p)) props.

  (** find_pre.py:77-94 *)
  Definition find_middle (p : pattern) : res (option find_node_pre) :=
    if truthy (p_text (middle_node p)) then
      let? props := get_property_dict (p_props (middle_node p)) in
      let? n := new_find_node (p_label (middle_node p)) (p_handle (middle_node p)) props in
      Ok (Some n)
    else Ok None.

  (** find_pre.py:97-118: tests [middle_node], takes the handle of the middle node and
      the properties of the LEFT node *)
  Definition find_right (p : pattern) : res (option find_node_pre) :=
    if truthy (p_text (middle_node p)) then
      let? props := get_property_dict (p_props (left_node p)) in
      let? n := new_find_node (p_label (right_node p)) (p_handle (middle_node p)) props in
      Ok (Some n)
    else Ok None.

  (** find_pre.py:120-145 and 147-172: a relationship from [a] (left-to-right) or from [b] *)
  Definition find_link (p : piece) (a b : option find_node_pre)
    : res (option find_node_pre * option find_node_pre * list pystr) :=
    match p_text p with
    | Some (c :: t) =>
        let? props := get_property_dict (p_props p) in
        let r := {| fr_name := p_label p; fr_handle := p_handle p; fr_yes := props; fr_no := Some [] |} in
        let? ltr := relationship_is_left_to_right (c :: t) in
        if ltr then match a with
                    | Some n => Ok (Some (find_add_rel r n), b, truthy_list (p_label p))
                    | None => Err AttributeError
                    end
        else match b with
             | Some n => Ok (a, Some (find_add_rel r n), truthy_list (p_label p))
             | None => Err AttributeError
             end
    | _ => Ok (a, b, [])
    end.

  Definition find_labels (n : option find_node_pre) : list pystr :=
    match n with Some n => [fn_label n] | None => [] end.

  (** find_pre.py:42-176 process_parsed_find with parsed_criteria=None (there is no CRITERIA parser,
      query.py:36) *)
  Definition process_pattern_find (p : pattern) : res find_pre :=
    let? lft := find_left p in
    let? middle := find_middle p in
    let? rgt := find_right p in
    let labels := s_of_list (fn_label lft :: find_labels middle ++ find_labels rgt) in
    let? (lft', middle, names1) := find_link (left_middle_rel p) (Some lft) middle in
    let? (middle, rgt, names2) := find_link (middle_right_rel p) middle rgt in
    match lft' with
    | Some lft => Ok {| fp_left := lft; fp_middle := middle; fp_right := rgt;
                         fp_labels := labels; fp_names := s_of_list (names1 ++ names2) |}
    | None => Err AttributeError
    end.
  Definition process_parsed_find (f : parsed_find) : res find_pre := process_pattern_find (pf_pattern f).

  (** short_circuits/nodes.py:1-4 and short_circuits/relationships.py:1-4: non-empty intersection *)
  Definition node_label_is_in_index (l idx : list pystr) : bool := existsb (fun x => s_mem x idx) l.
  Definition relationship_name_is_in_index (l idx : list pystr) : bool := existsb (fun x => s_mem x idx) l.

  (** short_circuits/find_short_circuits.py:17-34 find_short_circuit *)
  Definition find_short_circuit (f : find_pre) (g : gdbms) : io bool :=
    let! labels := load_node_labels_index (indexes_fp g) in
    let! names := load_relationship_names_index (indexes_fp g) in
    if negb (node_label_is_in_index (fp_labels f) labels) then Ret false
    else if relationship_name_is_in_index (fp_names f) names then Ret false
    else Ret true.

  (** find.py:11-25 find: [None] after printing "No results", or [Some [(true, false)]] *)
  Definition NO_RESULTS : pystr := 10%N :: py "No results" ++ [10%N].
  Definition find (f : parsed_find) (g : gdbms) : io (option (list (bool * bool))) :=
    let! fp := lift (process_parsed_find f) in
    let! ok := find_short_circuit fp g in
    if ok then Ret (Some [(true, false)])
    else let! _ := do_unit (CPrint NO_RESULTS) in Ret None.

  (** clauses/report/report.py:5-6 report *)
  Definition report (r : parsed_report) (found : option (list (bool * bool))) (g : gdbms) : io bool :=
    Ret true.
End Find.
