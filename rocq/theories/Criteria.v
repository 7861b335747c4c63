(** * Criteria: the FIND clause with CRITERIA
    clauses/find/transform/find_pre.py with parsed_criteria, clauses/find/find.py,
    models/wql/parsing/parsed_query.py:104-117.  There is no parser for CRITERIA: [find] is called with it directly. *)
From Verif Require Import PyBase Props Checks Statements FS Store Make Find.

(** parsed_query.py:104-108 ParsedCriteriaYesNo; the values are property values *)
Record yes_no := { yn_yes : list (pystr * pyval); yn_no : list (pystr * pyval) }.
(** parsed_query.py:111-117 ParsedCriteria: criteria_handle_props; the other fields are not used.
    A pydantic model without __len__ is always true in [if]. *)
Definition criteria := list (pystr * yes_no).
(** The values of the conditions of a node: find_pre.py:101-103 puts the two dicts of a ParsedCriteriaYesNo
    into the conditions of the right node. *)
Inductive cval := CVal (v : pyval) | CDict (d : list (pystr * pyval)).
Definition cdict := list (pystr * cval).
Definition as_conds (d : list (pystr * pyval)) : cdict := map (fun kv => (fst kv, CVal (snd kv))) d.

(** models/wql/clauses/find/find_pre.py:6-26 with these values *)
Record crel := { cr_name : option pystr; cr_handle : option pystr; cr_yes : option cdict; cr_no : option cdict }.
Record cnode := { cn_label : pystr; cn_handle : option pystr; cn_yes : option cdict; cn_no : option cdict; cn_rels : list crel }.
Record cfind := { cf_left : cnode; cf_middle : option cnode; cf_right : option cnode; cf_labels : list pystr; cf_names : list pystr }.

Section Criteria.
  Context {rt : PyRt}.

  (** dict.update *)
  Definition d_update {A} (d e : list (pystr * A)) : list (pystr * A) := fold_left (fun d kv => d_set (fst kv) (snd kv) d) e d.
  (** criteria_handle_props.get(handle, None); the keys are strings, so the handle None has no entry *)
  Definition crit_get (cr : criteria) (h : option pystr) : option yes_no :=
    match h with Some h => d_get h cr | None => None end.
  (** [if props := e: d.update(props)] *)
  Definition update_if (d : option cdict) (e : list (pystr * pyval)) : res (option cdict) :=
    match e with
    | [] => Ok d
    | _ => match d with Some d => Ok (Some (d_update d (as_conds e))) | None => Err AttributeError end
    end.

  (** transform/find_pre.py:19-39 add_criteria_yes_no_props, on the two dicts of a node or relationship;
      [None] stands for parsed_criteria=None, for which it is not called *)
  Definition add_criteria (cr : option criteria) (h : option pystr) (yes no : option cdict) : res (option cdict * option cdict) :=
    match cr with
    | None => Ok (yes, no)
    | Some cr => match crit_get cr h with
                 | None => Ok (yes, no)
                 | Some c => let? yes := update_if yes (yn_yes c) in
                             let? no := update_if no (yn_no c) in
                             Ok (yes, no)
                 end
    end.

  (** get_property_dict, as conditions *)
  Definition cond_dict (s : option pystr) : res (option cdict) :=
    let? d := get_property_dict s in Ok (option_map as_conds d).

  (** FindNodePre(...) and then add_criteria_yes_no_props *)
  Definition new_cnode (cr : option criteria) (label handle : option pystr) (props : option cdict) : res cnode :=
    match label with
    | None => Err ValidationError
    | Some l => let? (yes, no) := add_criteria cr handle props (Some []) in
                Ok {| cn_label := l; cn_handle := handle; cn_yes := yes; cn_no := no; cn_rels := [] |}
    end.
  Definition cadd_rel (r : crel) (n : cnode) : cnode :=
    {| cn_label := cn_label n; cn_handle := cn_handle n; cn_yes := cn_yes n; cn_no := cn_no n; cn_rels := cn_rels n ++ [r] |}.

  (** find_pre.py:57-71 *)
  Definition cfind_left (cr : option criteria) (p : pattern) : res cnode :=
    let? props := cond_dict (p_props (left_node p)) in
    new_cnode cr (p_label (left_node p)) (p_handle (left_node p)) props.
  (** find_pre.py:77-94 *)
  Definition cfind_middle (cr : option criteria) (p : pattern) : res (option cnode) :=
    if truthy (p_text (middle_node p)) then
      let? props := cond_dict (p_props (middle_node p)) in
      let? n := new_cnode cr (p_label (middle_node p)) (p_handle (middle_node p)) props in
      Ok (Some n)
    else Ok None.
  (** find_pre.py:100-103: right_props_dict.update(model).  The attribute is looked up before the argument is
      used; a pydantic model is iterated over as pairs of a field name and its value; None is not iterable. *)
  Definition update_model (cr : option criteria) (h : option pystr) (props : option cdict) : res (option cdict) :=
    match cr with
    | None => Ok props
    | Some cr => match props with
                 | None => Err AttributeError
                 | Some d => match crit_get cr h with
                             | None => Err TypeError
                             | Some c => Ok (Some (d_update d [(py "props_dict_yes_match", CDict (yn_yes c)); (py "props_dict_no_match", CDict (yn_no c))]))
                             end
                 end
    end.
  (** find_pre.py:96-118 *)
  Definition cfind_right (cr : option criteria) (p : pattern) : res (option cnode) :=
    if truthy (p_text (middle_node p)) then
      let? props := cond_dict (p_props (left_node p)) in
      let? props := update_model cr (p_handle (middle_node p)) props in
      let? n := new_cnode cr (p_label (right_node p)) (p_handle (middle_node p)) props in
      Ok (Some n)
    else Ok None.
  (** find_pre.py:120-145 and 147-172 *)
  Definition cfind_link (cr : option criteria) (p : piece) (a b : option cnode) : res (option cnode * option cnode * list pystr) :=
    match p_text p with
    | Some (c :: t) =>
        let? props := cond_dict (p_props p) in
        let? (yes, no) := add_criteria cr (p_handle p) props (Some []) in
        let r := {| cr_name := p_label p; cr_handle := p_handle p; cr_yes := yes; cr_no := no |} in
        let? ltr := relationship_is_left_to_right (c :: t) in
        if ltr then match a with
                    | Some n => Ok (Some (cadd_rel r n), b, truthy_list (p_label p))
                    | None => Err AttributeError
                    end
        else match b with
             | Some n => Ok (a, Some (cadd_rel r n), truthy_list (p_label p))
             | None => Err AttributeError
             end
    | _ => Ok (a, b, [])
    end.
  Definition cfind_labels (n : option cnode) : list pystr := match n with Some n => [cn_label n] | None => [] end.
  (** find_pre.py:42-176 process_parsed_find *)
  Definition process_find (cr : option criteria) (p : pattern) : res cfind :=
    let? lft := cfind_left cr p in
    let? middle := cfind_middle cr p in
    let? rgt := cfind_right cr p in
    let labels := s_of_list (cn_label lft :: cfind_labels middle ++ cfind_labels rgt) in
    let? (lft', middle, names1) := cfind_link cr (left_middle_rel p) (Some lft) middle in
    let? (middle, rgt, names2) := cfind_link cr (middle_right_rel p) middle rgt in
    match lft' with
    | Some lft => Ok {| cf_left := lft; cf_middle := middle; cf_right := rgt;
                         cf_labels := labels; cf_names := s_of_list (names1 ++ names2) |}
    | None => Err AttributeError
    end.
  (** short_circuits/find_short_circuits.py:17-34 find_short_circuit *)
  Definition short_circuit (f : cfind) (g : gdbms) : io bool :=
    let! labels := load_node_labels_index (indexes_fp g) in
    let! names := load_relationship_names_index (indexes_fp g) in
    if negb (node_label_is_in_index (cf_labels f) labels) then Ret false
    else if relationship_name_is_in_index (cf_names f) names then Ret false
    else Ret true.
  (** find.py:11-25 find *)
  Definition find_criteria (f : parsed_find) (g : gdbms) (cr : option criteria) : io (option (list (bool * bool))) :=
    let! fp := lift (process_find cr (pf_pattern f)) in
    let! ok := short_circuit fp g in
    if ok then Ret (Some [(true, false)])
    else let! _ := do_unit (CPrint NO_RESULTS) in Ret None.
End Criteria.
