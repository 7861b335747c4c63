(** * Prop_Criteria: FIND with CRITERIA (C61) *)
From Verif Require Import PyBase Json Props Statements FS Store SpecStore Make SpecMake SpecPattern PatternFacts Find SpecFind FindFacts QueryFacts Criteria SpecCriteria CriteriaFacts
  AsciiRt AsciiFacts Prop_Store Prop_Make Prop_Find.

(** without criteria: the FIND of the other theorems *)
Theorem C61_without_criteria : forall (rt : PyRt) f g,
  process_find None (pf_pattern f) = bind (process_parsed_find f) (fun x => Ok (pre_of x)) /\ find_criteria f g None = find f g.
Proof. exact @no_criteria. Qed.
Print Assumptions C61_without_criteria.
(** Criteria never change the answer of a FIND: it is the one without them, or an exception that leaves everything as it was. *)
Theorem C61_answer_unchanged : forall (rt : PyRt) f g cr w,
  run (find_criteria f g (Some cr)) w = run (find f g) w \/
  exists e, In e [AttributeError; TypeError] /\ run (find_criteria f g (Some cr)) w = (Err e, w).
Proof. exact @answer_unchanged. Qed.
Print Assumptions C61_answer_unchanged.
(** which of the two, for the patterns FIND accepts *)
Theorem C61_when_refused : forall (rt : PyRt) f g cr w, is_pattern (pf_pattern f) -> findable (pf_pattern f) ->
  (fits cr (pf_pattern f) /\ run (find_criteria f g (Some cr)) w = run (find f g) w) \/
  (~ fits cr (pf_pattern f) /\ exists e, In e [AttributeError; TypeError] /\ run (find_criteria f g (Some cr)) w = (Err e, w)).
Proof. exact @usable_criteria. Qed.
Print Assumptions C61_when_refused.
(** The conditions of every element are its own properties and the criteria for its handle, which win; the third node has
    the properties of the first and the criteria for the second, and these once more as two entries. *)
Theorem C61_conditions : forall (rt : PyRt) cr p r, dicts_ok cr -> process_find (Some cr) p = Ok r ->
  conditions cr (left_node p) (left_node p) (cn_yes (cf_left r)) (cn_no (cf_left r)) /\
  (drawn (middle_node p) = true -> exists m, cf_middle r = Some m /\ conditions cr (middle_node p) (middle_node p) (cn_yes m) (cn_no m)) /\
  (drawn (middle_node p) = true -> exists n o, cf_right r = Some n /\ get_property_dict (p_props (left_node p)) = Ok o /\
    exists c, criteria_for cr (middle_node p) = Some c /\
    merged (Some c) (option_map (fun d => d_update (as_conds d) [(py "props_dict_yes_match", CDict (yn_yes c)); (py "props_dict_no_match", CDict (yn_no c))]) o) (cn_yes n) (cn_no n)) /\
  (forall x, In x [left_middle_rel p; middle_right_rel p] -> drawn x = true -> exists n rel, In n (nodes_of r) /\ In rel (cn_rels n) /\
    cr_name rel = p_label x /\ cr_handle rel = p_handle x /\ conditions cr x x (cr_yes rel) (cr_no rel)).
Proof. exact @criteria_conditions. Qed.
Print Assumptions C61_conditions.

(** ** Cases *)
Definition ex_criteria : criteria := [(py "a", {| yn_yes := [(py "x", VInt 2); (py "y", VInt 3)]; yn_no := [(py "z", VNone)] |})].
Definition ex_criteria3 : criteria := ex_criteria ++ [(py "b", {| yn_yes := []; yn_no := [(py "z", VNone)] |})].
Definition ex_find1 := ex_find "FIND (a:Person{x:1, w:0});".
Definition ex_find3 := ex_find "FIND (a:Person{x:1})-[:R]->(b:City)-[:S]->(c:Land);".
Example C61_example_conditions : exists r, @process_find ascii_rt (Some ex_criteria) (pf_pattern ex_find1) = Ok r /\ dicts_ok ex_criteria /\
  cn_yes (cf_left r) = Some [(py "x", CVal (VInt 2)); (py "w", CVal (VInt 0)); (py "y", CVal (VInt 3))] /\
  cn_no (cf_left r) = Some [(py "z", CVal VNone)].
Proof.
  eexists. split; [vm_compute; reflexivity|]. split; [|split; reflexivity].
  intros h c [E|[]]. injection E as <- <-. cbn. split; repeat constructor; cbn; intuition discriminate.
Qed.
Example C61_example_three : exists r n, @process_find ascii_rt (Some ex_criteria3) (pf_pattern ex_find3) = Ok r /\ cf_right r = Some n /\
  cn_handle n = Some (py "b") /\ cn_yes n = Some [(py "x", CVal (VInt 1)); (py "props_dict_yes_match", CDict []); (py "props_dict_no_match", CDict [(py "z", VNone)])].
Proof. eexists _, _. split; [vm_compute; reflexivity|]. repeat split. Qed.
(** accepted; refused because the second node has no criteria; refused because the first node has no property list *)
Example C61_example_refused :
  run (@find_criteria ascii_rt ex_find3 ex_g (Some ex_criteria3)) ex_made = found ex_made /\
  run (@find_criteria ascii_rt ex_find3 ex_g (Some ex_criteria)) ex_made = (Err TypeError, ex_made) /\
  run (@find_criteria ascii_rt (ex_find "FIND (a:Person);") ex_g (Some ex_criteria)) ex_made = (Err AttributeError, ex_made) /\
  run (@find ascii_rt (ex_find "FIND (a:Person);") ex_g) ex_made = found ex_made.
Proof. vm_compute. auto. Qed.
Example C61_example_hypotheses : @is_pattern ascii_rt (pf_pattern ex_find1) /\ @findable ascii_rt (pf_pattern ex_find1).
Proof.
  split; [apply (@parse_find_is_pattern ascii_rt (py "FIND (a:Person{x:1, w:0});")); vm_compute; reflexivity|].
  split; try (vm_compute; (reflexivity || discriminate)); [eexists; vm_compute; reflexivity|].
  intros x [<-|[<-|[<-|[]]]] H; vm_compute in H; discriminate.
Qed.
