(** * Prop_Beside: a FIND while a MAKE works on the same graph (C63)

    [schedule a b w tr ra rb w'] is in SpecConc; [labels_met], [names_met], [answered], [something], [nothing]
    are in SpecBeside. *)
From Verif Require Import PyBase Json RtLaws Statements SpecPattern PatternFacts FS Store SpecStore Make SpecMake Find SpecFind Query SpecConc ConcFacts SpecBeside BesideFacts
  AsciiRt AsciiFacts Prop_Make Prop_Find.

(** the MAKE, and a query that comes with it, go on as if they were alone *)
Theorem C63_make_is_not_disturbed : forall (rt : PyRt) f l g w tr rf rm w',
  schedule (find f g) (make l g) w tr rf rm w' ->
  rm = fst (run (make l g) w) /\ w_fs w' = w_fs (snd (run (make l g) w)).
Proof. exact @make_undisturbed. Qed.
Print Assumptions C63_make_is_not_disturbed.
Theorem C63_query_without_make_disturbs_none : forall (rt : PyRt) q1 q2 g w tr r1 r2 w',
  parse_make q1 = Ok None -> schedule (query q1 g) (query q2 g) w tr r1 r2 w' ->
  r2 = fst (run (query q2 g) w) /\ w_fs w' = w_fs (snd (run (query q2 g) w)).
Proof. exact @query_undisturbed. Qed.
Print Assumptions C63_query_without_make_disturbs_none.

(** the FIND answers for labels and names it met before or after the MAKE added its own, each on its own *)
Theorem C63_find_answer : forall (rt : PyRt), rt_data rt -> forall g G w, stored g G w -> forall f l tr rf rm w',
  Forall names_ok (patterns_of l) -> is_pattern (pf_pattern f) -> findable (pf_pattern f) ->
  schedule (find f g) (make l g) w tr rf rm w' ->
  exists m1 m2, answered (pf_pattern f) (labels_met (patterns_of l) G m1) (names_met (patterns_of l) G m2) rf /\
    (m1 = After \/ m2 = After -> rm = Ok true) /\ (m1 = Unreadable \/ m2 = Unreadable -> rm = Err JSONDecodeError).
Proof. exact @find_beside_make. Qed.
Print Assumptions C63_find_answer.
(** beside a MAKE that succeeds: the answer of before, the answer of afterwards, or a "found" that neither gives *)
Theorem C63_beside_a_successful_make : forall (rt : PyRt), rt_data rt -> forall g G w, stored g G w -> forall f l tr rf w',
  Forall names_ok (patterns_of l) -> is_pattern (pf_pattern f) -> findable (pf_pattern f) ->
  schedule (find f g) (make l g) w tr rf (Ok true) w' ->
  rf = fst (run (find f g) w) \/ rf = fst (run (find f g) w') \/
  (rf = something /\ fst (run (find f g) w) = nothing /\ fst (run (find f g) w') = nothing).
Proof. exact @find_beside_ok. Qed.
Print Assumptions C63_beside_a_successful_make.

(** ** Examples *)
Definition be_find : parsed_find := ex_find "FIND (a:Person)-[:KNOWS]->(b:City)-[:KNOWS]->(c:City);".
Definition be_turns (l : list parsed_make) (s : list bool) := take_turns s (@find ascii_rt be_find ex_g) (@make ascii_rt l ex_g) ex_w.
Definition be_answer l s := snd (fst (fst (be_turns l s))).
Definition be_made l s := snd (fst (be_turns l s)).
Definition be_end l s := snd (be_turns l s).
Lemma be_schedule l s :
  schedule (@find ascii_rt be_find ex_g) (@make ascii_rt l ex_g) ex_w (fst (fst (fst (be_turns l s)))) (be_answer l s) (be_made l s) (be_end l s).
Proof.
  pose proof (take_turns_schedule s (@find ascii_rt be_find ex_g) (@make ascii_rt l ex_g) ex_w) as H.
  unfold be_answer, be_made, be_end, be_turns. destruct (take_turns s _ _ _) as [[[tr ra] rb] w']. exact H.
Qed.
Lemma be_pattern : is_pattern (rt := ascii_rt) (pf_pattern be_find).
Proof. eapply (C36_parsed_patterns ascii_rt (py "FIND (a:Person)-[:KNOWS]->(b:City)-[:KNOWS]->(c:City);")). vm_compute. reflexivity. Qed.
Lemma be_findable : findable (rt := ascii_rt) (pf_pattern be_find).
Proof.
  constructor; try (vm_compute; reflexivity).
  - intros _. split; [|left; vm_compute; reflexivity]. vm_compute. intuition discriminate.
  - intros _. split; [|vm_compute; reflexivity]. vm_compute. intuition discriminate.
  - eexists. vm_compute. reflexivity.
  - intros x [<- |[<- |[<- |[]]]] _; eexists; vm_compute; reflexivity.
Qed.

(** What a user expects, that the answer is the one of before or the one of afterwards, is false: the FIND
    reads the labels after the MAKE has added its own and the names before it has. *)
Theorem C63_before_or_after_refuted : exists tr rf w',
  schedule (@find ascii_rt be_find ex_g) (@make ascii_rt ex_two ex_g) ex_w tr rf (Ok true) w' /\
  rf = something /\ fst (run (@find ascii_rt be_find ex_g) ex_w) = nothing /\ fst (run (@find ascii_rt be_find ex_g) w') = nothing.
Proof.
  pose proof (be_schedule ex_two (repeat false 8 ++ [true; true])) as H.
  assert (E : be_made ex_two (repeat false 8 ++ [true; true]) = Ok true) by (vm_compute; reflexivity). rewrite E in H.
  eexists _, _, _. split; [exact H|]. vm_compute. repeat split.
Qed.
Print Assumptions C63_before_or_after_refuted.
Example C63_example :
  be_answer ex_two [true; true] = nothing /\ be_answer ex_two (repeat false 8 ++ [true; true]) = something /\
  be_answer ex_two (repeat false 8 ++ [true; false; false; false; true]) = nothing /\ be_answer ex_two (repeat false 20) = nothing /\
  exists G, stored (rt := ascii_rt) ex_g G ex_w /\ Forall names_ok (patterns_of ex_two) /\ is_pattern (rt := ascii_rt) (pf_pattern be_find) /\ findable (rt := ascii_rt) (pf_pattern be_find).
Proof.
  split; [vm_compute; reflexivity|]. split; [vm_compute; reflexivity|]. split; [vm_compute; reflexivity|]. split; [vm_compute; reflexivity|].
  exists ex_G. exact (conj ex_stored (conj ex_two_names (conj be_pattern be_findable))).
Qed.
Example C63_example_query : @parse_make ascii_rt (py "FIND (a:Person);") = Ok None.
Proof. vm_compute. reflexivity. Qed.
