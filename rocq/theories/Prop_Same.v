(** * Prop_Same: FIND depends only on what was ever made (C82)

    [reached] (a graph and the patterns made in it) is in SpecFind, [label_drawn] and [name_drawn] in SpecMake. *)
From Verif Require Import PyBase RtLaws Statements PatternFacts FS Store SpecStore Make SpecMake Find Query SpecFind FindFacts SameFacts QueryFacts AsciiRt AsciiFacts Prop_Make Prop_Find.

(** two graphs in which the same labels and relationship names were made answer, raise and print the same *)
Theorem C82_same_answers : forall (rt : PyRt), rt_data rt -> forall g w ps g' w' ps' f,
  reached g w ps -> reached g' w' ps' -> is_pattern (pf_pattern f) ->
  (forall s, label_drawn ps s <-> label_drawn ps' s) -> (forall s, name_drawn ps s <-> name_drawn ps' s) ->
  fst (run (find f g) w) = fst (run (find f g') w') /\
  exists out, w_out (snd (run (find f g) w)) = w_out w ++ out /\ w_out (snd (run (find f g') w')) = w_out w' ++ out.
Proof. exact @same_answers. Qed.
Print Assumptions C82_same_answers.
(** in particular the order in which patterns were made, and how often, does not matter *)
Theorem C82_order_and_repetition : forall (rt : PyRt), rt_data rt -> forall g w ps g' w' ps' f,
  reached g w ps -> reached g' w' ps' -> is_pattern (pf_pattern f) -> (forall p, In p ps <-> In p ps') ->
  fst (run (find f g) w) = fst (run (find f g') w') /\
  exists out, w_out (snd (run (find f g) w)) = w_out w ++ out /\ w_out (snd (run (find f g') w')) = w_out w' ++ out.
Proof. exact @same_patterns. Qed.
Print Assumptions C82_order_and_repetition.

(** ** Examples *)
Definition sm_after (l : list parsed_make) (w : world) : world := snd (@run bool (@make ascii_rt l ex_g) w).
Definition sm_a : world := sm_after ex_three ex_made.
Definition sm_b : world := sm_after ex_two (sm_after ex_two (sm_after ex_three ex_w)).
Lemma sm_make l w ps : @reached ascii_rt ex_g w ps -> Forall names_ok (patterns_of l) -> fst (@run bool (@make ascii_rt l ex_g) w) = Ok true ->
  @reached ascii_rt ex_g (sm_after l w) (ps ++ patterns_of l).
Proof. intros R N E. eapply reached_make; [exact R|exact N|]. rewrite <- E. apply surjective_pairing. Qed.
Lemma sm_start : @reached ascii_rt ex_g ex_w [].
Proof. eapply reached_empty; [apply ex_stored|reflexivity..]. Qed.
Example C82_hypotheses : @reached ascii_rt ex_g sm_a (patterns_of ex_two ++ patterns_of ex_three) /\
  @reached ascii_rt ex_g sm_b ((([] ++ patterns_of ex_three) ++ patterns_of ex_two) ++ patterns_of ex_two) /\
  (forall p, In p (patterns_of ex_two ++ patterns_of ex_three) <-> In p ((([] ++ patterns_of ex_three) ++ patterns_of ex_two) ++ patterns_of ex_two)) /\
  @is_pattern ascii_rt (pf_pattern (ex_find "FIND (a:Land);")) /\ w_fs sm_a <> w_fs sm_b.
Proof.
  split; [apply sm_make; [exact ex_reached|exact ex_three_names|vm_compute; reflexivity]|]. split.
  { apply sm_make; [apply sm_make; [apply sm_make; [exact sm_start|exact ex_three_names|vm_compute; reflexivity]|exact ex_two_names|vm_compute; reflexivity]|exact ex_two_names|vm_compute; reflexivity]. }
  split; [intros p; rewrite !in_app_iff; cbn [In]; tauto|]. split.
  - eapply (C36_parsed_patterns ascii_rt (py "FIND (a:Land);")). vm_compute. reflexivity.
  - intros E. assert (X : fs_get (wiggle_number_fp ex_g) (w_fs sm_a) = fs_get (wiggle_number_fp ex_g) (w_fs sm_b)) by (rewrite E; reflexivity). vm_compute in X. discriminate X.
Qed.
(** one might think that making more can only make more be found: it is not so *)
Theorem C82_more_made_more_found_refuted : exists f,
  run (@find ascii_rt f ex_g) ex_made = found ex_made /\ fst (@run bool (@make ascii_rt ex_three ex_g) ex_made) = Ok true /\
  run (@find ascii_rt f ex_g) sm_a = nothing_found sm_a.
Proof. exists (ex_find "FIND (a:Person)-[:IN]->(b:City)-[:IN]->(c:City);"). vm_compute. repeat split. Qed.
Print Assumptions C82_more_made_more_found_refuted.
