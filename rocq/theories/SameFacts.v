(** * SameFacts: FIND depends only on what was ever made (C82) *)
From Verif Require Import PyBase BaseFacts Json SpecJson RtLaws Props SpecPattern SpecGrammar PatternFacts AcceptFacts AcceptMore Statements FS FSFacts Store SpecStore Make SpecMake Find SpecFind HistoryFacts FindFacts.

Section Same.
  Context {rt : PyRt} (data : rt_data rt).
  Theorem same_answers g w ps g' w' ps' f : reached g w ps -> reached g' w' ps' -> is_pattern (pf_pattern f) ->
    (forall s, label_drawn ps s <-> label_drawn ps' s) -> (forall s, name_drawn ps s <-> name_drawn ps' s) ->
    fst (run (find f g) w) = fst (run (find f g') w') /\
    exists out, w_out (snd (run (find f g) w)) = w_out w ++ out /\ w_out (snd (run (find f g') w')) = w_out w' ++ out.
  Proof using data.
    intros R R' P HL HN. destruct (reached_inv data g w ps R) as (G & S & GL & GN & _). destruct (reached_inv data g' w' ps' R') as (G' & S' & GL' & GN' & _).
    assert (EL : forall s, In s (ix_labels (g_ix G)) <-> In s (ix_labels (g_ix G'))) by (intros s; rewrite GL, GL'; apply HL).
    assert (EN : forall s, In s (ix_names (g_ix G)) <-> In s (ix_names (g_ix G'))) by (intros s; rewrite GN, GN'; apply HN).
    pose proof (find_outcome f g (g_ix G) w P (stored_index g G w S)) as O. pose proof (find_outcome f g' (g_ix G') w' P (stored_index g' G' w' S')) as O'. cbv zeta in O, O'.
    assert (KL : (exists s, asked_label (pf_pattern f) s /\ In s (ix_labels (g_ix G))) <-> (exists s, asked_label (pf_pattern f) s /\ In s (ix_labels (g_ix G')))).
    { split; intros (s & A & B); exists s; (split; [exact A|apply EL; exact B]). }
    assert (KN : (exists s, asked_name (pf_pattern f) s /\ In s (ix_names (g_ix G))) <-> (exists s, asked_name (pf_pattern f) s /\ In s (ix_names (g_ix G')))).
    { split; intros (s & A & B); exists s; (split; [exact A|apply EN; exact B]). }
    destruct O as [(F & K & E)|[(F & K & E)|(F & e & E)]]; destruct O' as [(F' & K' & E')|[(F' & K' & E')|(F' & e' & E')]]; try contradiction; try tauto.
    - rewrite E, E'. split; [reflexivity|]. exists []. rewrite !app_nil_r. split; reflexivity.
    - rewrite E, E'. split; [reflexivity|]. exists [NO_RESULTS]. split; reflexivity.
    - split; [|exists []; rewrite E, E', !app_nil_r; split; reflexivity].
      rewrite !run_find. rewrite run_find in E. destruct (process_parsed_find f) as [fp|x] eqn:PF; [|reflexivity]. exfalso.
      unfold process_parsed_find in PF. destruct (process_find (pf_pattern f) P) as [(FF & _)|(_ & y & EY)]; [contradiction|]. rewrite EY in PF. discriminate PF.
  Qed.
  Theorem same_patterns g w ps g' w' ps' f : reached g w ps -> reached g' w' ps' -> is_pattern (pf_pattern f) -> (forall p, In p ps <-> In p ps') ->
    fst (run (find f g) w) = fst (run (find f g') w') /\
    exists out, w_out (snd (run (find f g) w)) = w_out w ++ out /\ w_out (snd (run (find f g') w')) = w_out w' ++ out.
  Proof using data.
    intros R R' P H. apply (same_answers g w ps g' w' ps' f R R' P); intros s; (split; intros (p & x & I & X); exists p, x; (split; [apply H; exact I|exact X])).
  Qed.
End Same.
