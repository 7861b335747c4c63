(** * WordFacts: proofs about the test for known words *)
From Verif Require Import PyBase BaseFacts Json Data FS Store Query WordTest SpecWords.
From Coq Require Import Lia.

Section WordFacts.
  Context {rt : PyRt}.

  Lemma split_in s : forall acc w, ~ In 32%N acc ->
    (In w (split_blank_from acc s) <->
     (exists s1 s2, s = s1 ++ s2 /\ w = rev acc ++ s1 /\ ~ In 32%N s1 /\ (s2 = [] \/ exists s', s2 = 32%N :: s')) \/
     (exists a b, s = a ++ [32%N] ++ w ++ b /\ ~ In 32%N w /\ (b = [] \/ exists b', b = 32%N :: b'))).
  Proof.
    induction s as [|c s IH]; intros acc w NA; cbn [split_blank_from].
    - split.
      + intros [<-|[]]. left. exists [], []. rewrite (app_nil_r (rev acc)). repeat split; auto.
      + intros [(s1 & s2 & E & -> & _)|(a & b & E & _)].
        * symmetry in E. apply app_eq_nil in E. destruct E as [-> _]. left. now rewrite app_nil_r.
        * destruct a; discriminate.
    - destruct (N.eqb_spec c 32) as [->|NE].
      + cbn [In]. rewrite (IH [] w (fun x => x)). split.
        * intros [<-|[(s1 & s2 & -> & -> & N1 & B)|(a & b & -> & N1 & B)]].
          -- left. exists [], (32%N :: s). rewrite (app_nil_r (rev acc)). repeat split; eauto.
          -- right. exists [], s2. cbn [rev app]. repeat split; auto.
          -- right. exists (32%N :: a), b. repeat split; auto.
        * intros [(s1 & s2 & E & -> & N1 & B)|(a & b & E & N1 & B)].
          -- left. destruct s1 as [|x s1]; [now rewrite app_nil_r|]. injection E as <- _. destruct N1. now left.
          -- right. destruct a as [|x a].
             ++ left. injection E as E. exists w, b. repeat split; auto.
             ++ right. injection E as _ E. exists a, b. repeat split; auto.
      + rewrite (IH (c :: acc) w); [|intros [->|I]; auto]. split.
        * intros [(s1 & s2 & -> & -> & N1 & B)|(a & b & -> & N1 & B)].
          -- left. exists (c :: s1), s2. cbn [rev]. rewrite <- app_assoc. repeat split; auto. intros [->|I]; auto.
          -- right. exists (c :: a), b. repeat split; auto.
        * intros [(s1 & s2 & E & -> & N1 & B)|(a & b & E & N1 & B)].
          -- destruct s1 as [|x s1].
             ++ cbn [app] in E. destruct B as [->|(s' & ->)]; [discriminate|]. injection E as -> _. now destruct NE.
             ++ injection E as <- ->. left. exists s1, s2. cbn [rev]. rewrite <- app_assoc. repeat split; auto. intros I. apply N1. now right.
          -- destruct a as [|x a]; [injection E as -> _; now destruct NE|]. injection E as <- ->. right. exists a, b. repeat split; auto.
  Qed.

  Lemma split_blank_in s w : In w (split_blank s) <-> stands_in w s.
  Proof.
    unfold split_blank. rewrite (split_in s [] w (fun x => x)). unfold stands_in. split.
    - intros [(s1 & s2 & -> & -> & N1 & B)|(a & b & -> & N1 & B)].
      + exists [], s2. cbn [rev app]. repeat split; auto.
      + exists (a ++ [32%N]), b. rewrite <- app_assoc. repeat split; eauto.
    - intros (a & b & -> & N1 & [->|(a' & ->)] & B).
      + left. exists w, b. repeat split; auto.
      + right. exists a', b. rewrite <- app_assoc. repeat split; auto.
  Qed.

  Theorem valid_query_iff q : valid_query q = true <-> exists w, In w known_words /\ stands_in w (str_lower q).
  Proof.
    unfold valid_query. rewrite existsb_exists. change valid_query_set with known_words. split; intros (w & I & H); exists w; (split; [exact I|]).
    - apply split_blank_in. unfold s_mem in H. apply existsb_exists in H. destruct H as (x & Ix & E). apply str_eqb_eq in E. now subst x.
    - apply split_blank_in in H. unfold s_mem. apply existsb_exists. exists w. split; [exact H|]. now apply str_eqb_eq.
  Qed.

  Lemma lower_app a b : str_lower (a ++ b) = str_lower a ++ str_lower b.
  Proof. unfold str_lower. apply flat_map_app. Qed.

  Lemma lower_case w k : in_some_case w k -> Forall (fun c => 97 <= c <= 122)%N w -> str_lower k = w.
  Proof.
    induction 1 as [|c d w k H F IH]; intros L; [reflexivity|]. inversion L as [|? ? Hc L']; subst.
    change (d :: k) with ([d] ++ k). rewrite lower_app, (IH L'). change (c :: w) with ([c] ++ w). f_equal.
    unfold str_lower. cbn [flat_map app]. unfold is_ascii, lower0, is_upper0, between.
    destruct H as [->|(_ & E)].
    - replace (N.ltb c 128) with true by (symmetry; apply N.ltb_lt; lia).
      replace (N.leb 65 c && N.leb c 90) with false; [reflexivity|].
      symmetry. apply andb_false_iff. right. apply N.leb_gt. lia.
    - replace (N.ltb d 128) with true by (symmetry; apply N.ltb_lt; lia).
      replace (N.leb 65 d && N.leb d 90) with true; [now rewrite E|].
      symmetry. apply andb_true_iff. split; apply N.leb_le; lia.
  Qed.

  Lemma known_small w : In w known_words -> Forall (fun c => 97 <= c <= 122)%N w.
  Proof.
    intros I. apply Forall_forall. intros c J.
    assert (B : forallb (fun w => forallb (fun c => N.leb 97 c && N.leb c 122) w) known_words = true) by (vm_compute; reflexivity).
    rewrite forallb_forall in B. specialize (B w I). rewrite forallb_forall in B. specialize (B c J).
    apply andb_true_iff in B. destruct B as (B1 & B2). apply N.leb_le in B1, B2. lia.
  Qed.

  Theorem word_passes w k q : In w known_words -> in_some_case w k -> stands_in k q -> valid_query q = true.
  Proof.
    intros I C (a & b & -> & NB & A & B). apply valid_query_iff. exists w. split; [exact I|].
    rewrite !lower_app, (lower_case w k C (known_small w I)). exists (str_lower a), (str_lower b). split; [reflexivity|].
    split; [|split].
    - intros J. pose proof (proj1 (Forall_forall _ _) (known_small w I) _ J) as X. cbn beta in X. lia.
    - destruct A as [->|(a' & ->)]; [now left|]. right. exists (str_lower a'). now rewrite lower_app.
    - destruct B as [->|(b' & ->)]; [now left|]. right. exists (str_lower b'). reflexivity.
  Qed.

  Theorem test_is_off e q g : query_tested false e q g = query q g.
  Proof. unfold query_tested. now rewrite andb_false_r. Qed.

  Theorem test_if_on e q g w :
    (valid_query q = true -> run (query_tested true e q g) w = run (query q g) w) /\
    (valid_query q = false -> run (query_tested true e q g) w = (Err e, w)).
  Proof. unfold query_tested. split; intros ->; reflexivity. Qed.
End WordFacts.
