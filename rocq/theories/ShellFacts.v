(** * ShellFacts: the interactive loop (C46) *)
From Verif Require Import PyBase BaseFacts FS FSFacts Store Query SpecShell Confine.

Section ShellFacts.
  Context {rt : PyRt}.

  Lemma query_keeps_input q g w : w_in (snd (run (query q g) w)) = w_in w.
  Proof. apply (only_run_frame (the_files g) (query q g) w (only_query q g)). Qed.

  Lemma shell_step n g w line r : w_in w = line :: r -> run (shell_loop (S n) g) w =
    if str_eqb line (py "q") then (Ok tt, says (py "Good Bye!") (says (echo line) (rest r w)))
    else if contains (py "help") (str_lower line)
    then run (shell_loop n g) (says (py "A helpful guide is on the way!" ++ [10%N]) (says (echo line) (rest r w)))
    else match run (query line g) (says (echo line) (rest r w)) with
         | (Ok _, w1) => run (shell_loop n g) w1
         | (Err e, w1) => run (shell_loop n g) (says (py "error") w1)
         end.
  Proof.
    intros E. cbn [shell_loop]. rewrite run_bind. unfold do_text. cbn [run exec]. rewrite E. cbn [run].
    rewrite run_bind. cbn [do_unit run exec]. change {| w_fs := w_fs _; w_in := _; w_out := _ |} with (says (echo line) (rest r w)).
    destruct (str_eqb line (py "q")); [reflexivity|]. destruct (contains (py "help") (str_lower line)).
    - rewrite run_bind. reflexivity.
    - rewrite run_bind, run_catch. destruct (run (query line g) (says (echo line) (rest r w))) as [[b|e] w1]; reflexivity.
  Qed.

  Theorem shell_session g : forall n w, List.length (w_in w) < n ->
    Session g w (fst (run (shell_loop n g) w)) (snd (run (shell_loop n g) w)).
  Proof.
    induction n as [|n IH]; intros w L; [lia|]. destruct (w_in w) as [|line r] eqn:E.
    - cbn [shell_loop]. rewrite run_bind. unfold do_text. cbn [run exec]. rewrite E. cbn [run fst snd]. constructor. exact E.
    - rewrite (shell_step n g w line r E). cbn [List.length] in L.
      destruct (str_eqb line (py "q")) eqn:Q.
      { apply str_eqb_eq in Q. subst line. apply quit. exact E. }
      apply str_eqb_neq in Q. destruct (contains (py "help") (str_lower line)) eqn:H.
      + apply contains_app in H. eapply help; [exact E|exact Q|exact H|]. apply IH. cbn [says rest w_in]. lia.
      + assert (NH : ~ mentions_help line) by (unfold mentions_help; rewrite <- contains_app, H; discriminate).
        pose proof (query_keeps_input line g (says (echo line) (rest r w))) as K. cbn [says rest w_in] in K.
        destruct (run (query line g) (says (echo line) (rest r w))) as [[b|e] w1] eqn:RQ; cbn [snd] in K.
        * eapply query_succeeds; [exact E|exact Q|exact NH|exact RQ|]. apply IH. rewrite K. lia.
        * eapply query_fails; [exact E|exact Q|exact NH|exact RQ|]. apply IH. cbn [says w_in]. rewrite K. lia.
  Qed.
  Theorem session_unique g w r w' : Session g w r w' -> forall r2 w2, Session g w r2 w2 -> r2 = r /\ w2 = w'.
  Proof.
    induction 1 as [w E|w r E|w line r res w' E N H S IH|w line r b w1 res w' E N H RQ S IH|w line r e w1 res w' E N H RQ S IH];
      intros r2 w2 S2;
      destruct S2 as [w E'|w r' E'|w line' r' res' w'' E' N' H' S'|w line' r' b' w1' res' w'' E' N' H' RQ' S'|w line' r' e' w1' res' w'' E' N' H' RQ' S'];
      rewrite E in E'; try discriminate E'; try (inv E'; auto; fail); inv E'; try congruence; try contradiction; auto; rewrite RQ in RQ'; inv RQ'; auto.
  Qed.

  (** the loop ends with the line q or with the end of the input *)
  Theorem session_ends g w r w' : Session g w r w' ->
    (exists before after, w_in w = before ++ py "q" :: after /\ ~ In (py "q") before /\ r = Ok tt /\ w_in w' = after) \/
    (~ In (py "q") (w_in w) /\ r = Err EOFError /\ w_in w' = []).
  Proof.
    assert (C : forall line (rs : list pystr) r w', line <> py "q" ->
      ((exists before after, rs = before ++ py "q" :: after /\ ~ In (py "q") before /\ r = Ok tt /\ w_in w' = after) \/
       (~ In (py "q") rs /\ r = Err EOFError /\ w_in w' = [])) ->
      (exists before after, line :: rs = before ++ py "q" :: after /\ ~ In (py "q") before /\ r = @Ok unit tt /\ w_in w' = after) \/
      (~ In (py "q") (line :: rs) /\ r = Err EOFError /\ w_in w' = [])).
    { intros line rs r0 w0 N [(b & a & -> & NI & H)|(NI & H)]; [left|right].
      - exists (line :: b), a. split; [reflexivity|]. split; [|exact H]. intros [X|X]; [congruence|contradiction].
      - split; [|exact H]. intros [X|X]; [congruence|contradiction]. }
    induction 1 as [w E|w r E|w line r res w' E N H S IH|w line r b w1 res w' E N H RQ S IH|w line r e w1 res w' E N H RQ S IH]; rewrite E.
    - right. auto.
    - left. exists [], r. auto.
    - apply C; [exact N|]. exact IH.
    - apply C; [exact N|]. pose proof (query_keeps_input line g (says (echo line) (rest r w))) as K. rewrite RQ in K. cbn [snd says rest w_in] in K. rewrite K in IH. exact IH.
    - apply C; [exact N|]. pose proof (query_keeps_input line g (says (echo line) (rest r w))) as K. rewrite RQ in K. cbn [snd says rest w_in] in K.
      cbn [says w_in] in IH. rewrite K in IH. exact IH.
  Qed.
  (** lines with the word help change no file *)
  Theorem help_changes_nothing g w r w' : Session g w r w' -> Forall (fun l => l = py "q" \/ mentions_help l) (w_in w) -> w_fs w' = w_fs w.
  Proof.
    induction 1 as [w E|w r E|w line r res w' E N H S IH|w line r b w1 res w' E N H RQ S IH|w line r e w1 res w' E N H RQ S IH]; rewrite E; intros F; try reflexivity.
    - inv F. apply IH. assumption.
    - inv F. destruct H2; contradiction.
    - inv F. destruct H2; contradiction.
  Qed.
  Theorem session_frame g w r w' : Session g w r w' -> forall p, ~ In p (the_files g) -> fs_get p (w_fs w') = fs_get p (w_fs w).
  Proof.
    induction 1 as [w E|w r E|w line r res w' E N H S IH|w line r b w1 res w' E N H RQ S IH|w line r e w1 res w' E N H RQ S IH]; intros p I; try reflexivity.
    - apply (IH p I).
    - rewrite (IH p I). pose proof (only_run_frame (the_files g) _ (says (echo line) (rest r w)) (only_query line g)) as [F _]. rewrite RQ in F. apply F, I.
    - rewrite (IH p I). pose proof (only_run_frame (the_files g) _ (says (echo line) (rest r w)) (only_query line g)) as [F _]. rewrite RQ in F. apply F, I.
  Qed.
End ShellFacts.
