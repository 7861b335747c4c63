(** * RunsFacts: runs of the whole program *)
From Verif Require Import PyBase BaseFacts RtLaws Json FS FSFacts Store SpecStore Query Gdbms SpecShell SpecGdbms GdbmsFacts Confine ShellFacts BesideFacts SpecSound SoundFacts SpecRuns.

(** the output does not matter *)
Definition but_out (w w1 : world) : Prop := w_fs w = w_fs w1 /\ w_in w = w_in w1.
Lemma exec_but_out c w w1 : but_out w w1 -> fst (exec c w) = fst (exec c w1) /\ but_out (snd (exec c w)) (snd (exec c w1)).
Proof.
  intros [E1 E2]. unfold but_out. destruct c; cbn [exec]; rewrite ?E1, ?E2;
    repeat match goal with |- context [match ?x with _ => _ end] => destruct x eqn:? end; cbn [fst snd w_fs w_in with_fs]; (split; [reflexivity|split; congruence]).
Qed.
Lemma run_but_out {A} (m : io A) : forall w w1, but_out w w1 -> fst (run m w) = fst (run m w1) /\ but_out (snd (run m w)) (snd (run m w1)).
Proof.
  induction m as [a|e|c k IH]; intros w w1 E; cbn [run]; [split; auto|split; auto|].
  destruct (exec_but_out c w w1 E) as [E1 E2]. destruct (exec c w) as [r v], (exec c w1) as [r1 v1]. cbn [fst snd] in *. subst r1. apply IH. exact E2.
Qed.

Section RunsFacts.
  Context {rt : PyRt}.

  Lemma executed_exists lines : exists qs, Executed lines qs.
  Proof.
    induction lines as [|line r (qs & IH)]; [eexists; constructor|].
    destruct (str_eq_dec line (py "q")) as [-> |N]; [eexists; apply ex_quit|].
    destruct (contains (py "help") (str_lower line)) eqn:H.
    - exists qs. apply ex_help; auto. apply contains_app in H. exact H.
    - exists (line :: qs). apply ex_query; auto. unfold mentions_help. rewrite <- contains_app, H. discriminate.
  Qed.
  Lemma executed_unique lines qs : Executed lines qs -> forall qs', Executed lines qs' -> qs' = qs.
  Proof.
    induction 1 as [|r|line r qs N H E IH|line r qs N H E IH]; intros qs' X; inversion X; subst; try congruence; try contradiction; auto.
    f_equal. auto.
  Qed.

  Lemma session_fs g qs : forall w w1, w_fs w = w_fs w1 ->
    fst (session g qs w) = fst (session g qs w1) /\ w_fs (snd (session g qs w)) = w_fs (snd (session g qs w1)).
  Proof.
    induction qs as [|q qs IH]; intros w w1 E; cbn [session]; [auto|].
    destruct (run_fs (the_files g) (query q g) w w1 (only_query q g) E) as [E1 E2].
    destruct (run (query q g) w) as [r v], (run (query q g) w1) as [r1 v1]. cbn [fst snd] in *. subst r1.
    specialize (IH v v1 E2). destruct (session g qs v) as [rs x], (session g qs v1) as [rs1 x1]. cbn [fst snd] in *. destruct IH as [-> ->]. auto.
  Qed.
  Lemma shell_executes g w r w' : Session g w r w' -> forall qs, Executed (w_in w) qs -> w_fs w' = w_fs (snd (session g qs w)).
  Proof.
    assert (Q : forall line r w qs r1 w1 w' x, run (query line g) (says (echo line) (rest r w)) = (r1, w1) ->
      (forall qs, Executed r qs -> w_fs w' = w_fs (snd (session g qs w1))) -> Executed r qs -> x = session g (line :: qs) w ->
      w_fs w' = w_fs (snd x)).
    { intros line r0 w0 qs r1 w1 w'0 x RQ IH E ->. rewrite (IH qs E). cbn [session].
      destruct (run_fs (the_files g) (query line g) (says (echo line) (rest r0 w0)) w0 (only_query line g) eq_refl) as [E1 E2].
      rewrite RQ in E1, E2. destruct (run (query line g) w0) as [r2 w2]. cbn [fst snd] in *.
      destruct (session_fs g qs w1 w2 E2) as [_ X]. destruct (session g qs w2) as [rs w3]. cbn [snd] in *. exact X. }
    induction 1 as [w E|w r E|w line r res w' E N H S IH|w line r b w1 res w' E N H RQ S IH|w line r e w1 res w' E N H RQ S IH]; rewrite E; intros qs X.
    - inversion X; subst. reflexivity.
    - inversion X; subst; try congruence. reflexivity.
    - inversion X; subst; try congruence; try contradiction. cbn [says rest w_in] in IH. rewrite (IH qs) by assumption.
      apply session_fs. reflexivity.
    - inversion X; subst; try congruence; try contradiction.
      pose proof (query_keeps_input line g (says (echo line) (rest r w))) as K. rewrite RQ in K. cbn [snd says rest w_in] in K. rewrite K in IH.
      eapply Q; [exact RQ|exact IH|eassumption|reflexivity].
    - inversion X; subst; try congruence; try contradiction.
      pose proof (query_keeps_input line g (says (echo line) (rest r w))) as K. rewrite RQ in K. cbn [snd says rest w_in] in K.
      cbn [says w_in] in IH. rewrite K in IH. eapply Q; [exact RQ| |eassumption|reflexivity].
      intros qs1 X1. rewrite (IH qs1 X1). apply session_fs. reflexivity.
  Qed.

  Lemma start_run fuel folder w : exists w0, but_out w w0 /\
    run (start_wiggle_shell fuel folder) w =
    match run (select_gdbms fuel folder) w0 with
    | (Err e, w1) => (Err e, w1)
    | (Ok g, w1) => run (shell_loop fuel g) (says (py "Using ") w1)
    end.
  Proof.
    eexists. split; [|unfold start_wiggle_shell; cbn [print_all do_unit io_bind run exec]; rewrite run_bind; cbn [w_fs w_in w_out];
      match goal with |- context [run (select_gdbms fuel folder) ?x] => instantiate (1 := x); destruct (run (select_gdbms fuel folder) x) as [[g|e] w1]; [|reflexivity] end; reflexivity].
    split; reflexivity.
  Qed.
  (** input is only consumed *)
  Definition shorter (w w' : world) : Prop := List.length (w_in w') <= List.length (w_in w).
  Lemma run_shorter {A} (m : io A) : forall w, shorter w (snd (run m w)).
  Proof.
    induction m as [a|e|c k IH]; intros w; cbn [run]; [apply le_n|apply le_n|].
    assert (X : shorter w (snd (exec c w))).
    { destruct c; try (unfold shorter; rewrite exec_keeps_in by discriminate; apply le_n). unfold shorter. cbn [exec]. destruct (w_in w) eqn:E; cbn [snd w_in List.length]; rewrite ?E; cbn [List.length]; lia. }
    destruct (exec c w) as [r v]. cbn [snd] in X. specialize (IH r v). unfold shorter in *. lia.
  Qed.

  Theorem a_run fuel folder w : List.length (w_in w) < fuel ->
    let r := run (start_wiggle_shell fuel folder) w in
    match run (select_gdbms fuel folder) w with
    | (Err e, w1) => fst r = Err e /\ w_fs (snd r) = w_fs w1 /\ kept w (snd r)
    | (Ok g, w1) => exists qs, Executed (w_in w1) qs /\ w_fs (snd r) = w_fs (snd (session g qs w1)) /\
        (fst r = Ok tt /\ In (py "q") (w_in w1) \/ fst r = Err EOFError /\ ~ In (py "q") (w_in w1)) /\
        (forall p e, entry_at p w = Some e -> ~ In p (the_files g) -> entry_at p (snd r) = Some e)
    end.
  Proof.
    intros L r. subst r. destruct (start_run fuel folder w) as (w0 & B & ->). pose proof (select_kept fuel folder w) as KW.
    destruct (run_but_out (select_gdbms fuel folder) w w0 B) as [E1 [E2 E3]].
    pose proof (run_shorter (select_gdbms fuel folder) w) as LS. unfold shorter in LS.
    destruct (run (select_gdbms fuel folder) w) as [[g|e] w1], (run (select_gdbms fuel folder) w0) as [r1 w1']; cbn [fst snd] in *; subst r1.
    - destruct (executed_exists (w_in w1)) as (qs & X). exists qs. split; [exact X|].
      assert (SS : Session g (says (py "Using ") w1') (fst (run (shell_loop fuel g) (says (py "Using ") w1'))) (snd (run (shell_loop fuel g) (says (py "Using ") w1'))))
        by (apply shell_session; cbn [says w_in]; rewrite <- E3; lia).
      rewrite E3 in X. pose proof (shell_executes _ _ _ _ SS qs X) as F. split; [|split].
      + rewrite F. apply session_fs. cbn [says w_fs]. congruence.
      + rewrite E3. destruct (session_ends _ _ _ _ SS) as [(b & a & EI & _ & R & _)|(NI & R & _)]; cbn [says w_in] in *; [left|right]; (split; [exact R|]); [|exact NI].
        rewrite EI. apply in_or_app. right. left. reflexivity.
      + intros p e He NI. unfold entry_at. rewrite (session_frame _ _ _ _ SS p NI). cbn [says w_fs]. rewrite <- E2. apply KW. exact He.
    - cbn [fst snd]. split; [reflexivity|]. split; [symmetry; exact E2|]. intros p e' He. unfold entry_at. rewrite <- E2. apply KW. exact He.
  Qed.

  Lemma files_same g : files_of g = the_files g.
  Proof. reflexivity. Qed.
  Lemma stored_same g G w w' : (forall p, In p (files_of g) -> entry_at p w' = entry_at p w) -> stored g G w -> stored g G w'.
  Proof.
    intros E [A B C (st & X) Y]. unfold entry_at in E. constructor; auto; unfold file_is in *.
    - rewrite E by (cbn; auto). exact C.
    - exists st. rewrite E by (cbn; auto). exact X.
    - rewrite E by (cbn; auto). exact Y.
  Qed.
  Lemma chosen_by_letter fuel folder w y s n lines G : y = py "y" \/ y = py "yes" -> offered folder w s n -> plain n ->
    w_in w = y :: s :: lines -> stored (graph_at folder n) G w -> 0 < fuel ->
    exists o, run (select_gdbms fuel folder) w = (Ok (graph_at folder n), {| w_fs := w_fs w; w_in := lines; w_out := o |}).
  Proof.
    intros Y (DK & DR & l & i & M & I & -> & NE) P E S L. destruct fuel as [|f]; [lia|]. unfold select_gdbms. rewrite run_bind, input_run, E.
    assert (B : (str_eqb y (py "y") || str_eqb y (py "yes"))%bool = true) by (destruct Y as [-> | ->]; reflexivity). rewrite B.
    set (w1 := {| w_fs := w_fs w; w_in := letter i :: lines; w_out := w_out w |}). assert (SD : same_disk w w1) by reflexivity.
    rewrite (choose folder w1 l i n lines f); [eexists; reflexivity|exact (disk_same _ _ SD DK)|exact (is_a_dir_same _ _ _ SD DR)|exact (menu_same _ _ _ _ SD M)|exact I|exact NE|exact P| |reflexivity].
    intros p Hp. destruct S as [_ _ C (st & X) Z]. unfold entry_at, file_is in *. cbn [w1 w_fs].
    cbn in Hp. destruct Hp as [<-|[<-|[<-|[]]]]; eauto.
  Qed.
  Theorem accumulate (D : rt_data rt) folder n rs w w' : plain n -> runs folder n rs w w' ->
    forall G, stored (graph_at folder n) G w -> sound G -> (forall r, In r rs -> ~ corrupting r) ->
    exists G' more, stored (graph_at folder n) G' w' /\ sound G' /\ g_db G' = g_db G ++ more /\ (g_next G <= g_next G')%Z.
  Proof.
    intros P. induction 1 as [w|w y s lines qs fuel r w1 w2 w3 rs Y O E X L R SF H IH]; intros G S So C.
    - exists G, []. rewrite app_nil_r. auto using Z.le_refl.
    - assert (L0 : 0 < fuel) by lia.
      destruct (chosen_by_letter fuel folder w y s n lines G Y O P E S L0) as (o & RS).
      pose proof (a_run fuel folder w L) as A. cbv zeta in A. rewrite RS, R in A. cbn [fst snd w_in] in A. destruct A as (qs' & X' & F & _ & _).
      rewrite (executed_unique _ _ X _ X') in F.
      destruct (session_fs (graph_at folder n) qs {| w_fs := w_fs w; w_in := lines; w_out := o |} w eq_refl) as [_ F2]. rewrite F2 in F.
      destruct (session_sound D (graph_at folder n) qs G w S So) as (G1 & m1 & S1 & So1 & D1 & N1).
      { intros r0 Hr. apply C. apply in_or_app. left. exact Hr. }
      assert (S2 : stored (graph_at folder n) G1 w2).
      { eapply stored_same; [exact SF|]. eapply stored_same; [|exact S1]. intros p _. unfold entry_at. rewrite F. reflexivity. }
      destruct (IH G1 S2 So1) as (G2 & m2 & S3 & So2 & D2 & N2). { intros r0 Hr. apply C. apply in_or_app. right. exact Hr. }
      exists G2, (m1 ++ m2). split; [exact S3|]. split; [exact So2|]. split; [rewrite D2, D1, app_assoc; reflexivity|lia].
  Qed.

  (** the first run creates the graph *)
  Theorem first_run (D : rt_data rt) fuel folder n c lines qs w r w' : plain n -> no_nul folder -> disk w -> dir_there folder w ->
    (entry_at (folder ++ [n]) w = None \/ entry_at (folder ++ [n]) w = Some EDir) ->
    (forall p, In p (files_of (graph_at folder n)) -> entry_at p w = None) ->
    c <> py "y" -> c <> py "yes" -> w_in w = c :: n :: lines -> Executed lines qs -> List.length (w_in w) < fuel ->
    run (start_wiggle_shell fuel folder) w = (r, w') ->
    let w1 := snd (run (select_gdbms fuel folder) w) in
    stored (graph_at folder n) SpecGdbms.empty_graph w1 /\
      w_fs w' = w_fs (snd (session (graph_at folder n) qs w1)) /\
      (forall p e, entry_at p w = Some e -> entry_at p w' = Some e) /\
      ((forall x, In x (fst (session (graph_at folder n) qs w1)) -> ~ corrupting x) ->
       exists G', stored (graph_at folder n) G' w' /\ sound G').
  Proof.
    intros P NN DK T HF HN C1 C2 E X L R ww. subst ww. destruct fuel as [|f]; [lia|].
    destruct (new_by_dialogue f folder n c lines w P NN DK T HF HN C1 C2 E) as (w1 & RS & S & I & K).
    pose proof (a_run (Datatypes.S f) folder w L) as A. cbv zeta in A. rewrite RS, R in A. cbn [fst snd] in A. destruct A as (qs' & X' & F & _ & KP).
    rewrite I in X'. rewrite (executed_unique _ _ X _ X') in F. rewrite RS. cbn [snd]. split; [exact S|]. split; [exact F|]. split.
    - intros p e He. apply KP; [exact He|]. intros HI. rewrite (HN p HI) in He. discriminate.
    - intros NC. assert (So : sound SpecGdbms.empty_graph) by (apply empty_sound; repeat split).
      destruct (session_sound D (graph_at folder n) qs SpecGdbms.empty_graph w1 S So NC) as (G1 & m1 & S1 & So1 & _).
      exists G1. split; [|exact So1]. eapply stored_same; [|exact S1]. intros p _. unfold entry_at. rewrite F. reflexivity.
  Qed.
End RunsFacts.
