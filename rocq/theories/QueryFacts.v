(** * QueryFacts: FIND and REPORT statements, whole queries, the shell (C40-C44, C46) *)
From Verif Require Import PyBase BaseFacts Regex RegexSpec RegexFacts RegexMore Patterns Json SpecJson RtLaws Props Checks ChecksFacts SpecText SpecPattern SpecGrammar
  Statements PatternFacts GrammarFacts StatementFacts AcceptFacts AcceptMore FS FSFacts Store SpecStore StoreFacts Make SpecMake MakeFacts Find Query SpecFind FindFacts HistoryFacts.
From Coq Require Import ZifyBool ZifyN ZifyNat.

Section QueryFacts.
  Context {rt : PyRt}.

  (** ** extraction is a function *)
  Lemma Extracted_unique P q ms : Extracted P q ms -> forall ms', Extracted P q ms' -> ms = ms'.
  Proof.
    induction 1 as [|x q ms N E IH|m q ms Pm Nm Mx E IH]; intros ms' H.
    - remember ([] : pystr) as s eqn:Es. destruct H as [|x q ms N E|m q ms Pm Nm Mx E]; [reflexivity|discriminate|].
      apply app_eq_nil in Es as [-> _]. congruence.
    - remember (x :: q) as s eqn:Es. destruct H as [|x' q' ms' N' E'|m q' ms' Pm Nm Mx E']; [discriminate| |].
      + injection Es as -> ->. auto.
      + exfalso. apply (N m q'); auto.
    - remember (m ++ q) as s eqn:Es. destruct H as [|x' q' ms' N' E'|m' q' ms' Pm' Nm' Mx' E'].
      + symmetry in Es. apply app_eq_nil in Es as [-> _]. congruence.
      + exfalso. apply (N' m q); auto.
      + pose proof (Mx m' q' eq_refl Pm') as L1. pose proof (Mx' m q Es Pm) as L2.
        assert (HM : m' = m /\ q' = q).
        { assert (L : List.length m' = List.length m) by lia. split.
          - apply (f_equal (firstn (List.length m'))) in Es. rewrite firstn_app, Nat.sub_diag, firstn_all in Es. cbn in Es.
            rewrite L in Es. rewrite firstn_app, Nat.sub_diag, firstn_all in Es. cbn in Es. rewrite !app_nil_r in Es. exact Es.
          - apply (f_equal (skipn (List.length m'))) in Es. rewrite skipn_app, Nat.sub_diag, skipn_all in Es. cbn in Es.
            rewrite L in Es. rewrite skipn_app, Nat.sub_diag, skipn_all in Es. cbn in Es. exact Es. }
        destruct HM as [-> ->]. f_equal. auto.
  Qed.

  (** ** REPORT *)
  Lemma report_exact rep : ReportStatement (py "REPORT") rep ->
    (re_match report_field rep = true <-> starts (py "REPORT") rep \/ starts (py "report") rep).
  Proof.
    intros (k & body & -> & K & NB & NN). pose proof (Ci_length _ _ K) as Lk. rewrite re_match_Lang. split.
    - intros (w & rest & d & E & L). unfold report_field in L. apply Lang_cats_cons in L as (u & v & c & d' & -> & -> & L & _).
      apply Lang_alt in L as [L|L]; apply Lang_lit in L as [-> _]; [left|right]; rewrite E, <- app_assoc; eexists; reflexivity.
    - intros HK. assert (k = py "REPORT" \/ k = py "report") as HK' by (destruct HK as [H|H]; [left|right]; eapply starts_same; try exact H; exact Lk).
      exists (k ++ body ++ py ";"), [], []. split; [rewrite app_nil_r; reflexivity|].
      unfold report_field. apply Lang_cats_cons. exists k, (body ++ py ";"), [], []. split; [reflexivity|]. split; [reflexivity|].
      split. { apply Lang_alt. destruct HK' as [-> | ->]; [left|right]; apply Lang_lit; auto. }
      apply Lang_cats_cons. exists body, (py ";"), [], []. do 2 (split; [reflexivity|]). split.
      { apply Lang_Plus. split; [exact NB|]. split; [|reflexivity]. apply Forall_forall. intros x Hx. unfold not_nl.
        destruct (N.eqb_spec x 10); [subst; contradiction|reflexivity]. }
      apply Lang_cats_cons. exists (py ";"), [], [], []. do 2 (split; [reflexivity|]). split; [apply Lang_ch; auto|]. apply Lang_cats_nil. auto.
  Qed.
  Lemma check_handles_cases hs rep :
    ((forall h, In h hs -> exists a b, rep = a ++ h ++ b) /\ check_find_report_handles hs rep = Ok tt) \/
    ((exists h, In h hs /\ ~ exists a b, rep = a ++ h ++ b) /\ check_find_report_handles hs rep = Err FindReportHandleMissmatch).
  Proof.
    unfold check_find_report_handles. induction hs as [|h hs IH]; [left; split; [intros h []|reflexivity]|]. cbn [forM].
    destruct (contains h rep) eqn:E.
    - apply contains_app in E. cbn [bind]. destruct IH as [[A B]|[(h' & I & A) B]]; [left|right]; (split; [|exact B]).
      + intros h' [<-|I]; auto.
      + exists h'. split; [right; exact I|exact A].
    - right. split; [|reflexivity]. exists h. split; [left; reflexivity|]. rewrite <- contains_app, E. discriminate.
  Qed.
  Theorem report_cases q rep hs : Extracted (ReportStatement (py "REPORT")) q [rep] ->
    let spelt := starts (py "REPORT") rep \/ starts (py "report") rep in
    ((forall h, In h hs -> exists a b, rep = a ++ h ++ b) /\ spelt /\ parse_report q hs = Ok (Some {| pr_raw := rep; pr_extracted := rep |})) \/
    ((forall h, In h hs -> exists a b, rep = a ++ h ++ b) /\ ~ spelt /\ parse_report q hs = Err ValidationError) \/
    ((exists h, In h hs /\ ~ exists a b, rep = a ++ h ++ b) /\ parse_report q hs = Err FindReportHandleMissmatch).
  Proof.
    intros E spelt. assert (S : ReportStatement (py "REPORT") rep) by (pose proof (extracted_statements _ _ _ E) as F; inv F; assumption).
    unfold parse_report. rewrite (extraction_exact q REPORT [rep]); [|discriminate|discriminate|exact E]. cbn [bind].
    destruct (check_handles_cases hs rep) as [[A ->]|[A ->]]; cbn [bind]; [|auto].
    pose proof (report_exact rep S) as HR. fold spelt in HR. destruct (re_match report_field rep); [left|right; left]; intuition discriminate.
  Qed.
  Theorem report_absent q hs : Extracted (ReportStatement (py "REPORT")) q [] -> ~ Misspelt REPORT q -> parse_report q hs = Ok None.
  Proof.
    intros E M. unfold parse_report. destruct (extract_cases q REPORT) as [(ms & N & E' & ->)|(E' & [[X ->]|[X ->]])]; cbn [bind]; try reflexivity; try discriminate.
    - exfalso. apply N. eapply Extracted_unique; eassumption.
    - contradiction.
  Qed.

  (** ** C42 *)
  Theorem two_finds q ms g w : Extracted (Statement (py "FIND")) q ms -> 2 <= List.length ms ->
    parse_find q = Err MultipleClauseStatementsError /\
    exists e, run (query q g) w = (Err e, w) /\ (forall m, parse_make q = Ok m -> e = MultipleClauseStatementsError).
  Proof.
    intros E L. assert (H : parse_find q = Err MultipleClauseStatementsError).
    { unfold parse_find. rewrite (extraction_exact q FIND ms); [|discriminate|destruct ms; cbn in L; [lia|discriminate]|exact E].
      cbn [bind]. destruct ms as [|a [|b ms]]; cbn in L; [lia|lia|]. reflexivity. }
    split; [exact H|]. unfold query, parse_query_string. rewrite run_bind, run_lift.
    destruct (parse_make q) as [m|e]; cbn [bind]; [rewrite H; cbn [bind]; eauto|]. exists e. split; [reflexivity|discriminate].
  Qed.
  Theorem two_reports q ms g w : Extracted (ReportStatement (py "REPORT")) q ms -> 2 <= List.length ms ->
    (forall hs, parse_report q hs = Err MultipleClauseStatementsError) /\
    exists e, run (query q g) w = (Err e, w) /\
      (forall m f, parse_make q = Ok m -> parse_find q = Ok (Some f) -> e = MultipleClauseStatementsError).
  Proof.
    intros E L. assert (H : forall hs, parse_report q hs = Err MultipleClauseStatementsError).
    { intros hs. unfold parse_report. rewrite (extraction_exact q REPORT ms); [|discriminate|destruct ms; cbn in L; [lia|discriminate]|exact E].
      cbn [bind]. destruct ms as [|a [|b ms]]; cbn in L; [lia|lia|]. reflexivity. }
    split; [exact H|]. unfold query, parse_query_string. rewrite run_bind, run_lift.
    destruct (parse_make q) as [m|e]; cbn [bind]; [|eexists; split; [reflexivity|discriminate]].
    destruct (parse_find q) as [[f|]|e]; cbn [bind]; [rewrite H; cbn [bind]; eauto| |]; eexists; (split; [reflexivity|discriminate]).
  Qed.

  (** ** C43 *)
  Theorem no_find_no_effect q g w : Extracted (Statement (py "FIND")) q [] -> exists e, run (query q g) w = (Err e, w).
  Proof.
    intros E. unfold query, parse_query_string. rewrite run_bind, run_lift.
    destruct (parse_make q) as [m|e]; cbn [bind]; [|eauto].
    unfold parse_find. destruct (extract_cases q FIND) as [(ms & N & E' & ->)|(E' & [[X ->]|[X ->]])]; cbn [bind]; try discriminate; eauto.
    exfalso. apply N. eapply Extracted_unique; eassumption.
  Qed.

  (** ** C44 *)
  Theorem parse_error_no_effect q g w e : parse_query_string q = Err e -> run (query q g) w = (Err e, w).
  Proof. intros E. unfold query. rewrite run_bind, run_lift, E. reflexivity. Qed.
  Theorem make_then_find q g w l f rp : parse_make q = Ok (Some l) -> parse_find q = Ok (Some f) ->
    parse_report q (pattern_handles (pf_pattern f)) = Ok rp ->
    l <> [] /\
    (forall e w1, run (make l g) w = (Err e, w1) -> run (query q g) w = (Err e, w1)) /\
    (forall b w1 e w2, run (make l g) w = (Ok b, w1) -> run (find f g) w1 = (Err e, w2) -> w2 = w1 /\ run (query q g) w = (Err e, w1)) /\
    (forall b w1 r w2, run (make l g) w = (Ok b, w1) -> run (find f g) w1 = (Ok r, w2) -> run (query q g) w = (Ok true, w2)).
  Proof.
    intros EM EF ER. assert (N : l <> []).
    { unfold parse_make in EM. destruct (extract_all_statements q MAKE) as [[ms|]|e] eqn:X; cbn [bind] in EM; try discriminate.
      destruct (validate_statement ms); cbn [bind] in EM; [|discriminate].
      destruct (mapM build_parsed_make ms) as [l'|] eqn:Y; cbn [bind] in EM; [|discriminate]. injection EM as ->.
      apply mapM_ok_length in Y. destruct (extract_cases q MAKE ltac:(discriminate)) as [(ms' & N & E' & X')|(E' & [[_ X']|[_ X']])]; try congruence.
      assert (ms' = ms) by congruence. subst. intros ->. apply N. destruct ms; [reflexivity|discriminate]. }
    split; [exact N|]. assert (Q : run (query q g) w =
      match run (make l g) w with
      | (Err e, w1) => (Err e, w1)
      | (Ok _, w1) => match run (find f g) w1 with (Err e, w2) => (Err e, w2) | (Ok _, w2) => (Ok true, w2) end
      end).
    { unfold query, parse_query_string. rewrite run_bind, run_lift, EM. cbn [bind]. rewrite EF. cbn [bind]. rewrite ER. cbn [bind].
      rewrite run_bind. unfold execute_query. cbn [q_make q_find q_report]. destruct l as [|m l]; [congruence|].
      rewrite run_bind. destruct (run (make (m :: l) g) w) as [[b|e] w1]; [|reflexivity].
      rewrite run_bind. destruct (run (find f g) w1) as [[r|e] w2]; [|reflexivity]. rewrite run_bind. destruct rp; reflexivity. }
    assert (RO : forall w1 e w2, run (find f g) w1 = (Err e, w2) -> w2 = w1).
    { intros w1 e w2 H0. rewrite run_find in H0. destruct (process_parsed_find f) as [fp|e']; [|congruence].
      destruct (fst (run (find_short_circuit fp g) w1)) as [[|]|e']; congruence. }
    split; [intros e w1 H; rewrite Q, H; reflexivity|]. split.
    - intros b w1 e w2 H H0. pose proof (RO _ _ _ H0). subst w2. split; [reflexivity|]. rewrite Q, H, H0. reflexivity.
    - intros b w1 r w2 H H0. rewrite Q, H, H0. reflexivity.
  Qed.
  Theorem find_alone q g w f rp : parse_make q = Ok None -> parse_find q = Ok (Some f) ->
    parse_report q (pattern_handles (pf_pattern f)) = Ok rp ->
    run (query q g) w = match run (find f g) w with (Err e, w2) => (Err e, w2) | (Ok _, w2) => (Ok true, w2) end.
  Proof.
    intros EM EF ER. unfold query, parse_query_string. rewrite run_bind, run_lift, EM. cbn [bind]. rewrite EF. cbn [bind]. rewrite ER. cbn [bind].
    rewrite run_bind. unfold execute_query. cbn [q_make q_find q_report]. rewrite run_bind. cbn [run].
    rewrite run_bind. destruct (run (find f g) w) as [[r|e] w2]; [|reflexivity]. rewrite run_bind. destruct rp; reflexivity.
  Qed.

  (** ** C40 *)
  Theorem first_pattern q q' stmt stmt' f f' p l l' :
    Extracted (Statement (py "FIND")) q [stmt] -> Extracted (Statement (py "FIND")) q' [stmt'] ->
    pattern_matches stmt = p :: l -> pattern_matches stmt' = p :: l' ->
    parse_find q = Ok (Some f) -> parse_find q' = Ok (Some f') -> forall g w, run (find f g) w = run (find f' g) w.
  Proof.
    assert (A : forall q stmt f p l, Extracted (Statement (py "FIND")) q [stmt] -> pattern_matches stmt = p :: l -> parse_find q = Ok (Some f) -> pf_pattern f = p).
    { clear. intros q stmt f p l E M H. unfold parse_find in H. rewrite (extraction_exact q FIND [stmt]) in H; [|discriminate|discriminate|exact E].
      cbn [bind List.length Nat.ltb Nat.leb] in H. destruct (validate_statement [stmt]); cbn [bind] in H; [|discriminate].
      destruct (build_parsed_find stmt) as [f'|] eqn:X; cbn [bind] in H; [|discriminate]. injection H as ->.
      apply build_find_pattern in X as (more & X). congruence. }
    intros E E' M M' H H' g w. rewrite !run_find. unfold process_parsed_find.
    rewrite (A _ _ _ _ _ E M H), (A _ _ _ _ _ E' M' H'). reflexivity.
  Qed.
  Theorem no_pattern_raises q stmt g w : Extracted (Statement (py "FIND")) q [stmt] -> pattern_matches stmt = [] ->
    (exists e, parse_find q = Err e) /\ exists e, run (query q g) w = (Err e, w).
  Proof.
    intros E M. assert (H : exists e, parse_find q = Err e).
    { unfold parse_find. rewrite (extraction_exact q FIND [stmt]); [|discriminate|discriminate|exact E].
      cbn [bind List.length Nat.ltb Nat.leb]. destruct (validate_statement [stmt]); cbn [bind]; [|eauto].
      unfold build_parsed_find. rewrite M. cbn [bind]. eauto. }
    split; [exact H|]. destruct H as [e H]. unfold query, parse_query_string. rewrite run_bind, run_lift.
    destruct (parse_make q); cbn [bind]; [|eauto]. rewrite H. cbn [bind]. eauto.
  Qed.

  Theorem written_first_pattern (R : rt_ok rt) kw b p l l' :
    kw = py "FIND" \/ kw = py "find" -> statement_written ((b, p) :: l) -> passes ((b, p) :: l) ->
    statement_written ((b, p) :: l') -> passes ((b, p) :: l') -> NoDup (given_handles (read_pattern p)) ->
    exists f f', parse_find (show_statement kw ((b, p) :: l)) = Ok (Some f) /\
      parse_find (show_statement kw ((b, p) :: l')) = Ok (Some f') /\
      forall g w, run (find f g) w = run (find f' g) w.
  Proof.
    intros K W P W' P' N. rewrite (find_round_trip R kw b p l K W P N), (find_round_trip R kw b p l' K W' P' N).
    eexists _, _. split; [reflexivity|]. split; [reflexivity|]. intros g w. rewrite !run_find. reflexivity.
  Qed.

  (** a two-node FIND never succeeds *)
  Theorem two_node_query q f g w : parse_find q = Ok (Some f) ->
    drawn (middle_node (pf_pattern f)) = true -> drawn (right_node (pf_pattern f)) = false ->
    exists e, fst (run (query q g) w) = Err e.
  Proof.
    intros E DM DR. pose proof (parse_find_is_pattern q f E) as P.
    assert (B : forall w, exists e w', run (find f g) w = (Err e, w')) by (intros w0; destruct (two_node_find f g w0 P DM DR) as [H|(x & e & _ & _ & H)]; eauto).
    unfold query, parse_query_string. rewrite run_bind, run_lift. destruct (parse_make q) as [m|e]; cbn [bind]; [|eexists; reflexivity]. rewrite E. cbn [bind].
    destruct (parse_report q (pattern_handles (pf_pattern f))) as [rp|e]; cbn [bind]; [|eexists; reflexivity].
    rewrite run_bind. unfold execute_query. cbn [q_make q_find q_report]. rewrite run_bind.
    set (M := match m with Some (m0 :: ms) => make (m0 :: ms) g | _ => Ret true end).
    destruct (run M w) as [[b|e] w1]; cbn [fst]; [|eexists; reflexivity]. rewrite run_bind. destruct (B w1) as (e & w2 & ->). eexists; reflexivity.
  Qed.
End QueryFacts.
