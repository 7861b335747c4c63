(** * LinesFacts: queries of several written lines (C67) *)
From Verif Require Import PyBase BaseFacts Json JsonFacts SpecJson Props RtLaws PropsFacts
  SpecText SpecPattern SpecGrammar PatternFacts GrammarFacts Checks ChecksFacts Statements StatementFacts AcceptFacts AcceptMore
  SpecValue FS FSFacts Store SpecStore StoreFacts Make SpecMake MakeFacts MakeFinal Find SpecFind FindFacts Query QueryFacts SpecWhole WholeFacts WholeMore WholeQuery SpecLines.
From Coq Require Import ZifyBool ZifyN ZifyNat Permutation.

Section LinesFacts.
  Context {rt : PyRt} (D : rt_data rt).
  Let R := rt_base _ D.

  (** ** the statements of the lines *)
  Definition same_clause (a b : clause) : bool :=
    match a, b with MAKE, MAKE | FIND, FIND | REPORT, REPORT | CRITERIA, CRITERIA => true | _, _ => false end.
  Lemma same_clause_true a b : same_clause a b = true <-> a = b.
  Proof. destruct a, b; cbn; intuition congruence. Qed.
  Definition of_clause (c : clause) (x : qline) : bool := same_clause (clause_of x) c.
  Definition lines_of (c : clause) (ls : list qline) : list qline := filter (of_clause c) ls.
  Definition flags (c : clause) (ls : list qline) : list (bool * pystr) := map (fun x => (of_clause c x, line_text x)) ls.
  Lemma flags_text c ls : join_lines (map snd (flags c ls)) = query_text ls.
  Proof. unfold flags, query_text. rewrite map_map. reflexivity. Qed.
  Lemma flags_filter c ls : map snd (filter fst (flags c ls)) = map line_text (lines_of c ls).
  Proof. induction ls as [|x ls IH]; [reflexivity|]. unfold flags, lines_of in *. cbn [map filter fst]. destruct (of_clause c x); cbn [map snd]; rewrite IH; reflexivity. Qed.
  Lemma kw_make kw : kw = py "MAKE" \/ kw = py "make" -> Ci (py "MAKE") kw /\ Word kw.
  Proof. intros [-> | ->]; split; first [apply ci_refl_ascii|apply word_kw]. Qed.
  Lemma kw_find kw : kw = py "FIND" \/ kw = py "find" -> Ci (py "FIND") kw /\ Word kw.
  Proof. intros [-> | ->]; split; first [apply ci_refl_ascii|apply word_kw]. Qed.
  Lemma line_statement x : line_drawn x -> no_newline (line_text x) /\ StatementOf (clause_of x) (line_text x).
  Proof.
    destruct x as [kw l|kw l|t]; cbn [line_drawn line_text clause_of StatementOf].
    - intros [K DL]. split; [apply no_nl_statement; tauto|]. apply (written_statement _ kw (texts l)); [apply kw_make, K|apply list_written_, DL].
    - intros [K DL]. split; [apply no_nl_statement; tauto|]. apply (written_statement _ kw (texts l)); [apply kw_find, K|apply list_written_, DL].
    - tauto.
  Qed.
  Lemma lines_found ls c : query_drawn ls -> In c [MAKE; FIND; REPORT] -> Extracted (StatementOf c) (query_text ls) (map line_text (lines_of c ls)).
  Proof.
    intros Q Hc. rewrite <- (flags_text c), <- flags_filter. apply lines_extracted. unfold flags. apply Forall_map. apply Forall_forall. intros x Hx.
    pose proof (qd_lines _ Q) as L. rewrite Forall_forall in L. destruct (line_statement x (L x Hx)) as [N S]. cbn [fst snd]. split; [exact N|].
    destruct (of_clause c x) eqn:E; [apply same_clause_true in E; rewrite <- E; exact S|].
    apply (qd_apart _ Q x c Hx Hc). intros X. apply same_clause_true in X. unfold of_clause in E. congruence.
  Qed.
  Lemma no_lines ls c : lines_of c ls = [] -> forall x, In x ls -> clause_of x <> c.
  Proof.
    intros E x I X. assert (H : In x (lines_of c ls)) by (apply filter_In; split; [exact I|apply same_clause_true; exact X]). rewrite E in H. destruct H.
  Qed.
  Lemma none_taken ls c : query_drawn ls -> In c [MAKE; FIND; REPORT] -> lines_of c ls = [] -> extract_all_statements (query_text ls) c = Ok None.
  Proof.
    intros Q Hc E. pose proof (lines_found ls c Q Hc) as X. rewrite E in X.
    assert (C : c <> CRITERIA) by (intros ->; cbn in Hc; intuition discriminate).
    destruct (extract_cases (query_text ls) c C) as [(ms & N & X' & _)|(_ & [[M _]|[_ H]])]; [| |exact H].
    - exfalso. apply N. eapply Extracted_unique; eassumption.
    - exfalso. exact (qd_spelt _ Q c Hc (no_lines ls c E) M).
  Qed.

  (** ** several statements pass when each of them does *)
  Lemma validate_cons m ms : validate_statement [m] = Ok tt -> validate_statement ms = Ok tt -> validate_statement (m :: ms) = Ok tt.
  Proof.
    unfold validate_statement. intros H1 H2.
    apply bind_ok in H1 as ([] & A1 & H1). apply bind_ok in H1 as ([] & B1 & H1). apply bind_ok in H1 as ([] & C1 & E1).
    apply bind_ok in H2 as ([] & A2 & H2). apply bind_ok in H2 as ([] & B2 & H2). apply bind_ok in H2 as ([] & C2 & E2).
    assert (A : check_statement_syntax (m :: ms) = Ok tt).
    { apply brackets_spec. intros s seg [<-|I] SG; [eapply (proj1 (brackets_spec [m])); [exact A1|left; reflexivity|exact SG]|eapply (proj1 (brackets_spec ms)); eauto]. }
    assert (B : check_illegal_characters (m :: ms) = Ok tt).
    { apply illegal_spec. intros s [<-|I]; [apply (proj1 (proj1 (illegal_spec [m])) B1); left; reflexivity|apply (proj1 (proj1 (illegal_spec ms)) B2); exact I]. }
    assert (C : check_node_rel_properties (m :: ms) = Ok tt).
    { unfold check_node_rel_properties in *. apply forM_ok in C1, C2. apply forM_ok. inv C1. constructor; assumption. }
    rewrite A, B, C. cbn [bind check_relationships] in *. destruct (rel_matches m); [reflexivity|].
    apply bind_ok in E1 as ([] & E1 & _). rewrite E1. exact E2.
  Qed.

  (** ** MAKE *)
  Definition make_text (x : pystr * list (pystr * dpattern)) : pystr := statement_text (fst x) (snd x).
  Fixpoint make_lines (ls : list qline) : list (pystr * list (pystr * dpattern)) :=
    match ls with [] => [] | MakeLine kw l :: ls' => (kw, l) :: make_lines ls' | _ :: ls' => make_lines ls' end.
  Lemma make_lines_texts ls : map line_text (lines_of MAKE ls) = map make_text (make_lines ls).
  Proof. induction ls as [|[kw l|kw l|t] ls IH]; [reflexivity| | |]; unfold lines_of in *; cbn [filter of_clause clause_of same_clause map line_text make_lines]; rewrite IH; reflexivity. Qed.
  Lemma make_lines_made ls : made ls = flat_map snd (make_lines ls).
  Proof. induction ls as [|[kw l|kw l|t] ls IH]; [reflexivity| | |]; unfold made in *; cbn [flat_map make_lines snd]; rewrite IH; reflexivity. Qed.
  Lemma make_lines_in ls kw l : In (kw, l) (make_lines ls) -> In (MakeLine kw l) ls.
  Proof. induction ls as [|[kw' l'|kw' l'|t] ls IH]; cbn [make_lines]; [intros []| | |]; [intros [E|I]; [injection E as -> ->; left; reflexivity|right; auto]| |]; right; auto. Qed.
  Lemma make_lines_drawn ls : query_drawn ls -> Forall (fun x => (fst x = py "MAKE" \/ fst x = py "make") /\ drawn_list (snd x)) (make_lines ls).
  Proof.
    intros Q. apply Forall_forall. intros [kw l] I. apply make_lines_in in I. pose proof (qd_lines _ Q) as L. rewrite Forall_forall in L. exact (L _ I).
  Qed.
  Lemma statement_patterns kw l : Word kw -> drawn_list l -> pattern_matches (statement_text kw l) = map (fun bp => read_pattern (snd bp)) (texts l).
  Proof. intros K DL. apply (patterns_read R); [exact K|]. apply (sw_patterns _ (list_written_ _ DL)). Qed.
  Lemma statement_passes kw l : Word kw -> drawn_list l -> validate_statement [statement_text kw l] = Ok tt.
  Proof. intros K DL. apply (written_passes R); [exact K|apply (list_written_ _ DL)|apply (list_passes D), DL]. Qed.
  Definition parsed_lines (ls : list qline) : list parsed_make := map (fun x => parsed_as (fst x) (snd x)) (make_lines ls).
  Lemma make_lines_parsed ls : query_drawn ls ->
    parse_make (query_text ls) = Ok (match make_lines ls with [] => None | _ => Some (parsed_lines ls) end).
  Proof.
    intros Q. assert (IM : In MAKE [MAKE; FIND; REPORT]) by (left; reflexivity).
    destruct (make_lines ls) as [|x xs] eqn:E.
    - unfold parse_make. rewrite (none_taken ls MAKE Q IM); [reflexivity|]. pose proof (make_lines_texts ls) as T. rewrite E in T. apply map_eq_nil in T. exact T.
    - pose proof (lines_found ls MAKE Q IM) as X. rewrite make_lines_texts in X. pose proof (make_lines_drawn ls Q) as ML.
      destruct (make_keyword_case (query_text ls) (map make_text (make_lines ls))) as [[F EP]|[F EP]].
      + rewrite E. discriminate.
      + exact X.
      + assert (V : validate_statement [] = Ok tt) by reflexivity. revert ML. generalize (make_lines ls).
        intros l. induction l as [|[kw y] l IH]; intros ML; [exact V|]. inv ML. destruct H1 as [K DL]. cbn [map]. apply validate_cons; [|apply IH; assumption].
        apply statement_passes; [apply kw_make, K|exact DL].
      + intros m p I Hp. apply in_map_iff in I as ([kw l] & <- & I). rewrite Forall_forall in ML. destruct (ML _ I) as [K DL]. cbn [fst snd] in *.
        unfold make_text in Hp. cbn [fst snd] in Hp. rewrite statement_patterns in Hp by (try exact DL; apply kw_make, K).
        apply in_map_iff in Hp as (bp & <- & Ib). pose proof (list_distinct _ DL) as H. unfold distinct_handles in H. rewrite Forall_forall in H. exact (H _ Ib).
      + rewrite EP. do 2 f_equal. unfold parsed_lines. rewrite map_map. apply map_ext_in. intros [kw l] I. rewrite Forall_forall in ML. destruct (ML _ I) as [K DL].
        unfold plain, parsed_as, make_text. cbn [fst snd] in *. f_equal. apply statement_patterns; [apply kw_make, K|exact DL].
      + exfalso. apply Exists_exists in F as (m & I & NK). apply in_map_iff in I as ([kw l] & <- & I). rewrite Forall_forall in ML. destruct (ML _ I) as [K _].
        apply NK. unfold exact_kw_make, make_text, statement_text, show_statement. cbn [fst snd] in *. destruct K as [-> | ->]; [left|right]; eexists; reflexivity.
  Qed.
  Lemma parsed_patterns ls : patterns_of (parsed_lines ls) = map (fun bp => read_pattern (snd bp)) (texts (made ls)).
  Proof.
    rewrite make_lines_made. unfold parsed_lines, patterns_of. induction (make_lines ls) as [|[kw l] xs IH]; [reflexivity|].
    cbn [map flat_map fst snd]. rewrite IH. unfold texts. rewrite !map_app. reflexivity.
  Qed.
  Lemma made_drawn ls : query_drawn ls -> Forall (fun bp : pystr * dpattern => Forall node_drawn (nodes_in (snd bp))) (made ls) /\
    Forall (fun bp : pystr * dpattern => Forall rel_drawn (rels_in (snd bp))) (made ls).
  Proof.
    intros Q. pose proof (make_lines_drawn ls Q) as ML. rewrite make_lines_made. induction ML as [|[kw l] xs [_ DL] ML [A B]]; [split; constructor|].
    cbn [flat_map snd] in *. split; apply Forall_app; (split; [apply DL|assumption]).
  Qed.

  (** ** FIND *)
  Lemma filter_none {A} (f : A -> bool) l : (forall x, In x l -> f x = false) -> filter f l = [].
  Proof. induction l as [|x l IH]; intros H; [reflexivity|]. cbn [filter]. rewrite (H x (or_introl eq_refl)). apply IH. intros y I. apply H. right. exact I. Qed.
  Lemma asks_line ls p : asks ls p -> exists kw b l, lines_of FIND ls = [FindLine kw ((b, p) :: l)] /\ In (FindLine kw ((b, p) :: l)) ls.
  Proof.
    intros (a & kw & b & l & c & -> & N). exists kw, b, l. split; [|rewrite in_app_iff; cbn; tauto]. unfold lines_of. rewrite filter_app. cbn [filter of_clause clause_of same_clause].
    assert (H : forall l0, (forall x, In x l0 -> In x (a ++ c)) -> filter (of_clause FIND) l0 = []).
    { intros l0 I. apply filter_none. intros x Hx. unfold of_clause. destruct (same_clause (clause_of x) FIND) eqn:E; [|reflexivity]. apply same_clause_true in E. exfalso. exact (N x (I x Hx) E). }
    rewrite (H a), (H c); [reflexivity| |]; intros x Hx; rewrite in_app_iff; tauto.
  Qed.
  Lemma find_line_parsed ls p : query_drawn ls -> asks ls p ->
    exists f, parse_find (query_text ls) = Ok (Some f) /\ pf_pattern f = read_pattern (pattern_text p) /\
      Forall node_drawn (nodes_in p) /\ Forall rel_drawn (rels_in p) /\ NoDup (handles_in p).
  Proof.
    intros Q A. destruct (asks_line ls p A) as (kw & b & l & E & I). pose proof (qd_lines _ Q) as L. rewrite Forall_forall in L. destruct (L _ I) as [K DL].
    assert (IF : In FIND [MAKE; FIND; REPORT]) by (right; left; reflexivity). pose proof (lines_found ls FIND Q IF) as X. rewrite E in X. cbn [map line_text] in X.
    assert (EE : extract_all_statements (query_text ls) FIND = extract_all_statements (statement_text kw ((b, p) :: l)) FIND).
    { rewrite (extraction_exact (query_text ls) FIND [statement_text kw ((b, p) :: l)]) by (try discriminate; exact X).
      symmetry. apply extraction_exact; [discriminate|discriminate|]. apply extracted_whole; [apply kw_find, K|apply list_written_, DL]. }
    eexists. split; [|split; [|split; [|split]]].
    - rewrite (parse_find_same _ _ EE). unfold statement_text. cbn [texts map fst snd]. apply (find_round_trip R); [exact K|apply (list_written_ _ DL)|apply (list_passes D _ DL)|].
      pose proof (list_distinct _ DL) as H. inv H. assumption.
    - reflexivity.
    - pose proof (dl_nodes _ DL) as H. inv H. assumption.
    - pose proof (dl_rels _ DL) as H. inv H. assumption.
    - pose proof (dl_handles _ DL) as H. inv H. assumption.
  Qed.
  Lemma node_meaning n : node_drawn n -> meaning (read_node (node_text n)).
  Proof.
    intros [_ _ _ _ _ P]. unfold meaning. cbn. destruct (dn_props n) as [pr|]; [|eexists; reflexivity].
    destruct (drawn_value D pr (P pr eq_refl)) as (d & E & _). cbn [option_map]. rewrite E. eauto.
  Qed.
  Lemma rel_meaning r : rel_drawn r -> meaning (read_rel (rel_text r)).
  Proof.
    intros [_ _ _ _ _ _ P]. unfold meaning. cbn. destruct (dr_props r) as [pr|]; [|eexists; reflexivity].
    destruct (drawn_value D pr (P pr eq_refl)) as (d & E & _). cbn [option_map]. rewrite E. eauto.
  Qed.

  Lemma asked_labels p s : match p with Two _ _ _ => False | _ => True end ->
    (asked_label (read_pattern (pattern_text p)) s <-> exists n, In n (nodes_in p) /\ dn_label n = s).
  Proof.
    intros T. assert (E : asked_nodes (read_pattern (pattern_text p)) = map (fun n => read_node (node_text n)) (nodes_in p)) by (destruct p; [reflexivity|contradiction|reflexivity]).
    unfold asked_label. rewrite E. split.
    - intros (x & I & L). apply in_map_iff in I as (n & <- & I). injection L as <-. eauto.
    - intros (n & I & <-). exists (read_node (node_text n)). split; [apply in_map_iff; eauto|reflexivity].
  Qed.
  Lemma asked_names p s : asked_name (read_pattern (pattern_text p)) s <-> exists r, In r (rels_in p) /\ dr_name r = s /\ s <> [].
  Proof.
    unfold asked_name. destruct p as [a|a r b|a r b r' c]; cbn [pattern_text read_pattern left_middle_rel middle_right_rel rels_in].
    - split; [intros (x & [<-|[<-|[]]] & X & _); discriminate|intros (r & [] & _)].
    - split.
      + intros (x & [<-|[<-|[]]] & X & L & N); [|discriminate]. injection L as <-. exists r. cbn. auto.
      + intros (x & [<-|[]] & <- & N). exists (read_rel (rel_text r)). split; [left; reflexivity|]. split; [apply rel_text_drawn|]. auto.
    - split.
      + intros (x & [<-|[<-|[]]] & X & L & N); injection L as <-; eexists; (split; [|split; [reflexivity|exact N]]); cbn; auto.
      + intros (x & [<-|[<-|[]]] & <- & N); [exists (read_rel (rel_text r))|exists (read_rel (rel_text r'))]; (split; [cbn; auto|]); (split; [apply rel_text_drawn|]); auto.
  Qed.
  Lemma findable_text p : match p with Two _ _ _ => False | _ => True end -> Forall node_drawn (nodes_in p) -> Forall rel_drawn (rels_in p) ->
    findable (read_pattern (pattern_text p)).
  Proof.
    intros T N L. destruct p as [a|a r b|a r b r' c]; [|contradiction|]; cbn [nodes_in rels_in] in *; repeat match goal with H : Forall _ (_ :: _) |- _ => inv H end;
      constructor; cbn [pattern_text read_pattern left_node left_middle_rel middle_node middle_right_rel right_node]; try discriminate; try reflexivity; try (apply node_meaning; assumption).
    - intros x [<-|[<-|[<-|[]]]]; discriminate.
    - intros _. split; [apply rel_text_heads; assumption|right; reflexivity].
    - intros _. split; [apply rel_text_heads; assumption|reflexivity].
    - intros x [<-|[<-|[<-|[]]]] _; [apply rel_meaning|apply node_meaning|apply rel_meaning]; assumption.
  Qed.
  Lemma find_answers f p g G w : is_pattern (pf_pattern f) -> pf_pattern f = read_pattern (pattern_text p) -> stored g G w ->
    Forall node_drawn (nodes_in p) -> Forall rel_drawn (rels_in p) ->
    answers p G w (match run (find f g) w with (Err e, w2) => (Err e, w2) | (Ok _, w2) => (Ok true, w2) end).
  Proof.
    intros IP EP S N L. destruct p as [a|a r b|a r b r' c] eqn:Ep; unfold answers.
    2:{ cbn [nodes_in rels_in] in *; repeat match goal with H : Forall _ (_ :: _) |- _ => inv H end.
        destruct (two_node_find f g w IP) as [E|(x & e & I & E & _)]; [rewrite EP; reflexivity|rewrite EP; reflexivity|rewrite E; reflexivity|].
        exfalso. rewrite EP in I. cbn [pattern_text read_pattern left_node middle_node] in I. destruct I as [<-|[<-|[]]];
          match goal with H : node_drawn ?n, E : get_property_dict (p_props (read_node (node_text ?n))) = _ |- _ => destruct (node_meaning n H) as (o & E'); congruence end. }
    all: rewrite <- Ep in *; assert (T : match p with Two _ _ _ => False | _ => True end) by (rewrite Ep; exact I);
      assert (HL : (exists s, asked_label (pf_pattern f) s /\ In s (ix_labels (g_ix G))) <-> exists n, In n (nodes_in p) /\ In (dn_label n) (ix_labels (g_ix G)))
        by (rewrite EP; split; [intros (s & A & B); apply (asked_labels p s T) in A as (n & A & <-); eauto|intros (n & A & B); exists (dn_label n); split; [apply (asked_labels p _ T); eauto|exact B]]);
      assert (HN : (exists s, asked_name (pf_pattern f) s /\ In s (ix_names (g_ix G))) <-> exists r, In r (rels_in p) /\ dr_name r <> [] /\ In (dr_name r) (ix_names (g_ix G)))
        by (rewrite EP; split; [intros (s & A & B); apply asked_names in A as (n & A & <- & A'); eauto|intros (n & A & A' & B); exists (dr_name n); split; [apply asked_names; eauto|exact B]]);
      assert (FB : findable (pf_pattern f)) by (rewrite EP; apply findable_text; assumption);
      destruct (find_outcome f g (g_ix G) w IP (stored_index g G w S)) as [(_ & X & ->)|[(_ & X & ->)|(X & _)]]; [left|right|contradiction];
      cbv zeta in X; rewrite HL, HN in X; (split; [exact X|reflexivity]).
  Qed.

  (** ** REPORT *)
  Lemma report_lines ls : query_drawn ls -> lines_of REPORT ls = [] \/ exists t, lines_of REPORT ls = [ReportLine t].
  Proof.
    intros Q. destruct (lines_of REPORT ls) as [|x xs] eqn:E; [left; reflexivity|right].
    assert (C : forall y, In y (x :: xs) -> clause_of y = REPORT) by (intros y I; rewrite <- E in I; apply filter_In in I as [_ H]; apply same_clause_true, H).
    destruct xs as [|y ys].
    - pose proof (C x (or_introl eq_refl)) as X. destruct x; try discriminate. eauto.
    - exfalso. unfold lines_of in E.
      assert (SP : forall l u us, filter (of_clause REPORT) l = u :: us -> exists a b, l = a ++ u :: b /\ filter (of_clause REPORT) b = us).
      { clear. induction l as [|v l IH]; intros u us H; [discriminate|]. cbn [filter] in H. destruct (of_clause REPORT v).
        - injection H as -> H. exists [], l. auto.
        - destruct (IH _ _ H) as (a & b & -> & Hb). exists (v :: a), b. auto. }
      destruct (SP _ _ _ E) as (a & b & -> & E'). destruct (SP _ _ _ E') as (b' & c & -> & _).
      apply (qd_report _ Q a x b' y c eq_refl); apply C; cbn; auto.
  Qed.
  Lemma report_line_in ls t : In (ReportLine t) ls -> In (ReportLine t) (lines_of REPORT ls).
  Proof. intros I. apply filter_In. split; [exact I|reflexivity]. Qed.
  Lemma report_handles p h : NoDup (handles_in p) -> (In h (pattern_handles (read_pattern (pattern_text p))) <-> In h (handles_in p)).
  Proof. intros N. unfold pattern_handles. rewrite handle_names_given, handles_text, s_of_list_id by exact N. reflexivity. Qed.
  Lemma report_parsed ls p : query_drawn ls -> NoDup (handles_in p) ->
    (mentioned ls p /\ exists rp, parse_report (query_text ls) (pattern_handles (read_pattern (pattern_text p))) = Ok rp) \/
    (~ mentioned ls p /\ parse_report (query_text ls) (pattern_handles (read_pattern (pattern_text p))) = Err FindReportHandleMissmatch).
  Proof.
    intros Q N. assert (IR : In REPORT [MAKE; FIND; REPORT]) by (right; right; left; reflexivity).
    destruct (report_lines ls Q) as [E|(t & E)].
    - left. split.
      + intros t h I. exfalso. apply report_line_in in I. rewrite E in I. destruct I.
      + exists None. unfold parse_report. rewrite (none_taken ls REPORT Q IR E). reflexivity.
    - pose proof (lines_found ls REPORT Q IR) as X. rewrite E in X. cbn [map line_text StatementOf] in X.
      assert (IT : In (ReportLine t) ls) by (assert (H : In (ReportLine t) (lines_of REPORT ls)) by (rewrite E; left; reflexivity); apply filter_In in H; apply H).
      pose proof (qd_lines _ Q) as L. rewrite Forall_forall in L. destruct (L _ IT) as (_ & _ & SP).
      assert (ON : forall t', In (ReportLine t') ls -> t' = t) by (intros t' I; apply report_line_in in I; rewrite E in I; destruct I as [I|[]]; congruence).
      destruct (report_cases (query_text ls) t (pattern_handles (read_pattern (pattern_text p))) X) as [(A & _ & B)|[(_ & A & _)|[(h & I & A) B]]].
      + left. split; [|eauto]. intros t' h I Hh. rewrite (ON _ I). apply A, report_handles; assumption.
      + contradiction.
      + right. split; [|exact B]. intros M. apply A. apply M; [exact IT|]. apply report_handles in I; assumption.
  Qed.

  (** ** the theorems *)
  Theorem lines_answered g G w ls p : stored g G w -> query_drawn ls -> asks ls p ->
    made ls = [] \/ (exists bp, In bp (made ls) /\ rels_in (snd bp) <> []) -> mentioned ls p ->
    exists w1 G1, stored g G1 w1 /\ now_contains (made ls) G G1 /\
      unchanged_but [database_fp g; indexes_fp g; wiggle_number_fp g] w w1 /\ (made ls = [] -> w1 = w /\ G1 = G) /\
      answers p G1 w1 (run (query (query_text ls) g) w).
  Proof.
    intros S Q A M MT. destruct (find_line_parsed ls p Q A) as (f & PF & EP & DN & DR & ND).
    pose proof (make_lines_parsed ls Q) as PM. pose proof (parse_find_is_pattern _ _ PF) as IP.
    destruct (report_parsed ls p Q ND) as [(_ & rp & PR)|(X & _)]; [|contradiction]. rewrite <- EP in PR.
    destruct (make_lines ls) as [|x xs] eqn:EL.
    - assert (EM : made ls = []) by (rewrite make_lines_made, EL; reflexivity). exists w, G. split; [exact S|]. split; [|split; [|split]].
      + rewrite EM. constructor.
        * exists []. split; [symmetry; apply app_nil_r|reflexivity].
        * cbn. lia.
        * intros s. split; [auto|]. intros [H|(bp & n & [] & _)]. exact H.
        * intros s. split; [auto|]. intros [H|(_ & bp & n & [] & _)]. exact H.
      + apply same_but_refl.
      + auto.
      + rewrite (find_alone _ g w f rp PM PF PR). apply find_answers; assumption.
    - assert (NE : made ls <> []).
      { rewrite make_lines_made, EL. pose proof (make_lines_drawn ls Q) as ML. rewrite EL in ML. inv ML. destruct H1 as [_ DL]. cbn [flat_map]. intros E.
        apply app_eq_nil in E as [E _]. exact (dl_some _ DL E). }
      destruct M as [M|M]; [contradiction|]. destruct (made_drawn ls Q) as [MN MR].
      destruct (made_as_read D g G w (parsed_lines ls) (made ls) S MN MR (parsed_patterns ls) M) as (w1 & G1 & RUN & S1 & NC & U).
      exists w1, G1. split; [exact S1|]. split; [exact NC|]. split; [exact U|]. split; [contradiction|].
      destruct (make_then_find _ g w (parsed_lines ls) f rp PM PF PR) as (_ & _ & FE & FO).
      pose proof (find_answers f p g G1 w1 IP EP S1 DN DR) as FA. destruct (run (find f g) w1) as [[r|e] w2] eqn:RF.
      + rewrite (FO _ _ _ _ RUN RF). exact FA.
      + destruct (FE _ _ _ _ RUN RF) as [-> ->]. exact FA.
  Qed.
  Theorem handle_missing g w ls p : query_drawn ls -> asks ls p -> ~ mentioned ls p ->
    run (query (query_text ls) g) w = (Err FindReportHandleMissmatch, w).
  Proof.
    intros Q A M. destruct (find_line_parsed ls p Q A) as (f & PF & EP & DN & DR & ND).
    destruct (report_parsed ls p Q ND) as [(X & _)|(_ & PR)]; [contradiction|]. rewrite <- EP in PR.
    apply parse_error_no_effect. unfold parse_query_string. rewrite (make_lines_parsed ls Q). cbn [bind]. rewrite PF. cbn [bind]. rewrite PR. reflexivity.
  Qed.

  (** nothing but lone nodes *)
  Lemma lone_owns l w k z : (forall bp : pystr * dpattern, In bp l -> rels_in (snd bp) = []) -> ~ owns (map (fun bp => read_pattern (snd bp)) (texts l)) w k z.
  Proof.
    revert w. induction l as [|[b p] l IH]; intros w H O; [exact O|]. cbn [texts map fst snd owns] in O. destruct O as [(n & x & l0 & I & _ & O & _)|O].
    - pose proof (H (b, p) (or_introl eq_refl)) as E. cbn [snd] in E. destruct p; [|discriminate|discriminate].
      unfold owned, links in O. cbn in O. destruct O.
    - exact (IH _ (fun bp I => H bp (or_intror I)) O).
  Qed.
  Theorem lone_nodes_lost g G w ls p : stored g G w -> query_drawn ls -> asks ls p -> mentioned ls p ->
    made ls <> [] -> (forall bp, In bp (made ls) -> rels_in (snd bp) = []) ->
    exists items w', run (query (query_text ls) g) w = (Err JSONDecodeError, w') /\
      unchanged_but [database_fp g; indexes_fp g] w w' /\
      all_stored (map snd (made ls)) (g_next G) items /\ db_file (database_fp g) (g_db G ++ items) w' /\
      run (read_json (indexes_fp g)) w' = (Err JSONDecodeError, w') /\
      run (get_current_wiggle_number (wiggle_number_fp g)) w' = (Ok (g_next G), w').
  Proof.
    intros S Q A MT NE LO. destruct (find_line_parsed ls p Q A) as (f & PF & EP & DN & DR & ND).
    pose proof (make_lines_parsed ls Q) as PM.
    destruct (report_parsed ls p Q ND) as [(_ & rp & PR)|(X & _)]; [|contradiction]. rewrite <- EP in PR.
    destruct (make_lines ls) as [|x xs] eqn:EL; [exfalso; apply NE; rewrite make_lines_made, EL; reflexivity|].
    destruct (make_then_find _ g w (parsed_lines ls) f rp PM PF PR) as (_ & ME & _ & _).
    destruct (made_drawn ls Q) as [MN MR]. destruct (list_entries D (made ls) (g_next G) MN MR) as (items & EN & ST).
    pose proof (parsed_patterns ls) as PP. set (ps := map (fun bp => read_pattern (snd bp)) (texts (made ls))) in *.
    assert (FA : forall P : pattern -> Prop, (forall p, Forall node_drawn (nodes_in p) -> Forall rel_drawn (rels_in p) -> P (read_pattern (pattern_text p))) -> Forall P ps).
    { intros P H. apply Forall_forall. intros q Hq. apply in_texts in Hq as (bp & I & ->). rewrite Forall_forall in MN, MR. apply H; auto. }
    assert (WR : Forall writable ps) by (apply FA; intros; apply writable_text; assumption).
    assert (NM : Forall names_ok ps) by (apply FA; intros; apply names_ok_text; assumption).
    assert (WD : Forall well_drawn ps) by (apply FA; intros; apply well_drawn_text; assumption).
    destruct (make_half rt g G w (parsed_lines ls) items D S) as (t & w' & RUN & U & DB & _ & _ & IX & WN).
    { rewrite PP. exact NM. }
    { rewrite PP. split; assumption. }
    { eapply entries_all_ser; eassumption. }
    { rewrite PP. intros k z. apply lone_owns. exact LO. }
    exists items, w'. split; [apply ME; exact RUN|]. auto.
  Qed.
End LinesFacts.

(** a side condition, for examples *)
Lemma anagram_call_no {rt : PyRt} kw q c : In c kw -> existsb (ci_eqb c) q = false -> ~ AnagramCall kw q.
Proof.
  intros I H (a & w & t & b & -> & (p & P & C) & _). rewrite <- not_true_iff_false, existsb_exists in H. apply H.
  assert (IP : In c p) by (eapply Permutation_in; eassumption).
  assert (exists y, In y w /\ ci_eqb c y = true) as (y & Hy & E).
  { clear -C IP. induction C as [|x y p w E C IH]; [contradiction|]. destruct IP as [->|IP]; [exists y; cbn; auto|]. destruct (IH IP) as (z & Hz & Ez). exists z. cbn. auto. }
  exists y. split; [|exact E]. rewrite !in_app_iff. auto.
Qed.
