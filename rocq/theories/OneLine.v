(** * OneLine: a MAKE and a FIND written on one line (C45) *)
From Verif Require Import PyBase BaseFacts Regex RegexSpec RegexFacts RegexMore Patterns Json SpecJson RtLaws Props Checks ChecksFacts SpecText SpecPattern SpecGrammar
  GrammarFacts Statements PatternFacts StatementFacts AcceptFacts AcceptMore FS FSFacts Store SpecStore StoreFacts Make SpecMake MakeFacts MakeRun MakeMore MakeFinal
  Find Query SpecFind FindFacts HistoryFacts QueryFacts.
From Coq Require Import ZifyBool ZifyN ZifyNat.

Section OneLine.
  Context {rt : PyRt} (R : rt_ok rt).

  Lemma take_blank b s : all_space b -> b <> [] -> stops pat_start s -> pattern_matches (b ++ s) = blank_pattern :: pattern_matches s.
  Proof.
    intros B NB S. assert (G : Greedy nodes_rels b s []).
    { pose proof S as S0. apply pat_start_stops in S0 as (S1 & S2 & S3 & S4). unfold nodes_rels. rewrite <- (app_nil_r b).
      apply (greedy_sp b); [exact B|exact S1|]. apply greedy_no_node; [exact S2|]. apply greedy_tail3. exact S. }
    unfold pattern_matches. rewrite (take_match nodes_rels b s [] G NB). cbn [flat_map fst snd]. destruct b; [congruence|]. reflexivity.
  Qed.
  Lemma patterns_then l s : good_list l -> stops pat_start s ->
    pattern_matches (show_patterns l ++ s) = map (fun bp => read_pattern (snd bp)) l ++ pattern_matches s.
  Proof.
    intros G S. induction G as [|[b p] l [B W] G IH]; [reflexivity|].
    rewrite show_patterns_cons, <- !app_assoc. cbn [fst snd map app] in *. destruct l as [|bp l].
    - change ([] ++ s) with s. rewrite (take_pattern R b p s B W S). reflexivity.
    - rewrite <- app_assoc. rewrite (take_pattern R b p _ B W) by reflexivity. f_equal. change (py ",") with [44%N]. cbn [app]. rewrite stop_cons by reflexivity. exact IH.
  Qed.
  Lemma rels_then l s : good_list l ->
    rel_matches (show_patterns l ++ s) = flat_map (fun bp => map rel_pair (rels_of (snd bp))) l ++ rel_matches s.
  Proof.
    intros G. induction G as [|[b p] l [B W] G IH]; [reflexivity|].
    rewrite show_patterns_cons, <- !app_assoc. cbn [fst snd flat_map app] in *.
    rewrite rel_matches_avoid by (eapply avoid_sub; [|apply avoid_space; exact B]; unfold marks; intros x; cbn; tauto).
    rewrite (rel_matches_pattern R) by exact W. rewrite <- app_assoc. f_equal. destruct l as [|bp l]; [exact IH|].
    rewrite <- app_assoc, rel_matches_avoid; [exact IH|apply Forall_cons; [cbn; intuition discriminate|constructor]].
  Qed.

  Context (kw1 sp kw2 : pystr) (l1 l2 : list (pystr * wpattern)).
  Context (K1 : kw1 = py "MAKE" \/ kw1 = py "make") (K2 : kw2 = py "FIND" \/ kw2 = py "find").
  Context (W1 : statement_written l1) (W2 : statement_written l2) (SP : all_space sp) (NL : no_newline sp).
  Let T := one_line kw1 l1 sp kw2 l2.

  Lemma kw1_ci : Ci (py "MAKE") kw1.
  Proof. destruct K1 as [-> | ->]; apply ci_refl_ascii. Qed.
  Lemma kw1_word : Word kw1.
  Proof. destruct K1 as [-> | ->]; apply word_kw. Qed.
  Lemma kw2_word : Word kw2.
  Proof. destruct K2 as [-> | ->]; apply word_kw. Qed.
  Lemma kw2_head s : stops pat_start (kw2 ++ s).
  Proof. destruct K2 as [-> | ->]; cbn; reflexivity. Qed.

  Lemma one_line_patterns : pattern_matches T =
    map (fun bp => read_pattern (snd bp)) l1 ++ (match sp with [] => [] | _ => [blank_pattern] end) ++ map (fun bp => read_pattern (snd bp)) l2.
  Proof.
    unfold T, one_line, show_statement. rewrite <- !app_assoc. rewrite (skip_stops kw1) by (apply word_not_start; [exact R|apply kw1_word]).
    rewrite patterns_then; [|apply W1|reflexivity]. f_equal. change (py ";") with [59%N] at 1. cbn [app]. rewrite stop_cons by reflexivity.
    assert (E2 : pattern_matches (kw2 ++ show_patterns l2 ++ py ";") = map (fun bp => read_pattern (snd bp)) l2)
      by (apply (patterns_read R); [apply kw2_word|apply W2]).
    destruct sp as [|c sp'] eqn:Esp; [cbn [app]; exact E2|].
    change (59%N :: (c :: sp') ++ kw2 ++ show_patterns l2 ++ py ";") with (py ";" ++ (c :: sp') ++ kw2 ++ show_patterns l2 ++ py ";").
    rewrite take_blank; [|exact SP|discriminate|apply kw2_head]. cbn [app]. f_equal. exact E2.
  Qed.

  Lemma one_line_statement : Statement (py "MAKE") T.
  Proof.
    destruct (written_shape l1 W1) as (b1 & body1 & E1 & B1 & N1 & L1). destruct (written_shape l2 W2) as (b2 & body2 & E2 & B2 & N2 & L2).
    exists kw1, b1, (body1 ++ py ");" ++ sp ++ kw2 ++ b2 ++ py "(" ++ body2). unfold T, one_line, show_statement. rewrite E1, E2.
    split; [rewrite <- !app_assoc; reflexivity|]. split; [apply kw1_ci|]. split; [exact B1|]. split; [destruct body1; [congruence|discriminate]|].
    assert (NB : no_newline b2).
    { intros I. assert (I' : In 10%N (show_patterns l2 ++ py ";")) by (rewrite E2, in_app_iff; auto).
      apply in_app_iff in I' as [I'|I']; [exact (sw_line _ W2 I')|]. cbn in I'. intuition discriminate. }
    unfold no_newline in *. rewrite !in_app_iff. cbn [In py].
    intros [H|[[H|H]|[H|[H|[H|[[H|H]|H]]]]]]; try discriminate; try contradiction; try (destruct H; [discriminate|contradiction]).
    destruct K2 as [-> | ->]; cbn in H; intuition discriminate.
  Qed.
  Lemma one_line_extracted : Extracted (Statement (py "MAKE")) T [T].
  Proof.
    rewrite <- (app_nil_r T) at 1. apply Ex_take.
    - exact one_line_statement.
    - destruct one_line_statement as (k & s & body & E & _). rewrite E. destruct k, s; discriminate.
    - intros m' rest E _. rewrite app_nil_r in E. rewrite E, app_length. lia.
    - constructor.
  Qed.
  Lemma blank_not_well_drawn : ~ well_drawn blank_pattern.
  Proof. intros [W _ _ _ _]. apply W. reflexivity. Qed.

  (** (a) with a blank: always an error, never an effect *)
  Theorem one_line_fails g w : sp <> [] -> exists e, run (query T g) w = (Err e, w).
  Proof.
    intros NE. assert (HB : In blank_pattern (pattern_matches T)).
    { rewrite one_line_patterns, !in_app_iff. right. left. destruct sp; [congruence|left; reflexivity]. }
    destruct (parse_make T) as [[l|]|e] eqn:EM.
    - destruct (parsed_make_sound T l EM) as [F X].
      assert (HM : map pm_raw l = [T]) by (eapply Extracted_unique; [exact X|apply one_line_extracted]).
      destruct l as [|m [|m' l]]; try discriminate. injection HM as HM. inv F. destruct H1 as (_ & _ & HP & _).
      assert (IB : In blank_pattern (patterns_of [m])). { unfold patterns_of. cbn [flat_map]. rewrite app_nil_r, HP, HM. exact HB. }
      destruct (parse_find T) as [[f|]|e] eqn:EF.
      + destruct (parse_report T (pattern_handles (pf_pattern f))) as [rp|e] eqn:ER.
        * destruct (bad_pattern_refused rt [m] g w blank_pattern IB (or_introl blank_not_well_drawn)) as [e H].
          exists e. apply (make_then_find T g w [m] f rp EM EF ER). exact H.
        * exists e. apply parse_error_no_effect. unfold parse_query_string. rewrite EM. cbn [bind]. rewrite EF. cbn [bind]. rewrite ER. reflexivity.
      + exists AttributeError. apply parse_error_no_effect. unfold parse_query_string. rewrite EM. cbn [bind]. rewrite EF. reflexivity.
      + exists e. apply parse_error_no_effect. unfold parse_query_string. rewrite EM. cbn [bind]. rewrite EF. reflexivity.
    - exfalso. unfold parse_make in EM. rewrite (extraction_exact T MAKE [T]) in EM; [|discriminate|discriminate|apply one_line_extracted].
      cbn [bind] in EM. destruct (validate_statement [T]); cbn [bind] in EM; [|discriminate]. destruct (mapM build_parsed_make [T]); discriminate.
    - exists e. apply parse_error_no_effect. unfold parse_query_string. rewrite EM. reflexivity.
  Qed.

  Context (P1 : passes l1) (P2 : passes l2) (D1 : distinct_handles l1) (D2 : distinct_handles l2).
  Lemma one_line_passes : validate_statement [T] = Ok tt.
  Proof.
    pose proof kw1_word as KW1. pose proof kw2_word as KW2. pose proof (sw_patterns _ W1) as G1. pose proof (sw_patterns _ W2) as G2.
    unfold validate_statement.
    assert (E1 : check_statement_syntax [T] = Ok tt).
    { apply brackets_spec. intros s seg [<-|[]] SG. eapply Chunky_segments; [|exact SG]. unfold T, one_line, show_statement. rewrite <- !app_assoc.
      assert (M : mild (py ";")) by (apply mild_avoid; apply Forall_cons; [cbn; intuition discriminate|constructor]).
      assert (C : forall l s, good_list l -> passes l -> Chunky s -> Chunky (show_patterns l ++ s)).
      { intros l s G PS C. apply stmt_ind; [exact G|exact C| |].
        - intros v. apply Chunky_mild. apply mild_avoid. apply Forall_cons; [cbn; intuition discriminate|constructor].
        - intros b p v B W I C'. apply Chunky_mild; [apply mild_space; exact B|]. apply Chunky_pattern; [exact W| |exact C'].
          eapply Forall_forall in PS; [|exact I]. apply PS. }
      apply Chunky_mild; [apply mild_word; exact KW1|]. apply C; [exact G1|exact P1|]. apply Chunky_mild; [exact M|].
      apply Chunky_mild; [apply mild_space; exact SP|]. apply Chunky_mild; [apply mild_word; exact KW2|]. apply C; [exact G2|exact P2|].
      apply (Chunky_mild (py ";") []); [exact M|constructor]. }
    assert (E2 : check_illegal_characters [T] = Ok tt).
    { apply illegal_spec. intros s [<-|[]] (c & Hc & Hi). assert (A : clean T).
      - assert (C : forall l s, good_list l -> clean s -> clean (show_patterns l ++ s)).
        { intros l s G C. apply stmt_ind; [exact G|exact C| |].
          + intros v. apply clean_app, clean_one. cbn; intuition discriminate.
          + intros b p v B W I C'. apply clean_app; [apply clean_space; exact B|]. apply clean_app; [apply clean_pattern; exact W|exact C']. }
        unfold T, one_line, show_statement. rewrite <- !app_assoc. apply clean_app; [apply clean_word; exact KW1|]. apply C; [exact G1|].
        apply clean_app; [apply clean_one; cbn; intuition discriminate|]. apply clean_app; [apply clean_space; exact SP|].
        apply clean_app; [apply clean_word; exact KW2|]. apply C; [exact G2|]. apply clean_one; cbn; intuition discriminate.
      - eapply Forall_forall in A; [|exact Hc]. apply A. exact Hi. }
    assert (E3 : check_node_rel_properties [T] = Ok tt).
    { unfold check_node_rel_properties. cbn [forM]. fold (check_props T).
      assert (C : forall l s, good_list l -> passes l -> check_props s = Ok tt -> check_props (show_patterns l ++ s) = Ok tt).
      { intros l s G PS C. apply (stmt_ind (fun s => check_props s = Ok tt)); [exact G|exact C| |].
        - intros v Hv. rewrite check_props_avoid; [exact Hv|apply Forall_cons; [cbn; intuition discriminate|constructor]].
        - intros b p v B W I C'. rewrite check_props_avoid by (eapply avoid_sub; [|apply avoid_space; exact B]; unfold marks; intros x; cbn; tauto).
          rewrite check_props_pattern; [exact C'|exact W|]. eapply Forall_forall in PS; [|exact I]. apply PS. }
      assert (E : check_props T = Ok tt); [|rewrite E; reflexivity].
      unfold T, one_line, show_statement. rewrite <- !app_assoc.
      rewrite check_props_avoid by (eapply avoid_sub; [|apply avoid_word; exact KW1]; unfold marks; intros x; cbn; tauto).
      apply C; [exact G1|exact P1|]. rewrite check_props_avoid by (apply Forall_cons; [cbn; intuition discriminate|constructor]).
      rewrite check_props_avoid by (eapply avoid_sub; [|apply avoid_space; exact SP]; unfold marks; intros x; cbn; tauto).
      rewrite check_props_avoid by (eapply avoid_sub; [|apply avoid_word; exact KW2]; unfold marks; intros x; cbn; tauto).
      apply C; [exact G2|exact P2|]. reflexivity. }
    rewrite E1, E2, E3. cbn [bind]. apply one_statement_rels.
    assert (ER : rel_matches T = flat_map (fun bp => map rel_pair (rels_of (snd bp))) (l1 ++ l2)).
    { unfold T, one_line, show_statement. rewrite <- !app_assoc.
      rewrite rel_matches_avoid by (eapply avoid_sub; [|apply avoid_word; exact KW1]; unfold marks; intros x; cbn; tauto).
      rewrite rels_then by exact G1. rewrite rel_matches_avoid by (apply Forall_cons; [cbn; intuition discriminate|constructor]).
      rewrite rel_matches_avoid by (eapply avoid_sub; [|apply avoid_space; exact SP]; unfold marks; intros x; cbn; tauto).
      rewrite flat_map_app. f_equal. apply (rels_read R kw2 l2 KW2 G2). }
    rewrite ER. intros t name H. apply in_flat_map in H as ([b p] & I & H). apply in_map_iff in H as (r & E & I'). injection E as <- <-. cbn [snd] in *.
    assert (GA : good_list (l1 ++ l2)) by (apply Forall_app; auto). assert (PA : passes (l1 ++ l2)) by (apply Forall_app; auto).
    eapply Forall_forall in GA; [|exact I]. eapply Forall_forall in PA; [|exact I]. cbn [fst snd] in *. destruct GA as [_ W]. destruct PA as [_ F].
    eapply Forall_forall in F; [|exact I']. destruct F as [O U]. apply rel_good; [eapply rels_written; eassumption|exact O|exact U].
  Qed.
  Lemma one_line_parse : parse_make T = Ok (Some [{| pm_raw := T; pm_patterns :=
    map (fun bp => read_pattern (snd bp)) l1 ++ (match sp with [] => [] | _ => [blank_pattern] end) ++ map (fun bp => read_pattern (snd bp)) l2 |}]).
  Proof.
    destruct (make_keyword_case T [T]) as [[F E]|[F E]].
    - discriminate.
    - apply one_line_extracted.
    - apply one_line_passes.
    - intros m p [<-|[]] Hp. rewrite one_line_patterns in Hp. rewrite !in_app_iff in Hp. destruct Hp as [Hp|[Hp|Hp]].
      + apply in_map_iff in Hp as (bp & <- & I). eapply Forall_forall in D1; [|exact I]. exact D1.
      + destruct sp; [destruct Hp|]. destruct Hp as [<-|[]]. constructor.
      + apply in_map_iff in Hp as (bp & <- & I). eapply Forall_forall in D2; [|exact I]. exact D2.
    - rewrite E. cbn [map plain]. unfold plain. rewrite one_line_patterns. reflexivity.
    - exfalso. inv F; [|inv H0]. apply H0. unfold T, one_line, show_statement. rewrite <- !app_assoc. destruct K1 as [-> | ->]; [left|right]; eexists; reflexivity.
  Qed.

  (** without a blank the FIND's patterns are made, too *)
  Theorem one_line_creates g G w b w' : sp = [] -> rt_data rt -> stored g G w ->
    let both := map (fun bp => read_pattern (snd bp)) (l1 ++ l2) in
    Forall names_ok both -> run (query T g) w = (Ok b, w') ->
    exists items, acceptable both (g_next G) items /\ run (load_database (database_fp g)) w' = (Ok (VDict (g_db G ++ items)), w').
  Proof.
    intros NS DT ST both NO RQ. pose proof one_line_parse as EM.
    set (m := {| pm_raw := T; pm_patterns := map (fun bp => read_pattern (snd bp)) l1 ++ match sp with [] => [] | _ => [blank_pattern] end ++ map (fun bp => read_pattern (snd bp)) l2 |}) in EM.
    assert (HP : patterns_of [m] = both).
    { unfold patterns_of, both. cbn [flat_map m pm_patterns]. rewrite NS, app_nil_r, map_app. reflexivity. }
    destruct (parse_find T) as [[f|]|e] eqn:EF.
    2:{ rewrite (parse_error_no_effect T g w AttributeError) in RQ; [discriminate|]. unfold parse_query_string. rewrite EM. cbn [bind]. rewrite EF. reflexivity. }
    2:{ rewrite (parse_error_no_effect T g w e) in RQ; [discriminate|]. unfold parse_query_string. rewrite EM. cbn [bind]. rewrite EF. reflexivity. }
    destruct (parse_report T (pattern_handles (pf_pattern f))) as [rp|e] eqn:ER.
    2:{ rewrite (parse_error_no_effect T g w e) in RQ; [discriminate|]. unfold parse_query_string. rewrite EM. cbn [bind]. rewrite EF. cbn [bind]. rewrite ER. reflexivity. }
    destruct (make_then_find T g w [m] f rp EM EF ER) as (_ & QE & QF & QS).
    destruct (run (make [m] g) w) as [[b1|e] w1] eqn:RM; [|rewrite (QE e w1 eq_refl) in RQ; discriminate].
    destruct (run (find f g) w1) as [[r|e] w2] eqn:RF; [|destruct (QF b1 w1 e w2 eq_refl RF) as [_ X]; rewrite X in RQ; discriminate].
    rewrite (QS b1 w1 r w2 eq_refl RF) in RQ. inv RQ.
    destruct (make_ok_effect rt g G w [m] b1 w1 DT ST) as (_ & _ & items & A & _ & _ & G' & S' & M & Ed); [rewrite HP; exact NO|exact RM|].
    rewrite HP in A. exists items. split; [exact A|]. rewrite <- Ed. apply load_database_ok. apply stored_db.
    eapply stored_fs; [|exact S']. pose proof (find_files f g w1) as FF. rewrite RF in FF. exact FF.
  Qed.
End OneLine.
