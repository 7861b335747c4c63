(** * OrderFacts: the order of the lines of a query, and queries that are taken apart (C84) *)
From Coq Require Import Lia.
From Verif Require Import PyBase BaseFacts Json SpecJson SpecText SpecPattern SpecGrammar SpecValue RtLaws Checks ChecksFacts CheckMore Statements StatementFacts PatternFacts FS FSFacts
  Store SpecStore Make SpecMake MakeFacts MakeMore MakeRun MakeFinal Find SpecFind HistoryFacts FindFacts Query QueryFacts SpecWhole WholeFacts WholeMore WholeQuery SpecLines LinesFacts
  SpecSplit SplitFacts SpecSound SoundFacts SpecOrder.

Section Order.
  Context {rt : PyRt} (D : rt_data rt).
  Lemma texts_lines c ls : In c [MAKE; FIND; REPORT] -> texts_of c ls = map line_text (lines_of c ls).
  Proof using.
    intros H. induction ls as [|x ls IH]; [reflexivity|]. unfold lines_of in *. cbn [texts_of filter]. unfold of_clause at 1.
    destruct H as [<-|[<-|[<-|[]]]]; destruct x; cbn [clause_of same_clause map]; rewrite IH; reflexivity.
  Qed.
  Lemma taken ls c : query_drawn ls -> In c [MAKE; FIND; REPORT] ->
    extract_all_statements (query_text ls) c = Ok (match texts_of c ls with [] => None | ms => Some ms end).
  Proof using.
    intros Q Hc. rewrite (texts_lines c ls Hc). destruct (lines_of c ls) as [|x xs] eqn:E.
    - cbn [map]. apply none_taken; assumption.
    - pose proof (lines_found ls c Q Hc) as X. rewrite E in X. assert (C : c <> CRITERIA) by (intros ->; cbn in Hc; intuition discriminate).
      destruct (extract_cases (query_text ls) c C) as [(ms & N & X' & EX)|(X' & _)].
      + rewrite EX. pose proof (Extracted_unique _ _ _ X _ X') as U. rewrite <- U. reflexivity.
      + exfalso. pose proof (Extracted_unique _ _ _ X _ X') as U. discriminate U.
  Qed.
  Theorem order_of_lines g w ls ls' : query_drawn ls -> query_drawn ls' -> rearranged ls ls' ->
    run (query (query_text ls) g) w = run (query (query_text ls') g) w.
  Proof using.
    intros Q Q' R. assert (E : forall c, In c [MAKE; FIND; REPORT] -> extract_all_statements (query_text ls) c = extract_all_statements (query_text ls') c).
    { intros c Hc. rewrite !taken by assumption. rewrite (R c Hc). reflexivity. }
    assert (P : parse_query_string (query_text ls) = parse_query_string (query_text ls')).
    { unfold parse_query_string. rewrite (parse_make_same _ _ (E MAKE ltac:(cbn; auto))), (parse_find_same _ _ (E FIND ltac:(cbn; auto))).
      unfold parse_report. rewrite (E REPORT ltac:(cbn; auto)). reflexivity. }
    unfold query. rewrite P. reflexivity.
  Qed.

  (** ** one query or several *)
  Notation made_by := SpecMake.made.
  Lemma made_by_app a b G G1 G2 : made_by a G G1 -> made_by b G1 G2 -> made_by (a ++ b) G G2.
  Proof using.
    intros M1 M2. constructor.
    - destruct (md_db _ _ _ M2) as (i2 & E2 & X2). destruct (md_db _ _ _ M1) as (i1 & E1 & X1). exists (i1 ++ i2). split; [|rewrite X2, X1, app_assoc; reflexivity].
      apply entries_all_app. exists i1, i2. rewrite (md_next _ _ _ M1) in E2. auto.
    - intros k z. rewrite (md_rels _ _ _ M2), (md_rels _ _ _ M1), owns_app, (md_next _ _ _ M1). tauto.
    - intros s. rewrite (md_labels _ _ _ M2), (md_labels _ _ _ M1), label_drawn_app. tauto.
    - intros s. rewrite (md_names _ _ _ M2), (md_names _ _ _ M1), name_drawn_app. tauto.
    - rewrite (md_next _ _ _ M2), (md_next _ _ _ M1), size_all_app. lia.
  Qed.
  Lemma made_by_same g ps G G1 G2 w1 w2 : made_by ps G G1 -> made_by ps G G2 -> stored g G1 w1 -> stored g G2 w2 -> same_graph g w1 w2.
  Proof using.
    intros M1 M2 S1 S2.
    assert (N : g_next G1 = g_next G2) by (rewrite (md_next _ _ _ M1), (md_next _ _ _ M2); reflexivity).
    assert (DB : g_db G1 = g_db G2).
    { destruct (md_db _ _ _ M1) as (i1 & E1 & ->). destruct (md_db _ _ _ M2) as (i2 & E2 & ->). rewrite (entries_all_fun _ _ _ _ E1 E2). reflexivity. }
    split; [|split].
    - eexists. split; [exact (st_db _ _ _ S1)|]. rewrite DB. exact (st_db _ _ _ S2).
    - eexists. split; [exact (st_wn _ _ _ S1)|]. rewrite N. exact (st_wn _ _ _ S2).
    - exists (g_ix G1), (g_ix G2). split; [split; [apply (g_ix_ok _ (st_ok _ _ _ S1))|exact (st_ix _ _ _ S1)]|].
      split; [split; [apply (g_ix_ok _ (st_ok _ _ _ S2))|exact (st_ix _ _ _ S2)]|].
      split; [|split].
      + intros k z. rewrite (md_rels _ _ _ M1), (md_rels _ _ _ M2). reflexivity.
      + intros s. rewrite (md_labels _ _ _ M1), (md_labels _ _ _ M2). reflexivity.
      + intros s. rewrite (md_names _ _ _ M1), (md_names _ _ _ M2). reflexivity.
  Qed.
  Definition read_all (l : list (pystr * dpattern)) : list pattern := map (fun bp => read_pattern (snd bp)) (texts l).
  Lemma read_all_app a b : read_all (a ++ b) = read_all a ++ read_all b.
  Proof using. unfold read_all, texts. rewrite !map_app. reflexivity. Qed.

  Lemma drawn_query_runs g G w ls p : stored g G w -> query_drawn ls -> asks ls p -> mentioned ls p -> ~ two_nodes p ->
    (exists bp, In bp (made ls) /\ rels_in (snd bp) <> []) ->
    exists G1 w1, run (query (query_text ls) g) w = (Ok true, w1) /\ stored g G1 w1 /\ made_by (read_all (made ls)) G G1 /\
      (forall q, ~ In q [database_fp g; indexes_fp g; wiggle_number_fp g] -> fs_get q (w_fs w1) = fs_get q (w_fs w)) /\ w_in w1 = w_in w.
  Proof using D.
    intros S Q A MT T M. destruct (find_line_parsed D ls p Q A) as (f & PF & EP & DN & DR & ND).
    pose proof (make_lines_parsed D ls Q) as PM. pose proof (parse_find_is_pattern _ _ PF) as IP.
    destruct (report_parsed ls p Q ND) as [(_ & rp & PR)|(X & _)]; [|contradiction]. rewrite <- EP in PR.
    destruct (make_lines ls) as [|x xs] eqn:EL.
    { destruct M as (bp & I & _). rewrite make_lines_made, EL in I. destruct I. }
    destruct (made_drawn ls Q) as [MN MR]. pose proof (parsed_patterns ls) as PP. fold (read_all (made ls)) in PP.
    destruct (made_as_read D g G w (parsed_lines ls) (made ls) S MN MR PP M) as (w1 & _ & RUN & _).
    pose proof (parsed_names_ok D _ _ PM) as N.
    destruct (make_ok_effect rt g G w (parsed_lines ls) true w1 D S N RUN) as (_ & U & items & _ & _ & _ & G1 & S1 & MB & _). rewrite PP in MB.
    destruct (make_then_find _ g w (parsed_lines ls) f rp PM PF PR) as (_ & _ & FE & FO).
    pose proof (find_answers D f p g G1 w1 IP EP S1 DN DR) as FA. pose proof (find_files f g w1) as FF.
    destruct (run (find f g) w1) as [[r|e] w2] eqn:RF; cbn [snd] in FF.
    - exists G1, w2. split; [exact (FO _ _ _ _ RUN RF)|]. split; [eapply stored_fs; eassumption|]. split; [exact MB|]. destruct U as (U1 & U2 & U3). split.
      + intros q H. rewrite FF. apply U1. exact H.
      + destruct p as [a|a r1 b|a r1 b r2 c]; cbn [two_nodes answers] in *; [|tauto|]; destruct FA as [(_ & E)|(_ & E)]; inversion E; subst; cbn; exact U2.
    - exfalso. destruct p as [a|a r1 b|a r1 b r2 c]; cbn [two_nodes answers] in *; [|tauto|]; destruct FA as [(_ & E)|(_ & E)]; discriminate E.
  Qed.

  Lemma asks_more m rest p : linking m -> asks rest p -> asks (m :: rest) p.
  Proof using.
    intros (kw0 & l0 & bp & -> & _) (a & kw & b & l & c & -> & N). exists (MakeLine kw0 l0 :: a), kw, b, l, c. split; [reflexivity|].
    intros x [<-|I]; [discriminate|auto].
  Qed.
  Lemma asks_all mks rest p : Forall linking mks -> asks rest p -> asks (mks ++ rest) p.
  Proof using. induction 1 as [|m mks L F IH]; intros A; [exact A|]. cbn [app]. apply asks_more; auto. Qed.
  Lemma mentioned_all mks rest p : Forall linking mks -> mentioned rest p -> mentioned (mks ++ rest) p.
  Proof using.
    intros F M t h I H. apply in_app_iff in I as [I|I]; [|exact (M t h I H)]. rewrite Forall_forall in F. destruct (F _ I) as (kw & l & bp & E & _). discriminate E.
  Qed.
  Lemma made_no_make rest : (forall x, In x rest -> clause_of x <> MAKE) -> made rest = [].
  Proof using.
    induction rest as [|x rest IH]; intros H; [reflexivity|]. unfold made in *. cbn [flat_map]. rewrite IH by (intros y I; apply H; right; exact I).
    destruct x as [kw l|kw l|t]; [|reflexivity|reflexivity]. exfalso. exact (H _ (or_introl eq_refl) eq_refl).
  Qed.
  Lemma made_app a b : made (a ++ b) = made a ++ made b.
  Proof using. apply flat_map_app. Qed.
  Lemma linking_made m : linking m -> exists bp, In bp (made [m]) /\ rels_in (snd bp) <> [].
  Proof using. intros (kw & l & bp & -> & I & X). exists bp. unfold made. cbn [flat_map]. rewrite app_nil_r. auto. Qed.

  Lemma several_queries g rest p : (forall x, In x rest -> clause_of x <> MAKE) -> asks rest p -> mentioned rest p -> ~ two_nodes p ->
    forall mks G w, stored g G w -> Forall linking mks -> Forall (fun m => query_drawn (m :: rest)) mks -> mks <> [] ->
    let several := session g (map (fun m => query_text (m :: rest)) mks) w in
    Forall (eq (Ok true)) (fst several) /\ exists G1, stored g G1 (snd several) /\ made_by (read_all (made mks)) G G1 /\
      (forall q, ~ In q [database_fp g; indexes_fp g; wiggle_number_fp g] -> fs_get q (w_fs (snd several)) = fs_get q (w_fs w)) /\ w_in (snd several) = w_in w.
  Proof using D.
    intros NM A MT T. induction mks as [|m mks IH]; intros G w S L Q NE; [congruence|]. inv L. inv Q. cbn [map session]. cbv zeta in *.
    destruct (drawn_query_runs g G w (m :: rest) p S H3 (asks_more m rest p H1 A) (mentioned_all [m] rest p (Forall_cons _ H1 (Forall_nil _)) MT) T) as (G1 & w1 & R & S1 & M1 & U1 & I1).
    { destruct (linking_made m H1) as (bp & I & X). exists bp. split; [|exact X]. change (m :: rest) with ([m] ++ rest). rewrite made_app. apply in_app_iff. left. exact I. }
    rewrite R. change (m :: rest) with ([m] ++ rest) in M1. rewrite made_app, (made_no_make rest NM), app_nil_r in M1.
    destruct mks as [|m2 mks].
    - cbn [map session fst snd]. split; [constructor; [reflexivity|constructor]|]. exists G1. auto.
    - destruct (IH G1 w1 S1 H2 H4 ltac:(discriminate)) as (F & G2 & S2 & M2 & U2 & I2).
      destruct (session g (map (fun m0 => query_text (m0 :: rest)) (m2 :: mks)) w1) as [rs w2]. cbn [fst snd] in *.
      split; [constructor; [reflexivity|exact F]|]. exists G2. split; [exact S2|]. split; [|split; [|congruence]].
      + change (m :: m2 :: mks) with ([m] ++ m2 :: mks). rewrite made_app, read_all_app. eapply made_by_app; eassumption.
      + intros q H. rewrite U2, U1 by exact H. reflexivity.
  Qed.
  Theorem one_or_several g G w mks rest p : stored g G w -> mks <> [] -> Forall linking mks -> (forall x, In x rest -> clause_of x <> MAKE) ->
    query_drawn (mks ++ rest) -> Forall (fun m => query_drawn (m :: rest)) mks -> asks rest p -> mentioned rest p -> ~ two_nodes p ->
    let one := run (query (query_text (mks ++ rest)) g) w in
    let several := session g (map (fun m => query_text (m :: rest)) mks) w in
    fst one = Ok true /\ Forall (eq (Ok true)) (fst several) /\ same_graph g (snd one) (snd several) /\
    (forall q, ~ In q [database_fp g; indexes_fp g; wiggle_number_fp g] -> fs_get q (w_fs (snd one)) = fs_get q (w_fs (snd several))).
  Proof using D.
    intros S NE L NM QA QE A MT T. cbv zeta.
    destruct (several_queries g rest p NM A MT T mks G w S L QE NE) as (F & G2 & S2 & M2 & U2 & _).
    destruct (drawn_query_runs g G w (mks ++ rest) p S QA (asks_all mks rest p L A) (mentioned_all mks rest p L MT) T) as (G1 & w1 & R & S1 & M1 & U1 & _).
    { destruct mks as [|m mks]; [congruence|]. inv L. destruct (linking_made m H1) as (bp & I & X). exists bp. split; [|exact X].
      change ((m :: mks) ++ rest) with ([m] ++ mks ++ rest). rewrite made_app. apply in_app_iff. left. exact I. }
    rewrite made_app, (made_no_make rest NM), app_nil_r in M1. rewrite R. cbn [fst snd]. split; [reflexivity|]. split; [exact F|].
    split; [exact (made_by_same g _ G G1 G2 w1 _ M1 M2 S1 S2)|]. intros q H. rewrite U1, U2 by exact H. reflexivity.
  Qed.
End Order.
