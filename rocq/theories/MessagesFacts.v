(** * MessagesFacts: messages name what is wrong *)
From Verif Require Import RtLaws SpecValue SpecProps PropsFacts ValueFacts ListFacts ValueMore RegexMore JsonFacts PropsAny IndexText PyBase BaseFacts Json Regex RegexSpec RegexFacts Patterns SpecText SpecPattern Literal Props Checks ChecksFacts Statements Query SpecChecks CheckMore Messages SpecMessages.
From Coq Require Import Permutation.

(** ** the same exceptions *)
Lemma erase_bind {A B} (x : resm A) (f : A -> resm B) : erase (bindm x f) = bind (erase x) (fun a => erase (f a)).
Proof. destruct x; reflexivity. Qed.
Lemma erase_forM {A} (f : A -> resm unit) (g : A -> res unit) l : (forall x, erase (f x) = g x) -> erase (forMm f l) = forM g l.
Proof. intros E. induction l as [|x l IH]; cbn [forMm forM]; [reflexivity|]. rewrite erase_bind, E. destruct (g x); cbn [bind]; auto. Qed.
Lemma erase_mapM {A B} (f : A -> resm B) (g : A -> res B) l : (forall x, erase (f x) = g x) -> erase (mapMm f l) = mapM g l.
Proof.
  intros E. induction l as [|x l IH]; cbn [mapMm mapM]; [reflexivity|]. rewrite erase_bind, E. destruct (g x); cbn [bind]; [|reflexivity].
  rewrite erase_bind, IH. destruct (mapM g l); reflexivity.
Qed.
Lemma forMm_bad {A} (f : A -> resm unit) l e m : forMm f l = Bad e m -> exists x, In x l /\ f x = Bad e m.
Proof.
  induction l as [|x l IH]; cbn [forMm]; [discriminate|]. destruct (f x) eqn:E; cbn [bindm].
  - intros H. apply IH in H as (y & I & H). exists y. split; [right; exact I|exact H].
  - intros H. inv H. exists x. split; [left; reflexivity|exact E].
Qed.
Lemma mapMm_bad {A B} (f : A -> resm B) l e m : mapMm f l = Bad e m -> exists x, In x l /\ f x = Bad e m.
Proof.
  induction l as [|x l IH]; cbn [mapMm]; [discriminate|]. destruct (f x) eqn:E; cbn [bindm].
  - destruct (mapMm f l) eqn:E2; cbn [bindm]; [discriminate|]. intros H. inv H. destruct (IH eq_refl) as (y & I & H). exists y. split; [right; exact I|exact H].
  - intros H. inv H. exists x. split; [left; reflexivity|exact E].
Qed.
Lemma bindm_bad {A B} (x : resm A) (f : A -> resm B) e m : bindm x f = Bad e m -> x = Bad e m \/ exists a, x = Good a /\ f a = Bad e m.
Proof. destruct x; cbn [bindm]; intros H; [right; eauto|left; congruence]. Qed.

Lemma search_found r q : search r q = match finditer r q with [] => false | _ => true end.
Proof. reflexivity. Qed.

Section MessagesFacts.
  Context {rt : PyRt}.

  Lemma spelling_same q c : erase (check_clause_spelling_m q c) = check_clause_spelling q c.
  Proof.
    destruct c; cbn [check_clause_spelling_m check_clause_spelling]; rewrite ?search_found; try reflexivity;
      match goal with |- context [finditer ?r q] => destruct (finditer r q) as [|[t d] l] end; reflexivity.
  Qed.
  Lemma extract_same q c : erase (extract_all_statements_m q c) = extract_all_statements q c.
  Proof.
    unfold extract_all_statements_m, extract_all_statements. destruct c; try reflexivity;
      (destruct (map fst _); [|reflexivity]; rewrite erase_bind, spelling_same; match goal with |- context [check_clause_spelling ?a ?b] => destruct (check_clause_spelling a b) end; reflexivity).
  Qed.
  Lemma piece_same s : erase (check_piece_m s) = check_piece s.
  Proof. unfold check_piece_m, check_piece. destruct (Nat.odd _); [reflexivity|]. destruct (Nat.odd _); [reflexivity|]. destruct (Nat.odd _); reflexivity. Qed.
  Lemma rel_same r : erase (check_rel_m r) = check_rel r.
  Proof.
    destruct r as [t n]. unfold check_rel_m, check_rel. destruct (_ && _); [reflexivity|]. destruct (_ && _); [reflexivity|]. destruct (_ && _); reflexivity.
  Qed.
  Lemma rels_same l : erase (check_relationships_m l) = check_relationships l.
  Proof.
    induction l as [|s l IH]; cbn [check_relationships_m check_relationships]; [reflexivity|]. destruct (rel_matches s) as [|r rs]; [reflexivity|].
    rewrite erase_bind, (erase_forM check_rel_m check_rel) by exact rel_same. destruct (forM check_rel (r :: rs)); cbn [bind]; auto.
  Qed.
  Lemma param_same p : erase (check_param_match_m p) = check_param_match p.
  Proof.
    unfold check_param_match_m, check_param_match. cbv zeta. rewrite erase_bind.
    assert (E : erase (check_property_syntax_m (sub_empty list_value (pythonise p))) = check_property_syntax (sub_empty list_value (pythonise p)))
      by (unfold check_property_syntax_m, check_property_syntax; destruct (Nat.eqb _ _); reflexivity).
    rewrite E. destruct (check_property_syntax _); cbn [bind]; [|reflexivity]. apply erase_forM.
    intros x. unfold check_list_m, check_list. destruct (literal_eval x) as [v|e]; [reflexivity|]. destruct e; reflexivity.
  Qed.
  Lemma validate_same l : erase (validate_statement_m l) = validate_statement l.
  Proof.
    unfold validate_statement_m, validate_statement, check_statement_syntax_m, check_statement_syntax, check_illegal_characters_m, check_illegal_characters,
      check_node_rel_properties_m, check_node_rel_properties.
    rewrite erase_bind, (erase_forM _ (fun stmt => forM check_piece (split_re arrow_heads stmt))) by (intros x; apply erase_forM; exact piece_same).
    destruct (forM _ l); cbn [bind]; [|reflexivity].
    rewrite erase_bind, (erase_forM _ (fun stmt => if search illegal_chars stmt then Err IllegalCharacterError else Ok tt)).
    2:{ intros x. rewrite search_found. destruct (finditer illegal_chars x) as [|[t d] r]; reflexivity. }
    destruct (forM _ l); cbn [bind]; [|reflexivity].
    rewrite erase_bind, (erase_forM _ (fun stmt => forM check_param_match (map fst (finditer check_properties stmt)))) by (intros x; apply erase_forM; exact param_same).
    destruct (forM _ l); cbn [bind]; [apply rels_same|reflexivity].
  Qed.
  Lemma handles_same p : erase (validate_handles_m p) = validate_handles p.
  Proof. unfold validate_handles_m, validate_handles. destruct (Nat.eqb _ _); reflexivity. Qed.
  Lemma make_same q : erase (parse_make_m q) = parse_make q.
  Proof.
    unfold parse_make_m, parse_make. rewrite erase_bind, extract_same. destruct (extract_all_statements q MAKE) as [[ms|]|]; cbn [bind]; try reflexivity.
    rewrite erase_bind, validate_same. destruct (validate_statement ms); cbn [bind]; [|reflexivity].
    rewrite erase_bind, (erase_mapM _ build_parsed_make).
    - destruct (mapM build_parsed_make ms); reflexivity.
    - intros s. unfold build_parsed_make_m, build_parsed_make. cbv zeta. rewrite erase_bind, (erase_forM _ validate_handles) by exact handles_same.
      destruct (forM _ _); cbn [bind]; [|reflexivity]. destruct (re_match _ _); reflexivity.
  Qed.
  Lemma find_same q : erase (parse_find_m q) = parse_find q.
  Proof.
    unfold parse_find_m, parse_find. rewrite erase_bind, extract_same. destruct (extract_all_statements q FIND) as [[ms|]|]; cbn [bind]; try reflexivity.
    destruct (Nat.ltb _ _); [reflexivity|]. rewrite erase_bind, validate_same. destruct (validate_statement ms); cbn [bind]; [|reflexivity].
    destruct ms as [|s ms]; [reflexivity|]. rewrite erase_bind. unfold build_parsed_find_m, build_parsed_find. destruct (pattern_matches s) as [|p ps]; [reflexivity|].
    rewrite erase_bind, handles_same. destruct (validate_handles p); cbn [bind]; [|reflexivity]. destruct (re_match _ _); reflexivity.
  Qed.
  Lemma forM_cases {A} (f : A -> res unit) (e : exn) : (forall x, f x = Ok tt \/ f x = Err e) ->
    forall l, (forM f l = Ok tt /\ forall x, In x l -> f x = Ok tt) \/ (forM f l = Err e /\ exists x, In x l /\ f x = Err e).
  Proof.
    intros H. induction l as [|x l IH]; cbn [forM]; [left; split; [reflexivity|intros ? []]|].
    destruct (H x) as [E|E]; rewrite E; cbn [bind].
    - destruct IH as [[-> IH]|[-> (y & I & Hy)]]; [left|right]; (split; [reflexivity|]).
      + intros y [<-|I]; auto.
      + exists y. split; [right; exact I|exact Hy].
    - right. split; [reflexivity|]. exists x. split; [left; reflexivity|exact E].
  Qed.
  Lemma forM_order {A} (f : A -> res unit) (e : exn) (l l' : list A) : (forall x, f x = Ok tt \/ f x = Err e) -> (forall x, In x l <-> In x l') -> forM f l = forM f l'.
  Proof.
    intros H E. destruct (forM_cases f e H l) as [[-> A1]|[-> (x & I & A1)]], (forM_cases f e H l') as [[-> A2]|[-> (y & J & A2)]]; try reflexivity.
    - apply E in J. rewrite (A1 y J) in A2. discriminate.
    - apply E in I. rewrite (A2 x I) in A1. discriminate.
  Qed.
  Context (R : rt_ok rt).
  Lemma report_handles_same p rep : erase (check_find_report_handles_m (pattern_handles p) rep) = check_find_report_handles (pattern_handles p) rep.
  Proof.
    unfold check_find_report_handles_m, check_find_report_handles.
    rewrite (erase_forM _ (fun h => if contains h rep then Ok tt else Err FindReportHandleMissmatch)) by (intros h; destruct (contains h rep); reflexivity).
    apply forM_order with (e := FindReportHandleMissmatch); [intros h; destruct (contains h rep); auto|]. apply (rt_order rt R). apply s_of_list_NoDup.
  Qed.
  Lemma report_same q p : erase (parse_report_m q (pattern_handles p)) = parse_report q (pattern_handles p).
  Proof.
    unfold parse_report_m, parse_report. rewrite erase_bind, extract_same. destruct (extract_all_statements q REPORT) as [[[|rep more]|]|]; cbn [bind]; try reflexivity.
    destruct more; [|reflexivity]. rewrite erase_bind, report_handles_same. destruct (check_find_report_handles _ _); cbn [bind]; [|reflexivity]. destruct (re_match _ _); reflexivity.
  Qed.
  Theorem query_same q : erase (parse_query_string_m q) = parse_query_string q.
  Proof.
    unfold parse_query_string_m, parse_query_string. rewrite erase_bind, make_same. destruct (parse_make q); cbn [bind]; [|reflexivity].
    rewrite erase_bind, find_same. destruct (parse_find q) as [[f|]|]; cbn [bind]; try reflexivity.
    rewrite erase_bind, report_same. destruct (parse_report _ _); reflexivity.
  Qed.

  (** ** what the messages say *)
  Lemma first_found r s l : Scanned r s l -> forall w d m, mats l = (w, d) :: m ->
    exists a b, s = a ++ w ++ b /\ Lang r w d /\ (forall a1 x a2, a = a1 ++ x :: a2 -> NoMatch r (x :: a2 ++ w ++ b)).
  Proof.
    assert (Z : forall w b, forall a1 x a2, @nil N = a1 ++ x :: a2 -> NoMatch r (x :: a2 ++ w ++ b)) by (intros w b [|y a1] x a2 E; discriminate).
    induction 1 as [H|x s l H S IH|w0 s d0 l B N S IH|d0 B|x s d0 l B N S IH|w0 s d0 d1 l B B1 S IH]; intros w d m E; cbn [mats] in E.
    - discriminate.
    - destruct (IH w d m E) as (a & b & -> & L & F). exists (x :: a), b. split; [reflexivity|]. split; [exact L|].
      intros [|y a1] z a2 Ea; cbn in Ea; inv Ea; [exact H|]. eapply F. reflexivity.
    - inv E. exists [], s. split; [reflexivity|]. split; [eapply Best_Lang; exact B|apply Z].
    - inv E. exists [], []. split; [reflexivity|]. split; [eapply Best_Lang; exact B|apply Z].
    - inv E. exists [], (x :: s). split; [reflexivity|]. split; [eapply Best_Lang; exact B|apply Z].
    - inv E. exists [], (w0 ++ s). split; [reflexivity|]. split; [eapply Best_Lang; exact B|apply Z].
  Qed.
  Lemma finditer_first r s w d m : finditer r s = (w, d) :: m ->
    exists a b, s = a ++ w ++ b /\ Lang r w d /\ (forall a1 x a2, a = a1 ++ x :: a2 -> NoMatch r (x :: a2 ++ w ++ b)).
  Proof. apply first_found. apply scan_Scanned. Qed.

  Lemma keyword_same c : clause_value c = keyword c.
  Proof. destruct c; reflexivity. Qed.
  Lemma spelling_bad q c e m : Extracted (StatementOf c) q [] -> c <> CRITERIA -> check_clause_spelling_m q c = Bad e m -> exists m', m = Some m' /\ explains q e m'.
  Proof.
    intros X NC. assert (CL : forall c, c = MAKE \/ c = FIND -> Extracted (StatementOf c) q [] -> forall t d l, finditer (clause_perms (keyword c)) q = (t, d) :: l ->
      explains q ClauseSyntaxError (Text (py "SyntaxError: " ++ the_keyword d ++ did_you_mean c))).
    { clear c X NC. intros c C X t d l E. apply finditer_first in E as (a & b & -> & L & _). apply Lang_clause_perms in L as (s1 & k & s2 & -> & -> & _ & A & O).
      unfold the_keyword, did_you_mean. cbn [cap gname_eqb]. rewrite keyword_same. apply x_call with (a := a ++ s1) (sp := s2) (b := b); auto. rewrite <- !app_assoc. reflexivity. }
    destruct c; cbn [check_clause_spelling_m]; intros H.
    - destruct (finditer make_check_syntax q) as [|[t d] l] eqn:E; inv H. eexists. split; [reflexivity|]. exact (CL MAKE (or_introl eq_refl) X t d l E).
    - destruct (finditer find_check_syntax q) as [|[t d] l] eqn:E; inv H. eexists. split; [reflexivity|]. exact (CL FIND (or_intror eq_refl) X t d l E).
    - congruence.
    - destruct (finditer report_check_syntax q) as [|[t d] l] eqn:E; inv H. eexists. split; [reflexivity|].
      apply finditer_first in E as (a & b & -> & L & _). apply Lang_report_check in L as (k & u & -> & -> & A & N & NL).
      unfold the_keyword, did_you_mean. cbn [cap gname_eqb clause_value]. eapply x_report; eauto.
  Qed.
  Lemma extract_bad q c e m : c <> CRITERIA -> extract_all_statements_m q c = Bad e m -> exists m', m = Some m' /\ explains q e m'.
  Proof.
    intros NC H. unfold extract_all_statements_m in H. destruct (map fst (finditer (clause_regex c) q)) as [|x l] eqn:E; [|destruct c; congruence].
    apply (extract_spec q c _ NC) in E. assert (H' : (letm _ := check_clause_spelling_m q c in Good (@None (list pystr))) = Bad e m) by (destruct c; congruence).
    apply bindm_bad in H' as [H'|(u & _ & H')]; [|discriminate]. eapply spelling_bad; eauto.
  Qed.
  Lemma extract_good q c ms : extract_all_statements_m q c = Good (Some ms) -> c <> CRITERIA /\ Extracted (StatementOf c) q ms.
  Proof.
    intros H. assert (NC : c <> CRITERIA) by (intros ->; discriminate). split; [exact NC|]. apply (extract_spec q c _ NC).
    unfold extract_all_statements_m in H. destruct (map fst (finditer (clause_regex c) q)) as [|x l] eqn:E; [|destruct c; congruence].
    assert (H' : (letm _ := check_clause_spelling_m q c in Good (@None (list pystr))) = Good (Some ms)) by (destruct c; congruence).
    destruct (check_clause_spelling_m q c); discriminate.
  Qed.

  Lemma piece_segment s p : In p (split_re arrow_heads s) -> p = [] \/ Segment s p.
  Proof.
    assert (F : Forall (fun p => p = [] \/ Segment s p) (split_re arrow_heads s)).
    { unfold split_re, arrow_heads. apply split_re_split1; [left; reflexivity|]. apply split1_Segment; [intros c []|]. cbn [rev app].
      intros seg b (a & E & H). right. exists a, b. auto. }
    rewrite Forall_forall in F. apply F.
  Qed.
  Lemma odd_is a b s : a <> b -> Nat.odd (count2 a b s) = true -> odd a b s.
  Proof. intros N H. rewrite count2_occ in H by exact N. unfold odd, even. rewrite <- Nat.even_spec, <- Nat.negb_odd, H. discriminate. Qed.
  Lemma even_is a b s : a <> b -> Nat.odd (count2 a b s) = false -> even a b s.
  Proof. intros N H. rewrite count2_occ in H by exact N. unfold even. rewrite <- Nat.even_spec, <- Nat.negb_odd, H. reflexivity. Qed.

  Definition says_why (q : pystr) (e : exn) (m : option message) : Prop :=
    match m with Some m' => explains q e m' | None => python_error e end.
  Lemma validate_bad q c ms e m : c = MAKE \/ c = FIND -> Extracted (StatementOf c) q ms -> validate_statement_m ms = Bad e m -> says_why q e m.
  Proof.
    intros C X H. assert (SO : forall s, In s ms -> stmt_of q c s) by (intros s I; split; [exact C|]; exists ms; auto).
    unfold validate_statement_m in H. apply bindm_bad in H as [H|(u & _ & H)]; [|apply bindm_bad in H as [H|(u1 & _ & H)]; [|apply bindm_bad in H as [H|(u2 & _ & H)]]].
    - apply forMm_bad in H as (s & I & H). apply forMm_bad in H as (p & J & H). apply piece_segment in J.
      assert (SP : p = [] -> forall a b, Nat.odd (count2 a b p) = false) by (intros ->; reflexivity).
      unfold check_piece_m in H. destruct (Nat.odd (count2 40 41 p)) eqn:O1; [|destruct (Nat.odd (count2 123 125 p)) eqn:O2; [|destruct (Nat.odd (count2 91 93 p)) eqn:O3; [|discriminate]]];
        inv H; cbn [says_why]; unfold in_arrows; rewrite ?app_assoc; rewrite <- ?app_assoc; (destruct J as [J|J]; [rewrite (SP J) in *; discriminate|]).
      + eapply x_paren; [apply SO; exact I|exact J|apply odd_is; [discriminate|exact O1]].
      + eapply x_curly; [apply SO; exact I|exact J|apply even_is; [discriminate|exact O1]|apply odd_is; [discriminate|exact O2]].
      + eapply x_square; [apply SO; exact I|exact J|apply even_is; [discriminate|exact O1]|apply even_is; [discriminate|exact O2]|apply odd_is; [discriminate|exact O3]].
    - apply forMm_bad in H as (s & I & H). destruct (finditer illegal_chars s) as [|[t d] l] eqn:E; inv H. cbn [says_why].
      apply finditer_first in E as (a & b & E & L & F). apply Lang_set in L as (x & -> & L & ->). apply is_illegal_In in L.
      eapply x_illegal with (a := a) (b := b); [apply SO; exact I|exact E| |exact L].
      intros (y & Iy & Hy). apply in_split in Iy as (a1 & a2 & ->). apply (F a1 y a2 eq_refl [y] (a2 ++ [x] ++ b) []); [reflexivity|].
      apply Lang_set. exists y. split; [reflexivity|]. split; [|reflexivity]. apply is_illegal_In. exact Hy.
    - apply forMm_bad in H as (s & I & H). apply forMm_bad in H as (t & J & H). unfold check_param_match_m in H. cbv zeta in H.
      apply bindm_bad in H as [H|(u2 & _ & H)].
      + unfold check_property_syntax_m in H. destruct (Nat.eqb _ _) eqn:E; inv H. cbn [says_why].
        apply Nat.eqb_neq in E. rewrite !count_ch_occ in E.
        eapply x_count; [apply SO; exact I|apply props_found|exact J|apply sub_empty_spec|lia].
      + apply forMm_bad in H as (l & K & H). unfold check_list_m in H. destruct (literal_eval l) as [v|x] eqn:E; [discriminate|].
        assert (D : x = SyntaxError \/ x <> SyntaxError) by (destruct (exn_eq_dec x SyntaxError); auto). destruct D as [-> |D].
        * inv H. cbn [says_why]. eapply x_list; [apply SO; exact I|apply props_found|exact J|apply sub_empty_spec|exact K|exact E].
        * assert (Bad x None = Bad e m) as B by (destruct x; try exact H; congruence). inv B. right. right. right. exists l. auto.
    - assert (G : forall l, incl l ms -> check_relationships_m l = Bad e m -> exists s r, In s l /\ In r (rel_matches s) /\ check_rel_m r = Bad e m).
      { clear H. induction l as [|s l IH]; intros IN H; cbn [check_relationships_m] in H; [discriminate|]. destruct (rel_matches s) as [|r rs] eqn:E; [discriminate|].
        apply bindm_bad in H as [H|(u3 & _ & H)].
        - apply forMm_bad in H as (r' & I & H). exists s, r'. split; [left; reflexivity|]. rewrite E. auto.
        - destruct (IH (fun x Hx => IN x (or_intror Hx)) H) as (s' & r' & I1 & I2 & I3). exists s', r'. split; [right; exact I1|auto]. }
      destruct (G ms (fun x Hx => Hx) H) as (s & [t n] & I & J & K). pose proof (rel_matches_are R s) as RM. unfold check_rel_m in K.
      assert (CT : forall x, contains [x] t = true <-> In x t).
      { intros x. rewrite contains_app. split; [intros (a & b & ->); apply in_or_app; right; left; reflexivity|]. intros HI. apply in_split in HI as (a & b & ->). exists a, b. reflexivity. }
      change (py "<") with [60%N] in K. change (py ">") with [62%N] in K.
      destruct (contains [60%N] t) eqn:E1, (contains [62%N] t) eqn:E2; cbn [andb negb] in K.
      + inv K. cbn [says_why]. eapply x_two; [apply SO; exact I|exact RM|exact J|apply CT; exact E1|apply CT; exact E2].
      + destruct (negb (str_isupper n) && negb (Nat.eqb (List.length n) 0))%bool eqn:E3; inv K. cbn [says_why]. apply andb_true_iff in E3 as [E3 E4].
        eapply x_name; [apply SO; exact I|exact RM|exact J|intros ->; discriminate|destruct (str_isupper n); [discriminate|reflexivity]].
      + destruct (negb (str_isupper n) && negb (Nat.eqb (List.length n) 0))%bool eqn:E3; inv K. cbn [says_why]. apply andb_true_iff in E3 as [E3 E4].
        eapply x_name; [apply SO; exact I|exact RM|exact J|intros ->; discriminate|destruct (str_isupper n); [discriminate|reflexivity]].
      + inv K. cbn [says_why]. eapply x_none; [apply SO; exact I|exact RM|exact J| |]; intros Y; apply CT in Y; congruence.
  Qed.
  Lemma handles_bad q c s p e m : stmt_of q c s -> In p (pattern_matches s) -> validate_handles_m p = Bad e m -> says_why q e m.
  Proof.
    intros S I H. unfold validate_handles_m in H. destruct (Nat.eqb _ _) eqn:E; inv H. cbn [says_why]. eapply x_handles; [exact S|exact I|].
    intros N. apply Nat.eqb_neq in E. apply E. symmetry; apply s_of_list_length; exact N.
  Qed.
  Lemma make_bad q e m : parse_make_m q = Bad e m -> says_why q e m.
  Proof.
    intros H. unfold parse_make_m in H. apply bindm_bad in H as [H|(o & E & H)].
    - apply extract_bad in H as (m' & -> & H); [exact H|discriminate].
    - destruct o as [ms|]; [|discriminate]. apply extract_good in E as [_ X]. apply bindm_bad in H as [H|(u & _ & H)]; [exact (validate_bad q MAKE ms e m (or_introl eq_refl) X H)|].
      apply bindm_bad in H as [H|(l & _ & H)]; [|discriminate]. apply mapMm_bad in H as (s & I & H). unfold build_parsed_make_m in H. cbv zeta in H.
      apply bindm_bad in H as [H|(u2 & _ & H)].
      + apply forMm_bad in H as (p & J & H). apply (handles_bad q MAKE s p e m); [split; [auto|]; exists ms; auto|exact J|exact H].
      + destruct (re_match make_field s); inv H. cbn [says_why]. unfold python_error. auto.
  Qed.
  Lemma find_bad q e m : parse_find_m q = Bad e m -> says_why q e m.
  Proof.
    intros H. unfold parse_find_m in H. apply bindm_bad in H as [H|(o & E & H)].
    - apply extract_bad in H as (m' & -> & H); [exact H|discriminate].
    - destruct o as [ms|]; [|discriminate]. apply extract_good in E as [_ X]. destruct (Nat.ltb 1 (List.length ms)) eqn:L.
      + inv H. cbn [says_why]. unfold only_one. rewrite keyword_same. apply x_many with (ms := ms); [auto|exact X|]. apply Nat.ltb_lt. exact L.
      + apply bindm_bad in H as [H|(u & _ & H)]; [exact (validate_bad q FIND ms e m (or_intror eq_refl) X H)|]. destruct ms as [|s ms]; [discriminate|].
        apply bindm_bad in H as [H|(f & _ & H)]; [|discriminate]. unfold build_parsed_find_m in H. destruct (pattern_matches s) as [|p ps] eqn:EP.
        * inv H. cbn [says_why]. unfold python_error. auto.
        * apply bindm_bad in H as [H|(u2 & _ & H)].
          -- apply (handles_bad q FIND s p e m); [split; [auto|]; exists (s :: ms); split; [exact X|left; reflexivity]|rewrite EP; left; reflexivity|exact H].
          -- destruct (re_match find_field s); inv H. cbn [says_why]. unfold python_error. auto.
  Qed.
  Theorem messages_explain q e m : parse_query_string_m q = Bad e m -> says_why q e m.
  Proof.
    intros H. unfold parse_query_string_m in H. apply bindm_bad in H as [H|(mk & _ & H)]; [apply make_bad; exact H|].
    apply bindm_bad in H as [H|(fd & EF & H)]; [apply find_bad; exact H|]. destruct fd as [f|]; [|inv H; cbn [says_why]; unfold python_error; auto].
    apply bindm_bad in H as [H|(rp & _ & H)]; [|discriminate]. unfold parse_report_m in H. apply bindm_bad in H as [H|(o & E & H)].
    - apply extract_bad in H as (m' & -> & H); [exact H|discriminate].
    - destruct o as [[|rep more]|]; try discriminate. apply extract_good in E as [_ X]. destruct more as [|r2 more].
      + apply bindm_bad in H as [H|(u & _ & H)].
        * apply forMm_bad in H as (h & I & H). destruct (contains h rep) eqn:CT; inv H. cbn [says_why]. unfold in_arrows. rewrite ?app_assoc; rewrite <- ?app_assoc.
          apply x_missing with (f := f); [rewrite <- find_same, EF; reflexivity| |exact X|].
          -- apply (proj2 (rt_order rt R (pattern_handles (pf_pattern f)) (s_of_list_NoDup _)) h) in I. unfold pattern_handles in I. apply -> s_of_list_In in I. exact I.
          -- intros a b ->. assert (contains h (a ++ h ++ b) = true) by (apply contains_app; eauto). congruence.
        * destruct (re_match report_field rep); inv H. cbn [says_why]. unfold python_error. auto.
      + inv H. cbn [says_why]. unfold only_one. rewrite keyword_same. apply x_many with (ms := rep :: r2 :: more); [auto|exact X|cbn; lia].
  Qed.

  (** ** a statement that is only unfinished *)
  Lemma none_extracted (P : pystr -> Prop) q : (forall a m b, q = a ++ m ++ b -> ~ P m) -> Extracted P q [].
  Proof.
    induction q as [|x q IH]; intros H; [constructor|]. apply Ex_skip; [intros m rest E; apply (H [] m rest E)|].
    apply IH. intros a m b ->. apply (H (x :: a) m b eq_refl).
  Qed.
  Lemma unfinished_make b : (forall a c, py "MAKE (" ++ b <> a ++ py ");" ++ c) ->
    parse_query_string_m (py "MAKE (" ++ b) = Bad ClauseSyntaxError (Some (Text (py "SyntaxError: MAKE was not recognised did you mean MAKE?"))).
  Proof.
    intros H. assert (X : Extracted (StatementOf MAKE) (py "MAKE (" ++ b) []).
    { apply none_extracted. intros a m c E (k & sp & body & -> & _). apply (H (a ++ k ++ sp ++ py "(" ++ body) c). rewrite E, <- !app_assoc. reflexivity. }
    apply (extract_spec _ MAKE) in X; [|discriminate]. unfold parse_query_string_m, parse_make_m, extract_all_statements_m. rewrite X. cbn [check_clause_spelling_m].
    assert (AN : Anagram (py "MAKE") (py "MAKE")).
    { exists (py "MAKE"). split; [reflexivity|]. repeat constructor; apply ci_eqb_ascii_refl; reflexivity. }
    assert (L0 : Lang make_check_syntax (py "MAKE (") [(GKeyword, py "MAKE")]).
    { apply Lang_clause_perms. exists [], (py "MAKE"), (py " "). repeat split; auto; [left; reflexivity|]. right. exists 32%N. auto. }
    destruct (finditer make_check_syntax (py "MAKE (" ++ b)) as [|[w d] l] eqn:E.
    - exfalso. assert (S : search make_check_syntax (py "MAKE (" ++ b) = true) by (apply search_spec; exists [], (py "MAKE ("), b, [(GKeyword, py "MAKE")]; auto).
      rewrite search_found, E in S. discriminate.
    - apply finditer_first in E as (a & c & E & L & F). destruct a as [|x a].
      + apply Lang_clause_perms in L as (s1 & k & s2 & -> & -> & O1 & (p & Pm & Ck) & _). destruct O1 as [-> |(x & -> & Sx)].
        * assert (Lk : List.length k = 4) by (apply Permutation_length in Pm; apply IndexText.Forall2_len in Ck; rewrite <- Ck, <- Pm; reflexivity).
          do 4 (destruct k as [|? k]; [discriminate|]). destruct k; [|discriminate]. cbn in E. inv E. reflexivity.
        * cbn in E. inv E. discriminate Sx.
      + exfalso. apply (F [] x a eq_refl (py "MAKE (") b [(GKeyword, py "MAKE")]); [|exact L0]. rewrite E. reflexivity.
  Qed.

  (** ** properties *)
  Lemma type_same n v c : erase (yield_type_m n v c) = yield_type c.
  Proof. unfold yield_type_m, yield_type. destruct (found_types c) as [|t [|t2 ts]]; reflexivity. Qed.
  Lemma extracted_same n c v : erase (handle_extracted_m n c v) = handle_extracted c v.
  Proof.
    unfold handle_extracted_m, handle_extracted. rewrite erase_bind, type_same. destruct (yield_type c) as [t|]; cbn [bind]; [|reflexivity].
    generalize (clean v) as x. intros x. destruct t.
    - unfold handle_null_m, handle_null. destruct (str_eqb x _); reflexivity.
    - unfold handle_bool_m, handle_bool. destruct (str_eqb x (py "true")); [reflexivity|]. destruct (str_eqb x (py "false")); [reflexivity|].
      destruct (str_eqb x _); [reflexivity|]. destruct (str_eqb x _); reflexivity.
    - unfold handle_float_m, handle_float. destruct (contains _ x); [|reflexivity]. destruct (f_repr x); reflexivity.
    - unfold handle_int_m, handle_int. cbv zeta. destruct (contains _ x); [reflexivity|]. destruct x; [reflexivity|]. destruct (forallb _ _ && _); reflexivity.
    - unfold handle_list_m, handle_list. destruct (literal_eval _) as [y|e]; [reflexivity|]. destruct e; reflexivity.
    - unfold handle_string_m, handle_string. unfold reserved_strings. cbn [existsb]. rewrite !orb_false_r.
      destruct (str_eqb x (py "Null")), (str_eqb x (py "None")), (str_eqb x (py "none")), (str_eqb x (py "true")), (str_eqb x (py "True")), (str_eqb x (py "false")), (str_eqb x (py "False")); reflexivity.
  Qed.
  Lemma property_same s c : erase (one_property_m s c) = one_property c.
  Proof.
    unfold one_property_m, one_property. destruct (cap GPropName c) as [n|]; [|reflexivity]. destruct (cap GPropValue c) as [v|]; [|reflexivity].
    destruct (strip is_space v); [reflexivity|]. rewrite erase_bind, extracted_same. destruct (handle_extracted c v); reflexivity.
  Qed.
  Theorem properties_same o : erase (get_property_dict_m o) = get_property_dict o.
  Proof.
    assert (L : forall s ms d, erase (props_loop_m s ms d) = props_loop ms d).
    { intros s ms. induction ms as [|[t c] ms IH]; intros d; cbn [props_loop_m props_loop]; [reflexivity|]. rewrite erase_bind, property_same.
      destruct (one_property c); cbn [bind]; auto. }
    unfold get_property_dict_m, get_property_dict. destruct o as [[|x s]|]; try reflexivity. rewrite erase_bind. unfold parse_properties_m, parse_properties. rewrite L.
    destruct (props_loop _ _); reflexivity.
  Qed.
  Context (D : rt_data rt).
  Lemma one_bad s k t v w e m : Lang all_properties w (prop_caps k t v) -> one_property_m s (prop_caps k t v) = Bad e m -> refused s k t v e m.
  Proof.
    intros L. apply Lang_all_properties in L as (name & value & more & E1 & _ & _ & E2 & L & E).
    assert (Em : more = [(group_of t, v)] /\ value = v).
    { unfold prop_caps in E. injection E as -> E. change [(group_of t, value); (GPropName, k)] with ([(group_of t, value)] ++ [(GPropName, k)]) in E.
      apply app_inj_tail in E as [-> _]. auto. }
    destruct Em as [-> ->]. clear E E1 E2 name w.
    assert (Y : yield_type_m k v (prop_caps k t v) = Good t) by (destruct t; reflexivity).
    unfold one_property_m. change (cap GPropValue (prop_caps k t v)) with (Some v).
    replace (cap GPropName (prop_caps k t v)) with (Some k) by (destruct t; reflexivity). cbv iota. unfold handle_extracted_m. rewrite Y. cbn [bindm].
    unfold value_alts in L. apply Lang_alts in L as (re & Hre & L).
    assert (Go : forall h : pystr -> resm pyval, v <> [] -> Forall (fun x => is_word x = true \/ x = 46%N) v ->
      match strip is_space v with [] => illegal (py "Error for setting property in " ++ s ++ py " " ++ k ++ py " was empty a value must be supplied") | _ :: _ => letm x := h (clean v) in Good (k, x) end = Bad e m ->
      h v = Bad e m).
    { intros h NE F H. rewrite (words_clean D) in H by exact F. pose proof (words_strip D v NE F). destruct (strip is_space v); [congruence|].
      apply bindm_bad in H as [H|(x & _ & H)]; [exact H|discriminate]. }
    assert (WD : forall v, Forall (fun x => is_word x = true) v -> Forall (fun x => is_word x = true \/ x = 46%N) v) by (intros ? H; eapply Forall_impl; [|exact H]; auto).
    cbn [In] in Hre. destruct Hre as [<-|[<-|[<-|[<-|[<-|[<-|[]]]]]]]; apply Lang_grp in L as (c & Ec & L); destruct t; try discriminate Ec; cbv iota.
    - assert (F : Forall (fun x => is_word x = true) v) by (eapply (ci_words D); [|exact L]; repeat constructor).
      assert (NE : v <> []) by (intros ->; apply Lang_lit_ci in L as [L _]; inv L).
      intros H. apply (Go handle_null_m NE (WD v F)) in H. unfold handle_null_m in H. destruct (str_eqb v (py "null")) eqn:E; inv H.
      apply rf_null. apply str_eqb_neq. exact E.
    - assert (F : Forall (fun x => is_word x = true) v).
      { apply Lang_alt in L as [L|L]; (eapply (ci_words D); [|exact L]; repeat constructor). }
      assert (NE : v <> []) by (intros ->; apply Lang_alt in L as [L|L]; apply Lang_lit_ci in L as [L _]; inv L).
      intros H. apply (Go handle_bool_m NE (WD v F)) in H. unfold handle_bool_m in H.
      destruct (str_eqb v (py "true")) eqn:E1; [discriminate|]. destruct (str_eqb v (py "false")) eqn:E2; [discriminate|].
      destruct (str_eqb v (py "True")) eqn:E3; [apply str_eqb_eq in E3; subst v; inv H; apply rf_true|].
      destruct (str_eqb v (py "False")) eqn:E4; [apply str_eqb_eq in E4; subst v; inv H; apply rf_false|].
      inv H. apply rf_bool. apply str_eqb_neq in E1, E2, E3, E4. intros [I|[I|[I|[I|[]]]]]; congruence.
    - apply Lang_cat in L as (a & ? & c1 & c2 & -> & -> & L1 & L2). apply Lang_cat in L2 as (d & b & c3 & c4 & -> & -> & L2 & L3).
      apply Lang_Plus in L1 as (Na & Fa & ->). apply Lang_ch in L2 as [-> ->]. apply Lang_Plus in L3 as (Nb & Fb & ->).
      assert (Dg : forall v, Forall (fun x => is_digit x = true) v -> Forall (fun x => is_word x = true \/ x = 46%N) v).
      { intros v H. eapply Forall_impl; [|exact H]. intros x Hx. left. apply (digit_word D). exact Hx. }
      assert (F : Forall (fun x => is_word x = true \/ x = 46%N) (a ++ [46%N] ++ b)) by (apply Forall_app; split; [auto|]; apply Forall_app; split; auto).
      assert (NE : a ++ [46%N] ++ b <> []) by (destruct a; [congruence|discriminate]).
      assert (Ct : contains (py ".") (a ++ [46%N] ++ b) = true) by (apply contains_app; exists a, b; reflexivity).
      intros H. apply (Go handle_float_m NE F) in H. unfold handle_float_m in H. rewrite Ct in H.
      destruct (f_repr (a ++ [46%N] ++ b)) as [x|] eqn:Ef; [discriminate|]. inv H. apply rf_float. exact Ef.
    - apply Lang_Plus in L as (NE & F & _).
      assert (F' : Forall (fun x => is_word x = true \/ x = 46%N) v).
      { eapply Forall_impl; [|exact F]. intros x Hx. left. apply (digit_word D), digit0_is_digit. exact Hx. }
      intros H. apply (Go handle_int_m NE F') in H. unfold handle_int_m in H. rewrite not_dot in H by auto. cbv zeta in H.
      destruct v as [|x v]; [congruence|]. rewrite (proj2 (forallb_forall _ _)) in H by (apply Forall_forall; exact F).
      cbn [andb] in H. destruct (int_fits _) eqn:Ei; [discriminate|]. inv H. apply rf_int. unfold short_enough. rewrite Ei. discriminate.
    - apply Lang_cat in L as (a & ? & c1 & c2 & -> & -> & L1 & L2). apply Lang_cat in L2 as (d & b & c3 & c4 & -> & -> & L2 & L3).
      apply Lang_ch in L1 as [-> ->]. apply Lang_Plus in L2 as (Nd & Fd & ->). apply Lang_ch in L3 as [-> ->].
      assert (Es : strip is_space ([91%N] ++ d ++ [93%N]) <> []) by (apply strip_ne; reflexivity).
      change ([91%N] ++ d ++ [93%N]) with (py "[" ++ d ++ py "]") in *. rewrite clean_list. unfold handle_list_m.
      change (pythonise (py "[" ++ d ++ py "]")) with (respelt (py "[" ++ d ++ py "]")). intros H.
      destruct (strip is_space (py "[" ++ d ++ py "]")); [congruence|]. apply bindm_bad in H as [H|(x & _ & H)]; [|discriminate].
      destruct (literal_eval (respelt (py "[" ++ d ++ py "]"))) as [x|e'] eqn:El; [discriminate|].
      destruct (exn_eq_dec e' SyntaxError) as [->|Ne]; [inv H; apply rf_list; exact El|].
      assert (B : @Bad pyval e' None = Bad e m) by (destruct e'; congruence). inv B. apply rf_list_err; auto.
    - destruct (strip is_space v) as [|y z] eqn:Es.
      + intros H. inv H. apply rf_blank, strip_all_space; exact Es.
      + assert (T : Trimmed v (clean v)) by (apply Trimmed_clean; reflexivity). intros H. apply bindm_bad in H as [H|(x & _ & H)]; [|discriminate].
        unfold handle_string_m in H. destruct (existsb (str_eqb (clean v)) [py "Null"; py "None"; py "none"]) eqn:E1.
        * apply existsb_exists in E1 as (x & Hx & E1). apply str_eqb_eq in E1. inv H. eapply rf_null_word; [exact T|]. exact Hx.
        * destruct (existsb (str_eqb (clean v)) [py "true"; py "True"; py "false"; py "False"]) eqn:E2; [|discriminate].
          apply existsb_exists in E2 as (x & Hx & E2). apply str_eqb_eq in E2. inv H. eapply rf_bool_word; [exact T|]. exact Hx.
  Qed.
  Theorem refused_property s e m : parse_properties_m s = Bad e m ->
    exists l1 k t v l2, PropsOf s (l1 ++ (k, t, v) :: l2) /\ Forall (fun p => exists x, SpecProps.reads (snd (fst p)) (snd p) (Ok x)) l1 /\ refused s k t v e m.
  Proof.
    intros H. destruct (Scanned_props D s _ (scan_Scanned all_properties s)) as (l & P & E).
    assert (F : Forall (fun p => exists w, Lang all_properties w (caps_of p)) l).
    { apply Forall_forall. intros p Hp. apply (in_map caps_of) in Hp. rewrite <- E in Hp. apply in_map_iff in Hp as ([w c] & Ec & Hin). cbn [snd] in Ec.
      exists w. rewrite <- Ec. eapply finditer_Lang. exact Hin. }
    assert (G : forall l ms d, map snd ms = map caps_of l -> Forall (fun p => exists w, Lang all_properties w (caps_of p)) l -> props_loop_m s ms d = Bad e m ->
      exists l1 k t v l2, l = l1 ++ (k, t, v) :: l2 /\ Forall (fun p => exists x, SpecProps.reads (snd (fst p)) (snd p) (Ok x)) l1 /\ refused s k t v e m).
    { clear l P E F H. induction l as [|[[k t] v] l IH]; intros ms d E F H; destruct ms as [|[w c] ms]; try discriminate E; [discriminate H|].
      cbn [map snd] in E. injection E as -> E. inv F. destruct H2 as (w' & L). change (caps_of (k, t, v)) with (prop_caps k t v) in *.
      cbn [props_loop_m] in H. apply bindm_bad in H as [H|(kv & Eo & H)].
      - exists [], k, t, v, l. split; [reflexivity|]. split; [constructor|]. eapply one_bad; eauto.
      - destruct (IH ms _ E H3 H) as (l1 & k' & t' & v' & l2 & -> & O & Rf). exists ((k, t, v) :: l1), k', t', v', l2. split; [reflexivity|]. split; [|exact Rf].
        constructor; [|exact O]. destruct (one_read D k t v w' L) as (r & Rd & Er). pose proof (property_same s (prop_caps k t v)) as Z. rewrite Eo, Er in Z. cbn [erase] in Z.
        destruct r as [x|]; [|discriminate]. exists x. exact Rd. }
    destruct (G l _ [] E F H) as (l1 & k & t & v & l2 & -> & O & Rf). exists l1, k, t, v, l2. auto.
  Qed.
End MessagesFacts.
