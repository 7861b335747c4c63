(** * StatementFacts: whole statements (C09, C11, C12) *)
From Verif Require Import PyBase BaseFacts Regex RegexSpec RegexFacts RegexMore Patterns SpecText SpecPattern SpecGrammar PatternFacts GrammarFacts Checks ChecksFacts Statements.
From Coq Require Import ZifyBool ZifyN ZifyNat.

Section StatementFacts.
  Context {rt : PyRt}.

  (** ** duplicate handles *)
  Lemma handle_names_given p : handle_names p = given_handles p.
  Proof. unfold handle_names, given_handles, truthy_list. cbn [flat_map]. rewrite !app_nil_r. reflexivity. Qed.
  Lemma validate_handles_cases p :
    (NoDup (given_handles p) /\ validate_handles p = Ok tt) \/
    (~ NoDup (given_handles p) /\ validate_handles p = Err MakeDuplicateHandlesError).
  Proof.
    unfold validate_handles. rewrite handle_names_given. pose proof (s_of_list_length (given_handles p)) as H.
    destruct (Nat.eqb_spec (List.length (given_handles p)) (List.length (s_of_list (given_handles p)))); [left|right]; split; auto.
    - apply H. auto.
    - rewrite <- H. auto.
  Qed.
  Lemma forM_handles ps :
    (Forall (fun p => NoDup (given_handles p)) ps /\ forM validate_handles ps = Ok tt) \/
    (Exists (fun p => ~ NoDup (given_handles p)) ps /\ forM validate_handles ps = Err MakeDuplicateHandlesError).
  Proof.
    induction ps as [|p ps IH]; [left; split; [constructor|reflexivity]|]. cbn [forM].
    destruct (validate_handles_cases p) as [[N ->]|[N ->]]; [|right; split; [left; exact N|reflexivity]]. cbn [bind].
    destruct IH as [[F ->]|[F ->]]; [left|right]; split; auto.
  Qed.

  (** ** the case of the keyword *)
  Lemma re_match_Lang r s : re_match r s = true <-> exists w rest d, s = w ++ rest /\ Lang r w d.
  Proof.
    unfold re_match. rewrite <- match_here_some. destruct (match_here r s); split; try discriminate; eauto. intros [m Hm]. discriminate.
  Qed.
  Lemma clause_field kw lo k sp body : List.length lo = List.length kw -> List.length k = List.length kw ->
    all_space sp -> body <> [] -> no_newline body ->
    (re_match (clause_all_cs kw lo) (k ++ sp ++ py "(" ++ body ++ py ");") = true <-> k = kw \/ k = lo).
  Proof.
    intros Ll Lk B NB NN. rewrite re_match_Lang. split.
    - intros (w & rest & d & E & L). unfold clause_all_cs in L. apply Lang_cats_cons in L as (u & v & c & d' & -> & -> & L & _).
      apply Lang_alt in L as [L|L]; apply Lang_lit in L as [-> _]; rewrite <- app_assoc in E.
      + left. apply (f_equal (firstn (List.length k))) in E. rewrite firstn_app, Nat.sub_diag, firstn_all in E. cbn in E.
        rewrite Lk in E. rewrite firstn_app, Nat.sub_diag, firstn_all in E. cbn in E. rewrite !app_nil_r in E. exact E.
      + right. apply (f_equal (firstn (List.length k))) in E. rewrite firstn_app, Nat.sub_diag, firstn_all in E. cbn in E.
        rewrite Lk, <- Ll in E. rewrite firstn_app, Nat.sub_diag, firstn_all in E. cbn in E. rewrite !app_nil_r in E. exact E.
    - intros HK. exists (k ++ sp ++ py "(" ++ body ++ py ");"), [], []. split; [rewrite app_nil_r; reflexivity|].
      unfold clause_all_cs. apply Lang_cats_cons. exists k, (sp ++ py "(" ++ body ++ py ");"), [], []. split; [reflexivity|]. split; [reflexivity|].
      split. { apply Lang_alt. destruct HK as [-> | ->]; [left|right]; apply Lang_lit; auto. }
      apply Lang_cats_cons. exists sp, (py "(" ++ body ++ py ");"), [], []. do 2 (split; [reflexivity|]). split; [apply Lang_star; auto|].
      apply Lang_cats_cons. exists (py "("), (body ++ py ");"), [], []. do 2 (split; [reflexivity|]). split; [apply Lang_ch; auto|].
      apply Lang_cats_cons. exists body, (py ");"), [], []. do 2 (split; [reflexivity|]). split.
      { apply Lang_Plus. split; [exact NB|]. split; [|reflexivity]. apply Forall_forall. intros x Hx. unfold not_nl.
        destruct (N.eqb_spec x 10); [subst; contradiction|reflexivity]. }
      apply Lang_cats_cons. exists (py ")"), (py ";"), [], []. do 2 (split; [reflexivity|]). split; [apply Lang_ch; auto|].
      apply Lang_cats_cons. exists (py ";"), [], [], []. do 2 (split; [reflexivity|]). split; [apply Lang_ch; auto|]. apply Lang_cats_nil. auto.
  Qed.

  (** ** building one MAKE *)
  Lemma Ci_length kw k : Ci kw k -> List.length k = List.length kw.
  Proof. induction 1; cbn [List.length]; congruence. Qed.
  Lemma starts_same kw k r : List.length k = List.length kw -> starts kw (k ++ r) -> k = kw.
  Proof.
    intros L [r' E]. apply (f_equal (firstn (List.length k))) in E. rewrite firstn_app, Nat.sub_diag, firstn_all in E. cbn in E.
    rewrite L in E. rewrite firstn_app, Nat.sub_diag, firstn_all in E. cbn in E. rewrite !app_nil_r in E. exact E.
  Qed.
  Lemma field_exact kw lo stmt : List.length lo = List.length kw -> Statement kw stmt ->
    (re_match (clause_all_cs kw lo) stmt = true <-> starts kw stmt \/ starts lo stmt).
  Proof.
    intros Ll (k & sp & body & -> & K & B & NB & NN). pose proof (Ci_length _ _ K) as Lk.
    rewrite (clause_field kw lo k sp body Ll Lk B NB NN). split.
    - intros [-> | ->]; [left|right]; eexists; reflexivity.
    - intros [H|H]; [left|right]; eapply starts_same; try exact H; congruence.
  Qed.

  Lemma build_make_cases stmt : Statement (py "MAKE") stmt ->
    (Exists (fun p => ~ NoDup (given_handles p)) (pattern_matches stmt) /\ build_parsed_make stmt = Err MakeDuplicateHandlesError) \/
    (Forall (fun p => NoDup (given_handles p)) (pattern_matches stmt) /\
       (((starts (py "MAKE") stmt \/ starts (py "make") stmt) /\
           build_parsed_make stmt = Ok {| pm_raw := stmt; pm_patterns := pattern_matches stmt |}) \/
        (~ (starts (py "MAKE") stmt \/ starts (py "make") stmt) /\ build_parsed_make stmt = Err ValidationError))).
  Proof.
    intros S. pose proof (field_exact (py "MAKE") (py "make") stmt eq_refl S) as F. unfold build_parsed_make.
    destruct (forM_handles (pattern_matches stmt)) as [[H ->]|[H ->]]; [right|left; split; [exact H|reflexivity]]. split; [exact H|]. cbn [bind].
    fold make_field in F. destruct (re_match make_field stmt); [left|right]; split; try reflexivity.
    - apply F. reflexivity.
    - rewrite <- F. discriminate.
  Qed.
  Lemma build_find_cases stmt : Statement (py "FIND") stmt ->
    match pattern_matches stmt with
    | [] => build_parsed_find stmt = Err IndexError
    | p :: _ =>
        (~ NoDup (given_handles p) /\ build_parsed_find stmt = Err MakeDuplicateHandlesError) \/
        (NoDup (given_handles p) /\
           (((starts (py "FIND") stmt \/ starts (py "find") stmt) /\
               build_parsed_find stmt = Ok {| pf_raw := stmt; pf_pattern := p; pf_handles := given_handles p |}) \/
            (~ (starts (py "FIND") stmt \/ starts (py "find") stmt) /\ build_parsed_find stmt = Err ValidationError)))
    end.
  Proof.
    intros S. pose proof (field_exact (py "FIND") (py "find") stmt eq_refl S) as F. unfold build_parsed_find.
    destruct (pattern_matches stmt) as [|p ps]; [reflexivity|].
    destruct (validate_handles_cases p) as [[H ->]|[H ->]]; [right|left; split; [exact H|reflexivity]]. split; [exact H|]. cbn [bind].
    fold find_field in F. destruct (re_match find_field stmt); [left|right]; split; try reflexivity.
    - apply F. reflexivity.
    - unfold pattern_handles. rewrite handle_names_given, s_of_list_id by exact H. reflexivity.
    - rewrite <- F. discriminate.
  Qed.

  Lemma parse_make_unfold q ms : ms <> [] -> Extracted (Statement (py "MAKE")) q ms -> validate_statement ms = Ok tt ->
    parse_make q = bind (mapM build_parsed_make ms) (fun l => Ok (Some l)).
  Proof.
    intros N E V. unfold parse_make. rewrite (extraction_exact q MAKE ms); [|discriminate|exact N|exact E]. cbn [bind]. rewrite V. reflexivity.
  Qed.
  Lemma extracted_statements P q ms : Extracted P q ms -> Forall P ms.
  Proof. induction 1; auto. Qed.

  Lemma mapM_builds ms : Forall (Statement (py "MAKE")) ms ->
    Forall (fun m => Forall (fun p => NoDup (given_handles p)) (pattern_matches m)) ms ->
    (Forall exact_kw_make ms /\ mapM build_parsed_make ms = Ok (map plain ms)) \/
    (Exists (fun m => ~ exact_kw_make m) ms /\ mapM build_parsed_make ms = Err ValidationError).
  Proof.
    induction 1 as [|m ms S F IH]; intros D; [left; split; [constructor|reflexivity]|]. inv D. cbn [mapM map].
    destruct (build_make_cases m S) as [[X _]|[_ [[K ->]|[K ->]]]].
    - exfalso. apply Exists_exists in X as (p & Hp & X). apply X. eapply Forall_forall in H1; eauto.
    - cbn [bind]. destruct (IH H2) as [[KF ->]|[KE ->]]; [left|right]; split; auto.
    - right. split; [left; exact K|reflexivity].
  Qed.
  Lemma mapM_dups ms : Forall (Statement (py "MAKE")) ms -> Forall exact_kw_make ms ->
    (Forall (fun m => Forall (fun p => NoDup (given_handles p)) (pattern_matches m)) ms /\ mapM build_parsed_make ms = Ok (map plain ms)) \/
    (Exists (fun m => Exists (fun p => ~ NoDup (given_handles p)) (pattern_matches m)) ms /\ mapM build_parsed_make ms = Err MakeDuplicateHandlesError).
  Proof.
    induction 1 as [|m ms S F IH]; intros D; [left; split; [constructor|reflexivity]|]. inv D. cbn [mapM map].
    destruct (build_make_cases m S) as [[X ->]|[N [[K ->]|[K ->]]]].
    - right. split; [left; exact X|reflexivity].
    - cbn [bind]. destruct (IH H2) as [[KF ->]|[KE ->]]; [left|right]; split; auto.
    - contradiction.
  Qed.

  (** C11 and C12 for whole queries *)
  Theorem make_keyword_case q ms : ms <> [] -> Extracted (Statement (py "MAKE")) q ms -> validate_statement ms = Ok tt ->
    (forall m p, In m ms -> In p (pattern_matches m) -> NoDup (given_handles p)) ->
    (Forall exact_kw_make ms /\ parse_make q = Ok (Some (map plain ms))) \/
    (Exists (fun m => ~ exact_kw_make m) ms /\ parse_make q = Err ValidationError).
  Proof.
    intros N E V D. rewrite (parse_make_unfold q ms N E V). destruct (mapM_builds ms) as [[F ->]|[F ->]]; auto.
    - eapply extracted_statements; eauto.
    - apply Forall_forall. intros m Hm. apply Forall_forall. intros p Hp. eauto.
  Qed.
  Theorem make_duplicates q ms : ms <> [] -> Extracted (Statement (py "MAKE")) q ms -> validate_statement ms = Ok tt -> Forall exact_kw_make ms ->
    ((forall m p, In m ms -> In p (pattern_matches m) -> NoDup (given_handles p)) /\ parse_make q = Ok (Some (map plain ms))) \/
    ((exists m p, In m ms /\ In p (pattern_matches m) /\ ~ NoDup (given_handles p)) /\ parse_make q = Err MakeDuplicateHandlesError).
  Proof.
    intros N E V K. rewrite (parse_make_unfold q ms N E V).
    destruct (mapM_dups ms (extracted_statements _ _ _ E) K) as [[F ->]|[F ->]]; [left|right]; split; auto.
    - intros m p Hm Hp. eapply Forall_forall in F; [|exact Hm]. eapply Forall_forall in F; eauto.
    - apply Exists_exists in F as (m & Hm & F). apply Exists_exists in F as (p & Hp & F). eauto.
  Qed.
  (** however parsed, handles are distinct and keywords exact *)
  Theorem parsed_make_sound q l : parse_make q = Ok (Some l) ->
    Forall (fun m => exact_kw_make (pm_raw m) /\ Statement (py "MAKE") (pm_raw m) /\ pm_patterns m = pattern_matches (pm_raw m) /\
                     Forall (fun p => NoDup (given_handles p)) (pm_patterns m)) l /\
    Extracted (Statement (py "MAKE")) q (map pm_raw l).
  Proof.
    unfold parse_make. destruct (extract_all_statements q MAKE) as [[ms|]|] eqn:E; cbn [bind]; try discriminate.
    destruct (extraction_genuine q MAKE ms E) as (EX & F & _). cbn [StatementOf] in *.
    destruct (validate_statement ms); cbn [bind]; try discriminate.
    destruct (mapM build_parsed_make ms) as [l'|] eqn:M; cbn [bind]; try discriminate. intros X. injection X as ->.
    enough (H : Forall (fun m => exact_kw_make (pm_raw m) /\ Statement (py "MAKE") (pm_raw m) /\ pm_patterns m = pattern_matches (pm_raw m) /\
                     Forall (fun p => NoDup (given_handles p)) (pm_patterns m)) l /\ map pm_raw l = ms) by (destruct H as [H1 H2]; rewrite H2; auto).
    clear EX E. revert l M. induction F as [|m ms S F IH]; intros l M; cbn [mapM] in M.
    - injection M as <-. split; [constructor|reflexivity].
    - destruct (build_make_cases m S) as [[_ E]|[N [[K E]|[_ E]]]]; rewrite E in M; cbn [bind] in M; try discriminate.
      destruct (mapM build_parsed_make ms) as [l0|]; cbn [bind] in M; try discriminate. injection M as <-.
      destruct (IH l0 eq_refl) as [H1 H2]. split; [constructor; [|exact H1]|cbn [map pm_raw]; rewrite H2; reflexivity].
      cbn [pm_raw pm_patterns]. auto.
  Qed.

  Theorem find_cases q stmt : Extracted (Statement (py "FIND")) q [stmt] -> validate_statement [stmt] = Ok tt ->
    match pattern_matches stmt with
    | [] => parse_find q = Err IndexError
    | p :: _ =>
        (~ NoDup (given_handles p) /\ parse_find q = Err MakeDuplicateHandlesError) \/
        (NoDup (given_handles p) /\
           (((starts (py "FIND") stmt \/ starts (py "find") stmt) /\
               parse_find q = Ok (Some {| pf_raw := stmt; pf_pattern := p; pf_handles := given_handles p |})) \/
            (~ (starts (py "FIND") stmt \/ starts (py "find") stmt) /\ parse_find q = Err ValidationError)))
    end.
  Proof.
    intros E V. assert (S : Statement (py "FIND") stmt) by (pose proof (extracted_statements _ _ _ E) as F; inv F; assumption).
    pose proof (build_find_cases stmt S) as H. unfold parse_find. rewrite (extraction_exact q FIND [stmt]); [|discriminate|discriminate|exact E].
    cbn [bind List.length Nat.ltb Nat.leb]. rewrite V. cbn [bind]. destruct (pattern_matches stmt) as [|p ps].
    - rewrite H. reflexivity.
    - destruct H as [[N ->]|[N [[K ->]|[K ->]]]]; cbn [bind]; auto.
  Qed.
End StatementFacts.
