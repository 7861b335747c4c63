(** * ChecksFacts: statement extraction and the statement checks *)
From Verif Require Import PyBase BaseFacts Regex RegexSpec RegexFacts RegexMore SpecText Patterns Literal Props Checks.
From Coq Require Import Permutation.

Section ChecksFacts.
  Context {rt : PyRt}.

  Lemma flat_map_single {A B} (f : A -> list B) x : flat_map f [x] = f x.
  Proof. simpl. apply app_nil_r. Qed.

  (** ** C01-C03: extraction *)
  Lemma not_nl_spec s : Forall (fun x => not_nl x = true) s <-> no_newline s.
  Proof.
    unfold not_nl, no_newline. rewrite Forall_forall. split.
    - intros H Hin. apply H in Hin. rewrite N.eqb_refl in Hin. discriminate.
    - intros H x Hin. destruct (N.eqb_spec x 10); auto. subst. contradiction.
  Qed.

  Lemma Lang_clause_all kw lo w d :
    Ci kw lo -> (forall k, Ci lo k -> Ci kw k) ->
    Lang (clause_all kw lo) w d <-> Statement kw w /\ d = [].
  Proof.
    intros Hself Hlo. unfold clause_all, Statement. rewrite Lang_cats_cons. split.
    - intros (k & v & c1 & c2 & -> & -> & H1 & H). apply Lang_alt in H1.
      rewrite !Lang_lit_ci in H1. assert (Hk : Ci kw k /\ c1 = []) by (destruct H1 as [[? ?]|[? ?]]; auto).
      destruct Hk as [Hk ->].
      apply Lang_cats_cons in H as (sp & v1 & c3 & c4 & -> & -> & H2 & H). apply Lang_star in H2 as [Hsp ->].
      apply Lang_cats_cons in H as (p & v2 & c5 & c6 & -> & -> & H3 & H). apply Lang_ch in H3 as [-> ->].
      apply Lang_cats_cons in H as (b & v3 & c7 & c8 & -> & -> & H4 & H). apply Lang_Plus in H4 as (Hb & Hnl & ->).
      apply Lang_cats_cons in H as (p' & v4 & c9 & c10 & -> & -> & H5 & H). apply Lang_ch in H5 as [-> ->].
      apply Lang_ch in H as [-> ->]. split; auto.
      exists k, sp, b. repeat split; auto. apply not_nl_spec; auto.
    - intros [(k & sp & b & -> & Hk & Hsp & Hb & Hnl) ->].
      exists k, (sp ++ py "(" ++ b ++ py ");"), [], []. repeat split.
      { apply Lang_alt. left. apply Lang_lit_ci. auto. }
      apply Lang_cats_cons. exists sp, (py "(" ++ b ++ py ");"), [], []. repeat split.
      { apply Lang_star. auto. }
      apply Lang_cats_cons. exists (py "("), (b ++ py ");"), [], []. repeat split.
      { apply Lang_ch. auto. }
      apply Lang_cats_cons. exists b, (py ");"), [], []. repeat split.
      { apply Lang_Plus. repeat split; auto. apply not_nl_spec; auto. }
      apply Lang_cats_cons. exists (py ")"), (py ";"), [], []. repeat split; apply Lang_ch; auto.
  Qed.

  (** the preferred match is the longest statement *)
  Lemma Ci_length p w : Ci p w -> List.length w = List.length p.
  Proof. induction 1; simpl; congruence. Qed.

  Lemma space_not_paren : is_space 40 = false.
  Proof. reflexivity. Qed.

  Lemma app_eq_len {A} (a b c d : list A) : a ++ b = c ++ d -> List.length a = List.length c -> a = c /\ b = d.
  Proof.
    revert c; induction a as [|x a IH]; intros [|y c] H L; simpl in *; try lia; auto.
    inversion H; subst. destruct (IH c H2) as [-> ->]; auto.
  Qed.

  (** the white space before a non-space character is determined *)
  Lemma run_unique (p : N -> bool) u x v u' x' v' :
    Forall (fun c => p c = true) u -> Forall (fun c => p c = true) u' -> p x = false -> p x' = false ->
    u ++ x :: v = u' ++ x' :: v' -> u = u' /\ x = x' /\ v = v'.
  Proof.
    revert u'; induction u as [|a u IH]; intros [|b u'] H1 H2 Hx Hx' E; simpl in *; inversion E; subst.
    - auto.
    - inversion H2; subst. congruence.
    - inversion H1; subst. congruence.
    - inv H1; inv H2. edestruct IH as (-> & -> & ->); eauto.
  Qed.

  Lemma Longest_clause_all kw lo s : List.length lo = List.length kw -> Longest (clause_all kw lo) s.
  Proof.
    intros Hlen. unfold clause_all, cats.
    apply Longest_cat.
    - intros u v u' v' d d' E1 E2 L1 L2 _ _.
      assert (H : forall u d, Lang (Alt (lit_ci kw) (lit_ci lo)) u d -> List.length u = List.length kw).
      { intros x dx H. apply Lang_alt in H as [H|H]; apply Lang_lit_ci in H as [H _]; apply Ci_length in H; congruence. }
      rewrite E1 in E2. apply app_eq_len in E2 as [? _]; auto. rewrite (H _ _ L1), (H _ _ L2). reflexivity.
    - intros u v d _ _. apply Longest_cat.
      + intros u1 v1 u2 v2 d1 d2 E1 E2 L1 L2 (w1 & r1 & e1 & -> & M1) (w2 & r2 & e2 & -> & M2).
        apply Lang_star in L1 as [F1 _]. apply Lang_star in L2 as [F2 _].
        apply Lang_cat in M1 as (p1 & q1 & ? & ? & -> & _ & P1 & _). apply Lang_ch in P1 as [-> _].
        apply Lang_cat in M2 as (p2 & q2 & ? & ? & -> & _ & P2 & _). apply Lang_ch in P2 as [-> _].
        rewrite E1 in E2. simpl in E2. apply run_unique with (p := is_space) in E2 as (-> & _); auto using space_not_paren.
      + intros u1 v1 d1 _ _. apply Longest_cat.
        * intros u2 v2 u3 v3 d2 d3 E1 E2 L1 L2 _ _. apply Lang_ch in L1 as [-> _]. apply Lang_ch in L2 as [-> _]. auto.
        * intros u2 v2 d2 _ _. unfold Plus.
          (* Cat (Cat (Set) (Star)) x *)
          apply Longest_min. intros m l E. cbn [allm] in E.
          destruct v2 as [|x v2]; [discriminate|]. destruct (not_nl x); [|discriminate].
          rewrite (flat_map_single (fun m => map (fun s1 : pystr => (s1, snd m)) (all_star not_nl (fst m)))) in E. cbn [fst snd] in E.
          pose proof (Longest_star_fixed not_nl (Cat (ch 41) (ch 59)) 2 v2) as HL.
          rewrite Longest_min in HL.
          apply (HL ltac:(intros w d0 Hw; apply Lang_cat in Hw as (p1 & p2 & ? & ? & -> & _ & P1 & P2);
                          apply Lang_ch in P1 as [-> _]; apply Lang_ch in P2 as [-> _]; reflexivity) m l).
          cbn [allm]. exact E.
  Qed.

  Lemma Longest_report kw lo s :
    List.length lo = List.length kw ->
    Longest (cats [Alt (lit_ci kw) (lit_ci lo); Plus not_nl; ch 59]) s.
  Proof.
    intros Hlen. unfold cats. apply Longest_cat.
    - intros u v u' v' d d' E1 E2 L1 L2 _ _.
      assert (H : forall u d, Lang (Alt (lit_ci kw) (lit_ci lo)) u d -> List.length u = List.length kw).
      { intros x dx H. apply Lang_alt in H as [H|H]; apply Lang_lit_ci in H as [H _]; apply Ci_length in H; congruence. }
      rewrite E1 in E2. apply app_eq_len in E2 as [? _]; auto. rewrite (H _ _ L1), (H _ _ L2). reflexivity.
    - intros u2 v2 d2 _ _. unfold Plus.
      apply Longest_min. intros m l E. cbn [allm] in E.
      destruct v2 as [|x v2]; [discriminate|]. destruct (not_nl x); [|discriminate].
      rewrite (flat_map_single (fun m => map (fun s1 : pystr => (s1, snd m)) (all_star not_nl (fst m)))) in E. cbn [fst snd] in E.
      pose proof (Longest_star_fixed not_nl (ch 59) 1 v2) as HL.
      rewrite Longest_min in HL.
      apply (HL ltac:(intros w d0 Hw; apply Lang_ch in Hw as [-> _]; reflexivity) m l).
      cbn [allm]. exact E.
  Qed.

  (** Extraction for an expression without groups whose preferred match is the longest. *)
  Lemma Scanned_Extracted r (P : pystr -> Prop) s l :
    (forall w d, Lang r w d <-> P w /\ d = []) -> ~ P [] -> (forall s, Longest r s) ->
    Scanned r s l -> Extracted P s (map fst (mats l)).
  Proof.
    intros HP Hne HL H. induction H; simpl.
    - constructor.
    - apply Ex_skip; auto. intros m rest E Hm. eapply H; [exact E|]. apply HP. auto.
    - pose proof (Best_Lang _ _ _ _ H) as HLang. apply HP in HLang as [Hw ->].
      apply Ex_take; auto. intros m' rest E Hm'. eapply HL; [exact H|exact E|]. apply HP; auto.
    - exfalso. apply Best_Lang, HP in H as [H _]. auto.
    - exfalso. apply Best_Lang, HP in H as [H _]. auto.
    - exfalso. apply Best_Lang, HP in H as [H _]. auto.
  Qed.

  Lemma ci_eqb_lower a b c : lower0 a = lower0 b -> ci_eqb a c = ci_eqb b c.
  Proof. unfold ci_eqb. intros ->. reflexivity. Qed.
  Lemma Ci_lower p q : map lower0 p = map lower0 q -> forall k, Ci p k -> Ci q k.
  Proof.
    revert q; induction p as [|a p IH]; intros [|b q] E k H; simpl in *; try discriminate; auto.
    inversion E. inversion H; subst. constructor.
    - rewrite <- (ci_eqb_lower a b) by auto. auto.
    - apply IH; auto.
  Qed.
  Lemma ci_eqb_ascii_refl a : is_ascii a = true -> ci_eqb a a = true.
  Proof. unfold ci_eqb. intros ->. apply N.eqb_refl. Qed.
  Lemma Ci_refl p : forallb is_ascii p = true -> Ci p p.
  Proof.
    induction p as [|a p IH]; simpl; intros H; constructor.
    - apply andb_prop in H as [H _]. apply ci_eqb_ascii_refl; auto.
    - apply andb_prop in H as [_ H]. apply IH; auto.
  Qed.

  Lemma Lang_report w d :
    Lang report_stmt_all w d <-> ReportStatement (py "REPORT") w /\ d = [].
  Proof.
    unfold report_stmt_all, ReportStatement. rewrite Lang_cats_cons. split.
    - intros (k & v & c1 & c2 & -> & -> & H1 & H). apply Lang_alt in H1.
      rewrite !Lang_lit_ci in H1.
      assert (Hk : Ci (py "REPORT") k /\ c1 = []).
      { destruct H1 as [[? ?]|[? ?]]; split; auto. eapply Ci_lower; [|eassumption]. reflexivity. }
      destruct Hk as [Hk ->].
      apply Lang_cats_cons in H as (b & v3 & c7 & c8 & -> & -> & H4 & H). apply Lang_Plus in H4 as (Hb & Hnl & ->).
      apply Lang_ch in H as [-> ->]. split; auto.
      exists k, b. repeat split; auto. apply not_nl_spec; auto.
    - intros [(k & b & -> & Hk & Hb & Hnl) ->].
      exists k, (b ++ py ";"), [], []. repeat split.
      { apply Lang_alt. left. apply Lang_lit_ci. auto. }
      apply Lang_cats_cons. exists b, (py ";"), [], []. repeat split.
      { apply Lang_Plus. repeat split; auto. apply not_nl_spec; auto. }
      apply Lang_ch. auto.
  Qed.

  Lemma extract_spec q c ms :
    c <> CRITERIA ->
    map fst (finditer (clause_regex c) q) = ms <-> Extracted (StatementOf c) q ms.
  Proof.
    intros Hc.
    assert (HE : Extracted (StatementOf c) q (map fst (finditer (clause_regex c) q))).
    { unfold finditer. eapply Scanned_Extracted; [| | |apply scan_Scanned].
      - destruct c; simpl; try congruence.
        + intros w d. apply (Lang_clause_all (py "MAKE") (py "make")).
          * apply Ci_lower with (p := py "make"); [reflexivity|apply Ci_refl; reflexivity].
          * apply Ci_lower. reflexivity.
        + intros w d. apply (Lang_clause_all (py "FIND") (py "find")).
          * apply Ci_lower with (p := py "find"); [reflexivity|apply Ci_refl; reflexivity].
          * apply Ci_lower. reflexivity.
        + apply Lang_report.
      - destruct c; simpl; try congruence.
        + intros (k & sp & b & H & _). destruct k; [destruct sp|]; discriminate.
        + intros (k & sp & b & H & _). destruct k; [destruct sp|]; discriminate.
        + intros (k & b & H & _). destruct k; [destruct b|]; discriminate.
      - destruct c; simpl; try congruence; intros s.
        + apply Longest_clause_all. reflexivity.
        + apply Longest_clause_all. reflexivity.
        + apply Longest_report. reflexivity. }
    split; [intros <-; auto|]. intros H.
    clear Hc. revert H. generalize (map fst (finditer (clause_regex c) q)) as l, HE. clear HE.
    intros l HE H. revert l HE. induction H as [|x q ms Hno H IH|m q ms Hm Hne Hmax H IH]; intros l HE.
    - inversion HE; auto. destruct m; [congruence|discriminate].
    - inversion HE; subst; auto. exfalso. eapply Hno; eauto.
    - inversion HE as [E|x q' ms' Hno HE' E|m' q' ms' Hm' Hne' Hmax' HE' E]; subst.
      + destruct m; [congruence|discriminate].
      + exfalso. eapply Hno; eauto.
      + assert (Hl : List.length m' = List.length m).
        { apply Nat.le_antisymm; [eapply Hmax; eauto|eapply Hmax'; eauto]. }
        apply app_eq_len in E as [-> ->]; auto. f_equal. auto.
  Qed.

  (** ** C04: spelling *)
  Lemma perms_with_spec {A} n (l : list A) : List.length l = n ->
    forall p, In p (perms_with n l) <-> Permutation l p.
  Proof.
    revert l; induction n as [|n IH]; intros l Hl p.
    - destruct l; [|discriminate]. simpl. split; [intros [<-|[]]; constructor|].
      intros H. apply Permutation_nil in H. auto.
    - destruct l as [|a l0]; [discriminate|]. cbn [perms_with].
      set (pick := fix pick (pre post : list A) : list (list A) :=
             match post with
             | [] => []
             | x :: post' => map (cons x) (perms_with n (rev pre ++ post')) ++ pick (x :: pre) post'
             end).
      change (In p (pick [] (a :: l0)) <-> Permutation (a :: l0) p).
      remember (a :: l0) as l eqn:El. clear a l0 El.
      assert (G : forall post pre, List.length pre + List.length post = S n ->
                In p (pick pre post) <-> exists u x v t, post = u ++ x :: v /\ p = x :: t /\ Permutation (rev pre ++ u ++ v) t).
      { induction post as [|x post IHp]; intros pre Hlen; simpl pick.
        - split; [intros []|]. intros (u & x & v & t & H & _). destruct u; discriminate.
        - rewrite in_app_iff, in_map_iff, IHp by (simpl in *; lia). simpl rev. split.
          + intros [(t & <- & Ht)|(u & y & v & t & -> & -> & HP)].
            * exists [], x, post, t. repeat split. simpl. apply IH; auto.
              rewrite app_length, rev_length. simpl in Hlen. lia.
            * exists (x :: u), y, v, t. repeat split. rewrite <- app_assoc in HP. exact HP.
          + intros (u & y & v & t & E & -> & HP). destruct u as [|z u]; simpl in E; inversion E; subst.
            * left. exists t. split; auto. apply IH; auto. rewrite app_length, rev_length. simpl in Hlen. lia.
            * right. exists u, y, v, t. repeat split. rewrite <- app_assoc. exact HP. }
      rewrite (G l []) by (simpl; lia). split.
      + intros (u & x & v & t & -> & -> & HP). simpl in HP.
        etransitivity; [|constructor; exact HP]. symmetry. apply Permutation_middle.
      + intros HP. destruct p as [|x t].
        { symmetry in HP. apply Permutation_nil in HP. subst; discriminate. }
        assert (Hin : In x l) by (eapply Permutation_in; [symmetry; exact HP|left; auto]).
        apply in_split in Hin as (u & v & ->). exists u, x, v, t. repeat split. simpl.
        eapply Permutation_cons_inv. etransitivity; [|exact HP]. apply Permutation_middle.
  Qed.
  Lemma permutations_spec {A} (l p : list A) : In p (permutations l) <-> Permutation l p.
  Proof. apply perms_with_spec. reflexivity. Qed.

  Lemma Lang_anagram kw w d :
    Lang (alts (map lit_ci (permutations kw))) w d <-> Anagram kw w /\ d = [].
  Proof.
    rewrite Lang_alts. unfold Anagram. split.
    - intros (r & Hr & H). apply in_map_iff in Hr as (p & <- & Hp). apply permutations_spec in Hp.
      apply Lang_lit_ci in H as [H ->]. eauto.
    - intros [(p & Hp & H) ->]. exists (lit_ci p). split; [apply in_map, permutations_spec; auto|].
      apply Lang_lit_ci. auto.
  Qed.

  Definition one_space (sp : pystr) : Prop := sp = [] \/ exists c, sp = [c] /\ is_space c = true.
  Lemma Lang_one_space w d : Lang (Opt (Set_ is_space)) w d <-> one_space w /\ d = [].
  Proof.
    rewrite Lang_opt, Lang_set. unfold one_space. split.
    - intros [(c & -> & Hc & ->)|[-> ->]]; eauto.
    - intros [[->|(c & -> & Hc)] ->]; eauto.
  Qed.
  Lemma Lang_keyword kw w d : Lang (Grp GKeyword (alts (map lit_ci (permutations kw)))) w d <-> Anagram kw w /\ d = [(GKeyword, w)].
  Proof.
    rewrite Lang_grp. split; [intros (c & -> & H); apply Lang_anagram in H as [H ->]; auto|].
    intros [H ->]. exists []. split; [reflexivity|apply Lang_anagram; auto].
  Qed.
  Lemma Lang_clause_perms kw w d : Lang (clause_perms kw) w d <->
    exists s1 k s2, w = s1 ++ k ++ s2 ++ py "(" /\ d = [(GKeyword, k)] /\ one_space s1 /\ Anagram kw k /\ one_space s2.
  Proof.
    unfold clause_perms. split.
    - intros H.
      apply Lang_cats_cons in H as (s1 & v1 & ? & ? & -> & -> & H1 & H).
      apply Lang_cats_cons in H as (k & v2 & ? & ? & -> & -> & H2 & H).
      apply Lang_cats_cons in H as (s2 & v3 & ? & ? & -> & -> & H3 & H).
      apply Lang_ch in H as [-> ->]. apply Lang_keyword in H2 as [Hk ->]. apply Lang_one_space in H1 as [H1 ->]. apply Lang_one_space in H3 as [H3 ->].
      exists s1, k, s2. auto.
    - intros (s1 & k & s2 & -> & -> & H1 & H2 & H3).
      apply Lang_cats_cons. exists s1, (k ++ s2 ++ py "("), [], [(GKeyword, k)]. repeat split; [apply Lang_one_space; auto|].
      apply Lang_cats_cons. exists k, (s2 ++ py "("), [(GKeyword, k)], []. repeat split; [apply Lang_keyword; auto|].
      apply Lang_cats_cons. exists s2, (py "("), [], []. repeat split; [apply Lang_one_space; auto|apply Lang_ch; auto].
  Qed.
  Lemma clause_perms_spec kw q : search (clause_perms kw) q = true <-> AnagramCall kw q.
  Proof.
    rewrite search_spec. unfold AnagramCall. split.
    - intros (a & w & b & d & -> & H). apply Lang_clause_perms in H as (s1 & k & s2 & -> & _ & _ & Hk & H3).
      exists (a ++ s1), k, s2, b. repeat split; auto. rewrite <- !app_assoc. reflexivity.
    - intros (a & k & sp & b & -> & Hk & Hsp).
      exists a, (k ++ sp ++ py "("), b, [(GKeyword, k)]. split; [rewrite <- !app_assoc; reflexivity|].
      apply Lang_clause_perms. exists [], k, sp. repeat split; auto. left. reflexivity.
  Qed.

  Lemma Lang_report_check w d : Lang report_check_syntax w d <->
    exists k t, w = k ++ t ++ py ";" /\ d = [(GKeyword, k)] /\ Anagram (py "REPORT") k /\ t <> [] /\ no_newline t.
  Proof.
    unfold report_check_syntax. split.
    - intros H. apply Lang_cats_cons in H as (k & v2 & ? & ? & -> & -> & H2 & H).
      apply Lang_cats_cons in H as (t & v3 & ? & ? & -> & -> & H3 & H).
      apply Lang_ch in H as [-> ->]. apply Lang_keyword in H2 as [Hk ->].
      apply Lang_Plus in H3 as (Ht & Hnl & ->). exists k, t. repeat split; auto. apply not_nl_spec; auto.
    - intros (k & t & -> & -> & Hk & Ht & Hnl).
      apply Lang_cats_cons. exists k, (t ++ py ";"), [(GKeyword, k)], []. repeat split; [apply Lang_keyword; auto|].
      apply Lang_cats_cons. exists t, (py ";"), [], []. repeat split; [|apply Lang_ch; auto].
      apply Lang_Plus. repeat split; auto. apply not_nl_spec; auto.
  Qed.
  Lemma report_check_spec q : search report_check_syntax q = true <-> AnagramLine (py "REPORT") q.
  Proof.
    rewrite search_spec. unfold AnagramLine. split.
    - intros (a & w & b & d & -> & H). apply Lang_report_check in H as (k & t & -> & _ & Hk & Ht & Hn).
      exists a, k, t, b. repeat split; auto. rewrite <- !app_assoc. reflexivity.
    - intros (a & k & t & b & -> & Hk & Ht & Hnl).
      exists a, (k ++ t ++ py ";"), b, [(GKeyword, k)]. split; [rewrite <- !app_assoc; reflexivity|].
      apply Lang_report_check. exists k, t. auto.
  Qed.

  Lemma extract_cases q c : c <> CRITERIA ->
    (exists ms, ms <> [] /\ Extracted (StatementOf c) q ms /\ extract_all_statements q c = Ok (Some ms)) \/
    (Extracted (StatementOf c) q [] /\
       ((Misspelt c q /\ extract_all_statements q c = Err ClauseSyntaxError) \/
        (~ Misspelt c q /\ extract_all_statements q c = Ok None))).
  Proof.
    intros Hc. pose proof (proj1 (extract_spec q c _ Hc) eq_refl) as HE.
    assert (Hx : extract_all_statements q c =
      match map fst (finditer (clause_regex c) q) with
      | [] => let? _ := check_clause_spelling q c in Ok None
      | ms => Ok (Some ms)
      end) by (destruct c; try reflexivity; congruence).
    rewrite Hx. clear Hx. destruct (map fst (finditer (clause_regex c) q)) as [|m ms].
    - right. split; auto.
      assert (HS : (check_clause_spelling q c = Err ClauseSyntaxError /\ Misspelt c q) \/
                   (check_clause_spelling q c = Ok tt /\ ~ Misspelt c q)).
      { destruct c; try congruence; simpl.
        - pose proof (clause_perms_spec (py "MAKE") q) as X. unfold make_check_syntax in *.
          destruct (search _ q); [left|right]; split; auto; [apply X; auto|]. intros Y. apply X in Y. discriminate.
        - pose proof (clause_perms_spec (py "FIND") q) as X. unfold find_check_syntax in *.
          destruct (search _ q); [left|right]; split; auto; [apply X; auto|]. intros Y. apply X in Y. discriminate.
        - pose proof (report_check_spec q) as X.
          destruct (search _ q); [left|right]; split; auto; [apply X; auto|]. intros Y. apply X in Y. discriminate. }
      destruct HS as [[-> H]|[-> H]]; simpl; auto.
    - left. exists (m :: ms). split; [discriminate|auto].
  Qed.

  (** ** C05 *)
  Lemma is_illegal_In c : is_illegal c = true <-> In c (py "#%&*$").
  Proof.
    unfold is_illegal. rewrite existsb_exists. split.
    - intros (x & Hx & E). apply N.eqb_eq in E. subst; auto.
    - intros H. exists c. rewrite N.eqb_refl. auto.
  Qed.
  Lemma search_illegal s : search illegal_chars s = true <-> has_illegal s.
  Proof.
    rewrite search_spec. unfold illegal_chars, has_illegal. split.
    - intros (a & w & b & d & -> & H). apply Lang_set in H as (x & -> & Hx & _).
      exists x. rewrite in_app_iff. simpl. split; auto. apply is_illegal_In; auto.
    - intros (c & Hc & Hi). apply in_split in Hc as (a & b & ->).
      exists a, [c], b, []. split; auto. apply Lang_set. exists c. repeat split. apply is_illegal_In; auto.
  Qed.
  Lemma illegal_ok stmts :
    check_illegal_characters stmts = Ok tt <-> forall s, In s stmts -> ~ has_illegal s.
  Proof.
    unfold check_illegal_characters. rewrite forM_ok, Forall_forall. split; intros H s Hs.
    - specialize (H s Hs). rewrite <- search_illegal. destruct (search illegal_chars s); congruence.
    - specialize (H s Hs). rewrite <- search_illegal in H. destruct (search illegal_chars s); auto. congruence.
  Qed.
  Lemma illegal_err stmts :
    check_illegal_characters stmts = Err IllegalCharacterError <-> exists s, In s stmts /\ has_illegal s.
  Proof.
    split.
    - intros H. apply forM_err in H as (l1 & a & l2 & -> & _ & H). exists a. split; [apply in_elt|].
      apply search_illegal. destruct (search illegal_chars a); congruence.
    - intros (s & Hs & Hi). apply forM_raises.
      + intros a e. destruct (search illegal_chars a); congruence.
      + exists s. split; auto. apply search_illegal in Hi. rewrite Hi. reflexivity.
  Qed.

  (** ** C06 *)
  Lemma count2_occ a b s : a <> b -> count2 a b s = occ a s + occ b s.
  Proof.
    intros Hab. unfold occ. induction s as [|x s IH]; simpl; auto.
    destruct (N.eqb_spec x a), (N.eqb_spec x b), (N.eq_dec x a), (N.eq_dec x b); subst; simpl; try congruence; lia.
  Qed.
  Lemma check_piece_spec s : (check_piece s = Ok tt /\ even_brackets s) \/
                             (check_piece s = Err ClauseSyntaxError /\ ~ even_brackets s).
  Proof.
    unfold check_piece, even_brackets. rewrite !count2_occ by discriminate.
    rewrite <- !Nat.even_spec, <- !Nat.negb_even.
    destruct (Nat.even (occ 40 s + occ 41 s)); simpl; [|right; split; auto; intros [? _]; discriminate].
    destruct (Nat.even (occ 123 s + occ 125 s)); simpl; [|right; split; auto; intros (_ & ? & _); discriminate].
    destruct (Nat.even (occ 91 s + occ 93 s)); simpl; [left; auto|right; split; auto; intros (_ & _ & ?); discriminate].
  Qed.

  (** splitting at single characters *)
  Fixpoint split1 (p : N -> bool) (s : pystr) (acc : pystr) : list pystr :=
    match s with
    | [] => [rev acc]
    | x :: s' => if p x then rev acc :: split1 p s' [] else split1 p s' (x :: acc)
    end.
  Lemma all_star_hd p s : hd_error (all_star p s) = Some (lstrip p s).
  Proof.
    induction s as [|x s IH]; simpl; auto. destruct (p x); simpl; auto.
    destruct (all_star p s); simpl in *; [discriminate|auto].
  Qed.
  Lemma match_Plus p x s : match_here (Plus p) (x :: s) = if p x then Some (lstrip p s, []) else None.
  Proof.
    rewrite match_here_hd. unfold Plus. cbn [allm]. destruct (p x); [|reflexivity].
    rewrite (flat_map_single (fun m => map (fun s1 : pystr => (s1, snd m)) (all_star p (fst m)))). cbn [fst snd].
    pose proof (all_star_hd p s). destruct (all_star p s); simpl in *; [discriminate|]. inv H. reflexivity.
  Qed.
  Lemma lstrip_split p s : exists w, s = w ++ lstrip p s /\ Forall (fun x => p x = true) w /\
                                     match lstrip p s with [] => True | y :: _ => p y = false end.
  Proof.
    induction s as [|x s (w & E & HF & Hy)]; simpl.
    - exists []. auto.
    - destruct (p x) eqn:Ex.
      + exists (x :: w). simpl. rewrite <- E. auto.
      + exists []. simpl. auto.
  Qed.
  Lemma split1_skip p w s acc (Q : pystr -> Prop) : Q [] -> Forall (fun x => p x = true) w -> acc = [] ->
    (Forall Q (split1 p (w ++ s) acc) <-> Forall Q (split1 p s acc)).
  Proof.
    intros HQ HF ->. induction HF as [|x w Hx HF IH]; simpl; [tauto|].
    rewrite Hx. simpl. rewrite <- IH. split; [intros H; inv H; auto|auto].
  Qed.
  Lemma split_re_split1 p s (Q : pystr -> Prop) : Q [] -> forall acc,
    Forall Q (pieces (scan (Plus p) 0 s) acc) <-> Forall Q (split1 p s acc).
  Proof.
    intros HQ. remember (List.length s) as n eqn:Hn. revert s Hn.
    induction n as [n IH] using lt_wf_ind. intros s Hn acc. destruct s as [|x s].
    - rewrite scan_none_nil; [reflexivity|reflexivity].
    - destruct (p x) eqn:Ex.
      + destruct (lstrip_split p s) as (w & Es & HF & _).
        assert (Hm : match_here (Plus p) ((x :: w) ++ lstrip p s) = Some (lstrip p s, [])).
        { simpl. rewrite <- Es, match_Plus, Ex. reflexivity. }
        replace (x :: s) with ((x :: w) ++ lstrip p s) by (simpl; rewrite <- Es; reflexivity).
        rewrite (scan_some _ _ _ _ Hm) by discriminate. cbn [pieces app split1]. rewrite Ex.
        rewrite !Forall_cons_iff. rewrite split1_skip by auto.
        rewrite (IH (List.length (lstrip p s))); [reflexivity| |reflexivity].
        subst n. simpl. rewrite Es at 2. rewrite app_length. lia.
      + rewrite scan_none_cons by (rewrite match_Plus, Ex; reflexivity). cbn [pieces split1]. rewrite Ex.
        apply (IH (List.length s)); auto. subst; simpl; lia.
  Qed.

  Lemma split1_Segment s (Q : pystr -> Prop) :
    let p := fun c => N.eqb c 60 || N.eqb c 62 in
    forall acc, (forall c, In c acc -> ~ is_arrow c) ->
    (Forall Q (split1 p s acc) <->
     forall seg b, (exists a, rev acc ++ s = a ++ seg ++ b /\ (forall c, In c seg -> ~ is_arrow c) /\
        (a = [] \/ exists a' c, a = a' ++ [c] /\ is_arrow c) /\
        (b = [] \/ exists c b', b = c :: b' /\ is_arrow c)) -> Q seg).
  Proof.
    intros p. assert (Hp : forall c, p c = true <-> is_arrow c).
    { intros c. unfold p, is_arrow. rewrite orb_true_iff, !N.eqb_eq. tauto. }
    induction s as [|x s IH]; intros acc Hacc; simpl.
    - rewrite app_nil_r. split.
      + intros H seg b (a & E & Hseg & Ha & Hb). inv H.
        assert (Hrev : forall c, In c (rev acc) -> ~ is_arrow c) by (intros c Hc; apply Hacc; apply in_rev; auto).
        destruct Ha as [->|(a' & c & -> & Hc)].
        * destruct Hb as [->|(c & b' & -> & Hc)].
          -- simpl in E. rewrite app_nil_r in E. subst. auto.
          -- exfalso. apply (Hrev c); auto. rewrite E. simpl. rewrite in_app_iff. right; left; auto.
        * exfalso. apply (Hrev c); auto. rewrite E, !in_app_iff. left. right. left. auto.
      + intros H. constructor; [|constructor]. apply (H (rev acc) []). exists []. rewrite app_nil_r. repeat split; auto.
        intros c Hc; apply Hacc; apply in_rev; auto.
    - destruct (p x) eqn:Ex.
      + apply Hp in Ex. rewrite Forall_cons_iff, (IH []) by (simpl; tauto). simpl. split.
        * intros [HQ H] seg b (a & E & Hseg & Ha & Hb).
          assert (Hrev : forall c, In c (rev acc) -> ~ is_arrow c) by (intros c Hc; apply Hacc; apply in_rev; auto).
          destruct Ha as [->|(a' & c & -> & Hc)].
          -- (* first segment *)
             simpl in E. assert (seg = rev acc /\ b = x :: s) as [-> ->]; auto.
             destruct Hb as [->|(c & b' & -> & Hc)].
             ++ exfalso. rewrite app_nil_r in E. apply (Hseg x); auto. rewrite <- E. rewrite in_app_iff. right; left; auto.
             ++ destruct (run_unique (fun y => negb (p y)) (rev acc) x s seg c b') as (-> & -> & ->); auto.
                ** apply Forall_forall. intros y Hy. destruct (p y) eqn:Ey; auto. apply Hp in Ey. exfalso. eapply Hrev; eauto.
                ** apply Forall_forall. intros y Hy. destruct (p y) eqn:Ey; auto. apply Hp in Ey. exfalso. eapply Hseg; eauto.
                ** apply Hp in Ex. rewrite Ex. reflexivity.
                ** apply Hp in Hc. rewrite Hc. reflexivity.
          -- apply (H seg b). 
             assert (G : exists u, a' ++ [c] = rev acc ++ x :: u /\ s = u ++ seg ++ b).
             { clear - E Hrev Hc Ex. revert E Hrev. generalize (rev acc) as l. intros l. revert a'.
               induction l as [|y l IHl]; intros a' E Hrev; simpl in E.
               - destruct a' as [|z a']; simpl in E; inv E; [exists []; auto|exists (a' ++ [c]); auto].
               - destruct a' as [|z a']; simpl in E; inv E.
                 + exfalso. apply (Hrev c); [left; auto|auto].
                 + destruct (IHl a') as (u & E1 & E2); auto. { intros k Hk; apply Hrev; right; auto. }
                   exists u. simpl. rewrite E1. auto. }
             destruct G as (u & E1 & E2). exists u. repeat split; auto.
             destruct u as [|y u] using rev_ind; [left; auto|]. right.
             exists u, c. split; auto. f_equal.
             replace (rev acc ++ x :: u ++ [y]) with ((rev acc ++ x :: u) ++ [y]) in E1 by (rewrite <- app_assoc; reflexivity).
             apply app_inj_tail in E1 as [_ <-]. reflexivity.
        * intros H. split.
          -- apply (H (rev acc) (x :: s)). exists []. repeat split; auto.
             ++ intros c Hc; apply Hacc; apply in_rev; auto.
             ++ right. eauto.
          -- intros seg b (a & E & Hseg & Ha & Hb). apply (H seg b). exists (rev acc ++ x :: a). repeat split; auto.
             ++ rewrite E, <- app_assoc. reflexivity.
             ++ right. destruct Ha as [->|(a' & c & -> & Hc)].
                ** exists (rev acc), x. auto.
                ** exists (rev acc ++ x :: a'), c. rewrite <- app_assoc. auto.
      + assert (Hx : ~ is_arrow x) by (rewrite <- Hp; congruence).
        rewrite IH by (intros c [->|Hc]; auto). simpl. rewrite <- app_assoc. reflexivity.
  Qed.

  Lemma brackets_ok_one s :
    forM check_piece (split_re arrow_heads s) = Ok tt <-> forall seg, Segment s seg -> even_brackets seg.
  Proof.
    rewrite forM_ok.
    assert (E : forall l, Forall (fun a => check_piece a = Ok tt) l <-> Forall even_brackets l).
    { intros l. rewrite !Forall_forall. split; intros H x Hx; specialize (H x Hx);
      destruct (check_piece_spec x) as [[H1 H2]|[H1 H2]]; auto; congruence. }
    rewrite E. unfold split_re, arrow_heads. rewrite split_re_split1.
    - rewrite split1_Segment by (simpl; tauto). simpl. unfold Segment. split.
      + intros H seg (a & b & Hs). apply (H seg b). exists a. auto.
      + intros H seg b (a & Hs). apply H. exists a, b. auto.
    - unfold even_brackets, occ. simpl. repeat split; exists 0; reflexivity.
  Qed.
  Lemma brackets_ok stmts :
    check_statement_syntax stmts = Ok tt <->
    forall s seg, In s stmts -> Segment s seg -> even_brackets seg.
  Proof.
    unfold check_statement_syntax. rewrite forM_ok, Forall_forall. split.
    - intros H s seg Hs. apply (proj1 (brackets_ok_one s)). auto.
    - intros H s Hs. apply brackets_ok_one. intros seg. apply H; auto.
  Qed.
  Lemma brackets_err stmts e : check_statement_syntax stmts = Err e -> e = ClauseSyntaxError.
  Proof.
    intros H. apply forM_err in H as (_ & s & _ & _ & _ & H).
    apply forM_err in H as (_ & p & _ & _ & _ & H).
    destruct (check_piece_spec p) as [[H1 _]|[H1 _]]; congruence.
  Qed.

  (** ** C07 *)
  Lemma check_rel_spec t name :
    (check_rel (t, name) = Ok tt /\ rel_acceptable t name) \/
    (~ rel_acceptable t name /\
     (check_rel (t, name) = Err NonDirectedRelationshipError \/
      check_rel (t, name) = Err RelationshipNameSyntaxError)).
  Proof.
    unfold check_rel, rel_acceptable.
    pose proof (contains_ch 60 t) as L. pose proof (contains_ch 62 t) as R.
    change (py "<") with [60%N]. change (py ">") with [62%N].
    destruct (contains [60%N] t) eqn:E1, (contains [62%N] t) eqn:E2; simpl;
    assert (L' : In 60%N t <-> _ = true) by (symmetry; exact L);
    assert (R' : In 62%N t <-> _ = true) by (symmetry; exact R); rewrite L', R'; clear L R L' R'.
    - right. split; [|auto]. intros [[[_ H]|[_ H]] _]; auto.
    - destruct (str_isupper name) eqn:U; simpl; [left; split; auto|].
      destruct name as [|c name]; simpl; [left; split; auto|].
      right. split; auto. intros [_ [H|H]]; congruence.
    - destruct (str_isupper name) eqn:U; simpl; [left; split; auto|].
      destruct name as [|c name]; simpl; [left; split; auto|].
      right. split; auto. intros [_ [H|H]]; congruence.
    - right. split; [|auto]. intros [[[H _]|[H _]] _]; discriminate.
  Qed.
  Lemma check_rels_ok rels :
    forM check_rel rels = Ok tt <-> forall t name, In (t, name) rels -> rel_acceptable t name.
  Proof.
    rewrite forM_ok, Forall_forall. split.
    - intros H t name Hin. specialize (H _ Hin). destruct (check_rel_spec t name) as [[_ ?]|[_ [E|E]]]; auto; congruence.
    - intros H [t name] Hin. specialize (H _ _ Hin). destruct (check_rel_spec t name) as [[? _]|[X _]]; auto; contradiction.
  Qed.
  Lemma relationships_ok stmts :
    check_relationships stmts = Ok tt <->
    forall l1 s l2, stmts = l1 ++ s :: l2 -> Forall (fun s' => rel_matches s' <> []) l1 ->
                    forall t name, In (t, name) (rel_matches s) -> rel_acceptable t name.
  Proof.
    induction stmts as [|s stmts IH]; cbn [check_relationships].
    - split; auto. intros _ l1 s l2 H. destruct l1; discriminate.
    - destruct (rel_matches s) as [|r rels] eqn:E.
      + split; auto. intros _ l1 s' l2 H HF t name Hin. destruct l1 as [|s1 l1]; simpl in H; inv H.
        * rewrite E in Hin. destruct Hin.
        * inv HF. congruence.
      + split.
        * intros H. apply bind_ok in H as ([] & H1 & H2). intros l1 s' l2 Hs HF t name Hin.
          destruct l1 as [|s1 l1]; simpl in Hs; inv Hs.
          -- rewrite E in Hin. apply (proj1 (check_rels_ok (r :: rels))); auto.
          -- inv HF. eapply IH; eauto.
        * intros H.
          assert (H1 : forM check_rel (r :: rels) = Ok tt).
          { apply check_rels_ok. intros t name Hin. apply (H [] s stmts); auto. rewrite E; auto. }
          rewrite H1. cbn [bind]. apply IH. intros l1 s' l2 Hs HF. apply (H (s :: l1) s' l2).
          { simpl. rewrite Hs. reflexivity. } constructor; auto. rewrite E. discriminate.
  Qed.
  Lemma relationships_err stmts e :
    check_relationships stmts = Err e -> e = NonDirectedRelationshipError \/ e = RelationshipNameSyntaxError.
  Proof.
    induction stmts as [|s stmts IH]; cbn [check_relationships]; [discriminate|].
    destruct (rel_matches s) as [|r rels]; [discriminate|].
    intros H. apply bind_err in H as [H|(u & _ & H)]; [|auto].
    apply forM_err in H as (_ & [t name] & _ & _ & _ & H).
    destruct (check_rel_spec t name) as [[X _]|[_ [X|X]]]; rewrite X in H; inv H; auto.
  Qed.

  (** ** C01 *)
  Lemma Extracted_weave P q ms : Extracted P q ms ->
    exists gaps, List.length gaps = S (List.length ms) /\ q = weave gaps ms /\ Forall P ms.
  Proof.
    induction 1 as [|x q ms Hno H (gaps & L & E & F)|m q ms Hm Hne Hmax H (gaps & L & E & F)].
    - exists [[]]. auto.
    - destruct gaps as [|g gaps]; [discriminate|]. exists ((x :: g) :: gaps). simpl in L |- *. split; auto. split; auto.
      destruct ms; simpl in E |- *; congruence.
    - exists ([] :: gaps). simpl. rewrite L, <- E. auto.
  Qed.

  (** ** C02 *)
  Lemma ci_same_pat a b c : ci_eqb a c = true -> ci_eqb b c = true -> lower0 a = lower0 b.
  Proof.
    unfold ci_eqb. destruct (is_ascii c).
    - rewrite !N.eqb_eq. congruence.
    - destruct (u_ci c); [|discriminate]. rewrite !N.eqb_eq. congruence.
  Qed.
  Lemma Ci_first kw w x r : Ci kw w -> w = x :: r -> exists p kw', kw = p :: kw' /\ ci_eqb p x = true /\ Ci kw' r.
  Proof. intros H ->. inversion H; subst. eauto. Qed.
  Lemma Ci_nth_in kw u x v : Ci kw (u ++ x :: v) -> u <> [] ->
    exists a kw', kw = a :: kw' /\ exists p, In p kw' /\ ci_eqb p x = true.
  Proof.
    intros H Hu. destruct u as [|y u]; [congruence|]. inversion H; subst. eexists _, _. split; [reflexivity|].
    clear - H4. remember (u ++ x :: v) as w. revert u Heqw. induction H4; intros u E.
    - destruct u; discriminate.
    - destruct u as [|z u]; simpl in E; inversion E; subst.
      + exists x0. simpl; auto.
      + destruct (IHForall2 u eq_refl) as (p & Hp & Hc). exists p. simpl; auto.
  Qed.

  (** no occurrence of the keyword starts in [pre] when its first letter is unique *)
  Lemma no_straddle kw pre k rest : (forall a kw', kw = a :: kw' -> forall p, In p kw' -> lower0 p <> lower0 a) ->
    kw <> [] -> Ci kw k -> ~ Occurs kw pre ->
    forall b w r, (exists a, pre = a ++ b) -> b <> [] -> b ++ k ++ rest = w ++ r -> ~ Ci kw w.
  Proof.
    intros Huniq Hne Hk Hocc b w r (a & Ea) Hb E Hw.
    assert (G : (exists b2, b = w ++ b2) \/ (exists w2, w = b ++ w2 /\ w2 <> [])).
    { clear - E. revert w E. induction b as [|x b IH]; intros w E; simpl in *.
      - destruct w as [|y w]; [left; exists []; auto|right; exists (y :: w); split; [auto|discriminate]].
      - destruct w as [|y w]; simpl in E; [left; exists (x :: b); auto|]. inversion E; subst.
        destruct (IH w H1) as [(b2 & ->)|(w2 & -> & Hw2)]; [left; exists b2; auto|right; exists w2; auto]. }
    destruct G as [(b2 & ->)|(w2 & -> & Hw2)].
    - apply Hocc. exists a, w, b2. auto.
    - rewrite <- app_assoc in E. apply app_inv_head in E.
      destruct w2 as [|x w2]; [congruence|]. destruct k as [|y k]; [inversion Hk; subst; congruence|].
      simpl in E. inversion E; subst.
      destruct (Ci_nth_in _ _ _ _ Hw Hb) as (a0 & kw' & -> & p & Hp & Hc).
      inversion Hk; subst. eapply (Huniq a0 kw'); eauto. eapply ci_same_pat; eauto.
  Qed.

  Lemma skip_prefix (P : pystr -> Prop) pre q ms :
    (forall b m r, (exists a, pre = a ++ b) -> b <> [] -> b ++ q = m ++ r -> ~ P m) ->
    Extracted P q ms -> Extracted P (pre ++ q) ms.
  Proof.
    intros H HE. induction pre as [|x pre IH]; simpl; auto. apply Ex_skip.
    - intros m rest E. apply (H (x :: pre) m rest); [exists []; auto|discriminate|exact E].
    - apply IH. intros b m r (a & ->). apply (H b m r). exists (x :: a). auto.
  Qed.

  Lemma first_last_uniq (kw : pystr) c : c = MAKE \/ c = FIND -> kw = keyword c ->
    forall a kw', kw = a :: kw' -> forall p, In p kw' -> lower0 p <> lower0 a.
  Proof.
    intros [-> | ->] -> a kw' E p Hp; inversion E; subst; simpl in Hp;
    repeat (destruct Hp as [<-|Hp]; [discriminate|]); destruct Hp.
  Qed.

  (** the longest statement at the start of a line *)
  Lemma statement_longest kw k sp body tail rest m r :
    Ci kw k -> all_space sp -> no_newline tail ->
    (forall u v, tail <> u ++ py ");" ++ v) ->
    (rest = [] \/ exists rest', rest = 10%N :: rest') ->
    Statement kw m -> (k ++ sp ++ py "(" ++ body ++ py ");") ++ tail ++ rest = m ++ r ->
    List.length m <= List.length (k ++ sp ++ py "(" ++ body ++ py ");").
  Proof.
    intros Hk Hsp Hnl Hlast Hrest (k' & sp' & b' & -> & Hk' & Hsp' & Hb' & Hnl') E.
    rewrite <- !app_assoc in E.
    apply app_eq_len in E as [<- E]; [|rewrite (Ci_length _ _ Hk), (Ci_length _ _ Hk'); auto].
    simpl in E. apply run_unique with (p := is_space) in E as (<- & _ & E); auto using space_not_paren.
    rewrite !app_length. simpl.
    cut (List.length b' <= List.length body); [lia|].
    destruct (Nat.le_gt_cases (List.length b') (List.length body)) as [|Hgt]; auto. exfalso.
    (* b' = body ++ extra *)
    assert (G : exists ex, b' = body ++ ex /\ ex <> []).
    { clear - E Hgt. revert b' E Hgt. induction body as [|x body IH]; intros b' E Hgt; simpl in *.
      - exists b'. split; auto. destruct b'; [simpl in Hgt; lia|discriminate].
      - destruct b' as [|y b']; simpl in *; [lia|]. inversion E; subst.
        destruct (IH b') as (ex & -> & Hex); [auto|lia|]. exists ex. auto. }
    destruct G as (ex & -> & Hex). rewrite <- app_assoc in E. apply app_inv_head in E.
    destruct ex as [|e1 ex]; [congruence|]. simpl in E. inversion E as [[E1 E2]]. subst e1.
    assert (Hex' : no_newline ex).
    { intros Hin. apply Hnl'. apply in_or_app. right. right. auto. }
    (* ; tail rest = ex ); r *)
    destruct ex as [|e2 ex]; simpl in E2; inversion E2 as [[E3 E4]]. subst e2.
    assert (Hex'' : no_newline ex) by (intros Hin; apply Hex'; right; auto).
    clear - E4 Hex'' Hnl Hlast Hrest. revert tail Hnl Hlast E4. induction ex as [|x ex IH]; intros tail Hnl Hlast E.
    - simpl in E. destruct tail as [|t1 [|t2 tail]]; simpl in E.
      + destruct Hrest as [Hr|(rest' & Hr)]; rewrite Hr in E; discriminate.
      + inversion E as [[Ea Eb]]. destruct Hrest as [Hr|(rest' & Hr)]; rewrite Hr in Eb; discriminate.
      + inversion E; subst. apply (Hlast [] tail). reflexivity.
    - destruct tail as [|t1 tail]; simpl in E.
      + destruct Hrest as [->|(rest' & ->)]; [discriminate|]. inversion E; subst. apply Hex''. left; auto.
      + inversion E; subst. apply (IH ltac:(intros Hin; apply Hex''; right; auto) tail); auto.
        * intros Hin; apply Hnl; right; auto.
        * intros u v Et. apply (Hlast (x :: u) v). simpl. rewrite Et. reflexivity.
  Qed.

  Lemma last_paren_of_line c pre k sp body tail rest ms :
    c = MAKE \/ c = FIND ->
    ~ Occurs (keyword c) pre ->
    Ci (keyword c) k -> all_space sp -> body <> [] -> no_newline body -> no_newline tail ->
    (forall u v, tail <> u ++ py ");" ++ v) ->
    (rest = [] \/ exists rest', rest = 10%N :: rest') ->
    let stmt := k ++ sp ++ py "(" ++ body ++ py ");" in
    Extracted (StatementOf c) (tail ++ rest) ms ->
    extract_all_statements (pre ++ stmt ++ tail ++ rest) c = Ok (Some (stmt :: ms)).
  Proof.
    intros Hc Hpre Hk Hsp Hb Hnl Hnlt Hlast Hrest stmt HE.
    assert (HS : StatementOf c = Statement (keyword c)) by (destruct Hc as [-> | ->]; reflexivity).
    assert (HX : Extracted (StatementOf c) (pre ++ stmt ++ tail ++ rest) (stmt :: ms)).
    { rewrite HS in *. apply skip_prefix.
      - intros b m r Hab Hne E (k' & sp' & b' & -> & Hk' & _).
        unfold stmt in E. rewrite <- !app_assoc in E.
        eapply (no_straddle (keyword c) pre k); eauto.
        + eapply first_last_uniq; eauto.
        + destruct Hc as [-> | ->]; discriminate.
      - apply Ex_take; auto.
        + exists k, sp, body. auto.
        + unfold stmt. destruct k; [destruct sp|]; discriminate.
        + intros m' r E Hm. eapply statement_longest; eauto. }
    apply extract_spec in HX; [|destruct Hc as [-> | ->]; discriminate].
    unfold extract_all_statements. rewrite HX. destruct Hc as [-> | ->]; reflexivity.
  Qed.

  (** ** C03 *)
  Lemma Ci_no_newline kw w : forallb (fun c => is_alpha0 c) kw = true -> Ci kw w -> no_newline w.
  Proof.
    intros Ha H Hin. induction H as [|p x kw w Hpx H IH]; simpl in *; [auto|].
    apply andb_prop in Ha as [Hp Ha]. destruct Hin as [->|Hin]; auto.
    unfold ci_eqb in Hpx. simpl in Hpx. apply N.eqb_eq in Hpx. change (lower0 10) with 10%N in Hpx.
    unfold lower0, is_alpha0, is_upper0, is_lower0, between in *.
    destruct ((65 <=? p)%N && (p <=? 90)%N) eqn:E; [lia|]. subst p. discriminate.
  Qed.
  Lemma keyword_alpha c : forallb (fun c => is_alpha0 c) (keyword c) = true.
  Proof. destruct c; reflexivity. Qed.
  Lemma StatementOf_starts c m : StatementOf c m -> exists k r, m = k ++ r /\ Ci (keyword c) k.
  Proof.
    destruct c; simpl; try tauto.
    - intros (k & sp & b & -> & H & _). eauto.
    - intros (k & sp & b & -> & H & _). eauto.
    - intros (k & b & -> & H & _). eauto.
  Qed.
  (** a line without the keyword cannot start a statement *)
  Lemma no_statement_in_line c l rest b m r :
    ~ Occurs (keyword c) l -> (rest = [] \/ exists rest', rest = 10%N :: rest') ->
    (exists a, l = a ++ b) -> b ++ rest = m ++ r -> StatementOf c m -> False.
  Proof.
    intros Hocc Hrest (a & ->) E Hm. apply StatementOf_starts in Hm as (k & r' & -> & Hk).
    assert (Hnl := Ci_no_newline _ _ (keyword_alpha c) Hk).
    rewrite <- app_assoc in E. apply Hocc.
    assert (G : exists b2, b = k ++ b2).
    { clear - E Hnl Hrest. revert b E. induction k as [|x k IH]; intros b E; simpl in *; [eauto|].
      destruct b as [|y b]; simpl in E.
      - destruct Hrest as [->|(rest' & ->)]; [discriminate|]. inversion E; subst. exfalso. apply Hnl. left; auto.
      - inversion E; subst. destruct (IH ltac:(intros Hin; apply Hnl; right; auto) b H1) as (b2 & ->). eauto. }
    destruct G as (b2 & ->). exists a, k, b2. auto.
  Qed.
  Lemma line_is_longest c l rest m r : no_newline l -> StatementOf c l ->
    (rest = [] \/ exists rest', rest = 10%N :: rest') ->
    l ++ rest = m ++ r -> StatementOf c m -> List.length m <= List.length l.
  Proof.
    intros Hl HSl Hrest E Hm.
    destruct (Nat.le_gt_cases (List.length m) (List.length l)) as [|Hgt]; auto. exfalso.
    assert (G : exists ex, m = l ++ 10%N :: ex).
    { clear - E Hgt Hrest. revert m E Hgt. induction l as [|x l IH]; intros m E Hgt; simpl in *.
      - destruct m as [|y m]; [simpl in Hgt; lia|]. destruct Hrest as [->|(rest' & ->)]; [discriminate|].
        inversion E; subst. exists m. reflexivity.
      - destruct m as [|y m]; simpl in *; [lia|]. inversion E; subst. destruct (IH m) as (ex & ->); [auto|lia|]. eauto. }
    destruct G as (ex & ->).
    destruct c; simpl in HSl, Hm; try tauto.
    1,2: destruct HSl as (k & sp & b & -> & Hk & Hsp & Hb & Hbn); destruct Hm as (k' & sp' & b' & E' & Hk' & Hsp' & Hb' & Hbn');
      rewrite <- !app_assoc in E'; apply app_eq_len in E' as [<- E']; [|rewrite (Ci_length _ _ Hk), (Ci_length _ _ Hk'); auto];
      simpl in E'; apply run_unique with (p := is_space) in E' as (<- & _ & E'); auto using space_not_paren;
      (assert (Hin : In 10%N (b' ++ py ");")) by (rewrite <- E', !in_app_iff; simpl; rewrite ?in_app_iff; simpl; auto));
      apply in_app_or in Hin as [Hin|[?|[?|[]]]]; try discriminate; contradiction.
    destruct HSl as (k & b & -> & Hk & Hb & Hbn). destruct Hm as (k' & b' & E' & Hk' & Hb' & Hbn').
    rewrite <- !app_assoc in E'. apply app_eq_len in E' as [<- E']; [|rewrite (Ci_length _ _ Hk), (Ci_length _ _ Hk'); auto].
    assert (Hin : In 10%N (b' ++ py ";")) by (rewrite <- E', !in_app_iff; simpl; rewrite ?in_app_iff; simpl; auto).
    apply in_app_or in Hin as [Hin|[?|[]]]; try discriminate; contradiction.
  Qed.

  Lemma lines_extracted c (tl : list (bool * pystr)) :
    Forall (fun t : bool * pystr => no_newline (snd t) /\ if fst t then StatementOf c (snd t) else ~ Occurs (keyword c) (snd t)) tl ->
    Extracted (StatementOf c) (join_lines (map snd tl)) (map snd (filter fst tl)).
  Proof.
    intros H. induction H as [|[b l] tl [Hl Hk] H IH]; [constructor|].
    assert (Hjoin : exists rest, join_lines (map snd ((b, l) :: tl)) = l ++ rest /\
                (rest = [] \/ exists rest', rest = 10%N :: rest') /\
                Extracted (StatementOf c) rest (map snd (filter fst tl))).
    { destruct tl as [|t tl].
      - exists []. simpl. rewrite app_nil_r. repeat split; auto.
      - exists (10%N :: join_lines (map snd (t :: tl))). split; [reflexivity|]. split; [eauto|].
        apply Ex_skip; auto. intros m r E Hm. apply StatementOf_starts in Hm as (k & r' & -> & Hk').
        pose proof (Ci_no_newline _ _ (keyword_alpha c) Hk') as Hnl.
        destruct k as [|x k]; [inversion Hk'; destruct c; discriminate|].
        simpl in E. inversion E; subst. apply Hnl. left; auto. }
    destruct Hjoin as (rest & -> & Hrest & HE). simpl in Hl, Hk. destruct b; simpl.
    - apply Ex_take; auto.
      + apply StatementOf_starts in Hk as (k & r & -> & Hk). inversion Hk; [destruct c; discriminate|discriminate].
      + intros m' r E Hm'. eapply line_is_longest; eauto.
    - apply skip_prefix; auto. intros b m r Hb _ E Hm. eapply no_statement_in_line; eauto.
  Qed.

  (** ** C08 *)
  Lemma count_ch_occ c s : count_ch c s = occ c s.
  Proof.
    unfold occ. induction s as [|x s IH]; simpl; auto.
    destruct (N.eqb_spec c x), (N.eq_dec x c); subst; simpl; try congruence; lia.
  Qed.
  Lemma property_syntax_spec s :
    (check_property_syntax s = Ok tt /\ occ 58 s = occ 44 s + 1) \/
    (check_property_syntax s = Err ParamSyntaxError /\ occ 58 s <> occ 44 s + 1).
  Proof.
    unfold check_property_syntax. rewrite !count_ch_occ.
    destruct (Nat.eqb_spec (occ 44 s + 1) (occ 58 s)); [left|right]; split; auto; lia.
  Qed.
  Lemma is_listv_spec c : is_listv_ch c = true <-> (is_word c = true \/ is_space c = true \/ In c (py ",'"".@")).
  Proof.
    unfold is_listv_ch. rewrite !orb_true_iff, existsb_exists. split.
    - intros [[H|H]|(x & Hx & E)]; auto. apply N.eqb_eq in E. subst; auto.
    - intros [H|[H|H]]; auto. right. exists c. rewrite N.eqb_refl. auto.
  Qed.
  Lemma Lang_list_value w d : Lang list_value w d <-> ListLiteral w /\ d = [].
  Proof.
    unfold list_value, ListLiteral. rewrite Lang_cats_cons. split.
    - intros (p & v & ? & ? & -> & -> & H1 & H). apply Lang_ch in H1 as [-> ->].
      apply Lang_cats_cons in H as (b & v2 & ? & ? & -> & -> & H2 & H). apply Lang_Plus in H2 as (Hb & HF & ->).
      apply Lang_ch in H as [-> ->]. split; auto. exists b. repeat split; auto.
      eapply Forall_impl; [|exact HF]. intros a. apply is_listv_spec.
    - intros [(b & -> & Hb & HF) ->]. exists (py "["), (b ++ py "]"), [], []. repeat split; [apply Lang_ch; auto|].
      apply Lang_cats_cons. exists b, (py "]"), [], []. repeat split; [|apply Lang_ch; auto].
      apply Lang_Plus. repeat split; auto. eapply Forall_impl; [|exact HF]. intros a. apply is_listv_spec.
  Qed.
  Lemma listv_not_bracket : is_listv_ch 93 = false.
  Proof. reflexivity. Qed.
  Lemma ListLiteral_unique m r m' r' : ListLiteral m -> ListLiteral m' -> m ++ r = m' ++ r' -> m = m'.
  Proof.
    intros (b & -> & _ & HF) (b' & -> & _ & HF') E. simpl in E. rewrite <- !app_assoc in E. inversion E as [E'].
    apply run_unique with (p := is_listv_ch) in E' as (-> & _); auto using listv_not_bracket;
    eapply Forall_impl; try eassumption; intros a; apply is_listv_spec.
  Qed.
  Lemma sub_empty_spec s : TakenOut ListLiteral s (sub_empty list_value s) (map fst (finditer list_value s)).
  Proof.
    unfold sub_empty, finditer. pose proof (scan_Scanned list_value s) as H.
    induction H; simpl.
    - constructor.
    - apply TO_skip; auto. intros m rest E Hm. eapply H; [exact E|]. apply Lang_list_value. auto.
    - apply Best_Lang in H. apply Lang_list_value in H as [H _].
      apply TO_take; auto. intros m' rest E Hm'. rewrite (ListLiteral_unique _ _ _ _ H Hm' E). auto.
    - exfalso. apply Best_Lang, Lang_list_value in H as [(b & E & _) _]. discriminate.
    - exfalso. apply Best_Lang, Lang_list_value in H as [(b & E & _) _]. discriminate.
    - exfalso. apply Best_Lang, Lang_list_value in H as [(b & E & _) _]. discriminate.
  Qed.
  Lemma TakenOut_unique P s o ms o' ms' : TakenOut P s o ms -> TakenOut P s o' ms' -> o = o' /\ ms = ms'.
  Proof.
    intros H. revert o' ms'. induction H as [|x s o ms Hno H IH|m s o ms Hm Hne Hmax H IH]; intros o' ms' H'.
    - inversion H'; auto. destruct m; [congruence|discriminate].
    - inversion H'; subst; auto.
      + edestruct IH; eauto. subst; auto.
      + exfalso. eapply Hno; eauto.
    - inversion H' as [E|x q' ? ms2 Hno HE' E|m' q' ? ms2 Hm' Hne' Hmax' HE' E]; subst.
      + destruct m; [congruence|discriminate].
      + exfalso. eapply Hno; eauto.
      + assert (Hl : List.length m' = List.length m).
        { apply Nat.le_antisymm; [eapply Hmax; eauto|eapply Hmax'; eauto]. }
        apply app_eq_len in E as [-> ->]; auto. edestruct IH; eauto. subst; auto.
  Qed.
  Lemma param_match_spec p out ls :
    TakenOut ListLiteral (pythonise p) out ls ->
    (check_param_match p = Ok tt <-> occ 58 out = occ 44 out + 1 /\ Forall (fun l => exists v, literal_eval l = Ok v) ls) /\
    (occ 58 out <> occ 44 out + 1 -> check_param_match p = Err ParamSyntaxError).
  Proof.
    intros H. destruct (TakenOut_unique _ _ _ _ _ _ H (sub_empty_spec _)) as [-> ->].
    unfold check_param_match.
    destruct (property_syntax_spec (sub_empty list_value (pythonise p))) as [[-> E]|[-> E]]; cbn [bind].
    - split; [|contradiction]. rewrite forM_ok. rewrite !Forall_forall. split.
      + intros HF. split; auto. intros l Hl. specialize (HF l Hl). unfold check_list in HF.
        destruct (literal_eval l) as [v|[]]; try discriminate; eauto.
      + intros [_ HF] l Hl. destruct (HF l Hl) as (v & Hv). unfold check_list. rewrite Hv. reflexivity.
    - split; auto. split; [discriminate|tauto].
  Qed.

  (** ** The statements used by Prop_Text *)
  Lemma extraction_genuine q c ms : extract_all_statements q c = Ok (Some ms) ->
    Extracted (StatementOf c) q ms /\ Forall (StatementOf c) ms /\
    exists gaps, List.length gaps = S (List.length ms) /\ q = weave gaps ms.
  Proof.
    intros H. assert (Hc : c <> CRITERIA) by (intros ->; discriminate).
    destruct (extract_cases q c Hc) as [(ms' & _ & HE & Hx)|(_ & [[_ Hx]|[_ Hx]])]; rewrite Hx in H; inv H.
    destruct (Extracted_weave _ _ _ HE) as (gaps & L & E & F). eauto 6.
  Qed.
  Lemma extraction_exact q c ms : c <> CRITERIA -> ms <> [] -> Extracted (StatementOf c) q ms ->
    extract_all_statements q c = Ok (Some ms).
  Proof.
    intros Hc Hne HE. apply extract_spec in HE; auto. unfold extract_all_statements. rewrite HE.
    destruct c, ms; congruence.
  Qed.
  Lemma lines_extracted_ok c (tl : list (bool * pystr)) :
    c <> CRITERIA ->
    Forall (fun t : bool * pystr => no_newline (snd t) /\ if fst t then StatementOf c (snd t) else ~ Occurs (keyword c) (snd t)) tl ->
    filter fst tl <> [] ->
    extract_all_statements (join_lines (map snd tl)) c = Ok (Some (map snd (filter fst tl))).
  Proof.
    intros Hc HF Hne. apply extraction_exact; auto.
    - destruct (filter fst tl); [congruence|discriminate].
    - apply lines_extracted; auto.
  Qed.
  Lemma one_statement_rels s : check_relationships [s] = Ok tt <->
    forall t name, In (t, name) (rel_matches s) -> rel_acceptable t name.
  Proof.
    rewrite relationships_ok. split.
    - intros H. apply (H [] s []); auto.
    - intros H l1 s' l2 E HF. destruct l1 as [|x l1]; simpl in E; inv E; auto. destruct l1; discriminate.
  Qed.
  Lemma relationships_spec stmts :
    (check_relationships stmts = Ok tt <->
     forall l1 s l2, stmts = l1 ++ s :: l2 -> Forall (fun s' => rel_matches s' <> []) l1 ->
                   forall t name, In (t, name) (rel_matches s) -> rel_acceptable t name) /\
    (forall e, check_relationships stmts = Err e ->
             e = NonDirectedRelationshipError \/ e = RelationshipNameSyntaxError).
  Proof. split; [apply relationships_ok|apply relationships_err]. Qed.
  Lemma rest_unchecked l1 l2 s :
    rel_matches s = [] -> check_relationships l1 = Ok tt -> check_relationships (l1 ++ s :: l2) = Ok tt.
  Proof.
    intros Hs. induction l1 as [|x l1 IH]; cbn [check_relationships app].
    - rewrite Hs. auto.
    - destruct (rel_matches x) as [|r rels]; auto. intros H. apply bind_ok in H as ([] & H1 & H2).
      rewrite H1. cbn [bind]. auto.
  Qed.
  Lemma taken_out_exists p : exists out ls, TakenOut ListLiteral (pythonise p) out ls.
  Proof. eexists _, _. apply sub_empty_spec. Qed.
End ChecksFacts.

Lemma illegal_spec (stmts : list pystr) :
  (check_illegal_characters stmts = Ok tt <-> forall s, In s stmts -> ~ has_illegal s) /\
  (check_illegal_characters stmts = Err IllegalCharacterError <-> exists s, In s stmts /\ has_illegal s).
Proof. split; [apply illegal_ok|apply illegal_err]. Qed.
Lemma brackets_spec (stmts : list pystr) :
  (check_statement_syntax stmts = Ok tt <->
   forall s seg, In s stmts -> Segment s seg -> even_brackets seg) /\
  (forall e, check_statement_syntax stmts = Err e -> e = ClauseSyntaxError).
Proof. split; [apply brackets_ok|apply brackets_err]. Qed.
