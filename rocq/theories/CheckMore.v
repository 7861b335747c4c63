(** * CheckMore: the relationships and property lists of any text (C05, C07, C08, C59) *)
From Verif Require Import PyBase BaseFacts Regex RegexSpec RegexFacts RegexMore Patterns SpecText SpecPattern SpecGrammar PatternFacts GrammarFacts
  Literal Props Checks ChecksFacts AcceptFacts Statements StatementFacts QueryFacts SpecChecks.
From Coq Require Import ZifyBool ZifyN ZifyNat.

Section CheckMore.
  Context {rt : PyRt} (R : rt_ok rt).

  Definition params (b : pystr) : Prop := Forall (fun c => is_param_ch c = true) b.
  Definition fails (r : re) (v : pystr) : Prop := forall (A : Type) c (k : pystr -> caps -> option A), mt r v c k = None.

  Lemma while_lstrip p s : s = while p s ++ lstrip p s.
  Proof. induction s as [|x s IH]; [reflexivity|]. cbn [while lstrip]. destruct (p x); [cbn [app]; congruence|reflexivity]. Qed.
  Lemma while_all p s : Forall (fun x => p x = true) (while p s).
  Proof. induction s as [|x s IH]; [constructor|]. cbn [while]. destruct (p x) eqn:E; constructor; assumption. Qed.
  Lemma lstrip_stops p s : stops p (lstrip p s).
  Proof. induction s as [|x s IH]; [exact I|]. cbn [lstrip]. destruct (p x) eqn:E; [exact IH|exact E]. Qed.
  Lemma params_lstrip p b : params b -> params (lstrip p b).
  Proof. intros H. rewrite (while_lstrip p b) in H. apply Forall_app in H. apply H. Qed.

  (** a greedy run in front of an expression that needs at least one character *)
  Lemma star_step p l v s (dd : pystr -> caps) : stops p (v ++ s) ->
    (forall b, b <> [] -> params b -> Greedy (cats l) (b ++ v) s (dd b)) -> fails (cats l) (v ++ s) -> l <> [] ->
    (forall x, p x = true -> is_param_ch x = true -> dd [x] = dd []) ->
    forall b, b <> [] -> params b -> Greedy (cats (Star p :: l)) (b ++ v) s (dd (lstrip p b)).
  Proof.
    intros SV G F NL DD b NB PB A c k res K. destruct l as [|a l]; [congruence|]. set (tl := cats (a :: l)) in *.
    change (cats (Star p :: a :: l)) with (Cat (Star p) tl). cbn [mt].
    pose proof (while_lstrip p b) as E. pose proof (while_all p b) as WA.
    destruct (lstrip p b) as [|y r] eqn:Er.
    - rewrite app_nil_r in E. rewrite <- E in WA.
      destruct b as [|x b _] using rev_ind; [congruence|]. rewrite <- app_assoc. cbn [app]. rewrite <- app_assoc. cbn [app].
      apply mt_star_back; [exact WA|exact SV|apply F|].
      assert (PX : p x = true). { apply Forall_app in WA as [_ WA]. inv WA. assumption. }
      apply Forall_app in PB as [_ PB]. inversion PB as [|? ? PX' _]; subst.
      apply (G [x]); [discriminate|exact PB|]. rewrite DD; assumption.
    - rewrite E, <- app_assoc. rewrite <- app_assoc.
      apply (greedy_star p (while p b) ((y :: r) ++ v ++ s) WA) with (c := c) (k := fun s1 c1 => mt tl s1 c1 k).
      + pose proof (lstrip_stops p b) as SS. rewrite Er in SS. exact SS.
      + cbn [app]. change (y :: r ++ v ++ s) with ((y :: r) ++ v ++ s). rewrite app_assoc. apply G; [discriminate| |exact K].
        pose proof (params_lstrip p b PB) as PP. rewrite Er in PP. exact PP.
  Qed.

  Definition dash_end (v : pystr) : Prop := exists d gt, v = d ++ gt /\ Dashes d /\ (gt = [] \/ gt = py ">").
  Lemma dash_cons d : Dashes d -> exists n, d = dashes n.
  Proof.
    intros [N F]. destruct d as [|x d]; [congruence|]. exists (List.length d). inv F. unfold dashes. cbn [repeat]. f_equal.
    clear N. induction d as [|y d IH]; [reflexivity|]. inv H2. cbn [List.length repeat]. f_equal. auto.
  Qed.

  (** the end of the expression: parameters, dashes, arrow head *)
  Definition T0 : list re := [all_params; Plus (N.eqb 45); Opt (ch 62)].
  Definition T1 : list re := Sp :: T0.
  Definition T2 : list re := Grp GRelName W :: T1.
  Definition T3 : list re := Sp :: T2.
  Definition T4 : list re := Opt (ch 58) :: T3.
  Definition T5 : list re := Sp :: T4.
  Definition T6 : list re := W :: T5.
  Definition T7 : list re := Sp :: T6.

  Section End_.
    Context (n : nat) (gt s : pystr) (HG : gt = [] \/ gt = py ">") (S1 : gt = [] -> stops (N.eqb 45) s /\ stops (N.eqb 62) s).
    Let v := dashes n ++ gt.
    Lemma v_stops (p : N -> bool) : p 45%N = false -> stops p (v ++ s).
    Proof. intros H. exact H. Qed.
    Lemma g0 b : b <> [] -> params b -> Greedy (cats T0) (b ++ v) s [].
    Proof.
      intros N P. unfold T0. rewrite <- (app_nil_r (@nil (gname * pystr))). apply greedy_cats; [apply greedy_plus; [exact N|exact P|reflexivity]|].
      unfold v. apply greedy_dashes.
      - destruct HG as [-> | ->]; [apply S1; reflexivity|reflexivity].
      - destruct HG as [-> | ->].
        + apply (greedy_opt_ch false 62 [] [] s []); [intros _; apply S1; reflexivity|apply greedy_cats_end].
        + apply (greedy_opt_ch true 62 [] [] s []); [discriminate|apply greedy_cats_end].
    Qed.
    Ltac fail_ := let A := fresh in let c := fresh in let k := fresh in intros A c k; unfold v, dashes; cbn [repeat app];
      repeat (unfold T7, T6, T5, T4, T3, T2, T1, T0, all_params, Plus, Sp, W, ch; cbn [cats mt mt_star]);
      change (is_space 45) with false; change (is_word 45) with false; change (is_param_ch 45) with false; reflexivity.
    Lemma f0 : fails (cats T0) (v ++ s). Proof. fail_. Qed.
    Lemma f1 : fails (cats T1) (v ++ s). Proof. fail_. Qed.
    Lemma f2 : fails (cats T2) (v ++ s). Proof. fail_. Qed.
    Lemma f3 : fails (cats T3) (v ++ s). Proof. fail_. Qed.
    Lemma f4 : fails (cats T4) (v ++ s). Proof. fail_. Qed.
    Lemma f5 : fails (cats T5) (v ++ s). Proof. fail_. Qed.
    Lemma f6 : fails (cats T6) (v ++ s). Proof. fail_. Qed.

    Lemma g1 b : b <> [] -> params b -> Greedy (cats T1) (b ++ v) s [].
    Proof.
      apply (star_step is_space T0 v s (fun _ => [])); [reflexivity|exact g0|exact f0|discriminate|reflexivity].
    Qed.
    Definition n2 (b : pystr) : pystr := match lstrip is_word b with [] => removelast b | _ => while is_word b end.
    Lemma g2 b : b <> [] -> params b -> Greedy (cats T2) (b ++ v) s [(GRelName, n2 b)].
    Proof.
      intros NB PB. unfold T2. pose proof (while_lstrip is_word b) as E. pose proof (while_all is_word b) as WA. unfold n2.
      destruct (lstrip is_word b) as [|y r] eqn:Er.
      - rewrite app_nil_r in E. rewrite <- E in WA. destruct b as [|x b _] using rev_ind; [congruence|]. rewrite removelast_last.
        intros A c k res K. change (cats (Grp GRelName W :: T1)) with (Cat (Grp GRelName W) (cats T1)). unfold W. cbn [mt].
        rewrite <- app_assoc. rewrite <- app_assoc. cbn [app].
        apply mt_star_back; [exact WA|apply v_stops; reflexivity|apply f1|].
        replace (b ++ x :: v ++ s) with (b ++ (x :: v ++ s)) by reflexivity. rewrite consumed_app.
        apply (g1 [x]); [discriminate| |exact K]. apply Forall_app in PB. apply PB.
      - rewrite E at 1. rewrite <- app_assoc. change [(GRelName, while is_word b)] with ([] ++ [(GRelName, while is_word b)]).
        apply greedy_cats.
        + apply greedy_grp, greedy_star; [exact WA|]. pose proof (lstrip_stops is_word b) as SS. rewrite Er in SS. exact SS.
        + apply g1; [discriminate|]. pose proof (params_lstrip is_word b PB) as PP. rewrite Er in PP. exact PP.
    Qed.
    Lemma not_word x : is_space x = true -> is_word x = false. Proof. apply space_not_word. exact R. Qed.
    Lemma n2_space x : is_space x = true -> n2 [x] = [].
    Proof. intros H. unfold n2. cbn [lstrip while]. rewrite (not_word x H). reflexivity. Qed.
    Lemma g3 b : b <> [] -> params b -> Greedy (cats T3) (b ++ v) s [(GRelName, n2 (lstrip is_space b))].
    Proof.
      apply (star_step is_space T2 v s (fun b => [(GRelName, n2 b)])); [reflexivity|exact g2|exact f2|discriminate|].
      intros x H _. rewrite (n2_space x H). reflexivity.
    Qed.
    Definition n4 (b : pystr) : pystr := n2 (lstrip is_space (after_colon b)).
    Lemma g4 b : b <> [] -> params b -> Greedy (cats T4) (b ++ v) s [(GRelName, n4 b)].
    Proof.
      intros NB PB. unfold T4. destruct b as [|x b]; [congruence|]. destruct (N.eqb_spec 58 x) as [<-|NE].
      - unfold n4. cbn [after_colon]. destruct b as [|y b].
        + intros A c k res K. change (cats (Opt (ch 58) :: T3)) with (Cat (Opt (ch 58)) (cats T3)). cbn [app]. unfold ch. cbn [mt]. rewrite N.eqb_refl.
          rewrite f3. apply (g3 [58%N]); [discriminate|exact PB|exact K].
        + cbn [app]. apply (greedy_opt_ch true 58 T3 (y :: b ++ v) s); [discriminate|]. change (y :: b ++ v) with ((y :: b) ++ v).
          apply g3; [discriminate|]. inv PB. assumption.
      - assert (EA : after_colon (x :: b) = x :: b).
        { cbn [after_colon]. destruct (N.eqb_spec x 58); [congruence|reflexivity]. }
        unfold n4. rewrite EA. apply (greedy_opt_ch false 58 T3 ((x :: b) ++ v) s).
        + intros _. cbn [app stops]. apply N.eqb_neq. exact NE.
        + apply g3; assumption.
    Qed.
    Lemma n4_one x : is_space x = true \/ is_word x = true -> n4 [x] = [].
    Proof.
      intros H. unfold n4, after_colon. destruct (N.eqb_spec x 58) as [->|NE]; [reflexivity|].
      cbn [lstrip]. destruct (is_space x) eqn:E; [reflexivity|]. destruct H as [H|H]; [discriminate|]. unfold n2. cbn [lstrip]. rewrite H. reflexivity.
    Qed.
    Lemma g5 b : b <> [] -> params b -> Greedy (cats T5) (b ++ v) s [(GRelName, n4 (lstrip is_space b))].
    Proof.
      apply (star_step is_space T4 v s (fun b => [(GRelName, n4 b)])); [reflexivity|exact g4|exact f4|discriminate|].
      intros x H _. rewrite (n4_one x (or_introl H)). reflexivity.
    Qed.
    Lemma g6 b : b <> [] -> params b -> Greedy (cats T6) (b ++ v) s [(GRelName, n4 (lstrip is_space (lstrip is_word b)))].
    Proof.
      apply (star_step is_word T5 v s (fun b => [(GRelName, n4 (lstrip is_space b))])); [reflexivity|exact g5|exact f5|discriminate|].
      intros x H _. cbn [lstrip]. destruct (is_space x); [reflexivity|]. rewrite (n4_one x (or_intror H)). reflexivity.
    Qed.
    Lemma g7 b : b <> [] -> params b -> Greedy (cats T7) (b ++ v) s [(GRelName, name_in b)].
    Proof.
      apply (star_step is_space T6 v s (fun b => [(GRelName, n4 (lstrip is_space (lstrip is_word b)))])); [reflexivity|exact g6|exact f6|discriminate|].
      intros x H _. cbn [lstrip]. destruct (is_word x) eqn:E; [reflexivity|]. cbn [lstrip]. rewrite H. reflexivity.
    Qed.
  End End_.

  (** ** The whole expression *)
  Lemma greedy_rel lt n1 b n gt s : (lt = [] \/ lt = py "<") -> b <> [] -> params b -> (gt = [] \/ gt = py ">") ->
    (gt = [] -> stops (N.eqb 45) s /\ stops (N.eqb 62) s) ->
    let w := lt ++ dashes n1 ++ py "[" ++ b ++ dashes n ++ gt in
    Greedy rel_dir_check w s [(GRelWhole, w); (GRelName, name_in b)].
  Proof.
    intros HL NB PB HG HS w. unfold rel_dir_check. apply greedy_grp.
    assert (G : Greedy (cats (Opt (ch 60) :: Plus (N.eqb 45) :: ch 91 :: T7)) w s [(GRelName, name_in b)]).
    { assert (G0 : Greedy (cats (Plus (N.eqb 45) :: ch 91 :: T7)) (dashes n1 ++ py "[" ++ b ++ dashes n ++ gt) s [(GRelName, name_in b)]).
      { apply greedy_dashes; [reflexivity|]. apply greedy_chs. apply g7; assumption. }
      unfold w. destruct HL as [-> | ->].
      - apply (greedy_opt_ch false 60); [reflexivity|exact G0].
      - apply (greedy_opt_ch true 60); [discriminate|exact G0]. }
    exact G.
  Qed.

  Lemma param_iff t : ParamText t <-> t <> [] /\ params t.
  Proof.
    unfold ParamText, params. split; intros [N F]; (split; [exact N|]); revert F; apply Forall_impl; intros c; apply param_ch.
  Qed.
  Lemma word_params t : Forall (fun x => is_word x = true) t -> params t.
  Proof. apply Forall_impl. intros c H. apply param_ch. auto. Qed.
  Lemma space_params t : Forall (fun x => is_space x = true) t -> params t.
  Proof. apply Forall_impl. intros c H. apply param_ch. auto. Qed.
  Lemma Dashes_iff t : Dashes t <-> t <> [] /\ Forall (fun x => N.eqb 45 x = true) t.
  Proof. unfold Dashes. split; intros [N F]; (split; [exact N|]); revert F; apply Forall_impl; intros c H; lia. Qed.
  Lemma Lang_opt_ch x w d : Lang (Opt (ch x)) w d -> (w = [] \/ w = [x]) /\ d = [].
  Proof. intros H. apply Lang_opt in H as [H|[-> ->]]; [apply Lang_ch in H as [-> ->]|]; auto. Qed.

  Lemma Lang_rel w d : Lang rel_dir_check w d -> exists body, RelText body w.
  Proof.
    unfold rel_dir_check. intros H. apply Lang_grp in H as (c & -> & H).
    apply Lang_cats_cons in H as (lt & v & ? & ? & -> & -> & H1 & H). apply Lang_opt_ch in H1 as [H1 ->].
    apply Lang_cats_cons in H as (d1 & v2 & ? & ? & -> & -> & H2 & H). apply Lang_Plus in H2 as (N2 & F2 & ->).
    apply Lang_cats_cons in H as (br & v3 & ? & ? & -> & -> & H3 & H). apply Lang_ch in H3 as (-> & ->).
    apply Lang_cats_cons in H as (s1 & v4 & ? & ? & -> & -> & H4 & H). apply Lang_star in H4 as (H4 & ->).
    apply Lang_cats_cons in H as (w1 & v5 & ? & ? & -> & -> & H5 & H). apply Lang_star in H5 as (H5 & ->).
    apply Lang_cats_cons in H as (s2 & v6 & ? & ? & -> & -> & H6 & H). apply Lang_star in H6 as (H6 & ->).
    apply Lang_cats_cons in H as (co & v7 & ? & ? & -> & -> & H7 & H). apply Lang_opt_ch in H7 as (H7 & ->).
    apply Lang_cats_cons in H as (s3 & v8 & ? & ? & -> & -> & H8 & H). apply Lang_star in H8 as (H8 & ->).
    apply Lang_cats_cons in H as (w2 & v9 & ? & ? & -> & -> & H9 & H). apply Lang_grp in H9 as (? & -> & H9). apply Lang_star in H9 as (H9 & ->).
    apply Lang_cats_cons in H as (s4 & va & ? & ? & -> & -> & Ha & H). apply Lang_star in Ha as (Ha & ->).
    apply Lang_cats_cons in H as (pp & vb & ? & ? & -> & -> & Hb & H). apply Lang_Plus in Hb as (Nb & Fb & ->).
    apply Lang_cats_cons in H as (d2 & vc & ? & ? & -> & -> & Hc & H). apply Lang_Plus in Hc as (Nc & Fc & ->).
    apply Lang_cats_cons in H as (gt & vd & ? & ? & -> & -> & Hd & H). apply Lang_opt_ch in Hd as (Hd & ->).
    apply Lang_cats_nil in H as [-> ->].
    exists (s1 ++ w1 ++ s2 ++ co ++ s3 ++ w2 ++ s4 ++ pp), lt, d1, d2, gt. split; [|split; [exact H1|split; [|split; [|split]]]].
    - rewrite app_nil_r, <- !app_assoc. reflexivity.
    - apply Dashes_iff. auto.
    - apply param_iff. split.
      + intros E. apply Nb. repeat (apply app_eq_nil in E as [_ E]). exact E.
      + unfold params. rewrite !Forall_app.
        repeat split; try (apply word_params; assumption); try (apply space_params; assumption); try exact Fb.
        destruct H7 as [-> | ->]; repeat constructor.
    - apply Dashes_iff. auto.
    - exact Hd.
  Qed.

  (** the dashes and the arrow head at the start of a text *)
  Definition tail_of (u : pystr) : pystr :=
    while (N.eqb 45) u ++ match lstrip (N.eqb 45) u with x :: _ => if N.eqb x 62 then py ">" else [] | [] => [] end.
  Lemma while_longest p a b : Forall (fun x => p x = true) a -> exists a', while p (a ++ b) = a ++ a' /\ exists b', b = a' ++ b' /\ lstrip p (a ++ b) = b'.
  Proof.
    intros F. induction a as [|x a IH]; cbn [app].
    - exists (while p b). split; [reflexivity|]. exists (lstrip p b). split; [apply while_lstrip|reflexivity].
    - inv F. destruct (IH H2) as (a' & E & b' & Eb & El). exists a'. cbn [while lstrip]. rewrite H1. split; [rewrite E; reflexivity|]. eauto.
  Qed.
  Lemma tail_longest d gt r : Dashes d -> (gt = [] \/ gt = py ">") -> exists r', d ++ gt ++ r = tail_of (d ++ gt ++ r) ++ r' /\
    List.length (d ++ gt) <= List.length (tail_of (d ++ gt ++ r)) /\
    exists n g, tail_of (d ++ gt ++ r) = dashes n ++ g /\ (g = [] \/ g = py ">") /\ (g = [] -> stops (N.eqb 45) r' /\ stops (N.eqb 62) r').
  Proof.
    intros HD HG. pose proof (proj1 (Dashes_iff d) HD) as [ND FD]. unfold tail_of.
    destruct (while_longest (N.eqb 45) d (gt ++ r) FD) as (a' & E & b' & Eb & El). rewrite El.
    pose proof (while_all (N.eqb 45) (d ++ gt ++ r)) as WA. pose proof (lstrip_stops (N.eqb 45) (d ++ gt ++ r)) as SS. rewrite El in SS. rewrite E in *.
    assert (HW : exists n, d ++ a' = dashes n).
    { apply dash_cons, Dashes_iff. split; [destruct d; [congruence|discriminate]|exact WA]. }
    destruct HW as (n & HW).
    assert (LA : gt = py ">" -> a' = [] /\ b' = 62%N :: r).
    { intros ->. destruct a' as [|x a']; [split; [reflexivity|symmetry; exact Eb]|]. cbn in Eb. injection Eb as <- _.
      rewrite Forall_app in WA. destruct WA as [_ WA]. inv WA. discriminate. }
    destruct b' as [|x b'].
    - exists []. rewrite !app_nil_r. split; [|split].
      + rewrite Eb, app_nil_r. reflexivity.
      + destruct HG as [-> | ->]; [rewrite app_nil_r, app_length; lia|]. destruct (LA eq_refl). discriminate.
      + exists n, []. rewrite app_nil_r. split; [exact HW|]. split; [auto|]. intros _. split; exact I.
    - destruct (N.eqb_spec x 62) as [->|NX].
      + exists b'. split; [|split].
        * rewrite Eb, <- !app_assoc. reflexivity.
        * rewrite !app_length. destruct HG as [-> | ->]; cbn [List.length]; lia.
        * exists n, (py ">"). rewrite HW. split; [reflexivity|]. split; [auto|discriminate].
      + exists (x :: b'). rewrite app_nil_r. split; [|split].
        * rewrite Eb, <- !app_assoc. reflexivity.
        * destruct HG as [-> | ->]; [rewrite app_nil_r, app_length; lia|]. destruct (LA eq_refl) as [_ Y]. congruence.
        * exists n, []. rewrite app_nil_r. split; [exact HW|]. split; [auto|]. intros _. split; [exact SS|]. cbn [stops]. apply N.eqb_neq. congruence.
  Qed.

  (** two relationships at the start of the same text have the same beginning *)
  Lemma same_start lt d1 b d2 u lt' d1' b' d2' u' :
    lt ++ d1 ++ py "[" ++ b ++ d2 ++ u = lt' ++ d1' ++ py "[" ++ b' ++ d2' ++ u' ->
    (lt = [] \/ lt = py "<") -> Dashes d1 -> ParamText b -> Dashes d2 ->
    (lt' = [] \/ lt' = py "<") -> Dashes d1' -> ParamText b' -> Dashes d2' ->
    lt = lt' /\ d1 = d1' /\ b = b' /\ d2 ++ u = d2' ++ u'.
  Proof.
    intros E HL [N1 F1] HB [N2 F2] HL' [N1' F1'] HB' [N2' F2'].
    assert (X : lt = lt' /\ d1 ++ py "[" ++ b ++ d2 ++ u = d1' ++ py "[" ++ b' ++ d2' ++ u').
    { destruct d1 as [|x d1]; [congruence|]. destruct d1' as [|x' d1']; [congruence|].
      assert (x = 45%N) by exact (Forall_inv F1). assert (x' = 45%N) by exact (Forall_inv F1'). subst.
      destruct HL as [-> | ->], HL' as [-> | ->]; cbn in E.
      - auto.
      - discriminate.
      - discriminate.
      - injection E as E. split; [reflexivity|]. cbn. rewrite E. reflexivity. }
    destruct X as [-> X]. cbn [app] in X.
    apply (run_unique (N.eqb 45)) in X as (-> & _ & X); [|revert F1; apply Forall_impl; intros; lia|revert F1'; apply Forall_impl; intros; lia|reflexivity|reflexivity].
    apply param_iff in HB as [NB PB]. apply param_iff in HB' as [NB' PB'].
    destruct d2 as [|y d2]; [congruence|]. destruct d2' as [|y' d2']; [congruence|].
    assert (y = 45%N) by exact (Forall_inv F2). assert (y' = 45%N) by exact (Forall_inv F2'). subst. cbn [app] in X.
    apply (run_unique is_param_ch) in X as (-> & _ & X); [|assumption|assumption|reflexivity|reflexivity].
    cbn [app]. rewrite X. auto.
  Qed.

  Lemma rel_best body t rest : RelText body t -> exists w r, t ++ rest = w ++ r /\ RelText body w /\
    Best rel_dir_check (t ++ rest) w [(GRelWhole, w); (GRelName, name_in body)] /\
    forall b' t' r', t ++ rest = t' ++ r' -> RelText b' t' -> b' = body /\ List.length t' <= List.length w.
  Proof.
    intros (lt & d1 & d2 & gt & -> & HL & HD1 & HB & HD2 & HG).
    destruct (tail_longest d2 gt rest HD2 HG) as (r & E & _ & n & g & Et & Hg & Sg). destruct (dash_cons d1 HD1) as (n1 & En1).
    exists (lt ++ d1 ++ py "[" ++ body ++ tail_of (d2 ++ gt ++ rest)), r.
    assert (EQ : (lt ++ d1 ++ py "[" ++ body ++ d2 ++ gt) ++ rest = (lt ++ d1 ++ py "[" ++ body ++ tail_of (d2 ++ gt ++ rest)) ++ r).
    { rewrite <- !app_assoc, <- E. reflexivity. }
    split; [exact EQ|]. split; [|split].
    - exists lt, d1, (dashes n), g. rewrite Et. repeat (split; auto). discriminate. apply Dashes_iff. split; [discriminate|apply dashes_all].
    - rewrite EQ. apply match_here_iff_Best. apply greedy_match. rewrite Et, En1. apply param_iff in HB as [NB PB]. apply greedy_rel; assumption.
    - intros b' t' r' EE (lt' & d1' & d2' & gt' & -> & HL' & HD1' & HB' & HD2' & HG'). rewrite <- !app_assoc in EE.
      destruct (same_start _ _ _ _ _ _ _ _ _ _ EE) as (<- & <- & <- & EU); try assumption. split; [reflexivity|].
      destruct (tail_longest d2' gt' r' HD2' HG') as (_ & _ & L & _). rewrite <- EU in L. rewrite !app_length in *. lia.
  Qed.
  Lemma rel_not_nil b : ~ RelText b [].
  Proof. intros (lt & d1 & d2 & gt & E & _ & [N _] & _). symmetry in E. apply app_eq_nil in E as [_ E]. apply app_eq_nil in E as [E _]. congruence. Qed.
  Lemma Best_same r s w d w' d' : Best r s w d -> Best r s w' d' -> w = w' /\ d = d'.
  Proof. intros (r1 & m1 & E1 & A1) (r2 & m2 & E2 & A2). rewrite A1 in A2. injection A2 as <- <- _. split; [|reflexivity]. rewrite E1 in E2. apply app_inv_tail in E2. exact E2. Qed.

  Theorem rel_matches_are s : Relationships s (rel_matches s).
  Proof.
    unfold rel_matches, Relationships, finditer. pose proof (scan_Scanned rel_dir_check s) as H. rewrite map_map. cbn [fst snd].
    induction H as [|x s l N H IH|w s d l B NE H IH|d B|x s d l B N H IH|w s d d' l B B' H IH]; cbn [mats map].
    - split; constructor.
    - destruct IH as [IH1 IH2]. split; [|exact IH2]. apply Ex_skip; [|exact IH1]. intros m rest E (body & T).
      destruct (rel_best body m rest T) as (w & r & E2 & _ & B & _). apply Best_Lang in B. apply (N w r _ (eq_trans E E2) B).
    - destruct IH as [IH1 IH2]. pose proof (Best_Lang _ _ _ _ B) as L. apply Lang_rel in L as (body & T).
      destruct (rel_best body w s T) as (w' & r & E2 & T' & B' & MX). destruct (Best_same _ _ _ _ _ _ B B') as [<- ->]. cbn [cap gname_eqb fst snd].
      split.
      + apply Ex_take; [eauto|exact NE| |exact IH1]. intros m' rest E (b' & Tm). eapply MX; eassumption.
      + constructor; [|exact IH2]. exists body. cbn. auto.
    - exfalso. apply Best_Lang, Lang_rel in B as (b & T). apply (rel_not_nil b T).
    - exfalso. apply Best_Lang, Lang_rel in B as (b & T). apply (rel_not_nil b T).
    - exfalso. apply Best_Lang, Lang_rel in B as (b & T). apply (rel_not_nil b T).
  Qed.

  Lemma rel_body_one b b' t : RelText b t -> RelText b' t -> b = b'.
  Proof. intros H H'. destruct (rel_best b t [] H) as (w & r & _ & _ & _ & M). symmetry. apply (M b' t []); [reflexivity|exact H']. Qed.
  Theorem relationships_unique s r1 r2 : Relationships s r1 -> Relationships s r2 -> r1 = r2.
  Proof.
    intros [E1 F1] [E2 F2]. pose proof (Extracted_unique _ _ _ E1 _ E2) as E. clear E1 E2. revert r2 E F2. induction F1 as [|x r1 H F1 IH]; intros [|y r2] E F2; cbn [map] in E; try discriminate; [reflexivity|].
    injection E as Ea E. inv F2. f_equal; [|apply IH; assumption]. destruct x as [t n], y as [t' n']. cbn [fst snd] in *. subst t'.
    destruct H as (b & T & ->). destruct H2 as (b' & T' & ->). rewrite (rel_body_one b b' t T T'). reflexivity.
  Qed.
  Lemma Relationships_iff s rs : Relationships s rs <-> rs = rel_matches s.
  Proof. split; [intros H; apply (relationships_unique s); [exact H|apply rel_matches_are]|intros ->; apply rel_matches_are]. Qed.

  Theorem relationships_check stmts : check_relationships stmts = Ok tt <-> all_rels stmts.
  Proof.
    rewrite relationships_ok. unfold all_rels, acceptable_rels. split; intros H l1 s l2.
    - intros rs E F Rs. apply Relationships_iff in Rs. subst rs. apply Forall_forall. intros [t n] I. apply (H l1 s l2 E); [|exact I].
      revert F. apply Forall_impl. intros s' N1 N2. apply N1. apply Relationships_iff. auto.
    - intros E F t n I. assert (X := H l1 s l2 (rel_matches s) E). refine (proj1 (Forall_forall _ _) (X _ (rel_matches_are s)) (t, n) I).
      revert F. apply Forall_impl. intros s' N1 N2. apply N1. apply Relationships_iff in N2. auto.
  Qed.

  (** ** Property lists *)
  Lemma check_ch_iff c : is_check_ch c = true <-> (is_word c = true \/ is_space c = true \/ In c (py ":,'"".[]@")).
  Proof.
    unfold is_check_ch. rewrite !orb_true_iff, existsb_exists. split.
    - intros [[H|H]|(y & H & E)]; auto. apply N.eqb_eq in E. subst. auto.
    - intros [H|[H|H]]; auto. right. exists c. split; [exact H|apply N.eqb_refl].
  Qed.
  Lemma Lang_props w d : Lang check_properties w d <-> PropsText w /\ d = [].
  Proof.
    unfold check_properties, PropsText. rewrite Lang_cats_cons. split.
    - intros (p & v & ? & ? & -> & -> & H1 & H). apply Lang_ch in H1 as [-> ->].
      apply Lang_cats_cons in H as (b & v2 & ? & ? & -> & -> & H2 & H). apply Lang_Plus in H2 as (Hb & HF & ->).
      apply Lang_ch in H as [-> ->]. split; auto. exists b. repeat split; auto.
      eapply Forall_impl; [|exact HF]. intros a. apply check_ch_iff.
    - intros [(b & -> & Hb & HF) ->]. exists (py "{"), (b ++ py "}"), [], []. repeat split; [apply Lang_ch; auto|].
      apply Lang_cats_cons. exists b, (py "}"), [], []. repeat split; [|apply Lang_ch; auto].
      apply Lang_Plus. repeat split; auto. eapply Forall_impl; [|exact HF]. intros a. apply check_ch_iff.
  Qed.
  Lemma PropsText_one m r m' r' : PropsText m -> PropsText m' -> m ++ r = m' ++ r' -> m = m'.
  Proof.
    intros (b & -> & _ & HF) (b' & -> & _ & HF') E. simpl in E. rewrite <- !app_assoc in E. inversion E as [E'].
    apply run_unique with (p := is_check_ch) in E' as (-> & _); auto; eapply Forall_impl; try eassumption; intros a; apply check_ch_iff.
  Qed.
  Theorem props_found s : Extracted PropsText s (map fst (finditer check_properties s)).
  Proof.
    apply (Scanned_Extracted check_properties PropsText s _ Lang_props); [intros (b & E & _); discriminate| |apply scan_Scanned].
    intros s0 w d B w' d' rest E L. pose proof (Best_Lang _ _ _ _ B) as LB. apply Lang_props in LB as [T _]. apply Lang_props in L as [T' _].
    destruct B as (r & m & E' & _). subst s0. rewrite (PropsText_one _ _ _ _ T T' E). lia.
  Qed.
  Lemma acceptable_iff t : check_param_match t = Ok tt <-> props_acceptable t.
  Proof.
    unfold props_acceptable. split.
    - intros H. destruct (taken_out_exists t) as (out & ls & T). exists out, ls. split; [exact T|]. apply (param_match_spec t out ls T). exact H.
    - intros (out & ls & T & H). apply (param_match_spec t out ls T). exact H.
  Qed.
  Theorem props_check stmts : check_node_rel_properties stmts = Ok tt <-> all_props stmts.
  Proof.
    unfold check_node_rel_properties, all_props. rewrite forM_ok, Forall_forall. split.
    - intros H s ts I E. rewrite (Extracted_unique _ _ _ E _ (props_found s)). specialize (H s I). cbn beta in H. rewrite forM_ok in H.
      revert H. apply Forall_impl. intros t. apply acceptable_iff.
    - intros H s I. cbn beta. rewrite forM_ok. eapply Forall_impl; [|exact (H s _ I (props_found s))]. intros t. apply acceptable_iff.
  Qed.
  Theorem props_check_err stmts e : check_node_rel_properties stmts = Err e -> props_error stmts e.
  Proof.
    intros H. apply forM_err in H as (l1 & s & l2 & -> & _ & H). apply forM_err in H as (k1 & t & k2 & Et & _ & H). unfold check_param_match in H.
    apply bind_err in H as [H|(u & _ & H)].
    - left. destruct (property_syntax_spec (sub_empty list_value (pythonise t))) as [[X _]|[X _]]; rewrite X in H; [discriminate|injection H as <-; reflexivity].
    - apply forM_err in H as (j1 & l & j2 & El & _ & H). unfold check_list in H. destruct (literal_eval l) as [v|e'] eqn:EL; [discriminate|].
      assert (X : e = ParamSyntaxError \/ (e = e' /\ e <> SyntaxError)) by (destruct e'; injection H as <-; auto; right; (split; [reflexivity|discriminate])).
      destruct X as [->|[-> N]]; [left; reflexivity|right].
      exists s, (map fst (finditer check_properties s)), t, (sub_empty list_value (pythonise t)), (map fst (finditer list_value (pythonise t))), l.
      split; [apply in_elt|]. split; [apply props_found|]. split; [rewrite Et; apply in_elt|]. split; [apply sub_empty_spec|]. split; [rewrite El; apply in_elt|]. auto.
  Qed.

  (** ** All checks *)
  Lemma accepted_iff stmts : accepted stmts <-> brackets_even stmts /\ all_legal stmts /\ all_props stmts /\ all_rels stmts.
  Proof. split; [intros [A B C D]; auto|intros (A & B & C & D); constructor; assumption]. Qed.
  Theorem validation stmts : verdict stmts (validate_statement stmts).
  Proof.
    unfold validate_statement. destruct (check_statement_syntax stmts) as [[]|e] eqn:E1; cbn [bind].
    2:{ rewrite (brackets_err _ _ E1) in *. constructor. intros H. apply brackets_ok in H. congruence. }
    assert (B : brackets_even stmts) by exact (proj1 (brackets_ok stmts) E1).
    destruct (check_illegal_characters stmts) as [[]|e] eqn:E2; cbn [bind].
    2:{ assert (e = IllegalCharacterError) as ->.
        { unfold check_illegal_characters in E2. apply forM_err in E2 as (? & a & ? & _ & _ & H). destruct (search illegal_chars a); congruence. }
        apply V_illegal; [exact B|]. intros H. apply illegal_ok in H. congruence. }
    assert (L : all_legal stmts) by exact (proj1 (illegal_ok stmts) E2).
    destruct (check_node_rel_properties stmts) as [[]|e] eqn:E3; cbn [bind].
    2:{ apply V_props; [exact B|exact L| |apply props_check_err; exact E3]. intros H. apply props_check in H. congruence. }
    apply props_check in E3. destruct (check_relationships stmts) as [[]|e] eqn:E4.
    - apply V_accepted. apply accepted_iff. apply relationships_check in E4. auto.
    - apply V_rels; auto; [|apply relationships_err in E4; exact E4]. intros H. apply relationships_check in H. congruence.
  Qed.
  Theorem validation_ok stmts : validate_statement stmts = Ok tt <-> accepted stmts.
  Proof.
    pose proof (validation stmts) as V. rewrite accepted_iff. inversion V as [N E|B N E|e B L N P E|e B L P N X E|A E]; try (split; [discriminate|tauto]).
    split; [intros _; apply accepted_iff; exact A|reflexivity].
  Qed.

  (** ** No forbidden character gets through *)
  Lemma legal_part a t b : ~ has_illegal (a ++ t ++ b) -> ~ has_illegal t.
  Proof. intros H (c & I & J). apply H. exists c. rewrite !in_app_iff. auto. Qed.
  Lemma piece_sub q c t x : Lang nodes_rels t c -> (x = cap (GP q Whole) c \/ x = cap (GP q Handle) c \/ x = cap (GP q Label) c \/ x = cap (GP q Props) c) ->
    forall s, x = Some s -> exists a b, t = a ++ s ++ b.
  Proof. intros L H s E. assert (X : exists n, cap n c = Some s) by (destruct H as [H|[H|[H|H]]]; rewrite H in E; eauto). destruct X as (n & X). eapply Lang_cap_sub; [exact L|]. apply cap_In. exact X. Qed.
  Lemma mats_sub l t d : In (t, d) (mats l) -> exists a b, toks_text l = a ++ t ++ b.
  Proof.
    induction l as [|[x|u c] l IH]; cbn [mats toks_text]; [intros []| |].
    - intros I. destruct (IH I) as (a & b & ->). exists (x :: a), b. reflexivity.
    - intros [E|I]; [injection E as -> ->; exists [], (toks_text l); reflexivity|]. destruct (IH I) as (a & b & ->). exists (u ++ a), b. rewrite <- app_assoc. reflexivity.
  Qed.
  Lemma finditer_sub r s t d : In (t, d) (finditer r s) -> exists a b, s = a ++ t ++ b.
  Proof. intros I. destruct (mats_sub _ _ _ I) as (a & b & E). rewrite scan_text in E. eauto. Qed.
  Lemma piece_in_text stmt p x s : In p (pattern_matches stmt) ->
    In x [left_node p; left_middle_rel p; middle_node p; middle_right_rel p; right_node p] ->
    In (Some s) [p_text x; p_handle x; p_label x; p_props x] -> exists a b, stmt = a ++ s ++ b.
  Proof.
    intros I Ix Is. unfold pattern_matches in I. apply in_flat_map in I as ([t c] & I & Ip). cbn [fst snd] in Ip. destruct t as [|y t]; [destruct Ip|].
    destruct Ip as [<-|[]]. pose proof (finditer_Lang _ _ _ _ I) as L.
    assert (X : exists q, x = piece_of c q) by (cbn in Ix; destruct Ix as [<-|[<-|[<-|[<-|[<-|[]]]]]]; eexists; reflexivity).
    destruct X as (q & ->). destruct (piece_sub q c (y :: t) (Some s) L) with (s := s) as (a & b & E); [cbn in Is; destruct Is as [Is|[Is|[Is|[Is|[]]]]]; rewrite <- Is; tauto|reflexivity|].
    destruct (finditer_sub _ _ _ _ I) as (a' & b' & ->). exists (a' ++ a), (b ++ b'). rewrite E, <- !app_assoc. reflexivity.
  Qed.
  Theorem parsed_legal q l pm p x s : parse_make q = Ok (Some l) -> In pm l -> In p (pm_patterns pm) ->
    In x [left_node p; left_middle_rel p; middle_node p; middle_right_rel p; right_node p] ->
    In (Some s) [p_text x; p_handle x; p_label x; p_props x] -> ~ has_illegal s.
  Proof.
    intros H Il Ip Ix Is. unfold parse_make in H. apply bind_ok in H as ([ms|] & H1 & H); [|discriminate]. apply bind_ok in H as ([] & H2 & H).
    apply bind_ok in H as (l' & H3 & H). injection H as ->. apply validation_ok in H2. pose proof (ac_legal _ H2) as LG.
    apply mapM_Forall2 in H3. assert (X : exists m, In m ms /\ build_parsed_make m = Ok pm).
    { clear -H3 Il. induction H3 as [|m a ms l E F IH]; [destruct Il|]. destruct Il as [<-|Il]; [exists m; split; [left; reflexivity|exact E]|].
      destruct (IH Il) as (m' & I & E'). exists m'. split; [right; exact I|exact E']. }
    destruct X as (m & Im & B). unfold build_parsed_make in B. apply bind_ok in B as (? & _ & B). destruct (re_match make_field m); [|discriminate]. injection B as <-.
    cbn [pm_patterns] in Ip. destruct (piece_in_text m p x s Ip Ix Is) as (a & b & E). specialize (LG m Im). rewrite E in LG. eapply legal_part. exact LG.
  Qed.

  (** ** No pattern is passed over *)
  Lemma L_word w : Word w -> Lang W w []. Proof. intros H. apply L_star. exact H. Qed.
  Lemma L_space w : all_space w -> Lang Sp w []. Proof. intros H. apply L_star. exact H. Qed.
  Lemma L_plus p w : w <> [] -> Forall (fun x => p x = true) w -> Lang (Plus p) w []. Proof. intros N F. apply Lang_Plus. auto. Qed.
  Lemma L_chr c : Lang (ch c) [c] []. Proof. apply Lang_ch. auto. Qed.
  Lemma L_cons a l u v c1 c2 : Lang a u c1 -> Lang (cats l) v c2 -> Lang (cats (a :: l)) (u ++ v) (c2 ++ c1).
  Proof. intros H1 H2. apply Lang_cats_cons. exists u, v, c1, c2. auto. Qed.
  Lemma L_last : Lang (cats []) [] []. Proof. constructor. Qed.
  Lemma L_opt_params q o : (forall pr, o = Some pr -> ParamText pr) -> exists d, Lang (Opt (Grp (GP q Props) all_params)) (opt_text o) d.
  Proof.
    intros H. destruct o as [t|]; [|exists []; apply L_opt_none]. eexists. apply L_opt_some, L_grp. pose proof (H t eq_refl) as P. apply param_iff in P as [N P]. apply L_plus; assumption.
  Qed.
  Lemma L_opt_chr c t : (t = [] \/ t = [c]) -> Lang (Opt (ch c)) t [].
  Proof. intros [-> | ->]; [apply L_opt_none|apply L_opt_some, L_chr]. Qed.
  Lemma node_lang q x t : NodePiece x t -> exists d, Lang (node_group q) t d.
  Proof.
    intros (s1 & h & s2 & s3 & l & s4 & s5 & s6 & -> & _ & _ & _ & Wh & Wl & Nl & P & B).
    rewrite Forall_forall in B. assert (B1 := B s1). assert (B2 := B s2). assert (B3 := B s3). assert (B4 := B s4). assert (B5 := B s5). assert (B6 := B s6). clear B.
    destruct (L_opt_params q (p_props x) P) as (d & D). eexists. unfold node_group. apply L_grp. cbn [app handle_label_req].
    rewrite <- (app_nil_r s6).
    repeat (eapply L_cons); try apply L_chr; try (apply L_space; match goal with H : In ?z _ -> all_space ?z |- all_space ?z => apply H; cbn; tauto end); try apply L_last.
    - apply L_grp, L_word. exact Wh.
    - apply L_grp, L_plus; assumption.
    - exact D.
  Qed.
  Lemma rel_lang q x t : RelPiece x t -> exists d, Lang (rel_group q) t d.
  Proof.
    intros (lt & d1 & s1 & h & s2 & co & s3 & l & s4 & s5 & d2 & gt & s6 & -> & _ & _ & _ & HL & HG & HC & D1 & D2 & Wh & Wl & P & B).
    rewrite Forall_forall in B. assert (B1 := B s1). assert (B2 := B s2). assert (B3 := B s3). assert (B4 := B s4). assert (B5 := B s5). assert (B6 := B s6). clear B.
    destruct (L_opt_params q (p_props x) P) as (d & D). apply Dashes_iff in D1 as [N1 F1]. apply Dashes_iff in D2 as [N2 F2].
    eexists. unfold rel_group. apply L_grp. cbn [app handle_label_opt].
    rewrite <- (app_nil_r s6).
    repeat (eapply L_cons); try apply L_chr; try (apply L_space; match goal with H : In ?z _ -> all_space ?z |- all_space ?z => apply H; cbn; tauto end); try apply L_last;
      try (apply L_opt_chr; assumption); try (apply L_plus; assumption); try (apply L_grp, L_word; assumption).
    exact D.
  Qed.
  Lemma opt_lang (P : piece -> pystr -> Prop) r x t : (forall x t, P x t -> exists d, Lang r t d) -> maybe P x t -> exists d, Lang (Opt r) t d.
  Proof. intros H [M|[_ ->]]; [destruct (H x t M) as (d & L); exists d; apply L_opt_some; exact L|exists []; apply L_opt_none]. Qed.
  Lemma pattern_lang p t : PatternText p t -> exists d, Lang nodes_rels t d.
  Proof.
    intros (b1 & t1 & b2 & t2 & b3 & t3 & b4 & t4 & b5 & t5 & -> & B & P1 & P2 & P3 & P4 & P5).
    rewrite Forall_forall in B. assert (B1 := B b1). assert (B2 := B b2). assert (B3 := B b3). assert (B4 := B b4). assert (B5 := B b5). clear B.
    apply (opt_lang _ (node_group PLeft) _ _ (node_lang PLeft)) in P1 as (e1 & L1). apply (opt_lang _ (rel_group PLeftMiddle) _ _ (rel_lang PLeftMiddle)) in P2 as (e2 & L2).
    apply (opt_lang _ (node_group PMiddle) _ _ (node_lang PMiddle)) in P3 as (e3 & L3). apply (opt_lang _ (rel_group PMiddleRight) _ _ (rel_lang PMiddleRight)) in P4 as (e4 & L4).
    apply (opt_lang _ (node_group PRight) _ _ (node_lang PRight)) in P5 as (e5 & L5). eexists. unfold nodes_rels. rewrite <- (app_nil_r t5).
    repeat (eapply L_cons); try (apply L_space; match goal with H : In ?z _ -> all_space ?z |- all_space ?z => apply H; cbn; tauto end); try apply L_last; eassumption.
  Qed.
  Theorem all_patterns stmt : AllPatterns stmt (pattern_matches stmt).
  Proof.
    unfold pattern_matches, finditer. pose proof (scan_Scanned nodes_rels stmt) as H.
    assert (NM : forall x s, NoMatchNE nodes_rels (x :: s) -> forall p m rest, x :: s = m ++ rest -> m <> [] -> ~ PatternText p m).
    { intros x s N p m rest E NE T. apply pattern_lang in T as (d & L). apply NE. apply (N m rest d E L). }
    induction H as [|x s l N H IH|w s d l B NE H IH|d B|x s d l B N H IH|w s d d' l B B' H IH]; cbn [mats flat_map fst snd app].
    - constructor.
    - apply AP_skip; [|exact IH]. apply NM. intros m rest d E L. exfalso. apply (N m rest d E L).
    - apply Best_Lang, Lang_pattern in B. destruct w as [|y w]; [congruence|]. apply (AP_take (y :: w)); [exact B|discriminate|exact IH].
    - constructor.
    - apply AP_skip; [|exact IH]. apply NM. exact N.
    - assert (L : w <> [] /\ Lang nodes_rels w d').
      { destruct B' as (NE & rest & less & more & E & A & _). split; [exact NE|].
        assert (I : In (rest, d') (allm nodes_rels (w ++ s) [])) by (rewrite A; apply in_elt).
        apply allm_Lang_nil in I as (w' & E' & L). rewrite E in E'. apply app_inv_tail in E'. subst w'. exact L. }
      destruct L as [NE L]. apply Lang_pattern in L. destruct w as [|y w]; [congruence|]. apply (AP_take (y :: w)); [exact L|discriminate|exact IH].
  Qed.
End CheckMore.
