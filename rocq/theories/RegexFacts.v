(** * RegexFacts: the matcher agrees with RegexSpec *)
From Verif Require Import PyBase BaseFacts Regex RegexSpec.

Definition first_some {A B} (k : A -> option B) (l : list A) : option B :=
  fold_right (fun a r => match k a with Some b => Some b | None => r end) None l.

Lemma first_some_app {A B} (k : A -> option B) l1 l2 :
  first_some k (l1 ++ l2) = match first_some k l1 with Some b => Some b | None => first_some k l2 end.
Proof. induction l1 as [|a l IH]; simpl; auto. destruct (k a); auto. Qed.
Lemma first_some_flat_map {A B C} (k : B -> option C) (f : A -> list B) l :
  first_some k (flat_map f l) = first_some (fun a => first_some k (f a)) l.
Proof. induction l as [|a l IH]; simpl; auto. rewrite first_some_app, IH. reflexivity. Qed.
Lemma first_some_map {A B C} (k : B -> option C) (f : A -> B) l :
  first_some k (map f l) = first_some (fun a => k (f a)) l.
Proof. induction l as [|a l IH]; simpl; auto. rewrite IH. reflexivity. Qed.
Lemma first_some_ext {A B} (k k' : A -> option B) l :
  (forall a, k a = k' a) -> first_some k l = first_some k' l.
Proof. intros H; induction l as [|a l IH]; simpl; auto. rewrite H, IH. reflexivity. Qed.

Lemma mt_star_all {A} p s (k : pystr -> option A) : mt_star p s k = first_some k (all_star p s).
Proof.
  induction s as [|x s IH]; cbn [mt_star all_star].
  - simpl. destruct (k []); reflexivity.
  - destruct (p x).
    + rewrite IH, first_some_app. simpl. destruct (first_some k (all_star p s)); auto. destruct (k (x :: s)); auto.
    + simpl. destruct (k (x :: s)); auto.
Qed.

Lemma mt_all {A} r s c (k : pystr -> caps -> option A) :
  mt r s c k = first_some (fun m => k (fst m) (snd m)) (allm r s c).
Proof.
  revert s c k; induction r; intros s c k; cbn [mt allm].
  - simpl. destruct (k s c); auto.
  - destruct s as [|x s]; simpl; auto. destruct (p x); simpl; auto. destruct (k s c); auto.
  - rewrite IHr1, first_some_flat_map. apply first_some_ext. intros m. apply IHr2.
  - rewrite IHr1, IHr2, first_some_app. reflexivity.
  - rewrite IHr, first_some_app. simpl. destruct (first_some _ (allm r s c)); auto. destruct (k s c); auto.
  - rewrite mt_star_all, first_some_map. reflexivity.
  - rewrite IHr, first_some_map. apply first_some_ext. intros m. reflexivity.
Qed.

Lemma match_here_hd r s : match_here r s = hd_error (allm r s []).
Proof.
  unfold match_here. rewrite mt_all. destruct (allm r s []) as [|[s1 c1] l]; simpl; reflexivity.
Qed.

(** ** [allm] and [Lang] *)
Lemma consumed_app w s : consumed (w ++ s) s = w.
Proof.
  unfold consumed. rewrite app_length.
  replace (List.length w + List.length s - List.length s) with (List.length w) by lia.
  rewrite firstn_app, Nat.sub_diag, firstn_all. simpl. apply app_nil_r.
Qed.

(** ** Inversion of [Lang] *)
Lemma Lang_eps w d : Lang Eps w d <-> w = [] /\ d = [].
Proof. split; [intros H; inversion H; auto|intros [-> ->]; constructor]. Qed.
Lemma Lang_set p w d : Lang (Set_ p) w d <-> exists x, w = [x] /\ p x = true /\ d = [].
Proof. split; [intros H; inversion H; subst; eauto|intros (x & -> & H & ->); constructor; auto]. Qed.
Lemma Lang_cat a b w d :
  Lang (Cat a b) w d <-> exists u v c1 c2, w = u ++ v /\ d = c2 ++ c1 /\ Lang a u c1 /\ Lang b v c2.
Proof.
  split; [intros H; inversion H; subst; eauto 10|intros (u & v & c1 & c2 & -> & -> & H1 & H2); constructor; auto].
Qed.
Lemma Lang_alt a b w d : Lang (Alt a b) w d <-> Lang a w d \/ Lang b w d.
Proof. split; [intros H; inversion H; auto|intros [H|H]; [apply L_alt_l|apply L_alt_r]; auto]. Qed.
Lemma Lang_opt a w d : Lang (Opt a) w d <-> Lang a w d \/ (w = [] /\ d = []).
Proof. split; [intros H; inversion H; auto|intros [H|[-> ->]]; [apply L_opt_some|apply L_opt_none]; auto]. Qed.
Lemma Lang_star p w d : Lang (Star p) w d <-> Forall (fun x => p x = true) w /\ d = [].
Proof. split; [intros H; inversion H; auto|intros [H ->]; constructor; auto]. Qed.
Lemma Lang_grp n a w d : Lang (Grp n a) w d <-> exists c, d = (n, w) :: c /\ Lang a w c.
Proof. split; [intros H; inversion H; eauto|intros (c & -> & H); constructor; auto]. Qed.

Lemma all_star_spec p s s1 :
  In s1 (all_star p s) <-> exists w, s = w ++ s1 /\ Forall (fun x => p x = true) w.
Proof.
  induction s as [|x s IH]; cbn [all_star].
  - simpl. split.
    + intros [<-|[]]. exists []. auto.
    + intros (w & H & _). left. destruct w, s1; simpl in *; congruence.
  - destruct (p x) eqn:E.
    + rewrite in_app_iff, IH. simpl. split.
      * intros [(w & -> & Hw)|[<-|[]]]; [exists (x :: w); auto|exists []; auto].
      * intros (w & H & Hw). destruct w as [|y w]; [right; left; auto|].
        inversion H; subst. inversion Hw; subst. left. exists w; auto.
    + simpl. split.
      * intros [<-|[]]. exists []; auto.
      * intros (w & H & Hw). left. destruct w as [|y w]; auto.
        inversion H; subst. inversion Hw; subst. congruence.
Qed.

Theorem allm_Lang r s c s1 c1 :
  In (s1, c1) (allm r s c) <-> exists w d, s = w ++ s1 /\ c1 = d ++ c /\ Lang r w d.
Proof.
  revert s c s1 c1; induction r; intros s c s1 c1; cbn [allm].
  - simpl. split.
    + intros [H|[]]; inversion H; subst. exists [], []. repeat split; constructor.
    + intros (w & d & -> & -> & HL). inversion HL; subst. auto.
  - destruct s as [|x s].
    + simpl. split; [tauto|]. intros (w & d & H & _ & HL). inversion HL; subst. discriminate.
    + destruct (p x) eqn:E; simpl; split; try tauto.
      * intros [H|[]]; inversion H; subst. exists [x], []. repeat split; constructor; auto.
      * intros (w & d & H & -> & HL). inversion HL; subst. simpl in H. inversion H; subst. auto.
      * intros (w & d & H & -> & HL). inversion HL; subst. simpl in H. inversion H; subst. congruence.
  - rewrite in_flat_map. split.
    + intros ([s2 c2] & H1 & H2). simpl in H2. apply IHr1 in H1 as (w1 & d1 & -> & -> & L1).
      apply IHr2 in H2 as (w2 & d2 & -> & -> & L2).
      exists (w1 ++ w2), (d2 ++ d1). rewrite !app_assoc. repeat split. constructor; auto.
    + intros (w & d & -> & -> & HL). apply Lang_cat in HL as (u & v & d1 & d2 & -> & -> & L1 & L2).
      exists (v ++ s1, d1 ++ c). split.
      * apply IHr1. exists u, d1. rewrite app_assoc. auto.
      * simpl. apply IHr2. exists v, d2. rewrite !app_assoc. auto.
  - rewrite in_app_iff, IHr1, IHr2. split.
    + intros [(w & d & -> & -> & HL)|(w & d & -> & -> & HL)]; exists w, d; repeat split.
      * apply L_alt_l; auto. * apply L_alt_r; auto.
    + intros (w & d & -> & -> & HL). inversion HL; subst; [left|right]; exists w, d; auto.
  - rewrite in_app_iff, IHr. simpl. split.
    + intros [(w & d & -> & -> & HL)|[H|[]]].
      * exists w, d. repeat split. apply L_opt_some; auto.
      * inversion H; subst. exists [], []. repeat split. apply L_opt_none.
    + intros (w & d & -> & -> & HL). inversion HL; subst; [left; exists w, d; auto|right; auto].
  - rewrite in_map_iff. split.
    + intros (s2 & H & Hin). inversion H; subst. apply all_star_spec in Hin as (w & -> & Hw).
      exists w, []. repeat split. constructor; auto.
    + intros (w & d & -> & -> & HL). inversion HL; subst. exists s1. split; auto.
      apply all_star_spec. eauto.
  - rewrite in_map_iff. split.
    + intros ([s2 c2] & H & Hin). apply IHr in Hin as (w & d & -> & -> & HL).
      simpl in H. inversion H; subst. rewrite consumed_app.
      exists w, ((n, w) :: d). repeat split. constructor; auto.
    + intros (w & d & -> & -> & HL). apply Lang_grp in HL as (d0 & -> & HL).
      exists (s1, d0 ++ c). split.
      * simpl. rewrite consumed_app. reflexivity.
      * apply IHr. exists w, d0. auto.
Qed.

Lemma allm_nil_NoMatch r s : allm r s [] = [] <-> NoMatch r s.
Proof.
  unfold NoMatch. split.
  - intros H w rest d -> HL. assert (X : In (rest, d) (allm r (w ++ rest) [])).
    { apply allm_Lang. exists w, d. rewrite app_nil_r. auto. }
    rewrite H in X. destruct X.
  - intros H. destruct (allm r s []) as [|[s1 c1] l] eqn:E; auto. exfalso.
    assert (X : In (s1, c1) (allm r s [])) by (rewrite E; left; auto).
    apply allm_Lang in X as (w & d & Hs & Hc & HL). exact (H w s1 d Hs HL).
Qed.

Lemma match_here_sound r s s1 d :
  match_here r s = Some (s1, d) -> exists w, s = w ++ s1 /\ Lang r w d.
Proof.
  rewrite match_here_hd. intros H. destruct (allm r s []) as [|m l] eqn:E; [discriminate|].
  simpl in H. inversion H; subst.
  assert (X : In (s1, d) (allm r s [])) by (rewrite E; left; auto).
  apply allm_Lang in X as (w & d' & Hs & Hc & HL). rewrite app_nil_r in Hc. subst. eauto.
Qed.
Lemma match_here_none r s : match_here r s = None <-> NoMatch r s.
Proof.
  rewrite match_here_hd, <- allm_nil_NoMatch. destruct (allm r s []); simpl; split; congruence.
Qed.
Lemma match_here_some r s : (exists m, match_here r s = Some m) <-> exists w rest d, s = w ++ rest /\ Lang r w d.
Proof.
  split.
  - intros [[s1 d] H]. apply match_here_sound in H as (w & -> & HL). eauto 6.
  - intros (w & rest & d & -> & HL). destruct (match_here r (w ++ rest)) as [m|] eqn:E; eauto.
    apply match_here_none in E. exfalso. eapply E; eauto.
Qed.
Lemma match_here_Best r w s d : match_here r (w ++ s) = Some (s, d) -> Best r (w ++ s) w d.
Proof.
  rewrite match_here_hd. intros H. destruct (allm r (w ++ s) []) as [|m l] eqn:E; [discriminate|].
  simpl in H. inversion H; subst. exists s, l. auto.
Qed.

Lemma first_some_spec {A B} (k : A -> option B) l b :
  first_some k l = Some b <->
  exists l1 a l2, l = l1 ++ a :: l2 /\ k a = Some b /\ Forall (fun a => k a = None) l1.
Proof.
  induction l as [|a l IH]; simpl; split.
  - discriminate.
  - intros (l1 & a & l2 & H & _). destruct l1; discriminate.
  - destruct (k a) eqn:E.
    + intros H; inversion H; subst. exists [], a, l. auto.
    + intros H. apply IH in H as (l1 & a' & l2 & -> & H1 & H2). exists (a :: l1), a', l2. auto.
  - intros (l1 & a' & l2 & H & H1 & H2). destruct l1 as [|b' l1]; simpl in H; inversion H; subst.
    + rewrite H1. reflexivity.
    + inversion H2; subst. rewrite H4. apply IH. exists l1, a', l2. auto.
Qed.
Lemma first_some_None {A B} (k : A -> option B) l :
  first_some k l = None <-> Forall (fun a => k a = None) l.
Proof.
  induction l as [|a l IH]; simpl; split; auto.
  - destruct (k a) eqn:E; [discriminate|]. intros H. constructor; auto. apply IH; auto.
  - intros H. inversion H; subst. rewrite H2. apply IH; auto.
Qed.

Lemma app_length_eq {A} (w s : list A) : List.length s = List.length (w ++ s) -> w = [].
Proof. rewrite app_length. destruct w; simpl; auto; lia. Qed.

Lemma allm_suffix r s c s1 c1 : In (s1, c1) (allm r s c) -> exists w, s = w ++ s1.
Proof. intros H. apply allm_Lang in H as (w & d & -> & _). eauto. Qed.

Lemma match_here_ne_some r s s1 d :
  match_here_ne r s = Some (s1, d) -> exists w, s = w ++ s1 /\ Lang r w d /\ BestNE r s w d.
Proof.
  unfold match_here_ne. rewrite mt_all. intros H. apply first_some_spec in H as (l1 & [s2 d2] & l2 & E & H & HF).
  simpl in H. destruct (Nat.eqb (List.length s2) (List.length s)) eqn:EL; [discriminate|].
  inversion H; subst; clear H. apply Nat.eqb_neq in EL.
  assert (X : In (s1, d) (allm r s [])) by (rewrite E; apply in_elt).
  apply allm_Lang in X as (w & d' & -> & Hd & HL). rewrite app_nil_r in Hd. subst d'.
  exists w. repeat split; auto.
  - intros ->. apply EL. reflexivity.
  - exists s1, l1, l2. repeat split; auto.
    rewrite Forall_forall in *. intros [s3 d3] Hin. specialize (HF _ Hin). simpl in *.
    destruct (Nat.eqb (List.length s3) (List.length (w ++ s1))) eqn:E3; [|discriminate].
    apply Nat.eqb_eq in E3. destruct (allm_suffix r (w ++ s1) [] s3 d3) as [w3 H3].
    { rewrite E. apply in_app_iff. auto. }
    rewrite H3 in E3. apply app_length_eq in E3. subst. rewrite H3. reflexivity.
Qed.
Lemma match_here_ne_none r s : match_here_ne r s = None -> NoMatchNE r s.
Proof.
  unfold match_here_ne. rewrite mt_all. intros H. apply first_some_None in H.
  intros w rest d -> HL. rewrite Forall_forall in H.
  assert (X : In (rest, d) (allm r (w ++ rest) [])).
  { apply allm_Lang. exists w, d. rewrite app_nil_r. auto. }
  specialize (H _ X). simpl in H.
  destruct (Nat.eqb (List.length rest) (List.length (w ++ rest))) eqn:E3; [|discriminate].
  apply Nat.eqb_eq in E3. apply app_length_eq in E3. auto.
Qed.

(** ** scanning *)
Lemma scan_skip r k s : k <= List.length s -> scan r k s = scan r 0 (skipn k s).
Proof.
  revert s; induction k as [|k IH]; intros s H; simpl.
  - reflexivity.
  - destruct s as [|x s]; simpl in *; [lia|]. rewrite IH by lia. reflexivity.
Qed.

Definition scan_after (r : re) (s : pystr) : list tok :=
  match s with [] => [] | x :: s' => Chr x :: scan r 0 s' end.
Definition scan_go (r : re) (s : pystr) (m : option (pystr * caps)) : list tok :=
  match m with
  | Some (s1, c) => Mat (consumed s s1) c :: match s with
            | [] => []
            | _ :: s' => scan r (List.length s - List.length s1 - 1) s'
            end
  | None => scan_after r s
  end.
Lemma scan_unfold r s :
  scan r 0 s = match match_here r s with
      | None => scan_after r s
      | Some (s1, c) =>
          if Nat.eqb (List.length s1) (List.length s)
          then Mat [] c :: scan_go r s (match_here_ne r s)
          else scan_go r s (Some (s1, c))
      end.
Proof. destruct s; reflexivity. Qed.

Lemma scan_go_some r w s c :
  w <> [] -> scan_go r (w ++ s) (Some (s, c)) = Mat w c :: scan r 0 s.
Proof.
  intros Hw. unfold scan_go. rewrite consumed_app. f_equal.
  destruct w as [|x w]; [congruence|]. cbn [app].
  replace (List.length (x :: w ++ s) - List.length s - 1) with (List.length w)
    by (cbn [List.length]; rewrite app_length; lia).
  rewrite scan_skip by (rewrite app_length; lia).
  rewrite skipn_app, Nat.sub_diag, skipn_all. reflexivity.
Qed.

(** Computation rules. *)
Lemma scan_none_cons r x s : match_here r (x :: s) = None -> scan r 0 (x :: s) = Chr x :: scan r 0 s.
Proof. intros H. rewrite scan_unfold, H. reflexivity. Qed.
Lemma scan_none_nil r : match_here r [] = None -> scan r 0 [] = [].
Proof. intros H. rewrite scan_unfold, H. reflexivity. Qed.
Lemma scan_some r w s c :
  match_here r (w ++ s) = Some (s, c) -> w <> [] -> scan r 0 (w ++ s) = Mat w c :: scan r 0 s.
Proof.
  intros H Hw. rewrite scan_unfold, H.
  destruct (Nat.eqb _ _) eqn:E.
  - apply Nat.eqb_eq in E. apply app_length_eq in E. congruence.
  - apply scan_go_some; auto.
Qed.

Theorem scan_Scanned r s : Scanned r s (scan r 0 s).
Proof.
  remember (List.length s) as n eqn:Hn. revert s Hn.
  induction n as [n IH] using lt_wf_ind. intros s Hn.
  rewrite scan_unfold. destruct (match_here r s) as [[s1 c]|] eqn:E.
  - pose proof (match_here_sound _ _ _ _ E) as (w & -> & HL).
    pose proof (match_here_Best _ _ _ _ E) as HB.
    destruct (Nat.eqb _ _) eqn:EL.
    + apply Nat.eqb_eq in EL. apply app_length_eq in EL. subst w. simpl in *.
      destruct (match_here_ne r s1) as [[s2 d]|] eqn:E2.
      * apply match_here_ne_some in E2 as (w & -> & HL2 & HBN).
        pose proof HBN as [Hw _]. rewrite scan_go_some by auto.
        apply S_empty_mat; auto. eapply IH; [|reflexivity].
        subst n. rewrite app_length. destruct w; [congruence|simpl; lia].
      * apply match_here_ne_none in E2. unfold scan_go, scan_after. destruct s1 as [|x s].
        -- apply S_empty_end; auto.
        -- apply S_empty; auto. eapply IH; [|reflexivity]. subst; simpl; lia.
    + apply Nat.eqb_neq in EL. assert (Hw : w <> []) by (intros ->; apply EL; reflexivity).
      rewrite scan_go_some by auto. apply S_mat; auto. eapply IH; [|reflexivity].
      subst n. rewrite app_length. destruct w; [congruence|simpl; lia].
  - unfold scan_after. destruct s as [|x s].
    + apply S_end. apply match_here_none; auto.
    + apply S_skip. { apply match_here_none; auto. } eapply IH; [|reflexivity]. subst; simpl; lia.
Qed.

Lemma Best_Lang r s w d : Best r s w d -> Lang r w d.
Proof.
  intros (rest & more & -> & E).
  assert (X : In (rest, d) (allm r (w ++ rest) [])) by (rewrite E; left; auto).
  apply allm_Lang in X as (w' & d' & Hs & Hd & HL). rewrite app_nil_r in Hd. subst.
  apply app_inv_tail in Hs. subst. auto.
Qed.
Lemma BestNE_Lang r s w d : BestNE r s w d -> Lang r w d.
Proof.
  intros (_ & rest & less & more & -> & E & _).
  assert (X : In (rest, d) (allm r (w ++ rest) [])) by (rewrite E; apply in_elt).
  apply allm_Lang in X as (w' & d' & Hs & Hd & HL). rewrite app_nil_r in Hd. subst.
  apply app_inv_tail in Hs. subst. auto.
Qed.

Lemma Best_match r w s d : Best r (w ++ s) w d -> match_here r (w ++ s) = Some (s, d).
Proof.
  intros (rest & more & H & E). apply app_inv_head in H. subst rest.
  rewrite match_here_hd, E. reflexivity.
Qed.
Lemma BestNE_match r w s d : BestNE r (w ++ s) w d -> match_here_ne r (w ++ s) = Some (s, d).
Proof.
  intros (Hw & rest & less & more & H & E & HF). apply app_inv_head in H. subst rest.
  unfold match_here_ne. rewrite mt_all. apply first_some_spec. exists less, (s, d), more. repeat split; auto.
  - simpl. destruct (Nat.eqb _ _) eqn:EL; auto. apply Nat.eqb_eq, app_length_eq in EL. congruence.
  - eapply Forall_impl; [|exact HF]. intros [s2 d2] H2. simpl in *. subst. rewrite Nat.eqb_refl. reflexivity.
Qed.
Lemma NoMatchNE_match r s : NoMatchNE r s -> match_here_ne r s = None.
Proof.
  intros H. destruct (match_here_ne r s) as [[s1 d]|] eqn:E; auto. exfalso.
  apply match_here_ne_some in E as (w & -> & HL & [Hw _]). apply Hw. eapply H; eauto.
Qed.

(** [Scanned] determines the scan. *)
Theorem Scanned_scan r s l : Scanned r s l -> l = scan r 0 s.
Proof.
  induction 1.
  - symmetry. apply scan_none_nil, match_here_none; auto.
  - subst l. symmetry. apply scan_none_cons, match_here_none; auto.
  - subst l. symmetry. apply scan_some; auto. apply Best_match; auto.
  - rewrite scan_unfold, (Best_match r [] [] d H : match_here r [] = _). simpl.
    destruct (match_here_ne r []) as [[s1 d1]|] eqn:E; auto.
    apply match_here_ne_some in E as (w & Hs & _ & [Hw _]). destruct w; [congruence|discriminate].
  - subst l. rewrite (scan_unfold r (x :: s)), (Best_match r [] (x :: s) d H : match_here r (x :: s) = _), Nat.eqb_refl.
    rewrite NoMatchNE_match by auto. reflexivity.
  - subst l. rewrite (scan_unfold r (w ++ s)), (Best_match r [] (w ++ s) d H : match_here r (w ++ s) = _), Nat.eqb_refl.
    rewrite (BestNE_match _ _ _ _ H0). rewrite scan_go_some; auto. destruct H0; auto.
Qed.

Lemma Scanned_text r s l : Scanned r s l -> toks_text l = s.
Proof. induction 1; simpl; congruence. Qed.
Lemma scan_text r s : toks_text (scan r 0 s) = s.
Proof. eapply Scanned_text, scan_Scanned. Qed.

Lemma Scanned_Lang r s l : Scanned r s l -> forall t d, In (Mat t d) l -> Lang r t d.
Proof.
  induction 1; simpl; intros t d0 Hin; try tauto.
  - destruct Hin as [X|Hin]; [discriminate|auto].
  - destruct Hin as [X|Hin]; [inversion X; subst; eapply Best_Lang; eauto|auto].
  - destruct Hin as [X|[]]. inversion X; subst; eapply Best_Lang; eauto.
  - destruct Hin as [X|[X|Hin]]; [inversion X; subst; eapply Best_Lang; eauto|discriminate|auto].
  - destruct Hin as [X|[X|Hin]]; [inversion X; subst; eapply Best_Lang; eauto
                                 |inversion X; subst; eapply BestNE_Lang; eauto|auto].
Qed.

Lemma mats_In l t d : In (t, d) (mats l) <-> In (Mat t d) l.
Proof.
  induction l as [|[x|t' d'] l IH]; simpl; [tauto| |].
  - rewrite IH. split; [auto|]. intros [X|]; [discriminate|auto].
  - rewrite IH. split; (intros [X|]; [left; inversion X; auto|auto]).
Qed.
Lemma finditer_Lang r s t d : In (t, d) (finditer r s) -> Lang r t d.
Proof. unfold finditer. rewrite mats_In. eapply Scanned_Lang, scan_Scanned. Qed.

Lemma mats_app a b : mats (a ++ b) = mats a ++ mats b.
Proof. induction a as [|[x|t d] a IH]; simpl; congruence. Qed.

(** [search] succeeds iff some piece of the text matches. *)
Lemma Scanned_search r s l :
  Scanned r s l -> (exists a w b d, s = a ++ w ++ b /\ Lang r w d) -> mats l <> [].
Proof.
  induction 1; intros (a & u & b & d0 & Hs & HL); simpl; try discriminate.
  - exfalso. destruct a, u; try discriminate. eapply (H [] []); eauto.
  - destruct a as [|y a].
    + exfalso. simpl in Hs. eapply H; eauto.
    + simpl in Hs. inversion Hs; subst. apply IHScanned. eauto 6.
Qed.
Theorem search_spec r s : search r s = true <-> exists a w b d, s = a ++ w ++ b /\ Lang r w d.
Proof.
  unfold search. split.
  - destruct (finditer r s) as [|[t d] l] eqn:E; [discriminate|]. intros _.
    assert (X : In (t, d) (finditer r s)) by (rewrite E; left; auto).
    pose proof (finditer_Lang _ _ _ _ X) as HL.
    unfold finditer in X. apply mats_In in X. apply in_split in X as (l1 & l2 & X).
    exists (toks_text l1), t, (toks_text l2), d. split; auto.
    rewrite <- (scan_text r s) at 1. rewrite X. clear.
    induction l1 as [|[x|t' d'] l1 IH]; simpl; [reflexivity|f_equal; auto|].
    rewrite IH, app_assoc. reflexivity.
  - intros H. pose proof (Scanned_search r s _ (scan_Scanned r s) H) as X.
    unfold finditer. destruct (mats (scan r 0 s)); congruence.
Qed.

(** ** The statements used by Prop_Regex *)
Lemma match_here_iff_Best r w s d : match_here r (w ++ s) = Some (s, d) <-> Best r (w ++ s) w d.
Proof. split; [apply match_here_Best|apply Best_match]. Qed.
Lemma allm_Lang_nil r s s1 d : In (s1, d) (allm r s []) <-> exists w, s = w ++ s1 /\ Lang r w d.
Proof.
  rewrite allm_Lang. split.
  - intros (w & d' & -> & -> & H). rewrite app_nil_r. eauto.
  - intros (w & -> & H). exists w, d. rewrite app_nil_r. auto.
Qed.
Lemma scan_iff_Scanned r s l : Scanned r s l <-> l = scan r 0 s.
Proof. split; [apply Scanned_scan|intros ->; apply scan_Scanned]. Qed.
