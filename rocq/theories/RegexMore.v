(** * RegexMore: further facts about matching used for the concrete expressions *)
From Verif Require Import PyBase BaseFacts Regex RegexSpec RegexFacts SpecText.

Lemma flat_map_map {A B C} (f : B -> list C) (g : A -> B) l : flat_map f (map g l) = flat_map (fun a => f (g a)) l.
Proof. induction l; simpl; congruence. Qed.
Lemma map_flat_map {A B C} (f : B -> C) (g : A -> list B) l : map f (flat_map g l) = flat_map (fun a => map f (g a)) l.
Proof. induction l; simpl; auto. rewrite map_app. congruence. Qed.

(** Groups collected before a match do not influence it. *)
Lemma allm_caps r s c : allm r s c = map (fun m => (fst m, snd m ++ c)) (allm r s []).
Proof.
  revert s c; induction r; intros s c; cbn [allm].
  - reflexivity.
  - destruct s as [|x s]; auto. destruct (p x); reflexivity.
  - rewrite IHr1, flat_map_map, map_flat_map.
    apply flat_map_ext. intros [s1 c1]. simpl.
    rewrite (IHr2 s1 (c1 ++ c)), (IHr2 s1 c1), map_map.
    apply map_ext. intros [s2 c2]. simpl. rewrite app_assoc. reflexivity.
  - rewrite IHr1, IHr2, map_app. reflexivity.
  - rewrite IHr, map_app. reflexivity.
  - rewrite map_map. reflexivity.
  - rewrite IHr, !map_map. reflexivity.
Qed.

(** The preferred match is the longest one. *)
Definition Longest (r : re) (s : pystr) : Prop :=
  forall w d, Best r s w d -> forall w' rest' d', s = w' ++ rest' -> Lang r w' d' -> List.length w' <= List.length w.

Definition rlen (m : pystr * caps) : nat := List.length (fst m).
Lemma Longest_min r s :
  Longest r s <-> forall m l, allm r s [] = m :: l -> Forall (fun m' => rlen m <= rlen m') l.
Proof.
  split.
  - intros H [s1 d] l E. apply Forall_forall. intros [s2 d2] Hin. unfold rlen; simpl.
    assert (X : In (s1, d) (allm r s [])) by (rewrite E; left; auto).
    assert (Y : In (s2, d2) (allm r s [])) by (rewrite E; right; auto).
    apply allm_Lang in X as (w & e & Hs & He & HL). rewrite app_nil_r in He; subst e.
    apply allm_Lang in Y as (w2 & e2 & Hs2 & He2 & HL2). rewrite app_nil_r in He2; subst e2.
    assert (B : Best r s w d) by (exists s1, l; auto).
    pose proof (H w d B w2 s2 d2 Hs2 HL2) as Hlen.
    apply (f_equal (@List.length N)) in Hs. apply (f_equal (@List.length N)) in Hs2.
    rewrite app_length in Hs, Hs2. lia.
  - intros H w d (rest & more & Hs & E) w' rest' d' Hs' HL'.
    specialize (H _ _ E). rewrite Forall_forall in H. unfold rlen in H; simpl in H.
    assert (X : In (rest', d') (allm r s [])).
    { apply allm_Lang. exists w', d'. rewrite app_nil_r. auto. }
    rewrite E in X. apply (f_equal (@List.length N)) in Hs. apply (f_equal (@List.length N)) in Hs'.
    rewrite app_length in Hs, Hs'.
    destruct X as [X|X].
    + inversion X; subst. lia.
    + apply H in X. simpl in X. lia.
Qed.

(** If [a] can only be followed by [b] after one prefix, and [b] prefers the longest match, so does [Cat a b]. *)
Lemma Longest_cat a b s :
  (forall u v u' v' d d', s = u ++ v -> s = u' ++ v' -> Lang a u d -> Lang a u' d' ->
      (exists w rest e, v = w ++ rest /\ Lang b w e) -> (exists w rest e, v' = w ++ rest /\ Lang b w e) -> u = u') ->
  (forall u v d, s = u ++ v -> Lang a u d -> Longest b v) ->
  Longest (Cat a b) s.
Proof.
  intros Hu Hb. apply Longest_min. cbn [allm]. intros [s1 c1] l E.
  apply Forall_forall. intros [s2 c2] Hin. unfold rlen; simpl.
  assert (X1 : In (s1, c1) (flat_map (fun m => allm b (fst m) (snd m)) (allm a s []))) by (rewrite E; left; auto).
  assert (X2 : In (s2, c2) (flat_map (fun m => allm b (fst m) (snd m)) (allm a s []))) by (rewrite E; right; auto).
  (* the head comes from the first a-match that has a b-match *)
  assert (Hd : exists m l', In m (allm a s []) /\ allm b (fst m) (snd m) = (s1, c1) :: l').
  { clear - E. induction (allm a s []) as [|m ms IH]; simpl in E; [discriminate|].
    destruct (allm b (fst m) (snd m)) as [|x l'] eqn:Eb.
    - simpl in E. destruct (IH E) as (m' & l'' & H1 & H2). exists m', l''. split; [right; auto|auto].
    - simpl in E. inversion E; subst. exists m, l'. split; [left; auto|auto]. }
  destruct Hd as ([v d] & l' & Ha & Eb). simpl in Eb.
  apply in_flat_map in X2 as ([v2 d2] & Ha2 & X2). simpl in X2.
  apply allm_Lang in Ha as (u & e & Hs & He & HL). rewrite app_nil_r in He; subst e.
  apply allm_Lang in Ha2 as (u2 & e2 & Hs2 & He2 & HL2). rewrite app_nil_r in He2; subst e2.
  assert (Y1 : In (s1, c1) (allm b v d)) by (rewrite Eb; left; auto).
  apply allm_Lang in Y1 as (w1 & f1 & Hw1 & _ & Lb1).
  apply allm_Lang in X2 as (w2 & f2 & Hw2 & _ & Lb2).
  assert (u = u2) by (eapply Hu; eauto 6). subst u2.
  assert (v = v2). { rewrite Hs in Hs2. apply app_inv_head in Hs2. auto. } subst v2.
  pose proof (Hb u v d Hs HL) as HLong.
  rewrite allm_caps in Eb. destruct (allm b v []) as [|[s0 f0] l0] eqn:E0; [discriminate|].
  simpl in Eb. inversion Eb; subst.
  destruct (proj1 (Longest_min b _) HLong _ _ E0) as [|m0 l0 H0 H1].
  - assert (Y2 : In (s2, f2) (allm b (w1 ++ s1) [])).
    { apply allm_Lang. exists w2, f2. rewrite app_nil_r. auto. }
    rewrite E0 in Y2. destruct Y2 as [Y2|[]]. inversion Y2; subst; lia.
  - assert (Y2 : In (s2, f2) (allm b (w1 ++ s1) [])).
    { apply allm_Lang. exists w2, f2. rewrite app_nil_r. auto. }
    rewrite E0 in Y2. destruct Y2 as [Y2|[Y2|Y2]].
    + inversion Y2; subst; lia.
    + subst m0. unfold rlen in H0; simpl in H0. lia.
    + rewrite Forall_forall in H1. apply H1 in Y2. unfold rlen in Y2; simpl in Y2. lia.
Qed.

Lemma Longest_star p s : Longest (Star p) s.
Proof.
  apply Longest_min. cbn [allm]. induction s as [|x s IH]; cbn [all_star].
  - intros m l E. simpl in E. inversion E; subst. constructor.
  - destruct (p x).
    + intros m l E. rewrite map_app in E. simpl in E.
      destruct (map (fun s1 : pystr => (s1, [] : caps)) (all_star p s)) as [|m' l'] eqn:E'.
      * destruct s as [|y s]; simpl in E'; [discriminate|].
        destruct (p y); [|discriminate]. rewrite map_app in E'. destruct (map _ (all_star p s)); discriminate.
      * simpl in E. inversion E; subst. apply Forall_app. split.
        -- apply IH; auto.
        -- constructor; [|constructor]. unfold rlen; simpl.
           assert (X : In m (map (fun s1 : pystr => (s1, [] : caps)) (all_star p s))) by (rewrite E'; left; auto).
           apply in_map_iff in X as (s1 & <- & X). apply all_star_spec in X as (w & -> & _).
           simpl. rewrite app_length. lia.
    + intros m l E. simpl in E. inversion E; subst. constructor.
Qed.

(** A match of fixed length is trivially longest. *)
Lemma Longest_fixed r s n : (forall w d, Lang r w d -> List.length w = n) -> Longest r s.
Proof. intros H w d B w' rest' d' _ HL. rewrite (H _ _ HL). apply Best_Lang in B. rewrite (H _ _ B). lia. Qed.

(** [Star p] followed by an expression of fixed length. *)
Lemma Longest_star_fixed p b n s : (forall w d, Lang b w d -> List.length w = n) -> Longest (Cat (Star p) b) s.
Proof.
  intros Hb. apply Longest_min. cbn [allm]. rewrite flat_map_map. simpl.
  assert (Hlen : forall s1 m, In m (allm b s1 []) -> List.length s1 = n + rlen m).
  { intros s1 [s2 d2] Hin. apply allm_Lang in Hin as (w & d & -> & _ & HL). apply Hb in HL. rewrite app_length. unfold rlen. simpl. lia. }
  assert (Hone : forall s1 m l, allm b s1 [] = m :: l -> Forall (fun m' => rlen m <= rlen m') l).
  { intros s1 m l E. apply Forall_forall. intros m' Hin.
    pose proof (Hlen s1 m) as H1. pose proof (Hlen s1 m') as H2. rewrite E in H1, H2.
    specialize (H1 (or_introl eq_refl)). specialize (H2 (or_intror Hin)). lia. }
  induction s as [|x s IH]; cbn [all_star].
  - simpl. intros m l E. rewrite app_nil_r in E. eapply Hone; eauto.
  - destruct (p x).
    + intros m l E. rewrite flat_map_app in E. simpl in E. rewrite app_nil_r in E.
      destruct (flat_map (fun a => allm b a []) (all_star p s)) as [|m' l'] eqn:E'.
      * simpl in E. eapply Hone; eauto.
      * simpl in E. inversion E; subst. apply Forall_app. split; [apply IH; auto|].
        apply Forall_forall. intros m' Hin. apply Hlen in Hin. simpl in Hin.
        assert (X : In m (flat_map (fun a => allm b a []) (all_star p s))) by (rewrite E'; left; auto).
        apply in_flat_map in X as (s1 & Hs1 & X). apply all_star_spec in Hs1 as (w & -> & _). apply Hlen in X.
        rewrite app_length in Hin. lia.
    + intros m l E. simpl in E. rewrite app_nil_r in E. eapply Hone; eauto.
Qed.

Lemma Longest_set p s : Longest (Set_ p) s.
Proof. apply Longest_fixed with (n := 1). intros w d H. apply Lang_set in H as (x & -> & _). reflexivity. Qed.

(** ** Languages of the building blocks *)
Lemma Lang_ch c w d : Lang (ch c) w d <-> w = [c] /\ d = [].
Proof.
  unfold ch. rewrite Lang_set. split.
  - intros (x & -> & H & ->). apply N.eqb_eq in H. subst. auto.
  - intros [-> ->]. exists c. rewrite N.eqb_refl. auto.
Qed.
Lemma Lang_Plus p w d : Lang (Plus p) w d <-> w <> [] /\ Forall (fun x => p x = true) w /\ d = [].
Proof.
  unfold Plus. rewrite Lang_cat. split.
  - intros (u & v & c1 & c2 & -> & -> & H1 & H2). apply Lang_set in H1 as (x & -> & Hx & ->).
    apply Lang_star in H2 as [H2 ->]. simpl. repeat split; [discriminate|constructor; auto].
  - intros (Hw & HF & ->). destruct w as [|x w]; [congruence|]. inversion HF; subst.
    exists [x], w, [], []. repeat split.
    + apply Lang_set. eauto. + apply Lang_star. auto.
Qed.
Lemma Lang_lit t w d : Lang (lit t) w d <-> w = t /\ d = [].
Proof.
  unfold lit. revert w d. induction t as [|c t IH]; intros w d; simpl.
  - rewrite Lang_eps. tauto.
  - destruct t as [|c' t]; simpl in *.
    + apply Lang_ch.
    + rewrite Lang_cat. split.
      * intros (u & v & c1 & c2 & -> & -> & H1 & H2). apply Lang_ch in H1 as [-> ->]. apply IH in H2 as [-> ->]. auto.
      * intros [-> ->]. exists [c], (c' :: t), [], []. repeat split. { apply Lang_ch; auto. } apply IH; auto.
Qed.
Lemma Lang_alts l w d : Lang (alts l) w d <-> exists r, In r l /\ Lang r w d.
Proof.
  induction l as [|a l IH]; simpl.
  - rewrite Lang_set. split; [intros (x & _ & H & _); discriminate|intros (r & [] & _)].
  - destruct l as [|b l].
    + split; [intros H; exists a; auto|intros (r & [->|[]] & H); auto].
    + rewrite Lang_alt, IH. split.
      * intros [H|(r & Hr & H)]; [exists a; auto|exists r; auto].
      * intros (r & [->|Hr] & H); [left; auto|right; exists r; auto].
Qed.
(** The empty list and longer lists behave alike. *)
Lemma Lang_cats_cons a l w d :
  Lang (cats (a :: l)) w d <-> exists u v c1 c2, w = u ++ v /\ d = c2 ++ c1 /\ Lang a u c1 /\ Lang (cats l) v c2.
Proof.
  destruct l as [|b l].
  - simpl. split.
    + intros H. exists w, [], d, []. rewrite app_nil_r. repeat split; auto. constructor.
    + intros (u & v & c1 & c2 & -> & -> & H1 & H2). apply Lang_eps in H2 as [-> ->]. rewrite app_nil_r. auto.
  - change (cats (a :: b :: l)) with (Cat a (cats (b :: l))). apply Lang_cat.
Qed.
Lemma Lang_cats_nil w d : Lang (cats []) w d <-> w = [] /\ d = [].
Proof. apply Lang_eps. Qed.

Section Ci.
  Context {rt : PyRt}.
  Lemma Lang_lit_ci t w d : Lang (lit_ci t) w d <-> Ci t w /\ d = [].
  Proof.
    unfold lit_ci, Ci. revert w d. induction t as [|c t IH]; intros w d.
    - simpl. rewrite Lang_eps. split; [intros [-> ->]; auto|intros [H ->]; inversion H; auto].
    - cbn [map]. rewrite Lang_cats_cons. split.
      + intros (u & v & c1 & c2 & -> & -> & H1 & H2). apply Lang_set in H1 as (x & -> & Hx & ->).
        apply IH in H2 as [H2 ->]. simpl. split; auto.
      + intros [H ->]. inversion H; subst. exists [y], l', [], []. repeat split.
        * apply Lang_set. eauto. * apply IH. auto.
  Qed.
End Ci.

(** Every captured text is a piece of the matched text. *)
Lemma Lang_cap_sub r w d n t : Lang r w d -> In (n, t) d -> exists a b, w = a ++ t ++ b.
Proof.
  intros H. revert n t. induction H; simpl; intros m t Hin; try tauto; eauto.
  - apply in_app_iff in Hin as [Hin|Hin].
    + destruct (IHLang2 _ _ Hin) as (a' & b' & ->). exists (u ++ a'), b'. rewrite app_assoc. reflexivity.
    + destruct (IHLang1 _ _ Hin) as (a' & b' & ->). exists a', (b' ++ v). rewrite <- !app_assoc. reflexivity.
  - destruct Hin as [Hin|Hin]; eauto. inversion Hin; subst. exists [], []. rewrite app_nil_r. reflexivity.
Qed.
Lemma gname_eqb_eq a b : gname_eqb a b = true <-> a = b.
Proof.
  destruct a, b; simpl; try (split; congruence).
  rewrite andb_true_iff. destruct p, p0; simpl; try (split; [intros [? ?]; discriminate|congruence]);
  destruct q, q0; simpl; split; intros; try tauto; try (destruct H; discriminate); congruence.
Qed.
Lemma cap_In n d t : cap n d = Some t -> In (n, t) d.
Proof.
  induction d as [|[m u] d IH]; simpl; [discriminate|].
  destruct (gname_eqb n m) eqn:E; [|auto]. apply gname_eqb_eq in E. intros H; inversion H; subst; auto.
Qed.
