(** * BaseFacts: facts about the vocabulary of PyBase *)
From Verif Require Import PyBase.
From Coq Require Import Permutation ZifyBool ZifyNat ZifyN.

Ltac inv H := inversion H; subst; clear H.

Lemma str_eqb_eq a b : str_eqb a b = true <-> a = b.
Proof.
  revert b; induction a as [|x a IH]; destruct b as [|y b]; simpl; try (split; congruence).
  rewrite andb_true_iff, N.eqb_eq, IH. split; [intros [-> ->]; reflexivity | intros H; inversion H; auto].
Qed.
Lemma str_eqb_refl a : str_eqb a a = true.
Proof. apply str_eqb_eq; reflexivity. Qed.
Lemma str_eqb_neq a b : str_eqb a b = false <-> a <> b.
Proof. rewrite <- str_eqb_eq. destruct (str_eqb a b); split; congruence. Qed.
Lemma str_eqb_sym a b : str_eqb a b = str_eqb b a.
Proof.
  destruct (str_eqb a b) eqn:E; symmetry.
  - apply str_eqb_eq in E; subst; apply str_eqb_refl.
  - apply str_eqb_neq in E; apply str_eqb_neq; congruence.
Qed.

(** case split on a string comparison *)
Ltac str_case a b :=
  let E := fresh "E" in
  destruct (str_eqb a b) eqn:E;
  [apply str_eqb_eq in E | apply str_eqb_neq in E].

(** ** res *)
Lemma bind_ok {A B} (x : res A) (f : A -> res B) y :
  bind x f = Ok y <-> exists a, x = Ok a /\ f a = Ok y.
Proof.
  destruct x; simpl; split.
  - eauto. - intros [a' [H1 H2]]; congruence. - discriminate. - intros [a' [H1 H2]]; discriminate.
Qed.
Lemma bind_err {A B} (x : res A) (f : A -> res B) e :
  bind x f = Err e <-> x = Err e \/ exists a, x = Ok a /\ f a = Err e.
Proof.
  destruct x; simpl; split; eauto.
  - intros [H|[a' [H1 H2]]]; congruence.
  - intros H; inversion H; auto.
  - intros [H|[a' [H1 H2]]]; congruence.
Qed.

Lemma mapM_ok_length {A B} (f : A -> res B) l r : mapM f l = Ok r -> List.length r = List.length l.
Proof.
  revert r; induction l; simpl; intros r H.
  - inversion H; reflexivity.
  - apply bind_ok in H as [y [_ H]]. apply bind_ok in H as [ys [H1 H]]. inversion H; simpl. f_equal; auto.
Qed.

Lemma mapM_Forall2 {A B} (f : A -> res B) l r :
  mapM f l = Ok r <-> Forall2 (fun a b => f a = Ok b) l r.
Proof.
  revert r; induction l as [|a l IH]; simpl; intros r; split; intros H.
  - inversion H; constructor.
  - inversion H; reflexivity.
  - apply bind_ok in H as [y [H0 H]]. apply bind_ok in H as [ys [H1 H]]. inversion H; subst.
    constructor; auto. apply IH; auto.
  - inversion H; subst. rewrite H2. simpl. apply IH in H4. rewrite H4. reflexivity.
Qed.

Lemma mapM_err {A B} (f : A -> res B) l e :
  mapM f l = Err e -> exists a, In a l /\ f a = Err e.
Proof.
  induction l as [|a l IH]; simpl; intros H; [discriminate|].
  apply bind_err in H as [H|[y [_ H]]]; [eauto|].
  apply bind_err in H as [H|[ys [_ H]]]; [|discriminate].
  destruct (IH H) as [b [Hb Hf]]; eauto.
Qed.

Lemma forM_ok {A} (f : A -> res unit) l : forM f l = Ok tt <-> Forall (fun a => f a = Ok tt) l.
Proof.
  induction l as [|a l IH]; simpl; split; intros H; auto.
  - apply bind_ok in H as [[] [H0 H]]. constructor; auto. apply IH; auto.
  - inversion H; subst. rewrite H2. simpl. apply IH; auto.
Qed.

Lemma forM_err {A} (f : A -> res unit) l e :
  forM f l = Err e <->
  exists l1 a l2, l = l1 ++ a :: l2 /\ Forall (fun a => f a = Ok tt) l1 /\ f a = Err e.
Proof.
  induction l as [|a l IH]; simpl; split.
  - discriminate.
  - intros (l1 & b & l2 & H & _). destruct l1; discriminate.
  - intros H. apply bind_err in H as [H|[[] [H0 H]]].
    + exists [], a, l. auto.
    + apply IH in H as (l1 & b & l2 & -> & H1 & H2). exists (a :: l1), b, l2. auto.
  - intros (l1 & b & l2 & H & H1 & H2). destruct l1 as [|c l1]; simpl in H; inversion H; subst.
    + rewrite H2. reflexivity.
    + inversion H1; subst. rewrite H4. simpl. apply IH. exists l1, b, l2. auto.
Qed.

Lemma forM_raises {A} (f : A -> res unit) l e0 :
  (forall a e, f a = Err e -> e = e0) ->
  (exists a, In a l /\ f a = Err e0) -> forM f l = Err e0.
Proof.
  intros Hf [a [Hin Ha]]. induction l as [|b l IH]; simpl; [destruct Hin|].
  destruct (f b) as [[]|e] eqn:E; simpl.
  - destruct Hin as [->|Hin]; [congruence|auto].
  - rewrite (Hf _ _ E). reflexivity.
Qed.

(** ** dictionaries *)
Lemma d_get_set {A} k k' (v : A) d :
  d_get k (d_set k' v d) = if str_eqb k k' then Some v else d_get k d.
Proof.
  induction d as [|[q w] d IH]; simpl.
  - reflexivity.
  - str_case k' q; subst; simpl.
    + str_case k q; subst; reflexivity.
    + str_case k q; subst.
      * destruct (str_eqb q k') eqn:E2; [apply str_eqb_eq in E2; congruence|reflexivity].
      * apply IH.
Qed.
Lemma d_get_None_keys {A} k (d : list (pystr * A)) : d_get k d = None <-> ~ In k (keys d).
Proof.
  induction d as [|[q w] d IH]; simpl; [tauto|].
  str_case k q; subst.
  - split; [discriminate|]. intros H; exfalso; apply H; auto.
  - rewrite IH. split; [intros H [H1|H1]; congruence|tauto].
Qed.
Lemma d_get_Some_keys {A} k (d : list (pystr * A)) : (exists v, d_get k d = Some v) <-> In k (keys d).
Proof.
  destruct (d_get k d) eqn:E.
  - split; [intros _|eauto]. destruct (in_dec str_eq_dec k (keys d)); auto.
    apply d_get_None_keys in n; congruence.
  - split; [intros [v H]; discriminate|]. intros H. apply d_get_None_keys in E; contradiction.
Qed.
Lemma d_mem_false {A} k (d : list (pystr * A)) : d_mem k d = false <-> ~ In k (keys d).
Proof. unfold d_mem. rewrite <- d_get_None_keys. destruct (d_get k d); split; congruence. Qed.
Lemma d_mem_true {A} k (d : list (pystr * A)) : d_mem k d = true <-> In k (keys d).
Proof.
  unfold d_mem. rewrite <- d_get_Some_keys. destruct (d_get k d); split; eauto; try discriminate.
  intros [v H]; discriminate.
Qed.
Lemma d_set_new {A} k (v : A) d : ~ In k (keys d) -> d_set k v d = d ++ [(k, v)].
Proof.
  induction d as [|[q w] d IH]; simpl; intros H; [reflexivity|].
  str_case k q; subst; [tauto|]. rewrite IH; tauto.
Qed.
Lemma keys_app {A} (a b : list (pystr * A)) : keys (a ++ b) = keys a ++ keys b.
Proof. apply map_app. Qed.
Lemma d_set_keys {A} k (v : A) d : In k (keys d) -> keys (d_set k v d) = keys d.
Proof.
  induction d as [|[q w] d IH]; simpl; intros H; [tauto|].
  str_case k q; subst; simpl; [reflexivity|]. f_equal. apply IH. destruct H; congruence.
Qed.
Lemma d_set_keys_in {A} k (v : A) d x : In x (keys (d_set k v d)) <-> x = k \/ In x (keys d).
Proof.
  destruct (in_dec str_eq_dec k (keys d)).
  - rewrite d_set_keys by auto. split; [auto|]. intros [->|]; auto.
  - rewrite d_set_new by auto. rewrite keys_app, in_app_iff. simpl. intuition.
Qed.
Lemma NoDup_app_intro {A} (a b : list A) :
  NoDup a -> NoDup b -> (forall x, In x a -> ~ In x b) -> NoDup (a ++ b).
Proof.
  induction a; simpl; intros Ha Hb H; auto.
  inversion Ha; subst. constructor; eauto.
  rewrite in_app_iff. intros [X|X]; [tauto|]. eapply H; eauto.
Qed.
Lemma NoDup_app_inv {A} (a b : list A) :
  NoDup (a ++ b) -> NoDup a /\ NoDup b /\ (forall x, In x a -> ~ In x b).
Proof.
  induction a; simpl; intros H.
  - split; [constructor|]. split; auto.
  - inversion H; subst. destruct (IHa H3) as (H4 & H5 & H6). repeat split; auto.
    + constructor; auto. rewrite in_app_iff in H2; tauto.
    + intros x [->|Hx]; auto. rewrite in_app_iff in H2; tauto.
Qed.
Lemma d_set_NoDup {A} k (v : A) d : NoDup (keys d) -> NoDup (keys (d_set k v d)).
Proof.
  intros H. destruct (in_dec str_eq_dec k (keys d)).
  - rewrite d_set_keys by auto. auto.
  - rewrite d_set_new, keys_app by auto. apply NoDup_app_intro; simpl; auto.
    + constructor; [tauto|constructor].
    + intros x Hx [->|[]]. auto.
Qed.
Lemma d_get_app {A} k (a b : list (pystr * A)) :
  d_get k (a ++ b) = match d_get k a with Some v => Some v | None => d_get k b end.
Proof. induction a as [|[q w] a IH]; simpl; auto. str_case k q; auto. Qed.
Lemma d_get_In {A} k (v : A) d : d_get k d = Some v -> In (k, v) d.
Proof.
  induction d as [|[q w] d IH]; simpl; [discriminate|].
  str_case k q; subst; intros H; [inversion H; auto|auto].
Qed.
Lemma In_d_get {A} k (v : A) d : NoDup (keys d) -> In (k, v) d -> d_get k d = Some v.
Proof.
  induction d as [|[q w] d IH]; simpl; intros Hn H; [tauto|]. inversion Hn; subst.
  destruct H as [H|H].
  - inversion H; subst. rewrite str_eqb_refl. reflexivity.
  - str_case k q; subst; [|auto]. exfalso. apply H2. apply (in_map fst) in H. auto.
Qed.

(** ** sets of strings *)
Lemma s_mem_In x l : s_mem x l = true <-> In x l.
Proof.
  unfold s_mem. rewrite existsb_exists. split.
  - intros [y [Hy E]]. apply str_eqb_eq in E; subst; auto.
  - intros H. exists x. split; auto. apply str_eqb_refl.
Qed.
Lemma s_mem_notIn x l : s_mem x l = false <-> ~ In x l.
Proof. rewrite <- s_mem_In. destruct (s_mem x l); split; congruence. Qed.
Lemma s_add_In x y l : In y (s_add x l) <-> y = x \/ In y l.
Proof.
  unfold s_add. destruct (s_mem x l) eqn:E.
  - apply s_mem_In in E. split; [auto|]. intros [->|]; auto.
  - rewrite in_app_iff. simpl. intuition.
Qed.
Lemma s_add_NoDup x l : NoDup l -> NoDup (s_add x l).
Proof.
  unfold s_add. destruct (s_mem x l) eqn:E; auto. intros H. apply s_mem_notIn in E.
  apply NoDup_app_intro; auto. - constructor; [simpl; tauto|constructor].
  - intros y Hy [->|[]]. auto.
Qed.
Lemma s_union_In x a b : In x (s_union a b) <-> In x a \/ In x b.
Proof.
  revert a; induction b as [|y b IH]; simpl; intros a; [tauto|].
  unfold s_union in *. simpl. rewrite IH, s_add_In. intuition.
Qed.
Lemma s_union_NoDup a b : NoDup a -> NoDup (s_union a b).
Proof.
  revert a; induction b as [|y b IH]; simpl; intros a H; auto.
  unfold s_union in *. simpl. apply IH. apply s_add_NoDup; auto.
Qed.
Lemma s_of_list_In x l : In x (s_of_list l) <-> In x l.
Proof. unfold s_of_list. rewrite s_union_In. simpl. tauto. Qed.
Lemma s_of_list_NoDup l : NoDup (s_of_list l).
Proof. apply s_union_NoDup. constructor. Qed.
Lemma s_union_NoDup_id a b : NoDup (a ++ b) -> s_union a b = a ++ b.
Proof.
  revert a; induction b as [|y b IH]; intros a H.
  - rewrite app_nil_r; reflexivity.
  - unfold s_union in *. simpl.
    assert (E : s_add y a = a ++ [y]).
    { unfold s_add. destruct (s_mem y a) eqn:E; auto. apply s_mem_In in E.
      apply NoDup_app_inv in H as (_ & _ & H). exfalso. eapply H; eauto. left; auto. }
    rewrite E, IH; rewrite <- app_assoc; auto.
Qed.
Lemma s_of_list_id l : NoDup l -> s_of_list l = l.
Proof. intros H. unfold s_of_list. rewrite s_union_NoDup_id; auto. Qed.
Lemma s_union_length a b : List.length (s_union a b) <= List.length a + List.length b.
Proof.
  revert a; induction b as [|y b IH]; intros a; simpl; [lia|].
  unfold s_union in *. simpl. etransitivity; [apply IH|]. unfold s_add.
  destruct (s_mem y a); [lia|]. rewrite app_length. simpl. lia.
Qed.
Lemma s_of_list_length l : List.length (s_of_list l) = List.length l <-> NoDup l.
Proof.
  split.
  - unfold s_of_list. intros H.
    assert (G : forall b a, List.length (s_union a b) = List.length a + List.length b -> NoDup a -> NoDup (a ++ b)).
    { clear. induction b as [|y b IH]; intros a H Ha.
      - rewrite app_nil_r; auto.
      - unfold s_union in *. simpl in H. unfold s_add in H at 2.
        destruct (s_mem y a) eqn:E.
        + pose proof (s_union_length a b) as L. unfold s_union in L. lia.
        + replace (a ++ y :: b) with ((a ++ [y]) ++ b) by (rewrite <- app_assoc; auto).
          apply IH.
          * rewrite H, app_length; simpl; lia.
          * apply NoDup_app_intro; auto. { constructor; [simpl; tauto|constructor]. }
            intros z Hz [->|[]]. apply s_mem_notIn in E; auto. }
    apply (G l []); [simpl; exact H|constructor].
  - intros H. rewrite s_of_list_id; auto.
Qed.

(** ** sets of ints *)
Lemma z_mem_In x l : z_mem x l = true <-> In x l.
Proof.
  unfold z_mem. rewrite existsb_exists. split.
  - intros [y [Hy E]]. apply Z.eqb_eq in E; subst; auto.
  - intros H. exists x. split; auto. apply Z.eqb_refl.
Qed.
Lemma z_add_In x y l : In y (z_add x l) <-> y = x \/ In y l.
Proof.
  unfold z_add. destruct (z_mem x l) eqn:E.
  - apply z_mem_In in E. split; [auto|]. intros [->|]; auto.
  - rewrite in_app_iff. simpl. intuition.
Qed.
Lemma z_add_NoDup x l : NoDup l -> NoDup (z_add x l).
Proof.
  unfold z_add. destruct (z_mem x l) eqn:E; auto. intros H.
  apply NoDup_app_intro; auto. - constructor; [simpl; tauto|constructor].
  - intros y Hy [->|[]]. apply z_mem_In in Hy. congruence.
Qed.
Lemma z_union_In x a b : In x (z_union a b) <-> In x a \/ In x b.
Proof.
  revert a; induction b as [|y b IH]; simpl; intros a; [tauto|].
  unfold z_union in *. simpl. rewrite IH, z_add_In. intuition.
Qed.
Lemma z_union_NoDup a b : NoDup a -> NoDup (z_union a b).
Proof.
  revert a; induction b as [|y b IH]; simpl; intros a H; auto.
  unfold z_union in *. simpl. apply IH. apply z_add_NoDup; auto.
Qed.
Lemma z_of_list_In x l : In x (z_of_list l) <-> In x l.
Proof. unfold z_of_list. rewrite z_union_In. simpl. tauto. Qed.
Lemma z_of_list_NoDup l : NoDup (z_of_list l).
Proof. apply z_union_NoDup. constructor. Qed.

(** ** strings *)
Lemma starts_with_app p s : starts_with p s = true <-> exists t, s = p ++ t.
Proof.
  revert s; induction p as [|x p IH]; simpl; intros s.
  - split; [intros _; exists s; auto|auto].
  - destruct s as [|y s]; split; try discriminate.
    + intros [t H]; discriminate.
    + rewrite andb_true_iff, N.eqb_eq, IH. intros [-> [t ->]]. exists t; reflexivity.
    + intros [t H]. inversion H; subst. rewrite N.eqb_refl. simpl. apply IH. eauto.
Qed.
Lemma contains_app p s : contains p s = true <-> exists a b, s = a ++ p ++ b.
Proof.
  induction s as [|y s IH].
  - simpl. rewrite orb_false_r, starts_with_app. split.
    + intros [t H]. exists [], t. auto.
    + intros (a & b & H). destruct a; [exists b; auto|discriminate].
  - cbn [contains]. rewrite orb_true_iff, starts_with_app, IH. split.
    + intros [[t H]|(a & b & ->)]; [exists [], t; auto|exists (y :: a), b; auto].
    + intros (a & b & H). destruct a as [|z a]; [left; exists b; auto|].
      inversion H; subst. right. exists a, b; auto.
Qed.
Lemma contains_ch c s : contains [c] s = true <-> In c s.
Proof.
  rewrite contains_app. split.
  - intros (a & b & ->). rewrite in_app_iff. right. left. reflexivity.
  - intros H. apply in_split in H as (a & b & ->). exists a, b. reflexivity.
Qed.

(** ** decimal texts *)
Lemma digit_ch_is_digit d : (d < 10)%N -> is_digit0 (digit_ch d) = true.
Proof. unfold is_digit0, between, digit_ch. lia. Qed.
Lemma str_app_cons (a : pystr) c b : a ++ c :: b = (a ++ [c]) ++ b.
Proof. rewrite <- app_assoc. reflexivity. Qed.
