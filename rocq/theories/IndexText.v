(** * IndexText: the text of an index never becomes shorter when something is added *)
From Verif Require Import PyBase BaseFacts Json JsonFacts JsonMore SpecJson RtLaws FS FSFacts Store SpecStore StoreFacts.
From Coq Require Import Permutation ZifyBool ZifyN ZifyNat.

Definition dlen (st : style) (lvl : nat) (v : pyval) : nat := List.length (fst (dump st lvl v)).
Definition whole (st : style) (lvl : nat) (v : pyval) : Prop := snd (dump st lvl v) = true.
Definition nl (st : style) (lvl : nat) : nat := List.length (newline st lvl).
Definition sep (st : style) (lvl : nat) : nat := List.length (item_sep st lvl).
Lemma nl_le st lvl : nl st lvl <= nl Indent4 lvl.
Proof. unfold nl. destruct st; cbn [newline List.length]; lia. Qed.
Lemma sep_le st lvl : sep st lvl <= sep Indent4 lvl.
Proof. unfold sep. destruct st; cbn [item_sep newline List.length]; lia. Qed.
Fixpoint total {A} (f : A -> nat) (l : list A) : nat := match l with [] => 0 | x :: l' => f x + total f l' end.
Lemma total_app {A} (f : A -> nat) l m : total f (l ++ m) = total f l + total f m.
Proof. induction l; cbn [app total]; lia. Qed.
Lemma total_perm {A} (f : A -> nat) l m : Permutation l m -> total f l = total f m.
Proof. induction 1; cbn [total]; lia. Qed.

Lemma seq_true t (o : out) : seq (text t) o = (t ++ fst o, snd o).
Proof. unfold seq, text. destruct o. reflexivity. Qed.
Lemma seq_whole (a b : out) : snd a = true -> seq a b = (fst a ++ fst b, snd b).
Proof. destruct a as [t ok], b. cbn. intros ->. reflexivity. Qed.

Lemma dump_list st lvl l : l <> [] -> Forall (whole st (S lvl)) l -> whole st lvl (VList l) /\
  dlen st lvl (VList l) + sep st (S lvl) = 2 + nl st (S lvl) + nl st lvl + total (fun x => dlen st (S lvl) x + sep st (S lvl)) l.
Proof.
  intros NE H. destruct l as [|x l]; [congruence|]. inv H. unfold whole, dlen. cbn [dump total].
  set (items := fix items (l : list pyval) : out := match l with [] => text [] | y :: l' => seq (text (item_sep st (S lvl))) (seq (dump st (S lvl) y) (items l')) end).
  assert (I : snd (items l) = true /\ List.length (fst (items l)) = total (fun x => List.length (fst (dump st (S lvl) x)) + sep st (S lvl)) l).
  { clear -H3. induction H3 as [|y l Hy Hl IH]; [split; reflexivity|]. cbn [items total]. rewrite seq_true, (seq_whole _ _ Hy). cbn [fst snd].
    destruct IH as [IH1 IH2]. split; [exact IH1|]. rewrite !app_length, IH2. unfold sep. lia. }
  destruct I as [I1 I2]. rewrite seq_true, (seq_whole _ _ H2), (seq_whole _ _ I1). cbn [fst snd text]. split; [reflexivity|].
  rewrite !app_length, I2. cbn [List.length]. unfold nl. lia.
Qed.
Lemma dump_dict st lvl d : d <> [] -> Forall (fun kv => whole st (S lvl) (snd kv)) d -> whole st lvl (VDict d) /\
  dlen st lvl (VDict d) + sep st (S lvl) = 2 + nl st (S lvl) + nl st lvl +
    total (fun kv => List.length (json_str (fst kv)) + 2 + dlen st (S lvl) (snd kv) + sep st (S lvl)) d.
Proof.
  intros NE H. destruct d as [|[k x] d]; [congruence|]. inv H. cbn [snd] in H2. unfold whole, dlen. cbn [dump total].
  set (items := fix items (d : list (pystr * pyval)) : out := match d with [] => text [] | (k', y) :: d' =>
    seq (text (item_sep st (S lvl))) (seq (text (json_str k' ++ key_sep)) (seq (dump st (S lvl) y) (items d'))) end).
  assert (I : snd (items d) = true /\ List.length (fst (items d)) =
    total (fun kv => List.length (json_str (fst kv)) + 2 + List.length (fst (dump st (S lvl) (snd kv))) + sep st (S lvl)) d).
  { clear -H3. induction H3 as [|[k' y] d Hy Hd IH]; [split; reflexivity|]. cbn [items total fst snd] in *.
    rewrite !seq_true, (seq_whole _ _ Hy). cbn [fst snd].
    destruct IH as [IH1 IH2]. split; [exact IH1|]. rewrite !app_length, IH2. unfold sep. cbn [key_sep List.length]. lia. }
  destruct I as [I1 I2]. rewrite !seq_true, (seq_whole _ _ H2), (seq_whole _ _ I1). cbn [fst snd text]. split; [reflexivity|].
  rewrite !app_length, I2. cbn [List.length key_sep]. unfold nl. lia.
Qed.

(** in whatever style [v] is written, [v'] written with indentation is at least as long *)
Record grows (v v' : pyval) : Prop := {
  gr_old : forall st lvl, whole st lvl v;
  gr_new : forall st lvl, whole st lvl v';
  gr_len : forall st lvl, dlen st lvl v <= dlen Indent4 lvl v' }.
Lemma grows_str s : grows (VStr s) (VStr s).
Proof. constructor; intros; reflexivity. Qed.
Lemma grows_int z : grows (VInt z) (VInt z).
Proof. constructor; intros; reflexivity. Qed.
Lemma grows_trans a b c : grows a b -> grows b c -> grows a c.
Proof. intros [A1 A2 A3] [B1 B2 B3]. constructor; auto. intros. specialize (A3 st lvl). specialize (B3 Indent4 lvl). lia. Qed.

Lemma total_grows {A} (R : A -> A -> Prop) (f f' : A -> nat) l m : Forall2 R l m -> (forall x y, R x y -> f x <= f' y) -> total f l <= total f' m.
Proof. intros H F. induction H as [|x y l m HR H IH]; cbn [total]; [lia|]. specialize (F x y HR). lia. Qed.

Lemma Forall2_len {A B} (R : A -> B -> Prop) l m : Forall2 R l m -> List.length l = List.length m.
Proof. induction 1; cbn [List.length]; congruence. Qed.
Lemma grows_list l l' m r : Forall2 grows l m -> Permutation l' (m ++ r) -> (forall x, In x r -> grows x x) -> grows (VList l) (VList l').
Proof.
  intros F P Hr.
  assert (Wl : forall st lvl, Forall (whole st lvl) l) by (intros; clear -F; induction F as [|x y l m G F IH]; constructor; auto; apply G).
  assert (Wm : forall st lvl, Forall (whole st lvl) m) by (intros; clear -F; induction F as [|x y l m G F IH]; constructor; auto; apply G).
  assert (Wl' : forall st lvl, Forall (whole st lvl) l').
  { intros st lvl. apply Forall_forall. intros x Hx. apply (Permutation_in _ P) in Hx. apply in_app_or in Hx as [Hx|Hx].
    - specialize (Wm st lvl). rewrite Forall_forall in Wm. auto.
    - apply (Hr x Hx). }
  constructor.
  - intros st lvl. destruct l; [reflexivity|]. apply dump_list; [discriminate|apply Wl].
  - intros st lvl. destruct l'; [reflexivity|]. apply dump_list; [discriminate|apply Wl'].
  - intros st lvl. destruct l as [|x l]; destruct l' as [|y l'].
    + reflexivity.
    + destruct (dump_list Indent4 lvl (y :: l')) as [_ E]; [discriminate|apply Wl'|]. change (dlen st lvl (VList [])) with 2. cbn [total] in E.
      pose proof (sep_le Indent4 (S lvl)). lia.
    + apply Permutation_nil in P. inv F. discriminate.
    + destruct (dump_list Indent4 lvl (y :: l')) as [_ E]; [discriminate|apply Wl'|].
      destruct (dump_list st lvl (x :: l)) as [_ E0]; [discriminate|apply Wl|].
      rewrite (total_perm _ _ _ P), total_app in E. pose proof (sep_le st (S lvl)). pose proof (nl_le st (S lvl)). pose proof (nl_le st lvl).
      assert (T : total (fun x => dlen st (S lvl) x) (x :: l) <= total (fun x => dlen Indent4 (S lvl) x) m).
      { eapply total_grows; [exact F|]. intros a b G. apply G. }
      assert (T2 : forall st (f : pyval -> nat) l, total (fun x => f x + sep st (S lvl)) l = total f l + List.length l * sep st (S lvl)).
      { clear. intros st f l. induction l as [|x l IH]; cbn [total List.length]; lia. }
      rewrite !(T2 Indent4 (fun x => dlen _ _ x)) in E. rewrite (T2 st (fun x => dlen _ _ x)) in E0. apply Forall2_len in F. rewrite <- F in E. cbn [List.length] in *.
      pose proof (Nat.mul_le_mono_l _ _ (List.length l) (sep_le st (S lvl))). rewrite !Nat.mul_succ_l in *. lia.
Qed.

Lemma grows_dict (d d' m r : list (pystr * pyval)) : Forall2 (fun a b => fst a = fst b /\ grows (snd a) (snd b)) d m -> d' = m ++ r ->
  (forall kv, In kv r -> grows (snd kv) (snd kv)) -> grows (VDict d) (VDict d').
Proof.
  intros F P Hr.
  assert (Wd : forall st lvl, Forall (fun kv => whole st lvl (snd kv)) d) by (intros; clear -F; induction F as [|x y l m G F IH]; constructor; auto; apply G).
  assert (Wm : forall st lvl, Forall (fun kv => whole st lvl (snd kv)) m) by (intros; clear -F; induction F as [|x y l m G F IH]; constructor; auto; apply G).
  assert (Wd' : forall st lvl, Forall (fun kv => whole st lvl (snd kv)) d').
  { intros st lvl. subst d'. apply Forall_app. split; [apply Wm|]. apply Forall_forall. intros x Hx. apply (Hr x Hx). }
  constructor.
  - intros st lvl. destruct d; [reflexivity|]. apply dump_dict; [discriminate|apply Wd].
  - intros st lvl. destruct d'; [reflexivity|]. apply dump_dict; [discriminate|apply Wd'].
  - intros st lvl. destruct d as [|x d]; destruct d' as [|y d'].
    + reflexivity.
    + destruct (dump_dict Indent4 lvl (y :: d')) as [_ E]; [discriminate|apply Wd'|]. change (dlen st lvl (VDict [])) with 2. cbn [total] in E.
      pose proof (sep_le Indent4 (S lvl)). lia.
    + inv F. discriminate.
    + destruct (dump_dict Indent4 lvl (y :: d')) as [_ E]; [discriminate|apply Wd'|].
      destruct (dump_dict st lvl (x :: d)) as [_ E0]; [discriminate|apply Wd|].
      rewrite P, total_app in E. pose proof (sep_le st (S lvl)). pose proof (nl_le st (S lvl)). pose proof (nl_le st lvl).
      assert (T : total (fun kv => List.length (json_str (fst kv)) + 2 + dlen st (S lvl) (snd kv)) (x :: d) <=
                  total (fun kv => List.length (json_str (fst kv)) + 2 + dlen Indent4 (S lvl) (snd kv)) m).
      { eapply total_grows; [exact F|]. intros a b [-> G]. pose proof (gr_len _ _ G st (S lvl)). lia. }
      assert (T2 : forall st (f : pystr * pyval -> nat) l, total (fun x => f x + sep st (S lvl)) l = total f l + List.length l * sep st (S lvl)).
      { clear. intros st f l. induction l as [|x l IH]; cbn [total List.length]; lia. }
      rewrite !(T2 Indent4 (fun kv => List.length (json_str (fst kv)) + 2 + dlen _ _ (snd kv))) in E. rewrite (T2 st (fun kv => List.length (json_str (fst kv)) + 2 + dlen _ _ (snd kv))) in E0.
      apply Forall2_len in F. rewrite <- F in E. cbn [List.length] in *.
      pose proof (Nat.mul_le_mono_l _ _ (List.length d) (sep_le st (S lvl))). rewrite !Nat.mul_succ_l in *. rewrite P. lia.
Qed.

Lemma incl_split {A} (l l' : list A) : NoDup l -> (forall x, In x l -> In x l') -> exists r, Permutation l' (l ++ r).
Proof.
  revert l'. induction l as [|x l IH]; intros l' N H; [exists l'; reflexivity|]. inv N.
  destruct (in_split x l' (H x (or_introl eq_refl))) as (a & b & ->).
  destruct (IH (a ++ b) H3) as (r & P).
  - intros y Hy. assert (y <> x) by congruence. specialize (H y (or_intror Hy)). rewrite in_app_iff in *. cbn [In] in H. intuition congruence.
  - exists r. cbn [app]. rewrite <- Permutation_middle. constructor. exact P.
Qed.
Lemma Forall2_self {A} (R : A -> A -> Prop) l : (forall x, In x l -> R x x) -> Forall2 R l l.
Proof. induction l; intros H; constructor; [apply H; left; reflexivity|apply IHl; intros; apply H; right; assumption]. Qed.
Lemma grows_set {A} (f : A -> pyval) l l' : (forall x, grows (f x) (f x)) -> NoDup l -> (forall x, In x l -> In x l') -> grows (VList (map f l)) (VList (map f l')).
Proof.
  intros G N H. destruct (incl_split l l' N H) as (r & P). apply (grows_list _ _ (map f l) (map f r)).
  - apply Forall2_self. intros x Hx. apply in_map_iff in Hx as (y & <- & _). apply G.
  - rewrite <- map_app. apply Permutation_map. exact P.
  - intros x Hx. apply in_map_iff in Hx as (y & <- & _). apply G.
Qed.
Lemma grows_strs l l' : NoDup l -> (forall x, In x l -> In x l') -> grows (strs_val l) (strs_val l').
Proof. apply grows_set. intros; apply grows_str. Qed.
Lemma grows_ints l l' : NoDup l -> (forall x, In x l -> In x l') -> grows (VList (map VInt l)) (VList (map VInt l')).
Proof. apply grows_set. intros; apply grows_int. Qed.

Section IndexText.
  Context {rt : PyRt} (R : rt_ok rt).

  Lemma grows_rels_same d : Forall (fun kv => NoDup (snd kv)) d -> grows (rels_val d) (rels_val d).
  Proof.
    intros H. unfold rels_val. eapply (grows_dict _ _ _ []); [|symmetry; apply app_nil_r|intros kv []].
    apply Forall2_self. intros x Hx. apply in_map_iff in Hx as ([k l] & <- & Hk). split; [reflexivity|]. cbn [fst snd].
    rewrite Forall_forall in H. specialize (H _ Hk). apply grows_ints; auto.
  Qed.
  Lemma grows_rel_add k new d : NoDup new -> rels_ok d -> grows (rels_val d) (rels_val (rel_add k new d)).
  Proof.
    intros Hn (_ & ND & H). unfold rel_add.
    set (l := match d_get k d with Some old => z_union (z_of_list old) new | None => new end).
    assert (Nl : NoDup l) by (unfold l; destruct (d_get k d); auto; apply z_union_NoDup, z_of_list_NoDup).
    destruct (rt_zorder _ R l Nl) as [N M].
    assert (L : forall old, d_get k d = Some old -> grows (VList (map VInt old)) (VList (map VInt (zset_order l)))).
    { intros old E. apply grows_ints.
      - rewrite Forall_forall in H. apply (H (k, old)). apply d_get_In. exact E.
      - intros z Hz. apply M. unfold l. rewrite E. apply z_union_In. left. apply z_of_list_In. exact Hz. }
    assert (R0 : grows (VList (map VInt (zset_order l))) (VList (map VInt (zset_order l)))) by (apply grows_ints; auto).
    assert (X : exists m r, Forall2 (fun a b => fst a = fst b /\ grows (snd a) (snd b)) (map enc d) m /\ map enc (d_set k (zset_order l) d) = m ++ r /\
              forall kv, In kv r -> grows (snd kv) (snd kv)).
    { clear -H L R0. generalize dependent (zset_order l). intros l' L R0. induction d as [|[q x] d IH].
      - exists [], [enc (k, l')]. split; [constructor|]. split; [reflexivity|]. intros kv [<- |[]]. exact R0.
      - inv H. cbn [d_set d_get map] in *. str_case k q.
        + subst q. exists (enc (k, l') :: map enc d), []. split; [constructor|split; [rewrite app_nil_r; reflexivity|intros kv []]].
          * split; [reflexivity|]. apply L. reflexivity.
          * apply Forall2_self. intros y Hy. apply in_map_iff in Hy as ([k' z] & <- & Hk). split; [reflexivity|]. cbn [enc fst snd].
            rewrite Forall_forall in H3. specialize (H3 _ Hk). apply grows_ints; auto.
        + destruct (IH H3 L) as (m & r & F & E1 & Hr). exists (enc (q, x) :: m), r. cbn [map]. rewrite E1. split; [|split; [reflexivity|exact Hr]].
          constructor; [|exact F]. split; [reflexivity|]. apply grows_ints; auto. }
    destruct X as (m & r & F & E & Hr). eapply grows_dict; [exact F|exact E|exact Hr].
  Qed.
  Lemma grows_rel_add_all items d : items_ok items -> rels_ok d -> grows (rels_val d) (rels_val (rel_add_all items d)).
  Proof.
    revert d. induction items as [|[k s] items IH]; intros d Hi Hd.
    - apply grows_rels_same. apply Hd.
    - inv Hi. cbn [fst snd] in H1. destruct H1 as [Hk Hs].
      change (rel_add_all ((k, s) :: items) d) with (rel_add_all items (rel_add k s d)).
      eapply grows_trans; [apply grows_rel_add; eauto|]. apply IH; [assumption|]. apply (rel_add_ok k s d R Hk Hs Hd).
  Qed.

  Lemma grows_index ix ix' : grows (rels_val (ix_rels ix)) (rels_val (ix_rels ix')) -> grows (strs_val (ix_labels ix)) (strs_val (ix_labels ix')) ->
    grows (strs_val (ix_names ix)) (strs_val (ix_names ix')) -> grows (index_val ix) (index_val ix').
  Proof.
    intros A B C. unfold index_val. eapply (grows_dict _ _ _ []); [|symmetry; apply app_nil_r|intros kv []].
    repeat (constructor; [split; [reflexivity|assumption]|]). constructor.
  Qed.
  Lemma grows_text v v' st : grows v v' -> List.length (dump_text st v) <= List.length (dump_text Indent4 v').
  Proof. intros G. apply (gr_len _ _ G st 0). Qed.

  Lemma text_rels ix items st : index_ok ix -> items_ok items ->
    List.length (dump_text st (index_val ix)) <= List.length (dump_text Indent4 (index_val (with_rels ix (rel_add_all items (ix_rels ix))))).
  Proof.
    intros H Hi. apply grows_text, grows_index.
    - apply grows_rel_add_all; [exact Hi|]. apply rels_ok_index. exact H.
    - apply grows_strs; auto. apply H.
    - apply grows_strs; auto. apply H.
  Qed.
  Lemma text_labels ix l st : index_ok ix -> (forall s, In s (ix_labels ix) -> In s l) ->
    List.length (dump_text st (index_val ix)) <= List.length (dump_text Indent4 (index_val (with_labels ix l))).
  Proof.
    intros H Hi. apply grows_text, grows_index.
    - apply grows_rels_same. apply H.
    - apply grows_strs; auto. apply H.
    - apply grows_strs; auto. apply H.
  Qed.
  Lemma text_names ix l st : index_ok ix -> (forall s, In s (ix_names ix) -> In s l) ->
    List.length (dump_text st (index_val ix)) <= List.length (dump_text Indent4 (index_val (with_names ix l))).
  Proof.
    intros H Hi. apply grows_text, grows_index.
    - apply grows_rels_same. apply H.
    - apply grows_strs; auto. apply H.
    - apply grows_strs; auto. apply H.
  Qed.
End IndexText.

Section NotShorter.
  Context {rt : PyRt} (R : rt_ok rt).
  Theorem index_text_grows p ix st w : index_ok ix -> file_is p (dump_text st (index_val ix)) w ->
    let longer (m : io bool) := exists t w', run m w = (Ok true, w') /\ file_is p t w' /\ List.length (dump_text st (index_val ix)) <= List.length t in
    (forall l, Forall str_ok l -> longer (add_items_to_node_labels_index p l)) /\
    (forall l, Forall str_ok l -> longer (add_items_to_relationship_names_index p l)) /\
    (forall l, Forall (fun kv => str_ok (fst kv) /\ NoDup (snd kv)) l -> longer (add_items_to_node_relationships_index p l)).
  Proof.
    intros IO F longer. assert (FI : ix_file_is p ix w) by (split; eauto). split; [|split]; intros l Hl.
    - destruct (run_add_labels p l ix w R Hl FI) as (ls & E & _ & _ & M). eexists _, _. split; [exact E|]. split; [apply put_has|].
      apply text_labels; [exact IO|]. intros s Hs. apply M. auto.
    - destruct (run_add_names p l ix w R Hl FI) as (ls & E & _ & _ & M). eexists _, _. split; [exact E|]. split; [apply put_has|].
      apply text_names; [exact IO|]. intros s Hs. apply M. auto.
    - destruct l as [|i l].
      + eexists _, _. split; [exact (run_add_rels_none p ix st w IO F)|]. split; [apply put_has|]. rewrite app_length. lia.
      + eexists _, _. split; [exact (run_add_rels p (i :: l) ix w R Hl ltac:(discriminate) FI)|]. split; [apply put_has|].
        apply text_rels; auto.
  Qed.
End NotShorter.
