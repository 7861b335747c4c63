(** * UsersFacts: several people, each with a graph of their own (C80) *)
From Verif Require Import PyBase BaseFacts Statements FS FSFacts Store Make Find Query Gdbms SpecGdbms GdbmsFacts Confine SpecMany ManyFacts SpecAmid AmidFacts AmidMore SpecUsers.

(** ** folders and their lists *)
Lemma child_name_self d m : child_name d (d ++ [m]) = Some m.
Proof. apply child_name_spec. reflexivity. Qed.
Lemma children_app d a b : children d (a ++ b) = children d a ++ children d b.
Proof. unfold children. apply flat_map_app. Qed.
Lemma children_set d p e f : (forall m, p <> d ++ [m]) \/ fs_get p f <> None -> children d (fs_set p e f) = children d f.
Proof.
  intros H. induction f as [|[q x] f IH]; cbn [fs_set fs_get] in *.
  - unfold children. cbn [flat_map fst app]. destruct H as [H|H]; [|congruence]. destruct (child_name d p) as [m|] eqn:E; [|reflexivity].
    apply child_name_spec in E. destruct (H m E).
  - destruct (path_eqb p q) eqn:E; [reflexivity|]. unfold children in *. cbn [flat_map fst]. rewrite IH by exact H. reflexivity.
Qed.
Lemma children_set_new d m e f : fs_get (d ++ [m]) f = None -> children d (fs_set (d ++ [m]) e f) = children d f ++ [m].
Proof.
  induction f as [|[q x] f IH]; cbn [fs_set fs_get].
  - intros _. unfold children. cbn [flat_map fst app]. rewrite child_name_self. reflexivity.
  - destruct (path_eqb (d ++ [m]) q) eqn:E; [discriminate|]. intros H. unfold children in *. cbn [flat_map fst]. rewrite IH by exact H. rewrite app_assoc. reflexivity.
Qed.
Lemma children_del d p f : (forall m, p <> d ++ [m]) -> children d (fs_del p f) = children d f.
Proof.
  intros H. induction f as [|[q x] f IH]; cbn [fs_del]; [reflexivity|]. destruct (path_eqb p q) eqn:E.
  - apply path_eqb_eq in E. subst q. rewrite IH. unfold children. cbn [flat_map fst]. destruct (child_name d p) as [m|] eqn:C; [|reflexivity].
    apply child_name_spec in C. destruct (H m C).
  - unfold children in *. cbn [flat_map fst]. rewrite IH. reflexivity.
Qed.
Lemma children_del_one d m f : children d (fs_del (d ++ [m]) f) = List.filter (fun x => negb (str_eqb x m)) (children d f).
Proof.
  induction f as [|[q x] f IH]; cbn [fs_del]; [reflexivity|]. destruct (path_eqb (d ++ [m]) q) eqn:E.
  - apply path_eqb_eq in E. subst q. rewrite IH. unfold children. cbn [flat_map fst]. rewrite child_name_self. cbn [app List.filter].
    rewrite str_eqb_refl. reflexivity.
  - unfold children in *. cbn [flat_map fst]. rewrite IH, filter_app. f_equal. destruct (child_name d q) as [y|] eqn:C; [|reflexivity].
    cbn [List.filter]. destruct (str_eqb y m) eqn:Y; [|reflexivity]. apply str_eqb_eq in Y. subst y. apply child_name_spec in C. subst q. rewrite path_eqb_refl in E. discriminate.
Qed.

(** ** commands of somebody at home in the folder [d], and what they see *)
Definition at_home (d : path) (c : cmd) : Prop :=
  match c with
  | CRead p | CWrite p _ _ | CTrunc p _ | CCreate p | CTouch p | CUnlink p | CIsFile p => exists m, p = d ++ [m]
  | CIsDir p | CMkdir p | CList p | CRmdir p => p = d
  | CPrint _ => True
  | CInput => False
  end.
Definition sees (d : path) (w v : world) : Prop :=
  (forall p, around d p -> fs_get p (w_fs v) = fs_get p (w_fs w)) /\ children d (w_fs v) = children d (w_fs w).
Lemma sees_refl d w : sees d w w.
Proof. split; reflexivity. Qed.
Lemma not_child (d : path) m : d <> d ++ [m].
Proof. intros E. apply (f_equal (@List.length pystr)) in E. rewrite app_length in E. cbn [List.length] in E. lia. Qed.
Lemma sees_there dir n w v : sees (dir ++ [n]) w v -> dir_there dir w -> dir_there dir v.
Proof.
  intros [S _] T x X. unfold entry_at. rewrite S; [exact (T x X)|]. left. destruct X as (N & y & ->). split; [exact N|]. exists (y ++ [n]). rewrite app_assoc. reflexivity.
Qed.
Lemma mkdir_there dir n w : dir_there dir w -> exec (CMkdir (dir ++ [n])) w =
  match fs_get (dir ++ [n]) (w_fs w) with
  | Some EDir => (RUnit, w) | Some (EFile _) => (RErr OSError, w) | None => (RUnit, with_fs w (fs_set (dir ++ [n]) EDir (w_fs w))) end.
Proof.
  intros T. cbn [exec]. rewrite prefixes_snoc, mkdirs_there by (intros q Q; apply (T q), prefixes_spec; exact Q). cbn [mkdirs].
  destruct (fs_get (dir ++ [n]) (w_fs w)) as [[|t]|]; rewrite ?world_eta; reflexivity.
Qed.

(** the same file system operation in two worlds that look the same *)
Lemma sees_set d p e w v : (p = d \/ exists m, p = d ++ [m]) -> d <> [] -> sees d w v -> sees d (with_fs w (fs_set p e (w_fs w))) (with_fs v (fs_set p e (w_fs v))).
Proof.
  intros HP ND [S C]. split; cbn [with_fs w_fs].
  - intros q Q. rewrite !fs_get_set. destruct (path_eqb q p); [reflexivity|apply S; exact Q].
  - destruct HP as [-> |(m & ->)].
    + rewrite !children_set by (left; intros m; apply not_child). exact C.
    + assert (E : fs_get (d ++ [m]) (w_fs v) = fs_get (d ++ [m]) (w_fs w)) by (apply S; apply below_around).
      destruct (fs_get (d ++ [m]) (w_fs w)) as [x|] eqn:G.
      * rewrite !children_set by (right; congruence). exact C.
      * rewrite !children_set_new by assumption. rewrite C. reflexivity.
Qed.
Lemma sees_del d p w v : (p = d \/ exists m, p = d ++ [m]) -> sees d w v -> sees d (with_fs w (fs_del p (w_fs w))) (with_fs v (fs_del p (w_fs v))).
Proof.
  intros HP [S C]. split; cbn [with_fs w_fs].
  - intros q Q. rewrite !fs_get_del. destruct (path_eqb q p); [reflexivity|apply S; exact Q].
  - destruct HP as [-> |(m & ->)].
    + rewrite !children_del by (intros m; apply not_child). exact C.
    + rewrite !children_del_one, C. reflexivity.
Qed.
Lemma at_home_same dir n c w v : at_home (dir ++ [n]) c -> dir_there dir w -> sees (dir ++ [n]) w v ->
  fst (exec c v) = fst (exec c w) /\ sees (dir ++ [n]) (snd (exec c w)) (snd (exec c v)).
Proof.
  intros H T S. pose proof (sees_there dir n w v S T) as TV. set (d := dir ++ [n]) in *. assert (ND : d <> []) by apply snoc_nonempty.
  assert (G : forall p, (p = d \/ exists m, p = d ++ [m]) -> fs_get p (w_fs v) = fs_get p (w_fs w)).
  { intros p [-> |(m & ->)]; apply S; [apply self_around; exact ND|apply below_around]. }
  assert (FD : forall f, fs_is_dir d f = match fs_get d f with Some EDir => true | _ => false end) by (intros f; unfold fs_is_dir; destruct d; [congruence|reflexivity]).
  destruct c as [p|p off t|p len|p|p|p|p|p|p|p|p|t|]; cbn [at_home] in H; try contradiction.
  - destruct H as (m & ->). cbn [exec]. rewrite (G (d ++ [m])) by eauto. destruct (fs_get (d ++ [m]) (w_fs w)) as [[|u]|]; split; auto.
  - destruct H as (m & ->). cbn [exec]. rewrite (G (d ++ [m])) by eauto. destruct (fs_get (d ++ [m]) (w_fs w)) as [[|u]|]; (split; [reflexivity|]); auto. apply sees_set; eauto.
  - destruct H as (m & ->). cbn [exec]. rewrite (G (d ++ [m])) by eauto. destruct (fs_get (d ++ [m]) (w_fs w)) as [[|u]|]; (split; [reflexivity|]); auto. apply sees_set; eauto.
  - destruct H as (m & ->). cbn [exec]. rewrite (G (d ++ [m])) by eauto. rewrite parent_snoc, !FD, (G d) by auto.
    destruct (fs_get (d ++ [m]) (w_fs w)) as [[|u]|]; try (split; [reflexivity|]; auto; apply sees_set; eauto; fail).
    destruct (fs_get d (w_fs w)) as [[|u]|]; (split; [reflexivity|]); auto. apply sees_set; eauto.
  - destruct H as (m & ->). cbn [exec]. unfold fs_is_file. rewrite (G (d ++ [m])) by eauto. split; auto.
  - subst p. cbn [exec]. rewrite !FD, (G d) by auto. split; auto.
  - subst p. unfold d. rewrite !mkdir_there by assumption. fold d. rewrite (G d) by auto.
    destruct (fs_get d (w_fs w)) as [[|u]|]; (split; [reflexivity|]); auto. apply sees_set; auto.
  - destruct H as (m & ->). cbn [exec]. rewrite (G (d ++ [m])) by eauto. rewrite parent_snoc, !FD, (G d) by auto.
    destruct (fs_get (d ++ [m]) (w_fs w)) as [u|]; [split; auto|].
    destruct (fs_get d (w_fs w)) as [[|u]|]; (split; [reflexivity|]); auto. apply sees_set; eauto.
  - subst p. cbn [exec]. rewrite !FD, (G d), (proj2 S) by auto. destruct (fs_get d (w_fs w)) as [[|u]|]; split; auto.
  - destruct H as (m & ->). cbn [exec]. rewrite (G (d ++ [m])) by eauto. destruct (fs_get (d ++ [m]) (w_fs w)) as [[|u]|]; (split; [reflexivity|]); auto. apply sees_del; eauto.
  - subst p. cbn [exec]. rewrite (G d), (proj2 S) by auto. destruct (fs_get d (w_fs w)) as [[|u]|]; try (split; auto; fail).
    destruct (children d (w_fs w)); (split; [reflexivity|]); auto. apply sees_del; auto.
  - cbn [exec]. split; [reflexivity|]. exact S.
Qed.

(** ** what a command of somebody else changes *)
Definition effect (d : path) (w w' : world) : Prop :=
  (exists p e, own d p /\ w_fs w' = fs_set p e (w_fs w)) \/ (exists p, own d p /\ w_fs w' = fs_del p (w_fs w)) \/ w_fs w' = w_fs w.
Lemma at_home_effect dir m c w : at_home (dir ++ [m]) c -> dir_there dir w -> effect (dir ++ [m]) w (snd (exec c w)).
Proof.
  intros H T. set (d := dir ++ [m]) in *.
  assert (O : forall x, own d (d ++ [x])) by (intros x; right; exists [x]; split; [discriminate|reflexivity]).
  assert (OD : own d d) by (left; reflexivity).
  assert (ES : forall p e, own d p -> effect d w (with_fs w (fs_set p e (w_fs w)))) by (intros p e P; left; exists p, e; split; [exact P|reflexivity]).
  assert (ED : forall p, own d p -> effect d w (with_fs w (fs_del p (w_fs w)))) by (intros p P; right; left; exists p; split; [exact P|reflexivity]).
  assert (EN : effect d w w) by (right; right; reflexivity).
  destruct c as [p|p off t|p len|p|p|p|p|p|p|p|p|t|]; cbn [at_home] in H; try contradiction.
  - destruct H as (x & ->). cbn [exec]. destruct (fs_get (d ++ [x]) (w_fs w)) as [[|u]|]; exact EN.
  - destruct H as (x & ->). cbn [exec]. destruct (fs_get (d ++ [x]) (w_fs w)) as [[|u]|]; cbn [snd]; auto.
  - destruct H as (x & ->). cbn [exec]. destruct (fs_get (d ++ [x]) (w_fs w)) as [[|u]|]; cbn [snd]; auto.
  - destruct H as (x & ->). cbn [exec]. destruct (fs_get (d ++ [x]) (w_fs w)) as [[|u]|]; cbn [snd]; auto. destruct (fs_is_dir _ _); cbn [snd]; auto.
  - exact EN.
  - exact EN.
  - subst p. unfold d at 2. rewrite mkdir_there by exact T. fold d. destruct (fs_get d (w_fs w)) as [[|u]|]; cbn [snd]; auto.
  - destruct H as (x & ->). cbn [exec]. destruct (fs_get (d ++ [x]) (w_fs w)) as [u|]; cbn [snd]; auto. destruct (fs_is_dir _ _); cbn [snd]; auto.
  - cbn [exec]. destruct (fs_is_dir _ _); cbn [snd]; auto. destruct (fs_get _ _) as [[|u]|]; exact EN.
  - destruct H as (x & ->). cbn [exec]. destruct (fs_get (d ++ [x]) (w_fs w)) as [[|u]|]; cbn [snd]; auto.
  - subst p. cbn [exec]. destruct (fs_get d (w_fs w)) as [[|u]|]; cbn [snd]; auto. destruct (children d (w_fs w)); cbn [snd]; auto.
  - right. right. reflexivity.
Qed.
Lemma elsewhere dir n m p : n <> m -> own (dir ++ [m]) p -> ~ around (dir ++ [n]) p /\ (forall x, p <> (dir ++ [n]) ++ [x]) /\ ~ on_the_way dir p.
Proof.
  intros N O. assert (E : exists r, p = dir ++ m :: r).
  { destruct O as [-> |(q & _ & ->)]; [exists []; reflexivity|exists q; rewrite <- app_assoc; reflexivity]. }
  destruct E as (r & ->). split; [|split].
  - intros [(_ & q & E)|(q & _ & E)].
    + rewrite <- app_assoc in E. apply app_inv_head in E. cbn [app] in E. congruence.
    + rewrite <- app_assoc in E. apply app_inv_head in E. cbn [app] in E. congruence.
  - intros x E. rewrite <- app_assoc in E. apply app_inv_head in E. cbn [app] in E. congruence.
  - intros (_ & q & E). apply (f_equal (@List.length pystr)) in E. rewrite !app_length in E. cbn [List.length] in E. lia.
Qed.
Lemma other_sees dir n m c w v : n <> m -> at_home (dir ++ [m]) c -> dir_there dir w -> sees (dir ++ [n]) w v -> sees (dir ++ [n]) (snd (exec c w)) v.
Proof.
  intros N H T [S C]. destruct (at_home_effect dir m c w H T) as [(p & e & O & E)|[(p & O & E)|E]].
  - destruct (elsewhere dir n m p N O) as (A & B & _). split.
    + intros q Q. rewrite E, fs_get_set_other; [apply S; exact Q|]. intros ->. contradiction.
    + rewrite E, children_set by (left; exact B). exact C.
  - destruct (elsewhere dir n m p N O) as (A & B & _). split.
    + intros q Q. rewrite E, fs_get_del, path_eqb_neq; [apply S; exact Q|]. intros ->. contradiction.
    + rewrite E, children_del by exact B. exact C.
  - split; rewrite E; assumption.
Qed.
Lemma home_there dir m c w : at_home (dir ++ [m]) c -> dir_there dir w -> dir_there dir (snd (exec c w)).
Proof.
  intros H T x X. unfold entry_at.
  assert (NX : forall p, own (dir ++ [m]) p -> x <> p).
  { intros p O ->. assert (E : exists r, p = dir ++ m :: r) by (destruct O as [-> |(q & _ & ->)]; [exists []; reflexivity|exists q; rewrite <- app_assoc; reflexivity]).
    destruct E as (r & ->). destruct X as (_ & q & E). apply (f_equal (@List.length pystr)) in E. rewrite !app_length in E. cbn [List.length] in E. lia. }
  destruct (at_home_effect dir m c w H T) as [(p & e & O & E)|[(p & O & E)|E]]; rewrite E.
  - rewrite fs_get_set_other by (apply NX; exact O). exact (T x X).
  - rewrite fs_get_del, path_eqb_neq by (apply NX; exact O). exact (T x X).
  - exact (T x X).
Qed.
Lemma home_out dir m c w p : at_home (dir ++ [m]) c -> dir_there dir w -> ~ own (dir ++ [m]) p -> fs_get p (w_fs (snd (exec c w))) = fs_get p (w_fs w).
Proof.
  intros H T N. destruct (at_home_effect dir m c w H T) as [(q & e & O & E)|[(q & O & E)|E]]; rewrite E; [| |reflexivity].
  - apply fs_get_set_other. intros ->. contradiction.
  - rewrite fs_get_del, path_eqb_neq; [reflexivity|]. intros ->. contradiction.
Qed.

(** ** any number of programs, each at home in its own folder *)
Section Together.
  Context {A : Type} (dir : path).
  Theorem each_alone (ps : list (io A)) w tr ps' w' : together ps w tr ps' w' -> forall ns, NoDup ns ->
    (forall i m, nth_error ps i = Some m -> exists n, nth_error ns i = Some n /\ only (at_home (dir ++ [n])) m) -> dir_there dir w ->
    (forall p, (forall n, In n ns -> ~ own (dir ++ [n]) p) -> fs_get p (w_fs w') = fs_get p (w_fs w)) /\
    forall i m n v, nth_error ps i = Some m -> nth_error ns i = Some n -> sees (dir ++ [n]) w v ->
      (exists v', crash m v v' /\ sees (dir ++ [n]) w' v') /\
      (forall a, nth_error ps' i = Some (Ret a) -> fst (run m v) = Ok a /\ sees (dir ++ [n]) w' (snd (run m v))).
  Proof.
    induction 1 as [ps w|ps j c k w tr ps' w' E H IH]; intros ns ND HO T.
    - split; [reflexivity|]. intros i m n v Hm Hn S. split; [exists v; split; [constructor|exact S]|].
      intros a Ha. rewrite Hm in Ha. injection Ha as ->. split; [reflexivity|exact S].
    - destruct (HO j _ E) as (nj & Ej & Oj). inversion Oj as [| |c' k' Hc Hk]; subst.
      destruct (IH ns ND) as [IH1 IH2].
      { intros i m Hm. destruct (Nat.eq_dec i j) as [-> |Nij].
        - rewrite (replaced_same j _ _ ps E) in Hm. injection Hm as <-. exists nj. split; [exact Ej|apply Hk].
        - rewrite (replaced_other j i _ _ ps E Nij) in Hm. exact (HO i m Hm). }
      { exact (home_there dir nj c w Hc T). }
      split.
      + intros p Np. rewrite (IH1 p Np). apply (home_out dir nj c w p Hc T). apply Np. eapply nth_error_In. exact Ej.
      + intros i m n v Hm Hn S. destruct (Nat.eq_dec i j) as [-> |Nij].
        * rewrite E in Hm. injection Hm as <-. rewrite Ej in Hn. injection Hn as <-.
          destruct (at_home_same dir nj c w v Hc T S) as [E1 S1].
          destruct (IH2 j (k (fst (exec c w))) nj (snd (exec c v)) (replaced_same j _ _ ps E) Ej S1) as [(v' & C & SV) R].
          split.
          -- exists v'. split; [|exact SV]. apply crash_later. rewrite E1. exact C.
          -- intros a Ha. destruct (R a Ha) as [R1 R2]. cbn [run]. destruct (exec c v) as [r1 v1]. cbn [fst snd] in *. subst r1. split; assumption.
        * assert (NN : n <> nj).
          { intros ->. apply Nij. rewrite NoDup_nth_error in ND. apply ND; [apply nth_error_Some; congruence|congruence]. }
          apply (IH2 i m n v).
          -- rewrite (replaced_other j i _ _ ps E Nij). exact Hm.
          -- exact Hn.
          -- apply (other_sees dir n nj c w v NN Hc T S).
  Qed.
End Together.
