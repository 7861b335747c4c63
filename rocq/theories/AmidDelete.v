(** * AmidDelete: deleting a graph while other things happen (C78) *)
From Verif Require Import PyBase BaseFacts Json FS FSFacts Store Query SpecStore SpecShell SpecGdbms SpecAmid Confine GdbmsFacts AmidFacts AmidMore Gdbms.

Lemma amid_bind {A B} (R : world -> world -> Prop) (m : io A) (f : A -> io B) : forall w r w', amid R (io_bind m f) w r w' ->
  (exists a w1, amid (fun x y => R x y \/ x = y) m w (Ok a) w1 /\ amid R (f a) w1 r w') \/
  (exists e, r = Err e /\ amid R m w (Err e) w').
Proof.
  induction m as [a|e|c k IH]; intros w r w' D; cbn [io_bind] in D.
  - left. exists a, w. split; [constructor; auto|exact D].
  - right. exists e. inversion D; subst. split; [reflexivity|constructor; assumption].
  - inversion D as [| |c' k' w0 w1 r' w0' HW D']; subst. destruct (IH _ _ _ _ D') as [(a & w2 & D1 & D2)|(e & -> & D1)].
    + left. exists a, w2. split; [econstructor; [left; exact HW|exact D1]|exact D2].
    + right. exists e. split; [reflexivity|]. econstructor; [exact HW|exact D1].
Qed.
Lemma amid_mono {A} (R S : world -> world -> Prop) (m : io A) w r w' : (forall x y, R x y -> S x y) -> amid R m w r w' -> amid S m w r w'.
Proof. intros H D. induction D; econstructor; eauto. Qed.
(** one command *)
Lemma amid_unit R c w r w' : amid R (do_unit c) w r w' -> exists v, R w v /\ R (snd (exec c v)) w' /\
  r = match fst (exec c v) with RErr e => Err e | _ => Ok tt end.
Proof.
  intros D. inversion D as [| |c' k' w0 v r' w0' HW D']; subst. exists v. split; [exact HW|].
  destruct (fst (exec c v)); inversion D'; subst; auto.
Qed.
Lemma glob_dirs_ret p : forall pre, Forall no_wildcard p -> glob_dirs false [pre] p = Ret [pre ++ p].
Proof.
  induction p as [|c p IH]; intros pre H; cbn [glob_dirs]; [rewrite app_nil_r; reflexivity|]. inversion H; subst.
  rewrite no_magic by assumption. cbn [map]. rewrite IH by assumption. rewrite <- app_assoc. reflexivity.
Qed.

Section Deletion.
  Context (d : path) (NE : d <> []).
  Definition R := orderly d.
  Definition R' (x y : world) : Prop := R x y \/ x = y.
  Lemma keep x y p : R' x y -> around d p -> fs_get p (w_fs y) = fs_get p (w_fs x).
  Proof. intros [[L _]| ->] A; [exact (L p A)|reflexivity]. Qed.
  (** the folder holds exactly the files [l] *)
  Definition holds (l : list path) (w : world) : Prop :=
    entry_at d w = Some EDir /\ (forall p, In p l -> exists t, entry_at p w = Some (EFile t)) /\
    (forall p, In p l -> exists m, p = d ++ [m]) /\ (forall p, inside d p -> ~ In p l -> entry_at p w = None).
  Lemma holds_keep l x y : holds l x -> R' x y -> holds l y.
  Proof.
    intros (A & B & C & D) K. assert (IN : forall p, In p l -> around d p) by (intros p I; destruct (C p I) as (m & ->); apply below_around).
    unfold holds, entry_at in *. split; [rewrite (keep x y) by (assumption || apply self_around; exact NE); exact A|]. split; [|split; [exact C|]].
    - intros p I. rewrite (keep x y p K (IN p I)). exact (B p I).
    - intros p I N. rewrite (keep x y p K (or_intror I)). exact (D p I N).
  Qed.
  Lemma removed l : forall w r w1, NoDup l -> holds l w -> amid R' (remove_all l) w r w1 -> r = Ok tt /\ holds [] w1.
  Proof.
    induction l as [|p l IH]; intros w r w1 ND H D; cbn [remove_all] in D.
    - inversion D; subst. split; [reflexivity|]. eapply holds_keep; eassumption.
    - destruct (amid_bind _ _ _ _ _ _ D) as [([] & w2 & D1 & D2)|(e & -> & D1)].
      + destruct (amid_unit _ _ _ _ _ D1) as (v & K1 & K2 & E).
        assert (K1' : R' w v) by (destruct K1 as [[X|X]|X]; [left; exact X|right; exact X|right; exact X]).
        assert (K2' : R' (snd (exec (CUnlink p) v)) w2) by (destruct K2 as [[X|X]|X]; [left; exact X|right; exact X|right; exact X]).
        pose proof (holds_keep _ _ _ H K1') as H1. destruct H1 as (A & B & C & F). destruct (B p (or_introl eq_refl)) as (t & T). unfold entry_at in T.
        inversion ND as [|? ? N1 N2]; subst.
        assert (H2 : holds l (snd (exec (CUnlink p) v))).
        { cbn [exec]. rewrite T. cbn [snd with_fs]. unfold holds, entry_at in *. cbn [with_fs w_fs]. destruct (C p (or_introl eq_refl)) as (m & EM).
          split; [rewrite fs_get_del, path_eqb_neq; [exact A|]; intros X; rewrite EM in X; apply (f_equal (@List.length pystr)) in X; rewrite app_length in X; cbn [List.length] in X; lia|].
          split; [intros q Q; rewrite fs_get_del, path_eqb_neq by (intros ->; contradiction); apply B; right; exact Q|].
          split; [intros q Q; apply C; right; exact Q|]. intros q Q NQ. rewrite fs_get_del. destruct (path_eqb q p) eqn:X; [reflexivity|]. apply F; [exact Q|].
          intros [Y|Y]; [|contradiction]. subst q. rewrite path_eqb_refl in X. discriminate. }
        eapply IH; [exact N2|exact (holds_keep _ _ _ H2 K2')|exact D2].
      + exfalso. destruct (amid_unit _ _ _ _ _ D1) as (v & K1 & K2 & E).
        destruct (holds_keep _ _ _ H K1) as (A & B & C & F). destruct (B p (or_introl eq_refl)) as (t & T). unfold entry_at in T. cbn [exec] in E. rewrite T in E. discriminate E.
  Qed.
End Deletion.
Theorem deletion_undisturbed n dir w r w' : plain n -> Forall no_wildcard (dir ++ [n]) -> entry_at (dir ++ [n]) w = Some EDir ->
  (forall m e, entry_at (dir ++ [n; m]) w = Some e -> visible m /\ exists t, e = EFile t) ->
  amid (orderly (dir ++ [n])) (delete_gdbms n dir) w r w' ->
  r = Ok 0%Z /\ forall p, own (dir ++ [n]) p -> entry_at p w' = None.
Proof.
  intros P NW HD HF DD. unfold delete_gdbms in DD. rewrite joinpath_slash in DD by exact P. set (d := dir ++ [n]) in *.
  assert (NE : d <> []) by apply snoc_nonempty.
  assert (EQ : forall m, dir ++ [n; m] = d ++ [m]) by (intros m; unfold d; rewrite <- app_assoc; reflexivity).
  (* is_dir *)
  destruct (amid_bind _ _ _ _ _ _ DD) as [(b & w1 & D1 & D2)|(e & -> & D1)].
  2:{ exfalso. inversion D1 as [| |c' k' w0 v r' w0' HW D']; subst. cbn [exec fst snd] in D'. inversion D'. }
  assert (X1 : b = true /\ R' d w w1).
  { inversion D1 as [| |c' k' w0 v r' w0' HW D']; subst. cbn [exec fst snd] in D'. inversion D' as [a y y' HW2| |]; subst.
    assert (K : R' d w v) by exact HW. split.
    - assert (HV : entry_at d v = Some EDir) by (unfold entry_at; rewrite (keep d w v d K (self_around d NE)); exact HD).
      exact (proj2 (fs_is_dir_spec d v) (or_intror HV)).
    - destruct HW as [[L1 A1]| ->]; destruct HW2 as [[L2 A2]| ->]; [left; split; [eapply leaves_folder_trans; eassumption|exact A2]|left; split; assumption|left; split; assumption|right; reflexivity]. }
  destruct X1 as [-> K1]. cbn [negb] in D2. clear D1 DD.
  (* glob *)
  unfold glob_star in D2. rewrite glob_dirs_ret in D2 by exact NW. cbn [io_bind app concat_io] in D2. unfold glob1, list_or_empty in D2. cbn [do_names io_catch io_bind] in D2.
  inversion D2 as [| |c' k' w0 v r' w0' HW D3]; subst. clear D2. cbn [exec] in D3.
  assert (K2 : R' d w v).
  { destruct HW as [L2 A2]. destruct K1 as [[L1 A1]| ->]; [left; split; [eapply leaves_folder_trans; eassumption|exact A2]|left; split; assumption]. }
  destruct HW as [_ DV].
  assert (HV : entry_at d v = Some EDir) by (unfold entry_at; rewrite (keep d w v d K2 (self_around d NE)); exact HD).
  rewrite (proj2 (fs_is_dir_spec d v) (or_intror HV)) in D3. cbn [fst snd io_catch io_bind] in D3.
  match type of D3 with amid _ (io_bind (remove_all ?x) _) _ _ _ => set (l := x) in D3 end.
  assert (HF' : forall m e, entry_at (d ++ [m]) v = Some e -> visible m /\ exists t, e = EFile t).
  { intros m e E. unfold entry_at in E. rewrite (keep d w v _ K2 (below_around d m)) in E. apply HF. rewrite EQ. exact E. }
  assert (HC : forall m, In m (children d (w_fs v)) <-> exists e, entry_at (d ++ [m]) v = Some e) by (intros m; apply children_spec, DV).
  assert (LIN : forall p, In p l <-> exists m, In m (children d (w_fs v)) /\ p = d ++ [m]).
  { intros p. unfold l. rewrite app_nil_r, in_map_iff. split.
    - intros (m & <- & I). apply filter_In in I as [I _]. eauto.
    - intros (m & I & ->). exists m. split; [reflexivity|]. apply filter_In. split; [exact I|]. apply HC in I as (e & E). destruct (HF' m e E) as [V _].
      rewrite fnmatch_star, (is_hidden_visible m V). reflexivity. }
  assert (NL : NoDup l).
  { unfold l. rewrite app_nil_r. apply FinFun.Injective_map_NoDup; [|apply NoDup_filter, children_nodup, DV]. intros a b E. apply app_inv_head in E. congruence. }
  assert (HL : holds d l v).
  { split; [exact HV|]. split; [|split].
    - intros p I. apply LIN in I as (m & I & ->). apply HC in I as (e & E). destruct (HF' m e E) as (_ & t & ->). eauto.
    - intros p I. apply LIN in I as (m & _ & ->). eauto.
    - intros p (q & Nq & ->) NI. destruct q as [|m q]; [congruence|].
      destruct (entry_at (d ++ m :: q) v) as [e|] eqn:E; [|reflexivity]. exfalso. destruct q as [|m' q].
      + apply NI, LIN. exists m. split; [|reflexivity]. apply HC. eauto.
      + assert (Dm : entry_at (d ++ [m]) v = Some EDir).
        { eapply (disk_tree v DV); [exact E| |].
          - split; [apply snoc_nonempty|]. exists (m' :: q). rewrite <- app_assoc. reflexivity.
          - intros X. apply app_inv_head in X. discriminate. }
        destruct (HF' m EDir Dm) as (_ & t & X). discriminate. }
  clearbody l.
  (* remove, rmdir *)
  destruct (amid_bind _ _ _ _ _ _ D3) as [([] & w2 & D4 & D5)|(e & -> & D4)].
  2:{ exfalso. assert (D4' : amid (R' d) (remove_all l) v (Err e) w') by (eapply amid_mono; [|exact D4]; intros x y H; left; exact H).
      destruct (removed d NE l v _ w' NL HL D4') as [X _]. discriminate. }
  assert (D4' : amid (R' d) (remove_all l) v (Ok tt) w2) by exact D4.
  destruct (removed d NE l v _ w2 NL HL D4') as [_ H2]. clear D4 D4' D3.
  change (amid (orderly d) (let! _ := do_unit (CRmdir d) in Ret 0%Z) w2 r w') in D5.
  destruct (amid_bind _ _ _ _ _ _ D5) as [([] & w3 & D6 & D7)|(e & -> & D6)].
  - destruct (amid_unit _ _ _ _ _ D6) as (u & K3 & K4 & E). destruct (holds_keep d NE _ _ _ H2 K3) as (A & _ & _ & F).
    assert (CE : forall m, entry_at (d ++ [m]) u = None) by (intros m; apply F; [apply below_inside|intros []]).
    assert (GONE : forall p, own d p -> entry_at p (snd (exec (CRmdir d) u)) = None).
    { cbn [exec] in *. unfold entry_at in A. rewrite A in *. destruct (children d (w_fs u)) as [|m ms] eqn:CH; [|discriminate E].
      intros p O. unfold entry_at. cbn [snd with_fs w_fs]. rewrite fs_get_del. destruct (path_eqb p d) eqn:X; [reflexivity|].
      destruct O as [->|I]; [rewrite path_eqb_refl in X; discriminate|]. apply F; [exact I|intros []]. }
    inversion D7 as [a y y' HW| |]; subst. split; [reflexivity|]. intros p O.
    assert (AP : around d p) by (destruct O as [->|I]; [apply self_around; exact NE|right; exact I]).
    destruct HW as [L _]. rewrite (L p AP). unfold entry_at. rewrite (keep d _ _ p K4 AP). exact (GONE p O).
  - exfalso. destruct (amid_unit _ _ _ _ _ D6) as (u & K3 & K4 & E). destruct (holds_keep d NE _ _ _ H2 (or_introl K3)) as (A & _ & _ & F).
    destruct K3 as [_ DU]. cbn [exec] in E. unfold entry_at in A. rewrite A in E. destruct (children d (w_fs u)) as [|m ms] eqn:CH; [discriminate E|].
    assert (Hm : In m (children d (w_fs u))) by (rewrite CH; left; reflexivity). apply children_spec in Hm as (x & Hx); [|apply DU].
    specialize (F (d ++ [m]) (below_inside d m) (fun z => z)). unfold entry_at in F. congruence.
Qed.
