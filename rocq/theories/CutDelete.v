(** * CutDelete: the deletion of a graph that is cut off (C79) *)
From Verif Require Import PyBase FS FSFacts Store Gdbms SpecGdbms GdbmsFacts DurableFacts SpecAmid SpecCut CutFacts.

Lemma ro_bind {A B} (m : io A) (f : A -> io B) : reads_only m -> (forall a, reads_only (f a)) -> reads_only (io_bind m f).
Proof. intros H HF. induction H as [a|e|c k Hc Hk IH]; cbn [io_bind]; [apply HF|constructor|constructor; [exact Hc|exact IH]]. Qed.
Lemma ro_catch {A} (m : io A) h : reads_only m -> (forall e m', h e = Some m' -> reads_only m') -> reads_only (io_catch m h).
Proof. intros H HF. induction H as [a|e|c k Hc Hk IH]; cbn [io_catch]; [constructor|destruct (h e) eqn:E; [eapply HF; exact E|constructor]|constructor; [exact Hc|exact IH]]. Qed.
Lemma ro_bool p : reads_only (do_bool (CIsDir p)) /\ reads_only (do_bool (CIsFile p)).
Proof. split; (constructor; [exact I|intros []; constructor]). Qed.
Lemma ro_glob1 d pat : reads_only (glob1 d pat).
Proof.
  unfold glob1. apply ro_bind; [|intros; constructor]. unfold list_or_empty. apply ro_catch; [constructor; [exact I|intros []; constructor]|].
  intros e m' E. injection E as <-. constructor.
Qed.
Lemma ro_concat {A B} (f : A -> io (list B)) l : (forall a, reads_only (f a)) -> reads_only (concat_io f l).
Proof. intros H. induction l as [|x l IH]; cbn [concat_io]; [constructor|]. apply ro_bind; [apply H|]. intros a. apply ro_bind; [exact IH|]. intros b. constructor. Qed.
Lemma ro_filter {A} (f : A -> io bool) l : (forall a, reads_only (f a)) -> reads_only (filter_io f l).
Proof.
  intros H. induction l as [|x l IH]; cbn [filter_io]; [constructor|]. apply ro_bind; [apply H|]. intros b. apply ro_bind; [exact IH|]. intros r. destruct b; constructor.
Qed.
Lemma ro_dirs comps : forall magic dirs, reads_only (glob_dirs magic dirs comps).
Proof.
  induction comps as [|c comps IH]; intros magic dirs; cbn [glob_dirs]; [constructor|]. destruct (has_magic c).
  - apply ro_bind; [apply ro_concat; intros; apply ro_glob1|]. intros l. apply ro_bind; [apply ro_filter; intros; apply ro_bool|]. intros l'. apply IH.
  - destruct magic; [|apply IH]. apply ro_bind; [|intros; apply IH]. apply ro_filter. intros a. apply ro_bind; [apply ro_bool|]. intros b. apply ro_bind; [apply ro_bool|]. intros. constructor.
Qed.
Lemma ro_star p : reads_only (glob_star p).
Proof. unfold glob_star. apply ro_bind; [apply ro_dirs|]. intros l. apply ro_concat. intros a. apply ro_glob1. Qed.

Lemma nodup_left {A} (a b : list A) : NoDup (a ++ b) -> NoDup a.
Proof.
  induction a as [|x a IH]; cbn [app]; intros H; [constructor|]. inversion H as [|? ? N1 N2]; subst. constructor; [|apply IH; exact N2].
  intros I. apply N1. apply in_or_app. left. exact I.
Qed.
Lemma crash_remove l : forall w v, NoDup l -> (forall p, In p l -> exists t, entry_at p w = Some (EFile t)) -> crash (remove_all l) w v ->
  exists l1 l2, l = l1 ++ l2 /\ v = snd (run (remove_all l1) w).
Proof.
  induction l as [|q l IH]; intros w v ND HF C; cbn [remove_all] in C.
  - apply crash_ret in C. subst v. exists [], []. auto.
  - inversion ND as [|? ? N1 N2]; subst. destruct (HF q (or_introl eq_refl)) as (t & Ht). unfold entry_at in Ht.
    cbn [do_unit io_bind] in C. apply crash_do_inv in C as [->|[(p & off & u & t1 & t2 & E & _)|C]]; [exists [], (q :: l); auto|discriminate|].
    cbn [exec] in C. rewrite Ht in C. cbn [fst snd io_bind] in C. apply IH in C.
    + destruct C as (l1 & l2 & -> & ->). exists (q :: l1), l2. split; [reflexivity|]. cbn [remove_all do_unit io_bind run exec]. rewrite Ht. reflexivity.
    + exact N2.
    + intros p Hp. unfold entry_at. cbn [with_fs w_fs]. rewrite fs_get_del, path_eqb_neq by (intros ->; contradiction). apply HF. right. exact Hp.
Qed.

Theorem deletion_cut n dir w v : plain n -> disk w -> Forall no_wildcard (dir ++ [n]) -> entry_at (dir ++ [n]) w = Some EDir ->
  (forall m e, entry_at (dir ++ [n; m]) w = Some e -> visible m /\ exists t, e = EFile t) ->
  crash (delete_gdbms n dir) w v ->
  disk v /\ (forall p, ~ own (dir ++ [n]) p -> entry_at p v = entry_at p w) /\
  ((forall p, own (dir ++ [n]) p -> entry_at p v = None) \/
   (entry_at (dir ++ [n]) v = Some EDir /\ (forall p, inside (dir ++ [n]) p -> entry_at p v = entry_at p w \/ entry_at p v = None) /\
    exists v', run (delete_gdbms n dir) v = (Ok 0%Z, v') /\ (forall p, own (dir ++ [n]) p -> entry_at p v' = None) /\
      (forall p, ~ own (dir ++ [n]) p -> entry_at p v' = entry_at p w))).
Proof.
  intros P D NW HD HF C.
  destruct (delete_graph n dir w P D NW HD HF) as (w' & RW & DW & _ & _ & F1 & F2 & F3).
  set (d := dir ++ [n]) in *.
  assert (HC : forall m, In m (children d (w_fs w)) <-> exists e, entry_at (d ++ [m]) w = Some e) by (intros m; apply children_spec, D).
  assert (EQ : forall m, dir ++ [n; m] = d ++ [m]) by (intros m; unfold d; rewrite <- app_assoc; reflexivity).
  assert (HF' : forall m, In m (children d (w_fs w)) -> visible m /\ exists t, entry_at (d ++ [m]) w = Some (EFile t)).
  { intros m Hm. apply HC in Hm as (e & He). destruct (HF m e) as (V & t & ->); [rewrite EQ; exact He|]. eauto. }
  set (l := map (fun m => d ++ [m]) (children d (w_fs w))).
  assert (NL : NoDup l).
  { unfold l. apply FinFun.Injective_map_NoDup; [|apply children_nodup, D]. intros a b E. apply app_inv_head in E. congruence. }
  assert (FL : forall p, In p l -> exists t, entry_at p w = Some (EFile t)) by (intros p Hp; apply in_map_iff in Hp as (m & <- & Hm); apply HF'; exact Hm).
  (* some of the files are gone *)
  assert (SOME : forall l1 l2, l = l1 ++ l2 -> v = snd (run (remove_all l1) w) -> disk v /\ (forall p, ~ own d p -> entry_at p v = entry_at p w) /\
    entry_at d v = Some EDir /\ (forall p, entry_at p v = entry_at p w \/ entry_at p v = None)).
  { intros l1 l2 E ->. destruct (remove_all_run l1 w) as (f' & R & A & B & CC).
    - rewrite E in NL. apply nodup_left in NL. exact NL.
    - intros p Hp. apply FL. rewrite E. apply in_or_app. left. exact Hp.
    - apply D.
    - rewrite R. cbn [snd].
      assert (IN : forall p, In p l1 -> exists t, entry_at p w = Some (EFile t)) by (intros p Hp; apply FL; rewrite E; apply in_or_app; left; exact Hp).
      assert (G : forall p, entry_at p (with_fs w f') = entry_at p w \/ (In p l1 /\ entry_at p (with_fs w f') = None)).
      { intros p. unfold entry_at. cbn [with_fs w_fs]. destruct (in_dec path_eq_dec p l1) as [I|I]; [right; split; [exact I|apply B; exact I]|left; apply CC; exact I]. }
      assert (DIR : forall p, entry_at p w = Some EDir -> entry_at p (with_fs w f') = Some EDir).
      { intros p Hp. destruct (G p) as [->|[I _]]; [exact Hp|]. destruct (IN p I) as (t & X). rewrite X in Hp. discriminate. }
      split; [|split; [|split]].
      + constructor.
        * exact A.
        * intros p x e Hp Hx Nx. apply DIR. destruct (G p) as [X|[_ X]]; rewrite X in Hp; [|discriminate]. eapply (disk_tree w D); eassumption.
        * destruct (G []) as [X|[_ X]]; rewrite X; [apply D|reflexivity].
      + intros p Np. destruct (G p) as [X|[I _]]; [exact X|]. exfalso. apply Np. assert (J : In p l) by (rewrite E; apply in_or_app; left; exact I).
        apply in_map_iff in J as (m & <- & _). right. exists [m]. split; [discriminate|reflexivity].
      + apply DIR. exact HD.
      + intros p. destruct (G p) as [X|[_ X]]; auto. }
  assert (HALF : (exists l1 l2, l = l1 ++ l2 /\ v = snd (run (remove_all l1) w)) ->
     disk v /\ (forall p, ~ own d p -> entry_at p v = entry_at p w) /\
     ((forall p, own d p -> entry_at p v = None) \/
      (entry_at d v = Some EDir /\ (forall p, inside d p -> entry_at p v = entry_at p w \/ entry_at p v = None) /\
       exists v', run (delete_gdbms n dir) v = (Ok 0%Z, v') /\ (forall p, own d p -> entry_at p v' = None) /\ (forall p, ~ own d p -> entry_at p v' = entry_at p w)))).
  { intros (l1 & l2 & E & EV). destruct (SOME l1 l2 E EV) as (DV & S1 & S2 & S3). split; [exact DV|]. split; [exact S1|]. right. split; [exact S2|]. split; [intros p _; apply S3|].
    destruct (delete_graph n dir v P DV NW S2) as (v' & R & _ & _ & _ & K1 & K2 & K3).
    - intros m e He. destruct (S3 (dir ++ [n; m])) as [X|X]; rewrite X in He; [|discriminate]. eapply HF. exact He.
    - exists v'. split; [exact R|]. split; [intros p [-> |Hp]; [exact K1|apply K2; exact Hp]|].
      intros p Np. rewrite K3; [apply S1; exact Np| |]; intros X; apply Np; [left|right]; exact X. }
  assert (DONE : v = w' ->
     disk v /\ (forall p, ~ own d p -> entry_at p v = entry_at p w) /\
     ((forall p, own d p -> entry_at p v = None) \/
      (entry_at d v = Some EDir /\ (forall p, inside d p -> entry_at p v = entry_at p w \/ entry_at p v = None) /\
       exists v', run (delete_gdbms n dir) v = (Ok 0%Z, v') /\ (forall p, own d p -> entry_at p v' = None) /\ (forall p, ~ own d p -> entry_at p v' = entry_at p w)))).
  { intros ->. split; [exact DW|]. split; [intros p Np; apply F3; intros X; apply Np; [left|right]; exact X|]. left. intros p [-> |Hp]; [exact F1|apply F2; exact Hp]. }
  assert (START : v = w -> exists l1 l2, l = l1 ++ l2 /\ v = snd (run (remove_all l1) w)) by (intros ->; exists [], l; auto).
  unfold delete_gdbms in C, RW. rewrite joinpath_slash in C, RW by exact P. fold d in C, RW.
  apply crash_bind in C as [C|(b & w1 & R1 & C)]; [apply crash_reads in C; [|apply ro_bool]; apply HALF, START; exact C|].
  assert (RB : run (do_bool (CIsDir d)) w = (Ok true, w)) by (cbn [do_bool run exec]; rewrite (proj2 (fs_is_dir_spec d w) (or_intror HD)); reflexivity).
  rewrite RB in R1. injection R1 as <- <-. rewrite run_bind, RB in RW. cbv beta iota in RW. cbn [negb] in RW, C.
  apply crash_bind in C as [C|(fs & w1 & R1 & C)]; [apply crash_reads in C; [|apply ro_star]; apply HALF, START; exact C|].
  rewrite glob_star_run in R1; [|exact NW|right; exact HD|intros m Hm; apply HF'; exact Hm]. fold l in R1. injection R1 as <- <-.
  rewrite run_bind, glob_star_run in RW; [|exact NW|right; exact HD|intros m Hm; apply HF'; exact Hm]. fold l in RW. cbv beta iota in RW.
  apply crash_bind in C as [C|(u & w1 & R1 & C)]; [apply crash_remove in C; [apply HALF; exact C|exact NL|exact FL]|].
  rewrite run_bind, R1 in RW.
  assert (V1 : v = w1 -> exists l1 l2, l = l1 ++ l2 /\ v = snd (run (remove_all l1) w)) by (intros ->; exists l, []; rewrite app_nil_r, R1; auto).
  cbn [do_unit io_bind] in C, RW. apply crash_do_inv in C as [C|[(p & off & t & t1 & t2 & E & _)|C]]; [apply HALF, V1; exact C|discriminate|].
  cbn [run] in RW. destruct (exec (CRmdir d) w1) as [r w2]. cbn [fst snd] in C.
  destruct r; cbn [io_bind run] in RW, C; try discriminate RW; apply crash_ret in C; apply DONE; congruence.
Qed.
