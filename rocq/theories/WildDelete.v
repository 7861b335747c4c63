(** * WildDelete: deleting graphs whose names have wild cards (C81) *)
From Verif Require Import PyBase BaseFacts FS FSFacts Store Gdbms SpecGdbms GdbmsFacts SpecWild WildFacts.

Lemma concat_run {A B} (f : A -> io (list B)) g l w : (forall a, In a l -> run (f a) w = (Ok (g a), w)) -> run (concat_io f l) w = (Ok (flat_map g l), w).
Proof.
  induction l as [|x l IH]; intros H; cbn [concat_io flat_map]; [reflexivity|]. rewrite run_bind, H by (left; reflexivity). rewrite run_bind, IH by (intros a I; apply H; right; exact I). reflexivity.
Qed.
Definition shown (pat : pystr) (names : list pystr) : list pystr := List.filter (fun n => (is_hidden pat || negb (is_hidden n)) && fnmatch pat n) names.
Lemma glob1_run d pat w : is_a_dir d w -> run (glob1 d pat) w = (Ok (map (fun n => d ++ [n]) (shown pat (children d (w_fs w)))), w).
Proof.
  intros D. unfold glob1. rewrite run_bind. unfold list_or_empty. rewrite run_catch. cbn [do_names run exec]. rewrite (proj2 (fs_is_dir_spec d w) D). reflexivity.
Qed.
Lemma hidden_spec n : is_hidden n = false <-> visible n.
Proof.
  split; [|apply is_hidden_visible]. intros H r ->. discriminate H.
Qed.
Lemma shown_star l m : In m (shown [42%N] l) <-> In m l /\ visible m.
Proof.
  unfold shown. rewrite filter_In, fnmatch_star. change (is_hidden [42%N]) with false. cbn [orb]. rewrite andb_true_r, negb_true_iff, hidden_spec. reflexivity.
Qed.
Lemma shown_strikes n l m : In m (shown n l) <-> In m l /\ strikes n m.
Proof.
  unfold shown, strikes. rewrite filter_In, andb_true_iff, orb_true_iff, negb_true_iff, fnmatch_fits, hidden_spec.
  rewrite <- (hidden_spec n). destruct (is_hidden n); intuition congruence.
Qed.
Lemma plain_fits n m : no_wildcard n -> fits n m <-> m = n.
Proof.
  revert m. induction n as [|c n IH]; intros m W.
  - split; [inversion 1; reflexivity|intros ->; constructor].
  - destruct (W c (or_introl eq_refl)) as (W1 & W2 & W3). assert (W' : no_wildcard n) by (intros x X; apply W; right; exact X). split.
    + inversion 1; subst; try congruence. f_equal. apply IH; assumption.
    + intros ->. apply fits_itself; try assumption. apply IH; [exact W'|reflexivity].
Qed.
Lemma magic_or n : has_magic n = true \/ has_magic n = false /\ no_wildcard n.
Proof.
  destruct (has_magic n) eqn:E; [left; reflexivity|right]. split; [reflexivity|]. intros c I. unfold has_magic in E. rewrite <- not_true_iff_false, existsb_exists in E.
  repeat split; intros ->; apply E; eexists; (split; [exact I|reflexivity]).
Qed.
Lemma glob_dirs_last p n : forall pre, Forall no_wildcard p -> glob_dirs false [pre] (p ++ [n]) = glob_dirs false [pre ++ p] [n].
Proof.
  induction p as [|c p IH]; intros pre H; [rewrite app_nil_r; reflexivity|]. inversion H; subst. cbn [app]. cbn [glob_dirs]. rewrite no_magic by assumption. cbn [map].
  change (glob_dirs false [pre ++ [c]] (p ++ [n]) = glob_dirs false [pre ++ c :: p] [n]). rewrite IH by assumption. rewrite <- app_assoc. reflexivity.
Qed.
(** the folders that are struck *)
Lemma folders_run dir n w : disk w -> Forall no_wildcard dir -> is_a_dir dir w -> entry_at (dir ++ [n]) w = Some EDir ->
  exists ms, run (glob_dirs false [[]] (dir ++ [n])) w = (Ok (map (fun m => dir ++ [m]) ms), w) /\ NoDup ms /\
    forall m, In m ms <-> strikes n m /\ entry_at (dir ++ [m]) w = Some EDir.
Proof.
  intros D NW HD HN. rewrite glob_dirs_last by exact NW. cbn [app]. destruct (magic_or n) as [M|[M W]].
  - cbn [glob_dirs]. rewrite M, run_bind. cbn [concat_io]. rewrite run_bind, glob1_run by exact HD. rewrite run_bind. cbn [run]. rewrite app_nil_r.
    rewrite run_bind, (filter_io_pure _ (fun p => fs_is_dir p (w_fs w))) by reflexivity. cbn [run].
    exists (List.filter (fun m => fs_is_dir (dir ++ [m]) (w_fs w)) (shown n (children dir (w_fs w)))). split; [|split].
    + f_equal. f_equal. induction (shown n (children dir (w_fs w))) as [|x l IH]; [reflexivity|]. cbn [map List.filter].
      destruct (fs_is_dir (dir ++ [x]) (w_fs w)); cbn [map]; rewrite IH; reflexivity.
    + apply NoDup_filter, NoDup_filter, children_nodup, D.
    + intros m. rewrite filter_In, shown_strikes, children_spec, fs_is_dir_spec by apply D. unfold is_a_dir. split.
      * intros [[_ S] [X|X]]; [destruct dir; discriminate X|]. split; assumption.
      * intros [S X]. split; [split; [exists EDir; exact X|exact S]|right; exact X].
  - cbn [glob_dirs]. rewrite M. cbn [map run]. exists [n]. split; [reflexivity|]. split; [constructor; [intros []|constructor]|].
    intros m. unfold strikes. rewrite (plain_fits n m W). split.
    + intros [<-|[]]. split; [|exact HN]. split; [reflexivity|]. destruct (is_hidden n) eqn:H; [right|left; apply hidden_spec; exact H].
      intros V. apply hidden_spec in V. congruence.
    + intros [[-> _] _]. left. reflexivity.
Qed.
Lemma nodup_parts (dir : path) (k : pystr -> list pystr) ms : NoDup ms -> (forall m, NoDup (k m)) ->
  NoDup (flat_map (fun m => map (fun x => (dir ++ [m]) ++ [x]) (k m)) ms).
Proof.
  intros N K. induction N as [|m ms NI N IH]; cbn [flat_map]; [constructor|].
  assert (H : NoDup (map (fun x => (dir ++ [m]) ++ [x]) (k m))).
  { apply FinFun.Injective_map_NoDup; [|apply K]. intros a b E. apply app_inv_head in E. injection E as E. exact E. }
  assert (Q : forall p, In p (map (fun x => (dir ++ [m]) ++ [x]) (k m)) -> exists x, p = (dir ++ [m]) ++ [x]) by (intros p I; apply in_map_iff in I as (x & <- & _); eauto).
  revert H Q. generalize (map (fun x => (dir ++ [m]) ++ [x]) (k m)). intros l H Q. induction H as [|p l P H IHl]; cbn [app]; [exact IH|].
  constructor; [|apply IHl; intros q I; apply Q; right; exact I]. rewrite in_app_iff. intros [I|I]; [contradiction|].
  apply in_flat_map in I as (m' & M & I). apply in_map_iff in I as (y & E & _). destruct (Q p (or_introl eq_refl)) as (x & ->).
  apply app_inj_tail in E as [E _]. apply app_inj_tail in E as [_ E]. subst m'. contradiction.
Qed.
Theorem delete_wild n dir w : plain n -> disk w -> Forall no_wildcard dir -> entry_at (dir ++ [n]) w = Some EDir ->
  (forall p, struck dir n w p -> entry_at p w <> Some EDir) ->
  exists r w', run (delete_gdbms n dir) w = (r, w') /\ w_in w' = w_in w /\ w_out w' = w_out w /\
    (forall p, struck dir n w p -> entry_at p w' = None) /\
    (forall p, ~ struck dir n w p -> p <> dir ++ [n] -> entry_at p w' = entry_at p w) /\
    ((forall x, entry_at (dir ++ [n; x]) w' = None) /\ r = Ok 0%Z /\ entry_at (dir ++ [n]) w' = None \/
     (exists x e, entry_at (dir ++ [n; x]) w' = Some e) /\ r = Err OSError /\ entry_at (dir ++ [n]) w' = Some EDir).
Proof.
  intros P D NW HN HS.
  assert (HD : is_a_dir dir w).
  { destruct dir as [|a dir]; [left; reflexivity|right]. eapply (disk_tree w D); [exact HN| |].
    - split; [discriminate|]. exists [n]. reflexivity.
    - intros E. apply (f_equal (@List.length pystr)) in E. rewrite app_length in E. cbn [List.length] in E. lia. }
  destruct (folders_run dir n w D NW HD HN) as (ms & RD & NM & HM).
  set (k := fun m => shown [42%N] (children (dir ++ [m]) (w_fs w))).
  set (l := flat_map (fun m => map (fun x => (dir ++ [m]) ++ [x]) (k m)) ms).
  assert (RG : run (glob_star (dir ++ [n])) w = (Ok l, w)).
  { unfold glob_star. rewrite run_bind, RD. rewrite (concat_run _ (fun d => map (fun x => d ++ [x]) (shown [42%N] (children d (w_fs w))))).
    - f_equal. f_equal. unfold l. clear. induction ms as [|m ms IH]; [reflexivity|]. cbn [map flat_map]. rewrite IH. reflexivity.
    - intros d I. apply in_map_iff in I as (m & <- & I). apply glob1_run. right. apply HM. exact I. }
  assert (NL : NoDup l) by (apply nodup_parts; [exact NM|]; intros m; apply NoDup_filter, children_nodup, D).
  assert (SH : forall m x, (dir ++ [m]) ++ [x] = dir ++ [m; x]) by (intros m x; rewrite <- app_assoc; reflexivity).
  assert (HL : forall p, In p l <-> struck dir n w p /\ entry_at p w <> None).
  { intros p. unfold l. rewrite in_flat_map. split.
    - intros (m & I & Q). apply in_map_iff in Q as (x & <- & Q). apply shown_star in Q as [Q V]. apply children_spec in Q as (e & E); [|apply D].
      apply HM in I as [S X]. split; [exists m, x; rewrite SH; auto|]. unfold entry_at. rewrite E. discriminate.
    - intros [(m & x & -> & S & X & V) NE]. exists m. split; [apply HM; auto|]. rewrite <- SH in *. apply in_map_iff. exists x. split; [reflexivity|].
      apply shown_star. split; [|exact V]. apply children_spec; [apply D|]. unfold entry_at in NE. destruct (fs_get ((dir ++ [m]) ++ [x]) (w_fs w)) as [e|]; [eauto|congruence]. }
  destruct (remove_all_run l w NL) as (f' & R & A & B & C); [|apply D|].
  { intros p I. apply HL in I as [S NE]. specialize (HS p S). destruct (entry_at p w) as [[|t]|]; [congruence|eauto|congruence]. }
  assert (ND : ~ struck dir n w (dir ++ [n])).
  { intros (m & x & E & _). apply app_inv_head in E. discriminate E. }
  assert (DN : fs_get (dir ++ [n]) f' = Some EDir) by (rewrite C; [exact HN|intros I; apply HL in I; apply ND, I]).
  assert (GS : forall p, struck dir n w p -> fs_get p f' = None).
  { intros p S. destruct (fs_get p (w_fs w)) as [e|] eqn:E.
    - apply B, HL. split; [exact S|]. unfold entry_at. rewrite E. discriminate.
    - rewrite C; [exact E|]. intros I. apply HL in I as [_ I]. unfold entry_at in I. congruence. }
  assert (GN : forall p, ~ struck dir n w p -> fs_get p f' = fs_get p (w_fs w)) by (intros p S; apply C; intros I; apply HL in I; tauto).
  assert (NP : forall m x, dir ++ [m; x] <> dir ++ [n]) by (intros m x E; apply app_inv_head in E; discriminate E).
  unfold delete_gdbms. rewrite joinpath_slash by exact P. rewrite run_bind. cbn [do_bool run exec]. rewrite (proj2 (fs_is_dir_spec _ w) (or_intror HN)). cbn [negb].
  rewrite run_bind, RG, run_bind, R, run_bind. cbn [do_unit run exec with_fs w_fs]. rewrite DN.
  destruct (children (dir ++ [n]) f') as [|x xs] eqn:CH; cbn [run].
  - eexists _, _. split; [reflexivity|]. cbn [with_fs w_in w_out]. split; [reflexivity|]. split; [reflexivity|]. unfold entry_at. cbn [with_fs w_fs]. split; [|split].
    + intros p S. rewrite fs_get_del. destruct (path_eqb p (dir ++ [n])); [reflexivity|apply GS; exact S].
    + intros p S NE. rewrite fs_get_del, path_eqb_neq by exact NE. apply GN. exact S.
    + left. split; [|split; [reflexivity|rewrite fs_get_del, path_eqb_refl; reflexivity]]. intros x. rewrite fs_get_del, path_eqb_neq by apply NP.
      destruct (fs_get (dir ++ [n; x]) f') as [e|] eqn:E; [|reflexivity]. exfalso. assert (I : In x (children (dir ++ [n]) f')) by (apply children_spec; [exact A|exists e; rewrite SH; exact E]).
      rewrite CH in I. exact I.
  - eexists _, _. split; [reflexivity|]. cbn [with_fs w_in w_out]. split; [reflexivity|]. split; [reflexivity|]. unfold entry_at. cbn [with_fs w_fs].
    split; [exact GS|]. split; [intros p S _; apply GN; exact S|]. right. split; [|split; [reflexivity|exact DN]].
    assert (I : In x (children (dir ++ [n]) f')) by (rewrite CH; left; reflexivity). apply children_spec in I as (e & E); [|exact A]. exists x, e. rewrite <- SH. exact E.
Qed.
