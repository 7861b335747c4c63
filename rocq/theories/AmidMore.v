(** * AmidMore: creating and deleting graphs while other things happen (C78) *)
From Verif Require Import PyBase BaseFacts Json FS FSFacts Store Query SpecStore SpecShell SpecGdbms SpecAmid Confine GdbmsFacts AmidFacts Gdbms.

(** ** creation *)
Definition around (d p : path) : Prop := on_the_way d p \/ inside d p.
Lemma self_around d : d <> [] -> around d d.
Proof. intros N. left. split; [exact N|]. exists []. rewrite app_nil_r. reflexivity. Qed.
Lemma snoc_nonempty {A} (l : list A) x : l ++ [x] <> [].
Proof. destruct l; discriminate. Qed.
Lemma below_around d x : around d (d ++ [x]).
Proof. right. exists [x]. split; [discriminate|reflexivity]. Qed.
Lemma parent_snoc (d : path) x : parent (d ++ [x]) = d.
Proof. unfold parent. apply removelast_last. Qed.
Lemma only_mkdir P p : within P (CMkdir p) -> only (within P) (mkdir p).
Proof. intros H. unfold mkdir. destruct (has_nul p); [constructor|]. apply only_unit. exact H. Qed.
Lemma only_create_file dir n x content : plain n -> only (within (around (dir ++ [n]))) (create_file dir n (dir ++ [n; x]) content).
Proof.
  intros P. change [n; x] with ([n] ++ [x]). rewrite app_assoc. set (d := dir ++ [n]).
  assert (C : within (around d) (CCreate (d ++ [x])) ).
  { cbn [within]. rewrite parent_snoc. split; [apply below_around|]. right. apply self_around, snoc_nonempty. }
  unfold create_file. rewrite joinpath_plain by exact P. apply only_bind; [apply only_mkdir; cbn [within]; intros y Y; left; exact Y|]. intros _.
  apply only_bind; [apply only_bool; apply below_around|]. intros []; [constructor|].
  apply only_bind; [apply only_unit; exact C|]. intros _. apply only_bind; [apply only_unit; exact C|]. intros _.
  apply only_bind; [apply only_unit; apply below_around|]. intros _. constructor.
Qed.
Lemma only_new n dir : plain n -> only (within (around (dir ++ [n]))) (get_new_gdbms_file_paths n dir).
Proof.
  intros P. pose proof (db_file_plain dir n P) as E1. pose proof (idx_file_plain dir n P) as E2. pose proof (wn_file_plain dir n P) as E3. unfold get_new_gdbms_file_paths. apply only_catch.
  - unfold create_new_database, create_new_indexes_file, create_new_wiggle_number_file. rewrite E1, E2, E3. cbn [graph_at database_fp indexes_fp wiggle_number_fp].
    apply only_bind; [apply only_create_file; exact P|]. intros a. apply only_bind; [apply only_create_file; exact P|]. intros b.
    apply only_bind; [apply only_create_file; exact P|]. intros c. apply only_bind; [apply only_unit; exact I|]. intros; constructor.
  - intros e m'. destruct (is_value_error e); [|discriminate]. intros E. injection E as <-. constructor; [exact I|]. intros []; constructor.
Qed.
Lemma folder_same d w w' : leaves_folder d w w' -> same_on (around d) w w'.
Proof. intros L p H. exact (L p H). Qed.
Theorem creation_undisturbed n dir w r w' : plain n -> amid (leaves_folder (dir ++ [n])) (get_new_gdbms_file_paths n dir) w r w' ->
  r = fst (run (get_new_gdbms_file_paths n dir) w) /\
  forall p, on_the_way (dir ++ [n]) p \/ inside (dir ++ [n]) p -> entry_at p w' = entry_at p (snd (run (get_new_gdbms_file_paths n dir) w)).
Proof.
  intros P D. exact (undisturbed_on _ _ _ (folder_same (dir ++ [n])) (only_new n dir P) w r w' w D (same_on_refl _ _)).
Qed.
Theorem creation_cut_undisturbed n dir w w' : plain n -> amid_cut (leaves_folder (dir ++ [n])) (get_new_gdbms_file_paths n dir) w w' ->
  exists v, crash (get_new_gdbms_file_paths n dir) w v /\
    forall p, on_the_way (dir ++ [n]) p \/ inside (dir ++ [n]) p -> entry_at p w' = entry_at p v.
Proof.
  intros P D. destruct (undisturbed_cut _ _ _ (folder_same (dir ++ [n])) (only_new n dir P) w w' w D (same_on_refl _ _)) as (v & C & S). exists v. split; [exact C|exact S].
Qed.

(** ** two programs at the same time *)
Lemma amid_before {A} (R : world -> world -> Prop) (m : io A) w w1 r w' : (forall a b c, R a b -> R b c -> R a c) -> R w w1 -> amid R m w1 r w' -> amid R m w r w'.
Proof. intros T H D. destruct D as [a x x' H2|e x x' H2|c k x w2 r x' H2 D]; [constructor; exact (T _ _ _ H H2)|constructor; exact (T _ _ _ H H2)|econstructor; [exact (T _ _ _ H H2)|exact D]]. Qed.
Lemma inter_amid {A B} (R : world -> world -> Prop) (Inv : world -> Prop) (Pa Pb : cmd -> Prop) (a : io A) (b : io B) w ra rb w' :
  (forall v, R v v) -> (forall x y z, R x y -> R y z -> R x z) ->
  (forall c v, Pa c -> Inv v -> Inv (snd (exec c v))) -> (forall c v, Pb c -> Inv v -> Inv (snd (exec c v)) /\ R v (snd (exec c v))) ->
  only Pa a -> only Pb b -> interleave a b w ra rb w' -> Inv w -> amid R a w ra w'.
Proof.
  intros RR RT HA HB OA OB I. revert OA OB. induction I as [a b ra rb w EA EB|c k b w ra rb w' I IH|a c k w ra rb w' I IH]; intros OA OB IW.
  - destruct a; try contradiction; subst; constructor; apply RR.
  - inversion OA as [| |c' k' Hc Hk]; subst. econstructor; [apply RR|]. apply IH; auto.
  - inversion OB as [| |c' k' Hc Hk]; subst. destruct (HB c w Hc IW) as [I1 R1]. eapply amid_before; [exact RT|exact R1|]. apply IH; auto.
Qed.
Lemma interleave_swap {A B} (a : io A) (b : io B) w ra rb w' : interleave a b w ra rb w' -> interleave b a w rb ra w'.
Proof. induction 1; [apply il_done; assumption|apply il_right; assumption|apply il_left; assumption]. Qed.

(** what a step of a creation changes, once the folder exists in which it creates *)
Lemma mkdirs_there ps : forall f, (forall p, In p ps -> fs_get p f = Some EDir) -> forall qs, mkdirs (ps ++ qs) f = mkdirs qs f.
Proof.
  induction ps as [|p ps IH]; intros f H qs; [reflexivity|]. cbn [app mkdirs]. rewrite (H p (or_introl eq_refl)). apply IH. intros q I. apply H. right. exact I.
Qed.
Lemma prefixes_snoc p x : prefixes (p ++ [x]) = prefixes p ++ [p ++ [x]].
Proof. induction p as [|y p IH]; [reflexivity|]. cbn [app prefixes]. rewrite IH, map_app. reflexivity. Qed.
(** the commands of a creation in [d] *)
Definition makes (d : path) (c : cmd) : Prop :=
  match c with
  | CIsFile _ | CPrint _ => True
  | CMkdir p => p = d
  | CTouch p | CCreate p | CWrite p _ _ => inside d p
  | _ => False
  end.
Lemma makes_changes dir n c w : makes (dir ++ [n]) c -> dir_there dir w -> forall p, ~ own (dir ++ [n]) p -> fs_get p (w_fs (snd (exec c w))) = fs_get p (w_fs w).
Proof.
  intros M T p N. set (d := dir ++ [n]) in *.
  assert (S : forall q e f, inside d q -> fs_get p (fs_set q e f) = fs_get p f) by (intros q e f Iq; apply fs_get_set_other; intros ->; apply N; right; exact Iq).
  destruct c; cbn [makes] in M; try contradiction; try reflexivity.
  - cbn [exec]. destruct (fs_get p0 (w_fs w)) as [[|u]|]; try reflexivity. apply S. exact M.
  - cbn [exec]. destruct (fs_get p0 (w_fs w)) as [[|u]|]; try reflexivity; [apply S; exact M|]. destruct (fs_is_dir (parent p0) (w_fs w)); [apply S; exact M|reflexivity].
  - subst p0. cbn [exec]. unfold d. rewrite prefixes_snoc, mkdirs_there by (intros q Q; apply (T q), prefixes_way; exact Q). fold d. cbn [mkdirs].
    destruct (fs_get d (w_fs w)) as [[|u]|]; try reflexivity. cbn [snd with_fs w_fs]. apply fs_get_set_other. intros ->. apply N. left. reflexivity.
  - cbn [exec]. destruct (fs_get p0 (w_fs w)) as [[|u]|]; try reflexivity. destruct (fs_is_dir (parent p0) (w_fs w)); [apply S; exact M|reflexivity].
Qed.
Lemma below_inside d x : inside d (d ++ [x]).
Proof. exists [x]. split; [discriminate|reflexivity]. Qed.
Lemma makes_create_file dir n x content : plain n -> only (makes (dir ++ [n])) (create_file dir n (dir ++ [n; x]) content).
Proof.
  intros P. change [n; x] with ([n] ++ [x]). rewrite app_assoc. set (d := dir ++ [n]). unfold create_file. rewrite joinpath_plain by exact P.
  apply only_bind; [unfold mkdir; destruct (has_nul (dir ++ [n])); [constructor|apply only_unit; reflexivity]|]. intros _.
  apply only_bind; [apply only_bool; exact I|]. intros []; [constructor|].
  apply only_bind; [apply only_unit; apply below_inside|]. intros _. apply only_bind; [apply only_unit; apply below_inside|]. intros _.
  apply only_bind; [apply only_unit; apply below_inside|]. intros _. constructor.
Qed.
Lemma makes_new n dir : plain n -> only (makes (dir ++ [n])) (get_new_gdbms_file_paths n dir).
Proof.
  intros P. pose proof (db_file_plain dir n P) as E1. pose proof (idx_file_plain dir n P) as E2. pose proof (wn_file_plain dir n P) as E3. unfold get_new_gdbms_file_paths. apply only_catch.
  - unfold create_new_database, create_new_indexes_file, create_new_wiggle_number_file. rewrite E1, E2, E3. cbn [graph_at database_fp indexes_fp wiggle_number_fp].
    apply only_bind; [apply makes_create_file; exact P|]. intros a. apply only_bind; [apply makes_create_file; exact P|]. intros b.
    apply only_bind; [apply makes_create_file; exact P|]. intros c. apply only_bind; [apply only_unit; exact I|]. intros; constructor.
  - intros e m'. destruct (is_value_error e); [|discriminate]. intros E. injection E as <-. constructor; [exact I|]. intros []; constructor.
Qed.
Lemma dir_not_own (dir x : path) n : on_the_way dir x -> ~ own (dir ++ [n]) x.
Proof.
  intros (N & q & E) [->|(r & Nr & ->)]; apply (f_equal (@List.length pystr)) in E; rewrite !app_length in E; cbn [List.length] in E; lia.
Qed.
Lemma makes_there dir n c w : makes (dir ++ [n]) c -> dir_there dir w -> dir_there dir (snd (exec c w)).
Proof. intros M T x X. unfold entry_at. rewrite (makes_changes dir n c w M T x); [exact (T x X)|]. exact (dir_not_own dir x n X). Qed.
Lemma own_snoc dir n (x : path) : own (dir ++ [n]) x <-> exists q, x = dir ++ n :: q.
Proof.
  split.
  - intros [->|(q & _ & ->)]; [exists []; reflexivity|]. exists q. rewrite <- app_assoc. reflexivity.
  - intros (q & ->). destruct q as [|y q]; [left; reflexivity|]. right. exists (y :: q). split; [discriminate|]. rewrite <- app_assoc. reflexivity.
Qed.
Lemma others_apart dir n m x : n <> m -> around (dir ++ [n]) x -> ~ own (dir ++ [m]) x.
Proof.
  intros NM A O. apply own_snoc in O as (q & ->). destruct A as [(N & r & E)|(r & N & E)].
  - rewrite <- app_assoc in E. apply app_inv_head in E. cbn [app] in E. congruence.
  - rewrite <- app_assoc in E. apply app_inv_head in E. cbn [app] in E. congruence.
Qed.
Lemma leaves_folder_refl d w : leaves_folder d w w.
Proof. intros p H. reflexivity. Qed.
Lemma leaves_folder_trans d a b c : leaves_folder d a b -> leaves_folder d b c -> leaves_folder d a c.
Proof. intros X Y p H. rewrite Y, X; auto. Qed.
Theorem two_creations n m dir w r1 r2 w' : plain n -> plain m -> n <> m -> dir_there dir w ->
  interleave (get_new_gdbms_file_paths n dir) (get_new_gdbms_file_paths m dir) w r1 r2 w' ->
  r1 = fst (run (get_new_gdbms_file_paths n dir) w) /\ r2 = fst (run (get_new_gdbms_file_paths m dir) w) /\
  (forall p, own (dir ++ [n]) p -> entry_at p w' = entry_at p (snd (run (get_new_gdbms_file_paths n dir) w))) /\
  (forall p, own (dir ++ [m]) p -> entry_at p w' = entry_at p (snd (run (get_new_gdbms_file_paths m dir) w))).
Proof.
  intros PN PM NM T I.
  assert (X : forall n m r1 r2, plain n -> plain m -> n <> m -> interleave (get_new_gdbms_file_paths n dir) (get_new_gdbms_file_paths m dir) w r1 r2 w' ->
    r1 = fst (run (get_new_gdbms_file_paths n dir) w) /\ (forall p, own (dir ++ [n]) p -> entry_at p w' = entry_at p (snd (run (get_new_gdbms_file_paths n dir) w)))).
  { clear n m r1 r2 PN PM NM I. intros n m r1 r2 PN PM NM I.
    destruct (creation_undisturbed n dir w r1 w' PN) as [E S].
    - apply (inter_amid (leaves_folder (dir ++ [n])) (dir_there dir) (makes (dir ++ [n])) (makes (dir ++ [m])) (get_new_gdbms_file_paths n dir) (get_new_gdbms_file_paths m dir) w r1 r2 w'
        (leaves_folder_refl _) (leaves_folder_trans _)); try assumption; try (apply makes_new; assumption).
      + intros c v. apply makes_there.
      + intros c v M V. split; [exact (makes_there dir m c v M V)|]. intros p A. exact (makes_changes dir m c v M V p (others_apart dir n m p NM A)).
    - split; [exact E|]. intros p [->|H]; apply S; [left; split; [apply snoc_nonempty|exists []; rewrite app_nil_r; reflexivity]|right; exact H]. }
  destruct (X n m r1 r2 PN PM NM I) as [A B]. destruct (X m n r2 r1 PM PN (fun E => NM (eq_sym E)) (interleave_swap _ _ _ _ _ _ I)) as [C D]. auto.
Qed.
(** a creation beside a query on another graph of the same folder *)
Lemma files_elsewhere dir n g : (forall p, In p (files_of g) -> ~ own (dir ++ [n]) p /\ ~ on_the_way (dir ++ [n]) p) -> forall p d, In p (files_of g) -> on_the_way p d -> ~ own (dir ++ [n]) d.
Proof.
  intros H p d I (N & q & ->) O. apply own_snoc in O as (r & ->). destruct (H _ I) as [A _]. apply A, own_snoc. exists (r ++ q). rewrite <- app_assoc. reflexivity.
Qed.
Section Beside.
  Context {rt : PyRt}.
  Theorem creation_and_query n dir q g w r1 r2 w' : plain n -> dir_there dir w -> Forall (fun p => p <> []) (files_of g) ->
    (forall p, In p (files_of g) -> ~ own (dir ++ [n]) p /\ ~ on_the_way (dir ++ [n]) p) ->
    interleave (get_new_gdbms_file_paths n dir) (query q g) w r1 r2 w' ->
    r1 = fst (run (get_new_gdbms_file_paths n dir) w) /\ r2 = fst (run (query q g) w) /\
    (forall p, own (dir ++ [n]) p -> entry_at p w' = entry_at p (snd (run (get_new_gdbms_file_paths n dir) w))) /\
    (forall p, In p (files_of g) -> entry_at p w' = entry_at p (snd (run (query q g) w))).
  Proof.
    intros P T NE EW I.
    assert (QF : forall c v, on_files (the_files g) c -> forall p, around (dir ++ [n]) p -> fs_get p (w_fs (snd (exec c v))) = fs_get p (w_fs v)).
    { intros c v O p A. destruct (exec_frame (the_files g) c v O) as [F _]. apply F. intros X. destruct (EW p X) as [N1 N2]. destruct A as [A|A]; [exact (N2 A)|]. apply N1. right. exact A. }
    assert (TQ : forall c v, on_files (the_files g) c -> dir_there dir v -> dir_there dir (snd (exec c v))).
    { intros c v O V x X. unfold entry_at. rewrite (QF c v O x); [exact (V x X)|]. left. destruct X as (N & y & ->). split; [exact N|]. exists (y ++ [n]). rewrite app_assoc. reflexivity. }
    destruct (creation_undisturbed n dir w r1 w' P) as [E1 S1].
    { apply (inter_amid (leaves_folder (dir ++ [n])) (dir_there dir) (makes (dir ++ [n])) (on_files (the_files g)) (get_new_gdbms_file_paths n dir) (query q g) w r1 r2 w'
        (leaves_folder_refl _) (leaves_folder_trans _)); try assumption; [intros c v; apply makes_there| |apply makes_new; exact P|apply only_query].
      intros c v O V. split; [exact (TQ c v O V)|]. intros p A. exact (QF c v O p A). }
    destruct (query_undisturbed q g w r2 w' NE) as [E2 S2].
    { apply (inter_amid (leaves g) (dir_there dir) (on_files (the_files g)) (makes (dir ++ [n])) (query q g) (get_new_gdbms_file_paths n dir) w r2 r1 w');
        try assumption; [intros v p d _ _; reflexivity| | |apply only_query|apply makes_new; exact P|apply interleave_swap; exact I].
      - intros x y z X Y p d Ip W. rewrite (Y p d Ip W). exact (X p d Ip W).
      - intros c v M V. split; [exact (makes_there dir n c v M V)|]. intros p d Ip W. exact (makes_changes dir n c v M V d (files_elsewhere dir n g EW p d Ip W)). }
    split; [exact E1|]. split; [exact E2|]. split; [|exact S2].
    intros p [->|H]; apply S1; [left; split; [apply snoc_nonempty|exists []; rewrite app_nil_r; reflexivity]|right; exact H].
  Qed.
End Beside.

(** ** a busy machine, for the examples: the same change before each operation and at the end *)
Fixpoint busy {A} (D : world -> world) (m : io A) (w : world) : res A * world :=
  match m with
  | Ret a => (Ok a, D w)
  | Throw e => (Err e, D w)
  | Do c k => busy D (k (fst (exec c (D w)))) (snd (exec c (D w)))
  end.
(** is [chk] true of every world the others leave? *)
Fixpoint busy_check {A} (chk : world -> bool) (D : world -> world) (m : io A) (w : world) : bool :=
  match m with
  | Ret _ | Throw _ => chk (D w)
  | Do c k => chk (D w) && busy_check chk D (k (fst (exec c (D w)))) (snd (exec c (D w)))
  end.
Lemma busy_amid {A} (R : world -> world -> Prop) chk D (m : io A) : (forall w, chk (D w) = true -> R w (D w)) ->
  forall w, busy_check chk D m w = true -> amid R m w (fst (busy D m w)) (snd (busy D m w)).
Proof.
  intros H. induction m as [a|e|c k IH]; intros w B; cbn [busy busy_check fst snd] in *.
  - constructor. apply H. exact B.
  - constructor. apply H. exact B.
  - apply andb_true_iff in B. destruct B as [B1 B2]. eapply amid_do; [apply H; exact B1|]. apply IH. exact B2.
Qed.
