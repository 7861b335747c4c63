(** * OsFacts: ordinary names behave as in FS.v (C77) *)
From Verif Require Import PyBase BaseFacts Json FS FSFacts Store Query Gdbms SpecStore SpecShell SpecGdbms OsNames SpecOsNames Confine GdbmsFacts.

Lemma ordinary_app p q : ordinary (p ++ q) <-> ordinary p /\ ordinary q.
Proof.
  unfold ordinary. split; [intros H; split; intros c I; apply H, in_or_app; auto|].
  intros [A B] c I. apply in_app_or in I as [I|I]; auto.
Qed.
Lemma ordinary_cons c p : ordinary (c :: p) <-> (c <> py ".." /\ (octets c <= 255)%N) /\ ordinary p.
Proof.
  unfold ordinary. split; [intros H; split; [apply H; left; reflexivity|intros x I; apply H; right; exact I]|].
  intros [A B] x [<-|I]; auto.
Qed.
Lemma ordinary_nil : ordinary [].
Proof. intros c []. Qed.
Lemma not_dotdot c : c <> py ".." -> str_eqb c dotdot = false.
Proof. intros N. destruct (str_eqb c dotdot) eqn:E; [|reflexivity]. apply str_eqb_eq in E. contradiction. Qed.
Lemma byte_length_octets s : byte_length s = octets s.
Proof.
  unfold octets. induction s as [|c s IH]; [reflexivity|]. cbn [byte_length utf8 flat_map]. rewrite app_length, IH. fold (utf8 s). unfold utf8_size.
  destruct (N.ltb c 128); [cbn [List.length]; lia|]. destruct (N.ltb c 2048); [cbn [List.length]; lia|]. destruct (N.ltb c 65536); cbn [List.length]; lia.
Qed.
Lemma not_long c : (octets c <= 255)%N -> too_long c = false.
Proof. intros L. unfold too_long, NAME_MAX. rewrite byte_length_octets. apply N.ltb_ge. exact L. Qed.

(** ** the walk *)
Definition dirs_to (d p : path) (f : fs) : Prop := forall q r, p = q ++ r -> r <> [] -> fs_is_dir (d ++ q) f = true.
Lemma locate_ordinary p : forall d f, ordinary p -> dirs_to d p f -> locate d p f = inl (d ++ p).
Proof.
  induction p as [|c p IH]; intros d f O T; cbn [locate]; [rewrite app_nil_r; reflexivity|].
  apply ordinary_cons in O as [[N L] O].
  pose proof (T [] (c :: p) eq_refl ltac:(discriminate)) as T0. rewrite app_nil_r in T0. rewrite T0. cbn [negb].
  rewrite not_dotdot, not_long by assumption. rewrite IH; [rewrite <- app_assoc; reflexivity|exact O|].
  intros q r E Hr. rewrite <- app_assoc. cbn [app]. apply (T (c :: q) r); [rewrite E; reflexivity|exact Hr].
Qed.
Lemma way_dirs p w : way_there p w -> dirs_to [] p (w_fs w).
Proof.
  intros T q r E Hr. cbn [app]. destruct q as [|x q]; [reflexivity|]. unfold fs_is_dir.
  assert (H : entry_at (x :: q) w = Some EDir).
  { apply T; [split; [discriminate|exists r; exact E]|]. intros Q. rewrite <- Q in E. symmetry in E.
    rewrite <- (app_nil_r (x :: q)) in E at 2. apply app_inv_head in E. contradiction. }
  unfold entry_at in H. rewrite H. reflexivity.
Qed.
Lemma make_way_ordinary p : forall d f, ordinary p -> make_way d p f = mkdirs (map (app d) (prefixes p)) f.
Proof.
  induction p as [|c p IH]; intros d f O; cbn [make_way prefixes map mkdirs]; [reflexivity|].
  apply ordinary_cons in O as [[N L] O]. rewrite not_dotdot, not_long by assumption.
  assert (E : map (app d) (map (cons c) (prefixes p)) = map (app (d ++ [c])) (prefixes p)).
  { rewrite map_map. apply map_ext. intros x. rewrite <- app_assoc. reflexivity. }
  rewrite E. destruct (fs_get (d ++ [c]) f) as [[|t]|]; [apply IH; exact O|reflexivity|apply IH; exact O].
Qed.

(** ** single commands *)
Definition ok_cmd (c : cmd) (w : world) : Prop :=
  match c with
  | CPrint _ | CInput => True
  | CMkdir p => ordinary p
  | _ => ordinary (path_of c) /\ dirs_to [] (path_of c) (w_fs w)
  end.
Lemma os_exec_same c w : ok_cmd c w -> os_exec c w = exec c w.
Proof.
  destruct c; cbn [ok_cmd os_exec path_of at_path]; intros H; try reflexivity;
    try (destruct H as [O T]; rewrite locate_ordinary by assumption; reflexivity).
  rewrite make_way_ordinary by exact H. assert (E : map (app []) (prefixes p) = prefixes p).
  { rewrite <- (map_id (prefixes p)) at 2. reflexivity. }
  rewrite E. reflexivity.
Qed.

(** ** programs *)
Fixpoint fine {A} (m : io A) (w : world) : Prop :=
  match m with
  | Do c k => ok_cmd c w /\ fine (k (fst (exec c w))) (snd (exec c w))
  | _ => True
  end.
Theorem fine_run {A} (m : io A) : forall w, fine m w -> os_run m w = run m w.
Proof.
  induction m as [a|e|c k IH]; intros w F; cbn [os_run run fine] in *; try reflexivity.
  destruct F as [O F]. rewrite os_exec_same by exact O. destruct (exec c w) as [r w']. apply IH. exact F.
Qed.
Lemma fine_bind {A B} (m : io A) (f : A -> io B) : forall w, fine m w -> (forall a w', run m w = (Ok a, w') -> fine (f a) w') -> fine (io_bind m f) w.
Proof.
  induction m as [a|e|c k IH]; intros w F H; cbn [io_bind fine run] in *; [apply (H a w); reflexivity|exact I|].
  destruct F as [O F]. split; [exact O|]. apply IH; [exact F|]. intros a w' R. apply (H a w'). destruct (exec c w). exact R.
Qed.
Lemma fine_catch {A} (m : io A) h : forall w, fine m w -> (forall e m' w', run m w = (Err e, w') -> h e = Some m' -> fine m' w') -> fine (io_catch m h) w.
Proof.
  induction m as [a|e|c k IH]; intros w F H; cbn [io_catch fine run] in *; [exact I| |].
  - destruct (h e) as [m'|] eqn:E; [apply (H e m' w eq_refl E)|exact I].
  - destruct F as [O F]. split; [exact O|]. apply IH; [exact F|]. intros e m' w' R. apply (H e m' w'). destruct (exec c w). exact R.
Qed.
Lemma fine_unit c w : ok_cmd c w -> fine (do_unit c) w.
Proof. intros H. split; [exact H|]. destruct (fst (exec c w)); exact I. Qed.
Lemma fine_text c w : ok_cmd c w -> fine (do_text c) w.
Proof. intros H. split; [exact H|]. destruct (fst (exec c w)); exact I. Qed.
Lemma fine_bool c w : ok_cmd c w -> fine (do_bool c) w.
Proof. intros H. split; [exact H|]. destruct (fst (exec c w)); exact I. Qed.
Lemma fine_names c w : ok_cmd c w -> fine (do_names c) w.
Proof. intros H. split; [exact H|]. destruct (fst (exec c w)); exact I. Qed.

(** ** queries *)
Definition ways (ps : list path) (w : world) : Prop := forall p, In p ps -> ordinary p /\ dirs_to [] p (w_fs w).
Lemma ways_exec ps c w : on_files ps c -> ways ps w -> ways ps (snd (exec c w)).
Proof.
  intros O W p I. destruct (W p I) as [A B]. split; [exact A|]. intros q r E Hr. cbn [app]. rewrite (exec_dirs ps c w q O). exact (B q r E Hr).
Qed.
Lemma on_files_same ps c w : on_files ps c -> ways ps w -> os_exec c w = exec c w.
Proof.
  intros O W. destruct c; cbn [on_files] in O; try contradiction; try reflexivity;
    destruct (W _ O) as [A B]; cbn [os_exec path_of at_path]; rewrite locate_ordinary by assumption; reflexivity.
Qed.
Theorem only_same {A} ps (m : io A) : only (on_files ps) m -> forall w, ways ps w -> os_run m w = run m w /\ ways ps (snd (run m w)).
Proof.
  induction 1 as [a|e|c k Hc Hk IH]; intros w W; cbn [os_run run]; [auto|auto|].
  rewrite (on_files_same ps) by assumption. pose proof (ways_exec ps c w Hc W) as W'. destruct (exec c w) as [r w']. apply IH. exact W'.
Qed.
Theorem only_crash_same {A} ps (m : io A) : only (on_files ps) m -> forall w, ways ps w -> forall w', os_crash m w w' <-> crash m w w'.
Proof.
  induction 1 as [a|e|c k Hc Hk IH]; intros w W w'.
  - split; intros C; inversion C; constructor.
  - split; intros C; inversion C; constructor.
  - split; intros C.
    + inversion C; subst.
      * constructor.
      * rewrite (on_files_same ps) by assumption. eapply crash_write. reflexivity.
      * apply crash_later. match goal with X : os_crash _ (snd _) _ |- _ => rewrite (on_files_same ps) in X by assumption; apply IH; [apply ways_exec; assumption|exact X] end.
    + inversion C; subst.
      * constructor.
      * rewrite <- (on_files_same ps) by assumption. eapply os_crash_write. reflexivity.
      * apply os_crash_later. rewrite (on_files_same ps) by assumption. match goal with X : crash _ (snd _) _ |- _ => apply IH; [apply ways_exec; assumption|exact X] end.
Qed.
Lemma os_run_bind {A B} (m : io A) (f : A -> io B) w :
  os_run (io_bind m f) w = match os_run m w with (Ok a, w') => os_run (f a) w' | (Err e, w') => (Err e, w') end.
Proof.
  revert w. induction m as [a|e|c k IH]; intros w; cbn [io_bind os_run]; try reflexivity.
  destruct (os_exec c w) as [r w']. apply IH.
Qed.
Lemma os_run_catch {A} (m : io A) h w :
  os_run (io_catch m h) w = match os_run m w with (Err e, w') => match h e with Some m' => os_run m' w' | None => (Err e, w') end | x => x end.
Proof.
  revert w. induction m as [a|e|c k IH]; intros w; cbn [io_catch os_run]; try reflexivity.
  - destruct (h e); reflexivity.
  - destruct (os_exec c w) as [r w']. apply IH.
Qed.

Lemma print_run t w : run (do_unit (CPrint t)) w = (Ok tt, say [t] w).
Proof. reflexivity. Qed.
Lemma os_print t w : os_run (do_unit (CPrint t)) w = (Ok tt, say [t] w).
Proof. reflexivity. Qed.

Section Sessions.
  Context {rt : PyRt}.
  Lemma ways_in ps w a b : ways ps w -> ways ps {| w_fs := w_fs w; w_in := a; w_out := b |}.
  Proof. intros W. exact W. Qed.
  Theorem session_same f : forall g w, ways (the_files g) w -> os_run (shell_loop f g) w = run (shell_loop f g) w.
  Proof.
    induction f as [|f IH]; intros g w W; [reflexivity|]. cbn [shell_loop].
    rewrite os_run_bind, run_bind.
    assert (R0 : os_run (do_text CInput) w = run (do_text CInput) w) by (apply fine_run, fine_text; exact I). rewrite R0, input_run.
    destruct (w_in w) as [|q r]; [reflexivity|]. set (w1 := {| w_fs := w_fs w; w_in := r; w_out := w_out w |}).
    assert (W1 : ways (the_files g) w1) by exact W.
    rewrite os_run_bind, run_bind, os_print, print_run. cbv beta iota.
    destruct (str_eqb q (py "q")); [rewrite os_print, print_run; reflexivity|].
    destruct (contains (py "help") (str_lower q)).
    - rewrite os_run_bind, run_bind, os_print, print_run. cbv beta iota. apply IH. exact W.
    - rewrite os_run_bind, run_bind, os_run_catch, run_catch.
      match goal with |- context [os_run (query q g) ?x] => assert (W2 : ways (the_files g) x) by exact W;
        destruct (only_same _ _ (only_query q g) x W2) as [RQ WQ]; rewrite RQ; clear RQ; destruct (run (query q g) x) as [[b|e] w3] end; cbn [snd] in WQ; [apply IH; exact WQ|].
      rewrite os_run_bind, run_bind, os_print, print_run. cbn [os_run run]. apply IH. exact WQ.
  Qed.
End Sessions.
