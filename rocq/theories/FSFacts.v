(** * FSFacts: files and programs *)
From Verif Require Import PyBase BaseFacts FS.
From Coq Require Import ZifyBool ZifyN ZifyNat.

Lemma path_eqb_eq a b : path_eqb a b = true <-> a = b.
Proof. unfold path_eqb. destruct (path_eq_dec a b); split; congruence. Qed.
Lemma path_eqb_refl a : path_eqb a a = true.
Proof. apply path_eqb_eq. reflexivity. Qed.
Lemma path_eqb_neq a b : a <> b -> path_eqb a b = false.
Proof. intros H. destruct (path_eqb a b) eqn:E; auto. apply path_eqb_eq in E. congruence. Qed.

Lemma fs_get_set p q e f : fs_get p (fs_set q e f) = if path_eqb p q then Some e else fs_get p f.
Proof.
  induction f as [|[r e'] f IH]; cbn [fs_set fs_get].
  - destruct (path_eqb p q); reflexivity.
  - destruct (path_eqb q r) eqn:E; cbn [fs_get].
    + apply path_eqb_eq in E. subst. destruct (path_eqb p r); reflexivity.
    + destruct (path_eqb p r) eqn:E2; [|apply IH].
      apply path_eqb_eq in E2. subst. destruct (path_eqb r q) eqn:E3; auto.
      apply path_eqb_eq in E3. subst. rewrite path_eqb_refl in E. discriminate.
Qed.
Lemma fs_get_set_same p e f : fs_get p (fs_set p e f) = Some e.
Proof. rewrite fs_get_set, path_eqb_refl. reflexivity. Qed.
Lemma fs_get_set_other p q e f : p <> q -> fs_get p (fs_set q e f) = fs_get p f.
Proof. intros H. rewrite fs_get_set, path_eqb_neq; auto. Qed.
Lemma fs_set_same p e f : fs_get p f = Some e -> fs_set p e f = f.
Proof.
  induction f as [|[r e'] f IH]; cbn [fs_set fs_get]; [discriminate|].
  destruct (path_eqb p r) eqn:E; intros H; [congruence|]. f_equal. auto.
Qed.
Lemma fs_set_set p e e' f : fs_set p e (fs_set p e' f) = fs_set p e f.
Proof.
  induction f as [|[r e2] f IH]; cbn [fs_set].
  - rewrite path_eqb_refl. reflexivity.
  - destruct (path_eqb p r) eqn:E; cbn [fs_set]; rewrite E; [reflexivity|]. f_equal; auto.
Qed.
Lemma fs_get_del p q f : fs_get p (fs_del q f) = if path_eqb p q then None else fs_get p f.
Proof.
  induction f as [|[r e] f IH]; cbn [fs_del fs_get].
  - destruct (path_eqb p q); reflexivity.
  - destruct (path_eqb q r) eqn:E.
    + apply path_eqb_eq in E. subst. rewrite IH. destruct (path_eqb p r); reflexivity.
    + cbn [fs_get]. destruct (path_eqb p r) eqn:E2; [|apply IH].
      apply path_eqb_eq in E2. subst. destruct (path_eqb r q) eqn:E3; auto.
      apply path_eqb_eq in E3. subst. rewrite path_eqb_refl in E. discriminate.
Qed.

(** ** worlds *)
Definition get (p : path) (w : world) : option entry := fs_get p (w_fs w).
Definition has_file (p : path) (t : pystr) (w : world) : Prop := get p w = Some (EFile t).
Definition put (p : path) (t : pystr) (w : world) : world := with_fs w (fs_set p (EFile t) (w_fs w)).

Lemma world_eta w : with_fs w (w_fs w) = w.
Proof. destruct w; reflexivity. Qed.
Lemma get_put p q t w : get p (put q t w) = if path_eqb p q then Some (EFile t) else get p w.
Proof. unfold get, put. cbn [with_fs w_fs]. apply fs_get_set. Qed.
Lemma get_put_same p t w : get p (put p t w) = Some (EFile t).
Proof. rewrite get_put, path_eqb_refl. reflexivity. Qed.
Lemma get_put_other p q t w : p <> q -> get p (put q t w) = get p w.
Proof. intros H. rewrite get_put, path_eqb_neq; auto. Qed.
Lemma put_same p t w : has_file p t w -> put p t w = w.
Proof. unfold has_file, get, put. intros H. rewrite fs_set_same by auto. apply world_eta. Qed.
Lemma put_put p t t' w : put p t (put p t' w) = put p t w.
Proof. unfold put. cbn [with_fs w_fs w_in w_out]. unfold with_fs. cbn. rewrite fs_set_set. reflexivity. Qed.
Lemma put_in p t w : w_in (put p t w) = w_in w.
Proof. reflexivity. Qed.
Lemma put_out p t w : w_out (put p t w) = w_out w.
Proof. reflexivity. Qed.

Lemma world_ext w w' : w_fs w = w_fs w' -> w_in w = w_in w' -> w_out w = w_out w' -> w = w'.
Proof. destruct w, w'; simpl; congruence. Qed.
Lemma fs_set_comm p q e e' f : p <> q -> fs_get p f <> None -> fs_get q f <> None ->
  fs_set p e (fs_set q e' f) = fs_set q e' (fs_set p e f).
Proof.
  intros Hpq. induction f as [|[r e2] f IH]; cbn [fs_set fs_get]; [congruence|].
  destruct (path_eqb p r) eqn:E1, (path_eqb q r) eqn:E2; intros H1 H2; cbn [fs_set]; rewrite ?E1, ?E2; auto.
  - apply path_eqb_eq in E1, E2. congruence.
  - f_equal. auto.
Qed.
Lemma put_comm p q t u w : p <> q -> get p w <> None -> get q w <> None -> put p t (put q u w) = put q u (put p t w).
Proof. intros. unfold put, with_fs. cbn. rewrite fs_set_comm; auto. Qed.

(** everything but the given files is the same *)
Definition same_but (ps : list path) (w w' : world) : Prop :=
  (forall q, ~ In q ps -> get q w' = get q w) /\ w_in w' = w_in w /\ w_out w' = w_out w.
Lemma same_but_refl ps w : same_but ps w w.
Proof. repeat split; auto. Qed.
Lemma same_but_trans ps w1 w2 w3 : same_but ps w1 w2 -> same_but ps w2 w3 -> same_but ps w1 w3.
Proof. intros (A & B & C) (A' & B' & C'). repeat split; try congruence. intros q H. rewrite A', A; auto. Qed.
Lemma same_but_put ps p t w w' : In p ps -> same_but ps w w' -> same_but ps w (put p t w').
Proof.
  intros Hin (A & B & C). repeat split; auto. intros q Hq. rewrite get_put_other; auto. intros ->. contradiction.
Qed.

(** ** running *)
Lemma run_bind {A B} (m : io A) (f : A -> io B) w :
  run (io_bind m f) w = match run m w with (Ok a, w') => run (f a) w' | (Err e, w') => (Err e, w') end.
Proof.
  revert w; induction m as [a|e|c k IH]; intros w; cbn [io_bind run]; auto.
  destruct (exec c w) as [r w']. apply IH.
Qed.
Lemma run_catch {A} (m : io A) h w :
  run (io_catch m h) w = match run m w with
                         | (Ok a, w') => (Ok a, w')
                         | (Err e, w') => match h e with Some m' => run m' w' | None => (Err e, w') end
                         end.
Proof.
  revert w; induction m as [a|e|c k IH]; intros w; cbn [io_catch run]; auto.
  - destruct (h e); reflexivity.
  - destruct (exec c w) as [r w']. apply IH.
Qed.
Lemma run_lift {A} (r : res A) w : run (lift r) w = (r, w).
Proof. destruct r; reflexivity. Qed.

Definition read_res (e : option entry) : res pystr :=
  match e with Some (EFile t) => Ok t | Some EDir => Err OSError | None => Err FileNotFoundError end.
Lemma run_read p w : run (do_text (CRead p)) w = (read_res (get p w), w).
Proof. unfold get. cbn [do_text run exec]. destruct (fs_get p (w_fs w)) as [[|t]|]; reflexivity. Qed.
Lemma run_write p off s t w : has_file p t w -> run (do_unit (CWrite p off s)) w = (Ok tt, put p (write_at t off s) w).
Proof. unfold has_file, get, put. intros H. cbn [do_unit run exec]. rewrite H. reflexivity. Qed.
Lemma run_trunc p n t w : has_file p t w -> run (do_unit (CTrunc p n)) w = (Ok tt, put p (firstn n t) w).
Proof. unfold has_file, get, put. intros H. cbn [do_unit run exec]. rewrite H. reflexivity. Qed.
Lemma run_create p t w : has_file p t w -> run (do_unit (CCreate p)) w = (Ok tt, put p [] w).
Proof. unfold has_file, get, put. intros H. cbn [do_unit run exec]. rewrite H. reflexivity. Qed.

Lemma write_at_0 old t : write_at old 0 t = t ++ skipn (List.length t) old.
Proof. unfold write_at. simpl. reflexivity. Qed.
Lemma write_at_0_long old t : List.length old <= List.length t -> write_at old 0 t = t.
Proof. intros H. rewrite write_at_0, skipn_all2 by auto. apply app_nil_r. Qed.
Lemma write_at_end old t : write_at old (List.length old) t = old ++ t.
Proof.
  unfold write_at. rewrite firstn_all, Nat.sub_diag, skipn_all2 by lia. simpl. rewrite app_nil_r. reflexivity.
Qed.
Lemma firstn_write_at old off t : off <= List.length old ->
  firstn (off + List.length t) (write_at old off t) = firstn off old ++ t.
Proof.
  intros H. unfold write_at. replace (off - List.length old) with 0 by lia. cbn [repeat app].
  rewrite app_assoc, firstn_app, app_length, firstn_length, Nat.min_l by auto.
  rewrite Nat.sub_diag, firstn_O, app_nil_r. apply firstn_all2. rewrite app_length, firstn_length. lia.
Qed.

(** ** programs that only read *)
Inductive reads_only {A} : io A -> Prop :=
| ro_ret : forall a, reads_only (Ret a)
| ro_throw : forall e, reads_only (Throw e)
| ro_do : forall c k, (match c with CRead _ | CIsFile _ | CIsDir _ | CList _ => True | _ => False end) ->
          (forall r, reads_only (k r)) -> reads_only (Do c k).
Lemma reads_only_exec c w : (match c with CRead _ | CIsFile _ | CIsDir _ | CList _ => True | _ => False end) -> snd (exec c w) = w.
Proof.
  destruct c; simpl; try tauto; intros _.
  - destruct (fs_get p (w_fs w)) as [[|]|]; reflexivity.
  - destruct (fs_is_dir p (w_fs w)); [reflexivity|]. destruct (fs_get p (w_fs w)); reflexivity.
Qed.
Lemma reads_only_run {A} (m : io A) w : reads_only m -> snd (run m w) = w.
Proof.
  intros H. revert w; induction H as [| |c k Hc Hk IH]; intros w; cbn [run]; auto.
  pose proof (reads_only_exec c w Hc) as E. destruct (exec c w) as [r w']. simpl in E. subst. apply IH.
Qed.
Lemma reads_only_bind {A B} (m : io A) (f : A -> io B) : reads_only m -> (forall a, reads_only (f a)) -> reads_only (io_bind m f).
Proof. intros H Hf. induction H; cbn [io_bind]; auto; constructor; auto. Qed.
Lemma reads_only_catch {A} (m : io A) h : reads_only m -> (forall e m', h e = Some m' -> reads_only m') -> reads_only (io_catch m h).
Proof.
  intros H Hf. induction H; cbn [io_catch]; auto; try constructor; auto.
  destruct (h e) eqn:E; [eauto|constructor].
Qed.
Lemma reads_only_lift {A} (r : res A) : reads_only (lift r).
Proof. destruct r; constructor. Qed.
Lemma reads_only_text p : reads_only (do_text (CRead p)).
Proof. constructor; [exact I|]. intros []; constructor. Qed.

(** ** crashes *)
Lemma crash_do_inv {A} c (k : resp -> io A) w w' : crash (Do c k) w w' ->
  w' = w \/
  (exists p off t t1 t2, c = CWrite p off t /\ t = t1 ++ t2 /\ w' = snd (exec (CWrite p off t1) w)) \/
  crash (k (fst (exec c w))) (snd (exec c w)) w'.
Proof. intros H. inversion H; subst; auto. right. left. repeat eexists. Qed.
Lemma crash_bind {A B} (m : io A) (f : A -> io B) w w' :
  crash (io_bind m f) w w' -> crash m w w' \/ exists a w1, run m w = (Ok a, w1) /\ crash (f a) w1 w'.
Proof.
  revert w; induction m as [a|e|c k IH]; intros w H; cbn [io_bind] in H.
  - right. exists a, w. auto.
  - inversion H; subst. left. constructor.
  - apply crash_do_inv in H as [->|[(p & off & t & t1 & t2 & -> & -> & ->)|H]].
    + left. constructor.
    + left. eapply crash_write. reflexivity.
    + cbn [run]. destruct (exec c w) as [r w1] eqn:E. cbn [fst snd] in *.
      destruct (IH _ _ H) as [X|(a & w2 & H1 & H2)].
      * left. apply crash_later. rewrite E. exact X.
      * right. exists a, w2. auto.
Qed.
Lemma crash_now' {A} (m : io A) w : crash m w w.
Proof. constructor. Qed.
Lemma crash_bind_l {A B} (m : io A) (f : A -> io B) w w' : crash m w w' -> crash (io_bind m f) w w'.
Proof.
  intros H. induction H as [m w|p off t t1 t2 k w E|c k w w' H IH].
  - constructor.
  - cbn [io_bind]. eapply crash_write; eauto.
  - cbn [io_bind]. apply crash_later. auto.
Qed.
Lemma crash_bind_r {A B} (m : io A) (f : A -> io B) w a w1 w' : run m w = (Ok a, w1) -> crash (f a) w1 w' -> crash (io_bind m f) w w'.
Proof.
  revert w; induction m as [x|e|c k IH]; intros w H H'; cbn [run io_bind] in *.
  - inv H. auto.
  - discriminate.
  - destruct (exec c w) as [r w2] eqn:E. apply crash_later. rewrite E. cbn [fst snd]. eapply IH; eauto.
Qed.
Lemma crash_lift {A} (r : res A) w w' : crash (lift r) w w' -> w' = w.
Proof. destruct r; intros H; inversion H; auto. Qed.
Lemma crash_ret {A} (a : A) w w' : crash (Ret a) w w' -> w' = w.
Proof. intros H; inversion H; auto. Qed.
Lemma crash_throw {A} e w w' : crash (Throw e : io A) w w' -> w' = w.
Proof. intros H; inversion H; auto. Qed.
Lemma crash_read p w w' : crash (do_text (CRead p)) w w' -> w' = w.
Proof.
  intros H. apply crash_do_inv in H as [->|[(q & off & t & t1 & t2 & E & _)|H]]; [auto|discriminate|].
  rewrite (reads_only_exec (CRead p) w I) in H.
  destruct (fst (exec (CRead p) w)); inversion H; auto.
Qed.
Lemma crash_do_write p off t old w w' : has_file p old w -> crash (do_unit (CWrite p off t)) w w' ->
  w' = w \/ exists t1 t2, t = t1 ++ t2 /\ w' = put p (write_at old off t1) w.
Proof.
  intros F H. pose proof F as F0. unfold has_file, get in F0. unfold do_unit in H.
  apply crash_do_inv in H as [->|[(q & off' & t' & t1 & t2 & E & -> & ->)|H]]; [auto| |].
  - inv E. right. exists t1, t2. split; auto. cbn [exec]. rewrite F0. reflexivity.
  - right. exists t, []. split; [rewrite app_nil_r; auto|]. cbn [exec] in H. rewrite F0 in H. cbn [fst snd] in H.
    apply crash_ret in H. auto.
Qed.
Lemma crash_do_trunc p n old w w' : has_file p old w -> crash (do_unit (CTrunc p n)) w w' ->
  w' = w \/ w' = put p (firstn n old) w.
Proof.
  intros F H. pose proof F as F0. unfold has_file, get in F0. unfold do_unit in H.
  apply crash_do_inv in H as [->|[(q & off' & t' & t1 & t2 & E & _)|H]]; [auto|discriminate|].
  right. cbn [exec] in H. rewrite F0 in H. cbn [fst snd] in H. apply crash_ret in H. auto.
Qed.
Lemma crash_do_create p old w w' : has_file p old w -> crash (do_unit (CCreate p)) w w' ->
  w' = w \/ w' = put p [] w.
Proof.
  intros F H. pose proof F as F0. unfold has_file, get in F0. unfold do_unit in H.
  apply crash_do_inv in H as [->|[(q & off' & t' & t1 & t2 & E & _)|H]]; [auto|discriminate|].
  right. cbn [exec] in H. rewrite F0 in H. cbn [fst snd] in H. apply crash_ret in H. auto.
Qed.
