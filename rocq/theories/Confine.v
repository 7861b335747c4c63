(** * Confine: which commands a program can issue *)
From Verif Require Import PyBase BaseFacts Json Props Checks Statements Data FS FSFacts Store Make Find Query SpecShell.

(** every command [m] can issue, whatever the answers, satisfies [P] *)
Inductive only (P : cmd -> Prop) {A} : io A -> Prop :=
| only_ret : forall a, only P (Ret a)
| only_throw : forall e, only P (Throw e)
| only_do : forall c k, P c -> (forall r, only P (k r)) -> only P (Do c k).

Section Only.
  Context (P : cmd -> Prop).
  Lemma only_bind {A B} (m : io A) (f : A -> io B) : only P m -> (forall a, only P (f a)) -> only P (io_bind m f).
  Proof. induction 1 as [a|e|c k Hc Hk IH]; intros F; cbn [io_bind]; [apply F|constructor|]. constructor; auto. Qed.
  Lemma only_catch {A} (m : io A) h : only P m -> (forall e m', h e = Some m' -> only P m') -> only P (io_catch m h).
  Proof.
    induction 1 as [a|e|c k Hc Hk IH]; intros F; cbn [io_catch]; [constructor| |constructor; auto].
    destruct (h e) as [m'|] eqn:E; [eapply F; exact E|constructor].
  Qed.
  Lemma only_lift {A} (r : res A) : only P (lift r).
  Proof. destruct r; constructor. Qed.
  Lemma only_unit c : P c -> only P (do_unit c).
  Proof. intros H. constructor; [exact H|]. intros []; constructor. Qed.
  Lemma only_text c : P c -> only P (do_text c).
  Proof. intros H. constructor; [exact H|]. intros []; constructor. Qed.
  Lemma only_bool c : P c -> only P (do_bool c).
  Proof. intros H. constructor; [exact H|]. intros []; constructor. Qed.
  Lemma only_names c : P c -> only P (do_names c).
  Proof. intros H. constructor; [exact H|]. intros []; constructor. Qed.
End Only.
Lemma only_impl {A} (P Q : cmd -> Prop) (m : io A) : (forall c, P c -> Q c) -> only P m -> only Q m.
Proof. intros I. induction 1; constructor; auto. Qed.

(** a command that looks at or changes the contents of one of the files [ps], or prints *)
Definition on_files (ps : list path) (c : cmd) : Prop :=
  match c with
  | CRead p | CWrite p _ _ | CTrunc p _ | CCreate p => In p ps
  | CPrint _ => True
  | _ => False
  end.

Section Model.
  Context {rt : PyRt}.
  Ltac only_tac := repeat first
    [ apply only_lift | apply only_ret | apply only_throw
    | apply only_unit; cbn; tauto | apply only_text; cbn; tauto
    | apply only_bind; [|intros] | apply only_catch; [|intros ? ? ?] ].
  Lemma only_read_json ps p : In p ps -> only (on_files ps) (read_json p).
  Proof. intros I. unfold read_json. only_tac. Qed.
  Lemma only_write_json ps p off v : In p ps -> only (on_files ps) (write_json p off v).
  Proof. intros I. unfold write_json. destruct (dump_top Indent4 v) as [t ok]. only_tac. destruct ok; constructor. Qed.
  Lemma only_add_item ps p items : In p ps -> only (on_files ps) (add_item_to_database p items).
  Proof. intros I. unfold add_item_to_database. only_tac; auto using only_read_json, only_write_json. Qed.
  Lemma only_add_set ps p items name : In p ps -> only (on_files ps) (add_items_set p items name).
  Proof. intros I. unfold add_items_set. only_tac; auto using only_read_json, only_write_json. Qed.
  Lemma only_add_rels ps p items : In p ps -> only (on_files ps) (add_items_to_node_relationships_index p items).
  Proof. intros I. unfold add_items_to_node_relationships_index. only_tac; auto using only_write_json. Qed.
  Lemma only_load_set ps p name : In p ps -> only (on_files ps) (load_index_set p name).
  Proof.
    intros I. unfold load_index_set. only_tac; auto using only_read_json.
    destruct e; try discriminate. injection H as <-. constructor.
  Qed.
  Lemma only_get_wn ps p : In p ps -> only (on_files ps) (get_current_wiggle_number p).
  Proof. intros I. unfold get_current_wiggle_number. only_tac. destruct a; only_tac. Qed.
  Lemma only_update_wn ps p z : In p ps -> only (on_files ps) (update_wiggle_number p z).
  Proof. intros I. unfold update_wiggle_number. only_tac. Qed.

  Theorem only_make l g : only (on_files (the_files g)) (make l g).
  Proof.
    unfold make, add_nodes_to_graph, add_indexes, add_items_to_node_labels_index, add_items_to_relationship_names_index.
    assert (I1 : In (database_fp g) (the_files g)) by (cbn; tauto). assert (I2 : In (indexes_fp g) (the_files g)) by (cbn; tauto).
    assert (I3 : In (wiggle_number_fp g) (the_files g)) by (cbn; tauto).
    apply only_bind; [apply only_get_wn; exact I3|]. intros z. apply only_bind; [apply only_lift|]. intros [z' ms].
    only_tac; auto using only_write_json.
  Qed.
  Theorem only_find f g : only (on_files (the_files g)) (find f g).
  Proof.
    unfold find, find_short_circuit, load_node_labels_index, load_relationship_names_index.
    assert (I2 : In (indexes_fp g) (the_files g)) by (cbn; tauto).
    apply only_bind; [apply only_lift|]. intros fp. apply only_bind.
    - apply only_bind; [apply only_load_set; exact I2|]. intros la. apply only_bind; [apply only_load_set; exact I2|]. intros na.
      destruct (negb _); [constructor|]. destruct (relationship_name_is_in_index _ _); constructor.
    - intros []; only_tac.
  Qed.
  Theorem only_query q g : only (on_files (the_files g)) (query q g).
  Proof.
    unfold query. apply only_bind; [apply only_lift|]. intros pq. apply only_bind; [|intros; constructor].
    unfold execute_query. apply only_bind; [destruct (q_make pq) as [[|m ms]|]; first [apply only_make|apply only_ret]|]. intros _.
    destruct (q_find pq); [|constructor]. apply only_bind; [apply only_find|]. intros r. apply only_bind; [destruct (q_report pq); constructor|]. intros; constructor.
  Qed.
End Model.

(** ** consequences *)
(** everything but the contents of the files [ps] and the output is the same; no file is created *)
Definition frame (ps : list path) (w w' : world) : Prop :=
  (forall q, ~ In q ps -> fs_get q (w_fs w') = fs_get q (w_fs w)) /\ w_in w' = w_in w.
Lemma frame_refl ps w : frame ps w w.
Proof. split; auto. Qed.
Lemma frame_trans ps w1 w2 w3 : frame ps w1 w2 -> frame ps w2 w3 -> frame ps w1 w3.
Proof. intros [A B] [C D]. split; [|congruence]. intros q H. rewrite C, A; auto. Qed.
Lemma exec_frame ps c w : on_files ps c -> frame ps w (snd (exec c w)).
Proof.
  assert (S : forall p e, In p ps -> frame ps w (with_fs w (fs_set p e (w_fs w)))).
  { intros p e I. split; [|reflexivity]. intros q Hq. cbn [with_fs w_fs]. apply fs_get_set_other. intros ->. contradiction. }
  destruct c; cbn [on_files exec]; intros I; try contradiction; try (apply frame_refl).
  - destruct (fs_get p (w_fs w)) as [[|]|]; apply frame_refl.
  - destruct (fs_get p (w_fs w)) as [[|]|]; cbn [snd]; try apply frame_refl; auto.
  - destruct (fs_get p (w_fs w)) as [[|]|]; cbn [snd]; try apply frame_refl; auto.
  - destruct (fs_get p (w_fs w)) as [[|]|]; cbn [snd]; try apply frame_refl; auto.
    destruct (fs_is_dir (parent p) (w_fs w)); cbn [snd]; [auto|apply frame_refl].
  - split; auto.
Qed.
Theorem only_run_frame {A} ps (m : io A) w : only (on_files ps) m -> frame ps w (snd (run m w)).
Proof.
  intros O. revert w. induction O as [a|e|c k Hc Hk IH]; intros w; cbn [run]; try apply frame_refl.
  pose proof (exec_frame ps c w Hc) as F. destruct (exec c w) as [r w1]. cbn [snd] in F. eapply frame_trans; [exact F|apply IH].
Qed.
Theorem only_crash_frame {A} ps (m : io A) w w' : only (on_files ps) m -> crash m w w' -> frame ps w w'.
Proof.
  intros O C. induction C as [m w|p off t t1 t2 k w E|c k w w' C IH].
  - apply frame_refl.
  - inversion O as [| |c k' Hc Hk]; subst. apply (exec_frame ps (CWrite p off t1)). exact Hc.
  - inversion O as [| |c' k' Hc Hk]; subst. eapply frame_trans; [apply (exec_frame ps c w Hc)|apply IH; apply Hk].
Qed.
Theorem only_interleave_frame {A B} ps (a : io A) (b : io B) w ra rb w' : only (on_files ps) a -> only (on_files ps) b ->
  interleave a b w ra rb w' -> frame ps w w'.
Proof.
  intros OA OB I. revert OA OB. induction I as [a b ra rb w HA HB|c k b w ra rb w' I IH|a c k w ra rb w' I IH]; intros OA OB.
  - apply frame_refl.
  - inversion OA as [| |c' k' Hc Hk]; subst. eapply frame_trans; [apply (exec_frame ps c w Hc)|]. apply IH; [apply Hk|exact OB].
  - inversion OB as [| |c' k' Hc Hk]; subst. eapply frame_trans; [apply (exec_frame ps c w Hc)|]. apply IH; [exact OA|apply Hk].
Qed.

(** ** programs on different files do not disturb each other *)
(** two worlds look alike to a program on the files [ps] *)
Definition alike (ps : list path) (w w1 : world) : Prop :=
  (forall p, In p ps -> fs_get p (w_fs w) = fs_get p (w_fs w1)) /\ (forall p, fs_is_dir p (w_fs w) = fs_is_dir p (w_fs w1)).
Lemma alike_refl ps w : alike ps w w.
Proof. split; auto. Qed.
Lemma is_dir_file p t q f : fs_is_dir p f = false \/ p = [] -> fs_is_dir q (fs_set p (EFile t) f) = fs_is_dir q f.
Proof.
  intros H. unfold fs_is_dir in *. destruct q as [|x q]; [reflexivity|]. destruct (path_eq_dec (x :: q) p) as [<-|N].
  - rewrite fs_get_set_same. destruct H as [H|H]; [|discriminate]. destruct (fs_get (x :: q) f) as [[|]|]; [discriminate|reflexivity|reflexivity].
  - rewrite fs_get_set_other by exact N. reflexivity.
Qed.
Lemma exec_dirs ps c w p : on_files ps c -> fs_is_dir p (w_fs (snd (exec c w))) = fs_is_dir p (w_fs w).
Proof.
  destruct c; cbn [on_files exec]; intros I; try contradiction; try reflexivity.
  - destruct (fs_get p0 (w_fs w)) as [[|]|]; reflexivity.
  - destruct (fs_get p0 (w_fs w)) as [[|]|] eqn:E; try reflexivity. cbn [snd with_fs w_fs]. apply is_dir_file.
    destruct p0; [auto|]. left. unfold fs_is_dir. rewrite E. reflexivity.
  - destruct (fs_get p0 (w_fs w)) as [[|]|] eqn:E; try reflexivity. cbn [snd with_fs w_fs]. apply is_dir_file.
    destruct p0; [auto|]. left. unfold fs_is_dir. rewrite E. reflexivity.
  - destruct (fs_get p0 (w_fs w)) as [[|]|] eqn:E; try reflexivity.
    + cbn [snd with_fs w_fs]. apply is_dir_file. destruct p0; [auto|]. left. unfold fs_is_dir. rewrite E. reflexivity.
    + destruct (fs_is_dir (parent p0) (w_fs w)); [|reflexivity]. cbn [snd with_fs w_fs]. apply is_dir_file.
      destruct p0; [auto|]. left. unfold fs_is_dir. rewrite E. reflexivity.
Qed.
Lemma exec_alike ps c w w1 : on_files ps c -> alike ps w w1 ->
  fst (exec c w) = fst (exec c w1) /\ alike ps (snd (exec c w)) (snd (exec c w1)).
Proof.
  intros I [A B].
  assert (S : forall p e f f1, (forall q, In q ps -> fs_get q f = fs_get q f1) -> forall q, In q ps -> fs_get q (fs_set p e f) = fs_get q (fs_set p e f1)).
  { intros p e f f1 H q Hq. destruct (path_eq_dec q p) as [->|N]; [rewrite !fs_get_set_same; reflexivity|rewrite !fs_get_set_other by exact N; auto]. }
  assert (DD : forall p, fs_is_dir p (w_fs (snd (exec c w))) = fs_is_dir p (w_fs (snd (exec c w1)))).
  { intros p. rewrite (exec_dirs ps c w p I), (exec_dirs ps c w1 p I). apply B. }
  split; [|split; [|exact DD]]; clear DD.
  - destruct c; cbn [on_files exec] in *; try contradiction; try reflexivity.
    + rewrite (A p I). destruct (fs_get p (w_fs w1)) as [[|]|]; reflexivity.
    + rewrite (A p I). destruct (fs_get p (w_fs w1)) as [[|]|]; reflexivity.
    + rewrite (A p I). destruct (fs_get p (w_fs w1)) as [[|]|]; reflexivity.
    + rewrite (A p I), (B (parent p)). destruct (fs_get p (w_fs w1)) as [[|]|]; try reflexivity. destruct (fs_is_dir (parent p) (w_fs w1)); reflexivity.
  - destruct c; cbn [on_files exec] in *; try contradiction; try exact A.
    + rewrite (A p I). destruct (fs_get p (w_fs w1)) as [[|]|]; exact A.
    + rewrite (A p I). destruct (fs_get p (w_fs w1)) as [[|]|]; try exact A. apply S, A.
    + rewrite (A p I). destruct (fs_get p (w_fs w1)) as [[|]|]; try exact A. apply S, A.
    + rewrite (A p I), (B (parent p)). destruct (fs_get p (w_fs w1)) as [[|]|]; try exact A; [apply S, A|].
      destruct (fs_is_dir (parent p) (w_fs w1)); [apply S, A|exact A].
Qed.
Lemma other_alike ps ps' c w w1 : (forall p, In p ps -> ~ In p ps') -> on_files ps' c -> alike ps w w1 -> alike ps (snd (exec c w)) w1.
Proof.
  intros DJ I [A B]. split.
  - intros p Hp. destruct (exec_frame ps' c w I) as [F _]. rewrite F; auto.
  - intros p. rewrite (exec_dirs ps' c w p I). apply B.
Qed.
Theorem independent {A B} ps1 ps2 (a : io A) (b : io B) w ra rb w' :
  (forall p, In p ps1 -> ~ In p ps2) -> interleave a b w ra rb w' ->
  only (on_files ps1) a -> only (on_files ps2) b -> forall w1 w2, alike ps1 w w1 -> alike ps2 w w2 ->
  ra = fst (run a w1) /\ rb = fst (run b w2) /\ alike ps1 w' (snd (run a w1)) /\ alike ps2 w' (snd (run b w2)).
Proof.
  intros DJ I. assert (DJ' : forall p, In p ps2 -> ~ In p ps1) by (intros p H2 H1; exact (DJ p H1 H2)).
  induction I as [a b ra rb w HA HB|c k b w ra rb w' I IH|a c k w ra rb w' I IH]; intros OA OB w1 w2 A1 A2.
  - destruct a; try contradiction; destruct b; try contradiction; subst; cbn [run fst snd]; auto.
  - inversion OA as [| |c' k' Hc Hk]; subst. destruct (exec_alike ps1 c w w1 Hc A1) as [E A1'].
    cbn [run]. destruct (exec c w1) as [r1 w1']. cbn [fst snd] in *. rewrite E in *.
    apply IH; auto. eapply other_alike; eauto.
  - inversion OB as [| |c' k' Hc Hk]; subst. destruct (exec_alike ps2 c w w2 Hc A2) as [E A2'].
    cbn [run]. destruct (exec c w2) as [r2 w2']. cbn [fst snd] in *. rewrite E in *.
    apply IH; auto. eapply other_alike; eauto.
Qed.

(** one after the other is an interleaving *)
Lemma interleave_seq {A B} (a : io A) (b : io B) w :
  interleave a b w (fst (run a w)) (fst (run b (snd (run a w)))) (snd (run b (snd (run a w)))).
Proof.
  revert w. induction a as [x|e|c k IH]; intros w; cbn [run].
  - cbn [fst snd]. revert w. induction b as [y|e|c k IH]; intros w; cbn [run]; try (apply il_done; reflexivity).
    apply il_right. destruct (exec c w) as [r w1]. apply IH.
  - cbn [fst snd]. revert w. induction b as [y|e'|c k IH]; intros w; cbn [run]; try (apply il_done; reflexivity).
    apply il_right. destruct (exec c w) as [r w1]. apply IH.
  - apply il_left. destruct (exec c w) as [r w1]. apply IH.
Qed.

Section Isolation.
  Context {rt : PyRt}.
  Theorem query_isolated q g w p : ~ In p (the_files g) -> fs_get p (w_fs (snd (run (query q g) w))) = fs_get p (w_fs w).
  Proof. apply (only_run_frame (the_files g) (query q g) w (only_query q g)). Qed.
  Theorem make_isolated l g w p : ~ In p (the_files g) -> fs_get p (w_fs (snd (run (make l g) w))) = fs_get p (w_fs w).
  Proof. apply (only_run_frame (the_files g) (make l g) w (only_make l g)). Qed.
  Theorem crash_isolated q g w w' p : crash (query q g) w w' -> ~ In p (the_files g) -> fs_get p (w_fs w') = fs_get p (w_fs w).
  Proof. intros C. apply (only_crash_frame (the_files g) (query q g) w w' (only_query q g) C). Qed.
  Theorem graphs_independent q1 g1 q2 g2 w r1 r2 w' :
    (forall p, In p (the_files g1) -> ~ In p (the_files g2)) ->
    interleave (query q1 g1) (query q2 g2) w r1 r2 w' ->
    r1 = fst (run (query q1 g1) w) /\ r2 = fst (run (query q2 g2) w) /\
    (forall p, In p (the_files g1) -> fs_get p (w_fs w') = fs_get p (w_fs (snd (run (query q1 g1) w)))) /\
    (forall p, In p (the_files g2) -> fs_get p (w_fs w') = fs_get p (w_fs (snd (run (query q2 g2) w)))) /\
    (forall p, ~ In p (the_files g1) -> ~ In p (the_files g2) -> fs_get p (w_fs w') = fs_get p (w_fs w)).
  Proof.
    intros DJ I. destruct (independent _ _ _ _ _ _ _ _ DJ I (only_query q1 g1) (only_query q2 g2) w w (alike_refl _ _) (alike_refl _ _)) as (E1 & E2 & [A1 _] & [A2 _]).
    do 2 (split; [assumption|]). split; [exact A1|]. split; [exact A2|]. intros p N1 N2.
    assert (M : forall c, on_files (the_files g1) c -> on_files (the_files g1 ++ the_files g2) c)
      by (intros []; cbn [on_files]; auto; intros H; apply in_app_iff; auto).
    assert (M' : forall c, on_files (the_files g2) c -> on_files (the_files g1 ++ the_files g2) c)
      by (intros []; cbn [on_files]; auto; intros H; apply in_app_iff; auto).
    destruct (only_interleave_frame (the_files g1 ++ the_files g2) _ _ _ _ _ _ (only_impl _ _ _ M (only_query q1 g1)) (only_impl _ _ _ M' (only_query q2 g2)) I) as [F _].
    apply F. rewrite in_app_iff. tauto.
  Qed.
End Isolation.
