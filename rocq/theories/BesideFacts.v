(** * BesideFacts: a FIND while a MAKE works on the same graph *)
From Verif Require Import PyBase BaseFacts Json JsonFacts JsonMore SpecJson RtLaws Props PropsFacts Checks Statements SpecPattern Data FS FSFacts Store
  SpecStore StoreFacts IndexText Make SpecMake MakeFacts MakeRun MakeMore MakeFinal SpecShell Confine SpecCrash HistoryFacts CrashFacts SpecConc ConcFacts
  Find Query SpecFind PatternFacts FindFacts SpecBeside.
From Coq Require Import ZifyBool ZifyN ZifyNat.

(** ** whole steps of a program *)
Inductive passes {A} : io A -> world -> io A -> world -> Prop :=
| pass_here : forall m w, passes m w m w
| pass_step : forall c k w m' v, passes (k (fst (exec c w))) (snd (exec c w)) m' v -> passes (Do c k) w m' v.
Definition at_step {A} (m : io A) (w v : world) : Prop := exists m', passes m w m' v.

Lemma passes_trans {A} (a b c : io A) u v w : passes a u b v -> passes b v c w -> passes a u c w.
Proof. induction 1; [auto|]. intros. apply pass_step. auto. Qed.
Lemma passes_run {A} (a b : io A) u v : passes a u b v -> run a u = run b v.
Proof. induction 1 as [|c k w m' v P IH]; [reflexivity|]. cbn [run]. destruct (exec c w). exact IH. Qed.
Lemma passes_only {A} P (a b : io A) u v : passes a u b v -> only P a -> only P b.
Proof. induction 1 as [|c k w m' v H IH]; intros O; [exact O|]. apply IH. inversion O; auto. Qed.
Lemma at_crash {A} (m : io A) w v : at_step m w v -> crash m w v.
Proof. intros (m' & P). induction P; [constructor|]. apply crash_later. exact IHP. Qed.
Lemma at_bind {A B} (m : io A) (f : A -> io B) w v : at_step (io_bind m f) w v -> at_step m w v \/ exists a w1, run m w = (Ok a, w1) /\ at_step (f a) w1 v.
Proof.
  revert w; induction m as [a|e|c k IH]; intros w (m' & H); cbn [io_bind] in H.
  - right. exists a, w. split; [reflexivity|exists m'; exact H].
  - inversion H; subst. left. exists (Throw e). constructor.
  - inversion H; subst.
    + left. eexists. constructor.
    + cbn [run]. destruct (exec c w) as [r w1] eqn:E. cbn [fst snd] in *.
      destruct (IH r w1 (ex_intro _ _ H5)) as [(m1 & X)|(a & w2 & H1 & H2)].
      * left. exists m1. apply pass_step. rewrite E. exact X.
      * right. exists a, w2. auto.
Qed.
Lemma at_unit c w v : at_step (do_unit c) w v -> v = w \/ v = snd (exec c w).
Proof.
  intros (m' & H). inversion H as [|c' k' w0 m0 v0 P]; subst; [auto|]. right. clear H. destruct (exec c w) as [r w1]. cbn [fst snd] in *.
  destruct r; inversion P; reflexivity.
Qed.

(** the first operation of a process comes after some steps of the other *)
Lemma first_left {A B} c k (b : io B) w tr (ra : res A) rb w' : schedule (Do c k) b w tr ra rb w' ->
  exists b1 w1 tr1, passes b w b1 w1 /\ schedule (k (fst (exec c w1))) b1 (snd (exec c w1)) tr1 ra rb w'.
Proof.
  intros H. remember (Do c k) as a eqn:E. revert E.
  induction H as [a b ra rb w HA HB|c' k' b w tr ra rb w' H IH|a c' k' w tr ra rb w' H IH]; intros E; subst.
  - contradiction.
  - inversion E; subst. exists b, w, tr. split; [constructor|exact H].
  - destruct (IH eq_refl) as (b1 & w1 & tr1 & P & S). exists b1, w1, tr1. split; [apply pass_step; exact P|exact S].
Qed.

(** ** a process that only reads and prints does not disturb the other *)
Definition quiet (c : cmd) : Prop := match c with CRead _ | CPrint _ => True | _ => False end.
Lemma quiet_fs c w : quiet c -> w_fs (snd (exec c w)) = w_fs w.
Proof. destruct c; cbn [quiet exec]; try contradiction; intros _; [|reflexivity]. destruct (fs_get p (w_fs w)) as [[|]|]; reflexivity. Qed.
Lemma exec_fs ps c w w1 : on_files ps c -> w_fs w = w_fs w1 -> fst (exec c w) = fst (exec c w1) /\ w_fs (snd (exec c w)) = w_fs (snd (exec c w1)).
Proof.
  intros H E. destruct c; cbn [on_files exec] in *; try contradiction; try (split; [reflexivity|exact E]); rewrite E.
  - destruct (fs_get p (w_fs w1)) as [[|]|]; split; auto.
  - destruct (fs_get p (w_fs w1)) as [[|]|]; split; auto.
  - destruct (fs_get p (w_fs w1)) as [[|]|]; split; auto.
  - destruct (fs_get p (w_fs w1)) as [[|]|]; try (split; auto). destruct (fs_is_dir (parent p) (w_fs w1)); split; auto.
    all: destruct (fs_is_dir (parent p) (w_fs w1)); auto.
Qed.
Lemma run_fs {A} ps (m : io A) w w1 : only (on_files ps) m -> w_fs w = w_fs w1 ->
  fst (run m w) = fst (run m w1) /\ w_fs (snd (run m w)) = w_fs (snd (run m w1)).
Proof.
  intros O. revert w w1. induction O as [a|e|c k Hc Hk IH]; intros w w1 E; cbn [run]; [split; auto|split; auto|].
  destruct (exec_fs ps c w w1 Hc E) as [E1 E2]. destruct (exec c w) as [r v], (exec c w1) as [r1 v1]. cbn [fst snd] in *. subst r1. apply IH. exact E2.
Qed.
Theorem undisturbed {A B} ps (a : io A) (b : io B) w tr ra rb w' : schedule a b w tr ra rb w' -> only quiet a -> only (on_files ps) b ->
  forall w1, w_fs w = w_fs w1 -> rb = fst (run b w1) /\ w_fs w' = w_fs (snd (run b w1)).
Proof.
  induction 1 as [a b ra rb w HA HB|c k b w tr ra rb w' H IH|a c k w tr ra rb w' H IH]; intros OA OB w1 E.
  - destruct b; try contradiction; subst; cbn [run fst snd]; auto.
  - inversion OA as [| |c' k' Hc Hk]; subst. apply IH; auto. rewrite quiet_fs; auto.
  - inversion OB as [| |c' k' Hc Hk]; subst. destruct (exec_fs ps c w w1 Hc E) as [E1 E2]. cbn [run].
    destruct (exec c w1) as [r1 v1]. cbn [fst snd] in *. rewrite E1 in *. apply IH; auto.
Qed.

Section Beside.
  Context {rt : PyRt}.

  Lemma quiet_load p name : only quiet (load_index_set p name).
  Proof.
    unfold load_index_set, read_json. apply only_catch.
    - apply only_bind; [apply only_bind; [apply only_text; exact I|intros; apply only_lift]|intros; apply only_lift].
    - intros e m' H. destruct e; inversion H; constructor.
  Qed.
  Lemma quiet_find f g : only quiet (find f g).
  Proof.
    unfold find. apply only_bind; [apply only_lift|]. intros fp. apply only_bind.
    - unfold find_short_circuit. apply only_bind; [apply quiet_load|]. intros ls. apply only_bind; [apply quiet_load|]. intros ns.
      destruct (negb _); [constructor|]. destruct (relationship_name_is_in_index _ _); constructor.
    - intros [|]; [constructor|]. apply only_bind; [apply only_unit; exact I|]. intros; constructor.
  Qed.
  Theorem make_undisturbed f l g w tr rf rm w' : schedule (find f g) (make l g) w tr rf rm w' ->
    rm = fst (run (make l g) w) /\ w_fs w' = w_fs (snd (run (make l g) w)).
  Proof. intros H. eapply undisturbed; [exact H|apply quiet_find|apply only_make|reflexivity]. Qed.

  (** ** what the reader reads *)
  Lemma load_shape p name : exists k, load_index_set p name = Do (CRead p) k /\ forall r, (exists l, k r = Ret l) \/ (exists e, k r = Throw e).
  Proof.
    unfold load_index_set, read_json. cbn [do_text io_bind io_catch]. eexists. split; [reflexivity|].
    intros r.
    assert (H : forall (m : io (list pystr)) h, ((exists l, m = Ret l) \/ (exists e, m = Throw e)) ->
      (forall e m', h e = Some m' -> exists l, m' = Ret l) -> (exists l, io_catch m h = Ret l) \/ (exists e, io_catch m h = Throw e)).
    { clear. intros m h [(l & ->)|(e & ->)] Hh; cbn [io_catch]; [eauto|]. destruct (h e) as [m'|] eqn:E; [|eauto]. destruct (Hh e m' E) as (l & ->). eauto. }
    apply H; clear H.
    - destruct r; cbn [io_bind]; try (right; eexists; reflexivity). destruct (load_json t) as [v|e]; cbn [lift io_bind]; [|eauto].
      destruct (let? x := index_get name v in str_set x) as [l|e]; cbn [lift]; eauto.
    - intros e m'. destruct e; intros E; inversion E; eauto.
  Qed.
  Lemma load_sees {A B} p name (C : io (list pystr) -> io A) (b : io B) w tr ra rb w' :
    (forall c k, C (Do c k) = Do c (fun r => C (k r))) -> (forall e, C (Throw e) = Throw e) ->
    schedule (C (load_index_set p name)) b w tr ra rb w' ->
    exists b1 w1 tr1 r, passes b w b1 w1 /\ run (load_index_set p name) w1 = (r, w1) /\
      schedule (match r with Ok l => C (Ret l) | Err e => Throw e end) b1 w1 tr1 ra rb w'.
  Proof.
    intros CD CT. destruct (load_shape p name) as (k & E & Hk). rewrite E, CD. intros H. apply first_left in H as (b1 & w1 & tr1 & P & H).
    exists b1, w1, tr1. assert (X : snd (exec (CRead p) w1) = w1) by (apply reads_only_exec; exact I).
    rewrite X in H. cbn [run]. destruct (exec (CRead p) w1) as [r v]. cbn [fst snd] in *. subst v.
    destruct (Hk r) as [(l & El)|(e & El)]; rewrite El in *; cbn [run] in *; rewrite ?CT in H; eexists; (split; [exact P|]; split; [reflexivity|exact H]).
  Qed.
  Lemma print_end {A B} t (x : A) (b : io B) w tr ra rb w' : schedule (let! _ := do_unit (CPrint t) in Ret x) b w tr ra rb w' -> ra = Ok x.
  Proof.
    cbn [do_unit io_bind]. intros H. apply first_left in H as (b1 & w1 & tr1 & _ & H). cbn [exec fst snd io_bind] in H.
    apply alone_right in H as [H _]; [exact H|discriminate].
  Qed.

  (** a FIND reads the labels at one moment and the names at the same or a later one *)
  Lemma find_reads {B} f g fp (b : io B) w tr rf rb w' : process_parsed_find f = Ok fp -> schedule (find f g) b w tr rf rb w' ->
    exists w1 w2 rl, at_step b w w1 /\ at_step b w w2 /\ run (load_node_labels_index (indexes_fp g)) w1 = (rl, w1) /\
      match rl with
      | Err e => rf = Err e
      | Ok ls => exists rn, run (load_relationship_names_index (indexes_fp g)) w2 = (rn, w2) /\
          match rn with
          | Err e => rf = Err e
          | Ok ns => rf = if node_label_is_in_index (fp_labels fp) ls && negb (relationship_name_is_in_index (fp_names fp) ns) then something else nothing
          end
      end.
  Proof.
    intros E H. unfold find in H. rewrite E in H. cbn [lift io_bind] in H.
    unfold find_short_circuit in H.
    apply (load_sees (indexes_fp g) NODE_LABELS (fun m => io_bind (io_bind m _) _)) in H; [|reflexivity|reflexivity].
    destruct H as (b1 & w1 & tr1 & rl & P1 & R1 & H). exists w1.
    destruct rl as [ls|e].
    2:{ exists w1, (Err e). assert (at_step b w w1) by (exists b1; exact P1). apply alone_right in H as [H _]; [|discriminate]. auto. }
    cbn [io_bind] in H. apply (load_sees (indexes_fp g) RELATIONSHIP_NAMES (fun m => io_bind (io_bind m _) _)) in H; [|reflexivity|reflexivity].
    destruct H as (b2 & w2 & tr2 & rn & P2 & R2 & H). exists w2, (Ok ls).
    split; [exists b1; exact P1|]. split; [exists b2; eapply passes_trans; eauto|]. split; [exact R1|]. exists rn. split; [exact R2|].
    destruct rn as [ns|e].
    - cbn [io_bind] in H. destruct (node_label_is_in_index (fp_labels fp) ls); cbn [negb andb io_bind] in *.
      + destruct (relationship_name_is_in_index (fp_names fp) ns); cbn [negb io_bind] in *; [apply print_end in H; exact H|].
        apply alone_right in H as [H _]; [exact H|discriminate].
      + apply print_end in H. exact H.
    - apply alone_right in H as [H _]; [exact H|discriminate].
  Qed.

  (** ** the indexes file while a MAKE runs *)
  Lemma at_ret {A} (a : A) w v : at_step (Ret a) w v -> v = w.
  Proof. intros (m & H). inversion H; reflexivity. Qed.
  Lemma at_rewrite p off v t w w' : has_file p t w -> off <= List.length t -> snd (dump_top Indent4 v) = true ->
    (off = List.length t \/ off = 0 /\ List.length t <= List.length (dump_text Indent4 v)) ->
    at_step (let! n := write_json p off v in let! _ := do_unit (CTrunc p n) in Ret true) w w' ->
    w' = w \/ w' = put p (firstn off t ++ dump_text Indent4 v) w.
  Proof.
    intros F L S Long H.
    assert (WA : write_at t off (dump_text Indent4 v) = firstn off t ++ dump_text Indent4 v).
    { destruct Long as [-> |[-> Long]]; [rewrite write_at_end, firstn_all; reflexivity|]. rewrite write_at_0_long by exact Long. reflexivity. }
    apply at_bind in H as [H|(n & w1 & R & H)].
    - unfold write_json in H. unfold dump_text in *. destruct (dump_top Indent4 v) as [s ok]. cbn [fst snd] in *. subst ok.
      apply at_bind in H as [H|(u & w1 & R & H)].
      + apply at_unit in H as [-> | ->]; [auto|]. right. unfold has_file, get in F. cbn [exec]. rewrite F. cbn [snd]. rewrite WA. reflexivity.
      + rewrite (run_write p off s t w F) in R. inv R. apply at_ret in H. subst w'. right. rewrite WA. reflexivity.
    - rewrite (run_write_json p off v t w F), S in R. inv R. rewrite WA in *.
      right. apply at_bind in H as [H|(u & w1 & R & H)].
      + apply at_unit in H as [-> | ->]; [reflexivity|]. pose proof (put_has p (firstn off t ++ dump_text Indent4 v) w) as P. unfold has_file, get in P.
        cbn [exec]. rewrite P. cbn [snd]. change (with_fs ?a (fs_set ?p (EFile ?t) (w_fs ?a))) with (put p t a). rewrite put_put.
        rewrite firstn_all2; [reflexivity|]. rewrite app_length, firstn_length. lia.
      + rewrite (run_trunc _ _ _ _ (put_has p _ w)) in R. inv R. apply at_ret in H. subst w'.
        rewrite put_put. rewrite firstn_all2; [reflexivity|]. rewrite app_length, firstn_length. lia.
  Qed.
  Lemma at_add_set p items name ix ix' st w w' : index_ok ix -> has_file p (dump_text st (index_val ix)) w -> index_ok ix' ->
    List.length (dump_text st (index_val ix)) <= List.length (ix_text ix') ->
    run (add_items_set p items name) w = (Ok true, put p (ix_text ix') w) ->
    at_step (add_items_set p items name) w w' -> w' = w \/ w' = put p (ix_text ix') w.
  Proof.
    intros IO F IO' Long R H. assert (FI : ix_file_is p ix w) by (split; eauto).
    unfold add_items_set in *.
    rewrite run_bind, run_read_json, (ix_file_parse p ix w FI) in R.
    apply at_bind in H as [H|(v & w1 & R1 & H)]; [left; eapply crash_read_json, at_crash, H|].
    rewrite run_read_json, (ix_file_parse p ix w FI) in R1. injection R1 as <- <-.
    rewrite run_bind, run_lift in R. apply at_bind in H as [H|(cur & w1 & R1 & H)]; [left; eapply crash_lift, at_crash, H|].
    rewrite run_lift in R1. apply pair_inv in R1 as [R2 <-]. rewrite R2 in R. clear R2.
    rewrite run_bind, run_lift in R. apply at_bind in H as [H|(idx & w1 & R1 & H)]; [left; eapply crash_lift, at_crash, H|].
    rewrite run_lift in R1. apply pair_inv in R1 as [R2 <-]. rewrite R2 in R. clear R2.
    rewrite run_bind, (run_write_json p 0 idx _ w F) in R. destruct (snd (dump_top Indent4 idx)) eqn:Sx; [|discriminate].
    rewrite run_bind, (run_trunc p _ _ _ (put_has p _ _)), put_put in R. cbn [run] in R.
    rewrite firstn_write_at in R by lia. cbn [firstn app] in R.
    apply pair_inv in R as [_ R']. apply (f_equal (get p)) in R'. rewrite !get_put_same in R'. assert (R'' := f_equal (fun e => match e with Some (EFile t) => t | _ => [] end) R'); cbv beta iota in R''. rewrite <- R'' in *.
    apply (at_rewrite p 0 idx _ w w' F) in H; [|lia|exact Sx|right; split; [reflexivity|exact Long]]. exact H.
  Qed.
  Lemma at_add_rels p items ix st w w' : rt_ok rt -> items_ok items ->
    index_ok ix -> has_file p (dump_text st (index_val ix)) w ->
    at_step (add_items_to_node_relationships_index p items) w w' ->
    w' = w \/ w' = snd (run (add_items_to_node_relationships_index p items) w).
  Proof.
    intros RO HI IO F H. assert (FI : ix_file_is p ix w) by (split; eauto).
    assert (R : run (add_items_to_node_relationships_index p items) w = (Ok true, snd (run (add_items_to_node_relationships_index p items) w))).
    { destruct items as [|i items]; [rewrite (run_add_rels_none p ix st w IO F)|rewrite (run_add_rels p (i :: items) ix w RO HI ltac:(discriminate) FI)]; reflexivity. }
    assert (LG : items <> [] -> snd (run (add_items_to_node_relationships_index p items) w) =
       put p (dump_text Indent4 (index_val (with_rels ix (rel_add_all items (ix_rels ix))))) w).
    { intros NE. rewrite (run_add_rels p items ix w RO HI NE FI). reflexivity. }
    pose proof (text_rels RO ix items st IO HI) as Long.
    set (W := snd (run (add_items_to_node_relationships_index p items) w)) in *. clearbody W.
    unfold add_items_to_node_relationships_index in *.
    assert (RD : run (do_text (CRead p)) w = (Ok (dump_text st (index_val ix)), w)).
    { rewrite run_read. unfold has_file in F. rewrite F. reflexivity. }
    rewrite run_bind, RD in R.
    apply at_bind in H as [H|(v & w1 & R1 & H)]; [left; eapply crash_read, at_crash, H|].
    rewrite RD in R1. injection R1 as <- <-.
    do 4 (rewrite run_bind, run_lift in R; apply at_bind in H as [H|(? & ? & R1 & H)]; [left; eapply crash_lift, at_crash, H|];
      rewrite run_lift in R1; apply pair_inv in R1 as [R2 <-]; rewrite R2 in R; clear R2).
    match type of H with at_step (let! _ := write_json p ?off ?idx in _) ?w3 _ =>
      set (o := off) in *; set (ii := idx) in * end.
    rewrite run_bind, (run_write_json p o ii _ _ F) in R. destruct (snd (dump_top Indent4 ii)) eqn:Sx; [|discriminate].
    assert (OL : o <= List.length (dump_text st (index_val ix))) by (unfold o; destruct items; lia).
    rewrite run_bind, (run_trunc p _ _ _ (put_has p _ _)), put_put in R. cbn [run] in R.
    rewrite firstn_write_at in R by exact OL. apply pair_inv in R as [_ R].
    apply (at_rewrite p o ii _ _ w' F OL Sx) in H.
    - destruct H as [H|H]; [auto|]. right. rewrite H. exact R.
    - destruct items as [|i items]; [left; reflexivity|]. right. split; [reflexivity|].
      rewrite LG in R by discriminate. cbn [o firstn app] in R. apply (f_equal (get p)) in R. rewrite !get_put_same in R.
      injection R as R. rewrite R. exact Long.
  Qed.

  Context (D : rt_data rt).
  Context (g : gdbms) (G : graph) (w : world) (S : stored g G w).
  Local Notation ixf := (indexes_fp g).

  (** the indexes file at any moment of a MAKE: untouched, or grown, or spoilt by a second document *)
  Lemma make_steps l v : Forall names_ok (patterns_of l) -> at_step (make l g) w v ->
    get ixf v = get ixf w \/
    ((exists w', run (make l g) w = (Ok true, w')) /\
     exists ix' lb nm, index_file ixf ix' v /\ added (patterns_of l) (g_next G) true lb nm (g_ix G) ix') \/
    ((exists w', run (make l g) w = (Err JSONDecodeError, w')) /\ exists t, file_is ixf t v /\ load_json t = Err JSONDecodeError).
  Proof.
    intros N H. pose proof (ne_di g G w S) as N1. pose proof (ne_dw g G w S) as N2. pose proof (ne_iw g G w S) as N3.
    destruct (st_ix _ _ _ S) as (st & Fi). change (has_file ixf (dump_text st (index_val (g_ix G))) w) in Fi.
    assert (H0 := H). unfold make in H.
    apply at_bind in H as [H|(z & w1 & R & H)]; [left; f_equal; eapply crash_get_wn, at_crash, H|].
    rewrite (stored_counter g G w S) in R. injection R as <- <-.
    apply at_bind in H as [H|(pm & w1 & R & H)]; [left; f_equal; eapply crash_lift, at_crash, H|].
    rewrite run_lift in R. unfold process_parsed_make_list in R. fold (patterns_of l) in R.
    destruct (prepare_spec (patterns_of l) (g_next G)) as [(ms & nss & items & E1 & E2 & RD)|(NA & [(e & E)|(ms & e & E1 & E2)])].
    2:{ rewrite E in R. discriminate. }
    2:{ rewrite E1 in R. injection R as <- <-. cbv beta iota in H.
        apply at_bind in H as [H|(nodes & w1 & R & H)]; [left; f_equal; eapply crash_lift, at_crash, H|]. rewrite run_lift, E2 in R. discriminate. }
    rewrite E1 in R. injection R as <- <-. cbv beta iota in H.
    apply at_bind in H as [H|(nodes & w1 & R & H)]; [left; f_equal; eapply crash_lift, at_crash, H|].
    rewrite run_lift, E2 in R. injection R as <- <-. unfold add_nodes_to_graph in H. rewrite (rd_nodes _ _ _ _ _ RD) in H.
    assert (Acc : acceptable (patterns_of l) (g_next G) items) by (split; apply RD).
    set (ps := patterns_of l) in *. set (i0 := dump_text st (index_val (g_ix G))) in *.
    assert (E : entries_all ps (g_next G) items) by apply RD.
    assert (V : dict_ok (g_db G ++ items)) by (eapply stored_join; eauto).
    apply at_bind in H as [H|(b & w1 & R1 & H)].
    { apply at_crash, (crash_add_item _ _ _ _ _ (stored_db g G w S) V) in H as (d & -> & _). left. apply get_put_other. congruence. }
    rewrite (write_new_db _ _ _ _ (stored_db g G w S) V) in R1. destruct (dict_ser items) eqn:Sr; [|discriminate].
    apply pair_inv in R1 as [_ <-]. fold (db_text (g_db G ++ items)) in H.
    set (wd := put (database_fp g) (db_text (g_db G ++ items)) w) in *.
    assert (Fi1 : has_file ixf i0 wd) by (apply has_put_other; [congruence|exact Fi]).
    assert (Gi : get ixf wd = get ixf w) by (rewrite Fi; exact Fi1).
    assert (IO : index_ok (g_ix G)) by apply (st_ok _ _ _ S).
    assert (IX : ix_file_is ixf (g_ix G) wd) by (split; [exact IO|exists st; exact Fi1]).
    destruct (owns_dec ps (g_next G)) as [O|O].
    - destruct (make_succeeds D g G w S l items N Acc Sr O) as (G' & wS & RS & _).
      assert (RI : rel_index_items (concat nss) <> []).
      { intros E0. destruct O as (k & z & O). exact (proj1 (rd_none _ _ _ _ _ RD) E0 k z O). }
      destruct (rel_add_all_ok (rel_index_items (concat nss)) (ix_rels (g_ix G)) (rt_base _ D) (rd_rels_ok _ _ _ _ _ RD) (rels_ok_index _ IO))
        as [RO RM].
      pose proof (run_add_rels _ _ _ _ (rt_base _ D) (rd_rels_ok _ _ _ _ _ RD) RI IX) as ER.
      set (rels := rel_add_all (rel_index_items (concat nss)) (ix_rels (g_ix G))) in *.
      set (ix1 := with_rels (g_ix G) rels) in *.
      assert (IO1 : index_ok ix1). { destruct IO. destruct RO as (? & ? & ?). constructor; assumption. }
      assert (A1 : added ps (g_next G) true false false (g_ix G) ix1).
      { split; [|split].
        - intros k z. change (ix_rels ix1) with rels. rewrite RM, (rd_rels _ _ _ _ _ RD). tauto.
        - intros s. change (ix_labels ix1) with (ix_labels (g_ix G)). split; [auto|]. intros [?|[? _]]; [auto|discriminate].
        - intros s. change (ix_names ix1) with (ix_names (g_ix G)). split; [auto|]. intros [?|[? _]]; [auto|discriminate]. }
      fold (ix_text ix1) in ER. set (w1 := put ixf (ix_text ix1) wd) in *.
      assert (IX1 : ix_file_is ixf ix1 w1) by (split; [exact IO1|exists Indent4; apply put_has]).
      assert (LO : Forall str_ok (labels_to_add ms)).
      { apply Forall_forall. intros s Hs. apply (rd_labels _ _ _ _ _ RD) in Hs. eapply names_str_ok; eauto. }
      assert (NO : Forall str_ok (names_to_add ms)).
      { apply Forall_forall. intros s Hs. apply (rd_names _ _ _ _ _ RD) in Hs. eapply names_str_ok; eauto. }
      destruct (run_add_labels _ _ _ _ (rt_base _ D) LO IX1) as (ls & EL & NL & OL & ML).
      pose proof (text_labels ix1 ls Indent4 IO1 (fun s Hs => proj2 (ML s) (or_introl Hs))) as L2.
      set (ix2 := with_labels ix1 ls) in *.
      assert (IO2 : index_ok ix2) by (destruct IO1; constructor; assumption).
      assert (A2 : added ps (g_next G) true true false (g_ix G) ix2).
      { destruct A1 as (A & B & C). split; [exact A|]. split; [|exact C].
        intros s. change (ix_labels ix2) with ls. rewrite ML, (rd_labels _ _ _ _ _ RD). change (ix_labels ix1) with (ix_labels (g_ix G)). tauto. }
      fold (ix_text ix2) in EL. set (w2 := put ixf (ix_text ix2) w1) in *.
      assert (IX2 : ix_file_is ixf ix2 w2) by (split; [exact IO2|exists Indent4; apply put_has]).
      destruct (run_add_names _ _ _ _ (rt_base _ D) NO IX2) as (na & EN & NN & ON & MN).
      pose proof (text_names ix2 na Indent4 IO2 (fun s Hs => proj2 (MN s) (or_introl Hs))) as L3.
      set (ix3 := with_names ix2 na) in *.
      assert (IO3 : index_ok ix3) by (destruct IO2; constructor; assumption).
      assert (A3 : added ps (g_next G) true true true (g_ix G) ix3).
      { destruct A2 as (A & B & C). split; [exact A|]. split; [exact B|].
        intros s. change (ix_names ix3) with na. rewrite MN, (rd_names _ _ _ _ _ RD). change (ix_names ix2) with (ix_names (g_ix G)). tauto. }
      fold (ix_text ix3) in EN. set (w3 := put ixf (ix_text ix3) w2) in *.
      assert (IX3 : ix_file_is ixf ix3 w3) by (split; [exact IO3|exists Indent4; apply put_has]).
      assert (Seen : forall ix' u lb nm, ix_file_is ixf ix' u -> added ps (g_next G) true lb nm (g_ix G) ix' -> get ixf v = get ixf u ->
        get ixf v = get ixf w \/ ((exists w', run (make l g) w = (Ok true, w')) /\ exists ix' lb nm, index_file ixf ix' v /\ added ps (g_next G) true lb nm (g_ix G) ix') \/
        ((exists w', run (make l g) w = (Err JSONDecodeError, w')) /\ exists t, file_is ixf t v /\ load_json t = Err JSONDecodeError)).
      { intros ix' u lb nm (I' & st' & F') A' Ev. right. left. split; [eauto|]. exists ix', lb, nm. split; [|exact A']. split; [exact I'|]. exists st'.
        unfold file_is. change (get ixf v = Some (EFile (dump_text st' (index_val ix')))). rewrite Ev. exact F'. }
      apply at_bind in H as [H|(b' & w4 & R3 & H)].
      + unfold add_indexes in H. apply at_bind in H as [H|(b1 & w4 & R4 & H)].
        { apply (at_add_rels _ _ (g_ix G) st _ _ (rt_base _ D) (rd_rels_ok _ _ _ _ _ RD) IO Fi1) in H as [-> | ->]; [auto|].
          eapply Seen; [exact IX1|exact A1|rewrite ER; reflexivity]. }
        rewrite ER in R4. apply pair_inv in R4 as [_ <-].
        apply at_bind in H as [H|(b2 & w4 & R4 & H)].
        { apply (at_add_set _ _ _ ix1 ix2 Indent4 _ _ IO1 (put_has _ _ _) IO2 L2 EL) in H as [-> | ->];
            [eapply Seen; [exact IX1|exact A1|reflexivity]|eapply Seen; [exact IX2|exact A2|reflexivity]]. }
        rewrite EL in R4. apply pair_inv in R4 as [_ <-].
        apply at_bind in H as [H|(b3 & w4 & R4 & H)].
        { apply (at_add_set _ _ _ ix2 ix3 Indent4 _ _ IO2 (put_has _ _ _) IO3 L3 EN) in H as [-> | ->];
            [eapply Seen; [exact IX2|exact A2|reflexivity]|eapply Seen; [exact IX3|exact A3|reflexivity]]. }
        rewrite EN in R4. apply pair_inv in R4 as [_ <-]. apply at_ret in H. subst v. eapply Seen; [exact IX3|exact A3|reflexivity].
      + unfold add_indexes in R3. rewrite run_bind, ER in R3. rewrite run_bind, EL in R3. rewrite run_bind, EN in R3. cbn [run] in R3.
        apply pair_inv in R3 as [_ <-].
        assert (F3 : has_file (wiggle_number_fp g) (str_of_Z (g_next G)) w3).
        { unfold w3, w2, w1, wd. repeat (apply has_put_other; [congruence|]). apply S. }
        eapply Seen; [exact IX3|exact A3|]. apply at_bind in H as [H|(b4 & w4 & R4 & H)].
        * apply at_crash, (crash_update_wn _ _ _ _ _ F3) in H as [-> |(c & -> & _)]; [reflexivity|]. apply get_put_other. congruence.
        * rewrite (run_update_wn _ _ _ _ F3) in R4. apply pair_inv in R4 as [_ <-]. apply at_ret in H. subst v. apply get_put_other. congruence.
    - assert (B : load_json (i0 ++ ix_text (g_ix G)) = Err JSONDecodeError).
      { pose proof (doubled_index st Indent4 (g_ix G) [] IO) as B. rewrite app_nil_r in B. exact B. }
      pose proof (make_no_owner D g G w S l items st N Acc Sr O Fi) as RS.
      pose proof (rd_rels_ok _ _ _ _ _ RD) as RI. rewrite (proj2 (rd_none _ _ _ _ _ RD) O) in RI.
      pose proof (run_add_rels_none _ _ st _ IO Fi1) as ER. fold i0 in ER. fold (ix_text (g_ix G)) in ER.
      set (w1 := put ixf (i0 ++ ix_text (g_ix G)) wd) in *.
      assert (Spoilt : get ixf v = get ixf w1 ->
        get ixf v = get ixf w \/ ((exists w', run (make l g) w = (Ok true, w')) /\ exists ix' lb nm, index_file ixf ix' v /\ added ps (g_next G) true lb nm (g_ix G) ix') \/
        ((exists w', run (make l g) w = (Err JSONDecodeError, w')) /\ exists t, file_is ixf t v /\ load_json t = Err JSONDecodeError)).
      { intros Ev. right. right. split; [eauto|]. exists (i0 ++ ix_text (g_ix G)). split; [|exact B]. unfold file_is. change (get ixf v = Some (EFile (i0 ++ ix_text (g_ix G)))).
        rewrite Ev. apply put_has. }
      apply at_bind in H as [H|(b' & w3 & R3 & H)].
      + unfold add_indexes in H. rewrite (proj2 (rd_none _ _ _ _ _ RD) O) in H.
        apply at_bind in H as [H|(b1 & w4 & R4 & H)].
        { apply (at_add_rels _ _ (g_ix G) st _ _ (rt_base _ D) RI IO Fi1) in H as [-> | ->]; [auto|]. apply Spoilt. rewrite ER. reflexivity. }
        rewrite ER in R4. apply pair_inv in R4 as [_ <-].
        apply at_bind in H as [H|(b2 & w4 & R4 & H)].
        2:{ unfold w1 in R4. rewrite (run_add_labels_bad _ _ _ _ (put_has _ _ _) B) in R4. discriminate. }
        apply Spoilt. f_equal. unfold add_items_to_node_labels_index, add_items_set in H.
        apply at_bind in H as [H|(x & w4 & R4 & H)]; [eapply crash_read_json, at_crash, H|].
        unfold w1 in R4. rewrite run_read_json, (parse_res_bad _ _ _ _ (put_has _ _ _) B) in R4. discriminate.
      + unfold add_indexes in R3. rewrite (proj2 (rd_none _ _ _ _ _ RD) O) in R3.
        rewrite run_bind, ER in R3. unfold w1 in R3.
        rewrite run_bind, (run_add_labels_bad _ _ _ _ (put_has _ _ _) B) in R3. discriminate.
  Qed.

  (** ** the answer *)
  Lemma labels_at l v : Forall names_ok (patterns_of l) -> at_step (make l g) w v ->
    exists m ls, run (load_node_labels_index ixf) v = (Ok ls, v) /\ (forall s, In s ls <-> labels_met (patterns_of l) G m s) /\
      (m = After -> exists w', run (make l g) w = (Ok true, w')) /\ (m = Unreadable -> exists w', run (make l g) w = (Err JSONDecodeError, w')).
  Proof.
    intros N H. destruct (make_steps l v N H) as [E|[(RS & ix' & lb & nm & F & A)|(RS & t & F & B)]].
    - exists Before, (ix_labels (g_ix G)). split; [|split; [intros; reflexivity|split; discriminate]]. apply load_labels.
      destruct (stored_ix g G w S) as (IO & st & Fi). split; [exact IO|]. exists st. unfold has_file. rewrite E. exact Fi.
    - destruct A as (_ & A & _). destruct lb.
      + exists After, (ix_labels ix'). split; [apply load_labels; apply index_file_is; exact F|]. split; [|split; [auto|discriminate]].
        intros s. rewrite A. cbn [labels_met]. tauto.
      + exists Before, (ix_labels ix'). split; [apply load_labels; apply index_file_is; exact F|]. split; [|split; discriminate].
        intros s. rewrite A. cbn [labels_met]. intuition discriminate.
    - exists Unreadable, []. split; [eapply load_labels_bad; eauto|]. split; [intros; reflexivity|]. split; [discriminate|auto].
  Qed.
  Lemma names_at l v : Forall names_ok (patterns_of l) -> at_step (make l g) w v ->
    exists m ls, run (load_relationship_names_index ixf) v = (Ok ls, v) /\ (forall s, In s ls <-> names_met (patterns_of l) G m s) /\
      (m = After -> exists w', run (make l g) w = (Ok true, w')) /\ (m = Unreadable -> exists w', run (make l g) w = (Err JSONDecodeError, w')).
  Proof.
    intros N H. destruct (make_steps l v N H) as [E|[(RS & ix' & lb & nm & F & A)|(RS & t & F & B)]].
    - exists Before, (ix_names (g_ix G)). split; [|split; [intros; reflexivity|split; discriminate]]. apply load_names.
      destruct (stored_ix g G w S) as (IO & st & Fi). split; [exact IO|]. exists st. unfold has_file. rewrite E. exact Fi.
    - destruct A as (_ & _ & A). destruct nm.
      + exists After, (ix_names ix'). split; [apply load_names; apply index_file_is; exact F|]. split; [|split; [auto|discriminate]].
        intros s. rewrite A. cbn [names_met]. tauto.
      + exists Before, (ix_names ix'). split; [apply load_names; apply index_file_is; exact F|]. split; [|split; discriminate].
        intros s. rewrite A. cbn [names_met]. intuition discriminate.
    - exists Unreadable, []. split; [eapply load_names_bad; eauto|]. split; [intros; reflexivity|]. split; [discriminate|auto].
  Qed.

  Theorem find_beside_make f l tr rf rm w' : Forall names_ok (patterns_of l) -> is_pattern (pf_pattern f) -> findable (pf_pattern f) ->
    schedule (find f g) (make l g) w tr rf rm w' ->
    exists m1 m2, answered (pf_pattern f) (labels_met (patterns_of l) G m1) (names_met (patterns_of l) G m2) rf /\
      (m1 = After \/ m2 = After -> rm = Ok true) /\ (m1 = Unreadable \/ m2 = Unreadable -> rm = Err JSONDecodeError).
  Proof.
    intros N P F H. destruct (make_undisturbed f l g w tr rf rm w' H) as [Erm _].
    destruct (process_find (pf_pattern f) P) as [(_ & fp & E & O)|(NF & _)]; [|contradiction].
    destruct (find_reads f g fp _ w tr rf rm w' E H) as (w1 & w2 & rl & A1 & A2 & R1 & X).
    destruct (labels_at l w1 N A1) as (m1 & ls & RL & ML & U1 & V1). destruct (names_at l w2 N A2) as (m2 & ns & RN & MN & U2 & V2).
    rewrite RL in R1. injection R1 as <-. destruct X as (rn & R2 & X). rewrite RN in R2. injection R2 as <-.
    exists m1, m2. split; [|split].
    - assert (HL : node_label_is_in_index (fp_labels fp) ls = true <-> exists s, asked_label (pf_pattern f) s /\ labels_met (patterns_of l) G m1 s).
      { unfold node_label_is_in_index. rewrite existsb_mem. split; intros (s & A & B); exists s; (split; [apply (fo_labels _ _ O); exact A|apply ML; exact B]). }
      assert (HN : relationship_name_is_in_index (fp_names fp) ns = true <-> exists s, asked_name (pf_pattern f) s /\ names_met (patterns_of l) G m2 s).
      { unfold relationship_name_is_in_index. rewrite existsb_mem. split; intros (s & A & B); exists s; (split; [apply (fo_names _ _ O); exact A|apply MN; exact B]). }
      unfold answered. cbv zeta. rewrite <- HL, <- HN. subst rf.
      destruct (node_label_is_in_index (fp_labels fp) ls), (relationship_name_is_in_index (fp_names fp) ns); cbn [negb andb];
        [right|left|right|right]; (split; [|reflexivity]); intuition discriminate.
    - intros [E0|E0]; [destruct (U1 E0) as (w3 & RS)|destruct (U2 E0) as (w3 & RS)]; rewrite Erm, RS; reflexivity.
    - intros [E0|E0]; [destruct (V1 E0) as (w3 & RS)|destruct (V2 E0) as (w3 & RS)]; rewrite Erm, RS; reflexivity.
  Qed.
  (** a MAKE that succeeds: the answer of before, the answer of afterwards, or a "found" that neither gives *)
  Theorem find_beside_ok f l tr rf w' : Forall names_ok (patterns_of l) -> is_pattern (pf_pattern f) -> findable (pf_pattern f) ->
    schedule (find f g) (make l g) w tr rf (Ok true) w' ->
    rf = fst (run (find f g) w) \/ rf = fst (run (find f g) w') \/
    (rf = something /\ fst (run (find f g) w) = nothing /\ fst (run (find f g) w') = nothing).
  Proof.
    intros N P F H. destruct (make_undisturbed f l g w tr rf (Ok true) w' H) as [Erm Efs].
    destruct (find_beside_make f l tr rf (Ok true) w' N P F H) as (m1 & m2 & A & _ & U).
    assert (U1 : m1 <> Unreadable) by (intros E; discriminate (U (or_introl E))).
    assert (U2 : m2 <> Unreadable) by (intros E; discriminate (U (or_intror E))).
    destruct (run (make l g) w) as [r wm] eqn:RM. cbn [fst snd] in *. subst r.
    destruct (make_ok_effect rt g G w l true wm D S N RM) as (_ & _ & items & _ & _ & _ & G' & ST & MD & _).
    pose proof (stored_index g G w S) as I0. pose proof (stored_fs g G' wm w' Efs ST) as ST'.
    pose proof (stored_index g G' w' ST') as I1.
    assert (B0 : answered (pf_pattern f) (labels_met (patterns_of l) G Before) (names_met (patterns_of l) G Before) (fst (run (find f g) w))).
    { destruct (find_outcome f g (g_ix G) w P I0) as [(_ & Y & R)|[(_ & Y & R)|(NF & _)]]; [left|right|contradiction]; rewrite R; split; auto. }
    assert (B1 : answered (pf_pattern f) (labels_met (patterns_of l) G After) (names_met (patterns_of l) G After) (fst (run (find f g) w'))).
    { assert (EQ : forall s, (In s (ix_labels (g_ix G')) <-> labels_met (patterns_of l) G After s) /\ (In s (ix_names (g_ix G')) <-> names_met (patterns_of l) G After s)).
      { intros s. split; [apply (md_labels _ _ _ MD)|apply (md_names _ _ _ MD)]. }
      assert (EL : (exists s, asked_label (pf_pattern f) s /\ In s (ix_labels (g_ix G'))) <-> (exists s, asked_label (pf_pattern f) s /\ labels_met (patterns_of l) G After s)).
      { split; intros (s & X & Y); exists s; (split; [exact X|apply EQ; exact Y]). }
      assert (EN : (exists s, asked_name (pf_pattern f) s /\ In s (ix_names (g_ix G'))) <-> (exists s, asked_name (pf_pattern f) s /\ names_met (patterns_of l) G After s)).
      { split; intros (s & X & Y); exists s; (split; [exact X|apply EQ; exact Y]). }
      destruct (find_outcome f g (g_ix G') w' P I1) as [(_ & Y & R)|[(_ & Y & R)|(NF & _)]]; [left|right|contradiction]; rewrite R; (split; [|reflexivity]);
        rewrite EL, EN in Y; exact Y. }
    assert (SL : (exists s, asked_label (pf_pattern f) s /\ labels_met (patterns_of l) G Before s) -> (exists s, asked_label (pf_pattern f) s /\ labels_met (patterns_of l) G After s)).
    { intros (s & X & Y). exists s. split; [exact X|left; exact Y]. }
    assert (SN : (exists s, asked_name (pf_pattern f) s /\ names_met (patterns_of l) G Before s) -> (exists s, asked_name (pf_pattern f) s /\ names_met (patterns_of l) G After s)).
    { intros (s & X & Y). exists s. split; [exact X|left; exact Y]. }
    unfold answered in *. cbv zeta in *.
    destruct m1; [| |congruence]; (destruct m2; [| |congruence]).
    - left. destruct A as [[A ->]|[A ->]], B0 as [[B0 ->]|[B0 ->]]; tauto.
    - destruct A as [[A ->]|[A ->]], B0 as [[B0 ->]|[B0 ->]], B1 as [[B1 ->]|[B1 ->]]; tauto.
    - destruct A as [[A ->]|[A ->]], B0 as [[B0 ->]|[B0 ->]], B1 as [[B1 ->]|[B1 ->]]; tauto.
    - right. left. destruct A as [[A ->]|[A ->]], B1 as [[B1 ->]|[B1 ->]]; tauto.
  Qed.
End Beside.

(** ** whole queries *)
Section Queries.
  Context {rt : PyRt}.
  Lemma quiet_query q g : parse_make q = Ok None -> only quiet (query q g).
  Proof.
    intros E. unfold query, parse_query_string. rewrite E. cbn [bind].
    destruct (parse_find q) as [[f|]|e]; cbn [bind lift io_bind]; try constructor.
    destruct (parse_report q (pattern_handles (pf_pattern f))) as [rp|e]; cbn [bind lift io_bind]; [|constructor].
    apply only_bind; [|intros; constructor]. unfold execute_query. cbn [q_make q_find q_report]. apply only_bind; [constructor|]. intros _.
    apply only_bind; [apply quiet_find|]. intros r. apply only_bind; [|intros; constructor]. destruct rp; constructor.
  Qed.
  Theorem query_undisturbed q1 q2 g w tr r1 r2 w' : parse_make q1 = Ok None -> schedule (query q1 g) (query q2 g) w tr r1 r2 w' ->
    r2 = fst (run (query q2 g) w) /\ w_fs w' = w_fs (snd (run (query q2 g) w)).
  Proof. intros E H. eapply undisturbed; [exact H|apply quiet_query; exact E|apply only_query|reflexivity]. Qed.
End Queries.
