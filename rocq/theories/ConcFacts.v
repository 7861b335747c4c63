(** * ConcFacts: two MAKEs on the same graph *)
From Verif Require Import PyBase BaseFacts Json JsonFacts JsonMore SpecJson RtLaws Props PropsFacts Checks Statements Data FS FSFacts Store
  SpecStore StoreFacts Make SpecMake MakeFacts MakeRun MakeMore SpecShell Confine SpecCrash HistoryFacts CrashFacts SpecConc.
From Coq Require Import ZifyBool ZifyN ZifyNat.

(** ** schedules *)
Lemma schedule_interleave {A B} (a : io A) (b : io B) w ra rb w' :
  interleave a b w ra rb w' <-> exists tr, schedule a b w tr ra rb w'.
Proof.
  split.
  - induction 1 as [a b ra rb w HA HB|c k b w ra rb w' H [tr IH]|a c k w ra rb w' H [tr IH]].
    + exists []. constructor; assumption.
    + exists ((true, c) :: tr). constructor. exact IH.
    + exists ((false, c) :: tr). constructor. exact IH.
  - intros (tr & H). induction H; [apply il_done|apply il_left|apply il_right]; assumption.
Qed.
Lemma solo_left {A B} (a : io A) (b : io B) w tr2 ra rb w' :
  schedule (match ra with Ok x => Ret x | Err e => Throw e end) b (snd (run a w)) tr2 ra rb w' ->
  fst (run a w) = ra -> exists tr, schedule a b w (tr ++ tr2) ra rb w' /\ solo_run true a w = (tr, ra, snd (run a w)).
Proof.
  revert w. induction a as [x|e|c k IH]; intros w H E; cbn [run solo_run fst snd] in *.
  - subst ra. exists []. auto.
  - subst ra. exists []. auto.
  - destruct (exec c w) as [r w1] eqn:X. cbn [fst snd]. destruct (IH r w1 H E) as (tr & HS & HR). rewrite HR.
    exists ((true, c) :: tr). split; [|reflexivity]. cbn [app]. apply sc_left. rewrite X. exact HS.
Qed.
Lemma solo_right {A B} (ra : res A) (b : io B) w :
  exists tr, schedule (match ra with Ok x => Ret x | Err e => Throw e end) b w tr ra (fst (run b w)) (snd (run b w)) /\
    solo_run false b w = (tr, fst (run b w), snd (run b w)).
Proof.
  revert w. induction b as [x|e|c k IH]; intros w; cbn [run solo_run].
  - exists []. split; [|reflexivity]. apply sc_done; [destruct ra; reflexivity|reflexivity].
  - exists []. split; [|reflexivity]. apply sc_done; [destruct ra; reflexivity|reflexivity].
  - destruct (exec c w) as [r w1] eqn:X. cbn [fst snd]. destruct (IH r w1) as (tr & HS & HR). rewrite HR.
    exists ((false, c) :: tr). split; [|reflexivity]. apply sc_right. rewrite X. exact HS.
Qed.
Lemma take_turns_schedule {A B} s : forall (a : io A) (b : io B) w,
  let '(tr, ra, rb, w') := take_turns s a b w in schedule a b w tr ra rb w'.
Proof.
  induction s as [|[|] s IH]; intros a b w; cbn [take_turns].
  - destruct (solo_right (fst (run a w)) b (snd (run a w))) as (tr2 & H2 & E2).
    destruct (solo_left a b w tr2 _ _ _ H2 eq_refl) as (tr1 & H1 & E1). rewrite E1. cbn [snd]. rewrite E2. exact H1.
  - destruct a as [x|e|c k]; [apply (IH (Ret x) b w)|apply (IH (Throw e) b w)|].
    specialize (IH (k (fst (exec c w))) b (snd (exec c w))). destruct (take_turns s _ b _) as [[[tr ra] rb] w']. apply sc_left. exact IH.
  - destruct b as [x|e|c k]; [apply (IH a (Ret x) w)|apply (IH a (Throw e) w)|].
    specialize (IH a (k (fst (exec c w))) (snd (exec c w))). destruct (take_turns s a _ _) as [[[tr ra] rb] w']. apply sc_right. exact IH.
Qed.

Definition swap (tr : list (bool * cmd)) : list (bool * cmd) := map (fun x => (negb (fst x), snd x)) tr.
Lemma swap_swap tr : swap (swap tr) = tr.
Proof. induction tr as [|[x c] tr IH]; [reflexivity|]. unfold swap in *. cbn [map fst snd]. rewrite negb_involutive. f_equal. exact IH. Qed.
Lemma schedule_sym {A B} (a : io A) (b : io B) w tr ra rb w' : schedule a b w tr ra rb w' -> schedule b a w (swap tr) rb ra w'.
Proof. induction 1; cbn [swap map fst snd negb]; [apply sc_done|apply sc_right|apply sc_left]; assumption. Qed.
Lemma rbw_swap p tr : reads_before_writes p tr -> reads_before_writes p (swap tr).
Proof.
  intros N (t1 & x & t2 & y & t3 & E). apply N. exists (swap t1), (negb x), (swap t2), (negb y), (swap t3).
  rewrite <- (swap_swap tr), E. unfold swap. rewrite map_app. cbn [map fst snd]. rewrite map_app. reflexivity.
Qed.
Lemma rbw_cons p x c tr : c <> CCreate p -> reads_before_writes p ((x, c) :: tr) <-> reads_before_writes p tr.
Proof.
  intros Hc. split; intros N (t1 & y & t2 & z & t3 & E); apply N.
  - exists ((x, c) :: t1), y, t2, z, t3. rewrite E. reflexivity.
  - destruct t1 as [|h t1]; cbn [app] in E; inversion E; subst; [congruence|]. exists t1, y, t2, z, t3. reflexivity.
Qed.
Lemma rbw_no_read p tr : (forall x, ~ In (x, CRead p) tr) -> reads_before_writes p tr.
Proof.
  intros N (t1 & x & t2 & y & t3 & ->). apply (N y). rewrite in_app_iff. right. right. rewrite in_app_iff. right. left. reflexivity.
Qed.

(** one process has ended *)
Lemma alone_right {A B} (a : io A) (b : io B) w tr ra rb w' : schedule a b w tr ra rb w' ->
  (forall c k, a <> Do c k) -> (match a with Ret x => ra = Ok x | Throw e => ra = Err e | Do _ _ => False end) /\ run b w = (rb, w').
Proof.
  induction 1 as [a b ra rb w HA HB|c k b w tr ra rb w' H IH|a c k w tr ra rb w' H IH]; intros N.
  - split; [exact HA|]. destruct b; [subst; reflexivity|subst; reflexivity|contradiction].
  - exfalso. eapply N. reflexivity.
  - destruct (IH N) as [HA HR]. split; [exact HA|]. cbn [run]. destruct (exec c w). exact HR.
Qed.
Lemma alone_left {A B} (a : io A) (b : io B) w tr ra rb w' : schedule a b w tr ra rb w' ->
  (forall c k, b <> Do c k) -> (match b with Ret x => rb = Ok x | Throw e => rb = Err e | Do _ _ => False end) /\ run a w = (ra, w').
Proof. intros H N. apply schedule_sym in H. eapply alone_right; eauto. Qed.

(** ** the shape of a MAKE *)
Section Conc.
  Context {rt : PyRt} (g : gdbms).
  Local Notation db := (database_fp g).
  Local Notation ix := (indexes_fp g).
  Local Notation wn := (wiggle_number_fp g).

  (** works on database and indexes, and ends with the replacement of the counter or without *)
  Inductive body : io bool -> Prop :=
  | body_ret : forall a, body (Ret a)
  | body_throw : forall e, body (Throw e)
  | body_step : forall c k, on_files [db; ix] c -> (forall r, body (k r)) -> body (Do c k)
  | body_end : forall z k k2,
      k RUnit = Do (CWrite wn 0 (str_of_Z z)) k2 -> k2 RUnit = Ret true ->
      (forall r, only (fun c => c <> CRead wn) (k r)) -> body (Do (CCreate wn) k).
  Lemma body_bind {A} (m : io A) f : only (on_files [db; ix]) m -> (forall a, body (f a)) -> body (io_bind m f).
  Proof. induction 1 as [a|e|c k Hc Hk IH]; intros F; cbn [io_bind]; [apply F|constructor|]. apply body_step; auto. Qed.
  Lemma body_update z : body (let! _ := update_wiggle_number wn z in Ret true).
  Proof.
    unfold update_wiggle_number. cbn [io_bind do_unit]. eapply body_end; [reflexivity|reflexivity|].
    intros r. destruct r; cbn [io_bind]; repeat (constructor; try discriminate; intros); match goal with r : resp |- _ => destruct r end; constructor.
  Qed.
  Lemma body_commit items ns ms z : body (commit items ns ms z g).
  Proof.
    unfold commit, add_indexes. assert (I1 : In db [db; ix]) by (cbn; tauto). assert (I2 : In ix [db; ix]) by (cbn; tauto).
    apply body_bind; [apply only_add_item; exact I1|]. intros _.
    apply body_bind; [|intros _; apply body_update].
    apply only_bind; [apply only_add_rels; exact I2|]. intros _.
    apply only_bind; [apply only_add_set; exact I2|]. intros _.
    apply only_bind; [apply only_add_set; exact I2|]. intros _. constructor.
  Qed.
  (** the first operation of a MAKE is to read the counter *)
  Definition after_read (l : list parsed_make) (r : resp) : io bool :=
    match make l g with Do _ k => k r | _ => Throw OSError end.
  Lemma make_starts l : make l g = Do (CRead wn) (after_read l).
  Proof. reflexivity. Qed.
  Lemma body_after_read l r : body (after_read l r).
  Proof.
    unfold after_read, make, get_current_wiggle_number. cbn [io_bind do_text].
    assert (HB : forall t, body (io_bind (match t with [] => Throw PlainException | _ => lift (py_int t) end)
      (fun z => let! (z', ms) := lift (process_parsed_make_list l z) in let! nss := lift (mapM make_nodes ms) in
        let! _ := add_nodes_to_graph (concat nss) g in let! _ := add_indexes (concat nss) ms g in
        let! _ := update_wiggle_number (wiggle_number_fp g) z' in Ret true))).
    { intros t. apply body_bind; [destruct t; [constructor|apply only_lift]|]. intros z.
      apply body_bind; [apply only_lift|]. intros [z' ms]. apply body_bind; [apply only_lift|]. intros nss.
      apply (body_commit (nodes_dict (concat nss)) (concat nss) ms z'). }
    destruct r; cbn [io_bind]; try constructor. apply HB.
  Qed.
  Lemma after_read_ready l z items : acceptable (patterns_of l) z items ->
    exists ns ms z', after_read l (RText (str_of_Z z)) = commit items ns ms z' g.
  Proof.
    intros A. destruct (prepared l z items A) as (ms & nss & E1 & E2 & R).
    exists (concat nss), ms, (z + size_all (patterns_of l))%Z.
    unfold after_read, make, get_current_wiggle_number. cbn [io_bind do_text].
    pose proof (str_of_Z_ne z) as NE. destruct (str_of_Z z) as [|c t] eqn:E; [congruence|].
    replace (py_int (c :: t)) with (Ok z) by (rewrite <- E, py_int_str_of_Z; reflexivity). cbn [lift io_bind].
    unfold process_parsed_make_list. fold (patterns_of l). rewrite E1. cbn [lift io_bind]. rewrite E2. cbn [lift io_bind].
    unfold commit, add_nodes_to_graph. rewrite (rd_nodes _ _ _ _ _ R). reflexivity.
  Qed.
  Lemma after_read_empty l : after_read l (RText []) = Throw PlainException.
  Proof. reflexivity. Qed.

  Lemma body_no_read m : ix <> wn -> db <> wn -> body m -> only (fun c => c <> CRead wn) m.
  Proof.
    intros N1 N2. induction 1 as [a|e|c k Hc Hk IH|z k k2 E E2 Hk]; try constructor; auto.
    - intros ->. cbn in Hc. destruct Hc as [H|[H|[]]]; congruence.
    - discriminate.
  Qed.
  Lemma no_read_trace {A B} (a : io A) (b : io B) w tr ra rb w' : schedule a b w tr ra rb w' ->
    only (fun c => c <> CRead wn) a -> only (fun c => c <> CRead wn) b -> forall x, ~ In (x, CRead wn) tr.
  Proof.
    induction 1 as [a b ra rb w HA HB|c k b w tr ra rb w' H IH|a c k w tr ra rb w' H IH]; intros OA OB x.
    - intros [].
    - inversion OA as [| |? ? Hc Hk]; subst. intros [E|E]; [inversion E; congruence|]. eapply IH; eauto.
    - inversion OB as [| |? ? Hc Hk]; subst. intros [E|E]; [inversion E; congruence|]. eapply IH; eauto.
  Qed.

  Lemma exec_other c w p t : on_files [db; ix] c -> p <> db -> p <> ix -> has_file p t w -> has_file p t (snd (exec c w)).
  Proof.
    intros Hc N1 N2 F. unfold has_file, get in *. destruct (exec_frame [db; ix] c w Hc) as [H _]. rewrite H; [exact F|].
    cbn. intros [E|[E|[]]]; congruence.
  Qed.

  (** ** no overlap: one after the other *)
  Lemma solo_make m lb w tr ra rb w' t : distinct_files g -> body m -> has_file wn t w -> schedule m (make lb g) w tr ra rb w' ->
    reads_before_writes wn tr \/
    (exists w1, run m w = (ra, w1) /\ run (make lb g) w1 = (rb, w')) \/
    (rb = Err PlainException /\ run m w = (ra, w')).
  Proof.
    intros (D1 & D2 & D3) HB F H. remember (make lb g) as b eqn:Eb. revert HB F Eb.
    induction H as [a b ra rb w HA HB'|c k b w tr ra rb w' H IH|a c k w tr ra rb w' H IH]; intros HB F Eb; subst.
    - exfalso. rewrite make_starts in HB'. exact HB'.
    - inversion HB as [| |? ? Hc Hk|z ? k2 E E2 Hk]; subst.
      + assert (Hne : c <> CCreate wn). { intros ->. cbn in Hc. destruct Hc as [E|[E|[]]]; congruence. }
        destruct (IH (Hk _) (exec_other c w wn t Hc ltac:(auto) ltac:(auto) F) eq_refl) as [R|[(w1 & R1 & R2)|(R1 & R2)]].
        * left. apply rbw_cons; assumption.
        * right. left. exists w1. split; [|exact R2]. cbn [run]. destruct (exec c w). exact R1.
        * right. right. split; [exact R1|]. cbn [run]. destruct (exec c w). exact R2.
      + right. clear IH. pose proof F as F0. unfold has_file, get in F0.
        assert (X : exec (CCreate wn) w = (RUnit, put wn [] w)) by (cbn [exec]; rewrite F0; reflexivity).
        rewrite X in H. cbn [fst snd] in H. rewrite E in H.
        assert (X2 : forall w1 t1, has_file wn t1 w1 -> exec (CWrite wn 0 (str_of_Z z)) w1 = (RUnit, put wn (write_at t1 0 (str_of_Z z)) w1)).
        { intros w1 t1 F1. unfold has_file, get in F1. cbn [exec]. rewrite F1. reflexivity. }
        assert (RM : run (Do (CCreate wn) k) w = (Ok true, put wn (write_at [] 0 (str_of_Z z)) (put wn [] w))).
        { cbn [run]. rewrite X, E. cbn [run]. rewrite (X2 _ [] (put_has _ _ _)), E2. reflexivity. }
        rewrite make_starts in H. inversion H as [| ? ? ? ? ? ? ? ? H1 | ? ? ? ? ? ? ? ? H1]; subst.
        * contradiction.
        * rewrite (X2 _ [] (put_has _ _ _)) in H1. cbn [fst snd] in H1. rewrite E2 in H1.
          rewrite <- make_starts in H1. apply alone_right in H1 as [R1 R2]; [|discriminate]. subst ra. left. rewrite RM. eexists. split; [reflexivity|exact R2].
        * right. change (exec (CRead wn) (put wn [] w)) with (exec (CRead wn) (put wn [] w)) in H1.
          assert (X4 : exec (CRead wn) (put wn [] w) = (RText [], put wn [] w)).
          { pose proof (put_has wn [] w) as P. unfold has_file, get in P. cbn [exec]. rewrite P. reflexivity. }
          rewrite X4 in H1. cbn [fst snd] in H1. rewrite after_read_empty in H1.
          apply alone_left in H1 as [R1 R2]; [|discriminate]. subst rb. split; [reflexivity|].
          rewrite RM. rewrite <- R2. cbn [run]. rewrite (X2 _ [] (put_has _ _ _)), E2. reflexivity.
    - left. rewrite make_starts in Eb. inversion Eb; subst. apply rbw_cons; [discriminate|]. apply rbw_no_read.
      eapply no_read_trace; [exact H| |]; apply body_no_read; auto. apply body_after_read.
  Qed.

  Theorem no_overlap la lb w tr ra rb w' t : distinct_files g -> file_is wn t w -> schedule (make la g) (make lb g) w tr ra rb w' ->
    reads_before_writes wn tr \/
    (exists w1, run (make la g) w = (ra, w1) /\ run (make lb g) w1 = (rb, w')) \/
    (exists w1, run (make lb g) w = (rb, w1) /\ run (make la g) w1 = (ra, w')) \/
    (rb = Err PlainException /\ run (make la g) w = (ra, w')) \/
    (ra = Err PlainException /\ run (make lb g) w = (rb, w')).
  Proof.
    intros DF F.
    assert (X : exec (CRead wn) w = (RText t, w)) by (unfold file_is in F; cbn [exec]; rewrite F; reflexivity).
    assert (L : forall (l m : list parsed_make) tr r1 r2, schedule (after_read l (RText t)) (make m g) w tr r1 r2 w' ->
      reads_before_writes wn tr \/ (exists w1, run (make l g) w = (r1, w1) /\ run (make m g) w1 = (r2, w')) \/
      (r2 = Err PlainException /\ run (make l g) w = (r1, w'))).
    { intros l m tr0 r1 r2 H.
      assert (RM : run (make l g) w = run (after_read l (RText t)) w) by (rewrite make_starts; cbn [run]; rewrite X; reflexivity).
      rewrite RM. eapply solo_make; eauto. apply body_after_read. }
    intros H. rewrite (make_starts la), (make_starts lb) in H.
    inversion H as [|c k b ? tr' ? ? ? H1|a c k ? tr' ? ? ? H1]; subst.
    - contradiction.
    - rewrite X in H1. cbn [fst snd] in H1. rewrite <- (make_starts lb) in H1.
      destruct (L la lb _ _ _ H1) as [R|[R|R]]; auto. left. apply rbw_cons; [discriminate|exact R].
    - rewrite X in H1. cbn [fst snd] in H1. rewrite <- (make_starts la) in H1.
      apply schedule_sym in H1. destruct (L lb la _ _ _ H1) as [R|[R|R]]; auto 10.
      left. apply rbw_cons; [discriminate|]. rewrite <- (swap_swap tr'). apply rbw_swap. exact R.
  Qed.
End Conc.

(** ** overlap *)
Lemma last_in {A} (l u : list A) x k : l = u ++ [x] -> k < List.length l -> In x (skipn k l).
Proof.
  intros -> H. rewrite app_length in H. cbn [List.length] in H. rewrite skipn_app.
  replace (k - List.length u) with 0 by lia. cbn [skipn]. apply in_or_app. right. left. reflexivity.
Qed.
Lemma schedule_right_in {A B} (a : io A) (b : io B) w tr ra rb w' : schedule a b w tr ra rb w' ->
  forall c k, b = Do c k -> exists t1 t2, tr = t1 ++ (false, c) :: t2.
Proof.
  induction 1 as [a b ra rb w HA HB|c' k' b w tr ra rb w' H IH|a c' k' w tr ra rb w' H IH]; intros c k E; subst.
  - contradiction.
  - destruct (IH c k eq_refl) as (t1 & t2 & ->). exists ((true, c') :: t1), t2. reflexivity.
  - inversion E; subst. exists [], tr. reflexivity.
Qed.

Section Overlap.
  Context {rt : PyRt} (D : rt_data rt) (g : gdbms) (G : graph) (w0 : world) (S : stored g G w0).
  Local Notation db := (database_fp g).
  Local Notation ix := (indexes_fp g).
  Local Notation wn := (wiggle_number_fp g).
  Local Notation new i := (db_text (g_db G ++ i)).

  (** what the later steps need to know about the entries of a MAKE *)
  Record entries_good (i : list (pystr * pyval)) : Prop := {
    eg_ok : dict_ok (g_db G ++ i);
    eg_ser : dict_ser (g_db G ++ i) = true;
    eg_first : In (str_of_Z (g_next G)) (keys i) }.
  Lemma good l i : Forall names_ok (patterns_of l) -> patterns_of l <> [] -> acceptable (patterns_of l) (g_next G) i ->
    dict_ser i = true -> entries_good i.
  Proof.
    intros N NE A Sr. constructor.
    - eapply stored_join; eauto. apply A.
    - unfold dict_ser. rewrite forallb_app. fold (dict_ser (g_db G)) (dict_ser i). rewrite Sr, (g_db_ser _ (st_ok _ _ _ S)). reflexivity.
    - destruct (patterns_of l) as [|p ps] eqn:E; [congruence|]. eapply entries_first. apply A.
  Qed.

  (** a MAKE before its database write; after it *)
  Definition before (i : list (pystr * pyval)) (m : io bool) : Prop :=
    (exists ns ms z, m = commit i ns ms z g) \/
    (exists k, m = Do (CWrite db 0 (new i)) k /\ forall r, only (on_files [ix; wn]) (k r)).
  Definition wrote (m : io bool) : Prop := only (on_files [ix; wn]) m.
  (** [a] and [b] have read the counter, [t] is the content of the database *)
  Definition both_in (ia ib : list (pystr * pyval)) (a b : io bool) (t : pystr) : Prop :=
    (before ia a /\ before ib b /\ t = db_text (g_db G)) \/
    (wrote a /\ (before ib b \/ b = Throw NodeExistsError) /\ t = new ia) \/
    (wrote b /\ (before ia a \/ a = Throw NodeExistsError) /\ t = new ib) \/
    (wrote a /\ wrote b /\ (t = write_at (new ia) 0 (new ib) \/ t = write_at (new ib) 0 (new ia))).
  Lemma both_in_sym ia ib a b t : both_in ia ib a b t -> both_in ib ia b a t.
  Proof. unfold both_in. intuition. Qed.

  Lemma load_new i : entries_good i -> load_json (new i) = Ok (VDict (g_db G ++ i)).
  Proof. intros [V Sr _]. apply load_json_dump; auto. Qed.
  Lemma load_old : load_json (db_text (g_db G)) = Ok (VDict (g_db G)).
  Proof. apply load_json_dump; apply (st_ok _ _ _ S). Qed.
  Lemma commit_starts i ns ms z : exists k, commit i ns ms z g = Do (CRead db) k /\
    (entries_good i -> before i (k (RText (db_text (g_db G)))) /\
      forall j, entries_good j -> k (RText (new j)) = Throw NodeExistsError).
  Proof.
    unfold commit, add_item_to_database, read_json, do_text. cbn [io_bind]. eexists. split; [reflexivity|].
    intros [V Sr K]. cbn [io_bind]. split.
    - rewrite load_old. cbn [lift io_bind]. rewrite db_add_all_new by (apply dict_ok_keys; exact V). cbn [lift io_bind].
      unfold write_json. change (dump_top Indent4 (VDict (g_db G ++ i))) with (dump_top Indent4 (VDict (g_db G ++ i))).
      pose proof (dump_ser Indent4 (VDict (g_db G ++ i)) V) as HS. change (ser (VDict (g_db G ++ i))) with (dict_ser (g_db G ++ i)) in HS. rewrite Sr in HS.
      assert (HT : fst (dump_top Indent4 (VDict (g_db G ++ i))) = new i) by reflexivity.
      destruct (dump_top Indent4 (VDict (g_db G ++ i))) as [t ok]. cbn [snd fst] in HS, HT. subst ok t.
      right. cbn [do_unit io_bind]. eexists. split; [reflexivity|].
      assert (R : only (on_files [ix; wn]) (let! _ := add_indexes ns ms g in let! _ := update_wiggle_number wn z in Ret true)).
      { unfold add_indexes. repeat (apply only_bind; [|intros _]); try apply only_ret;
          try (apply only_add_rels; cbn; tauto); try (apply only_add_set; cbn; tauto).
        all: apply only_unit; cbn; tauto. }
      intros r. destruct r; cbn [io_bind]; try exact R. constructor.
    - intros j [Vj Srj Kj]. fold (db_text (g_db G ++ j)). rewrite load_new by (constructor; assumption). cbn [lift io_bind].
      rewrite (db_add_all_exists i (g_db G ++ j) (str_of_Z (g_next G))); [reflexivity|exact K|].
      rewrite keys_app, in_app_iff. right. exact Kj.
  Qed.

  Lemma step_in ia ib c k b w t : entries_good ia -> entries_good ib -> both_in ia ib (Do c k) b t -> has_file db t w ->
    exists t', both_in ia ib (k (fst (exec c w))) b t' /\ has_file db t' (snd (exec c w)).
  Proof.
    intros Ga Gb I F. destruct (st_files _ _ _ S) as (D1 & D2 & D3).
    assert (B : before ia (Do c k) -> (t = db_text (g_db G) -> exists t', (before ia (k (fst (exec c w))) /\ t' = t \/ wrote (k (fst (exec c w))) /\ t' = new ia) /\ has_file db t' (snd (exec c w))) /\
      (t = new ib -> exists t', (k (fst (exec c w)) = Throw NodeExistsError /\ t' = t \/ wrote (k (fst (exec c w))) /\ t' = write_at (new ib) 0 (new ia)) /\ has_file db t' (snd (exec c w)))).
    { intros [(ns & ms & z & E)|(k' & E & HO)].
      - destruct (commit_starts ia ns ms z) as (k1 & E1 & HC). rewrite E1 in E. inversion E; subst c k1. destruct (HC Ga) as [C1 C2].
        assert (X : exec (CRead db) w = (RText t, w)) by (unfold has_file, get in F; cbn [exec]; rewrite F; reflexivity).
        rewrite X. cbn [fst snd]. split; intros ->; eexists; (split; [|exact F]); left; split; try reflexivity; auto.
      - inversion E; subst c k'.
        assert (X : exec (CWrite db 0 (new ia)) w = (RUnit, put db (write_at t 0 (new ia)) w))
          by (unfold has_file, get in F; cbn [exec]; rewrite F; reflexivity).
        rewrite X. cbn [fst snd]. split; intros ->; eexists; (split; [|apply put_has]); right; (split; [apply HO|]).
        + apply write_at_0_long. apply dump_length_mono; [apply (st_ok _ _ _ S)|apply (st_ok _ _ _ S)|]. auto.
        + reflexivity. }
    assert (W : wrote (Do c k) -> wrote (k (fst (exec c w))) /\ has_file db t (snd (exec c w))).
    { intros HO. inversion HO as [| |? ? Hc Hk]; subst. split; [apply Hk|].
      unfold has_file, get. destruct (exec_frame [ix; wn] c w Hc) as [HE _]. rewrite HE; [exact F|]. cbn. intros [E|[E|[]]]; congruence. }
    destruct I as [(Ba & Bb & ->)|[(Wa & Bb & ->)|[(Wb & [Ba|N] & ->)|(Wa & Wb & E)]]].
    - destruct (B Ba) as [B1 _]. destruct (B1 eq_refl) as (t' & [(P & ->)|(P & ->)] & F'); eexists; (split; [|exact F']).
      + left. auto.
      + right. left. auto.
    - destruct (W Wa) as [W1 F']. eexists. split; [|exact F']. right. left. auto.
    - destruct (B Ba) as [_ B2]. destruct (B2 eq_refl) as (t' & [(P & ->)|(P & ->)] & F'); eexists; (split; [|exact F']).
      + right. right. left. auto.
      + right. right. right. auto.
    - discriminate.
    - destruct (W Wa) as [W1 F']. eexists. split; [|exact F']. right. right. right. auto.
  Qed.

  Definition end_state (ia ib : list (pystr * pyval)) (ra rb : res bool) (t : pystr) : Prop :=
    (t = new ia /\ rb = Err NodeExistsError) \/ (t = new ib /\ ra = Err NodeExistsError) \/
    t = write_at (new ia) 0 (new ib) \/ t = write_at (new ib) 0 (new ia).
  Lemma before_do i m : before i m -> exists c k, m = Do c k.
  Proof. intros [(ns & ms & z & ->)|(k & -> & _)]; [destruct (commit_starts i ns ms z) as (k & -> & _)|]; eauto. Qed.
  Lemma end_in ia ib a b w tr ra rb w' : schedule a b w tr ra rb w' -> entries_good ia -> entries_good ib ->
    forall t, both_in ia ib a b t -> has_file db t w -> exists t', has_file db t' w' /\ end_state ia ib ra rb t'.
  Proof.
    intros H Ga Gb. induction H as [a b ra rb w HA HB|c k b w tr ra rb w' H IH|a c k w tr ra rb w' H IH]; intros t I F.
    - exists t. split; [exact F|]. unfold end_state.
      assert (NB : forall i m (r : res bool), (match m with Ret x => r = Ok x | Throw e => r = Err e | Do _ _ => False end) -> ~ before i m).
      { intros i m r HM B. destruct (before_do _ _ B) as (c & k & ->). contradiction. }
      destruct I as [(Ba & Bb & ->)|[(Wa & [Bb | ->] & ->)|[(Wb & [Ba | ->] & ->)|(Wa & Wb & E)]]]; try (exfalso; first [exact (NB _ _ _ HA Ba)|exact (NB _ _ _ HB Bb)]); tauto.
    - destruct (step_in _ _ _ _ _ _ _ Ga Gb I F) as (t' & I' & F'). eapply IH; eauto.
    - apply both_in_sym in I. destruct (step_in _ _ _ _ _ _ _ Gb Ga I F) as (t' & I' & F'). apply both_in_sym in I'. eapply IH; eauto.
  Qed.

  (** one has read the counter, the other is about to *)
  Lemma one_in ia ib m lb w tr ra rb w' : schedule m (make lb g) w tr ra rb w' -> reads_before_writes wn tr ->
    entries_good ia -> entries_good ib -> body g m ->
    forall t, both_in ia ib m (after_read g lb (RText (str_of_Z (g_next G)))) t -> has_file db t w -> has_file wn (str_of_Z (g_next G)) w ->
    exists t', has_file db t' w' /\ end_state ia ib ra rb t'.
  Proof.
    intros H. remember (make lb g) as b eqn:Eb. intros RB Ga Gb. revert RB Eb. destruct (st_files _ _ _ S) as (D1 & D2 & D3).
    induction H as [a b ra rb w HA HB|c k b w tr ra rb w' H IH|a c k w tr ra rb w' H IH]; intros RB Eb B t I F Fw; subst.
    - contradiction.
    - inversion B as [| |? ? Hc Hk|z ? k2 E E2 Hk]; subst.
      + destruct (step_in _ _ _ _ _ _ _ Ga Gb I F) as (t' & I' & F').
        assert (Hne : c <> CCreate wn). { intros ->. cbn in Hc. destruct Hc as [E|[E|[]]]; congruence. }
        apply rbw_cons in RB; [|exact Hne].
        apply (IH RB eq_refl (Hk _) t' I' F'). apply (exec_other g c w wn); auto.
      + exfalso. destruct (schedule_right_in _ _ _ _ _ _ _ H _ _ (make_starts g lb)) as (t1 & t2 & ->).
        apply RB. exists [], true, t1, false, t2. reflexivity.
    - rewrite make_starts in Eb. inversion Eb; subst.
      assert (X : exec (CRead wn) w = (RText (str_of_Z (g_next G)), w)) by (unfold has_file, get in Fw; cbn [exec]; rewrite Fw; reflexivity).
      rewrite X in H. cbn [fst snd] in H. eapply end_in; eauto.
  Qed.
  Lemma overlap_start ia ib la lb w tr ra rb w' : schedule (make la g) (make lb g) w tr ra rb w' -> reads_before_writes wn tr ->
    entries_good ia -> entries_good ib ->
    acceptable (patterns_of la) (g_next G) ia -> acceptable (patterns_of lb) (g_next G) ib ->
    has_file db (db_text (g_db G)) w -> has_file wn (str_of_Z (g_next G)) w ->
    exists t', has_file db t' w' /\ end_state ia ib ra rb t'.
  Proof.
    intros H RB Ga Gb Aa Ab F Fw.
    assert (X : exec (CRead wn) w = (RText (str_of_Z (g_next G)), w)) by (unfold has_file, get in Fw; cbn [exec]; rewrite Fw; reflexivity).
    assert (I : both_in ia ib (after_read g la (RText (str_of_Z (g_next G)))) (after_read g lb (RText (str_of_Z (g_next G)))) (db_text (g_db G))).
    { destruct (after_read_ready g la _ _ Aa) as (ns & ms & z & ->). destruct (after_read_ready g lb _ _ Ab) as (ns' & ms' & z' & ->).
      left. split; [left; eauto|]. split; [left; eauto|reflexivity]. }
    rewrite (make_starts g la), (make_starts g lb) in H. inversion H as [|c k b ? tr' ? ? ? H1|a c k ? tr' ? ? ? H1]; subst.
    - contradiction.
    - rewrite X in H1. cbn [fst snd] in H1. rewrite <- make_starts in H1. apply rbw_cons in RB; [|discriminate].
      eapply one_in; eauto. apply body_after_read.
    - rewrite X in H1. cbn [fst snd] in H1. rewrite <- make_starts in H1. apply rbw_cons in RB; [|discriminate].
      apply schedule_sym in H1. apply rbw_swap in RB.
      destruct (one_in _ _ _ _ _ _ _ _ _ H1 RB Gb Ga (body_after_read _ _ _) _ (both_in_sym _ _ _ _ _ I) F Fw) as (t' & F' & E).
      exists t'. split; [exact F'|]. unfold end_state in *. tauto.
  Qed.

  (** one document over another *)
  Lemma new_ends i : entries_good i -> exists u, new i = u ++ [125%N].
  Proof.
    intros [V Sr K]. destruct (g_db G ++ i) as [|[k x] d] eqn:E.
    { destruct (g_db G); [|discriminate]. cbn in E. subst i. destruct K. }
    unfold db_text. rewrite dump_dict_text by auto. eexists. rewrite !app_assoc. reflexivity.
  Qed.
  Lemma over_other ia ib : entries_good ia -> entries_good ib ->
    write_at (new ia) 0 (new ib) = new ib \/ load_json (write_at (new ia) 0 (new ib)) = Err JSONDecodeError.
  Proof.
    intros Ga Gb. destruct (Nat.le_gt_cases (List.length (new ia)) (List.length (new ib))) as [L|L].
    - left. apply write_at_0_long. exact L.
    - right. rewrite write_at_0. unfold db_text at 1. apply save_more; [apply Gb|apply Gb|].
      exists 125%N. split; [|reflexivity]. destruct (new_ends ia Ga) as (u & E). eapply last_in; [exact E|exact L].
  Qed.
End Overlap.

Section Main.
  Context {rt : PyRt} (D : rt_data rt) (g : gdbms) (G : graph) (w : world) (S : stored g G w).
  Theorem overlap la lb ia ib tr ra rb w' :
    Forall names_ok (patterns_of la) -> patterns_of la <> [] -> acceptable (patterns_of la) (g_next G) ia -> dict_ser ia = true ->
    Forall names_ok (patterns_of lb) -> patterns_of lb <> [] -> acceptable (patterns_of lb) (g_next G) ib -> dict_ser ib = true ->
    schedule (make la g) (make lb g) w tr ra rb w' -> reads_before_writes (wiggle_number_fp g) tr ->
    exists t, file_is (database_fp g) t w' /\
      (t = db_text (g_db G ++ ia) \/ t = db_text (g_db G ++ ib) \/ load_json t = Err JSONDecodeError).
  Proof.
    intros Na NEa Aa Sa Nb NEb Ab Sb H RB.
    pose proof (good D g G w S la ia Na NEa Aa Sa) as Ga. pose proof (good D g G w S lb ib Nb NEb Ab Sb) as Gb.
    destruct (overlap_start g G w S ia ib la lb w tr ra rb w' H RB Ga Gb Aa Ab (st_db _ _ _ S) (st_wn _ _ _ S)) as (t & F & E).
    exists t. split; [exact F|].
    destruct E as [[E _]|[[E _]|[E|E]]]; auto; subst t.
    - destruct (over_other G ia ib Ga Gb) as [E|E]; rewrite E; auto.
    - destruct (over_other G ib ia Gb Ga) as [E|E]; rewrite E; auto.
  Qed.
End Main.
