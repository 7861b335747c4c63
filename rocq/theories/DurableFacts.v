(** * DurableFacts: what queries that end or are cut off leave in the database *)
From Verif Require Import PyBase BaseFacts Json JsonFacts JsonMore SpecJson RtLaws Props PropsFacts Checks Statements PatternFacts Data FS FSFacts Store
  SpecStore StoreFacts Make SpecMake MakeFacts MakeRun MakeMore Find Query SpecHistory HistoryFacts SpecCrash Torn SpecShell Confine QueryFacts CrashFacts SpecDurable.

Lemma crash_end {A} (m : io A) w : crash m w (snd (run m w)).
Proof.
  revert w; induction m as [a|e|c k IH]; intros w; cbn [run]; try apply crash_now.
  apply crash_later. destruct (exec c w) as [r w1]. apply IH.
Qed.
Lemma crash_reads {A} (m : io A) : reads_only m -> forall w w', crash m w w' -> w' = w.
Proof.
  induction 1 as [a|e|c k Hc Hk IH]; intros w w' H.
  - eapply crash_ret; eauto.
  - eapply crash_throw; eauto.
  - apply crash_do_inv in H as [-> |[(p & off & t & t1 & t2 & E & Et & ->)|H]]; [reflexivity| |].
    + subst c. destruct Hc.
    + rewrite (reads_only_exec c w Hc) in H. eapply IH; eauto.
Qed.

Section Durable.
  Context {rt : PyRt}.

  Lemma find_crash f g w w' : crash (find f g) w w' -> w_fs w' = w_fs w.
  Proof.
    unfold find. intros H. apply crash_bind in H as [H|(fp & w1 & R & H)]; [apply crash_lift in H; congruence|].
    rewrite run_lift in R. assert (w1 = w) by congruence. subst w1. clear R.
    apply crash_bind in H as [H|(r & w1 & R & H)].
    - apply crash_reads in H; [congruence|apply reads_short_circuit].
    - pose proof (reads_only_run _ w (reads_short_circuit fp g)) as E. rewrite R in E. cbn [snd] in E. subst w1.
      destruct r; [apply crash_ret in H; congruence|].
      apply crash_bind in H as [H|(u & w1 & R1 & H)].
      + unfold do_unit in H. apply crash_do_inv in H as [-> |[(p & off & t & t1 & t2 & E & _)|H]]; [reflexivity|discriminate|].
        cbn [exec fst snd] in H. apply crash_ret in H. subst w'. reflexivity.
      + cbn [do_unit run exec] in R1. apply crash_ret in H. subst w'. inversion R1. reflexivity.
  Qed.

  (** a crash of a MAKE, seen from the database, whatever the other two files hold *)
  Lemma make_crash_db (D : rt_data rt) g d w w' l : distinct_files g -> db_file_is (database_fp g) d w -> Forall names_ok (patterns_of l) ->
    crash (make l g) w w' ->
    db_file_is (database_fp g) d w' \/
    (exists z items, acceptable (patterns_of l) z items /\ db_file_is (database_fp g) (d ++ items) w') \/
    (unreadable g w' /\ exists z items, acceptable (patterns_of l) z items).
  Proof.
    intros (N1 & N2 & N3) DF N H. pose proof DF as (F & Vd & Sd). unfold make in H.
    apply crash_bind in H as [H|(z & w1 & R & H)]; [left; apply crash_get_wn in H; subst; exact DF|].
    destruct (run_get_wn_any (wiggle_number_fp g) w) as (r & Hr). rewrite Hr in R. injection R as -> <-.
    apply crash_bind in H as [H|(pm & w1 & R & H)]; [left; apply crash_lift in H; subst; exact DF|].
    rewrite run_lift in R. unfold process_parsed_make_list in R. fold (patterns_of l) in R.
    destruct (prepare_spec (patterns_of l) z) as [(ms & nss & items & E1 & E2 & RD)|(NA & [(e & E)|(ms & e & E1 & E2)])].
    - rewrite E1 in R. injection R as <- <-. cbv beta iota in H.
      apply crash_bind in H as [H|(nodes & w1 & R & H)]; [left; apply crash_lift in H; subst; exact DF|].
      rewrite run_lift, E2 in R. injection R as <- <-.
      unfold add_nodes_to_graph in H. rewrite (rd_nodes _ _ _ _ _ RD) in H.
      assert (A : acceptable (patterns_of l) z items) by (split; apply RD).
      destruct (existsb (fun k => s_mem k (keys d)) (keys items)) eqn:X.
      + apply existsb_exists in X as (k & Hk & Hk'). apply s_mem_In in Hk'.
        pose proof (add_item_exists _ _ _ _ k DF Hk Hk') as R. left.
        apply crash_bind in H as [H|(b & w1 & R' & H)]; [|rewrite R in R'; discriminate].
        unfold add_item_to_database in H, R.
        apply crash_bind in H as [H|(db & w1 & R1 & H)]; [apply crash_read_json in H; subst; exact DF|].
        rewrite run_bind, R1 in R. rewrite run_read_json in R1. apply pair_inv in R1 as [_ <-].
        apply crash_bind in H as [H|(db' & w1 & R1 & H)]; [apply crash_lift in H; subst; exact DF|].
        rewrite run_bind, R1 in R. rewrite run_lift in R1. apply pair_inv in R1 as [R1 <-].
        rewrite run_bind in R. rewrite (run_write_json _ 0 _ _ _ F) in R.
        destruct (snd (dump_top Indent4 db')); cbn [run] in R; discriminate.
      + assert (V : dict_ok (d ++ items)).
        { apply dict_ok_join; [exact Vd|eapply (entries_all_ok D); [exact N|apply A]|]. intros k Hk Hk'.
          assert (existsb (fun k => s_mem k (keys d)) (keys items) = true); [|congruence].
          apply existsb_exists. exists k. split; [exact Hk|]. apply s_mem_In. exact Hk'. }
        assert (J : dict_ser items = true -> dict_ser (d ++ items) = true).
        { intros Sr. unfold dict_ser. rewrite forallb_app. fold (dict_ser d) (dict_ser items). rewrite Sd, Sr. reflexivity. }
        apply crash_bind in H as [H|(b & w1 & R & H)].
        * apply (crash_add_item _ _ _ _ _ DF V) in H as (u & -> & O).
          destruct (torn_db d items u V Sd O) as [->|[(-> & Sr)|T]].
          -- left. split; [apply put_has|auto].
          -- right. left. exists z, items. split; [exact A|]. split; [apply put_has|auto].
          -- right. right. split; [|eauto]. exists u. split; [apply put_has|]. unfold load_json. rewrite T. reflexivity.
        * rewrite (write_new_db _ _ _ _ DF V) in R. destruct (dict_ser items) eqn:Sr; [|discriminate]. apply pair_inv in R as [_ <-].
          right. left. exists z, items. split; [exact A|]. split; [|auto].
          assert (O : only (on_files [indexes_fp g; wiggle_number_fp g])
            (let! _ := add_indexes (concat nss) ms g in let! _ := update_wiggle_number (wiggle_number_fp g) (z + size_all (patterns_of l))%Z in Ret true)).
          { apply only_bind; [|intros _; apply only_bind; [apply only_update_wn; cbn; tauto|intros; constructor]].
            unfold add_indexes. apply only_bind; [apply only_add_rels; cbn; tauto|]. intros _.
            apply only_bind; [apply only_add_set; cbn; tauto|]. intros _. apply only_bind; [apply only_add_set; cbn; tauto|]. intros; constructor. }
          destruct (only_crash_frame _ _ _ _ O H) as [Fr _]. unfold has_file, get. rewrite Fr; [apply put_has|].
          cbn. intros [E|[E|[]]]; congruence.
    - rewrite E in R. discriminate.
    - rewrite E1 in R. injection R as <- <-. cbv beta iota in H.
      apply crash_bind in H as [H|(nodes & w1 & R & H)]; [left; apply crash_lift in H; subst; exact DF|].
      rewrite run_lift, E2 in R. discriminate.
  Qed.

  (** a MAKE on an unreadable database changes nothing at any point *)
  Lemma make_crash_unreadable g w w' l : unreadable g w -> crash (make l g) w w' -> w' = w.
  Proof.
    intros (t & F & L) H. unfold make in H.
    apply crash_bind in H as [H|(z & w1 & R & H)]; [eapply crash_get_wn; eauto|].
    destruct (run_get_wn_any (wiggle_number_fp g) w) as (r & Hr). rewrite Hr in R. injection R as -> <-.
    apply crash_bind in H as [H|([z' ms] & w1 & R & H)]; [eapply crash_lift; eauto|].
    rewrite run_lift in R. apply pair_inv in R as [_ <-].
    apply crash_bind in H as [H|(ns & w1 & R & H)]; [eapply crash_lift; eauto|].
    rewrite run_lift in R. apply pair_inv in R as [_ <-].
    assert (RD : run (read_json (database_fp g)) w = (Err JSONDecodeError, w)).
    { rewrite run_read_json, (parse_res_bad _ t w _ F L). reflexivity. }
    apply crash_bind in H as [H|(b & w1 & R & H)].
    - unfold add_nodes_to_graph, add_item_to_database in H. apply crash_bind in H as [H|(db & w1 & R & H)]; [eapply crash_read_json; eauto|].
      rewrite RD in R. discriminate.
    - unfold add_nodes_to_graph, add_item_to_database in R. rewrite run_bind, RD in R. discriminate.
  Qed.

  (** a MAKE that runs to its end *)
  Lemma make_run_db (D : rt_data rt) g d w w' l r : distinct_files g -> db_file_is (database_fp g) d w -> Forall names_ok (patterns_of l) ->
    run (make l g) w = (r, w') ->
    ((exists e, r = Err e) /\ w' = w) \/
    (exists z items, acceptable (patterns_of l) z items /\ db_file_is (database_fp g) (d ++ items) w') \/
    (unreadable g w' /\ r = Err TypeError).
  Proof.
    intros (N1 & N2 & N3) DF N H. pose proof DF as (F & Vd & Sd).
    destruct (run_get_wn_any (wiggle_number_fp g) w) as ([z|e] & Hz); [|rewrite (make_no_counter l g w e Hz) in H; inv H; left; eauto].
    destruct (prepare_spec (patterns_of l) z) as [(ms & nss & items & E1 & E2 & RD)|(NA & _)].
    2:{ destruct (run_make_not_ready l g w z Hz NA) as (e & E). rewrite E in H. inv H. left. eauto. }
    assert (A : acceptable (patterns_of l) z items) by (split; apply RD).
    rewrite (run_make_ready l g w z ms nss items Hz E1 E2 RD) in H. unfold commit in H. rewrite run_bind in H.
    destruct (existsb (fun k => s_mem k (keys d)) (keys items)) eqn:X.
    - apply existsb_exists in X as (k & Hk & Hk'). apply s_mem_In in Hk'. rewrite (add_item_exists _ _ _ _ k DF Hk Hk') in H. inv H. left. eauto.
    - assert (V : dict_ok (d ++ items)).
      { apply dict_ok_join; [exact Vd|eapply (entries_all_ok D); [exact N|apply A]|]. intros k Hk Hk'.
        assert (existsb (fun k => s_mem k (keys d)) (keys items) = true); [|congruence].
        apply existsb_exists. exists k. split; [exact Hk|]. apply s_mem_In. exact Hk'. }
      rewrite (write_new_db _ _ _ _ DF V) in H. destruct (dict_ser items) eqn:Sr.
      2:{ inv H. right. right. split; [|reflexivity]. eexists. split; [apply put_has|]. unfold load_json.
          rewrite (dict_cut Indent4 (d ++ items) (dump_text Indent4 (VDict (d ++ items))) [] V); [reflexivity|rewrite app_nil_r; reflexivity|].
          right. unfold dict_ser in *. rewrite forallb_app, Sr. apply andb_false_r. }
      right. left. exists z, items. split; [exact A|]. split; [|split; [exact V|unfold dict_ser in *; rewrite forallb_app, Sd, Sr; reflexivity]].
      assert (O : only (on_files [indexes_fp g; wiggle_number_fp g])
        (let! _ := add_indexes (concat nss) ms g in let! _ := update_wiggle_number (wiggle_number_fp g) (z + size_all (patterns_of l))%Z in Ret true)).
      { apply only_bind; [|intros _; apply only_bind; [apply only_update_wn; cbn; tauto|intros; constructor]].
        unfold add_indexes. apply only_bind; [apply only_add_rels; cbn; tauto|]. intros _.
        apply only_bind; [apply only_add_set; cbn; tauto|]. intros _. apply only_bind; [apply only_add_set; cbn; tauto|]. intros; constructor. }
      pose proof (only_run_frame _ _ (put (database_fp g) (dump_text Indent4 (VDict (d ++ items))) w) O) as [Fr _]. rewrite H in Fr. cbn [snd] in Fr.
      unfold has_file, get. rewrite Fr; [apply put_has|]. cbn. intros [E|[E|[]]]; congruence.
  Qed.

  Lemma fs_db g d w w' : w_fs w' = w_fs w -> db_file_is (database_fp g) d w -> db_file_is (database_fp g) d w'.
  Proof. intros E (F & V). split; [|exact V]. unfold has_file, get in *. congruence. Qed.
  Lemma fs_unreadable g w w' : w_fs w' = w_fs w -> unreadable g w -> unreadable g w'.
  Proof. intros E (t & F & L). exists t. split; [|exact L]. unfold file_is in *. congruence. Qed.

  (** a query, seen as a MAKE followed by something that changes no file *)
  Lemma query_crash q g w w' : crash (query q g) w w' ->
    w_fs w' = w_fs w \/ exists l, parse_make q = Ok (Some l) /\
      (crash (make l g) w w' \/ exists b w1, run (make l g) w = (Ok b, w1) /\ w_fs w' = w_fs w1).
  Proof.
    unfold query. intros H. apply crash_bind in H as [H|(pq & w1 & R & H)]; [left; apply crash_lift in H; congruence|].
    rewrite run_lift in R. apply pair_inv in R as [P <-].
    assert (H' : crash (execute_query pq g) w w').
    { apply crash_bind in H as [H|(b & w1 & R & H)]; [exact H|]. apply crash_ret in H. subst w'.
      pose proof (crash_end (execute_query pq g) w) as C. rewrite R in C. exact C. }
    clear H. unfold parse_query_string in P. destruct (parse_make q) as [mk|] eqn:EM; cbn [bind] in P; [|discriminate].
    destruct (parse_find q) as [[f|]|]; cbn [bind] in P; try discriminate.
    destruct (parse_report _ _) as [rp|]; cbn [bind] in P; [|discriminate]. injection P as <-.
    unfold execute_query in H'. cbn [q_make q_find q_report] in H'.
    assert (T : forall v v', crash (let! found := find f g in let! _ := match rp with Some r => report r found g | None => Ret true end in Ret true) v v' -> w_fs v' = w_fs v).
    { intros v v' C. apply crash_bind in C as [C|(fo & v1 & R & C)]; [eapply find_crash; exact C|].
      pose proof (find_files f g v) as FF. rewrite R in FF. cbn [snd] in FF. rewrite <- FF.
      destruct rp; cbn [report io_bind] in C; apply crash_ret in C; congruence. }
    apply crash_bind in H' as [C|(b & w1 & R & C)].
    - destruct mk as [[|m l]|]; [left; apply crash_ret in C; congruence| |left; apply crash_ret in C; congruence].
      right. exists (m :: l). auto.
    - apply T in C. destruct mk as [[|m l]|]; [left; inv R; exact C| |left; inv R; exact C].
      right. exists (m :: l). split; [reflexivity|]. right. exists b, w1. auto.
  Qed.
  Lemma query_run q g w r w' : run (query q g) w = (r, w') ->
    (w_fs w' = w_fs w /\ forall l, parse_make q = Ok (Some l) -> l = [] \/ forall x, r <> Ok x) \/
    exists l, parse_make q = Ok (Some l) /\
      exists r1 w1, run (make l g) w = (r1, w1) /\ w_fs w' = w_fs w1 /\ (forall e, r1 = Err e -> r = Err e).
  Proof.
    unfold query. rewrite run_bind, run_lift. intros H.
    destruct (parse_query_string q) as [pq|e] eqn:P; [|inv H; left; split; [reflexivity|intros; right; discriminate]].
    unfold parse_query_string in P. destruct (parse_make q) as [mk|] eqn:EM; cbn [bind] in P; [|discriminate].
    destruct (parse_find q) as [[f|]|]; cbn [bind] in P; try discriminate.
    destruct (parse_report _ _) as [rp|]; cbn [bind] in P; [|discriminate]. injection P as <-.
    rewrite run_bind in H. unfold execute_query in H. cbn [q_make q_find q_report] in H. rewrite run_bind in H.
    assert (T : forall v, w_fs (snd (run (let! found := find f g in let! _ := match rp with Some r => report r found g | None => Ret true end in Ret true) v)) = w_fs v).
    { intros v. rewrite run_bind. pose proof (find_files f g v) as FF. destruct (run (find f g) v) as [[x|e] v1]; cbn [snd] in *; [|exact FF].
      destruct rp; cbn [report io_bind run snd]; exact FF. }
    assert (T' : forall v r0 v0, (let (r, w0) := run (let! found := find f g in let! _ := match rp with Some r => report r found g | None => Ret true end in Ret true) v in
       match r with Ok _ => run (Ret true) w0 | Err e => (Err e, w0) end) = (r0, v0) -> w_fs v0 = w_fs v).
    { intros v r0 v0 X. pose proof (T v) as TT. destruct (run _ v) as [[x|e] v1]; cbn [snd run] in *; inv X; exact TT. }
    destruct mk as [[|m l]|]; cbn [run] in H.
    - left. split; [|intros l E; left; congruence]. eapply T'. exact H.
    - right. exists (m :: l). split; [reflexivity|]. destruct (run (make (m :: l) g) w) as [[b|e] w1]; eexists _, w1; (split; [reflexivity|]).
      + split; [eapply T'; exact H|discriminate].
      + inv H. split; [reflexivity|]. intros e' E. inv E. reflexivity.
    - left. split; [eapply T'; exact H|discriminate].
  Qed.

  Lemma sent_db (D : rt_data rt) g d q o w w1 : distinct_files g -> db_file_is (database_fp g) d w -> sent g q o w w1 ->
    (exists items, left_behind (q, o) items /\ db_file_is (database_fp g) (d ++ items) w1) \/
    (unreadable g w1 /\ (o = Cut \/ o = Failed TypeError)).
  Proof.
    intros DI DF H. assert (SAME : w_fs w1 = w_fs w -> left_behind (q, o) [] -> 
      (exists items, left_behind (q, o) items /\ db_file_is (database_fp g) (d ++ items) w1) \/ (unreadable g w1 /\ (o = Cut \/ o = Failed TypeError))).
    { intros E LB. left. exists []. rewrite app_nil_r. split; [exact LB|eapply fs_db; eassumption]. }
    assert (RUN : forall r, run (query q g) w = (r, w1) -> (forall x, r = Ok x -> o = Answered) -> (forall e, r = Err e -> o = Failed e) ->
      (exists items, left_behind (q, o) items /\ db_file_is (database_fp g) (d ++ items) w1) \/ (unreadable g w1 /\ (o = Cut \/ o = Failed TypeError))).
    { intros r R O1 O2. destruct (query_run q g w r w1 R) as [(E & NA)|(l & P & r1 & w2 & M & E & X)].
      - apply (SAME E). unfold left_behind. cbn [fst snd]. destruct (parse_make q) as [[l|]|]; try reflexivity.
        destruct (NA l eq_refl) as [->|NA']; [left; exists 0%Z; split; [constructor|reflexivity]|right]. split; [reflexivity|].
        destruct r as [x|e]; [destruct (NA' x eq_refl)|]. rewrite (O2 e eq_refl). discriminate.
      - pose proof (parsed_names_ok D q l P) as N.
        destruct (make_run_db D g d w w2 l r1 DI DF N M) as [((e & ->) & ->)|[(z & items & A & DB)|(U & ->)]].
        + apply (SAME E). unfold left_behind. cbn [fst snd]. rewrite P. right. split; [reflexivity|]. rewrite (O2 e (X e eq_refl)). discriminate.
        + left. exists items. split; [unfold left_behind; cbn [fst]; rewrite P; left; eauto|eapply fs_db; eassumption].
        + right. split; [eapply fs_unreadable; eassumption|]. right. apply O2. apply X. reflexivity. }
    destruct o as [|e|]; cbn [sent] in H.
    - destruct H as (b & H). eapply RUN; [exact H| |]; intros; [reflexivity|discriminate].
    - eapply RUN; [exact H| |]; intros; [discriminate|congruence].
    - destruct (query_crash q g w w1 H) as [E|(l & P & C)].
      + apply (SAME E). unfold left_behind. cbn [fst snd]. destruct (parse_make q) as [[l|]|]; try reflexivity. right. split; [reflexivity|discriminate].
      + pose proof (parsed_names_ok D q l P) as N. destruct C as [C|(b & w2 & R & E)].
        * destruct (make_crash_db D g d w w1 l DI DF N C) as [DB|[(z & items & A & DB)|(U & _)]].
          -- left. exists []. rewrite app_nil_r. split; [unfold left_behind; cbn [fst snd]; rewrite P; right; split; [reflexivity|discriminate]|exact DB].
          -- left. exists items. split; [unfold left_behind; cbn [fst]; rewrite P; left; eauto|exact DB].
          -- right. auto.
        * destruct (make_run_db D g d w w2 l _ DI DF N R) as [((e & X) & _)|[(z & items & A & DB)|(_ & X)]]; try discriminate.
          left. exists items. split; [unfold left_behind; cbn [fst]; rewrite P; left; eauto|eapply fs_db; eassumption].
  Qed.

  Lemma make_unreadable_raises g w l : unreadable g w -> exists e, run (make l g) w = (Err e, w).
  Proof.
    intros (t & F & L). apply (make_unreadable_db l g w JSONDecodeError). rewrite run_read_json, (parse_res_bad _ t w _ F L). reflexivity.
  Qed.
  Lemma sent_unreadable g q o w w1 : unreadable g w -> sent g q o w w1 ->
    w_fs w1 = w_fs w /\ (o = Answered -> forall l, parse_make q = Ok (Some l) -> l = []).
  Proof.
    intros U H.
    assert (RUN : forall r, run (query q g) w = (r, w1) -> w_fs w1 = w_fs w /\ ((exists x, r = Ok x) -> forall l, parse_make q = Ok (Some l) -> l = [])).
    { intros r R. destruct (query_run q g w r w1 R) as [(E & NA)|(l & P & r1 & w2 & M & E & X)].
      - split; [exact E|]. intros (x & ->) l P. destruct (NA l P) as [|Y]; [assumption|]. destruct (Y x eq_refl).
      - destruct (make_unreadable_raises g w l U) as (e & M'). rewrite M' in M. inv M. split; [exact E|].
        intros (x & ->). specialize (X e eq_refl). discriminate. }
    destruct o as [|e|]; cbn [sent] in H.
    - destruct H as (b & H). destruct (RUN _ H) as [A B]. split; [exact A|]. intros _. apply B. eauto.
    - destruct (RUN _ H) as [A B]. split; [exact A|discriminate].
    - split; [|discriminate]. destruct (query_crash q g w w1 H) as [E|(l & P & [C|(b & w2 & R & E)])]; [exact E| |].
      + rewrite (make_crash_unreadable g w w1 l U C). reflexivity.
      + destruct (make_unreadable_raises g w l U) as (e & M'). rewrite M' in R. discriminate.
  Qed.

  Lemma db_between g d w w' : (forall p, In p (the_files g) -> fs_get p (w_fs w') = fs_get p (w_fs w)) ->
    db_file_is (database_fp g) d w -> db_file_is (database_fp g) d w'.
  Proof. intros E (F & V). split; [|exact V]. unfold has_file, get in *. rewrite E; [exact F|left; reflexivity]. Qed.
  Lemma unreadable_between g w w' : (forall p, In p (the_files g) -> fs_get p (w_fs w') = fs_get p (w_fs w)) -> unreadable g w -> unreadable g w'.
  Proof. intros E (t & F & L). exists t. split; [|exact L]. unfold file_is in *. rewrite E; [exact F|left; reflexivity]. Qed.

  Theorem unreadable_for_ever g h w w' : history g h w w' -> unreadable g w ->
    (forall p, In p (the_files g) -> fs_get p (w_fs w') = fs_get p (w_fs w)) /\
    forall q l, In (q, Answered) h -> parse_make q = Ok (Some l) -> l = [].
  Proof.
    induction 1 as [w|q o h w w1 w2 w3 S E H IH]; intros U; [split; [reflexivity|intros q l []]|].
    destruct (sent_unreadable g q o w w1 U S) as [E1 NA].
    assert (U2 : unreadable g w2) by (eapply unreadable_between; [exact E|]; eapply fs_unreadable; eassumption).
    destruct (IH U2) as [E3 NA3]. split.
    - intros p Hp. rewrite (E3 p Hp), (E p Hp). congruence.
    - intros q' l [X|X] P; [|eapply NA3; eassumption]. inv X. eapply NA; [reflexivity|exact P].
  Qed.

  Theorem all_or_nothing (D : rt_data rt) g h w w' : history g h w w' -> forall d, distinct_files g -> db_file (database_fp g) d w ->
    (exists parts, Forall2 left_behind h parts /\ db_file (database_fp g) (d ++ concat parts) w') \/
    (unreadable g w' /\ exists q o, In (q, o) h /\ (o = Cut \/ o = Failed TypeError)).
  Proof.
    induction 1 as [w|q o h w w1 w2 w3 S E H IH]; intros d DI DF.
    - left. exists []. cbn [concat]. rewrite app_nil_r. auto.
    - destruct (sent_db D g d q o w w1 DI DF S) as [(items & LB & DF1)|(U & O)].
      + destruct (IH (d ++ items) DI (db_between _ _ _ _ E DF1)) as [(parts & F & DF3)|(U & q' & o' & I & O)].
        * left. exists (items :: parts). cbn [concat]. rewrite app_assoc. auto.
        * right. split; [exact U|]. exists q', o'. split; [right; exact I|exact O].
      + right. split; [|exists q, o; split; [left; reflexivity|exact O]].
        pose proof (unreadable_between _ _ _ E U) as U2. destruct (unreadable_for_ever g h w2 w3 H U2) as [E3 _].
        exact (unreadable_between _ _ _ E3 U2).
  Qed.

  Lemma Forall2_in {A B} (R : A -> B -> Prop) l m a : Forall2 R l m -> In a l -> exists b, In b m /\ R a b.
  Proof. induction 1; intros []; subst; [eexists; split; [left; reflexivity|assumption]|]. destruct (IHForall2 H1) as (b & I & r). exists b. split; [right; exact I|exact r]. Qed.
  Theorem acknowledged_is_there (D : rt_data rt) g h w w' d v q l : history g h w w' -> distinct_files g -> db_file (database_fp g) d w ->
    In (q, Answered) h -> parse_make q = Ok (Some l) -> run (read_json (database_fp g)) w' = (Ok v, w') ->
    exists z items d', acceptable (patterns_of l) z items /\ v = VDict d' /\ (forall kv, In kv d \/ In kv items -> In kv d').
  Proof.
    intros H DI DF I P R. destruct (all_or_nothing D g h w w' H d DI DF) as [(parts & F & DF')|(U & _)].
    - destruct (Forall2_in _ _ _ _ F I) as (items & Hi & LB). unfold left_behind in LB. cbn [fst snd] in LB. rewrite P in LB.
      destruct LB as [(z & A)|(_ & X)]; [|congruence]. exists z, items, (d ++ concat parts). split; [exact A|].
      rewrite run_read_json, (db_file_parse _ _ _ DF') in R. apply pair_inv in R as [R _]. inv R. split; [reflexivity|].
      intros kv [K|K]; apply in_app_iff; [left; exact K|right]. apply in_concat. eauto.
    - destruct U as (t & Ft & L). rewrite run_read_json, (parse_res_bad _ t w' _ Ft L) in R. discriminate.
  Qed.
End Durable.
