(** * LogMore: errors in the log, and the whole log of an answered query *)
From Verif Require Import PyBase BaseFacts Json JsonFacts JsonMore SpecJson RtLaws Regex Patterns Literal Props PropsFacts Checks Statements PatternFacts Data FS FSFacts Store
  SpecStore StoreFacts Make SpecMake MakeFacts MakeRun MakeMore Find Query SpecHistory HistoryFacts SpecCrash Torn SpecShell Confine QueryFacts CrashFacts SpecDurable DurableFacts Log SpecLog LogFacts.

Lemma lrun_catch {A} (m : lio A) h : forall w, lrun (lcatch m h) w =
  match lrun m w with
  | (l, Ok a, w1) => (l, Ok a, w1)
  | (l, Err e, w1) => match h e with Some m' => match lrun m' w1 with (l', x, w2) => (l ++ l', x, w2) end | None => (l, Err e, w1) end
  end.
Proof.
  induction m as [a|e|c k IH|r m IH]; intros w; cbn [lcatch lrun].
  - reflexivity.
  - destruct (h e) as [m'|]; [|reflexivity]. destruct (lrun m' w) as [[l x] w2]. reflexivity.
  - destruct (exec c w). apply IH.
  - rewrite IH. destruct (lrun m w) as [[l [a|e]] w1]; [reflexivity|]. destruct (h e) as [m'|]; [|reflexivity]. destruct (lrun m' w1) as [[l' x] w2]. reflexivity.
Qed.

Lemma triple_inv {A B C} (a a' : A) (b b' : B) (c c' : C) : (a, b, c) = (a', b', c') -> a = a' /\ b = b' /\ c = c'.
Proof. intros H. inversion H. auto. Qed.

Section More.
  Context {rt : PyRt} (lt : pyval -> pystr).

  Definition no_error (r : record) : Prop := fst r <> ERROR.
  Lemma value_no_error l : Forall about_value l -> Forall no_error l.
  Proof. apply Forall_impl. intros r (t & what & ->). discriminate. Qed.
  Lemma make_no_error l g : logs no_error (make_l lt l g).
  Proof.
    assert (NE : forall a t, a <> ERROR -> no_error (a, t)) by (intros a t H; exact H).
    unfold make_l. apply logs_bind.
    - unfold get_current_wiggle_number_l. apply logs_bind; [apply logs_note; discriminate|]. intros _. apply logs_bind; [apply logs_mute|]. intros [|c t]; [constructor|].
      apply logs_bind; [apply logs_note; discriminate|]. intros _. apply logs_bind; [apply logs_mute|]. intros z. apply logs_bind; [apply logs_note; discriminate|]. intros _. constructor.
    - intros wn. apply logs_bind; [apply logs_mute|]. intros [wn' ms]. apply logs_bind; [apply logs_wlift, value_no_error, wmapM_fst; intros; apply make_nodes_values|].
      intros nss. apply logs_bind.
      + unfold add_item_to_database_l. apply logs_bind; [apply logs_mute|]. intros db. apply logs_bind; [apply logs_note; discriminate|]. intros _.
        apply logs_bind; [apply logs_mute|]. intros db'. apply logs_bind; [apply logs_mute|]. intros n.
        apply logs_bind; [apply logs_note; discriminate|]. intros _. constructor.
      + intros _. apply logs_bind; [apply logs_mute|]. intros _. apply logs_bind; [|intros _; constructor].
        unfold update_wiggle_number_l. apply logs_bind; [apply logs_note; discriminate|]. intros _. apply logs_bind; [apply logs_mute|]. intros _. apply logs_bind; [apply logs_mute|]. intros _.
        apply logs_bind; [apply logs_note; discriminate|]. intros _. constructor.
  Qed.

  (** *** One index *)
  Lemma set_val_not v : set_val v <> Err JSONDecodeError.
  Proof. unfold set_val, iter_val. destruct v; cbn [bind]; try discriminate; destruct (forallb _ _); discriminate. Qed.
  Lemma load_index_cases p name w : let r := lrun (load_index_set_l p name) w in
    snd r = w /\
    ((damaged p w /\ r = (look_log name false, Ok [], w)) \/
     (~ damaged p w /\ ((exists v, r = (look_log name true, Ok v, w)) \/ exists l e, r = (l, Err e, w) /\ Forall no_error l))).
  Proof.
    cbv zeta. unfold load_index_set_l. rewrite lrun_bind, lrun_note, lrun_catch, lrun_bind, lrun_mute, run_read_json. cbn [fst snd].
    assert (DM : parse_res (get p w) = Err JSONDecodeError <-> damaged p w).
    { unfold damaged, parse_res, read_res, file_is, get. split.
      - destruct (fs_get p (w_fs w)) as [[|t]|]; cbn [bind]; try discriminate. eauto.
      - intros (t & E & L). rewrite E. exact L. }
    destruct (parse_res (get p w)) as [v|e] eqn:E.
    - assert (ND : ~ damaged p w) by (intros X; apply DM in X; discriminate).
      rewrite lrun_bind, lrun_mute, run_lift. cbn [fst snd]. destruct (index_get name v) as [x|e] eqn:G.
      + rewrite lrun_bind, lrun_note, lrun_mute, run_lift. cbn [fst snd]. unfold str_set. destruct (set_val x) as [y|e] eqn:SV; cbn [bind app].
        * split; [reflexivity|]. right. split; [exact ND|]. left. eexists. reflexivity.
        * assert (N : e <> JSONDecodeError) by (intros ->; exact (set_val_not _ SV)).
          destruct e; try (destruct (N eq_refl)); (split; [reflexivity|]; right; split; [exact ND|]; right; eexists _, _; split; [reflexivity|]; repeat constructor; discriminate).
      + unfold index_get in G. destruct v; try (destruct (d_get name _); try discriminate); injection G as <-; cbn [app];
        (split; [reflexivity|]; right; split; [exact ND|]; right; eexists _, _; split; [reflexivity|]; repeat constructor; discriminate).
    - destruct e; try (assert (ND : ~ damaged p w) by (intros X; apply DM in X; discriminate); cbn [app];
        split; [reflexivity|]; right; split; [exact ND|]; right; eexists _, _; split; [reflexivity|]; repeat constructor; discriminate).
      rewrite lrun_bind, lrun_note. cbn [lrun app]. split; [reflexivity|]. left. split; [apply DM; reflexivity|reflexivity].
  Qed.

  (** *** FIND and REPORT *)
  Lemma damaged_fs p w w' : w_fs w' = w_fs w -> damaged p w -> damaged p w'.
  Proof. unfold damaged, file_is. intros ->. auto. Qed.
  Lemma after_cases f rp g w log r w' :
    lrun (let& found := find_l lt f g in let& _ := match rp with Some r => mute (report r found g) | None => LRet true end in LRet true) w = (log, r, w') ->
    (exists b vals, r = Ok b /\ Forall on_value vals /\ damaged (indexes_fp g) w' /\ log = find_log vals false) \/
    (exists b vals, r = Ok b /\ Forall on_value vals /\ ~ damaged (indexes_fp g) w' /\ log = find_log vals true) \/
    (exists e, r = Err e /\ Forall no_error log).
  Proof.
    intros H.
    assert (FS : w_fs w' = w_fs w) by (eapply after_files; eapply lcrash_result; [apply after_same|]; eapply lcrash_end; exact H).
    assert (DM : damaged (indexes_fp g) w' <-> damaged (indexes_fp g) w) by (split; apply damaged_fs; congruence).
    enough (G : (exists b vals, r = Ok b /\ Forall on_value vals /\ damaged (indexes_fp g) w /\ log = find_log vals false) \/
      (exists b vals, r = Ok b /\ Forall on_value vals /\ ~ damaged (indexes_fp g) w /\ log = find_log vals true) \/
      (exists e, r = Err e /\ Forall no_error log)).
    { destruct G as [(b & v & G1 & G2 & G3 & G4)|[(b & v & G1 & G2 & G3 & G4)|G]]; [left; exists b, v; tauto|right; left; exists b, v; tauto|tauto]. }
    clear DM.
    unfold find_l in H. rewrite lrun_bind, lrun_bind, lrun_wlift in H.
    pose proof (find_values lt (pf_pattern f)) as V. set (vals := fst (process_pattern_find_l lt (pf_pattern f))) in *.
    destruct (snd (process_pattern_find_l lt (pf_pattern f))) as [fp|e].
    2:{ apply triple_inv in H as (<- & <- & <-). right. right. exists e. split; [reflexivity|]. apply value_no_error. exact V. }
    rewrite lrun_bind in H. unfold find_short_circuit_l in H. rewrite lrun_bind in H.
    assert (TAIL : forall (ok : bool), exists v', lrun (if ok then LRet (Some [(true, false)]) else let& _ := mute (do_unit (CPrint NO_RESULTS)) in LRet None) w =
       ([], Ok (if ok then Some [(true, false)] else None), v')).
    { intros []; [eexists; reflexivity|]. eexists. rewrite lrun_bind, lrun_mute. reflexivity. }
    assert (LAST : forall found v, exists v', lrun (let& _ := match rp with Some r => mute (report r found g) | None => LRet true end in LRet true) v = ([], Ok true, v')).
    { intros found v. destruct rp; cbn [report mute lbind lrun]; eexists; reflexivity. }
    assert (SC : forall labels names, exists ok, lrun (if negb (node_label_is_in_index (fp_labels fp) labels) then LRet false
        else if relationship_name_is_in_index (fp_names fp) names then LRet false else LRet true) w = ([], Ok ok, w)).
    { intros. destruct (negb _); [eexists; reflexivity|]. destruct (relationship_name_is_in_index _ _); eexists; reflexivity. }
    destruct (load_index_cases (indexes_fp g) NODE_LABELS w) as (_ & [(DM & L1)|(ND & [(v1 & L1)|(l1 & e & L1 & NE)])]); rewrite L1 in H.
    - destruct (load_index_cases (indexes_fp g) RELATIONSHIP_NAMES w) as (_ & [(_ & L2)|(ND & _)]); [|contradiction].
      rewrite lrun_bind, L2 in H. destruct (SC [] []) as (ok & E). rewrite E in H. destruct (TAIL ok) as (v' & T). rewrite T in H.
      destruct (LAST (if ok then Some [(true, false)] else None) v') as (v2 & L). rewrite L in H. apply triple_inv in H as (<- & <- & <-).
      left. exists true, vals. split; [reflexivity|]. split; [exact V|]. split; [exact DM|]. unfold find_log. rewrite ?app_nil_r. reflexivity.
    - destruct (load_index_cases (indexes_fp g) RELATIONSHIP_NAMES w) as (_ & [(DM & _)|(_ & [(v2 & L2)|(l2 & e & L2 & NE)])]); [contradiction| |].
      + rewrite lrun_bind, L2 in H. destruct (SC v1 v2) as (ok & E). rewrite E in H. destruct (TAIL ok) as (v' & T). rewrite T in H.
        destruct (LAST (if ok then Some [(true, false)] else None) v') as (v3 & L). rewrite L in H. apply triple_inv in H as (<- & <- & <-).
        right. left. exists true, vals. split; [reflexivity|]. split; [exact V|]. split; [exact ND|]. unfold find_log. rewrite ?app_nil_r. reflexivity.
      + rewrite lrun_bind, L2 in H. apply triple_inv in H as (<- & <- & <-). right. right. exists e. split; [reflexivity|].
        apply Forall_app. split; [apply value_no_error; exact V|]. apply Forall_app. split; [unfold look_log; constructor; [discriminate|constructor; [discriminate|constructor]]|exact NE].
    - apply triple_inv in H as (<- & <- & <-). right. right. exists e. split; [reflexivity|]. apply Forall_app. split; [apply value_no_error; exact V|exact NE].
  Qed.

  (** *** MAKE *)
  Lemma make_answered l g w log b w' : lrun (make_l lt l g) w = (log, Ok b, w') ->
    exists t z vals n, file_is (wiggle_number_fp g) t w /\ py_int t = Ok z /\ Forall on_value vals /\ log = make_log z vals n.
  Proof.
    unfold make_l. rewrite lrun_bind. destruct (lrun (get_current_wiggle_number_l (wiggle_number_fp g)) w) as [[l0 [z|e]] w0] eqn:E0; [|discriminate].
    assert (N : w0 = w /\ exists t, file_is (wiggle_number_fp g) t w /\ py_int t = Ok z /\
      l0 = [(DEBUG, py "Attempting getting WiggleNumber"); (DEBUG, py "Wiggle number found, casting to int"); (INFO, py "Successfully got Wiggle number was " ++ str_of_Z z)]).
    { unfold get_current_wiggle_number_l in E0. rewrite lrun_bind, lrun_note, lrun_bind, lrun_mute, run_read in E0. cbn [fst snd] in E0.
      unfold read_res, get in E0. unfold file_is. destruct (fs_get (wiggle_number_fp g) (w_fs w)) as [[|t]|]; try discriminate.
      destruct t as [|c t]; [discriminate|]. rewrite lrun_bind, lrun_note, lrun_bind, lrun_mute, run_lift in E0. cbn [fst snd] in E0.
      destruct (py_int (c :: t)) as [z'|e] eqn:Z; [|discriminate]. rewrite lrun_bind, lrun_note in E0. cbn [lrun] in E0. apply triple_inv in E0 as (<- & E0 & <-). injection E0 as <-.
      split; [reflexivity|]. exists (c :: t). auto. }
    destruct N as (-> & t & F & Z & ->). rewrite lrun_bind, lrun_mute, run_lift. cbn [fst snd].
    destruct (process_parsed_make_list l z) as [[z' ms]|e]; [|discriminate]. rewrite lrun_bind, lrun_wlift.
    destruct (snd (wmapM (make_nodes_l lt) ms)) as [nss|e]; [|discriminate]. cbv zeta. rewrite lrun_bind.
    destruct (lrun (add_item_to_database_l (database_fp g) (nodes_dict (concat nss))) w) as [[la [ba|e]] wa] eqn:EA; [|discriminate].
    assert (A : exists n, la = [(INFO, py "writing to db"); (INFO, py "Successfully added " ++ str_of_Z (Z.of_nat n) ++ py " records to the database.")]).
    { unfold add_item_to_database_l in EA. rewrite lrun_bind, lrun_mute, run_read_json in EA. cbn [fst snd] in EA. destruct (parse_res _); [|discriminate].
      rewrite lrun_bind, lrun_note, lrun_bind, lrun_mute, run_lift in EA. cbn [fst snd] in EA. destruct (db_add_all _ _); [|discriminate].
      rewrite lrun_bind, lrun_mute in EA. destruct (run _ w) as [[n|e] w1]; cbn [fst snd] in EA; [|discriminate].
      rewrite lrun_bind, lrun_note in EA. cbn [lrun] in EA. inversion EA. eexists. reflexivity. }
    destruct A as (n & ->). rewrite lrun_bind, lrun_mute. destruct (run (add_indexes _ _ _) wa) as [[x|e] w1]; cbn [fst snd]; [|discriminate].
    rewrite lrun_bind. unfold update_wiggle_number_l. rewrite lrun_bind, lrun_note, lrun_bind, lrun_mute. destruct (run (do_unit (CCreate _)) w1) as [[u|e] w2]; cbn [fst snd]; [|discriminate].
    rewrite lrun_bind, lrun_mute. destruct (run (do_unit _) w2) as [[u'|e] w3]; cbn [fst snd]; [|discriminate].
    rewrite lrun_bind, lrun_note. cbn [lrun]. intros H. apply triple_inv in H as (<- & _ & _). exists t, z, (fst (wmapM (make_nodes_l lt) ms)), n.
    split; [exact F|]. split; [exact Z|]. split; [apply wmapM_fst; intros; apply make_nodes_values|]. unfold make_log. rewrite ?app_nil_r. cbn [app]. reflexivity.
  Qed.

  (** *** Queries *)
  Lemma query_cases q g w log r w' : lrun (query_l lt q g) w = (log, r, w') ->
    (exists e, r = Err e /\ Forall no_error log) \/
    exists b log1 vals w1, r = Ok b /\ w_fs w' = w_fs w1 /\ Forall on_value vals /\
      (((damaged (indexes_fp g) w' /\ log = log1 ++ find_log vals false) \/ (~ damaged (indexes_fp g) w' /\ log = log1 ++ find_log vals true)) /\
      ((log1 = [] /\ w1 = w /\ forall l, parse_make q = Ok (Some l) -> l = []) \/
       exists l b1, parse_make q = Ok (Some l) /\ l <> [] /\ lrun (make_l lt l g) w = (log1, Ok b1, w1))).
  Proof.
    unfold query_l. rewrite lrun_bind, lrun_mute, run_lift. cbn [fst snd]. intros H.
    destruct (parse_query_string q) as [pq|e] eqn:P; [|apply triple_inv in H as (<- & <- & <-); left; exists e; split; [reflexivity|constructor]].
    unfold parse_query_string in P. destruct (parse_make q) as [mk|] eqn:EM; cbn [bind] in P; [|discriminate].
    destruct (parse_find q) as [[f|]|]; cbn [bind] in P; try discriminate.
    destruct (parse_report _ _) as [rp|]; cbn [bind] in P; [|discriminate]. injection P as <-.
    rewrite lrun_bind in H. unfold execute_query_l in H. cbn [q_make q_find q_report] in H. rewrite lrun_bind in H.
    assert (M : exists l1 r1 w1, lrun (match mk with Some (m :: ms) => make_l lt (m :: ms) g | _ => LRet true end) w = (l1, r1, w1) /\ Forall no_error l1 /\
      forall b, r1 = Ok b -> (l1 = [] /\ w1 = w /\ forall l, Ok mk = Ok (Some l) -> l = []) \/
       exists l b1, Ok mk = Ok (Some l) /\ l <> [] /\ lrun (make_l lt l g) w = (l1, Ok b1, w1)).
    { destruct mk as [[|m l]|].
      - exists [], (Ok true), w. split; [reflexivity|]. split; [constructor|]. intros. left. split; [reflexivity|]. split; [reflexivity|]. intros. congruence.
      - destruct (lrun (make_l lt (m :: l) g) w) as [[l1 r1] w1] eqn:R. exists l1, r1, w1. split; [reflexivity|]. split; [eapply run_log; [apply make_no_error|exact R]|].
        intros b ->. right. exists (m :: l), b. split; [reflexivity|]. split; [discriminate|exact R].
      - exists [], (Ok true), w. split; [reflexivity|]. split; [constructor|]. intros. left. split; [reflexivity|]. split; [reflexivity|]. discriminate. }
    destruct M as (l1 & r1 & w1 & R1 & N1 & X). rewrite R1 in H. destruct r1 as [b1|e1].
    2:{ apply triple_inv in H as (<- & <- & <-). left. exists e1. auto. }
    destruct (lrun _ w1) as [[l2 r2] w2] eqn:R2.
    assert (FS : w_fs w2 = w_fs w1) by (eapply after_files; eapply lcrash_result; [apply after_same|]; eapply lcrash_end; exact R2).
    destruct (after_cases _ _ _ _ _ _ _ R2) as [(b & vals & -> & V & DM & ->)|[(b & vals & -> & V & DM & ->)|(e & -> & NE)]]; cbn [lrun] in H; apply triple_inv in H as (<- & <- & <-).
    - right. exists true, l1, vals, w1. rewrite ?app_nil_r. split; [reflexivity|]. split; [exact FS|]. split; [exact V|]. split; [left; split; [exact DM|reflexivity]|exact (X _ eq_refl)].
    - right. exists true, l1, vals, w1. rewrite ?app_nil_r. split; [reflexivity|]. split; [exact FS|]. split; [exact V|]. split; [right; split; [exact DM|reflexivity]|exact (X _ eq_refl)].
    - left. exists e. split; [reflexivity|]. change (Forall no_error (l1 ++ l2)). apply Forall_app. auto.
  Qed.

  (** errors in the log: exactly the two of an answered query over damaged indexes *)
  Lemma no_errors_in l : Forall no_error l -> forall t, ~ In (ERROR, t) l.
  Proof. intros H t I. rewrite Forall_forall in H. exact (H _ I eq_refl). Qed.
  Lemma query_no_error_before q g w log r w' : lrun (query_l lt q g) w = (log, r, w') -> forall e, r = Err e -> Forall no_error log.
  Proof. intros H e ->. destruct (query_cases _ _ _ _ _ _ H) as [(e' & _ & N)|(b & log1 & vals & w1 & E & _)]; [exact N|discriminate]. Qed.
  Theorem log_errors q g w log r w' : lrun (query_l lt q g) w = (log, r, w') -> forall t,
    In (ERROR, t) log <->
    (exists b, r = Ok b) /\ damaged (indexes_fp g) w' /\ (t = snd (says_empty (py "node_labels")) \/ t = snd (says_empty (py "relationship_names"))).
  Proof.
    intros H t. destruct (query_cases _ _ _ _ _ _ H) as [(e & -> & N)|(b & log1 & vals & w1 & -> & FS & V & [(DM & ->)|(ND & ->)] & M)].
    - split; [intros I; destruct (no_errors_in _ N t I)|intros ((b & X) & _); discriminate].
    - assert (N1 : Forall no_error log1).
      { destruct M as [(-> & _)|(l & b1 & _ & _ & R)]; [constructor|eapply run_log; [apply make_no_error|exact R]]. }
      unfold find_log. rewrite !in_app_iff. split.
      + intros [I|[I|I]]; [destruct (no_errors_in _ N1 t I)|destruct (no_errors_in _ (value_no_error _ V) t I)|].
        split; [eauto|]. split; [exact DM|]. unfold look_log in I. cbn [In] in I.
        destruct I as [[I|[I|[]]]|[I|[I|[]]]]; try discriminate; [left|right]; exact (f_equal snd (eq_sym I)).
      + intros (_ & _ & [->| ->]); right; right; [left|right]; right; left; reflexivity.
    - assert (N1 : Forall no_error log1).
      { destruct M as [(-> & _)|(l & b1 & _ & _ & R)]; [constructor|eapply run_log; [apply make_no_error|exact R]]. }
      split; [|intros (_ & DM & _); contradiction]. unfold find_log. rewrite !in_app_iff.
      intros [I|[I|[I|I]]]; [destruct (no_errors_in _ N1 t I)|destruct (no_errors_in _ (value_no_error _ V) t I)| |];
      unfold look_log in I; cbn [In] in I; destruct I as [I|[I|[]]]; discriminate.
  Qed.

  (** the log of an answered query *)
  Theorem answered_log (D : rt_data rt) q g w log b w' : lrun (query_l lt q g) w = (log, Ok b, w') ->
    exists mlog vals readable, log = mlog ++ find_log vals readable /\ Forall on_value vals /\ (readable = false <-> damaged (indexes_fp g) w') /\
      ((mlog = [] /\ w_fs w' = w_fs w) \/
       exists t z mvals n, file_is (wiggle_number_fp g) t w /\ py_int t = Ok z /\ Forall on_value mvals /\ mlog = make_log z mvals n /\
         forall d d', distinct_files g -> db_file (database_fp g) d w -> db_file (database_fp g) d' w' -> List.length d' = List.length d + n).
  Proof.
    intros H. destruct (query_cases _ _ _ _ _ _ H) as [(e & X & _)|(b' & log1 & vals & w1 & _ & FS & V & C & M)]; [discriminate|].
    assert (C' : exists readable, log = log1 ++ find_log vals readable /\ (readable = false <-> damaged (indexes_fp g) w')).
    { destruct C as [(DM & ->)|(ND & ->)]; [exists false; tauto|exists true]. split; [reflexivity|]. split; [discriminate|contradiction]. }
    destruct C' as (rd & E & RD). exists log1, vals, rd. split; [exact E|]. split; [exact V|]. split; [exact RD|].
    destruct M as [(-> & -> & _)|(l & b1 & P & NN & R)]; [left; auto|right].
    destruct (make_answered _ _ _ _ _ _ R) as (t & z & mvals & n & F & Z & MV & ->). exists t, z, mvals, n. split; [exact F|]. split; [exact Z|]. split; [exact MV|]. split; [reflexivity|].
    intros d d' DI DF DF'.
    destruct (make_run_l lt D g d w w1 l _ _ DI DF (parsed_names_ok D q l P) R) as [((e & X) & _)|[(z' & items & A & DB & T & _)|(_ & X & _)]]; try discriminate.
    pose proof (db_file_parse _ _ _ (fs_db _ _ _ _ FS DB)) as P1. pose proof (db_file_parse _ _ _ DF') as P2. rewrite P1 in P2. injection P2 as <-.
    rewrite app_length. f_equal. eapply tally_unique; [exact T|].
    assert (T' : tally ([(INFO, py "writing to db"); (INFO, added_text n)]) n) by apply tally_one.
    unfold make_log. rewrite <- (Nat.add_0_r n) at 2. apply (tally_app _ _ 0); [|apply (tally_app _ _ 0); [|apply tally_app]].
    - apply tally_zero; repeat constructor; nc.
    - apply tally_zero, values_no_count; exact MV.
    - exact T'.
    - apply tally_zero; repeat constructor; nc.
  Qed.

  (** *** The same runs *)
  Theorem logging_same_runs q g w : (forall log r w', lrun (query_l lt q g) w = (log, r, w') -> run (query q g) w = (r, w')) /\
    (forall r w', run (query q g) w = (r, w') -> exists log, lrun (query_l lt q g) w = (log, r, w')).
  Proof. split; intros; [eapply lrun_result; [apply query_same|eassumption]|eapply lrun_has; [apply query_same|eassumption]]. Qed.
  Theorem logging_same_crashes q g w w' : crash (query q g) w w' <-> exists log, lcrash (query_l lt q g) w log w'.
  Proof.
    split; [intros C; apply crash_has_log; eapply same_crash; [apply same_sym, query_same|exact C]|].
    intros (log & C). eapply lcrash_result; [apply query_same|exact C].
  Qed.
  Theorem logging_same_stores : forall p,
    same_program (quiet (load_database_l p)) (load_database p) /\ (forall b, same_program (quiet (wipe_database_l p b)) (wipe_database p b)) /\
    (forall items, same_program (quiet (add_item_to_database_l p items)) (add_item_to_database p items)) /\
    (forall name, same_program (quiet (load_index_set_l p name)) (load_index_set p name)) /\
    same_program (quiet (load_node_relationships_index_l p)) (load_node_relationships_index p) /\
    (forall name b, same_program (quiet (wipe_index_set_l p name b)) (wipe_index p name (VList []) b)) /\
    (forall b, same_program (quiet (wipe_node_relationships_index_l p b)) (wipe_node_relationships_index p b)) /\
    same_program (quiet (get_current_wiggle_number_l p)) (get_current_wiggle_number p) /\
    (forall z, same_program (quiet (update_wiggle_number_l p z)) (update_wiggle_number p z)).
  Proof.
    intros p. split; [apply load_database_same|]. split; [apply wipe_database_same|]. split; [apply add_item_same|]. split; [apply load_index_same|].
    split; [apply load_rels_same|]. split; [apply wipe_set_same|]. split; [apply wipe_rels_same|]. split; [apply get_number_same|apply update_number_same].
  Qed.

  (** *** Loading a file *)
  Definition loads_with {A} (m : lio A) (p : path) (start good bad : pystr) : Prop := forall w log r w', lrun m w = (log, r, w') ->
    w' = w /\ (damaged p w -> log = [(INFO, start); (ERROR, bad)]) /\
    (~ damaged p w -> log = [(INFO, start); (INFO, good)] \/ log = [(INFO, start)] /\ exists e, r = Err e).
  Lemma parse_damaged p w : parse_res (get p w) = Err JSONDecodeError <-> damaged p w.
  Proof.
    unfold damaged, parse_res, read_res, file_is, get. split.
    - destruct (fs_get p (w_fs w)) as [[|t]|]; cbn [bind]; try discriminate. eauto.
    - intros (t & E & L). rewrite E. exact L.
  Qed.
  Lemma load_database_log p : loads_with (load_database_l p) p (py "Attempting to loading database") (py "Successfully loaded database") (py "Empty database, returning a new one").
  Proof.
    intros w log r w'. unfold load_database_l. rewrite lrun_bind, lrun_note, lrun_catch, lrun_bind, lrun_mute, run_read_json. cbn [fst snd].
    destruct (parse_res (get p w)) as [v|e] eqn:E.
    - rewrite lrun_bind, lrun_note. cbn [lrun]. intros H. apply triple_inv in H as (<- & <- & <-). split; [reflexivity|].
      split; [intros DM; apply parse_damaged in DM; congruence|]. intros _. left. reflexivity.
    - assert (DM : e = JSONDecodeError <-> damaged p w) by (rewrite <- parse_damaged, E; split; congruence).
      destruct e; try (intros H; apply triple_inv in H as (<- & <- & <-); split; [reflexivity|]; split; [intros X; apply DM in X; discriminate|intros _; right; split; [reflexivity|eauto]]).
      rewrite lrun_bind, lrun_note. cbn [lrun]. intros H. apply triple_inv in H as (<- & <- & <-). split; [reflexivity|]. split; [reflexivity|]. intros X. destruct (X (proj1 DM eq_refl)).
  Qed.
  Theorem loading_log : forall p w log,
    (forall r w', lrun (load_database_l p) w = (log, r, w') ->
       w' = w /\ (damaged p w -> r = Ok (VDict []) /\ log = [(INFO, py "Attempting to loading database"); (ERROR, py "Empty database, returning a new one")]) /\
       ((exists t, In (ERROR, t) log) -> damaged p w)) /\
    (forall name r w', lrun (load_index_set_l p name) w = (log, r, w') ->
       w' = w /\ (damaged p w -> r = Ok [] /\ log = look_log name false) /\ ((exists t, In (ERROR, t) log) -> damaged p w)).
  Proof.
    intros p w log. split.
    - intros r w' H. destruct (load_database_log p w log r w' H) as (-> & B & G). split; [reflexivity|].
      assert (X : damaged p w \/ ~ damaged p w).
      { destruct (parse_res (get p w)) as [v|e] eqn:E; [right; intros X; apply parse_damaged in X; congruence|].
        destruct e; try (right; intros X; apply parse_damaged in X; congruence). left. apply parse_damaged. exact E. }
      split.
      + intros DM. split; [|auto]. apply (lrun_result _ _ _ _ _ _ (load_database_same p)) in H. apply parse_damaged in DM.
        unfold load_database in H. rewrite run_catch, run_read_json, DM in H. cbn in H. congruence.
      + intros (t & I). destruct X as [DM|ND]; [exact DM|]. destruct (G ND) as [->|(-> & _)]; cbn [In] in I; [destruct I as [I|[I|[]]]|destruct I as [I|[]]]; discriminate.
    - intros name r w' H. destruct (load_index_cases p name w) as (_ & [(DM & L)|(ND & C)]).
      + rewrite L in H. apply triple_inv in H as (<- & <- & <-). auto.
      + assert (N : w' = w /\ Forall no_error log).
        { destruct C as [(v & L)|(l & e & L & NE)]; rewrite L in H; apply triple_inv in H as (<- & <- & <-); (split; [reflexivity|]);
          [unfold look_log; constructor; [discriminate|constructor; [discriminate|constructor]]|exact NE]. }
        destruct N as (-> & NE). split; [reflexivity|]. split; [contradiction|]. intros (t & I). destruct (no_errors_in _ NE t I).
  Qed.
End More.

(** ** Running a program up to a given step *)
Fixpoint lcrash_at {A} (n k : nat) (m : lio A) (w : world) : list record * world :=
  match m with
  | LDo c f =>
      match n with
      | O => ([], match c with CWrite p off t => snd (exec (CWrite p off (firstn k t)) w) | _ => w end)
      | S n' => lcrash_at n' k (f (fst (exec c w))) (snd (exec c w))
      end
  | LLog r m' => let x := lcrash_at n k m' w in (r :: fst x, snd x)
  | _ => ([], w)
  end.
Lemma lcrash_at_crash {A} (m : lio A) : forall n k w, lcrash m w (fst (lcrash_at n k m w)) (snd (lcrash_at n k m w)).
Proof.
  induction m as [a|e|c f IH|r m IH]; intros n k w; cbn [lcrash_at fst snd]; try apply lcrash_now.
  - destruct n; [|apply lcrash_later, IH]. cbn [fst snd]. destruct c; try apply lcrash_now. eapply lcrash_write. symmetry. apply firstn_skipn.
  - apply lcrash_log, IH.
Qed.
