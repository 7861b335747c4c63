(** * Prop_Log: what the log tells (C76)

    [lrun] gives the records, the outcome and the world of a run, [lcrash] the records and the world at some moment of
    it; [list_text] is the text of a list, whatever it is.  [history_l], [told], [tally], [in_clear], [damaged],
    [make_log] and [find_log] are in SpecLog.  [lrun] and [lcrash] give all records that are made; which of them are
    written depends on the level of the logger: all at level DEBUG, only errors at level WARNING, which importing
    query.py sets. *)
From Verif Require Import PyBase Json SpecJson RtLaws Props Statements Data FS Store SpecStore Make SpecMake Find Query SpecShell SpecDurable
  Log SpecLog LogFacts LogMore LogLevel FSFacts CrashFacts AsciiRt AsciiFacts Prop_Make Prop_Query.

(** ** Logging changes nothing *)
Theorem C76_same_runs : forall (rt : PyRt) list_text q g w,
  (forall log r w', lrun (query_l list_text q g) w = (log, r, w') -> run (query q g) w = (r, w')) /\
  (forall r w', run (query q g) w = (r, w') -> exists log, lrun (query_l list_text q g) w = (log, r, w')).
Proof. exact @logging_same_runs. Qed.
Print Assumptions C76_same_runs.

Theorem C76_same_moments : forall (rt : PyRt) list_text q g w w',
  crash (query q g) w w' <-> exists log, lcrash (query_l list_text q g) w log w'.
Proof. exact @logging_same_crashes. Qed.
Print Assumptions C76_same_moments.

Theorem C76_same_queries : forall (rt : PyRt) list_text q g, same_program (quiet (query_l list_text q g)) (query q g).
Proof. exact @query_same. Qed.
Print Assumptions C76_same_queries.

Theorem C76_same_stores : forall (rt : PyRt) p,
  same_program (quiet (load_database_l p)) (load_database p) /\ (forall b, same_program (quiet (wipe_database_l p b)) (wipe_database p b)) /\
  (forall items, same_program (quiet (add_item_to_database_l p items)) (add_item_to_database p items)) /\
  (forall name, same_program (quiet (load_index_set_l p name)) (load_index_set p name)) /\
  same_program (quiet (load_node_relationships_index_l p)) (load_node_relationships_index p) /\
  (forall name b, same_program (quiet (wipe_index_set_l p name b)) (wipe_index p name (VList []) b)) /\
  (forall b, same_program (quiet (wipe_node_relationships_index_l p b)) (wipe_node_relationships_index p b)) /\
  same_program (quiet (get_current_wiggle_number_l p)) (get_current_wiggle_number p) /\
  (forall z, same_program (quiet (update_wiggle_number_l p z)) (update_wiggle_number p z)).
Proof. exact @logging_same_stores. Qed.
Print Assumptions C76_same_stores.

(** ** What is written *)
Theorem C76_debug_writes_all : forall l, written (level_no DEBUG) l = l.
Proof. exact all_written. Qed.
Print Assumptions C76_debug_writes_all.
(** as shipped: nothing, but for an answered query that could not read the indexes *)
Theorem C76_shipped_log : forall (rt : PyRt) list_text, rt_data rt -> forall q g w log r w',
  lrun (query_l list_text q g) w = (log, r, w') ->
  ((exists b, r = Ok b) /\ damaged (indexes_fp g) w' /\ written WARNING log = both_empty) \/
  (~ ((exists b, r = Ok b) /\ damaged (indexes_fp g) w') /\ written WARNING log = []).
Proof. exact @shipped_log. Qed.
Print Assumptions C76_shipped_log.
Theorem C76_shipped_history : forall (rt : PyRt) list_text, rt_data rt -> forall g h w w', history_l list_text g h w w' ->
  Forall (fun x => (exists more, written WARNING (h_log x) ++ more = both_empty) /\
                   (forall e, h_fate x = Failed e -> written WARNING (h_log x) = [])) h.
Proof. exact @shipped_history. Qed.
Print Assumptions C76_shipped_history.

(** The theorems that follow are about all records: about the log at level DEBUG. *)
(** ** Counting the records *)
(** the log of a history, read from its beginning, tells how many entries the database gained *)
Theorem C76_log_counts : forall (rt : PyRt) list_text, rt_data rt -> forall g h w w' d d',
  history_l list_text g h w w' -> distinct_files g -> db_file (database_fp g) d w -> db_file (database_fp g) d' w' ->
  exists n, tally (concat (map h_log h)) n /\ List.length d + n <= List.length d' /\
    (Forall (fun x => h_fate x <> Cut) h -> List.length d' = List.length d + n).
Proof. exact @log_counts. Qed.
Print Assumptions C76_log_counts.

Theorem C76_one_count : forall (rt : PyRt) l n m, tally l n -> tally l m -> n = m.
Proof. exact @tally_unique. Qed.
Print Assumptions C76_one_count.

(** query by query, with the strings among the properties *)
Theorem C76_log_tells : forall (rt : PyRt) list_text, rt_data rt -> forall g h w w', history_l list_text g h w w' ->
  forall d, distinct_files g -> db_file (database_fp g) d w ->
  (exists parts, Forall2 told h parts /\ db_file (database_fp g) (d ++ concat parts) w') \/ unreadable g w'.
Proof. exact @log_tells. Qed.
Print Assumptions C76_log_tells.

(** ** The whole log of an answered query *)
Theorem C76_answered_log : forall (rt : PyRt) list_text, rt_data rt -> forall q g w log b w',
  lrun (query_l list_text q g) w = (log, Ok b, w') ->
  exists mlog vals readable, log = mlog ++ find_log vals readable /\ Forall on_value vals /\ (readable = false <-> damaged (indexes_fp g) w') /\
    ((mlog = [] /\ w_fs w' = w_fs w) \/
     exists t z mvals n, file_is (wiggle_number_fp g) t w /\ py_int t = Ok z /\ Forall on_value mvals /\ mlog = make_log z mvals n /\
       forall d d', distinct_files g -> db_file (database_fp g) d w -> db_file (database_fp g) d' w' -> List.length d' = List.length d + n).
Proof. exact @answered_log. Qed.
Print Assumptions C76_answered_log.

(** ** Errors in the log *)
Theorem C76_log_errors : forall (rt : PyRt) list_text q g w log r w', lrun (query_l list_text q g) w = (log, r, w') -> forall t,
  In (ERROR, t) log <->
  (exists b, r = Ok b) /\ damaged (indexes_fp g) w' /\
  (t = py "Empty node_labels indexes, returning a new one" \/ t = py "Empty relationship_names indexes, returning a new one").
Proof. exact @log_errors. Qed.
Print Assumptions C76_log_errors.

Theorem C76_loading : forall (rt : PyRt) p w log,
  (forall r w', lrun (load_database_l p) w = (log, r, w') ->
     w' = w /\ (damaged p w -> r = Ok (VDict []) /\ log = [(INFO, py "Attempting to loading database"); (ERROR, py "Empty database, returning a new one")]) /\
     ((exists t, In (ERROR, t) log) -> damaged p w)) /\
  (forall name r w', lrun (load_index_set_l p name) w = (log, r, w') ->
     w' = w /\ (damaged p w -> r = Ok [] /\ log = look_log name false) /\ ((exists t, In (ERROR, t) log) -> damaged p w)).
Proof. exact @loading_log. Qed.
Print Assumptions C76_loading.

(** ** Examples *)
Definition lo_text (v : pyval) : pystr := py "[...]".
Definition lo_q : pystr := py "MAKE (:Person{password: ""hunter2""})-[:KNOWS]->(:B);" ++ nl ++ py "FIND (:Person);".
Definition lo_bad : pystr := py "MAKE (:A{x: 1});".
Definition lo_run (q : pystr) (w : world) : list record * res bool * world := lrun (@query_l ascii_rt lo_text q ex_g) w.
Definition lo_heard (q : pystr) (o : fate) (x : list record * res bool * world) : heard := {| h_query := q; h_fate := o; h_log := fst (fst x) |}.
Definition lo_1 := lo_run lo_q ex_w.
Definition lo_2 := lo_run lo_bad (snd lo_1).
(** cut off after the database is written and before it is logged *)
Definition lo_cut (n k : nat) (w : world) : list record * world := lcrash_at n k (@query_l ascii_rt lo_text lo_q ex_g) w.
Definition lo_3 := lo_cut 2 2000 (snd lo_2).
Definition lo_history : list heard := [lo_heard lo_q Answered lo_1; lo_heard lo_bad (Failed AttributeError) lo_2; {| h_query := lo_q; h_fate := Cut; h_log := fst lo_3 |}].

Lemma lo_answered : snd (fst lo_1) = Ok true.
Proof. vm_compute. reflexivity. Qed.
Lemma lo_failed : snd (fst lo_2) = Err AttributeError.
Proof. vm_compute. reflexivity. Qed.
Lemma lo_sent_ok q w b : snd (fst (lo_run q w)) = Ok b -> @sent_l ascii_rt lo_text ex_g (lo_heard q Answered (lo_run q w)) w (snd (lo_run q w)).
Proof. intros H. exists b. cbn [lo_heard h_query h_log]. fold (lo_run q w). destruct (lo_run q w) as [[l r] w']. cbn [fst snd] in *. congruence. Qed.
Lemma lo_sent_err q w e : snd (fst (lo_run q w)) = Err e -> @sent_l ascii_rt lo_text ex_g (lo_heard q (Failed e) (lo_run q w)) w (snd (lo_run q w)).
Proof. intros H. unfold sent_l. cbn [lo_heard h_query h_log h_fate]. fold (lo_run q w). destruct (lo_run q w) as [[l r] w']. cbn [fst snd] in *. congruence. Qed.
Lemma lo_sent_cut n k w : @sent_l ascii_rt lo_text ex_g {| h_query := lo_q; h_fate := Cut; h_log := fst (lo_cut n k w) |} w (snd (lo_cut n k w)).
Proof. exact (lcrash_at_crash (@query_l ascii_rt lo_text lo_q ex_g) n k w). Qed.

Example C76_hypotheses : @history_l ascii_rt lo_text ex_g lo_history ex_w (snd lo_3) /\ distinct_files ex_g /\ @db_file ascii_rt (database_fp ex_g) [] ex_w.
Proof.
  split; [|split].
  - apply (hl_one _ _ _ _ _ (snd lo_1) (snd lo_1) _ (lo_sent_ok lo_q ex_w true lo_answered) (fun _ _ => eq_refl)).
    apply (hl_one _ _ _ _ _ (snd lo_2) (snd lo_2) _ (lo_sent_err lo_bad (snd lo_1) AttributeError lo_failed) (fun _ _ => eq_refl)).
    apply (hl_one _ _ _ _ _ (snd lo_3) (snd lo_3) _ (lo_sent_cut 2 2000 (snd lo_2)) (fun _ _ => eq_refl)). apply hl_none.
  - apply ex_stored.
  - split; [reflexivity|]. split; [|reflexivity]. apply vo_dict; constructor.
Qed.
Definition lo_size (w : world) : option nat :=
  match fst (run (@read_json ascii_rt (database_fp ex_g)) w) with Ok (VDict d) => Some (List.length d) | _ => None end.
Example C76_example_answered : fst (fst lo_1) =
  make_log 0 [(DEBUG, py "hunter2 was determined to be a string: hunter2")] 2 ++ find_log [] true /\ lo_size (snd lo_1) = Some 2.
Proof. vm_compute. split; reflexivity. Qed.
Example C76_example_shipped : written WARNING (fst (fst lo_1)) = [].
Proof. vm_compute. reflexivity. Qed.
Example C76_example_failed : fst (fst lo_2) = [] /\ lo_size (snd lo_2) = Some 2.
Proof. vm_compute. split; reflexivity. Qed.

(** What a user expects is false: a query that was cut off has stored its two nodes, and the log does not say so. *)
Theorem C76_unlogged_nodes_refuted :
  @sent_l ascii_rt lo_text ex_g {| h_query := lo_q; h_fate := Cut; h_log := fst lo_3 |} (snd lo_2) (snd lo_3) /\
  lo_size (snd lo_2) = Some 2 /\ lo_size (snd lo_3) = Some 4 /\ (forall r, In r (fst lo_3) -> ~ says_added r 2).
Proof.
  split; [exact (lo_sent_cut 2 2000 (snd lo_2))|]. split; [vm_compute; reflexivity|]. split; [vm_compute; reflexivity|].
  intros r I. vm_compute in I. unfold says_added. destruct I as [<-|[<-|[<-|[<-|[<-|[]]]]]]; intros E; vm_compute in E; discriminate E.
Qed.
Print Assumptions C76_unlogged_nodes_refuted.

(** What a user expects is false: the log of the program as it is tells nothing of the two nodes that were stored. *)
Theorem C76_shipped_log_counts_refuted :
  @sent_l ascii_rt lo_text ex_g (lo_heard lo_q Answered lo_1) ex_w (snd lo_1) /\
  lo_size ex_w = Some 0 /\ lo_size (snd lo_1) = Some 2 /\ written WARNING (fst (fst lo_1)) = [].
Proof.
  split; [exact (lo_sent_ok lo_q ex_w true lo_answered)|]. split; [vm_compute; reflexivity|]. split; vm_compute; reflexivity.
Qed.
Print Assumptions C76_shipped_log_counts_refuted.

(** With the level at DEBUG: what a user expects is false: the value of a property, a password say, is in the log in clear. *)
Theorem C76_password_in_clear_refuted : exists r, In r (fst (fst lo_1)) /\ in_clear (py "hunter2") r.
Proof.
  exists (DEBUG, py "hunter2 was determined to be a string: hunter2"). split; [vm_compute; tauto|].
  exists (py "hunter2"), (py "a string: "). reflexivity.
Qed.
Print Assumptions C76_password_in_clear_refuted.

(** Indexes that are not JSON: the query is answered, and the log calls them empty. *)
Definition lo_torn_text : pystr := py "{""node_labels"": [""A".
Definition lo_torn : world := put (indexes_fp ex_g) lo_torn_text ex_w.
Definition lo_find : pystr := py "FIND (:A);".
Example C76_example_damaged : @damaged ascii_rt (indexes_fp ex_g) lo_torn /\ lo_run lo_find lo_torn = (find_log [] false, Ok true, snd (lo_run lo_find lo_torn)).
Proof. split; [exists lo_torn_text; split; vm_compute; reflexivity|]. vm_compute. reflexivity. Qed.
Example C76_example_damaged_shipped : written WARNING (fst (fst (lo_run lo_find lo_torn))) = both_empty.
Proof. vm_compute. reflexivity. Qed.
