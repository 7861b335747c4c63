(** * Prop_Durable: what a database holds after queries that end or are cut off (C62)

    [history g h w w']: the queries of [h] were sent to the graph [g] one after the other, each of
    them answered, failed, or cut off at any point; [left_behind] and [unreadable] are in SpecDurable. *)
From Verif Require Import PyBase Json SpecJson RtLaws Props Statements FS Store SpecStore Make SpecMake Find Query SpecShell SpecDurable
  CrashFacts DurableFacts AsciiRt AsciiFacts Prop_Make Prop_Query.

(** the indexes and the counter may hold anything *)
Theorem C62_all_or_nothing : forall (rt : PyRt), rt_data rt -> forall g h w w', history g h w w' ->
  forall d, distinct_files g -> db_file (database_fp g) d w ->
  (exists parts, Forall2 left_behind h parts /\ db_file (database_fp g) (d ++ concat parts) w') \/
  (unreadable g w' /\ exists q o, In (q, o) h /\ (o = Cut \/ o = Failed TypeError)).
Proof. exact @all_or_nothing. Qed.
Print Assumptions C62_all_or_nothing.

Theorem C62_answered_is_there : forall (rt : PyRt), rt_data rt -> forall g h w w' d v q l,
  history g h w w' -> distinct_files g -> db_file (database_fp g) d w ->
  In (q, Answered) h -> parse_make q = Ok (Some l) -> run (read_json (database_fp g)) w' = (Ok v, w') ->
  exists z items d', acceptable (patterns_of l) z items /\ v = VDict d' /\ (forall kv, In kv d \/ In kv items -> In kv d').
Proof. exact @acknowledged_is_there. Qed.
Print Assumptions C62_answered_is_there.

Theorem C62_unreadable_for_ever : forall (rt : PyRt) g h w w', history g h w w' -> unreadable g w ->
  (forall p, In p (the_files g) -> fs_get p (w_fs w') = fs_get p (w_fs w)) /\
  forall q l, In (q, Answered) h -> parse_make q = Ok (Some l) -> l = [].
Proof. exact @unreadable_for_ever. Qed.
Print Assumptions C62_unreadable_for_ever.

(** ** Examples *)
Definition du_q : pystr := py "MAKE (:A)-[:R]->(:B);" ++ nl ++ py "FIND (:A);".
Definition du_run (w : world) : world := snd (run (@query ascii_rt du_q ex_g) w).
(** the query is cut off after [n] operations and [k] characters of the next one *)
Definition du_cut (n k : nat) (w : world) : world := crash_at n k (@query ascii_rt du_q ex_g) w.
Definition du_keys (w : world) : option (list pystr) :=
  match fst (run (@read_json ascii_rt (database_fp ex_g)) w) with Ok (VDict d) => Some (keys d) | _ => None end.

Lemma du_answered w : fst (run (@query ascii_rt du_q ex_g) w) = Ok true -> @sent ascii_rt ex_g du_q Answered w (du_run w).
Proof. intros H. exists true. unfold du_run. destruct (run (@query ascii_rt du_q ex_g) w) as [r w']. cbn [fst snd] in *. congruence. Qed.
Lemma du_ok : fst (run (@query ascii_rt du_q ex_g) ex_w) = Ok true.
Proof. vm_compute. reflexivity. Qed.
Lemma du_cut_sent n k w : @sent ascii_rt ex_g du_q Cut w (du_cut n k w).
Proof. apply crash_at_crash. Qed.

(** answered; cut off before the database is written; cut off after it: the third one has left all of its nodes *)
Definition du_1 : world := du_run ex_w.
Definition du_2 : world := du_cut 2 0 du_1.
Definition du_3 : world := du_cut 3 0 du_2.
Example C62_hypotheses : @history ascii_rt ex_g [(du_q, Answered); (du_q, Cut); (du_q, Cut)] ex_w du_3 /\
  distinct_files ex_g /\ @db_file ascii_rt (database_fp ex_g) [] ex_w /\
  (exists l, @parse_make ascii_rt du_q = Ok (Some l)).
Proof.
  split; [|split; [|split]].
  - apply (one_query _ _ _ _ _ du_1 du_1 _ (du_answered ex_w du_ok) (fun _ _ => eq_refl)).
    apply (one_query _ _ _ _ _ du_2 du_2 _ (du_cut_sent 2 0 du_1) (fun _ _ => eq_refl)).
    apply (one_query _ _ _ _ _ du_3 du_3 _ (du_cut_sent 3 0 du_2) (fun _ _ => eq_refl)). apply no_query.
  - apply ex_stored.
  - split; [reflexivity|]. split; [|reflexivity]. apply vo_dict; constructor.
  - eexists. vm_compute. reflexivity.
Qed.
Example C62_example : du_keys du_1 = Some [py "0"; py "1"] /\ du_keys du_2 = Some [py "0"; py "1"] /\
  du_keys du_3 = Some [py "0"; py "1"; py "3"; py "4"].
Proof. vm_compute. repeat split. Qed.

(** five characters more than the old text *)
Definition du_size : nat := match fs_get (database_fp ex_g) (w_fs du_1) with Some (EFile t) => List.length t | _ => 0 end.
Definition du_torn : world := du_cut 2 (du_size + 5) du_1.
(** What a user expects is false: the first query was answered, and its nodes are lost when a later
    query is cut off inside the write of the database; the database then loads as empty. *)
Theorem C62_answered_lost_refuted :
  @history ascii_rt ex_g [(du_q, Answered); (du_q, Cut)] ex_w du_torn /\ @unreadable ascii_rt ex_g du_torn /\
  run (@load_database ascii_rt (database_fp ex_g)) du_torn = (Ok (VDict []), du_torn).
Proof.
  split; [|split].
  - apply (one_query _ _ _ _ _ du_1 du_1 _ (du_answered ex_w du_ok) (fun _ _ => eq_refl)).
    apply (one_query _ _ _ _ _ du_torn du_torn _ (du_cut_sent 2 (du_size + 5) du_1) (fun _ _ => eq_refl)). apply no_query.
  - eexists. split; [vm_compute; reflexivity|]. vm_compute. reflexivity.
  - vm_compute. reflexivity.
Qed.
Print Assumptions C62_answered_lost_refuted.
