(** * Prop_Crash: a MAKE that stops at any point (C33, C34)

    [crash m w w']: the program [m], started in [w], can be stopped so that [w'] is what is left; it
    may stop between two operations and inside a write, of which a first part then reaches the file (FS).
    [crashed], [stuck] and the other words of the statements are in SpecCrash. *)
From Verif Require Import PyBase Json SpecJson RtLaws Props Statements FS Store SpecStore Make SpecMake Find SpecHistory SpecShell
  SpecCrash CrashFacts AsciiRt AsciiFacts Prop_Make.

(** ** C33 *)
Theorem C33_crash_states : forall (rt : PyRt), rt_data rt -> forall g G w, stored g G w ->
  forall l w', Forall names_ok (patterns_of l) -> crash (make l g) w w' ->
  w' = w \/ exists items i0 d i c, acceptable (patterns_of l) (g_next G) items /\
    file_is (indexes_fp g) i0 w /\ crashed (patterns_of l) G items i0 d i c /\
    file_is (database_fp g) d w' /\ file_is (indexes_fp g) i w' /\ file_is (wiggle_number_fp g) c w' /\
    unchanged_but (the_files g) w w'.
Proof. exact @crash_states. Qed.
Print Assumptions C33_crash_states.

(** a database that can still be read is the old one or the complete new one *)
Theorem C33_readable_database_is_old_or_new : forall (rt : PyRt), rt_data rt -> forall g G w, stored g G w ->
  forall l w' d, Forall names_ok (patterns_of l) -> crash (make l g) w w' ->
  run (read_json (database_fp g)) w' = (Ok d, w') ->
  d = VDict (g_db G) \/
  exists items, acceptable (patterns_of l) (g_next G) items /\ dict_ser items = true /\ d = VDict (g_db G ++ items).
Proof. exact @crash_db. Qed.
Print Assumptions C33_readable_database_is_old_or_new.

(** every tear of the database does occur *)
Theorem C33_database_can_tear_anywhere : forall (rt : PyRt), rt_data rt -> forall g G w, stored g G w ->
  forall l items a b, Forall names_ok (patterns_of l) -> acceptable (patterns_of l) (g_next G) items ->
  db_text (g_db G ++ items) = a ++ b ->
  exists w', crash (make l g) w w' /\ unchanged_but [database_fp g] w w' /\
    file_is (database_fp g) (a ++ skipn (List.length a) (db_text (g_db G))) w'.
Proof. exact @crash_torn_db. Qed.
Print Assumptions C33_database_can_tear_anywhere.

(** ** C34 *)
(** After a crash: nothing happened; or no later MAKE that draws something ever works again; or the
    database and the indexes are complete and at least one digit of the counter has been written. *)
Theorem C34_crash_wedges : forall (rt : PyRt), rt_data rt -> forall g G w, stored g G w ->
  forall l w', Forall names_ok (patterns_of l) -> patterns_of l <> [] -> crash (make l g) w w' ->
  w' = w \/ stuck g w' \/
  exists G' c, made (patterns_of l) G G' /\ c <> [] /\ part_of (str_of_Z (g_next G')) c /\
    file_is (database_fp g) (db_text (g_db G')) w' /\ file_is (indexes_fp g) (ix_text (g_ix G')) w' /\
    file_is (wiggle_number_fp g) c w' /\ unchanged_but (the_files g) w w'.
Proof. exact @crash_outcome. Qed.
Print Assumptions C34_crash_wedges.

(** database written, counter not: whatever the indexes file holds *)
Theorem C34_half_done_is_stuck : forall (rt : PyRt), rt_data rt -> forall g G w, stored g G w ->
  forall l items w', Forall names_ok (patterns_of l) -> patterns_of l <> [] ->
  acceptable (patterns_of l) (g_next G) items -> dict_ser items = true ->
  file_is (database_fp g) (db_text (g_db G ++ items)) w' -> file_is (wiggle_number_fp g) (str_of_Z (g_next G)) w' ->
  stuck g w'.
Proof. exact @half_done_stuck. Qed.
Print Assumptions C34_half_done_is_stuck.

(** and a MAKE that is acceptable in itself is told that its node exists *)
Theorem C34_next_make_node_exists : forall (rt : PyRt), rt_data rt -> forall g G w, stored g G w ->
  forall l items w' m items', Forall names_ok (patterns_of l) -> patterns_of l <> [] ->
  acceptable (patterns_of l) (g_next G) items -> dict_ser items = true ->
  file_is (database_fp g) (db_text (g_db G ++ items)) w' -> file_is (wiggle_number_fp g) (str_of_Z (g_next G)) w' ->
  patterns_of m <> [] -> acceptable (patterns_of m) (g_next G) items' ->
  run (make m g) w' = (Err NodeExistsError, w').
Proof. exact @half_done_exists. Qed.
Print Assumptions C34_next_make_node_exists.

Theorem C34_empty_counter_is_stuck : forall (rt : PyRt) g w', file_is (wiggle_number_fp g) [] w' -> stuck g w'.
Proof. exact @stuck_no_counter. Qed.
Print Assumptions C34_empty_counter_is_stuck.

(** every MAKE that could succeed has such a crash point *)
Theorem C34_every_make_can_wedge : forall (rt : PyRt), rt_data rt -> forall g G w, stored g G w ->
  forall l items, Forall names_ok (patterns_of l) -> patterns_of l <> [] ->
  acceptable (patterns_of l) (g_next G) items -> dict_ser items = true ->
  exists w', crash (make l g) w w' /\ stuck g w' /\ file_is (database_fp g) (db_text (g_db G ++ items)) w'.
Proof. exact @crash_can_stick. Qed.
Print Assumptions C34_every_make_can_wedge.

(** ** Examples: the 14 operations of a MAKE of one pattern on the empty graph *)
Example C33_hypotheses : exists items, Forall names_ok (patterns_of ex_two) /\ patterns_of ex_two <> [] /\
  @acceptable ascii_rt (patterns_of ex_two) (g_next ex_G) items /\ dict_ser items = true.
Proof.
  destruct C22_hypotheses_succeeds as (items & A & B & _). exists items. split; [exact ex_two_names|]. split; [vm_compute; discriminate|]. auto.
Qed.
(** [crash_at n k m w]: stopped after [n] operations and [k] characters of the next *)
Definition ex_crash (n k : nat) : world := crash_at n k (@make ascii_rt ex_two ex_g) ex_w.
Example C33_crash_points : forall n k, @crash bool (@make ascii_rt ex_two ex_g) ex_w (ex_crash n k).
Proof. intros n k. apply crash_at_crash. Qed.
Example C33_some_states :
  ex_crash 2 0 = ex_w /\
  fst (run (@read_json ascii_rt (database_fp ex_g)) (ex_crash 2 1)) = Ok (VDict []) /\
  fst (run (@read_json ascii_rt (database_fp ex_g)) (ex_crash 2 40)) = Err JSONDecodeError /\
  fst (run (@read_json ascii_rt (indexes_fp ex_g)) (ex_crash 4 30)) = Err JSONDecodeError /\
  fst (run (@load_node_labels_index ascii_rt (indexes_fp ex_g)) (ex_crash 6 0)) = Ok [] /\
  fst (run (@get_current_wiggle_number ascii_rt (wiggle_number_fp ex_g)) (ex_crash 13 0)) = Err PlainException /\
  fst (run (@get_current_wiggle_number ascii_rt (wiggle_number_fp ex_g)) (ex_crash 13 1)) = Ok 3%Z.
Proof. vm_compute. repeat split. Qed.
Example C34_some_outcomes :
  fst (@perform_all ascii_rt ex_g [CallMake ex_two; CallMake ex_alone] (ex_crash 3 0)) = [Raised NodeExistsError; Raised NodeExistsError] /\
  fst (@perform_all ascii_rt ex_g [CallMake ex_two; CallMake ex_alone] (ex_crash 13 0)) = [Raised PlainException; Raised PlainException] /\
  fst (@perform_all ascii_rt ex_g [CallMake ex_two; CallMake ex_two] (ex_crash 13 1)) = [Made true; Made true].
Proof. vm_compute. repeat split. Qed.

(** The third case of C34_crash_wedges does occur with an incomplete counter: of "20" only "2" is
    written; the next MAKE then succeeds, its nodes get the numbers 2 and 3 that were given out long
    before to a node and a relationship of the first MAKE, and the counter ends at 5. *)
Definition ex_made_three : world := snd (@perform_all ascii_rt ex_g [CallMake ex_three; CallMake ex_three; CallMake ex_three] ex_w).
Definition ex_torn_counter : world := crash_at 13 1 (@make ascii_rt ex_three ex_g) ex_made_three.
Theorem C34_torn_counter_reuses_numbers_refuted :
  @crash bool (@make ascii_rt ex_three ex_g) ex_made_three ex_torn_counter /\
  fst (run (@get_current_wiggle_number ascii_rt (wiggle_number_fp ex_g)) ex_made_three) = Ok 15%Z /\
  fst (run (@get_current_wiggle_number ascii_rt (wiggle_number_fp ex_g)) ex_torn_counter) = Ok 2%Z /\
  fst (@perform ascii_rt ex_g (CallMake ex_two) ex_torn_counter) = Made true /\
  fst (run (@get_current_wiggle_number ascii_rt (wiggle_number_fp ex_g))
         (snd (@perform ascii_rt ex_g (CallMake ex_two) ex_torn_counter))) = Ok 5%Z.
Proof. split; [apply crash_at_crash|]. vm_compute. repeat split. Qed.
Print Assumptions C34_torn_counter_reuses_numbers_refuted.
