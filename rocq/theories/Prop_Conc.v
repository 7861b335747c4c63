(** * Prop_Conc: two processes run a MAKE on the same graph (C51)

    [schedule a b w tr ra rb w'] and [reads_before_writes] are in SpecConc: the operations of the two
    processes on the files come in any order, each operation being one step. *)
From Verif Require Import PyBase Json SpecJson RtLaws Statements FS Store SpecStore Make SpecMake SpecCrash SpecConc ConcFacts
  AsciiRt AsciiFacts Prop_Make.

(** both counter reads come before either replacement of the counter: at most one of the two survives *)
Theorem C51_overlap_loses_one : forall (rt : PyRt), rt_data rt -> forall g G w, stored g G w ->
  forall la lb ia ib tr ra rb w',
  Forall names_ok (patterns_of la) -> patterns_of la <> [] -> acceptable (patterns_of la) (g_next G) ia -> dict_ser ia = true ->
  Forall names_ok (patterns_of lb) -> patterns_of lb <> [] -> acceptable (patterns_of lb) (g_next G) ib -> dict_ser ib = true ->
  schedule (make la g) (make lb g) w tr ra rb w' -> reads_before_writes (wiggle_number_fp g) tr ->
  exists t, file_is (database_fp g) t w' /\
    (t = db_text (g_db G ++ ia) \/ t = db_text (g_db G ++ ib) \/ load_json t = Err JSONDecodeError).
Proof. exact @overlap. Qed.
Print Assumptions C51_overlap_loses_one.

(** otherwise: one after the other, or one of them found the counter file empty and only the other had an effect *)
Theorem C51_no_overlap_is_sequential : forall (rt : PyRt) g la lb w tr ra rb w' t,
  distinct_files g -> file_is (wiggle_number_fp g) t w ->
  schedule (make la g) (make lb g) w tr ra rb w' ->
  reads_before_writes (wiggle_number_fp g) tr \/
  (exists w1, run (make la g) w = (ra, w1) /\ run (make lb g) w1 = (rb, w')) \/
  (exists w1, run (make lb g) w = (rb, w1) /\ run (make la g) w1 = (ra, w')) \/
  (rb = Err PlainException /\ run (make la g) w = (ra, w')) \/
  (ra = Err PlainException /\ run (make lb g) w = (rb, w')).
Proof. exact @no_overlap. Qed.
Print Assumptions C51_no_overlap_is_sequential.

(** the schedules are the interleavings of FS *)
Theorem C51_schedules_are_interleavings : forall A B (a : io A) (b : io B) w ra rb w',
  interleave a b w ra rb w' <-> exists tr, schedule a b w tr ra rb w'.
Proof. exact @schedule_interleave. Qed.
Print Assumptions C51_schedules_are_interleavings.

(** ** Examples *)
Definition ex_turns (s : list bool) := take_turns s (@make ascii_rt ex_two ex_g) (@make ascii_rt ex_three ex_g) ex_w.
Definition ex_a (s : list bool) := snd (fst (fst (ex_turns s))).
Definition ex_b (s : list bool) := snd (fst (ex_turns s)).
Definition ex_end (s : list bool) := snd (ex_turns s).
Example C51_turns_are_schedules : forall s,
  schedule (@make ascii_rt ex_two ex_g) (@make ascii_rt ex_three ex_g) ex_w (fst (fst (fst (ex_turns s)))) (ex_a s) (ex_b s) (ex_end s).
Proof.
  intros s. pose proof (take_turns_schedule s (@make ascii_rt ex_two ex_g) (@make ascii_rt ex_three ex_g) ex_w) as H.
  unfold ex_a, ex_b, ex_end, ex_turns. destruct (take_turns s _ _ _) as [[[tr ra] rb] w']. exact H.
Qed.
Definition ex_keys (w : world) : option (list pystr) :=
  match fst (run (@read_json ascii_rt (database_fp ex_g)) w) with Ok (VDict d) => Some (keys d) | _ => None end.

Definition ex_file (w : world) : option entry := fs_get (database_fp ex_g) (w_fs w).
Definition ex_only_a : world := snd (run (@make ascii_rt ex_two ex_g) ex_w).
Definition ex_only_b : world := snd (run (@make ascii_rt ex_three ex_g) ex_w).

(** What a user expects, that both MAKEs keep their nodes when both report success, is false: here each
    has read counter and database before the other writes; both succeed, and the database is the one
    the second MAKE alone would have left. *)
Theorem C51_both_succeed_one_lost_refuted :
  let s := [true; true; false; false] in
  ex_a s = Ok true /\ ex_b s = Ok true /\ ex_file (ex_end s) = ex_file ex_only_b /\ ex_file ex_only_b <> ex_file ex_only_a.
Proof. vm_compute. repeat split. discriminate. Qed.
Print Assumptions C51_both_succeed_one_lost_refuted.
(** the other order of the writes: both succeed and the database cannot be read any more *)
Theorem C51_both_succeed_unreadable_refuted :
  let s := [true; true; false; false] ++ repeat false 12 in
  ex_a s = Ok true /\ ex_b s = Ok true /\ ex_keys (ex_end s) = None.
Proof. vm_compute. repeat split. Qed.
Print Assumptions C51_both_succeed_unreadable_refuted.

Example C51_hypotheses : exists ia ib,
  Forall names_ok (patterns_of ex_two) /\ patterns_of ex_two <> [] /\ @acceptable ascii_rt (patterns_of ex_two) (g_next ex_G) ia /\ dict_ser ia = true /\
  Forall names_ok (patterns_of ex_three) /\ patterns_of ex_three <> [] /\ @acceptable ascii_rt (patterns_of ex_three) (g_next ex_G) ib /\ dict_ser ib = true.
Proof.
  destruct C22_hypotheses_succeeds as (ia & Aa & Sa & _). exists ia.
  assert (H : exists w', @run bool (@make ascii_rt ex_three ex_g) ex_w = (Ok true, w')) by (eexists; vm_compute; reflexivity).
  destruct H as (w' & H).
  destruct (C22_successful_make_effect ascii_rt _ _ _ _ _ _ ascii_data ex_stored ex_three_names H) as (_ & _ & ib & Ab & Sb & _).
  assert (Na : patterns_of ex_two <> []) by (vm_compute; discriminate).
  assert (Nb : patterns_of ex_three <> []) by (vm_compute; discriminate).
  exists ib. exact (conj ex_two_names (conj Na (conj Aa (conj Sa (conj ex_three_names (conj Nb (conj Ab Sb))))))).
Qed.
(** the four outcomes of C51_no_overlap_is_sequential other than the overlap, and the error of one that comes second to the database *)
Example C51_some_outcomes :
  (let s := [true; false; true; true] in (ex_a s, ex_b s, ex_keys (ex_end s))) = (Ok true, Err NodeExistsError, Some [py "0"; py "1"]) /\
  (let s := repeat true 13 ++ [false] in (ex_a s, ex_b s, ex_keys (ex_end s))) = (Ok true, Err PlainException, Some [py "0"; py "1"]) /\
  (let s := repeat true 14 in (ex_a s, ex_b s, ex_keys (ex_end s))) = (Ok true, Ok true, Some [py "0"; py "1"; py "3"; py "4"]).
Proof. vm_compute. repeat split. Qed.
