(** * Prop_Words: the test for known words in front of a query (C86)

    [valid_query] is the test and [query_tested] the query with it, switched off as in the code ([false]) or on ([true]);
    [e] is the exception it would raise.  [known_words], [stands_in] and [in_some_case] are in SpecWords. *)
From Verif Require Import PyBase Json Data FS Store Query WordTest SpecWords WordFacts AsciiRt Prop_Make Prop_Query.

(** As it is, the test refuses nothing: a query with it is the query of all the other theorems. *)
Theorem C86_never_refuses : forall (rt : PyRt) e q g, query_tested false e q g = query q g.
Proof. exact @test_is_off. Qed.
Print Assumptions C86_never_refuses.

(** Switched on it would refuse, before anything is read or written, or change nothing. *)
Theorem C86_if_switched_on : forall (rt : PyRt) e q g w,
  (valid_query q = true -> run (query_tested true e q g) w = run (query q g) w) /\
  (valid_query q = false -> run (query_tested true e q g) w = (Err e, w)).
Proof. exact @test_if_on. Qed.
Print Assumptions C86_if_switched_on.

(** What the test says: some known word stands between blanks in the query in small letters. *)
Theorem C86_what_passes : forall (rt : PyRt) q, valid_query q = true <-> exists w, In w known_words /\ stands_in w (str_lower q).
Proof. exact @valid_query_iff. Qed.
Print Assumptions C86_what_passes.

Theorem C86_any_case_passes : forall (rt : PyRt) w k q, In w known_words -> in_some_case w k -> stands_in k q -> valid_query q = true.
Proof. exact @word_passes. Qed.
Print Assumptions C86_any_case_passes.

(** ** Examples *)
Example C86_example_case : In (py "find") known_words /\ in_some_case (py "find") (py "FiNd") /\ stands_in (py "FiNd") (py "FiNd (:A);").
Proof.
  split; [vm_compute; tauto|]. split.
  - unfold in_some_case, py. cbn [map list_ascii_of_string]. repeat (constructor; [first [left; reflexivity | right; vm_compute; repeat split; discriminate]|]). constructor.
  - exists [], (py " (:A);"). repeat split; [|now left|right; exists (py "(:A);"); reflexivity].
    vm_compute. intros H. repeat (destruct H as [H|H]; [discriminate H|]). destruct H.
Qed.
Example C86_example_kinds : map (@valid_query ascii_rt) [py "MAKE (:A);"; py "FIND (:A);"; py "FIND(:A);"; nl ++ py "FIND (:A);"; py "MAKE"; py "no using this"; py "no usingthis"; []]
  = [true; true; false; false; true; true; false; false].
Proof. vm_compute. reflexivity. Qed.

(** What a user expects is false: switched on, the test would refuse a query that is answered, because a new line is not
    a blank ... *)
Definition wo_line : pystr := nl ++ py "FIND (:A);".
Theorem C86_answered_passes_refuted : forall e,
  run (@query ascii_rt wo_line ex_g) ex_w = (Ok true, snd (run (@query ascii_rt wo_line ex_g) ex_w)) /\
  run (@query_tested ascii_rt true e wo_line ex_g) ex_w = (Err e, ex_w).
Proof. intros e. split; [vm_compute; reflexivity|]. apply C86_if_switched_on. vm_compute. reflexivity. Qed.
Print Assumptions C86_answered_passes_refuted.
(** ... and it lets a text pass that is no query at all. *)
Definition wo_none : pystr := py "the criteria of nonsense".
Theorem C86_passing_is_query_refuted :
  @valid_query ascii_rt wo_none = true /\ exists x, run (@query ascii_rt wo_none ex_g) ex_w = (Err x, ex_w).
Proof. split; [vm_compute; reflexivity|]. eexists. vm_compute. reflexivity. Qed.
Print Assumptions C86_passing_is_query_refuted.
