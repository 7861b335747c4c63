(** * Prop_Examples: the queries that the project shows as examples (C87)

    [documented] and [documented_lines], in SpecExamples, are the texts of the files; [Session] is in SpecShell. *)
From Verif Require Import PyBase Json Data FS Store Make Query SpecShell SpecExamples ExampleFacts QueryFacts ShellFacts AsciiRt Prop_Make Prop_Query.

(** None is ever answered, whatever the graph and the disk, and none changes anything. *)
Theorem C87_examples_answered_refuted : forall (rt : PyRt) g w q, In q documented -> exists e, run (query q g) w = (Err e, w).
Proof. exact @documented_fail. Qed.
Print Assumptions C87_examples_answered_refuted.

(** The README uses a handle twice in one pattern; the REPORTs name only two of three handles; a MAKE
    alone is no query. *)
Theorem C87_why : forall (rt : PyRt) g w,
  run (query readme_query g) w = (Err MakeDuplicateHandlesError, w) /\
  run (query all_clauses_wql g) w = (Err FindReportHandleMissmatch, w) /\
  run (query find_wql g) w = (Err FindReportHandleMissmatch, w) /\
  run (query make_wql g) w = (Err AttributeError, w).
Proof. exact @documented_why. Qed.
Print Assumptions C87_why.

(** Nor is any line of them, typed at the prompt. *)
Theorem C87_lines_answered_refuted : forall (rt : PyRt) g w l, In l documented_lines -> exists e, run (query l g) w = (Err e, w).
Proof. exact @documented_lines_fail. Qed.
Print Assumptions C87_lines_answered_refuted.

(** Somebody who types these lines, in any order and any number, leaves every file as it was. *)
Theorem C87_session_changes_nothing : forall (rt : PyRt) g w r w', Session g w r w' ->
  Forall (fun l => In l documented_lines \/ l = py "q") (w_in w) -> w_fs w' = w_fs w.
Proof. exact @documented_session. Qed.
Print Assumptions C87_session_changes_nothing.

(** ** Examples *)
(** The long MAKEs too use a handle twice; which error comes first depends on the reading of 3.14, here the one of [ascii_rt]. *)
Example C87_long : forall g w,
  run (@query ascii_rt make_long_wql g) w = (Err MakeDuplicateHandlesError, w) /\
  run (@query ascii_rt make_long_2_stms_wql g) w = (Err MakeDuplicateHandlesError, w).
Proof. intros g w. split; apply parse_fails; lazy; reflexivity. Qed.
Definition pe_w : world := {| w_fs := w_fs ex_w; w_in := documented_lines ++ [ex_line_5; py "q"]; w_out := [] |}.
Example C87_session_example : exists w', @Session ascii_rt ex_g pe_w (fst (run (@shell_loop ascii_rt 11 ex_g) pe_w)) w' /\
  Forall (fun l => In l documented_lines \/ l = py "q") (w_in pe_w).
Proof.
  exists (snd (run (@shell_loop ascii_rt 11 ex_g) pe_w)). split.
  - apply C46_shell_is_a_session. cbn [pe_w w_in]. rewrite app_length. cbn. repeat constructor.
  - cbn [pe_w w_in]. apply Forall_app. split; [apply Forall_forall; auto|].
    constructor; [left; unfold documented_lines; cbn [In]; tauto|]. constructor; [now right|constructor].
Qed.
(** A query of this kind that does work: the names differ, the FIND has one node, the REPORT names it. *)
Example C87_repaired : fst (run (@query ascii_rt (lines_text [ex_line_5; py "FIND (p:NodeLabel);"; py "REPORT wn(p);"]) ex_g) ex_w) = Ok true.
Proof. vm_compute. reflexivity. Qed.
