(** * SpecRuns: runs of the whole program, one after the other (C65) *)
From Verif Require Import PyBase Json FS Store SpecStore Query Gdbms SpecShell SpecGdbms SpecSound.

Section SpecRuns.
  Context {rt : PyRt}.

  (** the lines that are executed as queries: up to the first line "q", without those that ask for help *)
  Inductive Executed : list pystr -> list pystr -> Prop :=
  | ex_end : Executed [] []
  | ex_quit : forall r, Executed (py "q" :: r) []
  | ex_help : forall line r qs, line <> py "q" -> mentions_help line -> Executed r qs -> Executed (line :: r) qs
  | ex_query : forall line r qs, line <> py "q" -> ~ mentions_help line -> Executed r qs -> Executed (line :: r) (line :: qs).

  (** the menu offers the graph called [n] under the letter [s] *)
  Definition offered (folder : path) (w : world) (s n : pystr) : Prop :=
    disk w /\ is_a_dir folder w /\ exists l i, menu folder w l /\ i < 26 /\ s = letter i /\ nth_error l i = Some n.

  (** Runs of the program on the existing graph [n]: "y", its letter, then any lines.  [rs] collects what the queries
      answered or raised.  Between two runs anything may happen to everything but the files of the graph. *)
  Inductive runs (folder : path) (n : pystr) : list (res bool) -> world -> world -> Prop :=
  | no_run : forall w, runs folder n [] w w
  | one_run : forall w y s lines qs fuel r w1 w2 w3 rs,
      y = py "y" \/ y = py "yes" -> offered folder w s n -> w_in w = y :: s :: lines -> Executed lines qs ->
      List.length (w_in w) < fuel -> run (start_wiggle_shell fuel folder) w = (r, w1) ->
      (forall p, In p (files_of (graph_at folder n)) -> entry_at p w2 = entry_at p w1) ->
      runs folder n rs w2 w3 ->
      runs folder n (fst (session (graph_at folder n) qs w) ++ rs) w w3.
End SpecRuns.
