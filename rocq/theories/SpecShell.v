(** * SpecShell: a session of the interactive shell (C46) *)
From Verif Require Import PyBase FS Store Query.

(** the files of a graph (C55) *)
Definition the_files (g : gdbms) : list path := [database_fp g; indexes_fp g; wiggle_number_fp g].

Section SpecShell.
  Context {rt : PyRt}.

  Definition says (t : pystr) (w : world) : world := {| w_fs := w_fs w; w_in := w_in w; w_out := w_out w ++ [t] |}.
  (** the input after one line was taken from it *)
  Definition rest (r : list pystr) (w : world) : world := {| w_fs := w_fs w; w_in := r; w_out := w_out w |}.
  Definition echo (line : pystr) : pystr := line ++ py " " ++ [10%N].
  Definition mentions_help (line : pystr) : Prop := exists a b, str_lower line = a ++ py "help" ++ b.

  (** [Session g w r w']: with the lines of [w] as input, the loop ends with [r] in [w'] *)
  Inductive Session (g : gdbms) : world -> res unit -> world -> Prop :=
  | no_more_input : forall w, w_in w = [] -> Session g w (Err EOFError) w
  | quit : forall w r, w_in w = py "q" :: r ->
      Session g w (Ok tt) (says (py "Good Bye!") (says (echo (py "q")) (rest r w)))
  | help : forall w line r res w', w_in w = line :: r -> line <> py "q" -> mentions_help line ->
      Session g (says (py "A helpful guide is on the way!" ++ [10%N]) (says (echo line) (rest r w))) res w' ->
      Session g w res w'
  | query_succeeds : forall w line r b w1 res w', w_in w = line :: r -> line <> py "q" -> ~ mentions_help line ->
      run (query line g) (says (echo line) (rest r w)) = (Ok b, w1) ->
      Session g w1 res w' -> Session g w res w'
  | query_fails : forall w line r e w1 res w', w_in w = line :: r -> line <> py "q" -> ~ mentions_help line ->
      run (query line g) (says (echo line) (rest r w)) = (Err e, w1) ->
      Session g (says (py "error") w1) res w' -> Session g w res w'.
End SpecShell.
