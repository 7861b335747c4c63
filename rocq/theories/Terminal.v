(** * Terminal: the whole program with its prompts and with every line that it writes
    wiggle_shell/wiggleshell.py:7-44 and the functions of
    wiggle_shell/core/select_gdbms/select_gdbms.py that call [input].

    [Gdbms] and [MessagesRun] leave out the prompts and most of the line "Using ...".  Here
    [input(prompt)] is a command of its own, and a run yields the events at the terminal in order.

    Simplifications: the program runs on POSIX; standard output takes every character; a name that
    begins with exactly two slashes is shown with one (pathlib keeps both); records of the log, which also go to
    standard output, are not shown (at the level the program sets these are the two of [C76_shipped_log]). *)
From Verif Require Import PyBase FS Store Make Query Gdbms Messages MessagesRun.

(** what happens at the terminal: a line is printed; a prompt is shown and a line is typed, or
    the input is at its end *)
Inductive event :=
| Wrote (line : pystr)
| Asked (prompt : pystr) (answer : option pystr).

Inductive term (A : Type) :=
| TRet (a : A)
| TThrow (e : exn)
| TDo (c : cmd) (k : resp -> term A)
| TAsk (prompt : pystr) (k : pystr -> term A).
Arguments TRet {A} a.
Arguments TThrow {A} e.
Arguments TDo {A} c k.
Arguments TAsk {A} prompt k.

Fixpoint tbind {A B} (m : term A) (f : A -> term B) : term B :=
  match m with
  | TRet a => f a
  | TThrow e => TThrow e
  | TDo c k => TDo c (fun r => tbind (k r) f)
  | TAsk p k => TAsk p (fun s => tbind (k s) f)
  end.
(** a program without [input] *)
Fixpoint plainly {A} (m : io A) : term A :=
  match m with
  | Ret a => TRet a
  | Throw e => TThrow e
  | Do c k => TDo c (fun r => plainly (k r))
  end.
Definition ask (prompt : pystr) : term pystr := TAsk prompt TRet.
Definition line (t : pystr) : term unit := plainly (do_unit (CPrint t)).

Notation "'let>' x ':=' e 'in' k" := (tbind e (fun x => k))
  (at level 200, x pattern, right associativity).

(** the events of a run, its result and the world after it *)
Fixpoint trun {A} (m : term A) (w : world) : list event * res A * world :=
  match m with
  | TRet a => ([], Ok a, w)
  | TThrow e => ([], Err e, w)
  | TDo c k =>
      let '(r, w1) := exec c w in
      let '(es, x, w2) := trun (k r) w1 in
      (match c with CPrint t => Wrote t :: es | _ => es end, x, w2)
  | TAsk p k =>
      match w_in w with
      | [] => ([Asked p None], Err EOFError, w)
      | s :: r =>
          let '(es, x, w2) := trun (k s) {| w_fs := w_fs w; w_in := r; w_out := w_out w |} in
          (Asked p (Some s) :: es, x, w2)
      end
  end.

(** wiggle_shell/__init__.py:6 *)
Definition INPUT_PROMPT_SPACING : pystr := py "     ".
(** select_gdbms.py:76, 127, 192 and wiggleshell.py:26 *)
Definition ask_name : pystr := py "Please enter a new db name:" ++ INPUT_PROMPT_SPACING.
Definition ask_letter : pystr := py "Please select a database to use (Letter):" ++ INPUT_PROMPT_SPACING.
Definition ask_existing : pystr := py "Use existing dbms (y/n):" ++ INPUT_PROMPT_SPACING.
Definition ask_query : pystr := py "Please enter a query (q to exit): " ++ INPUT_PROMPT_SPACING.

(** select_gdbms.py:69-83 *)
Fixpoint create_new_dbms_t (fuel : nat) (dir : path) : term gdbms :=
  match fuel with
  | O => TThrow OutOfFuel
  | S f =>
      let> name := ask ask_name in
      let> r := plainly (io_catch (let! g := get_new_gdbms_file_paths name dir in Ret (Some g))
                          (fun e => if is_value_error e
                                    then Some (let! _ := do_unit (CPrint (taken_msg name)) in Ret None)
                                    else None)) in
      match r with
      | Some g => TRet g
      | None => create_new_dbms_t f dir
      end
  end.

(** select_gdbms.py:112-153; the message of line 152 ends in str(FileNotFoundError()), which is empty *)
Fixpoint get_existing_gdbms_t (fuel : nat) (dbms_folder dir : path) : term gdbms :=
  match fuel with
  | O => TThrow OutOfFuel
  | S f =>
      let> choices := plainly (get_and_display_available_dbms dbms_folder) in
      match choices with
      | None | Some [] =>
          let> _ := line (py "There are no databases, please create a new database.") in
          create_new_dbms_t f dir
      | Some d =>
          let> sel := ask ask_letter in
          match d_get sel d with
          | None =>
              let> _ := line (sel ++ py " does not exist, please select an existing DB") in
              get_existing_gdbms_t f dbms_folder dir
          | Some name =>
              let> r := plainly (io_catch
                (let! a := existing_file (db_file dir name) in
                 let! b := existing_file (idx_file dir name) in
                 let! c := existing_file (wn_file dir name) in
                 Ret (Some {| database_fp := a; indexes_fp := b; wiggle_number_fp := c |}))
                (fun e => match e with
                          | FileNotFoundError =>
                              Some (let! _ := do_unit (CPrint (py "Database files could not be found ")) in Ret None)
                          | _ => None
                          end)) in
              match r with
              | Some g => TRet g
              | None => get_existing_gdbms_t f dbms_folder dir
              end
          end
      end
  end.

(** select_gdbms.py:185-199 *)
Definition select_gdbms_t (fuel : nat) (dbms_folder : path) : term gdbms :=
  let> c := ask ask_existing in
  if str_eqb c (py "y") || str_eqb c (py "yes")
  then get_existing_gdbms_t fuel dbms_folder dbms_folder
  else create_new_dbms_t fuel dbms_folder.

Section Terminal.
  Context {rt : PyRt}.
  (** which characters [repr] shows as they are, and the text of Python's own exceptions, as in [MessagesRun] *)
  Context (u_printable : N -> bool) (python_text : exn -> pystr).

  (** str() of an absolute path, and its repr *)
  Definition path_text (p : path) : pystr :=
    match p with [] => py "/" | _ => flat_map (fun c => 47%N :: c) p end.
  Definition path_repr (p : path) : pystr := py "PosixPath(" ++ repr u_printable (path_text p) ++ py ")".
  (** models/wigish/dbms.py:6-13, and str() of a pydantic model: the fields in order, with their reprs *)
  Definition gdbms_text (g : gdbms) : pystr :=
    py "database_file_path=" ++ path_repr (database_fp g) ++ py " indexes_file_path=" ++ path_repr (indexes_fp g)
    ++ py " wiggle_number_file_path=" ++ path_repr (wiggle_number_fp g).

  (** wiggleshell.py:24-44 *)
  Fixpoint shell_loop_t (fuel : nat) (g : gdbms) : term unit :=
    match fuel with
    | O => TThrow OutOfFuel
    | S f =>
        let> q := ask ask_query in
        let> _ := line (q ++ py " " ++ [10%N]) in
        if str_eqb q (py "q") then line GOOD_BYE
        else if contains (py "help") (str_lower q) then
          let> _ := line HELPFUL in shell_loop_t f g
        else
          let> r := plainly (query_m q g) in
          match r with
          | Good _ => shell_loop_t f g
          | Bad e m => let> _ := line (exception_text u_printable python_text e m) in shell_loop_t f g
          end
    end.

  (** wiggleshell.py:7-44 *)
  Definition start_wiggle_shell_t (fuel : nat) (dbms_folder : path) : term unit :=
    let> _ := line (py "**********************") in
    let> _ := line (py "Welcome to WiggleGraph") in
    let> _ := line (py "**********************" ++ [10%N]) in
    let> g := select_gdbms_t fuel dbms_folder in
    let> _ := line (py "Using " ++ gdbms_text g ++ [10%N]) in
    shell_loop_t fuel g.
End Terminal.
