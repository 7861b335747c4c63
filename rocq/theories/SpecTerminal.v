(** * SpecTerminal: what stands on the terminal (C85) *)
From Verif Require Import PyBase Json FS Store Gdbms SpecShell SpecGdbms SpecMessagesRun Make Messages MessagesRun Terminal.

(** all that is written to standard output: a printed line ends in a line feed, a prompt does not *)
Definition on_screen (es : list event) : pystr :=
  concat (map (fun e => match e with Wrote t => t ++ [10%N] | Asked p _ => p end) es).
(** the lines that were printed, the prompts that were shown, the lines that were typed *)
Definition wrote (es : list event) : list pystr := flat_map (fun e => match e with Wrote t => [t] | _ => [] end) es.
Definition prompts (es : list event) : list pystr := flat_map (fun e => match e with Asked p _ => [p] | _ => [] end) es.
Definition typed (es : list event) : list pystr := flat_map (fun e => match e with Asked _ (Some s) => [s] | _ => [] end) es.
(** a prompt that was not answered *)
Definition unanswered (e : event) : Prop := match e with Asked _ None => True | _ => False end.

(** the line "Using ..." of [start_wiggle_shell] has no paths behind it in C46 to C49, and failed queries are all reported as "error" there *)
Definition abridges (a b : pystr) : Prop := a = b \/ a = py "error" \/ (a = py "Using " /\ exists r, b = py "Using " ++ r).
Definition abridged (w1 w2 : world) : Prop := w_fs w1 = w_fs w2 /\ w_in w1 = w_in w2 /\ Forall2 abridges (w_out w1) (w_out w2).

(** a path as it is typed: each component behind a slash *)
Definition slashed (p : path) : pystr := concat (map (fun c => py "/" ++ c) p).
(** a path that [repr] shows between single quotes, unchanged *)
Definition shown_as_is (p : path) : Prop := p <> [] /\ Forall (Forall (fun c => (32 <= c <= 126)%N /\ c <> 92%N /\ c <> 39%N)) p.
Definition in_quotes (p : path) : pystr := py "PosixPath('" ++ slashed p ++ py "')".
(** the line that names the three files of a graph *)
Definition using_line (g : gdbms) : pystr :=
  py "Using database_file_path=" ++ in_quotes (database_fp g) ++ py " indexes_file_path=" ++ in_quotes (indexes_fp g)
  ++ py " wiggle_number_file_path=" ++ in_quotes (wiggle_number_fp g) ++ [10%N].

(** the world after the greeting *)
Definition banner : list pystr := [py "**********************"; py "Welcome to WiggleGraph"; py "**********************" ++ [10%N]].
Definition greet (w : world) : world := {| w_fs := w_fs w; w_in := w_in w; w_out := w_out w ++ banner |}.

(** ** the choice of a graph: which line leads to which *)
(** where the files of the graph called [n] are looked for, whatever [n] *)
Definition files_named (dir : path) (n : pystr) : gdbms :=
  {| database_fp := db_file dir n; indexes_fp := idx_file dir n; wiggle_number_fp := wn_file dir n |}.
Section Choice.
  Context (ask_existing ask_letter ask_name : pystr).
  (** names are asked for until one can be used; a name that is taken is reported twice *)
  Inductive Naming (dir : path) : world -> list event -> res gdbms -> world -> Prop :=
  | nm_end : forall w, w_in w = [] -> Naming dir w [Asked ask_name None] (Err EOFError) w
  | nm_made : forall w n r ts g w1, w_in w = n :: r -> run (get_new_gdbms_file_paths n dir) (rest r w) = (Ok g, w1) ->
      w_out w1 = w_out w ++ ts -> Naming dir w (Asked ask_name (Some n) :: map Wrote ts) (Ok g) w1
  | nm_taken : forall w n r e ts w1 es res w', w_in w = n :: r -> run (get_new_gdbms_file_paths n dir) (rest r w) = (Err e, w1) -> is_value_error e = true ->
      w_out w1 = w_out w ++ ts -> Naming dir (says (n ++ py " is already taken, please choose another name.") w1) es res w' ->
      Naming dir w (Asked ask_name (Some n) :: map Wrote ts ++ Wrote (n ++ py " is already taken, please choose another name.") :: es) res w'
  | nm_fails : forall w n r e ts w1, w_in w = n :: r -> run (get_new_gdbms_file_paths n dir) (rest r w) = (Err e, w1) -> is_value_error e = false ->
      w_out w1 = w_out w ++ ts -> Naming dir w (Asked ask_name (Some n) :: map Wrote ts) (Err e) w1.
  (** letters are asked for, each time under the menu, until one stands for a graph that has its files; without a menu a name is asked for *)
  Inductive Picking (dir : path) : world -> list event -> res gdbms -> world -> Prop :=
  | pk_no_folder : forall w e ts w1, run (get_and_display_available_dbms dir) w = (Err e, w1) -> w_out w1 = w_out w ++ ts ->
      Picking dir w (map Wrote ts) (Err e) w1
  | pk_none : forall w c ts w1 es res w', run (get_and_display_available_dbms dir) w = (Ok c, w1) -> c = None \/ c = Some [] -> w_out w1 = w_out w ++ ts ->
      Naming dir (says (py "There are no databases, please create a new database.") w1) es res w' ->
      Picking dir w (map Wrote ts ++ Wrote (py "There are no databases, please create a new database.") :: es) res w'
  | pk_end : forall w d ts w1, run (get_and_display_available_dbms dir) w = (Ok (Some d), w1) -> d <> [] -> w_out w1 = w_out w ++ ts -> w_in w1 = [] ->
      Picking dir w (map Wrote ts ++ [Asked ask_letter None]) (Err EOFError) w1
  | pk_unknown : forall w d ts w1 l r es res w', run (get_and_display_available_dbms dir) w = (Ok (Some d), w1) -> d <> [] -> w_out w1 = w_out w ++ ts -> w_in w1 = l :: r ->
      ~ In l (map fst d) -> Picking dir (says (l ++ py " does not exist, please select an existing DB") (rest r w1)) es res w' ->
      Picking dir w (map Wrote ts ++ Asked ask_letter (Some l) :: Wrote (l ++ py " does not exist, please select an existing DB") :: es) res w'
  | pk_chosen : forall w d ts w1 l r n, run (get_and_display_available_dbms dir) w = (Ok (Some d), w1) -> d <> [] -> w_out w1 = w_out w ++ ts -> w_in w1 = l :: r ->
      d_get l d = Some n -> (forall p, In p (files_of (files_named dir n)) -> exists t, entry_at p w1 = Some (EFile t)) ->
      Picking dir w (map Wrote ts ++ [Asked ask_letter (Some l)]) (Ok (files_named dir n)) (rest r w1)
  | pk_missing : forall w d ts w1 l r n p es res w', run (get_and_display_available_dbms dir) w = (Ok (Some d), w1) -> d <> [] -> w_out w1 = w_out w ++ ts -> w_in w1 = l :: r ->
      d_get l d = Some n -> In p (files_of (files_named dir n)) -> (forall t, entry_at p w1 <> Some (EFile t)) ->
      Picking dir (says (py "Database files could not be found ") (rest r w1)) es res w' ->
      Picking dir w (map Wrote ts ++ Asked ask_letter (Some l) :: Wrote (py "Database files could not be found ") :: es) res w'.
  Inductive Choosing (dir : path) : world -> list event -> res gdbms -> world -> Prop :=
  | cs_end : forall w, w_in w = [] -> Choosing dir w [Asked ask_existing None] (Err EOFError) w
  | cs_yes : forall w c r es res w', w_in w = c :: r -> In c [py "y"; py "yes"] -> Picking dir (rest r w) es res w' ->
      Choosing dir w (Asked ask_existing (Some c) :: es) res w'
  | cs_no : forall w c r es res w', w_in w = c :: r -> ~ In c [py "y"; py "yes"] -> Naming dir (rest r w) es res w' ->
      Choosing dir w (Asked ask_existing (Some c) :: es) res w'.
End Choice.

Section SpecTerminal.
  Context {rt : PyRt}.
  Definition new_lines (w w' : world) (ts : list pystr) : Prop := w_out w' = w_out w ++ ts.

  (** [Chat prompt answer g w es r w']: the rounds of the loop at the terminal: prompt, typed line, echo, and what the line leads to *)
  Inductive Chat (prompt : pystr) (answer : exn -> option message -> pystr) (g : gdbms) : world -> list event -> res unit -> world -> Prop :=
  | ch_end : forall w, w_in w = [] -> Chat prompt answer g w [Asked prompt None] (Err EOFError) w
  | ch_quit : forall w r, w_in w = py "q" :: r ->
      Chat prompt answer g w [Asked prompt (Some (py "q")); Wrote (echo (py "q")); Wrote (py "Good Bye!")] (Ok tt)
        (says (py "Good Bye!") (says (echo (py "q")) (rest r w)))
  | ch_help : forall w l r es res w', w_in w = l :: r -> l <> py "q" -> mentions_help l ->
      Chat prompt answer g (says (py "A helpful guide is on the way!" ++ [10%N]) (says (echo l) (rest r w))) es res w' ->
      Chat prompt answer g w (Asked prompt (Some l) :: Wrote (echo l) :: Wrote (py "A helpful guide is on the way!" ++ [10%N]) :: es) res w'
  | ch_succeeds : forall w l r b ts w1 es res w', w_in w = l :: r -> l <> py "q" -> ~ mentions_help l ->
      run (query_m l g) (says (echo l) (rest r w)) = (Ok (Good b), w1) -> new_lines (says (echo l) (rest r w)) w1 ts ->
      Chat prompt answer g w1 es res w' ->
      Chat prompt answer g w (Asked prompt (Some l) :: Wrote (echo l) :: map Wrote ts ++ es) res w'
  | ch_fails : forall w l r e m ts w1 es res w', w_in w = l :: r -> l <> py "q" -> ~ mentions_help l ->
      run (query_m l g) (says (echo l) (rest r w)) = (Ok (Bad e m), w1) -> new_lines (says (echo l) (rest r w)) w1 ts ->
      Chat prompt answer g (says (answer e m) w1) es res w' ->
      Chat prompt answer g w (Asked prompt (Some l) :: Wrote (echo l) :: map Wrote ts ++ Wrote (answer e m) :: es) res w'.

  (** [Visit ...]: the whole program; [told g] is the line that names the files of [g] *)
  Inductive Visit (pe pl pn pq : pystr) (told : gdbms -> pystr) (answer : exn -> option message -> pystr) (dir : path) : world -> list event -> res unit -> world -> Prop :=
  | vs_no_graph : forall w es e w1, Choosing pe pl pn dir (greet w) es (Err e) w1 ->
      Visit pe pl pn pq told answer dir w (map Wrote banner ++ es) (Err e) w1
  | vs_graph : forall w es g w1 es2 r w', Choosing pe pl pn dir (greet w) es (Ok g) w1 -> Chat pq answer g (says (told g) w1) es2 r w' ->
      Visit pe pl pn pq told answer dir w (map Wrote banner ++ es ++ Wrote (told g) :: es2) r w'.
End SpecTerminal.
