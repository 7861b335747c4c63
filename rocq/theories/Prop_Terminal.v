(** * C85: what stands on the terminal *)
From Verif Require Import RtLaws PyBase FS Store SpecStore SpecShell SpecGdbms SpecMessagesRun Make Query Gdbms Messages MessagesRun Terminal SpecTerminal TerminalFacts AsciiRt AsciiFacts Prop_Gdbms.

(** every line that the program reads is the answer to a prompt; the prompts come in one order; the program stops for want of
    input exactly when its last prompt is not answered *)
Theorem C85_prompts_and_answers : forall (rt : PyRt), rt_data rt ->
  forall (u : N -> bool) (python_text : exn -> pystr) (fuel : nat) (folder : path) (w : world) (es : list event) (r : res unit) (w' : world),
  List.length (w_in w) < fuel -> trun (start_wiggle_shell_t u python_text fuel folder) w = (es, r, w') ->
  w_in w = typed es ++ w_in w' /\ w_out w' = w_out w ++ wrote es /\
  (exists i j k, prompts es = py "Use existing dbms (y/n):     " :: repeat (py "Please select a database to use (Letter):     ") i ++
     repeat (py "Please enter a new db name:     ") j ++ repeat (py "Please enter a query (q to exit):      ") k) /\
  (r = Err EOFError <-> exists es1 p, es = es1 ++ [Asked p None]) /\
  (forall es1 p es2, es = es1 ++ Asked p None :: es2 -> es2 = []) /\
  r <> Err OutOfFuel.
Proof. exact @terminal. Qed.
Print Assumptions C85_prompts_and_answers.
(** the whole run, event by event: which prompt, which answer to it, which lines are printed and what comes next ([Visit]) *)
Theorem C85_visit : forall (rt : PyRt), rt_data rt ->
  forall (u : N -> bool) (python_text : exn -> pystr) (fuel : nat) (folder : path) (w : world) (es : list event) (r : res unit) (w' : world),
  List.length (w_in w) < fuel -> trun (start_wiggle_shell_t u python_text fuel folder) w = (es, r, w') ->
  Visit (py "Use existing dbms (y/n):     ") (py "Please select a database to use (Letter):     ") (py "Please enter a new db name:     ")
    (py "Please enter a query (q to exit):      ") (fun g => py "Using " ++ gdbms_text u g ++ [10%N]) (exception_text u python_text) folder w es r w'.
Proof. exact @visits. Qed.
Print Assumptions C85_visit.
(** it is the program of the other properties: the same result, the same files, the same lines read and printed, but for the
    lines that those leave short *)
Theorem C85_same_program : forall (rt : PyRt), rt_data rt ->
  forall (u : N -> bool) (python_text : exn -> pystr) (fuel : nat) (folder : path) (w : world) (es : list event) (r : res unit) (w' : world),
  trun (start_wiggle_shell_t u python_text fuel folder) w = (es, r, w') ->
  exists w0, run (start_wiggle_shell fuel folder) w = (r, w0) /\ abridged w0 w'.
Proof. exact @terminal_same. Qed.
Print Assumptions C85_same_program.
(** once a graph is chosen, a line names its three files, and those are the files that the queries typed from then on go to *)
Theorem C85_names_the_files : forall (rt : PyRt), rt_data rt ->
  forall (u : N -> bool) (python_text : exn -> pystr) (fuel : nat) (folder : path) (w : world) (es : list event) (r : res unit) (w' : world) (g : gdbms) (w1 : world),
  List.length (w_in w) < fuel -> trun (start_wiggle_shell_t u python_text fuel folder) w = (es, r, w') ->
  run (select_gdbms fuel folder) (greet w) = (Ok g, w1) -> (forall p, In p (files_of g) -> shown_as_is p) ->
  exists es1 es2, es = map Wrote banner ++ es1 ++ Wrote (using_line g) :: es2 /\ w_out w1 = w_out w ++ banner ++ wrote es1 /\ w_in w = typed es1 ++ w_in w1 /\
    Chat (py "Please enter a query (q to exit):      ") (exception_text u python_text) g (says (using_line g) w1) es2 r w'.
Proof. exact @names_the_files. Qed.
Print Assumptions C85_names_the_files.
(** a new graph is made and the program is left again: all that is on the screen *)
Theorem C85_first_visit : forall (rt : PyRt) (u : N -> bool) (python_text : exn -> pystr) (fuel : nat) (dir : path) (n c : pystr) (w : world),
  3 < fuel -> plain n -> no_nul dir -> disk w -> dir_there dir w ->
  (entry_at (dir ++ [n]) w = None \/ entry_at (dir ++ [n]) w = Some EDir) ->
  (forall p, In p (files_of (graph_at dir n)) -> entry_at p w = None) ->
  (forall p, In p (files_of (graph_at dir n)) -> shown_as_is p) ->
  c <> py "y" -> c <> py "yes" -> w_in w = [c; n; py "q"] ->
  exists es w', trun (start_wiggle_shell_t u python_text fuel dir) w = (es, Ok tt, w') /\ stored (graph_at dir n) empty_graph w' /\
    on_screen es = py "**********************" ++ [10%N] ++ py "Welcome to WiggleGraph" ++ [10%N] ++ py "**********************" ++ [10%N] ++ [10%N] ++
      py "Use existing dbms (y/n):     " ++ py "Please enter a new db name:     " ++ py "Using " ++ n ++ [10%N] ++
      using_line (graph_at dir n) ++ [10%N] ++ py "Please enter a query (q to exit):      " ++ py "q " ++ [10%N] ++ [10%N] ++ py "Good Bye!" ++ [10%N].
Proof. exact @first_visit. Qed.
Print Assumptions C85_first_visit.

(** ** Cases that meet the hypotheses *)
Definition tm_u (c : N) : bool := false.
Definition tm_py (e : exn) : pystr := py "(Python)".
Definition tm_dir : path := [py "srv"; py "dbms"].
Definition tm_w (ls : list pystr) : world := {| w_fs := [([py "srv"], EDir); (tm_dir, EDir)]; w_in := ls; w_out := [] |}.
Definition tm_run (ls : list pystr) := trun (@start_wiggle_shell_t ascii_rt tm_u tm_py 9 tm_dir) (tm_w ls).
Definition nl : pystr := [10%N].
(** a wish for an existing graph where there is none, a name, a bad query, and the end of the input *)
Example C85_example : exists w', tm_run [py "y"; py "zoo"; py "MAKE (:A)"] =
  (map Wrote banner ++
   [Asked (py "Use existing dbms (y/n):     ") (Some (py "y"));
    Wrote (py "There are no databases, please create a new database.");
    Asked (py "Please enter a new db name:     ") (Some (py "zoo")); Wrote (py "Using zoo");
    Wrote (py "Using database_file_path=PosixPath('/srv/dbms/zoo/database_zoo.json') indexes_file_path=PosixPath('/srv/dbms/zoo/indexes_zoo.json') wiggle_number_file_path=PosixPath('/srv/dbms/zoo/wiggle_number_zoo.txt')" ++ nl);
    Asked (py "Please enter a query (q to exit):      ") (Some (py "MAKE (:A)")); Wrote (py "MAKE (:A) " ++ nl);
    Wrote (py "ClauseSyntaxError: SyntaxError: MAKE was not recognised did you mean MAKE?");
    Asked (py "Please enter a query (q to exit):      ") None], Err EOFError, w').
Proof. eexists. vm_compute. reflexivity. Qed.
(** the first letter is not on the menu, the second is *)
Example C85_example_menu : exists w',
  trun (@start_wiggle_shell_t ascii_rt tm_u tm_py 9 tm_dir) (with_fs (tm_w [py "yes"; py "B"; py "A"; py "q"]) (w_fs (snd (tm_run [py "n"; py "zoo"; py "q"])))) =
  (map Wrote (banner) ++
   [Asked (py "Use existing dbms (y/n):     ") (Some (py "yes"));
    Wrote (nl ++ py "Letter      db_name"); Wrote (py "A           zoo"); Wrote nl;
    Asked (py "Please select a database to use (Letter):     ") (Some (py "B")); Wrote (py "B does not exist, please select an existing DB");
    Wrote (nl ++ py "Letter      db_name"); Wrote (py "A           zoo"); Wrote nl;
    Asked (py "Please select a database to use (Letter):     ") (Some (py "A"));
    Wrote (using_line (graph_at tm_dir (py "zoo")));
    Asked (py "Please enter a query (q to exit):      ") (Some (py "q")); Wrote (py "q " ++ nl); Wrote (py "Good Bye!")], Ok tt, w').
Proof. eexists. vm_compute. reflexivity. Qed.
Example C85_hyps : disk (tm_w [py "n"; py "zoo"; py "q"]) /\ plain (py "zoo") /\ no_nul tm_dir /\ dir_there tm_dir (tm_w [py "n"; py "zoo"; py "q"]) /\
  (forall p, In p (files_of (graph_at tm_dir (py "zoo"))) -> entry_at p (tm_w [py "n"; py "zoo"; py "q"]) = None) /\
  (forall p, In p (files_of (graph_at tm_dir (py "zoo"))) -> shown_as_is p) /\
  entry_at (tm_dir ++ [py "zoo"]) (tm_w [py "n"; py "zoo"; py "q"]) = None.
Proof.
  split; [apply GdbmsFacts.disk_check_ok; reflexivity|]. split; [|split; [|split; [|split; [|split]]]].
  - repeat split; try discriminate; intros H; vm_compute in H; repeat (destruct H as [H|H]; [discriminate|]); exact H.
  - repeat constructor; intros H; vm_compute in H; repeat (destruct H as [H|H]; [discriminate|]); exact H.
  - intros d H. apply GdbmsFacts.prefixes_spec in H. cbn in H. destruct H as [<-|[<-|[]]]; reflexivity.
  - intros p H. cbn in H. destruct H as [<-|[<-|[<-|[]]]]; reflexivity.
  - intros p H. cbn [files_of In] in H. assert (X : forall p, match p with [] => false | _ => true end = true -> forallb (forallb (fun c => N.leb 32 c && N.leb c 126 && negb (N.eqb c 92) && negb (N.eqb c 39))) p = true -> shown_as_is p).
    { intros q Q1 Q2. split; [destruct q; discriminate|]. rewrite forallb_forall in Q2. apply Forall_forall. intros s Hs. specialize (Q2 s Hs). rewrite forallb_forall in Q2. apply Forall_forall. intros c Hc. specialize (Q2 c Hc).
      rewrite !andb_true_iff, !negb_true_iff, !N.eqb_neq, !N.leb_le in Q2. tauto. }
    destruct H as [<-|[<-|[<-|[]]]]; apply X; vm_compute; reflexivity.
  - reflexivity.
Qed.
