(** * C68: what a query that fails tells, and what the shell prints for it *)
From Verif Require Import PyBase Json Literal SpecText SpecProps SpecChecks SpecMake SpecStore SpecShell Props Statements Checks Data FS Store Make Query RtLaws
  AsciiRt AsciiFacts Messages SpecMessages MessagesRun SpecMessagesRun MessagesRunFacts Prop_Make SpecShown ShownFacts SpecLine LineFacts.

(** the model with messages does what the model of the other properties does: the same files, output and exceptions *)
Theorem C68_same_run : forall (rt : PyRt), rt_data rt -> forall (q : pystr) (g : gdbms) (w : world),
  exists r w', run (query_m q g) w = (Ok r, w') /\ run (query q g) w = (erase r, w').
Proof. exact @run_query_same. Qed.
Print Assumptions C68_same_run.
(** a message of the project names a fault of the query's text, or a reason why its MAKE statements cannot be carried out, and then
    nothing was changed; or a reason why its FIND statements cannot, and then its MAKE statements were carried out *)
Theorem C68_message_explains : forall (rt : PyRt), rt_data rt -> forall (q : pystr) (g : gdbms) (w : world) (e : exn) (m : message) (w' : world),
  run (query_m q g) w = (Ok (Bad e (Some m)), w') ->
  (explains q e m /\ w' = w) \/ (failure q g w MAKE e m /\ w' = w) \/
  (failure q g w' FIND e m /\
   exists pq, parse_query_string q = Ok pq /\ match q_make pq with Some l => run (make l g) w = (Ok true, w') | None => w' = w end).
Proof. exact (fun rt D q g w e m => @query_failure rt D q g w e (Some m)). Qed.
Print Assumptions C68_message_explains.
(** a failure without such a message is not one of the project's exceptions (but for those of a list that Python cannot read) *)
Theorem C68_no_message : forall (rt : PyRt), rt_data rt -> forall (q : pystr) (g : gdbms) (w : world) (e : exn) (w' : world),
  run (query_m q g) w = (Ok (Bad e None), w') -> other_error e \/ exists l, literal_eval l = Err e.
Proof. exact (fun rt D q g w e => @query_failure rt D q g w e None). Qed.
Print Assumptions C68_no_message.
(** three of the project's exceptions are raised by no query *)
Theorem C68_never_raised : forall (rt : PyRt), rt_data rt -> forall (q : pystr) (g : gdbms) (w : world) (e : exn) (w' : world),
  In e [RelationshipToFromError; NodeHasUnrelatedRelationship; PropertyTypeAssignmentError] ->
  run (query q g) w = (Err e, w') -> exists l, literal_eval l = Err e.
Proof. exact @never_raised. Qed.
Print Assumptions C68_never_raised.
(** while the files hold a sound graph, no query is told that a node exists or that the counter is empty *)
Theorem C68_intact_failure : forall (rt : PyRt), rt_data rt -> forall (q : pystr) (g : gdbms) (G : graph) (w : world) (e : exn) (m : message) (w' : world),
  stored g G w -> run (query_m q g) w = (Ok (Bad e (Some m)), w') -> e <> NodeExistsError /\ e <> PlainException.
Proof. exact @intact_failure. Qed.
Print Assumptions C68_intact_failure.
(** the shell prints the name of the exception and its message for every query that fails, and goes on *)
Theorem C68_shell_talks : forall (rt : PyRt), rt_data rt -> forall (u : N -> bool) (python_text : exn -> pystr) (g : gdbms) (n : nat) (w : world),
  (List.length (w_in w) < n)%nat ->
  Talk (exception_text u python_text) g w (fst (run (shell_loop_m u python_text n g) w)) (snd (run (shell_loop_m u python_text n g) w)).
Proof. exact @shell_talks. Qed.
Print Assumptions C68_shell_talks.
(** so the sessions of C46 are these with "error" for each of the answers *)
Theorem C68_talk_is_session : forall (rt : PyRt), rt_data rt -> forall (answer : exn -> option message -> pystr) (g : gdbms) (w : world) (r : res unit) (w' : world),
  Talk answer g w r w' -> forall w0, alike w0 w -> exists w0', Session g w0 r w0' /\ alike w0' w'.
Proof. exact @talk_is_session. Qed.
Print Assumptions C68_talk_is_session.
(** the list that a message quotes is a list literal of the same strings, if they are plain *)
Theorem C68_list_shown : forall (rt : PyRt) (u : N -> bool) (l : list pystr), Forall shown_plainly l ->
  literal_eval (quoted_text u (AList l)) = Ok (VList (map VStr l)).
Proof. exact @list_shown. Qed.
Print Assumptions C68_list_shown.
(** any text is shown character by character, between quotes (SpecShown) *)
Theorem C68_text_shown : forall (u : N -> bool) s, unicode s -> shows_text u s (repr u s).
Proof. exact text_shown. Qed.
Print Assumptions C68_text_shown.
(** and so what is shown tells which strings they were *)
Theorem C68_shown_lists_differ : forall (u : N -> bool) l l', Forall unicode l -> Forall unicode l' ->
  quoted_text u (AList l) = quoted_text u (AList l') \/ quoted_text u (ATuple l) = quoted_text u (ATuple l') -> l = l'.
Proof. exact shown_lists_differ. Qed.
Print Assumptions C68_shown_lists_differ.
(** what the shell prints for an exception with a message (SpecLine): the name of the class, a colon and the message, if it is
    one of the project's; the message alone, if not *)
Theorem C68_exception_line : forall (u : N -> bool) (python_text : exn -> pystr) (e : exn) (m : message), quotes_unicode m ->
  exists t, message_reads u m t /\
    (forall n, In (e, n) project_exceptions -> exception_text u python_text e (Some m) = n ++ py ": " ++ t) /\
    (~ In e (map fst project_exceptions) -> exception_text u python_text e (Some m) = t).
Proof. exact exception_line. Qed.
Print Assumptions C68_exception_line.
Example C68_example_line : let m := Quoting (py "of ") (AList [py "a"; py "it's"]) (py "!") in quotes_unicode m /\
  exception_text (fun _ => false) (fun _ => []) NodeExistsError (Some m) = py "NodeExistsError: of ['a', ""it's""]!" /\
  exception_text (fun _ => false) (fun _ => []) PlainException (Some m) = py "of ['a', ""it's""]!".
Proof. split; [repeat constructor|]. vm_compute. auto. Qed.

(** ** Cases that meet the hypotheses *)
Definition mr_u (c : N) : bool := false.
Definition mr_py (e : exn) : pystr := py "(Python)".
Definition mr_with (ls : list pystr) : world := {| w_fs := w_fs ex_w; w_in := ls; w_out := [] |}.
Definition mr_talk (ls : list pystr) : list pystr := w_out (snd (run (@shell_loop_m ascii_rt mr_u mr_py 9 ex_g) (mr_with ls))).
(** a lone node is stored, but the FIND of its line fails; the next node gets its number again *)
Example C68_example_exists : mr_talk [py "MAKE (:A);FIND (:A);"; py "MAKE (:A);FIND (:A);"; py "q"] =
  [echo (py "MAKE (:A);FIND (:A);"); py "(Python)"; echo (py "MAKE (:A);FIND (:A);");
   py "NodeExistsError: Node 0 already exists did you mean to update"; echo (py "q"); py "Good Bye!"].
Proof. vm_compute. reflexivity. Qed.
Example C68_example_property : mr_talk [py "MAKE (:A{a:True});FIND (:A);"; py "q"] =
  [echo (py "MAKE (:A{a:True});FIND (:A);"); py "WiggleGraphIllegalPropertyValue: True should be lowercase. Boolean property example {foo: true}";
   echo (py "q"); py "Good Bye!"].
Proof. vm_compute. reflexivity. Qed.
Example C68_example_list : mr_talk [py "MAKE (:A{a:[1 2]});FIND (:A);"; py "q"] =
  [echo (py "MAKE (:A{a:[1 2]});FIND (:A);"); py "ParamSyntaxError: SyntaxError: ['[1 2]'] missing a comma?"; echo (py "q"); py "Good Bye!"].
Proof. vm_compute. reflexivity. Qed.
Definition mr_heads : pystr := py "MAKE (:A);" ++ [10%N] ++ py "MAKE (:B)<-[:C]->(:D);" ++ [10%N] ++ py "FIND (:A);".
Example C68_example_heads : run (@query_m ascii_rt mr_heads ex_g) ex_w =
  (Ok (Bad NonDirectedRelationshipError (Some (Text (py "Non directed relationship found: <-[:C]->")))), ex_w).
Proof. vm_compute. reflexivity. Qed.
Definition mr_counter : world :=
  {| w_fs := [([py "database"], EFile (py "{}")); ([py "counter"], EFile [])]; w_in := []; w_out := [] |}.
Example C68_example_counter : run (@query_m ascii_rt (py "MAKE (:A);FIND (:A);") ex_g) mr_counter =
  (Ok (Bad PlainException (Some (Text (py "HOLD FIRE on overwriting the issue!")))), mr_counter).
Proof. vm_compute. reflexivity. Qed.
Example C68_example_python : exists w', run (@query_m ascii_rt (py "MAKE (:A);") ex_g) ex_w = (Ok (Bad AttributeError None), w').
Proof. eexists. vm_compute. reflexivity. Qed.
Example C68_example_intact : exists m w', @stored ascii_rt ex_g ex_G ex_w /\
  run (@query_m ascii_rt mr_heads ex_g) ex_w = (Ok (Bad NonDirectedRelationshipError (Some m)), w').
Proof. eexists _, _. split; [exact ex_stored|]. vm_compute. reflexivity. Qed.
Example C68_example_shown : quoted_text mr_u (AList [py "it's"; py "a"; []]) = py "[""it's"", 'a', '']" /\ Forall shown_plainly [py "it's"; py "a"; []].
Proof.
  split; [reflexivity|]. repeat constructor; cbn; try lia; try discriminate; intuition discriminate.
Qed.
(** characters that are not plain are escaped *)
Example C68_example_escape : quoted_text mr_u (AList [[92%N]; [10%N]; [39%N; 34%N]; [233%N]]) = py "['\\', '\n', '\'""', '\xe9']".
Proof. reflexivity. Qed.
Example C68_example_unicode : unicode [92; 10; 39; 34; 233; 8232; 128512]%N /\ shows_text mr_u [233; 8232; 39]%N (py """\xe9\u2028'""").
Proof. split; [repeat constructor|]. apply (C68_text_shown mr_u [233; 8232; 39]%N). repeat constructor. Qed.
