(** * Prop_Query: whole queries and the interactive shell (C42-C46, C55) *)
From Verif Require Import PyBase SpecText SpecPattern SpecGrammar Json SpecJson RtLaws Props Checks Statements PatternFacts AcceptFacts AcceptMore FS Store SpecStore Make SpecMake Find Query
  SpecFind SpecShell FindFacts QueryFacts Confine ShellFacts OneLine AsciiRt AsciiFacts Prop_Make Prop_Pattern Prop_Find.

(** ** C42 *)
Theorem C42_two_finds : forall (rt : PyRt) q ms g w, Extracted (Statement (py "FIND")) q ms -> 2 <= List.length ms ->
  parse_find q = Err MultipleClauseStatementsError /\
  exists e, run (query q g) w = (Err e, w) /\ (forall m, parse_make q = Ok m -> e = MultipleClauseStatementsError).
Proof. exact @two_finds. Qed.
Print Assumptions C42_two_finds.
Theorem C42_two_reports : forall (rt : PyRt) q ms g w, Extracted (ReportStatement (py "REPORT")) q ms -> 2 <= List.length ms ->
  (forall hs, parse_report q hs = Err MultipleClauseStatementsError) /\
  exists e, run (query q g) w = (Err e, w) /\
    (forall m f, parse_make q = Ok m -> parse_find q = Ok (Some f) -> e = MultipleClauseStatementsError).
Proof. exact @two_reports. Qed.
Print Assumptions C42_two_reports.
Definition nl : pystr := [10%N].
Example C42_example :
  run (@query ascii_rt (py "FIND (a:A);" ++ nl ++ py "FIND (b:B);") ex_g) ex_w = (Err MultipleClauseStatementsError, ex_w) /\
  run (@query ascii_rt (py "FIND (a:A);" ++ nl ++ py "REPORT a;" ++ nl ++ py "REPORT a;") ex_g) ex_w = (Err MultipleClauseStatementsError, ex_w).
Proof. vm_compute. split; reflexivity. Qed.
Example C42_hypotheses : Extracted (@Statement ascii_rt (py "FIND")) (py "FIND (a:A);" ++ nl ++ py "FIND (b:B);") [py "FIND (a:A);"; py "FIND (b:B);"].
Proof. apply (ChecksFacts.extract_spec (rt := ascii_rt) _ FIND); [discriminate|]. vm_compute. reflexivity. Qed.
Example C42_hypotheses_report : Extracted (@ReportStatement ascii_rt (py "REPORT")) (py "REPORT a;" ++ nl ++ py "REPORT a;") [py "REPORT a;"; py "REPORT a;"].
Proof. apply (ChecksFacts.extract_spec (rt := ascii_rt) _ REPORT); [discriminate|]. vm_compute. reflexivity. Qed.

(** ** C43 *)
Theorem C43_without_find_nothing_happens : forall (rt : PyRt) q g w,
  Extracted (Statement (py "FIND")) q [] -> exists e, run (query q g) w = (Err e, w).
Proof. exact @no_find_no_effect. Qed.
Print Assumptions C43_without_find_nothing_happens.
(** the documented MAKE-only query *)
Example C43_example : run (@query ascii_rt (py "MAKE (:Person{n:1})-[:KNOWS]->(:City);") ex_g) ex_w = (Err AttributeError, ex_w).
Proof. vm_compute. reflexivity. Qed.
Example C43_hypotheses : Extracted (@Statement ascii_rt (py "FIND")) (py "MAKE (:Person{n:1})-[:KNOWS]->(:City);") [].
Proof. apply (ChecksFacts.extract_spec (rt := ascii_rt) _ FIND); [discriminate|]. vm_compute. reflexivity. Qed.

(** ** C44 *)
Theorem C44_unparsable_nothing_happens : forall (rt : PyRt) q g w e,
  parse_query_string q = Err e -> run (query q g) w = (Err e, w).
Proof. exact @parse_error_no_effect. Qed.
Print Assumptions C44_unparsable_nothing_happens.
Theorem C44_make_then_find : forall (rt : PyRt) q g w l f rp,
  parse_make q = Ok (Some l) -> parse_find q = Ok (Some f) -> parse_report q (pattern_handles (pf_pattern f)) = Ok rp ->
  l <> [] /\
  (forall e w1, run (make l g) w = (Err e, w1) -> run (query q g) w = (Err e, w1)) /\
  (forall b w1 e w2, run (make l g) w = (Ok b, w1) -> run (find f g) w1 = (Err e, w2) ->
     w2 = w1 /\ run (query q g) w = (Err e, w1)) /\
  (forall b w1 r w2, run (make l g) w = (Ok b, w1) -> run (find f g) w1 = (Ok r, w2) -> run (query q g) w = (Ok true, w2)).
Proof. exact @make_then_find. Qed.
Print Assumptions C44_make_then_find.
Theorem C44_find_alone : forall (rt : PyRt) q g w f rp,
  parse_make q = Ok None -> parse_find q = Ok (Some f) -> parse_report q (pattern_handles (pf_pattern f)) = Ok rp ->
  run (query q g) w = match run (find f g) w with (Err e, w2) => (Err e, w2) | (Ok _, w2) => (Ok true, w2) end.
Proof. exact @find_alone. Qed.
Print Assumptions C44_find_alone.
(** A query that fails and has changed the graph: the FIND draws two nodes (C36). *)
Definition ex_failing : pystr := py "MAKE (:Person{n:1})-[:KNOWS]->(:City);" ++ nl ++ py "FIND (a:Person)-[:KNOWS]->(b:City);".
Theorem C44_atomic_refuted : exists e w1,
  run (@query ascii_rt ex_failing ex_g) ex_w = (Err e, w1) /\ w_fs w1 <> w_fs ex_w /\
  run (@make ascii_rt ex_two ex_g) ex_w = (Ok true, w1).
Proof. eexists _, _. split; [vm_compute; reflexivity|]. split; [discriminate|]. vm_compute. reflexivity. Qed.
Print Assumptions C44_atomic_refuted.
Example C44_hypotheses : exists l f rp, @parse_make ascii_rt ex_failing = Ok (Some l) /\ @parse_find ascii_rt ex_failing = Ok (Some f) /\
  @parse_report ascii_rt ex_failing (pattern_handles (pf_pattern f)) = Ok rp.
Proof. exists ex_two. eexists (match @parse_find ascii_rt ex_failing with Ok (Some f) => f | _ => ex_find "" end), None. vm_compute. repeat split. Qed.

(** ** C45 *)
Theorem C45_with_a_blank_always_fails : forall (rt : PyRt), rt_ok rt -> forall kw1 sp kw2 l1 l2,
  kw1 = py "MAKE" \/ kw1 = py "make" -> kw2 = py "FIND" \/ kw2 = py "find" ->
  statement_written l1 -> statement_written l2 -> all_space sp -> no_newline sp ->
  forall g w, sp <> [] -> exists e, run (query (one_line kw1 l1 sp kw2 l2) g) w = (Err e, w).
Proof. exact @one_line_fails. Qed.
Print Assumptions C45_with_a_blank_always_fails.
(** the MAKE is taken to reach to the end of the line *)
Theorem C45_make_takes_the_line : forall (rt : PyRt), rt_ok rt -> forall kw1 sp kw2 l1 l2,
  kw1 = py "MAKE" \/ kw1 = py "make" -> kw2 = py "FIND" \/ kw2 = py "find" ->
  statement_written l1 -> statement_written l2 -> all_space sp -> no_newline sp ->
  passes l1 -> passes l2 -> distinct_handles l1 -> distinct_handles l2 ->
  parse_make (one_line kw1 l1 sp kw2 l2) =
    Ok (Some [{| pm_raw := one_line kw1 l1 sp kw2 l2;
                 pm_patterns := map (fun bp => read_pattern (snd bp)) l1 ++ (match sp with [] => [] | _ => [blank_pattern] end) ++
                                map (fun bp => read_pattern (snd bp)) l2 |}]).
Proof. exact @one_line_parse. Qed.
Print Assumptions C45_make_takes_the_line.
Theorem C45_without_blank_the_find_is_made : forall (rt : PyRt), rt_ok rt -> forall kw1 sp kw2 l1 l2,
  kw1 = py "MAKE" \/ kw1 = py "make" -> kw2 = py "FIND" \/ kw2 = py "find" ->
  statement_written l1 -> statement_written l2 -> all_space sp -> no_newline sp ->
  passes l1 -> passes l2 -> distinct_handles l1 -> distinct_handles l2 ->
  forall g G w b w', sp = [] -> rt_data rt -> stored g G w ->
  let both := map (fun bp => read_pattern (snd bp)) (l1 ++ l2) in
  Forall names_ok both -> run (query (one_line kw1 l1 sp kw2 l2) g) w = (Ok b, w') ->
  exists items, acceptable both (g_next G) items /\
    run (load_database (database_fp g)) w' = (Ok (VDict (g_db G ++ items)), w').
Proof. exact @one_line_creates. Qed.
Print Assumptions C45_without_blank_the_find_is_made.
Definition ex_labels (q : string) : res bool * list (option pyval) :=
  let (r, w') := @run bool (@query ascii_rt (py q) ex_g) ex_w in
  (r, match fst (run (@load_database ascii_rt (database_fp ex_g)) w') with
      | Ok (VDict d) => map (fun kv => field (py "node_label") (snd kv)) d | _ => [] end).
Example C45_example :
  ex_labels "MAKE (:A)-[:R]->(:B); FIND (c:C);" = (Err ValidationError, []) /\
  ex_labels "MAKE (:A)-[:R]->(:B);FIND (c:C);" = (Ok true, [Some (VStr (py "A")); Some (VStr (py "B")); Some (VStr (py "C"))]).
Proof. vm_compute. split; reflexivity. Qed.
Definition ex_plain : list (pystr * wpattern) := [(py " ", OneNode ex_c)].
Example C45_hypotheses : one_line (py "MAKE") ex_list [] (py "FIND") ex_plain = py "MAKE (a :Man {n: 1})<--[ r:KNOWS]- (:B), (:C);FIND (:C);" /\
  @statement_written ascii_rt ex_plain /\ @passes ascii_rt ex_plain /\ distinct_handles ex_plain /\
  Forall (@names_ok) (map (fun bp => read_pattern (snd bp)) (ex_list ++ ex_plain)) /\
  exists w', run (@query ascii_rt (one_line (py "MAKE") ex_list [] (py "FIND") ex_plain) ex_g) ex_w = (Ok true, w').
Proof.
  split; [reflexivity|]. split; [|split; [|split; [|split]]].
  - constructor; [discriminate| | |].
    + constructor; [|constructor]. split; [repeat constructor|]. cbn. constructor; try (repeat constructor; fail); discriminate.
    + vm_compute. intuition discriminate.
    + intros l' b p E. destruct l' as [|x l']; cbn in E; [|destruct l'; discriminate]. injection E as _ <-. reflexivity.
  - repeat constructor.
  - vm_compute. repeat constructor; cbn; intuition discriminate.
  - vm_compute map. ex_names.
  - eexists. vm_compute. reflexivity.
Qed.

(** ** C46 *)
(** every run of the loop is a session in the sense of SpecShell (enough fuel: more than there are lines) *)
Theorem C46_shell_is_a_session : forall (rt : PyRt) g n w, List.length (w_in w) < n ->
  Session g w (fst (run (shell_loop n g) w)) (snd (run (shell_loop n g) w)).
Proof. exact @shell_session. Qed.
Print Assumptions C46_shell_is_a_session.
Theorem C46_session_unique : forall (rt : PyRt) g w r w', Session g w r w' -> forall r2 w2, Session g w r2 w2 -> r2 = r /\ w2 = w'.
Proof. exact @session_unique. Qed.
Print Assumptions C46_session_unique.
Theorem C46_ends_with_q_or_input : forall (rt : PyRt) g w r w', Session g w r w' ->
  (exists before after, w_in w = before ++ py "q" :: after /\ ~ In (py "q") before /\ r = Ok tt /\ w_in w' = after) \/
  (~ In (py "q") (w_in w) /\ r = Err EOFError /\ w_in w' = []).
Proof. exact @session_ends. Qed.
Print Assumptions C46_ends_with_q_or_input.
Theorem C46_help_is_not_executed : forall (rt : PyRt) g w r w', Session g w r w' ->
  Forall (fun l => l = py "q" \/ mentions_help l) (w_in w) -> w_fs w' = w_fs w.
Proof. exact @help_changes_nothing. Qed.
Print Assumptions C46_help_is_not_executed.
(** A line with a failing query, one that asks for help (though it is a valid query), a good one, q, and one more. *)
Definition ex_lines : list pystr :=
  [py "MAKE (:A);"; py "FIND (help:A);"; py "FIND (a:A);"; py "q"; py "FIND (a:A);"].
Example C46_example : exists w', @Session ascii_rt ex_g {| w_fs := w_fs ex_w; w_in := ex_lines; w_out := [] |} (Ok tt) w' /\
  w_in w' = [py "FIND (a:A);"] /\
  w_out w' = [echo (py "MAKE (:A);"); py "error"; echo (py "FIND (help:A);"); py "A helpful guide is on the way!" ++ nl;
              echo (py "FIND (a:A);"); NO_RESULTS; echo (py "q"); py "Good Bye!"].
Proof.
  eexists. split; [|split].
  - pose proof (C46_shell_is_a_session ascii_rt ex_g 6 {| w_fs := w_fs ex_w; w_in := ex_lines; w_out := [] |}) as S.
    specialize (S ltac:(cbn; lia)). assert (E : fst (run (@shell_loop ascii_rt 6 ex_g) {| w_fs := w_fs ex_w; w_in := ex_lines; w_out := [] |}) = Ok tt) by (vm_compute; reflexivity).
    rewrite E in S. exact S.
  - vm_compute. reflexivity.
  - vm_compute. reflexivity.
Qed.

(** ** C55: one graph's queries touch only its own three files *)
Theorem C55_query_touches_own_files : forall (rt : PyRt) q g w p, ~ In p (the_files g) ->
  fs_get p (w_fs (snd (run (query q g) w))) = fs_get p (w_fs w).
Proof. exact @query_isolated. Qed.
Print Assumptions C55_query_touches_own_files.
Theorem C55_make_touches_own_files : forall (rt : PyRt) l g w p, ~ In p (the_files g) ->
  fs_get p (w_fs (snd (run (make l g) w))) = fs_get p (w_fs w).
Proof. exact @make_isolated. Qed.
Print Assumptions C55_make_touches_own_files.
Theorem C55_session_touches_own_files : forall (rt : PyRt) g w r w', Session g w r w' ->
  forall p, ~ In p (the_files g) -> fs_get p (w_fs w') = fs_get p (w_fs w).
Proof. exact @session_frame. Qed.
Print Assumptions C55_session_touches_own_files.
(** also when it is cut short *)
Theorem C55_crash_touches_own_files : forall (rt : PyRt) q g w w' p, crash (query q g) w w' -> ~ In p (the_files g) ->
  fs_get p (w_fs w') = fs_get p (w_fs w).
Proof. exact @crash_isolated. Qed.
Print Assumptions C55_crash_touches_own_files.
(** and when two queries on two graphs run at the same time, in any interleaving: each graph's files are what
    they would have been had its query run alone, and both answers are the same *)
Theorem C55_graphs_do_not_interfere : forall (rt : PyRt) q1 g1 q2 g2 w r1 r2 w',
  (forall p, In p (the_files g1) -> ~ In p (the_files g2)) ->
  interleave (query q1 g1) (query q2 g2) w r1 r2 w' ->
  r1 = fst (run (query q1 g1) w) /\ r2 = fst (run (query q2 g2) w) /\
  (forall p, In p (the_files g1) -> fs_get p (w_fs w') = fs_get p (w_fs (snd (run (query q1 g1) w)))) /\
  (forall p, In p (the_files g2) -> fs_get p (w_fs w') = fs_get p (w_fs (snd (run (query q2 g2) w)))) /\
  (forall p, ~ In p (the_files g1) -> ~ In p (the_files g2) -> fs_get p (w_fs w') = fs_get p (w_fs w)).
Proof. exact @graphs_independent. Qed.
Print Assumptions C55_graphs_do_not_interfere.
Definition ex_g2 : gdbms := {| database_fp := [py "other"; py "database"]; indexes_fp := [py "other"; py "indexes"]; wiggle_number_fp := [py "other"; py "counter"] |}.
Example C55_example : (forall p, In p (the_files ex_g) -> ~ In p (the_files ex_g2)) /\
  exists r1 r2 w', interleave (@query ascii_rt ex_failing ex_g) (@query ascii_rt ex_failing ex_g2) ex_w r1 r2 w' /\
    fs_get (database_fp ex_g) (w_fs w') <> fs_get (database_fp ex_g) (w_fs ex_w).
Proof.
  split.
  - intros p H H'. cbn in H, H'. destruct H as [<-|[<-|[<-|[]]]]; destruct H' as [H'|[H'|[H'|[]]]]; discriminate.
  - eexists _, _, _. split; [apply interleave_seq|]. vm_compute. discriminate.
Qed.
