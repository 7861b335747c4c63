(** * Prop_Proc: one graph and many processes (C74)

    [process], [history_of], [left_by], [session_of], [runs_of], [programs] and [made_by_one] are in SpecProc; [unreadable] in
    SpecDurable, [together], [json_query] and [reads_first] in SpecMany, [sound] and [corrupting] in SpecSound, [entry] in SpecSchema. *)
From Verif Require Import PyBase Json SpecJson RtLaws Props Statements FS Store SpecStore Make SpecMake Find Query SpecShell SpecDurable SpecMany ManyFacts CrashFacts
  SpecSound SpecWhole SpecSchema Gdbms SpecGdbms GdbmsFacts SpecRuns SpecProc ProcFacts AsciiRt AsciiFacts Prop_Make Prop_Query Prop_Gdbms Prop_Durable Prop_Schema Prop_Many Prop_Runs SpecStore.

(** ** One after the other: as in C62 and C69, each query in its own process *)
Theorem C74_all_or_nothing : forall (base : PyRt) g h w w', history_of base g h w w' ->
  forall d, distinct_files g -> @db_file base (database_fp g) d w ->
  (exists parts, Forall2 left_by h parts /\ @db_file base (database_fp g) (d ++ concat parts) w') \/
  (@unreadable base g w' /\ exists s, In s h /\ (sb_fate s = Cut \/ sb_fate s = Failed TypeError)).
Proof. exact history_all_or_nothing. Qed.
Print Assumptions C74_all_or_nothing.

Theorem C74_answered_is_there : forall (base : PyRt) g h w w' d v s l,
  history_of base g h w w' -> distinct_files g -> @db_file base (database_fp g) d w ->
  In s h -> sb_fate s = Answered -> @parse_make (sb_process s) (sb_query s) = Ok (Some l) ->
  run (@read_json base (database_fp g)) w' = (Ok v, w') ->
  exists z items d', @acceptable (sb_process s) (patterns_of l) z items /\ v = VDict d' /\ (forall kv, In kv d \/ In kv items -> In kv d').
Proof. exact history_answered. Qed.
Print Assumptions C74_answered_is_there.

Theorem C74_unreadable_for_ever : forall (base : PyRt) g h w w', history_of base g h w w' -> @unreadable base g w ->
  (forall p, In p (the_files g) -> fs_get p (w_fs w') = fs_get p (w_fs w)) /\
  forall s l, In s h -> sb_fate s = Answered -> @parse_make (sb_process s) (sb_query s) = Ok (Some l) -> l = [].
Proof. exact history_unreadable. Qed.
Print Assumptions C74_unreadable_for_ever.

(** every new entry is one that some process made: its time stamps are the start time of that process *)
Theorem C74_only_entries : forall (base : PyRt) g h w w' d v, history_of base g h w w' -> Forall (fun s => @rt_lists (sb_process s)) h ->
  distinct_files g -> @db_file base (database_fp g) d w -> run (@read_json base (database_fp g)) w' = (Ok v, w') ->
  exists more, v = VDict (d ++ more) /\ forall kv, In kv more -> exists s, In s h /\ @entry (sb_process s) kv.
Proof. exact history_entries. Qed.
Print Assumptions C74_only_entries.

(** ** as in C58 *)
Theorem C74_queries_keep_a_graph_sound : forall (base : PyRt) g qs, Forall (fun pq => process base (fst pq)) qs ->
  forall G w, @stored base g G w -> sound G -> (forall r, In r (fst (session_of g qs w)) -> ~ corrupting r) ->
  exists G' more, @stored base g G' (snd (session_of g qs w)) /\ sound G' /\ g_db G' = g_db G ++ more /\ (g_next G <= g_next G')%Z.
Proof. exact session_of_sound. Qed.
Print Assumptions C74_queries_keep_a_graph_sound.

(** ** as in C65 *)
Theorem C74_runs_accumulate : forall (base : PyRt) folder n rs w w', plain n -> runs_of base folder n rs w w' ->
  forall G, @stored base (graph_at folder n) G w -> sound G -> (forall r, In r rs -> ~ corrupting r) ->
  exists G' more, @stored base (graph_at folder n) G' w' /\ sound G' /\ g_db G' = g_db G ++ more /\ (g_next G <= g_next G')%Z.
Proof. exact runs_of_accumulate. Qed.
Print Assumptions C74_runs_accumulate.

(** ** At the same time: as in C64 *)
Theorem C74_old_nodes_and_whole_makes : forall (base : PyRt) g, distinct_files g -> forall d qs w tr ps w',
  @db_file base (database_fp g) d w -> Forall (fun pq => process base (fst pq) /\ @json_query (fst pq) (snd pq)) qs ->
  together (programs g qs) w tr ps w' ->
  (exists who parts, NoDup who /\ Forall2 (made_by_one qs) who parts /\ @db_file base (database_fp g) (d ++ concat parts) w') \/ @unreadable base g w'.
Proof. exact some_of_these. Qed.
Print Assumptions C74_old_nodes_and_whole_makes.

Theorem C74_same_counter_one_survives : forall (base : PyRt) g, distinct_files g -> forall d z0 qs w tr ps w',
  @db_file base (database_fp g) d w -> file_is (wiggle_number_fp g) (str_of_Z z0) w ->
  Forall (fun pq => process base (fst pq) /\ @json_query (fst pq) (snd pq)) qs ->
  together (programs g qs) w tr ps w' -> reads_first (wiggle_number_fp g) tr ->
  @db_file base (database_fp g) d w' \/ @unreadable base g w' \/
  exists p q l items, In (p, q) qs /\ @parse_make p q = Ok (Some l) /\ @acceptable p (patterns_of l) z0 items /\ @db_file base (database_fp g) (d ++ items) w'.
Proof. exact one_of_these. Qed.
Print Assumptions C74_same_counter_one_survives.

(** ** Examples *)
(** another process: sets the other way round, a later start, and a Python that takes U+00E9 for a letter *)
Definition pr_other : PyRt := {|
  u_word := N.eqb 233; u_space := @u_space ascii_rt; u_digit := @u_digit ascii_rt;
  u_upper := @u_upper ascii_rt; u_lowertitle := N.eqb 233; u_lower := @u_lower ascii_rt;
  u_upcase := @u_upcase ascii_rt; u_ci := @u_ci ascii_rt;
  f_repr := @f_repr ascii_rt; int_ext := @int_ext ascii_rt; int_fits := @int_fits ascii_rt; lit_ext := @lit_ext ascii_rt;
  set_order := @rev pystr; zset_order := @rev Z; set_mixed := @set_mixed ascii_rt; import_time := py "1999999999.5" |}.
Lemma pr_other_process : process ascii_rt pr_other.
Proof.
  split; [|reflexivity]. constructor.
  - constructor; cbn; [reflexivity|discriminate|discriminate| |]; intros l H; (split; [apply NoDup_rev; exact H|intros x; symmetry; apply in_rev]).
  - cbn [u_word pr_other]. intros c H. apply N.eqb_eq in H. subst c. split; reflexivity.
  - exact (rt_space_ch _ ascii_data).
  - exact (rt_float _ ascii_data).
  - exact (rt_frac _ ascii_data).
  - cbn. discriminate.
  - apply (rt_float _ ascii_data (py "1999999999.5")). vm_compute. reflexivity.
Qed.
Lemma pr_first_process : process ascii_rt ascii_rt.
Proof. split; [exact ascii_data|reflexivity]. Qed.
Lemma pr_other_lists : @rt_lists pr_other.
Proof. intros t v _ H. discriminate. Qed.

(** the first process understands "MAKE (:A)...", the label U+00E9 only the second *)
Definition pr_q1 : pystr := py "MAKE (:A)-[:R]->(:B);" ++ nl ++ py "FIND (:A);".
Definition pr_q2 : pystr := py "MAKE (:" ++ [233%N] ++ py ")-[:R]->(:A);" ++ nl ++ py "FIND (:A);".
Definition pr_w1 : world := snd (run (@query ascii_rt pr_q1 ex_g) ex_w).
Definition pr_w2 : world := snd (run (@query pr_other pr_q2 ex_g) pr_w1).
Definition pr_w3 : world := snd (run (@query ascii_rt pr_q2 ex_g) pr_w2).
Definition pr_h : list sent_by :=
  [ {| sb_process := ascii_rt; sb_query := pr_q1; sb_fate := Answered |};
    {| sb_process := pr_other; sb_query := pr_q2; sb_fate := Answered |};
    {| sb_process := ascii_rt; sb_query := pr_q2; sb_fate := Failed ValidationError |} ].
Definition pr_meta (w : world) : list (pystr * option pyval) :=
  match fst (run (@read_json ascii_rt (database_fp ex_g)) w) with
  | Ok (VDict d) => map (fun kv => (fst kv, match field (py "node_metadata") (snd kv) with Some m => field (py "created_at") m | None => None end)) d
  | _ => []
  end.
Example C74_history_example : map (fun q => fst (run (@query ascii_rt q ex_g) pr_w2)) [pr_q1; pr_q2] = [Ok true; Err ValidationError] /\
  pr_meta pr_w3 = [(py "0", Some (VFloat (py "1700000000.5"))); (py "1", Some (VFloat (py "1700000000.5")));
                   (py "3", Some (VFloat (py "1999999999.5"))); (py "4", Some (VFloat (py "1999999999.5")))].
Proof. vm_compute. repeat split. Qed.

Lemma pr_sent p q r w : fst (run (@query p q ex_g) w) = r ->
  @sent p ex_g q (match r with Ok _ => Answered | Err e => Failed e end) w (snd (run (@query p q ex_g) w)).
Proof. intros <-. destruct (run (@query p q ex_g) w) as [[b|e] w'] eqn:E; cbn [fst snd sent]; [exists b; exact E|exact E]. Qed.
Lemma pr_history : history_of ascii_rt ex_g pr_h ex_w pr_w3.
Proof.
  eapply ho_one with (w1 := pr_w1) (w2 := pr_w1); [exact pr_first_process| | |].
  { apply (pr_sent ascii_rt pr_q1 (Ok true)). vm_compute. reflexivity. }
  { intros p _. reflexivity. }
  eapply ho_one with (w1 := pr_w2) (w2 := pr_w2); [exact pr_other_process| | |].
  { apply (pr_sent pr_other pr_q2 (Ok true)). vm_compute. reflexivity. }
  { reflexivity. }
  eapply ho_one with (w1 := pr_w3) (w2 := pr_w3); [exact pr_first_process| | |].
  { apply (pr_sent ascii_rt pr_q2 (Err ValidationError)). vm_compute. reflexivity. }
  { reflexivity. }
  apply ho_none.
Qed.
Lemma pr_db : @db_file ascii_rt (database_fp ex_g) [] ex_w.
Proof. split; [reflexivity|]. split; [|reflexivity]. apply vo_dict; constructor. Qed.
Definition pr_v : pyval := match fst (run (@read_json ascii_rt (database_fp ex_g)) pr_w3) with Ok v => v | Err _ => VNone end.
Lemma pr_read : run (@read_json ascii_rt (database_fp ex_g)) pr_w3 = (Ok pr_v, pr_w3).
Proof. vm_compute. reflexivity. Qed.
Definition pr_l : list parsed_make := match @parse_make pr_other pr_q2 with Ok (Some l) => l | _ => [] end.
Lemma pr_parsed : @parse_make pr_other pr_q2 = Ok (Some pr_l).
Proof. vm_compute. reflexivity. Qed.
Example C74_history_hypotheses : history_of ascii_rt ex_g pr_h ex_w pr_w3 /\ distinct_files ex_g /\ @db_file ascii_rt (database_fp ex_g) [] ex_w /\ Forall (fun s => @rt_lists (sb_process s)) pr_h /\ (exists v, run (@read_json ascii_rt (database_fp ex_g)) pr_w3 = (Ok v, pr_w3)) /\ exists l, @parse_make pr_other pr_q2 = Ok (Some l).
Proof.
  split; [exact pr_history|]. split; [apply ex_stored|]. split; [exact pr_db|]. split; [|split].
  - repeat (apply Forall_cons; [try exact ascii_lists; exact pr_other_lists|]). apply Forall_nil.
  - exists pr_v. exact pr_read.
  - exists pr_l. exact pr_parsed.
Qed.
(** the second process is cut off five characters behind the old text of the database: unreadable for both *)
Definition pr_size : nat := match fs_get (database_fp ex_g) (w_fs pr_w1) with Some (EFile t) => List.length t | _ => 0 end.
Definition pr_torn : world := crash_at 2 (pr_size + 5) (@query pr_other pr_q2 ex_g) pr_w1.
Definition pr_text : pystr := match fs_get (database_fp ex_g) (w_fs pr_torn) with Some (EFile t) => t | _ => [] end.
Lemma pr_torn_text : fs_get (database_fp ex_g) (w_fs pr_torn) = Some (EFile pr_text) /\ @load_json ascii_rt pr_text = Err JSONDecodeError.
Proof. split; vm_compute; reflexivity. Qed.
Lemma pr_torn_fails : run (@query ascii_rt pr_q1 ex_g) pr_torn = (Err JSONDecodeError, pr_torn).
Proof. vm_compute. reflexivity. Qed.
Example C74_unreadable_hypotheses : @sent pr_other ex_g pr_q2 Cut pr_w1 pr_torn /\ @unreadable ascii_rt ex_g pr_torn /\ history_of ascii_rt ex_g [{| sb_process := ascii_rt; sb_query := pr_q1; sb_fate := Failed JSONDecodeError |}] pr_torn pr_torn.
Proof.
  split; [apply crash_at_crash|]. split.
  - exists pr_text. exact pr_torn_text.
  - eapply ho_one with (w1 := pr_torn) (w2 := pr_torn); [exact pr_first_process|exact pr_torn_fails|intros p _; reflexivity|apply ho_none].
Qed.

Definition pr_qs : list (PyRt * pystr) := [(ascii_rt, pr_q1); (pr_other, pr_q2); (ascii_rt, pr_q2); (pr_other, pr_q1)].
Lemma pr_processes : Forall (fun pq => process ascii_rt (fst pq)) pr_qs.
Proof. repeat (apply Forall_cons; [first [exact pr_first_process|exact pr_other_process]|]). apply Forall_nil. Qed.
Example C74_session_hypotheses : Forall (fun pq => process ascii_rt (fst pq)) pr_qs /\ @stored ascii_rt ex_g ex_G ex_w /\ SpecSound.empty_graph ex_G /\ fst (session_of ex_g pr_qs ex_w) = [Ok true; Ok true; Err ValidationError; Ok true].
Proof. split; [exact pr_processes|]. split; [exact ex_stored|]. split; [repeat split|]. vm_compute. reflexivity. Qed.

(** the second run of the program of C65, in the other process *)
Definition pr_second : res unit * world := run (@start_wiggle_shell pr_other 20 ex_dir) ru_w1.
Lemma pr_second_run : run (@start_wiggle_shell pr_other 20 ex_dir) ru_w1 = (fst pr_second, snd pr_second).
Proof. unfold pr_second. destruct (run (@start_wiggle_shell pr_other 20 ex_dir) ru_w1). reflexivity. Qed.
Example C74_runs_hypotheses : runs_of ascii_rt ex_dir (py "zoo") [Ok true; Err AttributeError] ru_w1 (snd pr_second) /\ plain (py "zoo") /\ (exists G, @stored ascii_rt ru_zoo G ru_w1 /\ sound G) /\ stored_numbers (snd pr_second) = [py "0"; py "1"; py "3"; py "4"].
Proof.
  split; [|split; [apply C65_first_run_hypotheses|split; [exact C65_runs_hypotheses|vm_compute; reflexivity]]].
  assert (S : fst (@session pr_other (graph_at ex_dir (py "zoo")) [ru_line; py "nonsense"] ru_w1) = [Ok true; Err AttributeError]) by (vm_compute; reflexivity).
  change [Ok true; Err AttributeError] with ([Ok true; Err AttributeError] ++ @nil (res bool)). rewrite <- S.
  apply (ro_one ascii_rt ex_dir (py "zoo") pr_other ru_w1 (py "yes") (py "A") ru_lines [ru_line; py "nonsense"] 20 (fst pr_second) (snd pr_second) (snd pr_second)).
  - exact pr_other_process.
  - right. reflexivity.
  - exact ru_offered.
  - reflexivity.
  - assert (NH : forall line, contains (py "help") (@str_lower pr_other line) = false -> ~ @mentions_help pr_other line)
      by (intros line H; unfold mentions_help; rewrite <- BaseFacts.contains_app, H; discriminate).
    apply ex_query; [discriminate|apply NH; vm_compute; reflexivity|].
    apply ex_help; [discriminate|apply BaseFacts.contains_app; vm_compute; reflexivity|].
    apply ex_query; [discriminate|apply NH; vm_compute; reflexivity|]. apply ex_quit.
  - apply Nat.ltb_lt. reflexivity.
  - exact pr_second_run.
  - reflexivity.
  - apply ro_none.
Qed.

(** the first one alone, then the others in turn: two of them take the same number *)
Definition pr_turns : list nat := repeat 0 20 ++ times 20 [2; 3; 1].
Lemma pr_json p q : match @parse_make p q with
    | Ok (Some l) => forallb (fun p => forallb (fun x => match p_props x with Some (_ :: _) => false | _ => true end)
        [left_node p; left_middle_rel p; middle_node p; middle_right_rel p; right_node p]) (patterns_of l)
    | _ => true end = true -> @json_query p q.
Proof.
  intros H l E. rewrite E in H. apply Forall_forall. intros pt Hp x d Hx G. rewrite forallb_forall in H. specialize (H pt Hp).
  rewrite forallb_forall in H. specialize (H x Hx). destruct (p_props x) as [[|c t]|]; cbn in G; congruence.
Qed.
Example C74_together_hypotheses : Forall (fun pq => process ascii_rt (fst pq) /\ @json_query (fst pq) (snd pq)) pr_qs /\
  file_is (wiggle_number_fp ex_g) (str_of_Z 0) ex_w /\
  together (programs ex_g pr_qs) ex_w (turns_log pr_turns (programs ex_g pr_qs) ex_w)
    (fst (turns pr_turns (programs ex_g pr_qs) ex_w)) (snd (turns pr_turns (programs ex_g pr_qs) ex_w)) /\
  pr_meta (snd (turns pr_turns (programs ex_g pr_qs) ex_w)) =
    [(py "0", Some (VFloat (py "1700000000.5"))); (py "1", Some (VFloat (py "1700000000.5")));
     (py "3", Some (VFloat (py "1999999999.5"))); (py "4", Some (VFloat (py "1999999999.5")))].
Proof.
  split; [|split; [reflexivity|split; [apply turns_together|]]].
  - repeat (apply Forall_cons; [split; [first [exact pr_first_process|exact pr_other_process]|apply pr_json; vm_compute; reflexivity]|]). apply Forall_nil.
  - vm_compute. reflexivity.
Qed.
(** each of the four after two operations: nobody has read the counter after a change *)
Definition pr_start : list nat := times 2 [0; 1; 2; 3].
Example C74_counter_hypotheses : reads_first (wiggle_number_fp ex_g) (turns_log pr_start (programs ex_g pr_qs) ex_w) /\
  map fst (turns_log pr_start (programs ex_g pr_qs) ex_w) = [0; 1; 2; 3; 0; 1; 3].
Proof.
  split; [|vm_compute; reflexivity].
  assert (X : forallb (fun ic => match snd ic with CCreate _ | CWrite _ _ _ | CTrunc _ _ => false | _ => true end) (turns_log pr_start (programs ex_g pr_qs) ex_w) = true) by (vm_compute; reflexivity).
  intros (t1 & i & c & t2 & j & t3 & E & H). rewrite E, forallb_forall in X.
  specialize (X (i, c)). cbn [snd] in X. destruct H as [-> |[(o & t & ->)|(n & ->)]]; discriminate X; apply in_or_app; right; left; reflexivity.
Qed.
