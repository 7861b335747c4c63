(** * Prop_Runs: runs of the whole program (C65)

    [Executed], [offered] and [runs] are in SpecRuns, [session], [corrupting] and [sound] in SpecSound, [stored] in SpecStore,
    [graph_at], [kept] and [menu] in SpecGdbms. *)
From Verif Require Import PyBase Json FS Store SpecStore RtLaws Make Find Query Gdbms SpecHistory SpecShell SpecSound SpecRuns SpecGdbms GdbmsFacts RunsFacts AsciiRt AsciiFacts Prop_Make Prop_Query Prop_Gdbms.

(** ** C65 *)
(** every input has exactly one list of executed lines *)
Theorem C65_executed_lines : forall (rt : PyRt) lines, exists qs, Executed lines qs /\ forall qs', Executed lines qs' -> qs' = qs.
Proof. intros rt lines. destruct (executed_exists lines) as (qs & X). exists qs. split; [exact X|exact (executed_unique lines qs X)]. Qed.
Print Assumptions C65_executed_lines.

(** a run, whatever is typed and whatever is on the disk *)
Theorem C65_a_run : forall (rt : PyRt) fuel folder w, List.length (w_in w) < fuel ->
  let r := run (start_wiggle_shell fuel folder) w in
  match run (select_gdbms fuel folder) w with
  | (Err e, w1) => fst r = Err e /\ w_fs (snd r) = w_fs w1 /\ kept w (snd r)
  | (Ok g, w1) => exists qs, Executed (w_in w1) qs /\ w_fs (snd r) = w_fs (snd (session g qs w1)) /\
      (fst r = Ok tt /\ In (py "q") (w_in w1) \/ fst r = Err EOFError /\ ~ In (py "q") (w_in w1)) /\
      (forall p e, entry_at p w = Some e -> ~ In p (the_files g) -> entry_at p (snd r) = Some e)
  end.
Proof. exact @a_run. Qed.
Print Assumptions C65_a_run.

(** the run that creates a graph *)
Theorem C65_first_run : forall (rt : PyRt), rt_data rt -> forall fuel folder n c lines qs w r w',
  plain n -> no_nul folder -> disk w -> dir_there folder w ->
  (entry_at (folder ++ [n]) w = None \/ entry_at (folder ++ [n]) w = Some EDir) ->
  (forall p, In p (files_of (graph_at folder n)) -> entry_at p w = None) ->
  c <> py "y" -> c <> py "yes" -> w_in w = c :: n :: lines -> Executed lines qs -> List.length (w_in w) < fuel ->
  run (start_wiggle_shell fuel folder) w = (r, w') ->
  let w1 := snd (run (select_gdbms fuel folder) w) in
  stored (graph_at folder n) SpecGdbms.empty_graph w1 /\
    w_fs w' = w_fs (snd (session (graph_at folder n) qs w1)) /\
    (forall p e, entry_at p w = Some e -> entry_at p w' = Some e) /\
    ((forall x, In x (fst (session (graph_at folder n) qs w1)) -> ~ corrupting x) ->
     exists G', stored (graph_at folder n) G' w' /\ sound G').
Proof. exact @first_run. Qed.
Print Assumptions C65_first_run.

(** any number of later runs on it *)
Theorem C65_runs_accumulate : forall (rt : PyRt), rt_data rt -> forall folder n rs w w',
  plain n -> runs folder n rs w w' ->
  forall G, stored (graph_at folder n) G w -> sound G -> (forall r, In r rs -> ~ corrupting r) ->
  exists G' more, stored (graph_at folder n) G' w' /\ sound G' /\ g_db G' = g_db G ++ more /\ (g_next G <= g_next G')%Z.
Proof. exact @accumulate. Qed.
Print Assumptions C65_runs_accumulate.

(** ** Examples *)
Definition ru_zoo : gdbms := graph_at ex_dir (py "zoo").
Definition ru_line : pystr := py "MAKE (:A)-[]->(:B);" ++ nl ++ py "FIND (:A);".
Definition ru_lines : list pystr := [ru_line; py "Help me"; py "nonsense"; py "q"; ru_line].
Lemma ru_executed : @Executed ascii_rt ru_lines [ru_line; py "nonsense"].
Proof.
  assert (NH : forall line, contains (py "help") (@str_lower ascii_rt line) = false -> ~ @mentions_help ascii_rt line)
    by (intros line H; unfold mentions_help; rewrite <- BaseFacts.contains_app, H; discriminate).
  apply ex_query; [discriminate|apply NH; vm_compute; reflexivity|].
  apply ex_help; [discriminate|apply BaseFacts.contains_app; vm_compute; reflexivity|].
  apply ex_query; [discriminate|apply NH; vm_compute; reflexivity|]. apply ex_quit.
Qed.
Definition ru_w0 : world := ex_disk [] ([py "n"; py "zoo"] ++ ru_lines).
Definition ru_first : res unit * world := run (@start_wiggle_shell ascii_rt 20 ex_dir) ru_w0.
Definition stored_numbers (w : world) : list pystr :=
  match fst (run (@load_database ascii_rt (database_fp ru_zoo)) w) with Ok (VDict d) => keys d | _ => [] end.
Example C65_first_run_example : fst ru_first = Ok tt /\ w_in (snd ru_first) = [ru_line] /\ stored_numbers (snd ru_first) = [py "0"; py "1"].
Proof. vm_compute. repeat split. Qed.
(** the hypotheses of C65_first_run are met by the first run (those on the disk as in C47_hypotheses) *)
Example C65_first_run_hypotheses : plain (py "zoo") /\ no_nul ex_dir /\ disk ru_w0 /\ dir_there ex_dir ru_w0 /\
  entry_at (ex_dir ++ [py "zoo"]) ru_w0 = None /\ (forall p, In p (files_of ru_zoo) -> entry_at p ru_w0 = None) /\
  w_in ru_w0 = py "n" :: py "zoo" :: ru_lines /\ List.length (w_in ru_w0) < 20.
Proof.
  destruct C47_hypotheses as (A & B & C & D & E & F). split; [exact A|]. split; [exact B|]. split; [apply disk_check_ok; reflexivity|].
  split; [exact D|]. split; [exact E|]. split; [exact F|]. split; [reflexivity|]. apply Nat.ltb_lt. reflexivity.
Qed.
(** a second run on what the first left *)
Definition ru_w1 : world := {| w_fs := w_fs (snd ru_first); w_in := [py "yes"; py "A"] ++ ru_lines; w_out := [] |}.
Notation ru_second := (run (@start_wiggle_shell ascii_rt 20 ex_dir) ru_w1).
Lemma ru_offered : offered ex_dir ru_w1 (py "A") (py "zoo").
Proof.
  assert (D : disk ru_w1) by (apply disk_check_ok; vm_compute; reflexivity).
  assert (H : is_a_dir ex_dir ru_w1) by (right; vm_compute; reflexivity).
  destruct (list_run ex_dir ru_w1 D H) as (l & R & M).
  assert (E : fst (run (list_existing_dbms SKIPS ex_dir) ru_w1) = Ok [py "zoo"]) by (vm_compute; reflexivity).
  rewrite R in E. cbn [fst] in E. assert (E' : l = [py "zoo"]) by congruence.
  split; [exact D|]. split; [exact H|]. exists l, 0. split; [exact M|]. split; [lia|]. split; [reflexivity|]. rewrite E'. reflexivity.
Qed.
Example C65_two_runs : @runs ascii_rt ex_dir (py "zoo") [Ok true; Err AttributeError] ru_w1 (snd ru_second) /\
  (forall r, In r [Ok true; Err AttributeError] -> ~ corrupting r) /\ stored_numbers (snd ru_second) = [py "0"; py "1"; py "3"; py "4"].
Proof.
  split; [|split; [intros r [<-|[<-|[]]] [X|X]; discriminate X|vm_compute; reflexivity]].
  assert (S : fst (@session ascii_rt (graph_at ex_dir (py "zoo")) [ru_line; py "nonsense"] ru_w1) = [Ok true; Err AttributeError]) by (vm_compute; reflexivity).
  change [Ok true; Err AttributeError] with ([Ok true; Err AttributeError] ++ @nil (res bool)). rewrite <- S.
  apply (one_run (rt := ascii_rt) ex_dir (py "zoo") ru_w1 (py "yes") (py "A") ru_lines [ru_line; py "nonsense"] 20 (fst ru_second) (snd ru_second) (snd ru_second)).
  - right. reflexivity.
  - exact ru_offered.
  - reflexivity.
  - exact ru_executed.
  - apply Nat.ltb_lt. reflexivity.
  - apply surjective_pairing.
  - reflexivity.
  - apply no_run.
Qed.
(** so the second run starts from a sound graph (C65_first_run) and C65_runs_accumulate applies to it *)
Example C65_runs_hypotheses : exists G, @stored ascii_rt ru_zoo G ru_w1 /\ sound G.
Proof.
  destruct C65_first_run_hypotheses as (A & B & C & D & E & F & I & L).
  destruct (@C65_first_run ascii_rt ascii_data 20 ex_dir (py "zoo") (py "n") ru_lines _ ru_w0 (fst ru_first) (snd ru_first) A B C D (or_introl E) F
    ltac:(discriminate) ltac:(discriminate) I ru_executed L (surjective_pairing _)) as (S & _ & _ & H).
  destruct H as (G & SG & So).
  - assert (X : fst (@session ascii_rt (graph_at ex_dir (py "zoo")) [ru_line; py "nonsense"] (snd (run (select_gdbms 20 ex_dir) ru_w0))) = [Ok true; Err AttributeError]) by (vm_compute; reflexivity).
    rewrite X. intros x [<-|[<-|[]]] [Y|Y]; discriminate Y.
  - exists G. split; [|exact So]. eapply stored_same; [|exact SG]. reflexivity.
Qed.
