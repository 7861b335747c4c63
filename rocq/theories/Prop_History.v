(** * Prop_History: sequences of MAKE and FIND calls (C24, C25, C35)

    [perform_all g cs w] runs the calls [cs] one after the other, an exception ending only its own
    call; it returns the list of outcomes and the last world (SpecHistory). *)
From Verif Require Import PyBase Json SpecJson RtLaws Props Statements FS Store SpecStore Make SpecMake MakeRun MakeFinal Find Query
  SpecHistory HistoryFacts AsciiRt AsciiFacts Prop_Make.

(** ** C24: after a MAKE of C23 (with at least one pattern) nothing moves any more *)
Theorem C24_wedged : forall (rt : PyRt) g G w l items w' cs,
  rt_data rt -> stored g G w -> Forall names_ok (patterns_of l) -> patterns_of l <> [] ->
  acceptable (patterns_of l) (g_next G) items -> dict_ser items = true -> (forall k z, ~ owns (patterns_of l) (g_next G) k z) ->
  run (make l g) w = (Err JSONDecodeError, w') ->
  Forall2 refused cs (fst (perform_all g cs w')) /\ w_fs (snd (perform_all g cs w')) = w_fs w'.
Proof. exact @wedge. Qed.
Print Assumptions C24_wedged.

(** a later MAKE that is acceptable in itself is told that its node exists *)
Theorem C24_next_make_node_exists : forall (rt : PyRt) g G w l items w' l2 items2,
  rt_data rt -> stored g G w -> Forall names_ok (patterns_of l) -> patterns_of l <> [] ->
  acceptable (patterns_of l) (g_next G) items -> dict_ser items = true -> (forall k z, ~ owns (patterns_of l) (g_next G) k z) ->
  run (make l g) w = (Err JSONDecodeError, w') ->
  patterns_of l2 <> [] -> acceptable (patterns_of l2) (g_next G) items2 ->
  run (make l2 g) w' = (Err NodeExistsError, w').
Proof. exact @wedge_exists. Qed.
Print Assumptions C24_next_make_node_exists.

Example C24_hypotheses : exists items w', Forall names_ok (patterns_of ex_alone) /\ patterns_of ex_alone <> [] /\
  @acceptable ascii_rt (patterns_of ex_alone) (g_next ex_G) items /\ dict_ser items = true /\
  (forall k z, ~ owns (patterns_of ex_alone) (g_next ex_G) k z) /\
  @run bool (@make ascii_rt ex_alone ex_g) ex_w = (Err JSONDecodeError, w').
Proof.
  destruct C23_hypotheses as (items & A & B & C). destruct C23_example as (w' & H & _). exists items, w'.
  split; [exact ex_alone_names|]. split; [vm_compute; discriminate|]. auto.
Qed.
Example C24_example : let w' := snd (@run bool (@make ascii_rt ex_alone ex_g) ex_w) in
  fst (@perform_all ascii_rt ex_g [CallMake ex_two; CallMake ex_alone; CallMake []] w') =
  [Raised NodeExistsError; Raised NodeExistsError; Raised JSONDecodeError].
Proof. vm_compute. reflexivity. Qed.

(** ** C25 *)
Theorem C25_nodes_never_lost : forall (rt : PyRt) g G w cs,
  rt_data rt -> stored g G w -> Forall call_ok cs ->
  exists more z extra, let w' := snd (perform_all g cs w) in
    db_file (database_fp g) (g_db G ++ more) w' /\
    run (load_database (database_fp g)) w' = (Ok (VDict (g_db G ++ more)), w') /\
    run (get_current_wiggle_number (wiggle_number_fp g)) w' = (Ok z, w') /\ (g_next G <= z)%Z /\
    (forall k, In k (keys (g_db G ++ more)) -> exists n, k = str_of_Z n /\ (n < z + extra)%Z) /\
    (extra = 0%Z \/ exists c, In c cs /\ extra = size_all (patterns_in c)).
Proof. exact @never_lost. Qed.
Print Assumptions C25_nodes_never_lost.

(** [db_file] includes that the keys are unique *)
Ltac ex_writable := apply Forall_cons; [|apply Forall_nil]; intros x d H; cbn in H;
  repeat (destruct H as [<-|H]; [vm_compute; intros E; inversion E; subst; reflexivity|]); destruct H.
Example C25_hypotheses : Forall (@call_ok ascii_rt) [CallMake ex_two; CallMake ex_alone; CallMake ex_two].
Proof.
  assert (T : @call_ok ascii_rt (CallMake ex_two)) by (split; [exact ex_two_names|vm_compute patterns_in; ex_writable]).
  constructor; [exact T|]. constructor; [|constructor; [exact T|constructor]].
  split; [exact ex_alone_names|vm_compute patterns_in; ex_writable].
Qed.
Example C25_example :
  let w' := snd (@perform_all ascii_rt ex_g [CallMake ex_two; CallMake ex_alone; CallMake ex_two] ex_w) in
  match fst (run (@load_database ascii_rt (database_fp ex_g)) w') with
  | Ok (VDict d) => keys d = [py "0"; py "1"; py "3"] | _ => False end /\
  fst (run (@get_current_wiggle_number ascii_rt (wiggle_number_fp ex_g)) w') = Ok 3%Z.
Proof. vm_compute. split; reflexivity. Qed.

(** ** C35: FIND changes no file, whatever the files hold and whatever happens *)
Theorem C35_find_changes_no_file : forall (rt : PyRt) f g w, w_fs (snd (run (find f g) w)) = w_fs w.
Proof. exact @find_files. Qed.
Print Assumptions C35_find_changes_no_file.

Theorem C35_report_does_nothing : forall (rt : PyRt) r found g w, run (report r found g) w = (Ok true, w).
Proof. reflexivity. Qed.
Print Assumptions C35_report_does_nothing.

(** a whole query without a MAKE statement, FIND and REPORT alone or malformed *)
Theorem C35_query_without_make_changes_no_file : forall (rt : PyRt) (q : pystr) g w,
  parse_make q = Ok None -> w_fs (snd (run (query q g) w)) = w_fs w.
Proof. exact @no_make_files. Qed.
Print Assumptions C35_query_without_make_changes_no_file.

Example C35_hypotheses : let q := py "FIND(p:Person)-[:KNOWS]->(c:City)-[:IN]->(l:Land); REPORT(p, c, l);" in
  @parse_make ascii_rt q = Ok None /\ (exists f, @parse_find ascii_rt q = Ok (Some f)) /\
  fst (run (@query ascii_rt q ex_g) (snd (@run bool (@make ascii_rt ex_three ex_g) ex_w))) = Ok true.
Proof. split; [vm_compute; reflexivity|]. split; [eexists; vm_compute; reflexivity|]. vm_compute. reflexivity. Qed.
