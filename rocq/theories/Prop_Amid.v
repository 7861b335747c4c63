(** * Prop_Amid: a program while other things happen on the machine (C78)

    [amid], [amid_cut], [leaves], [leaves_all], [leaves_folder], [orderly] and [own] are in SpecAmid: before each operation
    of the program, and at the end, the rest of the machine changes the world in a way that the relation allows, and as
    often as it likes.  [interleave] is in FS. *)
From Verif Require Import PyBase Json FS Store SpecStore RtLaws Make Find Query Gdbms SpecShell SpecGdbms GdbmsFacts FSFacts SpecConc ConcFacts
  SpecAmid AmidFacts AmidMore AmidDelete AsciiRt AsciiFacts Prop_Make Prop_Gdbms.

(** what happens elsewhere does not matter to a query *)
Theorem C78_query_undisturbed : forall (rt : PyRt) q g w r w', Forall (fun p => p <> []) (files_of g) ->
  amid (leaves g) (query q g) w r w' ->
  r = fst (run (query q g) w) /\ forall p, In p (files_of g) -> entry_at p w' = entry_at p (snd (run (query q g) w)).
Proof. exact @query_undisturbed. Qed.
Print Assumptions C78_query_undisturbed.
Theorem C78_query_cut_undisturbed : forall (rt : PyRt) q g w w', Forall (fun p => p <> []) (files_of g) ->
  amid_cut (leaves g) (query q g) w w' ->
  exists v, crash (query q g) w v /\ forall p, In p (files_of g) -> entry_at p w' = entry_at p v.
Proof. exact @query_cut_undisturbed. Qed.
Print Assumptions C78_query_cut_undisturbed.
(** nor to a session *)
Theorem C78_session_undisturbed : forall (rt : PyRt) f g w r w', Forall (fun p => p <> []) (files_of g) ->
  amid (leaves_all g) (shell_loop f g) w r w' ->
  r = fst (run (shell_loop f g) w) /\ w_out w' = w_out (snd (run (shell_loop f g) w)) /\
  forall p, In p (files_of g) -> entry_at p w' = entry_at p (snd (run (shell_loop f g) w)).
Proof. exact @session_undisturbed. Qed.
Print Assumptions C78_session_undisturbed.
(** nor to the creation of a graph *)
Theorem C78_creation_undisturbed : forall n dir w r w', plain n ->
  amid (leaves_folder (dir ++ [n])) (get_new_gdbms_file_paths n dir) w r w' ->
  r = fst (run (get_new_gdbms_file_paths n dir) w) /\
  forall p, on_the_way (dir ++ [n]) p \/ inside (dir ++ [n]) p -> entry_at p w' = entry_at p (snd (run (get_new_gdbms_file_paths n dir) w)).
Proof. exact creation_undisturbed. Qed.
Print Assumptions C78_creation_undisturbed.
Theorem C78_creation_cut_undisturbed : forall n dir w w', plain n ->
  amid_cut (leaves_folder (dir ++ [n])) (get_new_gdbms_file_paths n dir) w w' ->
  exists v, crash (get_new_gdbms_file_paths n dir) w v /\
    forall p, on_the_way (dir ++ [n]) p \/ inside (dir ++ [n]) p -> entry_at p w' = entry_at p v.
Proof. exact creation_cut_undisturbed. Qed.
Print Assumptions C78_creation_cut_undisturbed.
(** nor to a deletion, although it lists the folder of all graphs *)
Theorem C78_deletion_undisturbed : forall n dir w r w', plain n -> Forall no_wildcard (dir ++ [n]) ->
  entry_at (dir ++ [n]) w = Some EDir ->
  (forall m e, entry_at (dir ++ [n; m]) w = Some e -> visible m /\ exists t, e = EFile t) ->
  amid (orderly (dir ++ [n])) (delete_gdbms n dir) w r w' ->
  r = Ok 0%Z /\ forall p, own (dir ++ [n]) p -> entry_at p w' = None.
Proof. exact deletion_undisturbed. Qed.
Print Assumptions C78_deletion_undisturbed.
(** two people create graphs of different names at the same time, in any order of the operations *)
Theorem C78_two_creations : forall n m dir w r1 r2 w', plain n -> plain m -> n <> m -> dir_there dir w ->
  interleave (get_new_gdbms_file_paths n dir) (get_new_gdbms_file_paths m dir) w r1 r2 w' ->
  r1 = fst (run (get_new_gdbms_file_paths n dir) w) /\ r2 = fst (run (get_new_gdbms_file_paths m dir) w) /\
  (forall p, own (dir ++ [n]) p -> entry_at p w' = entry_at p (snd (run (get_new_gdbms_file_paths n dir) w))) /\
  (forall p, own (dir ++ [m]) p -> entry_at p w' = entry_at p (snd (run (get_new_gdbms_file_paths m dir) w))).
Proof. exact two_creations. Qed.
Print Assumptions C78_two_creations.
(** one creates a graph while another works on a different one *)
Theorem C78_creation_beside_query : forall (rt : PyRt) n dir q g w r1 r2 w', plain n -> dir_there dir w ->
  Forall (fun p => p <> []) (files_of g) ->
  (forall p, In p (files_of g) -> ~ own (dir ++ [n]) p /\ ~ on_the_way (dir ++ [n]) p) ->
  interleave (get_new_gdbms_file_paths n dir) (query q g) w r1 r2 w' ->
  r1 = fst (run (get_new_gdbms_file_paths n dir) w) /\ r2 = fst (run (query q g) w) /\
  (forall p, own (dir ++ [n]) p -> entry_at p w' = entry_at p (snd (run (get_new_gdbms_file_paths n dir) w))) /\
  (forall p, In p (files_of g) -> entry_at p w' = entry_at p (snd (run (query q g) w))).
Proof. exact @creation_and_query. Qed.
Print Assumptions C78_creation_beside_query.

(** ** Examples *)
(** Two people give a new graph the same name.  The first has seen that there is none; the second creates it, stores two
    nodes and is told so; the first goes on: it empties the database and is then told that the name is taken.  The nodes
    are lost, the index and the counter still speak of them. *)
Definition am_name : pystr := py "zoo".
Definition am_nl : pystr := [10%N].
Definition am_q : pystr := py "MAKE (:A)-[:R]->(:B);" ++ am_nl ++ py "FIND (:A);".
Definition am_second : io bool := let! g := get_new_gdbms_file_paths am_name ex_dir in @query ascii_rt am_q g.
Definition am_at (p : gdbms -> path) (w : world) := entry_at (p (graph_at ex_dir am_name)) w.
Theorem C78_same_name_loses_answered_nodes_refuted : exists w',
  interleave (get_new_gdbms_file_paths am_name ex_dir) am_second ex_empty (Err ValueError) (Ok true) w' /\
  am_at database_fp w' = Some (EFile (py "{}")) /\ am_at wiggle_number_fp w' = Some (EFile (py "3")) /\
  am_at indexes_fp w' = am_at indexes_fp (snd (run am_second ex_empty)).
Proof.
  pose proof (take_turns_schedule (true :: true :: repeat false 100) (get_new_gdbms_file_paths am_name ex_dir) am_second ex_empty) as H.
  remember (take_turns (true :: true :: repeat false 100) (get_new_gdbms_file_paths am_name ex_dir) am_second ex_empty) as t eqn:E.
  vm_compute in E. subst t. cbv beta iota in H.
  eexists. split; [apply schedule_interleave; eexists; exact H|]. vm_compute. repeat split.
Qed.
Print Assumptions C78_same_name_loses_answered_nodes_refuted.

(** somebody else appends to a file in the folder of another graph before each operation *)
Definition am_log : path := ex_dir ++ [py "b"; py "log"].
Definition am_noise (w : world) : world :=
  with_fs w (fs_set am_log (EFile (match fs_get am_log (w_fs w) with Some (EFile t) => t | _ => [] end ++ py "x")) (w_fs w)).
Lemma am_elsewhere p w : p <> am_log -> entry_at p (am_noise w) = entry_at p w.
Proof. intros N. unfold entry_at, am_noise. cbn [with_fs w_fs]. apply fs_get_set_other. exact N. Qed.
Definition am_ga : gdbms := graph_at ex_dir (py "a").
Lemma am_leaves w : leaves_all am_ga w (am_noise w).
Proof.
  split; [|split; reflexivity]. intros p d I (_ & q & E). apply am_elsewhere. intros ->.
  cbn [files_of am_ga graph_at database_fp indexes_fp wiggle_number_fp In] in I. destruct I as [<-|[<-|[<-|[]]]]; discriminate E.
Qed.
Lemma am_orderly w : disk_check (am_noise w) = true -> orderly (ex_dir ++ [py "a"]) w (am_noise w).
Proof.
  intros C. split; [|exact (disk_check_ok _ C)]. intros p [(_ & q & E)|(q & _ & E)]; apply am_elsewhere; intros ->; discriminate E.
Qed.
(** the query, the session and the deletion meet the hypotheses and do something, and the other file has grown meanwhile *)
Definition am_size (w : world) : nat := match entry_at am_log w with Some (EFile t) => List.length t | _ => 0 end.
Example C78_query_example : exists r w', amid (leaves am_ga) (@query ascii_rt am_q am_ga) ex_ab r w' /\ Forall (fun p => p <> []) (files_of am_ga) /\
  r = Ok true /\ entry_at (wiggle_number_fp am_ga) w' = Some (EFile (py "3")) /\ (2 <= am_size w')%nat.
Proof.
  pose proof (busy_amid (leaves am_ga) (fun _ => true) am_noise (@query ascii_rt am_q am_ga) (fun w _ => proj1 (am_leaves w)) ex_ab) as H.
  eexists _, _. split; [apply H; vm_compute; reflexivity|]. split; [repeat constructor; discriminate|].
  split; [vm_compute; reflexivity|]. split; [vm_compute; reflexivity|]. apply Nat.leb_le. vm_compute. reflexivity.
Qed.
Definition am_typed : world := {| w_fs := w_fs ex_ab; w_in := [am_q; py "exit"]; w_out := [] |}.
Example C78_session_example : exists r w', amid (leaves_all am_ga) (@shell_loop ascii_rt 9 am_ga) am_typed r w' /\
  entry_at (wiggle_number_fp am_ga) w' = Some (EFile (py "3")) /\ w_in w' = [] /\ (2 <= am_size w')%nat.
Proof.
  pose proof (busy_amid (leaves_all am_ga) (fun _ => true) am_noise (@shell_loop ascii_rt 9 am_ga) (fun w _ => am_leaves w) am_typed) as H.
  eexists _, _. split; [apply H; vm_compute; reflexivity|].
  split; [vm_compute; reflexivity|]. split; [vm_compute; reflexivity|]. apply Nat.leb_le. vm_compute. reflexivity.
Qed.
Example C78_deletion_example : exists r w', amid (orderly (ex_dir ++ [py "a"])) (delete_gdbms (py "a") ex_dir) ex_ab r w' /\
  r = Ok 0%Z /\ (2 <= am_size w')%nat /\ entry_at (ex_dir ++ [py "b"]) w' = Some EDir.
Proof.
  pose proof (busy_amid (orderly (ex_dir ++ [py "a"])) disk_check am_noise (delete_gdbms (py "a") ex_dir) am_orderly ex_ab) as H.
  eexists _, _. split; [apply H; vm_compute; reflexivity|].
  split; [vm_compute; reflexivity|]. split; [apply Nat.leb_le; vm_compute; reflexivity|]. vm_compute. reflexivity.
Qed.
Example C78_creation_example : exists r w', amid (leaves_folder (ex_dir ++ [py "c"])) (get_new_gdbms_file_paths (py "c") ex_dir) ex_ab r w' /\
  r = Ok (graph_at ex_dir (py "c")) /\ (2 <= am_size w')%nat.
Proof.
  assert (L : forall w, leaves_folder (ex_dir ++ [py "c"]) w (am_noise w)).
  { intros w p [(_ & q & E)|(q & _ & E)]; apply am_elsewhere; intros ->; discriminate E. }
  pose proof (busy_amid (leaves_folder (ex_dir ++ [py "c"])) (fun _ => true) am_noise (get_new_gdbms_file_paths (py "c") ex_dir) (fun w _ => L w) ex_ab) as H.
  eexists _, _. split; [apply H; vm_compute; reflexivity|]. split; [vm_compute; reflexivity|]. apply Nat.leb_le. vm_compute. reflexivity.
Qed.
(** a creation beside a query on another graph, operation by operation in turn *)
Fixpoint am_turns (n : nat) : list bool := match n with O => [] | S n => true :: false :: am_turns n end.
Example C78_beside_example : exists w',
  interleave (get_new_gdbms_file_paths (py "c") ex_dir) (@query ascii_rt am_q am_ga) ex_ab (Ok (graph_at ex_dir (py "c"))) (Ok true) w' /\
  (forall p, In p (files_of am_ga) -> ~ own (ex_dir ++ [py "c"]) p /\ ~ on_the_way (ex_dir ++ [py "c"]) p).
Proof.
  pose proof (take_turns_schedule (am_turns 30) (get_new_gdbms_file_paths (py "c") ex_dir) (@query ascii_rt am_q am_ga) ex_ab) as H.
  remember (take_turns (am_turns 30) (get_new_gdbms_file_paths (py "c") ex_dir) (@query ascii_rt am_q am_ga) ex_ab) as t eqn:E.
  vm_compute in E. subst t. cbv beta iota in H.
  eexists. split; [apply schedule_interleave; eexists; exact H|].
  intros p I. cbn [files_of am_ga graph_at database_fp indexes_fp wiggle_number_fp In] in I.
  destruct I as [<-|[<-|[<-|[]]]]; (split; [intros [X|(q & _ & X)]; discriminate X|intros (_ & q & X); discriminate X]).
Qed.
