(** * Prop_OsNames: what the operating system makes of names (C77)

    [run] takes every path as it stands; [os_run] lets the operating system walk along it: ".." leads up,
    every folder on the way must exist, and a name of more than 255 bytes is refused. *)
From Verif Require Import PyBase Json FS Store SpecStore Query SpecGdbms OsNames SpecOsNames Gdbms GdbmsFacts OsEffects OsMore AsciiRt Prop_Gdbms.

(** ** ordinary names: everything proved about [run] holds *)
Theorem C77_queries_as_modelled : forall (rt : PyRt) q g w,
  (forall p, In p (files_of g) -> ordinary p /\ way_there p w) ->
  os_run (query q g) w = run (query q g) w /\ (forall w', os_crash (query q g) w w' <-> crash (query q g) w w').
Proof. intros rt q g w H. exact (conj (query_same q g w H) (fun w' => query_crash_same q g w w' H)). Qed.
Print Assumptions C77_queries_as_modelled.
Theorem C77_sessions_as_modelled : forall (rt : PyRt) f g w,
  (forall p, In p (files_of g) -> ordinary p /\ way_there p w) -> os_run (shell_loop f g) w = run (shell_loop f g) w.
Proof. exact @shell_same. Qed.
Print Assumptions C77_sessions_as_modelled.
Theorem C77_creation_as_modelled : forall n dir w, good_name n -> ordinary dir ->
  os_run (get_new_gdbms_file_paths n dir) w = run (get_new_gdbms_file_paths n dir) w.
Proof. exact new_same. Qed.
Print Assumptions C77_creation_as_modelled.
Theorem C77_deletion_as_modelled : forall n dir w,
  plain n -> disk w -> names_allowed w -> Forall no_wildcard (dir ++ [n]) -> entry_at (dir ++ [n]) w = Some EDir ->
  os_run (delete_gdbms n dir) w = run (delete_gdbms n dir) w.
Proof. exact delete_same. Qed.
Print Assumptions C77_deletion_as_modelled.
(** a whole run: the first lines, which contain those that the first dialogue reads, are good names *)
Theorem C77_programs_as_modelled : forall (rt : PyRt) fuel folder a b w,
  ordinary folder -> disk w -> dir_there folder w -> names_allowed w -> good_graphs folder w ->
  w_in w = a ++ b -> Forall good_name a -> List.length b <= List.length (w_in (snd (run (select_gdbms fuel folder) w))) ->
  os_run (start_wiggle_shell fuel folder) w = run (start_wiggle_shell fuel folder) w.
Proof. exact @program_same. Qed.
Print Assumptions C77_programs_as_modelled.

(** ** other names *)
(** whatever is typed in the first dialogue, nothing is overwritten and nothing goes *)
Theorem C77_first_dialogue_keeps_everything : forall fuel folder w, kept w (snd (os_run (select_gdbms fuel folder) w)).
Proof. exact select_keeps. Qed.
Print Assumptions C77_first_dialogue_keeps_everything.
Theorem C77_creation_keeps_everything : forall n dir w, kept w (snd (os_run (get_new_gdbms_file_paths n dir) w)).
Proof. exact new_keeps. Qed.
Print Assumptions C77_creation_keeps_everything.
(** finding: the graph called ".." is put beside the folder of the graphs *)
Theorem C77_dotdot_lies_outside : forall dir w, ordinary dir -> no_nul dir -> dir_there dir w ->
  (forall x, In x [py "database_...json"; py "indexes_...json"; py "wiggle_number_...txt"] -> entry_at (parent dir ++ [x]) w = None) ->
  exists w', os_run (get_new_gdbms_file_paths (py "..") dir) w =
      (Ok {| database_fp := dir ++ [py ".."; py "database_...json"]; indexes_fp := dir ++ [py ".."; py "indexes_...json"];
             wiggle_number_fp := dir ++ [py ".."; py "wiggle_number_...txt"] |}, w') /\
    grown [(parent dir ++ [py "database_...json"], EFile (dump_text Compact (VDict [])));
           (parent dir ++ [py "indexes_...json"], EFile (dump_text Compact new_index));
           (parent dir ++ [py "wiggle_number_...txt"], EFile (py "0"))] w w'.
Proof. exact dotdot_created. Qed.
Print Assumptions C77_dotdot_lies_outside.
(** a name that is too long: how much is left behind depends on how long it is *)
Theorem C77_over_255_bytes : forall dir n w, plain n -> ordinary dir -> no_nul dir -> dir_there dir w ->
  (255 < octets n)%N -> os_run (get_new_gdbms_file_paths n dir) w = (Err OSError, w).
Proof. exact very_long. Qed.
Print Assumptions C77_over_255_bytes.
Theorem C77_over_241_bytes : forall dir n w, plain n -> ordinary dir -> no_nul dir -> dir_there dir w -> entry_at (dir ++ [n]) w = None ->
  (241 < octets n <= 255)%N ->
  exists w', os_run (get_new_gdbms_file_paths n dir) w = (Err OSError, w') /\ grown [(dir ++ [n], EDir)] w w'.
Proof. exact quite_long. Qed.
Print Assumptions C77_over_241_bytes.
Theorem C77_over_237_bytes : forall dir n w, plain n -> ordinary dir -> no_nul dir -> dir_there dir w -> entry_at (dir ++ [n]) w = None ->
  (237 < octets n <= 241)%N -> entry_at (database_fp (graph_at dir n)) w = None -> entry_at (indexes_fp (graph_at dir n)) w = None ->
  exists w', os_run (get_new_gdbms_file_paths n dir) w = (Err OSError, w') /\
    grown [(dir ++ [n], EDir); (database_fp (graph_at dir n), EFile (dump_text Compact (VDict [])));
           (indexes_fp (graph_at dir n), EFile (dump_text Compact new_index))] w w'.
Proof. exact rather_long. Qed.
Print Assumptions C77_over_237_bytes.
Theorem C77_long_name_ends_the_program : forall (rt : PyRt) f dir c n r w,
  plain n -> (237 < octets n)%N -> ordinary dir -> no_nul dir -> dir_there dir w -> entry_at (dir ++ [n]) w = None -> disk w ->
  c <> py "y" -> c <> py "yes" -> w_in w = c :: n :: r -> exists w', os_run (start_wiggle_shell (S f) dir) w = (Err OSError, w').
Proof. exact @long_ends. Qed.
Print Assumptions C77_long_name_ends_the_program.
(** a name with a slash: two folders are left behind, and the program ends *)
Theorem C77_slash_ends_the_program : forall (rt : PyRt) f dir c a b r w,
  plain a -> plain b -> (octets a <= 246)%N -> (octets b <= 255)%N ->
  ordinary dir -> no_nul dir -> disk w -> dir_there dir w -> entry_at (dir ++ [a]) w = None ->
  c <> py "y" -> c <> py "yes" -> w_in w = c :: slashed a b :: r ->
  exists w', os_run (start_wiggle_shell (S f) dir) w = (Err FileNotFoundError, w') /\
    grown [(dir ++ [a], EDir); (dir ++ [a; b], EDir)] w w'.
Proof. exact @slash_ends. Qed.
Print Assumptions C77_slash_ends_the_program.

(** a graph with such a name is in the menu; but choosing it ends the program, and nothing on the disk changes *)
Theorem C77_long_graph_cannot_be_chosen : forall (rt : PyRt) folder w l i n c r f,
  ordinary folder -> disk w -> dir_there folder w -> names_allowed w -> menu folder w l -> i < 26 -> nth_error l i = Some n ->
  plain n -> (237 < octets n)%N ->
  ((octets n <= 241)%N -> forall p, In p [database_fp (graph_at folder n); indexes_fp (graph_at folder n)] -> exists t, entry_at p w = Some (EFile t)) ->
  c = py "y" \/ c = py "yes" -> w_in w = c :: letter i :: r ->
  exists w', os_run (start_wiggle_shell (S f) folder) w = (Err OSError, w') /\ same_disk w w'.
Proof. exact @long_chosen. Qed.
Print Assumptions C77_long_graph_cannot_be_chosen.

(** ** Examples *)
Definition os_name (k : nat) : pystr := repeat 233%N k ++ py "x".
Lemma ex_ordinary : ordinary ex_dir.
Proof. intros c [<-|[<-|[]]]; (split; [discriminate|vm_compute; discriminate]). Qed.
Lemma ex_there l i : dir_there ex_dir (ex_disk l i).
Proof. intros d (N & q & E). unfold ex_dir in E. destruct d as [|x [|y [|z d]]]; [congruence| | |]; inversion E; subst; reflexivity. Qed.
Lemma ex_nonul : no_nul ex_dir.
Proof. repeat constructor; cbn; intuition discriminate. Qed.
Lemma os_plain k : plain (os_name k).
Proof.
  assert (H : forall c, In c (os_name k) -> c = 233%N \/ c = 120%N).
  { intros c I. apply in_app_or in I as [I|[<-|[]]]; [left; exact (repeat_spec _ _ _ I)|right; reflexivity]. }
  split; [destruct k; discriminate|]. split; [intros I; destruct (H _ I); discriminate|]. split; [intros I; destruct (H _ I); discriminate|].
  split; intros E; (assert (I : In 46%N (os_name k)) by (rewrite E; left; reflexivity)); destruct (H _ I); discriminate.
Qed.
(** 118 letters é and an x are 237 bytes *)
Example C77_good_name : good_name (os_name 118) /\ octets (os_name 118) = 237%N /\ octets (os_name 119) = 239%N /\ octets (os_name 125) = 251%N.
Proof. split; [split; [apply os_plain|vm_compute; discriminate]|]. vm_compute. repeat split. Qed.
Definition os_w (i : list pystr) : world := ex_disk [] i.
Definition os_ab (i : list pystr) : world := {| w_fs := w_fs ex_ab; w_in := i; w_out := [] |}.
Lemma names_check w : NoDup (map fst (w_fs w)) ->
  forallb (fun p : path => forallb (fun c => negb (str_eqb c (py "..")) && N.leb (octets c) 255)%bool p) (map fst (w_fs w)) = true -> names_allowed w.
Proof.
  intros ND K p e E c C. rewrite forallb_forall in K. unfold entry_at in E. apply fs_get_In in E; [|exact ND]. apply (in_map fst) in E.
  specialize (K _ E). rewrite forallb_forall in K. specialize (K c C). apply andb_true_iff in K as [A B]. apply N.leb_le in B. split; [|exact B].
  intros ->. vm_compute in A. discriminate A.
Qed.
Lemma os_ab_names i : names_allowed (os_ab i).
Proof. apply names_check; [apply (disk_once ex_ab), disk_check_ok; vm_compute; reflexivity|vm_compute; reflexivity]. Qed.
Lemma os_good_ab n : In n [py "a"; py "b"] -> good_name n.
Proof. intros [<-|[<-|[]]]; (split; [repeat split; try discriminate; cbn; intuition discriminate|vm_compute; discriminate]). Qed.
Lemma os_ab_children : children ex_dir (w_fs ex_ab) = [py "a"; py "b"].
Proof. vm_compute. reflexivity. Qed.
Lemma os_ab_once : NoDup (map fst (w_fs ex_ab)).
Proof. apply (disk_once ex_ab). apply disk_check_ok. vm_compute. reflexivity. Qed.
Lemma os_ab_graphs i : good_graphs ex_dir (os_ab i).
Proof.
  intros n E _ _. apply os_good_ab. rewrite <- os_ab_children. apply (children_spec ex_dir (w_fs ex_ab) n os_ab_once). exists EDir. exact E.
Qed.
(** the hypotheses about a whole run: two graphs, one of them is chosen, and a query is typed *)
Example C77_program_hypotheses : let w := os_ab [py "y"; py "B"; py "MAKE (n:Cat);"; py "q"] in
  ordinary ex_dir /\ disk w /\ dir_there ex_dir w /\ names_allowed w /\ good_graphs ex_dir w /\
  w_in w = [py "y"; py "B"] ++ [py "MAKE (n:Cat);"; py "q"] /\ Forall good_name [py "y"; py "B"] /\
  List.length [py "MAKE (n:Cat);"; py "q"] <= List.length (w_in (snd (run (select_gdbms 9 ex_dir) w))) /\
  fst (run (@start_wiggle_shell ascii_rt 9 ex_dir) w) = Ok tt.
Proof.
  cbv zeta. split; [exact ex_ordinary|]. split; [apply disk_check_ok; vm_compute; reflexivity|].
  split. { intros d (N & q & E). unfold ex_dir in E. destruct d as [|x [|y [|z d]]]; [congruence| | |]; inversion E; subst; vm_compute; reflexivity. }
  split; [apply os_ab_names|]. split; [apply os_ab_graphs|]. split; [reflexivity|].
  split. { repeat constructor; try discriminate; cbn; intuition discriminate. }
  split; [vm_compute; repeat constructor|vm_compute; reflexivity].
Qed.
Example C77_query_hypotheses : forall p, In p (files_of (graph_at ex_dir (py "a"))) -> ordinary p /\ way_there p ex_ab.
Proof.
  intros p I. assert (E : exists t, entry_at p ex_ab = Some (EFile t)).
  { cbn [files_of In] in I. destruct I as [<-|[<-|[<-|[]]]]; vm_compute; eauto. }
  destruct E as (t & E). split; [exact (os_ab_names [] p _ E)|]. intros d W N.
  assert (D : disk ex_ab) by (apply disk_check_ok; vm_compute; reflexivity). exact (disk_tree _ D p d _ E W N).
Qed.
Example C77_long_hypotheses : plain (os_name 119) /\ (237 < octets (os_name 119) <= 241)%N /\ ordinary ex_dir /\ no_nul ex_dir /\
  dir_there ex_dir (os_w []) /\ entry_at (ex_dir ++ [os_name 119]) (os_w []) = None /\ disk (os_w []).
Proof.
  split; [apply os_plain|]. split; [vm_compute; split; [reflexivity|discriminate]|]. split; [exact ex_ordinary|]. split; [exact ex_nonul|].
  split; [apply ex_there|]. split; [vm_compute; reflexivity|apply disk_check_ok; vm_compute; reflexivity].
Qed.
(** the graph that the failed creation left behind is the only one in the menu *)
Definition os_left : world := snd (os_run (get_new_gdbms_file_paths (os_name 119) ex_dir) (os_w [py "y"; py "A"])).
Lemma os_left_disk : disk os_left.
Proof. apply disk_check_ok. vm_compute. reflexivity. Qed.
Lemma os_left_names : names_allowed os_left.
Proof. apply names_check; [apply os_left_disk|vm_compute; reflexivity]. Qed.
Lemma os_left_children : children ex_dir (w_fs os_left) = [os_name 119].
Proof. vm_compute. reflexivity. Qed.
Lemma os_left_folder : entry_at (ex_dir ++ [os_name 119]) os_left = Some EDir.
Proof. vm_compute. reflexivity. Qed.
Lemma os_left_menu : menu ex_dir os_left [os_name 119].
Proof.
  split; [constructor; [intros b []|constructor]|]. intros n. split.
  - intros [<-|[]]. split; [exact os_left_folder|]. split; discriminate.
  - intros (E & _). rewrite <- os_left_children. apply (children_spec ex_dir (w_fs os_left) n); [apply os_left_disk|]. exists EDir. exact E.
Qed.
Lemma os_left_there : dir_there ex_dir os_left.
Proof. intros d (N & q & E). unfold ex_dir in E. destruct d as [|x [|y [|z d]]]; [congruence| | |]; inversion E; subst; vm_compute; reflexivity. Qed.
Example C77_long_choice_hypotheses : ordinary ex_dir /\ disk os_left /\ dir_there ex_dir os_left /\ names_allowed os_left /\ menu ex_dir os_left [os_name 119] /\
  plain (os_name 119) /\ (237 < octets (os_name 119))%N /\
  (forall p, In p [database_fp (graph_at ex_dir (os_name 119)); indexes_fp (graph_at ex_dir (os_name 119))] -> exists t, entry_at p os_left = Some (EFile t)) /\
  w_in os_left = [py "y"; letter 0].
Proof.
  split; [exact ex_ordinary|]. split; [exact os_left_disk|]. split; [exact os_left_there|]. split; [exact os_left_names|]. split; [exact os_left_menu|].
  split; [apply os_plain|]. split; [vm_compute; reflexivity|]. split; [|vm_compute; reflexivity].
  intros p [<-|[<-|[]]]; eexists; vm_compute; reflexivity.
Qed.
Example C77_slash_and_dots : let r := os_run (@start_wiggle_shell ascii_rt 9 ex_dir) (os_w [py "n"; py "zoo/cats"]) in
  fst r = Err FileNotFoundError /\ entry_at (ex_dir ++ [py "zoo"; py "cats"]) (snd r) = Some EDir /\
  let r := os_run (@start_wiggle_shell ascii_rt 9 ex_dir) (os_w [py "n"; py ".."; py "q"]) in
  fst r = Ok tt /\ entry_at [py "home"; py "database_...json"] (snd r) = Some (EFile (py "{}")).
Proof. vm_compute. repeat split. Qed.

(** finding: a user who types a name that is too long cannot use the graph afterwards: it has a letter in the
    menu, and choosing it ends the program *)
Theorem C77_half_made_graph_refuted : let w := os_w [py "n"; os_name 119] in
  let r := os_run (@start_wiggle_shell ascii_rt 9 ex_dir) w in
  let r' := os_run (@start_wiggle_shell ascii_rt 9 ex_dir) {| w_fs := w_fs (snd r); w_in := [py "y"; py "A"; py "q"]; w_out := [] |} in
  fst r = Err OSError /\ In (py "A           " ++ os_name 119) (w_out (snd r')) /\ fst r' = Err OSError.
Proof. vm_compute. split; [reflexivity|]. split; [|reflexivity]. auto 20. Qed.
Print Assumptions C77_half_made_graph_refuted.
(** finding: deleting the graph ".." removes files that lie beside the folder of the graphs, and raises *)
Theorem C77_delete_dotdot_refuted :
  let w := {| w_fs := [([py "home"], EDir); ([py "home"; py "thesis"], EFile (py "x")); (ex_dir, EDir)]; w_in := []; w_out := [] |} in
  let r := os_run (delete_gdbms (py "..") ex_dir) w in
  entry_at [py "home"; py "thesis"] w = Some (EFile (py "x")) /\ entry_at [py "home"; py "thesis"] (snd r) = None /\ fst r = Err OSError.
Proof. vm_compute. repeat split. Qed.
Print Assumptions C77_delete_dotdot_refuted.
