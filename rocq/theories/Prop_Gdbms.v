(** * Prop_Gdbms: creating, choosing and deleting graphs (C47, C48, C49, C50, C54)

    The words of the statements are in SpecGdbms.  [graph_at dir n] is the three files of the graph [n]:
    dir/n/database_n.json, dir/n/indexes_n.json, dir/n/wiggle_number_n.txt. *)
From Verif Require Import PyBase Json FS Store SpecStore RtLaws Make Find Query Gdbms SpecHistory SpecGdbms GdbmsFacts AsciiRt AsciiFacts Prop_Make.

(** ** C54: where a graph lies *)
Theorem C54_plain_name_paths : forall dir n, plain n ->
  db_file dir n = database_fp (graph_at dir n) /\ idx_file dir n = indexes_fp (graph_at dir n) /\
  wn_file dir n = wiggle_number_fp (graph_at dir n) /\ distinct_files (graph_at dir n).
Proof. intros dir n P. exact (conj (db_file_plain dir n P) (conj (idx_file_plain dir n P) (conj (wn_file_plain dir n P) (three_distinct dir n)))). Qed.
Print Assumptions C54_plain_name_paths.
Theorem C54_different_names_different_files : forall dir n m p, n <> m ->
  In p (files_of (graph_at dir n)) -> ~ In p (files_of (graph_at dir m)).
Proof. exact others_distinct. Qed.
Print Assumptions C54_different_names_different_files.
(** finding: an empty name and a name that starts with a slash lead out of the folder *)
Theorem C54_absolute_name_ignores_folder : forall dir dir' n, n = [] \/ (exists r, n = 47%N :: r) ->
  db_file dir n = db_file dir' n /\ idx_file dir n = idx_file dir' n /\ wn_file dir n = wn_file dir' n.
Proof. exact absolute_paths. Qed.
Print Assumptions C54_absolute_name_ignores_folder.
Theorem C54_empty_name_is_in_the_root : forall dir,
  db_file dir [] = [py "database_.json"] /\ idx_file dir [] = [py "indexes_.json"] /\ wn_file dir [] = [py "wiggle_number_.txt"].
Proof. exact empty_name_paths. Qed.
Print Assumptions C54_empty_name_is_in_the_root.

(** ** C47: a new graph *)
Theorem C47_new_graph_is_empty_and_well_formed : forall (rt : PyRt) dir n w,
  plain n -> no_nul dir -> disk w -> dir_there dir w ->
  (entry_at (dir ++ [n]) w = None \/ entry_at (dir ++ [n]) w = Some EDir) ->
  (forall p, In p (files_of (graph_at dir n)) -> entry_at p w = None) ->
  exists w', run (get_new_gdbms_file_paths n dir) w = (Ok (graph_at dir n), w') /\
    stored (graph_at dir n) empty_graph w' /\ disk w' /\ entry_at (dir ++ [n]) w' = Some EDir /\
    (forall p, p <> dir ++ [n] -> ~ In p (files_of (graph_at dir n)) -> entry_at p w' = entry_at p w) /\
    w_in w' = w_in w /\ w_out w' = w_out w ++ [py "Using " ++ n].
Proof. exact @new_graph. Qed.
Print Assumptions C47_new_graph_is_empty_and_well_formed.
(** the same through the first dialogue: any answer but y and yes, then the name *)
Theorem C47_new_graph_by_dialogue : forall (rt : PyRt) f dir n c r w,
  plain n -> no_nul dir -> disk w -> dir_there dir w ->
  (entry_at (dir ++ [n]) w = None \/ entry_at (dir ++ [n]) w = Some EDir) ->
  (forall p, In p (files_of (graph_at dir n)) -> entry_at p w = None) ->
  c <> py "y" -> c <> py "yes" -> w_in w = c :: n :: r ->
  exists w', run (select_gdbms (S f) dir) w = (Ok (graph_at dir n), w') /\
    stored (graph_at dir n) empty_graph w' /\ w_in w' = r /\
    (forall p, p <> dir ++ [n] -> ~ In p (files_of (graph_at dir n)) -> entry_at p w' = entry_at p w).
Proof. exact @new_by_dialogue. Qed.
Print Assumptions C47_new_graph_by_dialogue.

(** ** C48: nothing is overwritten *)
Theorem C48_taken_name_is_refused : forall dir n w t, plain n -> no_nul dir -> disk w ->
  entry_at (database_fp (graph_at dir n)) w = Some (EFile t) ->
  run (get_new_gdbms_file_paths n dir) w = (Err ValueError, say [taken_msg n] w).
Proof. exact taken_graph. Qed.
Print Assumptions C48_taken_name_is_refused.
(** whatever the name (also empty, absolute, with slashes) and whatever the outcome *)
Theorem C48_creation_keeps_everything : forall n dir w, kept w (snd (run (get_new_gdbms_file_paths n dir) w)).
Proof. exact new_kept. Qed.
Print Assumptions C48_creation_keeps_everything.
(** the whole first dialogue, whatever is typed *)
Theorem C48_first_dialogue_keeps_everything : forall f folder w, kept w (snd (run (select_gdbms f folder) w)).
Proof. exact select_kept. Qed.
Print Assumptions C48_first_dialogue_keeps_everything.

(** ** C49: the menu *)
Theorem C49_menu_is_unique : forall dir w, disk w -> is_a_dir dir w -> exists l, menu dir w l /\ forall m, menu dir w m -> m = l.
Proof. intros dir w D H. destruct (menu_exists dir w D H) as (l & M). exists l. split; [exact M|]. intros m Hm. exact (menu_unique dir w m l Hm M). Qed.
Print Assumptions C49_menu_is_unique.
Theorem C49_menu_shown : forall dir w l, disk w -> is_a_dir dir w -> menu dir w l ->
  run (get_and_display_available_dbms dir) w =
  match l with [] => (Ok None, w) | _ => (Ok (Some (menu_lines l)), say (shown l) w) end.
Proof. exact display_run. Qed.
Print Assumptions C49_menu_shown.
Theorem C49_letter_selects : forall folder w l i n r f,
  disk w -> is_a_dir folder w -> menu folder w l -> i < 26 -> nth_error l i = Some n -> plain n ->
  (forall p, In p (files_of (graph_at folder n)) -> exists t, entry_at p w = Some (EFile t)) -> w_in w = letter i :: r ->
  run (get_existing_gdbms (S f) folder folder) w =
    (Ok (graph_at folder n), {| w_fs := w_fs w; w_in := r; w_out := w_out w ++ shown l |}).
Proof. exact choose. Qed.
Print Assumptions C49_letter_selects.
Theorem C49_only_the_first_26 : forall f folder w l g w',
  disk w -> is_a_dir folder w -> menu folder w l -> l <> [] -> (forall n, In n l -> plain n) ->
  run (get_existing_gdbms f folder folder) w = (Ok g, w') ->
  same_disk w w' /\ exists i n, i < 26 /\ nth_error l i = Some n /\ g = graph_at folder n /\
    forall p, In p (files_of g) -> exists t, entry_at p w = Some (EFile t).
Proof. exact chosen_plain. Qed.
Print Assumptions C49_only_the_first_26.
(** the loops of the dialogue end when the input does (the bound of the model is never reached) *)
Theorem C49_dialogue_bound_suffices : forall fuel folder w, List.length (w_in w) < fuel ->
  fst (run (select_gdbms fuel folder) w) <> Err OutOfFuel.
Proof. exact select_ends. Qed.
Print Assumptions C49_dialogue_bound_suffices.

(** ** C50: deleting *)
Theorem C50_delete_removes_the_folder_only : forall n dir w,
  plain n -> disk w -> Forall no_wildcard (dir ++ [n]) -> entry_at (dir ++ [n]) w = Some EDir ->
  (forall m e, entry_at (dir ++ [n; m]) w = Some e -> visible m /\ exists t, e = EFile t) ->
  exists w', run (delete_gdbms n dir) w = (Ok 0%Z, w') /\ disk w' /\ w_in w' = w_in w /\ w_out w' = w_out w /\
    entry_at (dir ++ [n]) w' = None /\ (forall p, inside (dir ++ [n]) p -> entry_at p w' = None) /\
    (forall p, p <> dir ++ [n] -> ~ inside (dir ++ [n]) p -> entry_at p w' = entry_at p w).
Proof. exact delete_graph. Qed.
Print Assumptions C50_delete_removes_the_folder_only.
Theorem C50_delete_missing_raises : forall n dir w, ~ is_a_dir (joinpath dir (n ++ py "/")) w ->
  run (delete_gdbms n dir) w = (Err PlainException, w).
Proof. exact delete_missing. Qed.
Print Assumptions C50_delete_missing_raises.

(** ** Examples *)
Definition ex_dir : path := [py "home"; py "dbms"].
Definition ex_disk (l : list (path * entry)) (i : list pystr) : world :=
  {| w_fs := [([py "home"], EDir); (ex_dir, EDir)] ++ l; w_in := i; w_out := [] |}.
Definition ex_empty : world := ex_disk [] [].
(** the world after the graphs with these names have been created *)
Definition ex_graphs (ns : list pystr) (w : world) : world := fold_left (fun w n => snd (run (get_new_gdbms_file_paths n ex_dir) w)) ns w.
Example C47_hypotheses : plain (py "zoo") /\ no_nul ex_dir /\ disk ex_empty /\ dir_there ex_dir ex_empty /\
  entry_at (ex_dir ++ [py "zoo"]) ex_empty = None /\ (forall p, In p (files_of (graph_at ex_dir (py "zoo"))) -> entry_at p ex_empty = None).
Proof.
  split; [|split; [|split; [|split; [|split]]]].
  - repeat split; try discriminate; cbn; intuition discriminate.
  - repeat constructor; cbn; intuition discriminate.
  - apply disk_check_ok. reflexivity.
  - intros d (N & q & E). unfold ex_dir in E. destruct d as [|x [|y [|z d]]]; [congruence| | |]; inversion E; subst; reflexivity.
  - reflexivity.
  - cbn [files_of In]. intros p [<-|[<-|[<-|[]]]]; reflexivity.
Qed.
(** and a MAKE and a FIND then work *)
Example C47_then_make :
  let r := run (select_gdbms 9 ex_dir) (ex_disk [] [py "n"; py "zoo"]) in
  fst r = Ok (graph_at ex_dir (py "zoo")) /\ fst (run (@make ascii_rt ex_two (graph_at ex_dir (py "zoo"))) (snd r)) = Ok true.
Proof. vm_compute. split; reflexivity. Qed.
Example C48_taken_then_free :
  fst (run (create_new_dbms 9 ex_dir) (ex_graphs [py "zoo"] (ex_disk [] [py "zoo"; py "zoo2"]))) = Ok (graph_at ex_dir (py "zoo2")).
Proof. vm_compute. reflexivity. Qed.
(** finding: creation that meets a left-over index file raises and leaves a new database behind *)
Theorem C48_refused_creation_leaves_a_file_refuted :
  let w := ex_disk [(ex_dir ++ [py "a"], EDir); (indexes_fp (graph_at ex_dir (py "a")), EFile [])] [] in
  let r := run (get_new_gdbms_file_paths (py "a") ex_dir) w in
  fst r = Err ValueError /\ entry_at (database_fp (graph_at ex_dir (py "a"))) w = None /\
  entry_at (database_fp (graph_at ex_dir (py "a"))) (snd r) = Some (EFile (py "{}")).
Proof. vm_compute. repeat split. Qed.
Print Assumptions C48_refused_creation_leaves_a_file_refuted.

(** 27 graphs, created in another order; the letters follow the alphabet, and the last has none *)
Definition ex_names27 : list pystr := map (fun i => [N.of_nat (97 + i / 3); N.of_nat (97 + i mod 3)]) (rev (List.seq 0 27)).
Definition ex_27 : world := ex_graphs (py "tests" :: ex_names27) ex_empty.
Example C49_menu_27 : fst (run (get_and_display_available_dbms ex_dir) ex_27) = Ok (Some (menu_lines (rev ex_names27))) /\
  List.length (menu_lines (rev ex_names27)) = 26 /\ nth_error (menu_lines (rev ex_names27)) 25 = Some (py "Z", py "ib") /\
  last (rev ex_names27) [] = py "ic".
Proof. vm_compute. repeat split. Qed.
Example C49_hypotheses : exists l, disk ex_27 /\ is_a_dir ex_dir ex_27 /\ menu ex_dir ex_27 l /\ l = rev ex_names27 /\ nth_error l 1 = Some (py "ab").
Proof.
  assert (D : disk ex_27) by (apply disk_check_ok; vm_compute; reflexivity).
  assert (H : is_a_dir ex_dir ex_27) by (right; vm_compute; reflexivity).
  destruct (list_run ex_dir ex_27 D H) as (l & R & M). exists l.
  assert (E : fst (run (list_existing_dbms SKIPS ex_dir) ex_27) = Ok (rev ex_names27)) by (vm_compute; reflexivity).
  rewrite R in E. cbn [fst] in E. assert (E' : l = rev ex_names27) by congruence. split; [exact D|]. split; [exact H|]. split; [exact M|]. split; [exact E'|]. rewrite E'. vm_compute. reflexivity.
Qed.
Example C49_choose_27 :
  fst (run (select_gdbms 30 ex_dir) {| w_fs := w_fs ex_27; w_in := [py "y"; py "["; py "ic"; py "b"; py "B"]; w_out := [] |}) = Ok (graph_at ex_dir (py "ab")).
Proof. vm_compute. reflexivity. Qed.

Definition ex_ab : world := ex_graphs [py "a"; py "b"] ex_empty.
Example C50_hypotheses : plain (py "a") /\ disk ex_ab /\ Forall no_wildcard (ex_dir ++ [py "a"]) /\ entry_at (ex_dir ++ [py "a"]) ex_ab = Some EDir /\
  (forall m e, entry_at (ex_dir ++ [py "a"; m]) ex_ab = Some e -> visible m /\ exists t, e = EFile t).
Proof.
  assert (D : disk ex_ab) by (apply disk_check_ok; vm_compute; reflexivity).
  split; [repeat split; try discriminate; cbn; intuition discriminate|]. split; [exact D|].
  split; [repeat constructor; cbn in H; intuition (subst; discriminate)|]. split; [vm_compute; reflexivity|].
  intros m e H. change [py "a"; m] with ([py "a"] ++ [m]) in H. rewrite app_assoc in H.
  assert (I : In m (children (ex_dir ++ [py "a"]) (w_fs ex_ab))) by (exact (proj2 (children_spec _ _ m (disk_once _ D)) (ex_intro _ e H))).
  assert (C : children (ex_dir ++ [py "a"]) (w_fs ex_ab) = [py "database_a.json"; py "indexes_a.json"; py "wiggle_number_a.txt"]) by (vm_compute; reflexivity).
  rewrite C in I.
  destruct I as [<-|[<-|[<-|[]]]]; (split; [intros r X; discriminate X|]); vm_compute in H; injection H as <-; eauto.
Qed.
Example C50_delete_one :
  let r := run (delete_gdbms (py "a") ex_dir) ex_ab in
  fst r = Ok 0%Z /\ entry_at (ex_dir ++ [py "a"]) (snd r) = None /\
  fst (run (@make ascii_rt ex_two (graph_at ex_dir (py "b"))) (snd r)) = Ok true /\
  run (delete_gdbms (py "a") ex_dir) (snd r) = (Err PlainException, snd r).
Proof. vm_compute. repeat split. Qed.
(** finding: the name of the folder is used as a glob pattern: deleting the graph called "*" empties every graph *)
Theorem C50_star_deletes_all_refuted :
  let w := ex_graphs [py "a"; py "b"; py "*"] ex_empty in
  let r := run (delete_gdbms (py "*") ex_dir) w in
  fst r = Ok 0%Z /\ forall p, In p (files_of (graph_at ex_dir (py "a")) ++ files_of (graph_at ex_dir (py "b"))) ->
    (exists t, entry_at p w = Some (EFile t)) /\ entry_at p (snd r) = None.
Proof. vm_compute. split; [reflexivity|]. intros p H. decompose [or] H; clear H; subst; try contradiction; (split; [eexists; reflexivity|reflexivity]). Qed.
Print Assumptions C50_star_deletes_all_refuted.
(** finding: a graph whose name has brackets cannot be deleted, and deleting "" removes the files of the root folder *)
Theorem C50_brackets_cannot_be_deleted_refuted :
  let w := ex_graphs [py "a[b]"] ex_empty in run (delete_gdbms (py "a[b]") ex_dir) w = (Err OSError, w).
Proof. vm_compute. reflexivity. Qed.
Print Assumptions C50_brackets_cannot_be_deleted_refuted.
Theorem C50_empty_name_deletes_in_root_refuted :
  let w := {| w_fs := [([py "kernel"], EFile (py "x")); ([py "home"], EDir); (ex_dir, EDir)]; w_in := []; w_out := [] |} in
  entry_at [py "kernel"] w = Some (EFile (py "x")) /\ entry_at [py "kernel"] (snd (run (delete_gdbms [] ex_dir) w)) = None.
Proof. vm_compute. split; reflexivity. Qed.
Print Assumptions C50_empty_name_deletes_in_root_refuted.
(** finding: a hidden file in the folder makes the deletion stop half way: the other files are gone, the folder stays *)
Theorem C50_hidden_file_stops_deletion_refuted :
  let w := with_fs ex_ab (w_fs ex_ab ++ [(ex_dir ++ [py "a"; py ".lock"], EFile [])]) in
  let r := run (delete_gdbms (py "a") ex_dir) w in
  fst r = Err OSError /\ entry_at (ex_dir ++ [py "a"]) (snd r) = Some EDir /\ entry_at (database_fp (graph_at ex_dir (py "a"))) (snd r) = None.
Proof. vm_compute. repeat split. Qed.
Print Assumptions C50_hidden_file_stops_deletion_refuted.
