(** * Prop_Cut: the creation or the deletion of a graph is cut off (C79)

    [crash m w v] (FS): the process that runs [m] in [w] may die and leave [v]; of the text that is being written any
    beginning may have arrived.  [moment], [texts], [only_graph_differs] and [new_database] etc. are in SpecCut, [own] is in
    SpecAmid, the other words in SpecGdbms. *)
From Verif Require Import PyBase Json FS FSFacts Store SpecStore RtLaws Make Find Query Gdbms SpecGdbms GdbmsFacts SpecAmid SpecCut CrashFacts
  CutFacts CutMore CutDelete CutKept AsciiRt AsciiFacts Prop_Make Prop_Gdbms.

(** ** creation *)
Theorem C79_creation_cut : forall dir n w, plain n -> no_nul dir -> disk w -> dir_there dir w ->
  (entry_at (dir ++ [n]) w = None \/ entry_at (dir ++ [n]) w = Some EDir) ->
  (forall p, In p (files_of (graph_at dir n)) -> entry_at p w = None) ->
  forall v, crash (get_new_gdbms_file_paths n dir) w v ->
  disk v /\ only_graph_differs (dir ++ [n]) (graph_at dir n) w v /\ exists a b c, moment a b c /\ texts (graph_at dir n) v a b c.
Proof. exact creation_cut. Qed.
Print Assumptions C79_creation_cut.
(** and each of these moments can be the last *)
Theorem C79_every_moment_can_be_the_last : forall dir n w, plain n -> no_nul dir -> dir_there dir w ->
  (entry_at (dir ++ [n]) w = None \/ entry_at (dir ++ [n]) w = Some EDir) ->
  (forall p, In p (files_of (graph_at dir n)) -> entry_at p w = None) ->
  forall a b c, moment a b c -> exists v, crash (get_new_gdbms_file_paths n dir) w v /\ texts (graph_at dir n) v a b c.
Proof. exact creation_can_cut. Qed.
Print Assumptions C79_every_moment_can_be_the_last.
(** creating it again: it works if the database file had not been made, otherwise the name is taken *)
Theorem C79_creation_again : forall dir n w, plain n -> no_nul dir -> disk w -> dir_there dir w ->
  (entry_at (dir ++ [n]) w = None \/ entry_at (dir ++ [n]) w = Some EDir) ->
  (forall p, In p (files_of (graph_at dir n)) -> entry_at p w = None) ->
  forall (rt : PyRt) v, crash (get_new_gdbms_file_paths n dir) w v ->
  (entry_at (database_fp (graph_at dir n)) v = None /\
   exists v', run (get_new_gdbms_file_paths n dir) v = (Ok (graph_at dir n), v') /\ stored (graph_at dir n) empty_graph v') \/
  (entry_at (database_fp (graph_at dir n)) v <> None /\ run (get_new_gdbms_file_paths n dir) v = (Err ValueError, say [taken_msg n] v)).
Proof. exact @creation_again. Qed.
Print Assumptions C79_creation_again.
(** in any case one can delete it and create it again *)
Theorem C79_delete_and_create_again : forall dir n w, plain n -> no_nul dir -> disk w -> dir_there dir w ->
  (entry_at (dir ++ [n]) w = None \/ entry_at (dir ++ [n]) w = Some EDir) ->
  (forall p, In p (files_of (graph_at dir n)) -> entry_at p w = None) ->
  forall (rt : PyRt) v, Forall no_wildcard (dir ++ [n]) -> (forall p, inside (dir ++ [n]) p -> entry_at p w = None) ->
  crash (get_new_gdbms_file_paths n dir) w v -> entry_at (dir ++ [n]) v = Some EDir ->
  exists v1 v2, run (delete_gdbms n dir) v = (Ok 0%Z, v1) /\ run (get_new_gdbms_file_paths n dir) v1 = (Ok (graph_at dir n), v2) /\
    stored (graph_at dir n) empty_graph v2 /\ (forall p, ~ own (dir ++ [n]) p -> entry_at p v2 = entry_at p w).
Proof. exact @creation_repair. Qed.
Print Assumptions C79_delete_and_create_again.
(** cut off before the counter: the menu does not let one choose it *)
Theorem C79_incomplete_graph_not_chosen : forall folder w l i n r f, disk w -> is_a_dir folder w -> menu folder w l -> i < 26 ->
  nth_error l i = Some n -> plain n -> (exists p, In p (files_of (graph_at folder n)) /\ entry_at p w = None) -> w_in w = letter i :: r ->
  run (get_existing_gdbms (S f) folder folder) w =
  run (get_existing_gdbms f folder folder) {| w_fs := w_fs w; w_in := r; w_out := w_out w ++ shown l ++ [py "Database files could not be found "] |}.
Proof. exact incomplete_not_chosen. Qed.
Print Assumptions C79_incomplete_graph_not_chosen.
(** cut off between the creation of the counter file and its text: it can be chosen, and no MAKE will ever succeed; with the
    text it is a new graph like any other *)
Theorem C79_counter_without_text : forall (rt : PyRt) l g w, entry_at (wiggle_number_fp g) w = Some (EFile []) ->
  run (make l g) w = (Err PlainException, w).
Proof. exact @make_without_counter. Qed.
Print Assumptions C79_counter_without_text.
Theorem C79_counter_with_text : forall dir n (rt : PyRt) v,
  texts (graph_at dir n) v (Some new_database) (Some new_indexes) (Some new_counter) -> stored (graph_at dir n) empty_graph v.
Proof. exact @texts_stored. Qed.
Print Assumptions C79_counter_with_text.
(** the whole first dialogue, whatever is typed (any name) and whenever it is cut off *)
Theorem C79_dialogue_cut_keeps_everything : forall f folder w v, crash (select_gdbms f folder) w v -> kept w v.
Proof. exact dialogue_cut. Qed.
Print Assumptions C79_dialogue_cut_keeps_everything.

(** ** deletion: all is gone, or some files are and deleting again removes the rest *)
Theorem C79_deletion_cut : forall n dir w v, plain n -> disk w -> Forall no_wildcard (dir ++ [n]) -> entry_at (dir ++ [n]) w = Some EDir ->
  (forall m e, entry_at (dir ++ [n; m]) w = Some e -> visible m /\ exists t, e = EFile t) ->
  crash (delete_gdbms n dir) w v ->
  disk v /\ (forall p, ~ own (dir ++ [n]) p -> entry_at p v = entry_at p w) /\
  ((forall p, own (dir ++ [n]) p -> entry_at p v = None) \/
   (entry_at (dir ++ [n]) v = Some EDir /\ (forall p, inside (dir ++ [n]) p -> entry_at p v = entry_at p w \/ entry_at p v = None) /\
    exists v', run (delete_gdbms n dir) v = (Ok 0%Z, v') /\ (forall p, own (dir ++ [n]) p -> entry_at p v' = None) /\
      (forall p, ~ own (dir ++ [n]) p -> entry_at p v' = entry_at p w))).
Proof. exact deletion_cut. Qed.
Print Assumptions C79_deletion_cut.

(** ** Examples *)
(** finding: a user expects that a new graph is there or not; but a creation that was cut off can leave a graph the menu
    offers and lets one choose, in which nothing can be stored *)
Definition ct_zoo : gdbms := graph_at ex_dir (py "zoo").
Theorem C79_chosen_but_useless_refuted : exists v, crash (get_new_gdbms_file_paths (py "zoo") ex_dir) ex_empty v /\
  fst (run (select_gdbms 9 ex_dir) {| w_fs := w_fs v; w_in := [py "y"; py "A"]; w_out := [] |}) = Ok ct_zoo /\
  fst (run (@query ascii_rt (py "MAKE (:A)-[:R]->(:B);" ++ [10%N] ++ py "FIND (:A);") ct_zoo) v) = Err PlainException /\
  fst (run (get_new_gdbms_file_paths (py "zoo") ex_dir) v) = Err ValueError.
Proof.
  exists (crash_at 13 0 (get_new_gdbms_file_paths (py "zoo") ex_dir) ex_empty). split; [apply crash_at_crash|]. vm_compute. repeat split.
Qed.
Print Assumptions C79_chosen_but_useless_refuted.
Example C79_hypotheses : plain (py "zoo") /\ no_nul ex_dir /\ disk ex_empty /\ dir_there ex_dir ex_empty /\ Forall no_wildcard (ex_dir ++ [py "zoo"]) /\
  entry_at (ex_dir ++ [py "zoo"]) ex_empty = None /\ (forall p, inside (ex_dir ++ [py "zoo"]) p -> entry_at p ex_empty = None) /\
  exists v, crash (get_new_gdbms_file_paths (py "zoo") ex_dir) ex_empty v /\ entry_at (ex_dir ++ [py "zoo"]) v = Some EDir /\
    texts ct_zoo v (Some new_database) (Some (firstn 7 new_indexes)) None.
Proof.
  destruct C47_hypotheses as (A & B & C & D & E & _). split; [exact A|]. split; [exact B|]. split; [exact C|]. split; [exact D|].
  split; [repeat constructor; cbn in H; intuition (subst; discriminate)|]. split; [exact E|]. split.
  - intros p (q & N & ->). destruct q as [|x q]; [congruence|]. destruct x as [|c x]; reflexivity.
  - exists (crash_at 9 7 (get_new_gdbms_file_paths (py "zoo") ex_dir) ex_empty). split; [apply crash_at_crash|]. vm_compute. repeat split.
Qed.
Example C79_not_chosen_example :
  let v := crash_at 9 7 (get_new_gdbms_file_paths (py "zoo") ex_dir) ex_empty in
  run (select_gdbms 9 ex_dir) {| w_fs := w_fs v; w_in := [py "y"; py "A"]; w_out := [] |} =
  (Err EOFError, {| w_fs := w_fs v; w_in := []; w_out := shown [py "zoo"] ++ [py "Database files could not be found "] ++ shown [py "zoo"] |}).
Proof. vm_compute. reflexivity. Qed.
(** a deletion that was cut off after the first file *)
Example C79_deletion_example :
  let v := crash_at 4 0 (delete_gdbms (py "a") ex_dir) ex_ab in
  crash (delete_gdbms (py "a") ex_dir) ex_ab v /\ entry_at (database_fp (graph_at ex_dir (py "a"))) v = None /\
  entry_at (wiggle_number_fp (graph_at ex_dir (py "a"))) v = Some (EFile (py "0")) /\ fst (run (delete_gdbms (py "a") ex_dir) v) = Ok 0%Z.
Proof. split; [apply crash_at_crash|]. vm_compute. repeat split. Qed.
