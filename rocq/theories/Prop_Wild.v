(** * Prop_Wild: deleting graphs whose names have wild cards (C81)

    [fits], [strikes] and [struck] are in SpecWild; [plain], [disk], [no_wildcard], [visible] in SpecGdbms. *)
From Verif Require Import PyBase FS Store Gdbms SpecGdbms GdbmsFacts SpecWild WildFacts WildDelete Prop_Gdbms.

(** what exactly a deletion removes, whatever the name, and what it then answers *)
Theorem C81_deletion_by_pattern : forall n dir w, plain n -> disk w -> Forall no_wildcard dir -> entry_at (dir ++ [n]) w = Some EDir ->
  (forall p, struck dir n w p -> entry_at p w <> Some EDir) ->
  exists r w', run (delete_gdbms n dir) w = (r, w') /\ w_in w' = w_in w /\ w_out w' = w_out w /\
    (forall p, struck dir n w p -> entry_at p w' = None) /\
    (forall p, ~ struck dir n w p -> p <> dir ++ [n] -> entry_at p w' = entry_at p w) /\
    ((forall x, entry_at (dir ++ [n; x]) w' = None) /\ r = Ok 0%Z /\ entry_at (dir ++ [n]) w' = None \/
     (exists x e, entry_at (dir ++ [n; x]) w' = Some e) /\ r = Err OSError /\ entry_at (dir ++ [n]) w' = Some EDir).
Proof. exact delete_wild. Qed.
Print Assumptions C81_deletion_by_pattern.
(** the matching of names follows the rules of SpecWild *)
Theorem C81_matching : forall pat name, fnmatch pat name = true <-> fits pat name.
Proof. exact fnmatch_fits. Qed.
Print Assumptions C81_matching.
(** a name without wild cards fits itself only *)
Theorem C81_plain_fits_itself : forall n m, no_wildcard n -> fits n m <-> m = n.
Proof. exact plain_fits. Qed.
Print Assumptions C81_plain_fits_itself.

(** ** Examples *)
Definition wi_names : list pystr := [py "[]b]x"; py "bx"; py "]x"; py "cx"; py "bxx"].
Definition wi_w : world := ex_graphs wi_names ex_empty.
Definition wi_left (n : pystr) : list pystr :=
  List.filter (fun m => match entry_at (database_fp (graph_at ex_dir m)) (snd (run (delete_gdbms n ex_dir) wi_w)) with Some _ => true | None => false end) wi_names.
(** the graph []b]x cannot be deleted, but its deletion empties bx and ]x *)
Example C81_example : fst (run (delete_gdbms (py "[]b]x") ex_dir) wi_w) = Err OSError /\ wi_left (py "[]b]x") = [py "[]b]x"; py "cx"; py "bxx"].
Proof. vm_compute. split; reflexivity. Qed.
Example C81_fits_example : fits (py "[]b]x") (py "]x") /\ ~ fits (py "[]b]x") (py "[]b]x") /\ fits (py "[!a-c]?*") (py "zoo") /\ ~ fits (py "[!a-c]?*") (py "boo") /\
  fits (py "[c-a-]") (py "-") /\ fits (py "[!]") (py "[!]").
Proof. rewrite <- !C81_matching. vm_compute. intuition discriminate. Qed.
(** an exclamation mark after ranges that run backward *)
Example C81_backward_example : fits (py "[z-a!b]") (py "q") /\ ~ fits (py "[z-a!b]") (py "b") /\ fits (py "[b-!!]") (py "b") /\
  ~ fits (py "[z-a!-c]") (py "-") /\ fits (py "[z-a!-c]") (py "b") /\ fits (py "[a!]") (py "!").
Proof. rewrite <- !C81_matching. vm_compute. intuition discriminate. Qed.
(** every file in the folders of these graphs is a file, so the hypotheses are met *)
Definition wi_files_only (w : world) : bool :=
  forallb (fun pe => match snd pe with EDir => Nat.leb (List.length (fst pe)) 3 | EFile _ => true end) (w_fs w).
Lemma wi_no_folder w p : wi_files_only w = true -> NoDup (map fst (w_fs w)) -> List.length p = 4 -> entry_at p w <> Some EDir.
Proof.
  intros H ND L E. unfold entry_at in E. apply fs_get_In in E; [|exact ND]. unfold wi_files_only in H. rewrite forallb_forall in H. specialize (H _ E).
  cbn [fst snd] in H. rewrite L in H. discriminate H.
Qed.
Lemma wi_dir : Forall no_wildcard ex_dir.
Proof. repeat constructor; intros X; subst; cbn in *; intuition congruence. Qed.
Example C81_hypotheses : plain (py "[]b]x") /\ disk wi_w /\ Forall no_wildcard ex_dir /\ entry_at (ex_dir ++ [py "[]b]x"]) wi_w = Some EDir /\
  (forall p, struck ex_dir (py "[]b]x") wi_w p -> entry_at p wi_w <> Some EDir) /\
  struck ex_dir (py "[]b]x") wi_w (database_fp (graph_at ex_dir (py "bx"))).
Proof.
  assert (D : disk wi_w) by (apply disk_check_ok; vm_compute; reflexivity).
  split; [repeat split; try discriminate; cbn; intuition discriminate|]. split; [exact D|].
  split; [exact wi_dir|]. split; [vm_compute; reflexivity|]. split.
  - intros p (m & x & -> & _). apply wi_no_folder; [vm_compute; reflexivity|apply D|reflexivity].
  - exists (py "bx"), (py "database_bx.json"). split; [reflexivity|]. split; [split; [apply C81_matching; vm_compute; reflexivity|left; intros r E; discriminate E]|].
    split; [vm_compute; reflexivity|]. intros r E. discriminate E.
Qed.
