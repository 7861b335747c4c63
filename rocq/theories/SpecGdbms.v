(** * SpecGdbms: names of graphs, folders and the state of the disk (C47-C50, C54) *)
From Verif Require Import PyBase Json FS Store SpecStore Gdbms.

(** a name that is a file name: not empty, no slash, no null character, not "." or ".." *)
Definition plain (n : pystr) : Prop :=
  n <> [] /\ ~ In 47%N n /\ ~ In 0%N n /\ n <> py "." /\ n <> py "..".
(** none of the characters that glob treats specially *)
Definition no_wildcard (n : pystr) : Prop := forall c, In c n -> c <> 42%N /\ c <> 63%N /\ c <> 91%N.
Definition visible (n : pystr) : Prop := forall r, n <> 46%N :: r.

Definition entry_at (p : path) (w : world) : option entry := fs_get p (w_fs w).
(** [p] lies in the folder [d] (at any depth) *)
Definition inside (d p : path) : Prop := exists q, q <> [] /\ p = d ++ q.
(** [d] is [p] or one of the folders in which it lies, the root left out *)
Definition on_the_way (p d : path) : Prop := d <> [] /\ exists q, p = d ++ q.

(** a disk: every path occurs once, and everything lies in folders *)
Record disk (w : world) : Prop := {
  disk_once : NoDup (map fst (w_fs w));
  disk_tree : forall p d e, entry_at p w = Some e -> on_the_way p d -> d <> p -> entry_at d w = Some EDir;
  disk_root : entry_at [] w = None }.

(** the three files of the graph called [n] *)
Definition graph_at (dir : path) (n : pystr) : gdbms :=
  {| database_fp := dir ++ [n; py "database_" ++ n ++ py ".json"];
     indexes_fp := dir ++ [n; py "indexes_" ++ n ++ py ".json"];
     wiggle_number_fp := dir ++ [n; py "wiggle_number_" ++ n ++ py ".txt"] |}.
Definition files_of (g : gdbms) : list path := [database_fp g; indexes_fp g; wiggle_number_fp g].

Definition empty_graph : graph := {| g_db := []; g_ix := {| ix_rels := []; ix_labels := []; ix_names := [] |}; g_next := 0%Z |}.

(** a folder, or the root *)
Definition is_a_dir (dir : path) (w : world) : Prop := dir = [] \/ entry_at dir w = Some EDir.
(** the folder and all folders in which it lies exist *)
Definition dir_there (dir : path) (w : world) : Prop := forall d, on_the_way dir d -> entry_at d w = Some EDir.
Definition no_nul (dir : path) : Prop := Forall (fun c => ~ In 0%N c) dir.

(** only the terminal differs *)
Definition same_disk (w w' : world) : Prop := w_fs w' = w_fs w.
(** everything that was there is still there, with the same content *)
Definition kept (w w' : world) : Prop := forall p e, entry_at p w = Some e -> entry_at p w' = Some e.

(** [a] comes before [b] in alphabetical order (of code points) *)
Inductive str_lt : pystr -> pystr -> Prop :=
| lt_nil : forall c s, str_lt [] (c :: s)
| lt_head : forall a b s t, (a < b)%N -> str_lt (a :: s) (b :: t)
| lt_tail : forall c s t, str_lt s t -> str_lt (c :: s) (c :: t).
Inductive ascending : list pystr -> Prop :=
| asc_nil : ascending []
| asc_cons : forall a l, (forall b, In b l -> str_lt a b) -> ascending l -> ascending (a :: l).

(** the graphs the menu can offer, in order *)
Definition menu (dir : path) (w : world) (l : list pystr) : Prop :=
  ascending l /\
  forall n, In n l <-> entry_at (dir ++ [n]) w = Some EDir /\ n <> py "tests" /\ n <> py "__pycache__".
(** the letter of the [i]th *)
Definition letter (i : nat) : pystr := [N.of_nat (65 + i)].
Definition upto26 (l : list pystr) : nat := Nat.min 26 (List.length l).
(** letter and name, for at most 26 names; and what the terminal shows *)
Definition menu_lines (l : list pystr) : list (pystr * pystr) := combine (map letter (List.seq 0 (upto26 l))) (firstn 26 l).
Definition shown (l : list pystr) : list pystr :=
  [10%N :: py "Letter      db_name"] ++ map (fun kv => fst kv ++ py "           " ++ snd kv) (menu_lines l) ++ [[10%N]].
Definition say (ts : list pystr) (w : world) : world := {| w_fs := w_fs w; w_in := w_in w; w_out := w_out w ++ ts |}.
