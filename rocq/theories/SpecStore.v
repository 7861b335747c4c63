(** * SpecStore: the contents of the three files of a graph, as data

    Nothing here refers to a function of the model except the JSON values [pyval], the text
    [dump_text] that json.dump(s) writes and the decimal text [str_of_Z]. *)
From Verif Require Import PyBase Json SpecJson FS Store.

(** The three indexes: numbers of the relationships a node owns, by node number; labels; names. *)
Record index := { ix_rels : list (pystr * list Z); ix_labels : list pystr; ix_names : list pystr }.

Definition rels_val (d : list (pystr * list Z)) : pyval :=
  VDict (map (fun kv => (fst kv, VList (map VInt (snd kv)))) d).
Definition strs_val (l : list pystr) : pyval := VList (map VStr l).
Definition index_val (ix : index) : pyval :=
  VDict [(py "node_relationships", rels_val (ix_rels ix));
         (py "node_labels", strs_val (ix_labels ix));
         (py "relationship_names", strs_val (ix_names ix))].

(** the numbers listed for key [k] *)
Definition numbers_of (k : pystr) (d : list (pystr * list Z)) : list Z :=
  match d_get k d with Some l => l | None => [] end.

(** names are strings that UTF-16 surrogates do not spoil, sets have no repetitions *)
Record index_ok (ix : index) : Prop := {
  ix_keys_ok : Forall str_ok (keys (ix_rels ix));
  ix_keys_nodup : NoDup (keys (ix_rels ix));
  ix_rels_nodup : Forall (fun kv => NoDup (snd kv)) (ix_rels ix);
  ix_labels_ok : Forall str_ok (ix_labels ix);
  ix_labels_nodup : NoDup (ix_labels ix);
  ix_names_ok : Forall str_ok (ix_names ix);
  ix_names_nodup : NoDup (ix_names ix) }.

Section SpecStore.
  Context {rt : PyRt}.
  (** A graph whose three files are as this program writes them.  [next] is the counter. *)
  Record graph := { g_db : list (pystr * pyval); g_ix : index; g_next : Z }.

  Definition distinct_files (g : gdbms) : Prop :=
    database_fp g <> indexes_fp g /\ database_fp g <> wiggle_number_fp g /\ indexes_fp g <> wiggle_number_fp g.

  (** The database can be written as JSON, and every key is the text of a number below the counter. *)
  Record graph_ok (G : graph) : Prop := {
    g_db_ok : dict_ok (g_db G);
    g_db_ser : dict_ser (g_db G) = true;
    g_ix_ok : index_ok (g_ix G);
    g_below : forall k, In k (keys (g_db G)) -> exists z, k = str_of_Z z /\ (z < g_next G)%Z }.

  Definition file_is (p : path) (t : pystr) (w : world) : Prop := fs_get p (w_fs w) = Some (EFile t).
  (** Everything but the files [ps] is the same. *)
  Definition unchanged_but (ps : list path) (w w' : world) : Prop :=
    (forall q, ~ In q ps -> fs_get q (w_fs w') = fs_get q (w_fs w)) /\ w_in w' = w_in w /\ w_out w' = w_out w.

  (** A database file / an indexes file as the program writes them. *)
  Definition db_file (p : path) (d : list (pystr * pyval)) (w : world) : Prop :=
    file_is p (dump_text Indent4 (VDict d)) w /\ dict_ok d /\ dict_ser d = true.
  Definition index_file (p : path) (ix : index) (w : world) : Prop :=
    index_ok ix /\ exists st, file_is p (dump_text st (index_val ix)) w.

  Record stored (g : gdbms) (G : graph) (w : world) : Prop := {
    st_files : distinct_files g;
    st_ok : graph_ok G;
    st_db : file_is (database_fp g) (dump_text Indent4 (VDict (g_db G))) w;
    st_ix : exists st, file_is (indexes_fp g) (dump_text st (index_val (g_ix G))) w;
    st_wn : file_is (wiggle_number_fp g) (str_of_Z (g_next G)) w }.
End SpecStore.
