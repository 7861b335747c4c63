(** * SpecCrash: what a crash can leave in a file (C33, C34) *)
From Verif Require Import PyBase Json SpecJson Statements FS Store SpecStore Make SpecMake SpecHistory.

(** a first part of [new], possibly empty, possibly all of it, written over the start of [old] *)
Definition over (old new t : pystr) : Prop :=
  exists a b, new = a ++ b /\ t = a ++ skipn (List.length a) old.
(** a first part of [new], possibly empty, possibly all of it *)
Definition part_of (new t : pystr) : Prop := exists b, new = t ++ b.

Section SpecCrash.
  Context {rt : PyRt}.

  Definition db_text (d : list (pystr * pyval)) : pystr := dump_text Indent4 (VDict d).
  Definition ix_text (ix : index) : pystr := dump_text Indent4 (index_val ix).

  (** [ix'] is [ix] with the relationship numbers, labels and names of [ps] added, as far as the flags say *)
  Definition added (ps : list pattern) (n : Z) (rels labels names : bool) (ix ix' : index) : Prop :=
    (forall k z, In z (numbers_of k (ix_rels ix')) <->
                 In z (numbers_of k (ix_rels ix)) \/ rels = true /\ owns ps n k z) /\
    (forall s, In s (ix_labels ix') <-> In s (ix_labels ix) \/ labels = true /\ label_drawn ps s) /\
    (forall s, In s (ix_names ix') <-> In s (ix_names ix) \/ names = true /\ name_drawn ps s).

  (** The contents of database, indexes and counter after a crash of a MAKE of [ps] that would add
      [items]; [i0] is the content of the indexes file before the call.  The order of the cases is
      the order in which the files are written. *)
  Inductive crashed (ps : list pattern) (G : graph) (items : list (pystr * pyval)) (i0 : pystr) :
      pystr -> pystr -> pystr -> Prop :=
  | in_database : forall d,
      over (db_text (g_db G)) (db_text (g_db G ++ items)) d ->
      crashed ps G items i0 d i0 (str_of_Z (g_next G))
  | in_relationship_index : forall i ix1,
      dict_ser items = true -> (exists k z, owns ps (g_next G) k z) ->
      added ps (g_next G) true false false (g_ix G) ix1 ->
      over i0 (ix_text ix1) i ->
      crashed ps G items i0 (db_text (g_db G ++ items)) i (str_of_Z (g_next G))
  | in_label_index : forall i ix1 ix2,
      dict_ser items = true -> (exists k z, owns ps (g_next G) k z) ->
      added ps (g_next G) true false false (g_ix G) ix1 ->
      added ps (g_next G) true true false (g_ix G) ix2 ->
      over (ix_text ix1) (ix_text ix2) i ->
      crashed ps G items i0 (db_text (g_db G ++ items)) i (str_of_Z (g_next G))
  | in_name_index : forall i ix2 ix3,
      dict_ser items = true -> (exists k z, owns ps (g_next G) k z) ->
      added ps (g_next G) true true false (g_ix G) ix2 ->
      added ps (g_next G) true true true (g_ix G) ix3 ->
      over (ix_text ix2) (ix_text ix3) i \/ i = ix_text ix3 ->
      crashed ps G items i0 (db_text (g_db G ++ items)) i (str_of_Z (g_next G))
  | in_counter : forall ix3 c,
      dict_ser items = true -> (exists k z, owns ps (g_next G) k z) ->
      added ps (g_next G) true true true (g_ix G) ix3 ->
      part_of (str_of_Z (g_next G + size_all ps)) c ->
      crashed ps G items i0 (db_text (g_db G ++ items)) (ix_text ix3) c
  | in_second_document : forall i,
      dict_ser items = true -> (forall k z, ~ owns ps (g_next G) k z) ->
      part_of (ix_text (g_ix G)) i ->
      crashed ps G items i0 (db_text (g_db G ++ items)) (i0 ++ i) (str_of_Z (g_next G)).

  (** a MAKE with at least one pattern, or a FIND *)
  Definition draws (c : call) : Prop := match c with CallMake l => patterns_of l <> [] | CallFind _ => True end.
  Definition make_raised (c : call) (o : outcome) : Prop :=
    match c with CallMake _ => exists e, o = Raised e | CallFind _ => True end.
  (** from [w] on, whatever is called, every MAKE that draws something raises and no file changes *)
  Definition stuck (g : gdbms) (w : world) : Prop :=
    forall cs, Forall draws cs ->
      Forall2 make_raised cs (fst (perform_all g cs w)) /\ w_fs (snd (perform_all g cs w)) = w_fs w.
End SpecCrash.
