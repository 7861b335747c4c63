(** * SpecProc: one graph and many processes (C74)

    A process has its own order of sets (the hash seed), its own start time, and perhaps another Python with other
    tables of characters: it is a runtime of its own.  What all of them have in common is how a float is read and
    written ([f_repr], that is [repr(float(text))]). *)
From Verif Require Import PyBase Json SpecJson RtLaws Statements FS Store SpecStore Make SpecMake Query Gdbms SpecShell SpecDurable SpecMany SpecSound SpecGdbms SpecRuns.

Definition process (base p : PyRt) : Prop := rt_data p /\ @f_repr p = @f_repr base.

(** a query, the process that carries it out, and what becomes of it *)
Record sent_by := { sb_process : PyRt; sb_query : pystr; sb_fate : fate }.

(** Queries on the graph [g], one after the other, each in any process.  Between two of them everything but the three
    files of [g] may change. *)
Inductive history_of (base : PyRt) (g : gdbms) : list sent_by -> world -> world -> Prop :=
| ho_none : forall w, history_of base g [] w w
| ho_one : forall s h w w1 w2 w3, process base (sb_process s) -> @sent (sb_process s) g (sb_query s) (sb_fate s) w w1 ->
    (forall p, In p (the_files g) -> fs_get p (w_fs w2) = fs_get p (w_fs w1)) ->
    history_of base g h w2 w3 -> history_of base g (s :: h) w w3.

(** what the query left in the database, as its process understands it *)
Definition left_by (s : sent_by) (items : list (pystr * pyval)) : Prop :=
  @left_behind (sb_process s) (sb_query s, sb_fate s) items.

(** queries one after the other, each in its process; what they raise is caught *)
Fixpoint session_of (g : gdbms) (qs : list (PyRt * pystr)) (w : world) : list (res bool) * world :=
  match qs with
  | [] => ([], w)
  | (p, q) :: qs' => let (r, w1) := run (@query p q g) w in let (rs, w2) := session_of g qs' w1 in (r :: rs, w2)
  end.

(** runs of the program on the existing graph [n], each in its process *)
Inductive runs_of (base : PyRt) (folder : path) (n : pystr) : list (res bool) -> world -> world -> Prop :=
| ro_none : forall w, runs_of base folder n [] w w
| ro_one : forall p w y s lines qs fuel r w1 w2 w3 rs, process base p ->
    y = py "y" \/ y = py "yes" -> offered folder w s n -> w_in w = y :: s :: lines -> @Executed p lines qs ->
    List.length (w_in w) < fuel -> run (@start_wiggle_shell p fuel folder) w = (r, w1) ->
    (forall f, In f (files_of (graph_at folder n)) -> entry_at f w2 = entry_at f w1) ->
    runs_of base folder n rs w2 w3 ->
    runs_of base folder n (fst (@session p (graph_at folder n) qs w) ++ rs) w w3.

(** queries at the same time, each in its process *)
Definition programs (g : gdbms) (qs : list (PyRt * pystr)) : list (io bool) := map (fun pq => @query (fst pq) (snd pq) g) qs.
(** [items] are all nodes of the MAKE of the [i]th query, numbered from some [z], as its process understands it *)
Definition made_by_one (qs : list (PyRt * pystr)) (i : nat) (items : list (pystr * pyval)) : Prop :=
  exists p q l z, nth_error qs i = Some (p, q) /\ @parse_make p q = Ok (Some l) /\ @acceptable p (patterns_of l) z items.
