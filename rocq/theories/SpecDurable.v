(** * SpecDurable: queries that end or are cut off, one after the other (C62) *)
From Verif Require Import PyBase Json SpecJson Statements FS Store SpecStore Make SpecMake Query SpecShell.

(** what the user sees of a query: its answer, an exception, or nothing, the process having died *)
Inductive fate := Answered | Failed (e : exn) | Cut.

Section SpecDurable.
  Context {rt : PyRt}.

  (** [q] is sent in [w] and leaves [w'] *)
  Definition sent (g : gdbms) (q : pystr) (o : fate) (w w' : world) : Prop :=
    match o with
    | Answered => exists b, run (query q g) w = (Ok b, w')
    | Failed e => run (query q g) w = (Err e, w')
    | Cut => crash (query q g) w w'
    end.

  (** Queries on the graph [g], one after the other.  Between two of them everything but the three
      files of [g] may change: other graphs, the terminal, a new process. *)
  Inductive history (g : gdbms) : list (pystr * fate) -> world -> world -> Prop :=
  | no_query : forall w, history g [] w w
  | one_query : forall q o h w w1 w2 w3, sent g q o w w1 ->
      (forall p, In p (the_files g) -> fs_get p (w_fs w2) = fs_get p (w_fs w1)) ->
      history g h w2 w3 -> history g ((q, o) :: h) w w3.

  (** [items] are what the query left in the database: nothing without a MAKE; all nodes of its MAKE,
      numbered from some [z], if it was answered; otherwise all of them or none. *)
  Definition left_behind (qo : pystr * fate) (items : list (pystr * pyval)) : Prop :=
    match parse_make (fst qo) with
    | Ok (Some l) => (exists z, acceptable (patterns_of l) z items) \/ items = [] /\ snd qo <> Answered
    | _ => items = []
    end.

  Definition unreadable (g : gdbms) (w : world) : Prop :=
    exists t, file_is (database_fp g) t w /\ load_json t = Err JSONDecodeError.
End SpecDurable.
