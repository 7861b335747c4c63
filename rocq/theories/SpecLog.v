(** * SpecLog: what the log is meant to tell (C76)

    [record], programs with records ([lio]), their runs ([lrun]) and their runs up to some moment ([lcrash]) are in Log. *)
From Verif Require Import PyBase Json SpecJson Statements FS Store SpecStore Make SpecMake Query SpecShell SpecDurable Log.

(** ** Programs without their records *)
Fixpoint quiet {A} (m : lio A) : io A :=
  match m with
  | LRet a => Ret a
  | LThrow e => Throw e
  | LDo c k => Do c (fun r => quiet (k r))
  | LLog _ m' => quiet m'
  end.
(** the same operations, with the same continuation for every response *)
Inductive same_program {A} : io A -> io A -> Prop :=
| same_ret a : same_program (Ret a) (Ret a)
| same_throw e : same_program (Throw e) (Throw e)
| same_do c k k' : (forall r, same_program (k r) (k' r)) -> same_program (Do c k) (Do c k').

(** ** Counting *)
(** the record says that [n] records were added *)
Definition says_added (r : record) (n : nat) : Prop :=
  snd r = py "Successfully added " ++ str_of_Z (Z.of_nat n) ++ py " records to the database.".
(** the records together say that [n] were added *)
Inductive tally : list record -> nat -> Prop :=
| tally_none : tally [] 0
| tally_added r n l m : says_added r n -> tally l m -> tally (r :: l) (n + m)
| tally_other r l m : (forall n, ~ says_added r n) -> tally l m -> tally (r :: l) m.

(** ** Strings in clear *)
(** the properties of the node or relationship [v] have the string [s] *)
Definition own_string (v : pyval) (s : pystr) : Prop :=
  exists d ps k, v = VDict d /\ d_get (py "properties") d = Some (VDict ps) /\ In (k, VStr s) ps.
(** the properties of the node [v] or of one of its relationships have the string [s] *)
Definition has_string (v : pyval) (s : pystr) : Prop :=
  own_string v s \/ exists d rs r, v = VDict d /\ d_get (py "relations") d = Some (VList rs) /\ In r rs /\ own_string r s.
(** a record that shows it *)
Definition in_clear (s : pystr) (r : record) : Prop := exists t what, r = (DEBUG, t ++ py " was determined to be " ++ what ++ s).

(** ** Damaged indexes *)
Definition says_empty (name : pystr) : record := (ERROR, py "Empty " ++ name ++ py " indexes, returning a new one").

(** the two records of an answered query that could not read the indexes *)
Definition both_empty : list record := [says_empty (py "node_labels"); says_empty (py "relationship_names")].

(** ** What an answered query logs *)
(** a record about a property value *)
Definition on_value (r : record) : Prop := exists t what, r = (DEBUG, t ++ py " was determined to be " ++ what).
(** MAKE read the counter [z], met some property values and added [n] entries *)
Definition make_log (z : Z) (vals : list record) (n : nat) : list record :=
  [(DEBUG, py "Attempting getting WiggleNumber"); (DEBUG, py "Wiggle number found, casting to int");
   (INFO, py "Successfully got Wiggle number was " ++ str_of_Z z)] ++ vals ++
  [(INFO, py "writing to db"); (INFO, py "Successfully added " ++ str_of_Z (Z.of_nat n) ++ py " records to the database.")] ++
  [(DEBUG, py "Updating state for WiggleNumber"); (DEBUG, py "Successfully updated state for WiggleNumber")].
(** FIND looked into an index that could be read, or could not *)
Definition look_log (name : pystr) (readable : bool) : list record :=
  [(INFO, py "Attempting to loading " ++ name ++ py " indexes");
   if readable then (INFO, py "Successfully loaded " ++ name ++ py " index") else says_empty name].
Definition find_log (vals : list record) (readable : bool) : list record :=
  vals ++ look_log (py "node_labels") readable ++ look_log (py "relationship_names") readable.

Section SpecLog.
  Context {rt : PyRt} (list_text : pyval -> pystr).

  (** ** Queries one after the other, with what each of them logged *)
  Record heard := { h_query : pystr; h_fate : fate; h_log : list record }.
  Definition sent_l (g : gdbms) (x : heard) (w w' : world) : Prop :=
    match h_fate x with
    | Answered => exists b, lrun (query_l list_text (h_query x) g) w = (h_log x, Ok b, w')
    | Failed e => lrun (query_l list_text (h_query x) g) w = (h_log x, Err e, w')
    | Cut => lcrash (query_l list_text (h_query x) g) w (h_log x) w'
    end.
  Inductive history_l (g : gdbms) : list heard -> world -> world -> Prop :=
  | hl_none : forall w, history_l g [] w w
  | hl_one : forall x h w w1 w2 w3, sent_l g x w w1 ->
      (forall p, In p (the_files g) -> fs_get p (w_fs w2) = fs_get p (w_fs w1)) ->
      history_l g h w2 w3 -> history_l g (x :: h) w w3.

  (** [items] are what the query left in the database, and the log tells it: how many (a query that was cut off may
      not have got so far), and every string among the properties *)
  Definition told (x : heard) (items : list (pystr * pyval)) : Prop :=
    left_behind (h_query x, h_fate x) items /\
    (tally (h_log x) (List.length items) \/ h_fate x = Cut /\ tally (h_log x) 0) /\
    forall k v s, In (k, v) items -> has_string v s -> exists r, In r (h_log x) /\ in_clear s r.

  (** the indexes file is there and not JSON *)
  Definition damaged (p : path) (w : world) : Prop := exists t, file_is p t w /\ load_json t = Err JSONDecodeError.
End SpecLog.
