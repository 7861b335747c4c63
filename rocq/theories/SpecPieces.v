(** * SpecPieces: texts that reach a file in pieces, and what a reader makes of them (C70)

    Python hands the text of a file to the operating system in pieces (the buffer of the file object is
    emptied whenever it is full).  [crash] (FS) lets a process die between two pieces; here another
    process may read the file between two pieces. *)
From Verif Require Import PyBase Json SpecJson Props Statements FS Store SpecStore Make SpecMake Find SpecFind SpecCrash SpecBeside.

(** [in_pieces m m']: the program [m'] does what [m] does, with some writes cut into consecutive pieces *)
Inductive in_pieces {A} : io A -> io A -> Prop :=
| ip_ret : forall a, in_pieces (Ret a) (Ret a)
| ip_throw : forall e, in_pieces (Throw e) (Throw e)
| ip_do : forall c k k', (forall r, in_pieces (k r) (k' r)) -> in_pieces (Do c k) (Do c k')
| ip_cut : forall p off t1 t2 k m',
    in_pieces (Do (CWrite p (off + List.length t1) t2) k) m' ->
    in_pieces (Do (CWrite p off (t1 ++ t2)) k) (Do (CWrite p off t1) (fun _ => m')).

Section SpecPieces.
  Context {rt : PyRt}.

  (** what a reader takes from the text [t] of an indexes file as the strings named [key]: no JSON counts
      as none; otherwise the strings of the list under that key.  Were there a text instead of a list it
      would be taken for its characters, and an object for its keys; lists and objects cannot be members. *)
  Inductive taken (key t : pystr) : res (list pystr) -> Prop :=
  | tk_not_json : load_json t = Err JSONDecodeError -> taken key t (Ok [])
  | tk_list : forall d l ss, load_json t = Ok (VDict d) -> d_get key d = Some (VList l) ->
      (forall v, In v l -> (forall l', v <> VList l') /\ (forall d', v <> VDict d')) ->
      (forall s, In s ss <-> In (VStr s) l) -> taken key t (Ok ss)
  | tk_text : forall d x ss, load_json t = Ok (VDict d) -> d_get key d = Some (VStr x) ->
      (forall s, In s ss <-> exists c, In c x /\ s = [c]) -> taken key t (Ok ss)
  | tk_object : forall d x ss, load_json t = Ok (VDict d) -> d_get key d = Some (VDict x) ->
      (forall s, In s ss <-> exists v, In (s, v) x) -> taken key t (Ok ss)
  | tk_no_key : forall d, load_json t = Ok (VDict d) -> d_get key d = None -> taken key t (Err KeyError)
  | tk_no_dict : forall v, load_json t = Ok v -> (forall d, v <> VDict d) -> taken key t (Err TypeError)
  | tk_nested : forall d l v, load_json t = Ok (VDict d) -> d_get key d = Some (VList l) -> In v l ->
      (exists l', v = VList l') \/ (exists d', v = VDict d') -> taken key t (Err TypeError)
  | tk_single : forall d v, load_json t = Ok (VDict d) -> d_get key d = Some v ->
      (forall l, v <> VList l) -> (forall x, v <> VStr x) -> (forall x, v <> VDict x) -> taken key t (Err TypeError).

  (** the answer to the pattern [p] when the labels are taken from the text [t1] and the names from [t2] *)
  Inductive answer_from (p : pattern) (t1 t2 : pystr) : res (option (list (bool * bool))) -> Prop :=
  | af_labels_raise : forall e, taken NODE_LABELS t1 (Err e) -> answer_from p t1 t2 (Err e)
  | af_names_raise : forall ls e, taken NODE_LABELS t1 (Ok ls) -> taken RELATIONSHIP_NAMES t2 (Err e) -> answer_from p t1 t2 (Err e)
  | af_answer : forall ls ns r, taken NODE_LABELS t1 (Ok ls) -> taken RELATIONSHIP_NAMES t2 (Ok ns) ->
      answered p (fun s => In s ls) (fun s => In s ns) r -> answer_from p t1 t2 r.

  (** the texts the indexes file can hold while the patterns [ps] are made, or after that was stopped (C33) *)
  Definition index_met (ps : list pattern) (G : graph) (i0 i : pystr) : Prop :=
    i = i0 \/ exists items d c, acceptable ps (g_next G) items /\ crashed ps G items i0 d i c.
End SpecPieces.
