(** * SpecMessagesRun: when the message of a failed query explains the failure (C68) *)
From Verif Require Import PyBase Json SpecText SpecChecks SpecProps SpecMake SpecMessages SpecShell Literal Props Statements Checks FS Store Make Messages MessagesRun.

Section SpecMessagesRun.
  Context {rt : PyRt}.

  (** the exceptions that the project defines *)
  Definition project_error (e : exn) : Prop :=
    In e [ClauseSyntaxError; IllegalCharacterError; NonDirectedRelationshipError; ParamSyntaxError; RelationshipNameSyntaxError;
          WiggleGraphIllegalPropertyValue; PropertyTypeAssignmentError; MakeDuplicateHandlesError; MultipleClauseStatementsError;
          FindReportHandleMissmatch; NodeExistsError; RelationshipToFromError; NodeHasUnrelatedRelationship].

  (** every exception but those and the plain [Exception] of the counter *)
  Definition other_error (e : exn) : Prop := ~ project_error e /\ e <> PlainException.

  Definition file_text (p : path) (w : world) (t : pystr) : Prop := fs_get p (w_fs w) = Some (EFile t).
  (** [k in d] for the value [d] of a JSON text *)
  Definition has_key (k : pystr) (d : pyval) : Prop :=
    match d with
    | VDict d => In k (map fst d)
    | VList l => In (VStr k) l
    | VStr s => exists a b, s = a ++ k ++ b
    | _ => False
    end.
  Definition the_pieces (p : pattern) : list piece := [left_node p; left_middle_rel p; middle_node p; middle_right_rel p; right_node p].

  (** [failure q g w c e m]: the message [m] explains why the statements of clause [c] in [q] cannot be carried out in [w] *)
  Inductive failure (q : pystr) (g : gdbms) (w : world) : clause -> exn -> message -> Prop :=
  (* the counter file is empty *)
  | f_counter : file_text (wiggle_number_fp g) w [] ->
      failure q g w MAKE PlainException (Text (py "HOLD FIRE on overwriting the issue!"))
  (* a relationship with both arrow heads *)
  | f_heads c s p x : stmt_of q c s -> In p (pattern_matches s) -> In x [left_middle_rel p; middle_right_rel p] -> two_heads x ->
      failure q g w c NonDirectedRelationshipError (Text (py "Non directed relationship found: " ++ text_of x))
  (* a property that cannot be read: the first one of a property text *)
  | f_property c s p x t l1 k ty v l2 e m : stmt_of q c s -> In p (pattern_matches s) -> In x (the_pieces p) -> p_props x = Some t ->
      PropsOf t (l1 ++ (k, ty, v) :: l2) -> Forall (fun p => exists x, SpecProps.reads (snd (fst p)) (snd p) (Ok x)) l1 ->
      refused t k ty v e (Some m) -> failure q g w c e m
  (* a number of a new node that the database has already: the first one *)
  | f_exists ms ct z t d i1 k v i2 : Extracted (StatementOf MAKE) q ms -> file_text (wiggle_number_fp g) w ct -> py_int ct = Ok z ->
      file_text (database_fp g) w t -> load_json t = Ok d ->
      acceptable (flat_map pattern_matches ms) z (i1 ++ (k, v) :: i2) -> Forall (fun i => ~ has_key (fst i) d) i1 -> has_key k d ->
      failure q g w MAKE NodeExistsError (Text (py "Node " ++ k ++ py " already exists did you mean to update")).

  (** the lines of a session in which failing queries are answered by [answer]; otherwise as C46's [Session] *)
  Inductive Talk (answer : exn -> option message -> pystr) (g : gdbms) : world -> res unit -> world -> Prop :=
  | t_end : forall w, w_in w = [] -> Talk answer g w (Err EOFError) w
  | t_quit : forall w r, w_in w = py "q" :: r -> Talk answer g w (Ok tt) (says (py "Good Bye!") (says (echo (py "q")) (rest r w)))
  | t_help : forall w line r res w', w_in w = line :: r -> line <> py "q" -> mentions_help line ->
      Talk answer g (says (py "A helpful guide is on the way!" ++ [10%N]) (says (echo line) (rest r w))) res w' -> Talk answer g w res w'
  | t_succeeds : forall w line r b w1 res w', w_in w = line :: r -> line <> py "q" -> ~ mentions_help line ->
      run (query_m line g) (says (echo line) (rest r w)) = (Ok (Good b), w1) ->
      Talk answer g w1 res w' -> Talk answer g w res w'
  | t_fails : forall w line r e m w1 res w', w_in w = line :: r -> line <> py "q" -> ~ mentions_help line ->
      run (query_m line g) (says (echo line) (rest r w)) = (Ok (Bad e m), w1) ->
      Talk answer g (says (answer e m) w1) res w' -> Talk answer g w res w'.

  (** the same files, the same lines still to be read, and the same lines printed, but that "error" may stand for any of them *)
  Definition stands_for (a b : pystr) : Prop := a = b \/ a = py "error".
  Definition alike (w1 w2 : world) : Prop := w_fs w1 = w_fs w2 /\ w_in w1 = w_in w2 /\ Forall2 stands_for (w_out w1) (w_out w2).

  (** printable ASCII without backslash, and not with both kinds of quote *)
  Definition shown_plainly (s : pystr) : Prop := Forall (fun c => (32 <= c <= 126)%N /\ c <> 92%N) s /\ ~ (In 39%N s /\ In 34%N s).
End SpecMessagesRun.
