(** * SpecMessages: when a message explains an error (C66)

    Only the vocabulary of SpecText, SpecPattern, SpecChecks, SpecValue and SpecProps. *)
From Verif Require Import PyBase SpecText SpecPattern SpecValue SpecProps SpecChecks Literal Props Statements Checks Messages.

(** the exception, without its message *)
Definition erase {A} (x : resm A) : res A := match x with Good a => Ok a | Bad e _ => Err e end.

Section SpecMessages.
  Context {rt : PyRt}.
  Definition even (a b : N) (s : pystr) : Prop := Nat.Even (occ a s + occ b s).
  Definition odd (a b : N) (s : pystr) : Prop := ~ even a b s.

  (** [s] is one of the statements of the MAKE or FIND clause [c] in [q] *)
  Definition stmt_of (q : pystr) (c : clause) (s : pystr) : Prop :=
    (c = MAKE \/ c = FIND) /\ exists ms, Extracted (StatementOf c) q ms /\ In s ms.

  Inductive explains (q : pystr) : exn -> message -> Prop :=
  (* no complete statement, but a word with the letters of the keyword before a parenthesis *)
  | x_call c a w sp b : c = MAKE \/ c = FIND -> Extracted (StatementOf c) q [] ->
      q = a ++ w ++ sp ++ py "(" ++ b -> Anagram (keyword c) w -> sp = [] \/ (exists x, sp = [x] /\ is_space x = true) ->
      explains q ClauseSyntaxError (Text (py "SyntaxError: " ++ w ++ py " was not recognised did you mean " ++ keyword c ++ py "?"))
  | x_report a w t b : Extracted (StatementOf REPORT) q [] -> q = a ++ (w ++ t ++ py ";") ++ b -> Anagram (py "REPORT") w -> t <> [] -> no_newline t ->
      explains q ClauseSyntaxError
        (Quoting (py "SyntaxError: ") (ATuple [w ++ t ++ py ";"; w]) (py " was not recognised did you mean " ++ py "REPORT" ++ py "?"))
  (* the text between two arrow heads with an odd number of parentheses, braces or brackets *)
  | x_paren c s seg : stmt_of q c s -> Segment s seg -> odd 40 41 seg ->
      explains q ClauseSyntaxError (Text (py "Node is missing a parentheses: ---> " ++ seg ++ py " <---"))
  | x_curly c s seg : stmt_of q c s -> Segment s seg -> even 40 41 seg -> odd 123 125 seg ->
      explains q ClauseSyntaxError (Text (py "Properties is missing a curly brace: ---> " ++ seg ++ py " <---"))
  | x_square c s seg : stmt_of q c s -> Segment s seg -> even 40 41 seg -> even 123 125 seg -> odd 91 93 seg ->
      explains q ClauseSyntaxError
        (Text (py "A Relationship or property list is missing a square bracket: ---> " ++ seg ++ py " <---"))
  (* the first forbidden character of a statement *)
  | x_illegal c s a x b : stmt_of q c s -> s = a ++ x :: b -> ~ has_illegal a -> In x (py "#%&*$") ->
      explains q IllegalCharacterError (Text ([x] ++ py " is not allowed"))
  (* a property text without its lists, in which the colons and commas do not fit; [pythonise] as in C08 *)
  | x_count c s ts t out ls : stmt_of q c s -> Extracted PropsText s ts -> In t ts -> TakenOut ListLiteral (pythonise t) out ls ->
      occ 58 out <> occ 44 out + 1 -> explains q ParamSyntaxError (Text (py "SyntaxError: " ++ out ++ py " missing : or ,"))
  (* the lists of a property text, one of which is no Python expression *)
  | x_list c s ts t out ls l : stmt_of q c s -> Extracted PropsText s ts -> In t ts -> TakenOut ListLiteral (pythonise t) out ls ->
      In l ls -> literal_eval l = Err SyntaxError ->
      explains q ParamSyntaxError (Quoting (py "SyntaxError: ") (AList ls) (py " missing a comma?"))
  (* a relationship with two arrow heads, with none, or whose name is not in upper case *)
  | x_two c s rs t n : stmt_of q c s -> Relationships s rs -> In (t, n) rs -> In 60%N t -> In 62%N t ->
      explains q NonDirectedRelationshipError (Text (py "Relationships must be unidirectional: " ++ t))
  | x_none c s rs t n : stmt_of q c s -> Relationships s rs -> In (t, n) rs -> ~ In 60%N t -> ~ In 62%N t ->
      explains q NonDirectedRelationshipError (Text (py "Relationships must be singly directed: " ++ t))
  | x_name c s rs t n : stmt_of q c s -> Relationships s rs -> In (t, n) rs -> n <> [] -> str_isupper n = false ->
      explains q RelationshipNameSyntaxError (Text (py "Relationship names must be upper case: " ++ n ++ py " -> " ++ str_upper n))
  (* a pattern with two equal handles: all its handles *)
  | x_handles c s p : stmt_of q c s -> In p (pattern_matches s) -> ~ NoDup (handle_names p) ->
      explains q MakeDuplicateHandlesError (Text (py "Handles must be unique per MAKE statement Handles:" ++ join (py ", ") (handle_names p)))
  (* more than one FIND or REPORT *)
  | x_many c ms : c = FIND \/ c = REPORT -> Extracted (StatementOf c) q ms -> 1 < List.length ms ->
      explains q MultipleClauseStatementsError (Text (py "Only one Clause." ++ keyword c ++ py " clause is allowed per query"))
  (* a handle of the FIND that does not occur in the REPORT *)
  | x_missing f h rep : parse_find q = Ok (Some f) -> In h (handle_names (pf_pattern f)) ->
      Extracted (StatementOf REPORT) q [rep] -> (forall a b, rep <> a ++ h ++ b) ->
      explains q FindReportHandleMissmatch (Text (py "FIND handle " ++ h ++ py " was not found not in the ---> " ++ rep ++ py " <---")).
  (** the exceptions of Python and pydantic *)
  Definition python_error (e : exn) : Prop :=
    e = AttributeError \/ e = IndexError \/ e = ValidationError \/ exists l, literal_eval l = Err e /\ e <> SyntaxError.

  (** ** Properties *)
  (** the message for the property [k] of the property text [s], whose value was found as the text [v] of kind [t] *)
  Inductive refused (s k : pystr) : ptype -> pystr -> exn -> option message -> Prop :=
  | rf_null v : v <> py "null" ->
      refused s k PNone v WiggleGraphIllegalPropertyValue (Some (Text (py "Value must be null: provided value was " ++ v ++ py " ")))
  | rf_true : refused s k PBool (py "True") WiggleGraphIllegalPropertyValue
      (Some (Text (py "True should be lowercase. Boolean property example {foo: true}")))
  | rf_false : refused s k PBool (py "False") WiggleGraphIllegalPropertyValue
      (Some (Text (py "False should be lowercase. Boolean property example {foo: false}")))
  | rf_bool v : ~ In v [py "true"; py "false"; py "True"; py "False"] ->
      refused s k PBool v WiggleGraphIllegalPropertyValue (Some (Text (v ++ py " is not a boolean")))
  | rf_float v : f_repr v = None ->
      refused s k PFloat v WiggleGraphIllegalPropertyValue (Some (Text (v ++ py " was mot a decimal. Float property example: {foo: 3.14}")))
  | rf_int v : ~ short_enough v ->
      refused s k PInt v WiggleGraphIllegalPropertyValue (Some (Text (v ++ py " was mot an integer. Integer property example: {foo: 3.14}")))
  | rf_list v : literal_eval (respelt v) = Err SyntaxError ->
      refused s k PList v WiggleGraphIllegalPropertyValue (Some (Text (v ++ py " contained an Error.")))
  | rf_list_err v e : literal_eval (respelt v) = Err e -> e <> SyntaxError -> refused s k PList v e None
  | rf_blank v : all_space v ->
      refused s k PString v WiggleGraphIllegalPropertyValue
        (Some (Text (py "Error for setting property in " ++ s ++ py " " ++ k ++ py " was empty a value must be supplied")))
  | rf_null_word v x : Trimmed v x -> In x [py "Null"; py "None"; py "none"] ->
      refused s k PString v WiggleGraphIllegalPropertyValue
        (Some (Text (py "Cannot use " ++ x ++ py " as a string, please use the null type for example {foo: null}")))
  | rf_bool_word v x : Trimmed v x -> In x [py "true"; py "True"; py "false"; py "False"] ->
      refused s k PString v WiggleGraphIllegalPropertyValue
        (Some (Text (py "Cannot use " ++ x ++ py " as a string, please use the bool type for example {foo: true}"))).
End SpecMessages.
