(** * C66: what error messages say *)
From Verif Require Import PyBase Json Literal SpecText SpecPattern SpecValue SpecProps SpecChecks Props Statements Checks Query RtLaws
  AsciiRt AsciiFacts Messages SpecMessages MessagesFacts SpecLine LineFacts.

(** the model with messages raises the same exceptions as the model of the other properties *)
Theorem C66_same_errors : forall (rt : PyRt), rt_ok rt -> forall (q : pystr), erase (parse_query_string_m q) = parse_query_string q.
Proof. exact @query_same. Qed.
Print Assumptions C66_same_errors.
Theorem C66_same_property_errors : forall (rt : PyRt) (s : option pystr), erase (get_property_dict_m s) = get_property_dict s.
Proof. exact @properties_same. Qed.
Print Assumptions C66_same_property_errors.
(** every message of a refused query names a fault the query has; an error without a message of the project is one of Python's *)
Theorem C66_message_explains : forall (rt : PyRt), rt_ok rt -> forall (q : pystr) (e : exn) (m : message),
  parse_query_string_m q = Bad e (Some m) -> explains q e m.
Proof. exact (fun rt R q e m => @messages_explain rt R q e (Some m)). Qed.
Print Assumptions C66_message_explains.
Theorem C66_no_message : forall (rt : PyRt), rt_ok rt -> forall (q : pystr) (e : exn),
  parse_query_string_m q = Bad e None -> python_error e.
Proof. exact (fun rt R q e => @messages_explain rt R q e None). Qed.
Print Assumptions C66_no_message.
(** the message of a refused property text is about its first property that cannot be read *)
Theorem C66_refused_property : forall (rt : PyRt), rt_data rt -> forall (s : pystr) (e : exn) (m : option message),
  parse_properties_m s = Bad e m ->
  exists l1 k t v l2, PropsOf s (l1 ++ (k, t, v) :: l2) /\
    Forall (fun p => exists x, SpecProps.reads (snd (fst p)) (snd p) (Ok x)) l1 /\ refused s k t v e m.
Proof. exact @refused_property. Qed.
Print Assumptions C66_refused_property.
(** a MAKE that is only not finished is told to be misspelt, with the keyword it has as the suggestion *)
Theorem C66_unfinished_make : forall (rt : PyRt) (b : pystr), (forall a c, py "MAKE (" ++ b <> a ++ py ");" ++ c) ->
  parse_query_string_m (py "MAKE (" ++ b) =
  Bad ClauseSyntaxError (Some (Text (py "SyntaxError: MAKE was not recognised did you mean MAKE?"))).
Proof. exact @unfinished_make. Qed.
Print Assumptions C66_unfinished_make.
(** so a suggestion is not always a correction *)
Theorem C66_suggestion_refuted : exists q w, parse_query_string_m (rt := ascii_rt) q =
  Bad ClauseSyntaxError (Some (Text (py "SyntaxError: " ++ w ++ py " was not recognised did you mean " ++ w ++ py "?"))).
Proof. exists (py "MAKE (:A)"), (py "MAKE"). vm_compute. reflexivity. Qed.
Print Assumptions C66_suggestion_refuted.

(** ** Cases that meet the hypotheses *)
Definition tells (q : pystr) (e : exn) (m : message) : Prop := parse_query_string_m (rt := ascii_rt) q = Bad e (Some m).
Example C66_example_spelling : tells (py "MAEK (:A);") ClauseSyntaxError (Text (py "SyntaxError: MAEK was not recognised did you mean MAKE?")).
Proof. vm_compute. reflexivity. Qed.
Example C66_example_paren : tells (py "MAKE (:A)-[]->((:B);") ClauseSyntaxError
  (Text (py "Node is missing a parentheses: ---> ((:B); <---")).
Proof. vm_compute. reflexivity. Qed.
Example C66_example_brace : tells (py "MAKE (:A)-[]->(:B{x: 1);") ClauseSyntaxError
  (Text (py "Properties is missing a curly brace: ---> (:B{x: 1); <---")).
Proof. vm_compute. reflexivity. Qed.
Example C66_example_illegal : tells (py "MAKE (:A%#)-[]->(:B);") IllegalCharacterError (Text (py "% is not allowed")).
Proof. vm_compute. reflexivity. Qed.
Example C66_example_param : tells (py "MAKE (:A{x 1});") ParamSyntaxError (Text (py "SyntaxError: {x 1} missing : or ,")).
Proof. vm_compute. reflexivity. Qed.
Example C66_example_list : tells (py "MAKE (:A{x:[1 2]});") ParamSyntaxError
  (Quoting (py "SyntaxError: ") (AList [py "[1 2]"]) (py " missing a comma?")).
Proof. vm_compute. reflexivity. Qed.
Example C66_example_directions : tells (py "MAKE (:A)<-[:R]->(:B);") NonDirectedRelationshipError
  (Text (py "Relationships must be unidirectional: <-[:R]->")).
Proof. vm_compute. reflexivity. Qed.
Example C66_example_no_direction : tells (py "MAKE (:A)-[:R]-(:B);") NonDirectedRelationshipError
  (Text (py "Relationships must be singly directed: -[:R]-")).
Proof. vm_compute. reflexivity. Qed.
(** with a name that has no case the suggestion is the name itself *)
Example C66_example_name : tells (py "MAKE (:A)-[:1]->(:B);") RelationshipNameSyntaxError
  (Text (py "Relationship names must be upper case: 1 -> 1")).
Proof. vm_compute. reflexivity. Qed.
Example C66_example_handles : tells (py "MAKE (a:A)-[]->(a:B);") MakeDuplicateHandlesError
  (Text (py "Handles must be unique per MAKE statement Handles:a, a")).
Proof. vm_compute. reflexivity. Qed.
Example C66_example_missing : tells (py "FIND (ab:A); REPORT x;") FindReportHandleMissmatch
  (Text (py "FIND handle ab was not found not in the ---> REPORT x; <---")).
Proof. vm_compute. reflexivity. Qed.
(** the message of a misspelt REPORT shows a Python tuple *)
Example C66_example_report : tells (py "FIND (a:A); REPROT x;") ClauseSyntaxError
  (Quoting (py "SyntaxError: ") (ATuple [py "REPROT x;"; py "REPROT"]) (py " was not recognised did you mean REPORT?")).
Proof. vm_compute. reflexivity. Qed.
Example C66_example_no_message : parse_query_string_m (rt := ascii_rt) (py "MAKE (:A);") = Bad AttributeError None.
Proof. vm_compute. reflexivity. Qed.
Example C66_example_property : parse_properties_m (rt := ascii_rt) (py "{a: 1, b: TRUE}") =
  Bad WiggleGraphIllegalPropertyValue (Some (Text (py "TRUE is not a boolean"))).
Proof. vm_compute. reflexivity. Qed.
Example C66_example_blank : parse_properties_m (rt := ascii_rt) (py "{a: }") =
  Bad WiggleGraphIllegalPropertyValue (Some (Text (py "Error for setting property in {a: } a was empty a value must be supplied"))).
Proof. vm_compute. reflexivity. Qed.
Example C66_example_unfinished : forall a c, py "MAKE (" ++ py ":A)" <> a ++ py ");" ++ c.
Proof. intros a c. do 10 (destruct a as [|? a]; [discriminate|]). discriminate. Qed.

(** the name that is suggested for a relationship is its name in upper case (SpecLine) *)
Theorem C66_upper_case : forall (rt : PyRt) (s : pystr), in_upper_case s (str_upper s).
Proof. exact @upper_case. Qed.
Print Assumptions C66_upper_case.
Example C66_example_upper : @str_upper ascii_rt (py "knows_2") = py "KNOWS_2".
Proof. reflexivity. Qed.
