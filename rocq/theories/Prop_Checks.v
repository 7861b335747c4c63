(** * Prop_Checks: what validation finds in any text, and what it accepts (C05, C07, C08, C10, C59) *)
From Verif Require Import PyBase Regex RegexSpec Patterns SpecText SpecPattern Literal Props Checks Statements SpecChecks AsciiRt RegexFacts AsciiFacts CheckMore.

(** ** C05 *)
(** No part of a pattern of an accepted MAKE contains a forbidden character. *)
Theorem C05_parsed_text_legal : forall (rt : PyRt), rt_ok rt ->
  forall (q : pystr) (l : list parsed_make) (pm : parsed_make) (p : pattern) (x : piece) (s : pystr),
  parse_make q = Ok (Some l) -> In pm l -> In p (pm_patterns pm) ->
  In x [left_node p; left_middle_rel p; middle_node p; middle_right_rel p; right_node p] ->
  In (Some s) [p_text x; p_handle x; p_label x; p_props x] -> ~ has_illegal s.
Proof. exact @parsed_legal. Qed.
Print Assumptions C05_parsed_text_legal.
Example C05_parsed_example : exists l pm p, @parse_make ascii_rt (py "MAKE (a:A {x: 1});") = Ok (Some l) /\ In pm l /\ In p (pm_patterns pm) /\
  p_label (left_node p) = Some (py "A") /\ p_props (left_node p) = Some (py "{x: 1}").
Proof. eexists [_], _, _. vm_compute. split; [reflexivity|]. split; [left; reflexivity|]. split; [left; reflexivity|]. split; reflexivity. Qed.

(** ** C07 *)
(** The relationships found in a text, with their names: for every text. *)
Theorem C07_relationships_found : forall (rt : PyRt), rt_ok rt -> forall (s : pystr), Relationships s (rel_matches s).
Proof. exact @rel_matches_are. Qed.
Print Assumptions C07_relationships_found.
Theorem C07_relationships_unique : forall (rt : PyRt), rt_ok rt -> forall (s : pystr) (r1 r2 : list (pystr * pystr)),
  Relationships s r1 -> Relationships s r2 -> r1 = r2.
Proof. exact @relationships_unique. Qed.
Print Assumptions C07_relationships_unique.
(** The check passes exactly if the relationships are acceptable, up to the first statement without any. *)
Theorem C07_check_any_statements : forall (rt : PyRt), rt_ok rt -> forall (stmts : list pystr),
  check_relationships stmts = Ok tt <-> all_rels stmts.
Proof. exact @relationships_check. Qed.
Print Assumptions C07_check_any_statements.
(** also in text that is no pattern; the ']' may be missing, and then the last letter of the name is not seen *)
Example C07_found_example :
  @Relationships ascii_rt (py "x <--[ r :KNOWS {a: 1}]- y -[:Lx-->") [(py "<--[ r :KNOWS {a: 1}]-", py "KNOWS"); (py "-[:Lx-->", py "L")].
Proof. exact (C07_relationships_found ascii_rt ascii_ok' (py "x <--[ r :KNOWS {a: 1}]- y -[:Lx-->")). Qed.
(** so a name whose only small letter is the last one passes if the ']' is missing *)
Theorem C07_missing_bracket_refuted :
  @check_relationships ascii_rt [py "-[:LIKEs]->"] = Err RelationshipNameSyntaxError /\
  @check_relationships ascii_rt [py "-[:LIKEs->"] = Ok tt.
Proof. vm_compute. auto. Qed.
Example C07_any_example : @all_rels ascii_rt [py "-[:R]->"] /\ ~ @all_rels ascii_rt [py "-[:R]-"].
Proof.
  split; [apply (C07_check_any_statements ascii_rt ascii_ok'); reflexivity|].
  intros H. apply (C07_check_any_statements ascii_rt ascii_ok') in H. discriminate.
Qed.

(** ** C08 *)
Theorem C08_property_lists_found : forall (rt : PyRt) (s : pystr), Extracted PropsText s (map fst (finditer check_properties s)).
Proof. exact @props_found. Qed.
Print Assumptions C08_property_lists_found.
Theorem C08_check_any_statements : forall (rt : PyRt) (stmts : list pystr), check_node_rel_properties stmts = Ok tt <-> all_props stmts.
Proof. exact @props_check. Qed.
Print Assumptions C08_check_any_statements.
Theorem C08_check_error : forall (rt : PyRt) (stmts : list pystr) (e : exn), check_node_rel_properties stmts = Err e -> props_error stmts e.
Proof. exact @props_check_err. Qed.
Print Assumptions C08_check_error.
Example C08_any_example : let rt := ascii_rt in
  Extracted PropsText (py "(a:A {x: 1})-[{b} {{y: [1, 2]}") [py "{x: 1}"; py "{b}"; py "{y: [1, 2]}"] /\
  all_props [py "(a:A {x: 1})-[{{y: [1, 2]}"].
Proof.
  intros rt. split; [exact (C08_property_lists_found ascii_rt (py "(a:A {x: 1})-[{b} {{y: [1, 2]}"))|].
  apply (C08_check_any_statements ascii_rt). vm_compute. reflexivity.
Qed.

(** ** C10 *)
(** The patterns of a statement are read from left to right, and nothing is passed over where a pattern could start. *)
Theorem C10_nothing_passed_over : forall (rt : PyRt) (stmt : pystr), AllPatterns stmt (pattern_matches stmt).
Proof. exact @all_patterns. Qed.
Print Assumptions C10_nothing_passed_over.
Example C10_passed_example : map (fun p => p_label (left_node p)) (@pattern_matches ascii_rt (py "MAKE(a:A),x(:B);")) = [Some (py "A"); Some (py "B")].
Proof. vm_compute. reflexivity. Qed.

(** ** C59 *)
(** The outcome of validating any list of statements, and which error comes first. *)
Theorem C59_verdict : forall (rt : PyRt), rt_ok rt -> forall (stmts : list pystr), verdict stmts (validate_statement stmts).
Proof. exact @validation. Qed.
Print Assumptions C59_verdict.
Theorem C59_accepted : forall (rt : PyRt), rt_ok rt -> forall (stmts : list pystr), validate_statement stmts = Ok tt <-> accepted stmts.
Proof. exact @validation_ok. Qed.
Print Assumptions C59_accepted.
Example C59_examples : let rt := ascii_rt in
  accepted [py "MAKE (a:A {x: [1, 2], y: true})-[r:R]->(b:B);"] /\
  validate_statement [py "MAKE ((a:A {x 1})-[r:r]-(b:#B);"] = Err ClauseSyntaxError /\
  validate_statement [py "MAKE (a:A {x 1})-[r:r]-(b:#B);"] = Err IllegalCharacterError /\
  validate_statement [py "MAKE (a:A {x 1})-[r:r]-(b:B);"] = Err ParamSyntaxError /\
  validate_statement [py "MAKE (a:A {x: [y]})-[r:r]-(b:B);"] = Err ValueError /\
  validate_statement [py "MAKE (a:A {x: 1})-[r:r]-(b:B);"] = Err NonDirectedRelationshipError /\
  validate_statement [py "MAKE (a:A {x: 1})-[r:r]->(b:B);"] = Err RelationshipNameSyntaxError.
Proof.
  intros rt. split; [apply (C59_accepted ascii_rt ascii_ok'); vm_compute; reflexivity|]. vm_compute. repeat split; reflexivity.
Qed.
