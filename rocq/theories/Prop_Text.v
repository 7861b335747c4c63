(** * Prop_Text: statement extraction and the statement checks (C01-C08)

    Every theorem ranges over an arbitrary Python runtime [rt]. *)
From Verif Require Import PyBase SpecText Literal Props Checks ChecksFacts AsciiRt.

(** ** C01 *)
Theorem C01_extraction_genuine : forall (rt : PyRt) (q : pystr) (c : clause) (ms : list pystr),
  extract_all_statements q c = Ok (Some ms) ->
  Extracted (StatementOf c) q ms /\ Forall (StatementOf c) ms /\
  exists gaps, List.length gaps = S (List.length ms) /\ q = weave gaps ms.
Proof. exact @extraction_genuine. Qed.
Print Assumptions C01_extraction_genuine.

(** The pieces are determined by the text. *)
Theorem C01_extraction_exact : forall (rt : PyRt) (q : pystr) (c : clause) (ms : list pystr),
  c <> CRITERIA -> ms <> [] -> Extracted (StatementOf c) q ms ->
  extract_all_statements q c = Ok (Some ms).
Proof. exact @extraction_exact. Qed.
Print Assumptions C01_extraction_exact.

Example C01_example : @extract_all_statements ascii_rt
    (py "x mAkE (a:B); y" ++ [10%N] ++ py "make(c:D);") MAKE
  = Ok (Some [py "mAkE (a:B);"; py "make(c:D);"]).
Proof. vm_compute. reflexivity. Qed.

(** ** C02 *)
Theorem C02_runs_to_last_paren : forall (rt : PyRt) (c : clause) (pre k sp body tail rest : pystr) (ms : list pystr),
  c = MAKE \/ c = FIND ->
  ~ Occurs (keyword c) pre ->
  Ci (keyword c) k -> all_space sp -> body <> [] -> no_newline body ->
  no_newline tail -> (forall u v, tail <> u ++ py ");" ++ v) ->
  (rest = [] \/ exists rest', rest = 10%N :: rest') ->
  Extracted (StatementOf c) (tail ++ rest) ms ->
  extract_all_statements (pre ++ (k ++ sp ++ py "(" ++ body ++ py ");") ++ tail ++ rest) c
  = Ok (Some ((k ++ sp ++ py "(" ++ body ++ py ");") :: ms)).
Proof. exact @last_paren_of_line. Qed.
Print Assumptions C02_runs_to_last_paren.

(** The FIND on the same line is absorbed by the MAKE statement. *)
Example C02_example : @extract_all_statements ascii_rt (py "MAKE (a:A); FIND (b:B); x") MAKE
  = Ok (Some [py "MAKE (a:A); FIND (b:B);"]).
Proof. vm_compute. reflexivity. Qed.
Example C02_hypotheses :
  let rt := ascii_rt in
  extract_all_statements (py "x " ++ (py "MAKE" ++ py " " ++ py "(" ++ py "a:A); FIND (b:B" ++ py ");") ++ py " y" ++ []) MAKE
  = Ok (Some [py "MAKE (a:A); FIND (b:B);"]).
Proof.
  intros rt. apply (C02_runs_to_last_paren rt MAKE (py "x ") (py "MAKE") (py " ") (py "a:A); FIND (b:B") (py " y") [] []); auto.
  - intros (a & w & b & E & H). pose proof (Ci_length _ _ H) as L. apply (f_equal (@List.length N)) in E.
    rewrite !app_length, L in E. simpl in E. lia.
  - apply Ci_refl. reflexivity.
  - repeat constructor.
  - discriminate.
  - intros H. vm_compute in H. repeat (destruct H as [H|H]; [discriminate|]). destruct H.
  - intros H. vm_compute in H. repeat (destruct H as [H|H]; [discriminate|]). destruct H.
  - intros u v E. destruct u as [|x [|y [|z u]]]; discriminate.
  - apply extract_spec; [discriminate|]. vm_compute. reflexivity.
Qed.

(** ** C03 *)
Theorem C03_lines : forall (rt : PyRt) (c : clause) (tl : list (bool * pystr)),
  c <> CRITERIA ->
  Forall (fun t : bool * pystr => no_newline (snd t) /\
            if fst t then StatementOf c (snd t) else ~ Occurs (keyword c) (snd t)) tl ->
  filter fst tl <> [] ->
  extract_all_statements (join_lines (map snd tl)) c = Ok (Some (map snd (filter fst tl))).
Proof. exact @lines_extracted_ok. Qed.
Print Assumptions C03_lines.

Example C03_example :
  let rt := ascii_rt in
  Forall (fun t : bool * pystr => no_newline (snd t) /\
            if fst t then StatementOf MAKE (snd t) else ~ Occurs (keyword MAKE) (snd t))
    [(false, py "abc"); (true, py "MAKE (a:A);"); (true, py "make (b:B);")] /\
  extract_all_statements (py "abc" ++ [10%N] ++ py "MAKE (a:A);" ++ [10%N] ++ py "make (b:B);") MAKE
  = Ok (Some [py "MAKE (a:A);"; py "make (b:B);"]).
Proof.
  intros rt. split; [|vm_compute; reflexivity].
  assert (G : forall s : pystr, existsb (N.eqb 10) s = false -> no_newline s).
  { intros s H Hin. rewrite <- Bool.not_true_iff_false, existsb_exists in H. apply H. exists 10%N. auto. }
  repeat constructor; simpl; try (apply G; reflexivity).
  - intros (a & w & b & E & H). pose proof (Ci_length _ _ H) as L. apply (f_equal (@List.length N)) in E.
    rewrite !app_length, L in E. simpl in E. lia.
  - exists (py "MAKE"), (py " "), (py "a:A"). repeat split; try discriminate; try (apply G; reflexivity).
    + apply Ci_refl. reflexivity.
    + repeat constructor.
  - exists (py "make"), (py " "), (py "b:B"). repeat split; try discriminate; try (apply G; reflexivity).
    + apply (Ci_lower (py "make")); [reflexivity|apply Ci_refl; reflexivity].
    + repeat constructor.
Qed.

(** ** C04 *)
Theorem C04_absent_or_misspelt : forall (rt : PyRt) (q : pystr) (c : clause),
  c <> CRITERIA ->
  (exists ms, ms <> [] /\ Extracted (StatementOf c) q ms /\ extract_all_statements q c = Ok (Some ms)) \/
  (Extracted (StatementOf c) q [] /\
     ((Misspelt c q /\ extract_all_statements q c = Err ClauseSyntaxError) \/
      (~ Misspelt c q /\ extract_all_statements q c = Ok None))).
Proof. exact @extract_cases. Qed.
Print Assumptions C04_absent_or_misspelt.

Example C04_examples :
  let rt := ascii_rt in
  extract_all_statements (py "MAEK (a:A);") MAKE = Err ClauseSyntaxError /\
  extract_all_statements (py "FIND (a:A);") MAKE = Ok None /\
  (* the label PORTER is an anagram of REPORT *)
  extract_all_statements (py "MAKE (a:Porter);") REPORT = Err ClauseSyntaxError.
Proof. vm_compute. auto. Qed.

(** ** C05 *)
Theorem C05_illegal_characters : forall (stmts : list pystr),
  (check_illegal_characters stmts = Ok tt <-> forall s, In s stmts -> ~ has_illegal s) /\
  (check_illegal_characters stmts = Err IllegalCharacterError <-> exists s, In s stmts /\ has_illegal s).
Proof. exact illegal_spec. Qed.
Print Assumptions C05_illegal_characters.

Example C05_example :
  check_illegal_characters [py "MAKE (a:A);"; py "MAKE (a:A {x: '50%'});"] = Err IllegalCharacterError /\
  check_illegal_characters [py "MAKE (a:A);"] = Ok tt.
Proof. vm_compute. auto. Qed.

(** ** C06 *)
Theorem C06_bracket_parity : forall (stmts : list pystr),
  (check_statement_syntax stmts = Ok tt <->
   forall s seg, In s stmts -> Segment s seg -> even_brackets seg) /\
  (forall e, check_statement_syntax stmts = Err e -> e = ClauseSyntaxError).
Proof. exact brackets_spec. Qed.
Print Assumptions C06_bracket_parity.

(** It is not a balance check. *)
Theorem C06_balance_refuted : check_statement_syntax [py "MAKE )a:A(;"] = Ok tt.
Proof. vm_compute. reflexivity. Qed.
Example C06_example : check_statement_syntax [py "MAKE (a:A)-[:R]->(b:B;"] = Err ClauseSyntaxError.
Proof. vm_compute. reflexivity. Qed.

(** ** C07 *)
Theorem C07_one_statement : forall (rt : PyRt) (s : pystr),
  check_relationships [s] = Ok tt <->
  forall t name, In (t, name) (rel_matches s) -> rel_acceptable t name.
Proof. exact @one_statement_rels. Qed.
Print Assumptions C07_one_statement.

Theorem C07_relationship_check : forall (rt : PyRt) (stmts : list pystr),
  (check_relationships stmts = Ok tt <->
   forall l1 s l2, stmts = l1 ++ s :: l2 -> Forall (fun s' => rel_matches s' <> []) l1 ->
                   forall t name, In (t, name) (rel_matches s) -> rel_acceptable t name) /\
  (forall e, check_relationships stmts = Err e ->
             e = NonDirectedRelationshipError \/ e = RelationshipNameSyntaxError).
Proof. exact @relationships_spec. Qed.
Print Assumptions C07_relationship_check.

(** Statements after the first one without a relationship are not checked. *)
Theorem C07_rest_unchecked : forall (rt : PyRt) (l1 l2 : list pystr) (s : pystr),
  rel_matches s = [] -> check_relationships l1 = Ok tt -> check_relationships (l1 ++ s :: l2) = Ok tt.
Proof. exact @rest_unchecked. Qed.
Print Assumptions C07_rest_unchecked.

Theorem C07_every_statement_checked_refuted :
  let rt := ascii_rt in
  check_relationships [py "MAKE (a:A)<-[:R]->(b:B);"] = Err NonDirectedRelationshipError /\
  check_relationships [py "MAKE (c:C);"; py "MAKE (a:A)<-[:R]->(b:B);"] = Ok tt /\
  check_relationships [py "MAKE (a:A)-[:r]->(b:B);"] = Err RelationshipNameSyntaxError.
Proof. vm_compute. auto. Qed.

(** ** C08 *)
Theorem C08_comma_colon_count : forall (s : pystr),
  (check_property_syntax s = Ok tt /\ occ 58 s = occ 44 s + 1) \/
  (check_property_syntax s = Err ParamSyntaxError /\ occ 58 s <> occ 44 s + 1).
Proof. exact property_syntax_spec. Qed.
Print Assumptions C08_comma_colon_count.

(** One property string of a statement: the counts are taken outside the list literals. *)
Theorem C08_outside_lists : forall (rt : PyRt) (p out : pystr) (ls : list pystr),
  TakenOut ListLiteral (pythonise p) out ls ->
  (check_param_match p = Ok tt <->
   occ 58 out = occ 44 out + 1 /\ Forall (fun l => exists v, literal_eval l = Ok v) ls) /\
  (occ 58 out <> occ 44 out + 1 -> check_param_match p = Err ParamSyntaxError).
Proof. exact @param_match_spec. Qed.
Print Assumptions C08_outside_lists.
Theorem C08_outside_lists_exists : forall (rt : PyRt) (p : pystr),
  exists out ls, TakenOut ListLiteral (pythonise p) out ls.
Proof. exact @taken_out_exists. Qed.
Print Assumptions C08_outside_lists_exists.

Example C08_example :
  let rt := ascii_rt in
  check_param_match (py "{a: [1, 2], b: 3}") = Ok tt /\
  check_param_match (py "{a: 1 b: 3}") = Err ParamSyntaxError.
Proof. vm_compute. auto. Qed.
