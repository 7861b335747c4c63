(** * Checks: wiggle_query_language/clauses/parsing_helpers/parse_statement_checks.py
    and extract_statements.py *)
From Verif Require Import PyBase Regex Patterns Literal Props.

Section Checks.
  Context {rt : PyRt}.

  (** parse_statement_checks.py:31-55 check_clause_spelling *)
  Definition check_clause_spelling (q : pystr) (c : clause) : res unit :=
    match c with
    | MAKE => if search make_check_syntax q then Err ClauseSyntaxError else Ok tt
    | FIND => if search find_check_syntax q then Err ClauseSyntaxError else Ok tt
    | REPORT => if search report_check_syntax q then Err ClauseSyntaxError else Ok tt
    | CRITERIA => Err PlainException
    end.

  (** parse_statement_checks.py:58-70 check_property_syntax *)
  Definition check_property_syntax (s : pystr) : res unit :=
    if Nat.eqb (count_ch 44 s + 1) (count_ch 58 s) then Ok tt else Err ParamSyntaxError.

  (** parse_statement_checks.py:95-103: the lists of one property string *)
  Definition check_list (l : pystr) : res unit :=
    match literal_eval l with
    | Ok _ => Ok tt
    | Err SyntaxError => Err ParamSyntaxError
    | Err e => Err e
    end.

  (** parse_statement_checks.py:84-103: one property string *)
  Definition check_param_match (p : pystr) : res unit :=
    let m := pythonise p in
    let? _ := check_property_syntax (sub_empty list_value m) in
    forM check_list (map fst (finditer list_value m)).

  (** parse_statement_checks.py:73-105 check_node_rel_properties *)
  Definition check_node_rel_properties (stmts : list pystr) : res unit :=
    forM (fun stmt => forM check_param_match (map fst (finditer check_properties stmt))) stmts.

  (** parse_statement_checks.py:118-136: one relationship (text, name) *)
  Definition check_rel (rel : pystr * pystr) : res unit :=
    let (pat, name) := rel in
    let lt := contains (py "<") pat in
    let gt := contains (py ">") pat in
    if lt && gt then Err NonDirectedRelationshipError
    else if negb lt && negb gt then Err NonDirectedRelationshipError
    else if negb (str_isupper name) && negb (Nat.eqb (List.length name) 0)
    then Err RelationshipNameSyntaxError
    else Ok tt.

  (** findall with two groups: the tuples (foo, rel_name) *)
  Definition rel_matches (stmt : pystr) : list (pystr * pystr) :=
    map (fun m => (match cap GRelWhole (snd m) with Some t => t | None => [] end,
                   match cap GRelName (snd m) with Some t => t | None => [] end))
        (finditer rel_dir_check stmt).

  (** parse_statement_checks.py:108-138 check_relationships: [return True] at
      the first statement without a relationship *)
  Fixpoint check_relationships (stmts : list pystr) : res unit :=
    match stmts with
    | [] => Ok tt
    | stmt :: rest =>
        match rel_matches stmt with
        | [] => Ok tt
        | rels => let? _ := forM check_rel rels in check_relationships rest
        end
    end.

  (** parse_statement_checks.py:141-151 check_illegal_characters *)
  Definition check_illegal_characters (stmts : list pystr) : res unit :=
    forM (fun stmt => if search illegal_chars stmt then Err IllegalCharacterError else Ok tt) stmts.

  (** parse_statement_checks.py:164-183: one piece between arrow heads *)
  Definition check_piece (s : pystr) : res unit :=
    if Nat.odd (count2 40 41 s) then Err ClauseSyntaxError
    else if Nat.odd (count2 123 125 s) then Err ClauseSyntaxError
    else if Nat.odd (count2 91 93 s) then Err ClauseSyntaxError
    else Ok tt.

  (** parse_statement_checks.py:154-185 check_statement_syntax *)
  Definition check_statement_syntax (stmts : list pystr) : res unit :=
    forM (fun stmt => forM check_piece (split_re arrow_heads stmt)) stmts.

  (** parse_statement_checks.py:188-199 validate_statement *)
  Definition validate_statement (stmts : list pystr) : res unit :=
    let? _ := check_statement_syntax stmts in
    let? _ := check_illegal_characters stmts in
    let? _ := check_node_rel_properties stmts in
    check_relationships stmts.

  (** extract_statements.py:18-40 extract_all_statements *)
  Definition clause_regex (c : clause) : re :=
    match c with
    | MAKE => make_stmt_all
    | FIND => find_stmt_all
    | REPORT => report_stmt_all
    | CRITERIA => Eps
    end.
  Definition extract_all_statements (q : pystr) (c : clause) : res (option (list pystr)) :=
    match c with
    | CRITERIA => Err PlainException
    | _ =>
        match map fst (finditer (clause_regex c) q) with
        | [] => let? _ := check_clause_spelling q c in Ok None
        | ms => Ok (Some ms)
        end
    end.
End Checks.
