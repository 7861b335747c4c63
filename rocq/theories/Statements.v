(** * Statements: parsed statements
    models/wql/parsing/parsed_query.py,
    clauses/make/parse_make/parse_make_statement.py,
    clauses/find/parse_find/parse_find_statement.py,
    clauses/report/parse_report/parse_report_statement.py *)
From Verif Require Import PyBase Regex Patterns Props Checks.

(** The four fields of one position of a ParsedPattern:
    x_node / x_rel, x_handle, x_label, x_props. *)
Record piece := { p_text : option pystr; p_handle : option pystr;
                  p_label : option pystr; p_props : option pystr }.

(** parsed_query.py:31-51 ParsedPattern *)
Record pattern := { left_node : piece; left_middle_rel : piece; middle_node : piece;
                    middle_right_rel : piece; right_node : piece }.

(** parsed_query.py:89-92 ParsedMake ([clause] is always MAKE) *)
Record parsed_make := { pm_raw : pystr; pm_patterns : list pattern }.

(** parsed_query.py:95-99 ParsedFind *)
Record parsed_find := { pf_raw : pystr; pf_pattern : pattern; pf_handles : list pystr }.

(** parsed_query.py:120-123 ParsedReport *)
Record parsed_report := { pr_raw : pystr; pr_extracted : pystr }.

(** truth value of an Optional[str] *)
Definition truthy (o : option pystr) : bool :=
  match o with Some (_ :: _) => true | _ => false end.
Definition truthy_list (o : option pystr) : list pystr :=
  match o with Some (c :: s) => [c :: s] | _ => [] end.

Section Statements.
  Context {rt : PyRt}.

  (** groupdict of a match of NODES_RELS_PATTERN_REGEX *)
  Definition piece_of (c : caps) (p : place) : piece :=
    {| p_text := cap (GP p Whole) c; p_handle := cap (GP p Handle) c;
       p_label := cap (GP p Label) c; p_props := cap (GP p Props) c |}.
  Definition pattern_of (c : caps) : pattern :=
    {| left_node := piece_of c PLeft; left_middle_rel := piece_of c PLeftMiddle;
       middle_node := piece_of c PMiddle; middle_right_rel := piece_of c PMiddleRight;
       right_node := piece_of c PRight |}.

  (** [x.groupdict() for x in finditer(statement) if x.group()] :
      parse_make_statement.py:21-23, parse_find_statement.py:22-24 *)
  Definition pattern_matches (stmt : pystr) : list pattern :=
    flat_map (fun m => match fst m with [] => [] | _ => [pattern_of (snd m)] end)
             (finditer nodes_rels stmt).

  (** the handles in field order: parsed_query.py:79 *)
  Definition handle_names (p : pattern) : list pystr :=
    truthy_list (p_handle (left_node p)) ++ truthy_list (p_handle (left_middle_rel p)) ++
    truthy_list (p_handle (middle_node p)) ++ truthy_list (p_handle (middle_right_rel p)) ++
    truthy_list (p_handle (right_node p)).

  (** parsed_query.py:77-86 validate_handles, run when a ParsedPattern is built *)
  Definition validate_handles (p : pattern) : res unit :=
    if Nat.eqb (List.length (handle_names p)) (List.length (s_of_list (handle_names p)))
    then Ok tt else Err MakeDuplicateHandlesError.

  (** parsed_query.py:73-75 pattern_handles *)
  Definition pattern_handles (p : pattern) : list pystr := s_of_list (handle_names p).

  (** Field(regex=...) of parsed_query.py:90,96,121: pydantic 1.10 uses re.match
      with the pattern text, without IGNORECASE. *)
  Definition clause_all_cs (upper lower : pystr) : re :=
    cats [Alt (lit upper) (lit lower); Star is_space; ch 40; Plus not_nl; ch 41; ch 59].
  Definition make_field : re := clause_all_cs (py "MAKE") (py "make").
  Definition find_field : re := clause_all_cs (py "FIND") (py "find").
  Definition report_field : re :=
    cats [Alt (lit (py "REPORT")) (lit (py "report")); Plus not_nl; ch 59].
  Definition re_match (r : re) (s : pystr) : bool :=
    match match_here r s with Some _ => true | None => false end.

  (** parse_make_statement.py:15-29 build_parsed_make.
      MakeDuplicateHandlesError is not a ValueError, so pydantic lets it through
      before it reports the collected field errors. *)
  Definition build_parsed_make (stmt : pystr) : res parsed_make :=
    let ps := pattern_matches stmt in
    let? _ := forM validate_handles ps in
    if re_match make_field stmt then Ok {| pm_raw := stmt; pm_patterns := ps |}
    else Err ValidationError.

  (** parse_make_statement.py:32-49 parse_make_statement_from_query_string *)
  Definition parse_make (q : pystr) : res (option (list parsed_make)) :=
    let? ms := extract_all_statements q MAKE in
    match ms with
    | None => Ok None
    | Some ms =>
        let? _ := validate_statement ms in
        let? l := mapM build_parsed_make ms in Ok (Some l)
    end.

  (** parse_find_statement.py:16-33 build_parsed_find *)
  Definition build_parsed_find (stmt : pystr) : res parsed_find :=
    match pattern_matches stmt with
    | [] => Err IndexError
    | p :: _ =>
        let? _ := validate_handles p in
        if re_match find_field stmt
        then Ok {| pf_raw := stmt; pf_pattern := p; pf_handles := pattern_handles p |}
        else Err ValidationError
    end.

  (** parse_find_statement.py:36-57 parse_find_statement_from_query_string *)
  Definition parse_find (q : pystr) : res (option parsed_find) :=
    let? ms := extract_all_statements q FIND in
    match ms with
    | None => Ok None
    | Some ms =>
        if Nat.ltb 1 (List.length ms) then Err MultipleClauseStatementsError
        else let? _ := validate_statement ms in
             match ms with
             | [] => Ok None
             | stmt :: _ => let? f := build_parsed_find stmt in Ok (Some f)
             end
    end.

  (** parse_report_statement.py:11-19 check_find_report_handles *)
  Definition check_find_report_handles (handles : list pystr) (rep : pystr) : res unit :=
    forM (fun h => if contains h rep then Ok tt else Err FindReportHandleMissmatch) handles.

  (** parse_report_statement.py:28-54 parse_report_statement_from_query_string *)
  Definition parse_report (q : pystr) (handles : list pystr) : res (option parsed_report) :=
    let? ms := extract_all_statements q REPORT in
    match ms with
    | None => Ok None
    | Some [] => Ok None
    | Some (rep :: more) =>
        match more with
        | _ :: _ => Err MultipleClauseStatementsError
        | [] =>
            let? _ := check_find_report_handles handles rep in
            if re_match report_field rep then Ok (Some {| pr_raw := rep; pr_extracted := rep |})
            else Err ValidationError
        end
    end.
End Statements.
