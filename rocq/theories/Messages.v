(** * Messages: the same functions with the messages of the exceptions they raise

    exceptions/wiggle_base_exception.py, parsing_helpers/parse_statement_checks.py, extract_statements.py,
    parse_properties.py, models/wql/parsing/properties_pre.py and parsed_query.py, the three parse_*_statement.py files
    and wiggle_shell/core/query/query.py.

    The functions of Checks.v, Props.v, Statements.v and Query.v raise exceptions without messages.  Here every one of
    them is written again with its message.  [None] is the message of an exception that Python or pydantic
    raises itself; those texts are not modelled. *)
From Verif Require Import PyBase Json Regex Patterns Literal Props Checks Statements Query.

(** the values that messages contain in [repr] form: a list or a tuple of strings; [repr] itself is in MessagesRun.v *)
Inductive quoted := AList (l : list pystr) | ATuple (l : list pystr).
Inductive message :=
| Text (s : pystr)
| Quoting (before : pystr) (what : quoted) (after : pystr).

Inductive resm (A : Type) := Good (a : A) | Bad (e : exn) (m : option message).
Arguments Good {A} a.
Arguments Bad {A} e m.
Definition bindm {A B} (x : resm A) (f : A -> resm B) : resm B := match x with Good a => f a | Bad e m => Bad e m end.
Notation "'letm' x := a 'in' b" := (bindm a (fun x => b)) (at level 200, x name, a at level 100, b at level 200).
Fixpoint forMm {A} (f : A -> resm unit) (l : list A) : resm unit :=
  match l with [] => Good tt | x :: l' => letm _ := f x in forMm f l' end.
Fixpoint mapMm {A B} (f : A -> resm B) (l : list A) : resm (list B) :=
  match l with [] => Good [] | x :: l' => letm y := f x in letm ys := mapMm f l' in Good (y :: ys) end.
(** an exception of the code base, and one of Python *)
Definition raise {A} (e : exn) (m : message) : resm A := Bad e (Some m).
Definition own {A} (x : res A) : resm A := match x with Ok a => Good a | Err e => Bad e None end.

Section Messages.
  Context {rt : PyRt}.

  (** str.upper() *)
  Definition upper0 (c : N) : N := if is_lower0 c then (c - 32)%N else c.
  Definition str_upper (s : pystr) : pystr := flat_map (fun c => if is_ascii c then [upper0 c] else u_upcase c) s.
  (** ', '.join *)
  Fixpoint join (sep : pystr) (l : list pystr) : pystr :=
    match l with [] => [] | [s] => s | s :: l' => s ++ sep ++ join sep l' end.
  Definition clause_value (c : clause) : pystr :=
    match c with MAKE => py "MAKE" | FIND => py "FIND" | REPORT => py "REPORT" | CRITERIA => py "CRITERIA" end.
  Definition the_keyword (d : caps) : pystr := match cap GKeyword d with Some w => w | None => [] end.

  (** parse_statement_checks.py:31-55 check_clause_spelling: findall gives the group of the MAKE and FIND expressions and
      the tuple of the two groups of the REPORT expression *)
  Definition did_you_mean (c : clause) : pystr := py " was not recognised did you mean " ++ clause_value c ++ py "?".
  Definition check_clause_spelling_m (q : pystr) (c : clause) : resm unit :=
    match c with
    | MAKE => match finditer make_check_syntax q with
              | [] => Good tt
              | (_, d) :: _ => raise ClauseSyntaxError (Text (py "SyntaxError: " ++ the_keyword d ++ did_you_mean MAKE))
              end
    | FIND => match finditer find_check_syntax q with
              | [] => Good tt
              | (_, d) :: _ => raise ClauseSyntaxError (Text (py "SyntaxError: " ++ the_keyword d ++ did_you_mean FIND))
              end
    | REPORT => match finditer report_check_syntax q with
                | [] => Good tt
                | (t, d) :: _ => raise ClauseSyntaxError (Quoting (py "SyntaxError: ") (ATuple [t; the_keyword d]) (did_you_mean REPORT))
                end
    | CRITERIA => Bad PlainException None
    end.

  (** parse_statement_checks.py:58-70 check_property_syntax *)
  Definition check_property_syntax_m (s : pystr) : resm unit :=
    if Nat.eqb (count_ch 44 s + 1) (count_ch 58 s) then Good tt
    else raise ParamSyntaxError (Text (py "SyntaxError: " ++ s ++ py " missing : or ,")).
  (** parse_statement_checks.py:96-103: the message has all lists of the property text *)
  Definition check_list_m (all : list pystr) (l : pystr) : resm unit :=
    match literal_eval l with
    | Ok _ => Good tt
    | Err SyntaxError => raise ParamSyntaxError (Quoting (py "SyntaxError: ") (AList all) (py " missing a comma?"))
    | Err e => Bad e None
    end.
  (** parse_statement_checks.py:84-103 *)
  Definition check_param_match_m (p : pystr) : resm unit :=
    let m := pythonise p in
    letm _ := check_property_syntax_m (sub_empty list_value m) in
    let ls := map fst (finditer list_value m) in forMm (check_list_m ls) ls.
  (** parse_statement_checks.py:73-105 check_node_rel_properties *)
  Definition check_node_rel_properties_m (stmts : list pystr) : resm unit :=
    forMm (fun stmt => forMm check_param_match_m (map fst (finditer check_properties stmt))) stmts.

  (** parse_statement_checks.py:118-136 *)
  Definition check_rel_m (rel : pystr * pystr) : resm unit :=
    let (pat, name) := rel in
    let lt := contains (py "<") pat in
    let gt := contains (py ">") pat in
    if lt && gt then raise NonDirectedRelationshipError (Text (py "Relationships must be unidirectional: " ++ pat))
    else if negb lt && negb gt then raise NonDirectedRelationshipError (Text (py "Relationships must be singly directed: " ++ pat))
    else if negb (str_isupper name) && negb (Nat.eqb (List.length name) 0)
    then raise RelationshipNameSyntaxError (Text (py "Relationship names must be upper case: " ++ name ++ py " -> " ++ str_upper name))
    else Good tt.
  (** parse_statement_checks.py:108-138 check_relationships *)
  Fixpoint check_relationships_m (stmts : list pystr) : resm unit :=
    match stmts with
    | [] => Good tt
    | stmt :: rest =>
        match rel_matches stmt with
        | [] => Good tt
        | rels => letm _ := forMm check_rel_m rels in check_relationships_m rest
        end
    end.
  (** parse_statement_checks.py:141-151 check_illegal_characters *)
  Definition check_illegal_characters_m (stmts : list pystr) : resm unit :=
    forMm (fun stmt => match finditer illegal_chars stmt with
                       | [] => Good tt
                       | (c, _) :: _ => raise IllegalCharacterError (Text (c ++ py " is not allowed"))
                       end) stmts.
  (** parse_statement_checks.py:164-183 *)
  Definition in_arrows (s : pystr) : pystr := py "---> " ++ s ++ py " <---".
  Definition check_piece_m (s : pystr) : resm unit :=
    if Nat.odd (count2 40 41 s) then raise ClauseSyntaxError (Text (py "Node is missing a parentheses: " ++ in_arrows s))
    else if Nat.odd (count2 123 125 s) then raise ClauseSyntaxError (Text (py "Properties is missing a curly brace: " ++ in_arrows s))
    else if Nat.odd (count2 91 93 s) then
      raise ClauseSyntaxError (Text (py "A Relationship or property list is missing a square bracket: " ++ in_arrows s))
    else Good tt.
  (** parse_statement_checks.py:154-185 check_statement_syntax *)
  Definition check_statement_syntax_m (stmts : list pystr) : resm unit :=
    forMm (fun stmt => forMm check_piece_m (split_re arrow_heads stmt)) stmts.
  (** parse_statement_checks.py:188-199 validate_statement *)
  Definition validate_statement_m (stmts : list pystr) : resm unit :=
    letm _ := check_statement_syntax_m stmts in
    letm _ := check_illegal_characters_m stmts in
    letm _ := check_node_rel_properties_m stmts in
    check_relationships_m stmts.

  (** extract_statements.py:18-40 extract_all_statements *)
  Definition extract_all_statements_m (q : pystr) (c : clause) : resm (option (list pystr)) :=
    match c with
    | CRITERIA => Bad PlainException None
    | _ =>
        match map fst (finditer (clause_regex c) q) with
        | [] => letm _ := check_clause_spelling_m q c in Good None
        | ms => Good (Some ms)
        end
    end.

  (** parsed_query.py:77-86 validate_handles *)
  Definition validate_handles_m (p : pattern) : resm unit :=
    if Nat.eqb (List.length (handle_names p)) (List.length (s_of_list (handle_names p))) then Good tt
    else raise MakeDuplicateHandlesError (Text (py "Handles must be unique per MAKE statement Handles:" ++ join (py ", ") (handle_names p))).
  (** parse_make_statement.py:15-29 build_parsed_make *)
  Definition build_parsed_make_m (stmt : pystr) : resm parsed_make :=
    let ps := pattern_matches stmt in
    letm _ := forMm validate_handles_m ps in
    if re_match make_field stmt then Good {| pm_raw := stmt; pm_patterns := ps |} else Bad ValidationError None.
  (** parse_make_statement.py:32-49 parse_make_statement_from_query_string *)
  Definition parse_make_m (q : pystr) : resm (option (list parsed_make)) :=
    letm ms := extract_all_statements_m q MAKE in
    match ms with
    | None => Good None
    | Some ms =>
        letm _ := validate_statement_m ms in
        letm l := mapMm build_parsed_make_m ms in Good (Some l)
    end.
  (** parse_find_statement.py:16-33 build_parsed_find *)
  Definition build_parsed_find_m (stmt : pystr) : resm parsed_find :=
    match pattern_matches stmt with
    | [] => Bad IndexError None
    | p :: _ =>
        letm _ := validate_handles_m p in
        if re_match find_field stmt
        then Good {| pf_raw := stmt; pf_pattern := p; pf_handles := pattern_handles p |}
        else Bad ValidationError None
    end.
  (** the text of line 49 of parse_find_statement.py and of line 44 of parse_report_statement.py; [Clause] is a plain Enum *)
  Definition only_one (c : clause) : message := Text (py "Only one Clause." ++ clause_value c ++ py " clause is allowed per query").
  (** parse_find_statement.py:36-57 parse_find_statement_from_query_string *)
  Definition parse_find_m (q : pystr) : resm (option parsed_find) :=
    letm ms := extract_all_statements_m q FIND in
    match ms with
    | None => Good None
    | Some ms =>
        if Nat.ltb 1 (List.length ms) then raise MultipleClauseStatementsError (only_one FIND)
        else letm _ := validate_statement_m ms in
             match ms with
             | [] => Good None
             | stmt :: _ => letm f := build_parsed_find_m stmt in Good (Some f)
             end
    end.
  (** parse_report_statement.py:11-19 check_find_report_handles; the handles are a set *)
  Definition check_find_report_handles_m (handles : list pystr) (rep : pystr) : resm unit :=
    forMm (fun h => if contains h rep then Good tt
                    else raise FindReportHandleMissmatch (Text (py "FIND handle " ++ h ++ py " was not found not in the " ++ in_arrows rep)))
          (set_order handles).
  (** parse_report_statement.py:28-54 parse_report_statement_from_query_string *)
  Definition parse_report_m (q : pystr) (handles : list pystr) : resm (option parsed_report) :=
    letm ms := extract_all_statements_m q REPORT in
    match ms with
    | None => Good None
    | Some [] => Good None
    | Some (rep :: more) =>
        match more with
        | _ :: _ => raise MultipleClauseStatementsError (only_one REPORT)
        | [] =>
            letm _ := check_find_report_handles_m handles rep in
            if re_match report_field rep then Good (Some {| pr_raw := rep; pr_extracted := rep |})
            else Bad ValidationError None
        end
    end.
  (** query.py:27-50 parse_query_string *)
  Definition parse_query_string_m (q : pystr) : resm parsed_query :=
    letm mk := parse_make_m q in
    letm fd := parse_find_m q in
    match fd with
    | None => Bad AttributeError None
    | Some f =>
        letm rp := parse_report_m q (pattern_handles (pf_pattern f)) in
        Good {| q_make := mk; q_find := Some f; q_report := rp |}
    end.

  (** ** Properties *)
  (** the field names of properties_pre.py:14-22 *)
  Definition type_name (t : ptype) : pystr :=
    match t with PNone => py "none_type" | PBool => py "bool_type" | PFloat => py "float_type" | PInt => py "int_type"
               | PList => py "list_type" | PString => py "string_type" end.
  Definition example_of (s : pystr) : pystr := py "{foo: " ++ s ++ py "}".
  (** properties_pre.py:24-48 yield_extracted_property *)
  Definition yield_type_m (name value : pystr) (c : caps) : resm ptype :=
    match found_types c with
    | [t] => Good t
    | ts => raise PropertyTypeAssignmentError (Quoting (name ++ py " " ++ value ++ py " was ") (AList (map type_name ts)) (py ", should be only one"))
    end.
  Definition illegal {A} (s : pystr) : resm A := raise WiggleGraphIllegalPropertyValue (Text s).
  (** parse_properties.py:82-93 handle_null_property *)
  Definition handle_null_m (v : pystr) : resm pyval :=
    if str_eqb v (py "null") then Good VNone else illegal (py "Value must be null: provided value was " ++ v ++ py " ").
  (** parse_properties.py:96-118 handle_bool_property *)
  Definition handle_bool_m (v : pystr) : resm pyval :=
    if str_eqb v (py "true") then Good (VBool true)
    else if str_eqb v (py "false") then Good (VBool false)
    else if str_eqb v (py "True") then illegal (v ++ py " should be lowercase. Boolean property example " ++ example_of (py "true"))
    else if str_eqb v (py "False") then illegal (v ++ py " should be lowercase. Boolean property example " ++ example_of (py "false"))
    else illegal (v ++ py " is not a boolean").
  (** parse_properties.py:121-138 handle_float_property *)
  Definition handle_float_m (v : pystr) : resm pyval :=
    if contains (py ".") v then
      match f_repr v with
      | Some t => Good (VFloat t)
      | None => illegal (v ++ py " was mot a decimal. Float property example: " ++ example_of (py "3.14"))
      end
    else illegal (v ++ py " missing a period. Float property example: " ++ example_of (py "3.14")).
  (** parse_properties.py:141-159 handle_int_property *)
  Definition handle_int_m (v : pystr) : resm pyval :=
    let bad := illegal (v ++ py " was mot an integer. Integer property example: " ++ example_of (py "3.14")) in
    if contains (py ".") v then illegal (v ++ py " has a period, please remove, e.g " ++ example_of (py "6"))
    else match v with
         | [] => bad
         | _ => if forallb is_digit0 v && int_fits (N.of_nat (List.length v)) then Good (VInt (Z.of_N (N_of_digits v))) else bad
         end.
  (** parse_properties.py:162-179 handle_list_property *)
  Definition handle_list_m (v : pystr) : resm pyval :=
    match literal_eval (pythonise v) with
    | Ok x => Good x
    | Err SyntaxError => illegal (v ++ py " contained an Error.")
    | Err e => Bad e None
    end.
  (** parse_properties.py:182-200 handle_string_property *)
  Definition handle_string_m (v : pystr) : resm pyval :=
    if existsb (str_eqb v) [py "Null"; py "None"; py "none"]
    then illegal (py "Cannot use " ++ v ++ py " as a string, please use the null type for example " ++ example_of (py "null"))
    else if existsb (str_eqb v) [py "true"; py "True"; py "false"; py "False"]
    then illegal (py "Cannot use " ++ v ++ py " as a string, please use the bool type for example " ++ example_of (py "true"))
    else Good (VStr v).
  (** parse_properties.py:53-79 handle_extracted_property *)
  Definition handle_extracted_m (name : pystr) (c : caps) (value : pystr) : resm pyval :=
    letm t := yield_type_m name value c in
    let v := clean value in
    match t with
    | PNone => handle_null_m v
    | PBool => handle_bool_m v
    | PFloat => handle_float_m v
    | PInt => handle_int_m v
    | PList => handle_list_m v
    | PString => handle_string_m v
    end.
  (** parse_properties.py:35-48 *)
  Definition one_property_m (s : pystr) (c : caps) : resm (pystr * pyval) :=
    match cap GPropName c, cap GPropValue c with
    | Some name, Some value =>
        match strip is_space value with
        | [] => illegal (py "Error for setting property in " ++ s ++ py " " ++ name ++ py " was empty a value must be supplied")
        | _ => letm v := handle_extracted_m name c value in Good (name, v)
        end
    | _, _ => Bad ValidationError None
    end.
  (** parse_properties.py:27-50 parse_properties *)
  Fixpoint props_loop_m (s : pystr) (ms : list (pystr * caps)) (d : list (pystr * pyval)) : resm (list (pystr * pyval)) :=
    match ms with
    | [] => Good d
    | (_, c) :: ms' => letm kv := one_property_m s c in props_loop_m s ms' (d_set (fst kv) (snd kv) d)
    end.
  Definition parse_properties_m (s : pystr) : resm (list (pystr * pyval)) := props_loop_m s (finditer all_properties s) [].
  (** parse_properties.py:12-24 get_property_dict *)
  Definition get_property_dict_m (s : option pystr) : resm (option (list (pystr * pyval))) :=
    match s with
    | None | Some [] => Good None
    | Some s => letm d := parse_properties_m s in Good (Some d)
    end.
End Messages.
