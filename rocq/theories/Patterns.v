(** * Patterns: the regular expressions of /repo/wiggle_query_language/clauses/regexes *)
From Verif Require Import PyBase Regex.

Section Patterns.
  Context {rt : PyRt}.

  Definition W := Star is_word.                  (* \w* *)
  Definition Sp := Star is_space.                (* \s* *)

  (** regexes/patterns/patterns_helpers.py:4-9 get_all_params_regex:
      [{}\w:\s,'DQ\.\[\]@]+  (DQ: double quote)   (the @ is regexes/__init__.py:1 EXTRA_ALLOWED_CHARS) *)
  Definition is_param_ch (c : N) : bool :=
    is_word c || is_space c || existsb (N.eqb c) (py "{}:,'"".[]@").
  Definition all_params : re := Plus is_param_ch.

  (** patterns_helpers.py:12-22 get_handle_label_regex(name, required_chars=True):
      (?P<x_handle>\w* )\s*:\s*(?P<x_label>\w+) *)
  Definition handle_label_req (p : place) : list re :=
    [Grp (GP p Handle) W; Sp; ch 58; Sp; Grp (GP p Label) (Plus is_word)].

  (** patterns_helpers.py:12-22 with required_chars=False:
      (?P<x_handle>\w* )\s*:?\s*(?P<x_label>\w* ) *)
  Definition handle_label_opt (p : place) : list re :=
    [Grp (GP p Handle) W; Sp; Opt (ch 58); Sp; Grp (GP p Label) W].

  (** patterns_helpers.py:25-33 get_node_pattern_regex, the named group:
      \(\s*HL\s*(?P<x_node_props>PARAMS)?\s*\)\s* *)
  Definition node_group (p : place) : re :=
    Grp (GP p Whole)
      (cats ([ch 40; Sp] ++ handle_label_req p ++
             [Sp; Opt (Grp (GP p Props) all_params); Sp; ch 41; Sp])).

  (** patterns_helpers.py:36-43 get_rel_pattern_regex, the named group:
      <?-+\[\s*HL\s*(?P<x_rel_props>PARAMS)?\s*]-+>?\s* *)
  Definition rel_group (p : place) : re :=
    Grp (GP p Whole)
      (cats ([Opt (ch 60); Plus (N.eqb 45); ch 91; Sp] ++ handle_label_opt p ++
             [Sp; Opt (Grp (GP p Props) all_params); Sp; ch 93; Plus (N.eqb 45); Opt (ch 62); Sp])).

  (** patterns_helpers.py:46-64 and patterns.py:8-11 NODES_RELS_PATTERN_REGEX.
      The f-string puts [?] right after each piece, so it applies to the
      named group and not to the leading \s*.
      (IGNORECASE has no effect: the expression contains no letters.) *)
  Definition nodes_rels : re :=
    cats [Sp; Opt (node_group PLeft);
          Sp; Opt (rel_group PLeftMiddle);
          Sp; Opt (node_group PMiddle);
          Sp; Opt (rel_group PMiddleRight);
          Sp; Opt (node_group PRight)].

  (** regexes/patterns/clause_helpers.py:4-10 get_clause_all_regex, IGNORECASE:
      ((CLAUSE|clause)\s*\(.+\);) *)
  Definition clause_all (upper lower : pystr) : re :=
    cats [Alt (lit_ci upper) (lit_ci lower); Sp; ch 40; Plus not_nl; ch 41; ch 59].

  (** regexes/make/make_patterns.py:11-13 and regexes/find/find_patterns.py:11-13 *)
  Definition make_stmt_all : re := clause_all (py "MAKE") (py "make").
  Definition find_stmt_all : re := clause_all (py "FIND") (py "find").

  (** regexes/report/report_patterns.py:10-13: ((REPORT|report).+;) IGNORECASE *)
  Definition report_stmt_all : re :=
    cats [Alt (lit_ci (py "REPORT")) (lit_ci (py "report")); Plus not_nl; ch 59].

  (** itertools.permutations(clause): all permutations in the order of positions. *)
  Fixpoint perms_with {A} (fuel : nat) (l : list A) : list (list A) :=
    match fuel with
    | O => [[]]
    | S f =>
        match l with
        | [] => [[]]
        | _ =>
            (fix pick (pre : list A) (post : list A) : list (list A) :=
               match post with
               | [] => []
               | x :: post' => map (cons x) (perms_with f (rev pre ++ post')) ++ pick (x :: pre) post'
               end) [] l
        end
    end.
  Definition permutations {A} (l : list A) : list (list A) := perms_with (List.length l) l.

  (** clause_helpers.py:13-35 get_clause_permutations_regex, IGNORECASE:
      \s?(PERM|PERM|...)\s?\( *)
  Definition clause_perms (clause : pystr) : re :=
    cats [Opt (Set_ is_space); Grp GKeyword (alts (map lit_ci (permutations clause))); Opt (Set_ is_space); ch 40].

  Definition make_check_syntax : re := clause_perms (py "MAKE").  (* make_patterns.py:17-20 *)
  Definition find_check_syntax : re := clause_perms (py "FIND").  (* find_patterns.py:17-20 *)

  (** report_patterns.py:16-19: ((PERM|PERM|...).+;) IGNORECASE *)
  Definition report_check_syntax : re :=
    cats [Grp GKeyword (alts (map lit_ci (permutations (py "REPORT")))); Plus not_nl; ch 59].

  (** regexes/patterns/properties.py:6-13 ALL_PROPERTIES_KEY_VALUE_REGEX (IGNORECASE) *)
  Definition is_list_ch (c : N) : bool :=          (* [\w,\s'DQ\.@\+] *)
    is_word c || is_space c || existsb (N.eqb c) (py ",'"".@+").
  Definition is_string_ch (c : N) : bool :=        (* [\w+\'DQ@\.\s] *)
    is_word c || is_space c || existsb (N.eqb c) (py "+'""@.").
  Definition value_alts : re :=
    alts [Grp GNone (lit_ci (py "null"));
          Grp GBool (Alt (lit_ci (py "true")) (lit_ci (py "false")));
          Grp GFloat (cats [Plus is_digit; ch 46; Plus is_digit]);
          Grp GInt (Plus is_digit0);
          Grp GList (cats [ch 91; Plus is_list_ch; ch 93]);
          Grp GString (Plus is_string_ch)].
  Definition all_properties : re :=
    cats [Grp GPropName (Plus is_word); Sp; ch 58; Sp; Grp GPropValue value_alts].

  (** properties.py:17-20 CHECK_PROPERTIES_SYNTAX_REGEX: ({[\w:\s,'DQ\.\[\]@]+}) *)
  Definition is_check_ch (c : N) : bool :=
    is_word c || is_space c || existsb (N.eqb c) (py ":,'"".[]@").
  Definition check_properties : re := cats [ch 123; Plus is_check_ch; ch 125].

  (** properties.py:24-26 PROPERTIES_LIST_VALUE_REGEX: (\[[\w,\s'DQ\.@]+]) *)
  Definition is_listv_ch (c : N) : bool :=
    is_word c || is_space c || existsb (N.eqb c) (py ",'"".@").
  Definition list_value : re := cats [ch 91; Plus is_listv_ch; ch 93].

  (** regexes/patterns/relationships.py:9-12 RELATIONSHIP_DIR_CHECK_REGEX:
      (?P<foo><?-+\[\s*\w*\s*:?\s*(?P<rel_name>\w* )\s*PARAMS-+>?) *)
  Definition rel_dir_check : re :=
    Grp GRelWhole
      (cats [Opt (ch 60); Plus (N.eqb 45); ch 91; Sp; W; Sp; Opt (ch 58); Sp;
             Grp GRelName W; Sp; all_params; Plus (N.eqb 45); Opt (ch 62)]).

  (** regexes/patterns/utilities.py:6 ILLEGAL_CHARS_REGEX: [#%&*$]
      (the characters are regexes/__init__.py:2) *)
  Definition is_illegal (c : N) : bool := existsb (N.eqb c) (py "#%&*$").
  Definition illegal_chars : re := Set_ is_illegal.

  (** the expression [<>]+ of parse_statement_checks.py:162 *)
  Definition arrow_heads : re := Plus (fun c => N.eqb c 60 || N.eqb c 62).
End Patterns.
