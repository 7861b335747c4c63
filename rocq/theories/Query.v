(** * Query: wiggle_shell/core/query/query.py and wiggle_shell/wiggleshell.py *)
From Verif Require Import PyBase Props Checks Statements FS Store Make Find.

(** models/wql/parsing/parsed_query.py:129-133 ParsedQuery (criteria_parsed is always None) *)
Record parsed_query := { q_make : option (list parsed_make); q_find : option parsed_find;
                         q_report : option parsed_report }.

Section Query.
  Context {rt : PyRt}.

  (** query.py:27-50 parse_query_string; line 38 dereferences [find_parsed], which is None
      when the query has no FIND *)
  Definition parse_query_string (q : pystr) : res parsed_query :=
    let? mk := parse_make q in
    let? fd := parse_find q in
    match fd with
    | None => Err AttributeError
    | Some f =>
        let? rp := parse_report q (pattern_handles (pf_pattern f)) in
        Ok {| q_make := mk; q_find := Some f; q_report := rp |}
    end.

  (** query.py:53-71 execute_query *)
  Definition execute_query (pq : parsed_query) (g : gdbms) : io bool :=
    let! _ := match q_make pq with
              | Some (m :: ms) => make (m :: ms) g
              | _ => Ret true
              end in
    match q_find pq with
    | Some f =>
        let! found := find f g in
        let! _ := match q_report pq with
                  | Some r => report r found g
                  | None => Ret true
                  end in
        Ret true
    | None => Throw PlainException
    end.

  (** query.py:81-93 query; the test of line 84 ends in [and False], so it never raises *)
  Definition query (q : pystr) (g : gdbms) : io bool :=
    let! pq := lift (parse_query_string q) in
    let! _ := execute_query pq g in
    Ret true.

  (** wiggleshell.py:24-44: the interactive loop of start_wiggle_shell.  [fuel] bounds
      the number of iterations of the model (each one consumes a line of input). *)
  Definition GOOD_BYE : pystr := py "Good Bye!".
  Definition HELPFUL : pystr := py "A helpful guide is on the way!" ++ [10%N].
  Fixpoint shell_loop (fuel : nat) (g : gdbms) : io unit :=
    match fuel with
    | O => Throw OutOfFuel
    | S f =>
        let! q := do_text CInput in
        let! _ := do_unit (CPrint (q ++ py " " ++ [10%N])) in
        if str_eqb q (py "q") then do_unit (CPrint GOOD_BYE)
        else if contains (py "help") (str_lower q) then
          let! _ := do_unit (CPrint HELPFUL) in shell_loop f g
        else
          let! _ := io_catch (query q g) (fun e => Some (let! _ := do_unit (CPrint (py "error")) in Ret true)) in
          shell_loop f g
    end.
End Query.
