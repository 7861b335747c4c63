(** * WordTest: the test for known words in front of a query *)
From Verif Require Import PyBase Json Data FS Store Query.

Section WordTest.
  Context {rt : PyRt}.

  (** str.split(" "): the pieces between single blanks, empty ones included; [acc] is the piece so far, reversed *)
  Fixpoint split_blank_from (acc : pystr) (s : pystr) : list pystr :=
    match s with
    | [] => [rev acc]
    | c :: s' => if N.eqb c 32 then rev acc :: split_blank_from [] s' else split_blank_from (c :: acc) s'
    end.
  Definition split_blank (s : pystr) : list pystr := split_blank_from [] s.

  (** query.py:75 *)
  Definition valid_query_set : list pystr := [py "make"; py "find"; py "adjust"; py "criteria"; py "report"; py "using"].

  (** query.py:74-78 valid_query; the intersection of the two sets is not empty *)
  Definition valid_query (q : pystr) : bool :=
    existsb (fun w => s_mem w (split_blank (str_lower q))) valid_query_set.

  (** query.py:81-93 query, with the test of line 84.  [enabled] is the constant at its end, False in the code;
      [e] is NotAValidQueryError, which is not among the exceptions of the model because it is never raised. *)
  Definition query_tested (enabled : bool) (e : exn) (q : pystr) (g : gdbms) : io bool :=
    if negb (valid_query q) && enabled then lift (Err e) else query q g.
End WordTest.
