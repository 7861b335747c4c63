(** * Literal: ast.literal_eval on the texts that /repo gives to it

    Called at wiggle_query_language/clauses/parsing_helpers/parse_properties.py:175 and
    parse_statement_checks.py:99 on a text [ '[' ... ']' ] whose inner characters
    contain no brackets.  The model is exact for lists of decimal integers,
    decimal fractions, one-line quoted strings without backslashes, bytes
    literals b'...', True/False/None and names; every other
    text is handed to the oracle [lit_ext] of [PyRt]. *)
From Verif Require Import PyBase Json.

Inductive atom :=
| AVal (v : pyval)          (* a constant *)
| AStr (s : pystr)          (* a string literal: adjacent ones are concatenated *)
| AName                     (* a bare name: parses, but literal_eval raises ValueError *)
| AComma.

Inductive lexed :=
| LexOk (l : list atom)
| LexSyntax                 (* SyntaxError *)
| LexExt.                   (* outside the fragment *)

Definition lex_cons (a : atom) (l : lexed) : lexed :=
  match l with LexOk l' => LexOk (a :: l') | x => x end.

(** Python's keywords (3.10), except True, False, None. *)
Definition keywords : list pystr :=
  List.map py ["and"; "as"; "assert"; "async"; "await"; "break"; "class"; "continue"; "def"; "del";
          "elif"; "else"; "except"; "finally"; "for"; "from"; "global"; "if"; "import"; "in"; "is";
          "lambda"; "nonlocal"; "not"; "or"; "pass"; "raise"; "return"; "try"; "while"; "with"; "yield"]%string.

(** Text up to the closing quote [q]; [None] when it is outside the fragment,
    [Some None] when the quote is not closed. *)
Fixpoint quoted (q : N) (s : pystr) : option (option (pystr * pystr)) :=
  match s with
  | [] => Some None
  | c :: s' =>
      if N.eqb c q then Some (Some ([], s'))
      else if N.eqb c 92 then None                      (* backslash *)
      else if N.eqb c 10 then Some None                 (* end of line in the string *)
      else if N.eqb c 13 || N.eqb c 0 then None
      else match quoted q s' with
           | Some (Some (t, r)) => Some (Some (c :: t, r))
           | x => x
           end
  end.

Definition is_quote (c : N) : bool := N.eqb c 39 || N.eqb c 34.
Definition is_blank (c : N) : bool := N.eqb c 32 || N.eqb c 9 || N.eqb c 10.
Definition is_name_start (c : N) : bool := is_alpha0 c || N.eqb c 95.

(** A run of letters, digits, underscores and dots that starts with a digit.  A number of more digits than the
    interpreter converts is a SyntaxError; zeros alone, and a single digit, are read without that limit. *)
Definition number_atom `{PyRt} (run : pystr) : lexed :=
  if forallb is_digit0 run then
    match run with
    | c :: _ :: _ => if N.eqb c 48 && negb (forallb (N.eqb 48) run) then LexSyntax
                     else if negb (N.eqb c 48) && negb (int_fits (N.of_nat (List.length run))) then LexSyntax
                     else LexOk [AVal (VInt (Z.of_N (N_of_digits run)))]
    | _ => LexOk [AVal (VInt (Z.of_N (N_of_digits run)))]
    end
  else
    let (ip, r) := span is_digit0 run in
    match r with
    | c :: fr => if N.eqb c 46 && forallb is_digit0 fr && negb (Nat.eqb (List.length fr) 0)
                 then match f_repr run with Some t => LexOk [AVal (VFloat t)] | None => LexExt end
                 else LexExt
    | [] => LexExt
    end.

Definition lex_app (a b : lexed) : lexed :=
  match a with
  | LexOk l => match b with LexOk l' => LexOk (l ++ l') | x => x end
  | LexSyntax => match b with LexExt => LexExt | _ => LexSyntax end
  | LexExt => LexExt
  end.

Definition name_atom (run : pystr) : lexed :=
  if str_eqb run (py "True") then LexOk [AVal (VBool true)]
  else if str_eqb run (py "False") then LexOk [AVal (VBool false)]
  else if str_eqb run (py "None") then LexOk [AVal VNone]
  else if existsb (str_eqb run) keywords then LexExt
  else LexOk [AName].

Fixpoint lex `{PyRt} (fuel : nat) (s : pystr) : lexed :=
  match fuel with
  | O => LexExt
  | S f =>
      match s with
      | [] => LexOk []
      | c :: s1 =>
          if is_blank c then lex f s1
          else if N.eqb c 44 then lex_cons AComma (lex f s1)
          else if is_quote c then
            match quoted c s1 with
            | None => LexExt
            | Some None => LexSyntax
            | Some (Some (t, r)) =>
                match t, r with
                | [], c2 :: _ => if N.eqb c2 c then LexExt      (* triple quote *)
                                 else lex_cons (AStr t) (lex f r)
                | _, _ => lex_cons (AStr t) (lex f r)
                end
            end
          else if is_digit0 c then
            let (run, r) := span (fun x => is_word0 x || N.eqb x 46) s in
            match r with
            | c2 :: _ => if is_ascii c2 then lex_app (number_atom run) (lex f r) else LexExt
            | [] => lex_app (number_atom run) (lex f r)
            end
          else if is_name_start c then
            let (run, r) := span is_word0 s in
            match r with
            | c2 :: r2 =>
                if is_quote c2 then
                  if str_eqb run (py "b") then
                    match quoted c2 r2 with
                    | Some (Some (t, r3)) =>
                        if forallb is_ascii t && negb (Nat.eqb (List.length t) 0)
                        then lex_cons (AVal VOpaque) (lex f r3) else LexExt
                    | _ => LexExt
                    end
                  else LexExt
                else if is_ascii c2 then lex_app (name_atom run) (lex f r) else LexExt
            | [] => lex_app (name_atom run) (lex f r)
            end
          else LexExt
      end
  end.

Inductive parsed :=
| PVals (l : list (option pyval))      (* None: a bare name *)
| PSyntax
| PExt.

Definition pcons (v : option pyval) (p : parsed) : parsed :=
  match p with PVals l => PVals (v :: l) | x => x end.

(** [elems want l]: [want] = an element (or the end) is expected, else a comma (or the end). *)
Fixpoint elems (want : bool) (l : list atom) : parsed :=
  match l with
  | [] => PVals []
  | AComma :: l' => if want then PSyntax else elems true l'
  | AVal VOpaque :: AStr _ :: _ => PExt
  | AStr s :: AVal VOpaque :: _ => PExt
  | AVal VOpaque :: AVal VOpaque :: _ => PExt
  | AVal v :: l' => if want then pcons (Some v) (elems false l') else PSyntax
  | AName :: l' => if want then pcons None (elems false l') else PSyntax
  | AStr s :: l' =>
      if want then
        (fix glue (s : pystr) (l : list atom) : parsed :=
           match l with
           | AStr s2 :: l2 => glue (s ++ s2) l2
           | _ => pcons (Some (VStr s)) (elems false l)
           end) s l'
      else PSyntax
  end.

Fixpoint all_some {A} (l : list (option A)) : option (list A) :=
  match l with
  | [] => Some []
  | Some x :: l' => match all_some l' with Some r => Some (x :: r) | None => None end
  | None :: _ => None
  end.

(** ast.literal_eval *)
Definition literal_eval `{PyRt} (s : pystr) : res pyval :=
  match s with
  | c :: s1 =>
      if N.eqb c 91 && N.eqb (List.last s 0%N) 93 && Nat.leb 2 (List.length s) then
        match lex (S (List.length s)) (removelast s1) with
        | LexExt => lit_ext s
        | LexSyntax => Err SyntaxError
        | LexOk l =>
            match elems true l with
            | PExt => lit_ext s
            | PSyntax => Err SyntaxError
            | PVals vs => match all_some vs with
                          | Some l' => Ok (VList l')
                          | None => Err ValueError
                          end
            end
        end
      else lit_ext s
  | [] => lit_ext s
  end.
