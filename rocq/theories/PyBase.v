(** * PyBase: Python values, strings, exceptions, and the runtime parameters.

    Except for the enumeration [clause], nothing here models a particular
    definition of /repo; it fixes the vocabulary in which the functions of /repo
    are modelled. *)

From Coq Require Export String Ascii.
From Coq Require Export List NArith ZArith Bool Lia.
Export ListNotations.
#[global] Open Scope list_scope.

(** A Python [str] is the list of its code points. *)
Definition pystr := list N.

(** ASCII literals. *)
Definition py (s : string) : pystr := List.map N_of_ascii (list_ascii_of_string s).

(** The exceptions the code of /repo can raise (messages are not modelled).
    The application exceptions are those of /repo/exceptions (wql/parsing.py,
    wql/clauses.py, wql/make.py, wql/report.py, wql/data.py, wql/database.py,
    wiggleshell/query.py); the others are Python's, json's and pydantic's. *)
Inductive exn :=
| ClauseSyntaxError | IllegalCharacterError | NonDirectedRelationshipError
| ParamSyntaxError | RelationshipNameSyntaxError
| WiggleGraphIllegalPropertyValue | PropertyTypeAssignmentError
| MakeDuplicateHandlesError | MultipleClauseStatementsError
| FindReportHandleMissmatch | NodeExistsError | RelationshipToFromError
| NodeHasUnrelatedRelationship
| ValidationError | JSONDecodeError | SyntaxError | ValueError | TypeError
| AttributeError | IndexError | KeyError | FileNotFoundError | OSError
| EOFError | PlainException
| OutOfFuel. (* never raised by the code: marks an exhausted recursion bound of the model *)

Definition exn_eq_dec (a b : exn) : {a = b} + {a <> b}.
Proof. decide equality. Defined.

(** [isinstance(e, ValueError)]: json's JSONDecodeError and pydantic's
    ValidationError are subclasses of ValueError. *)
Definition is_value_error (e : exn) : bool :=
  match e with ValueError | JSONDecodeError | ValidationError => true | _ => false end.

(** models/wql/enums/clauses.py:4-8 *)
Inductive clause := MAKE | FIND | CRITERIA | REPORT.

Inductive res (A : Type) :=
| Ok (a : A)
| Err (e : exn).
Arguments Ok {A} a.
Arguments Err {A} e.

Definition bind {A B} (x : res A) (f : A -> res B) : res B :=
  match x with Ok a => f a | Err e => Err e end.

Notation "'let?' x ':=' e 'in' k" := (bind e (fun x => k))
  (at level 200, x pattern, right associativity).

Fixpoint mapM {A B} (f : A -> res B) (l : list A) : res (list B) :=
  match l with
  | [] => Ok []
  | x :: l' => let? y := f x in let? ys := mapM f l' in Ok (y :: ys)
  end.

(** [for x in l: f(x)] where only exceptions matter. *)
Fixpoint forM {A} (f : A -> res unit) (l : list A) : res unit :=
  match l with
  | [] => Ok tt
  | x :: l' => let? _ := f x in forM f l'
  end.

(** Python values that occur as properties and in the JSON files.
    A float is represented by its [repr] text; [VOpaque] stands for a value that
    [json.dump] refuses (bytes, complex, Ellipsis). *)
Inductive pyval :=
| VNone
| VBool (b : bool)
| VInt (z : Z)
| VFloat (t : pystr)
| VStr (s : pystr)
| VList (l : list pyval)
| VDict (d : list (pystr * pyval))
| VOpaque.

(** Equality of strings. *)
Fixpoint str_eqb (a b : pystr) : bool :=
  match a, b with
  | [], [] => true
  | x :: a', y :: b' => N.eqb x y && str_eqb a' b'
  | _, _ => false
  end.

Definition str_eq_dec (a b : pystr) : {a = b} + {a <> b} := list_eq_dec N.eq_dec a b.

(** Dictionaries: insertion ordered association lists. *)
Fixpoint d_get {A} (k : pystr) (d : list (pystr * A)) : option A :=
  match d with
  | [] => None
  | (k', v) :: d' => if str_eqb k k' then Some v else d_get k d'
  end.

Fixpoint d_set {A} (k : pystr) (v : A) (d : list (pystr * A)) : list (pystr * A) :=
  match d with
  | [] => [(k, v)]
  | (k', v') :: d' => if str_eqb k k' then (k', v) :: d' else (k', v') :: d_set k v d'
  end.

Definition d_mem {A} (k : pystr) (d : list (pystr * A)) : bool :=
  match d_get k d with Some _ => true | None => false end.

Definition keys {A} (d : list (pystr * A)) : list pystr := List.map fst d.

(** Sets of strings / numbers: duplicate free lists, [add] keeps the first. *)
Definition s_mem (x : pystr) (l : list pystr) : bool := existsb (str_eqb x) l.
Definition s_add (x : pystr) (l : list pystr) : list pystr := if s_mem x l then l else l ++ [x].
Definition s_union (a b : list pystr) : list pystr := fold_left (fun acc x => s_add x acc) b a.
Definition s_of_list (l : list pystr) : list pystr := s_union [] l.

(** [set] of ints. *)
Definition z_mem (x : Z) (l : list Z) : bool := existsb (Z.eqb x) l.
Definition z_add (x : Z) (l : list Z) : list Z := if z_mem x l then l else l ++ [x].
Definition z_union (a b : list Z) : list Z := fold_left (fun acc x => z_add x acc) b a.
Definition z_of_list (l : list Z) : list Z := z_union [] l.

(** The facts about the Python runtime that the model leaves open.  Every
    theorem quantifies over an arbitrary [PyRt]. *)
Class PyRt := {
  (* non-ASCII code points (>= 128) only: ASCII is fixed by the definitions below *)
  u_word : N -> bool;          (* re's \w *)
  u_space : N -> bool;         (* re's \s, str.isspace *)
  u_digit : N -> bool;         (* re's \d *)
  u_upper : N -> bool;         (* upper case letter, for str.isupper *)
  u_lowertitle : N -> bool;    (* lower or title case letter, for str.isupper *)
  u_lower : N -> pystr;        (* str.lower *)
  u_upcase : N -> pystr;       (* str.upper *)
  u_ci : N -> option N;        (* the lower case ASCII letter it equals under re.IGNORECASE *)
  f_repr : pystr -> option pystr;  (* repr(float(text)) *)
  int_ext : pystr -> option Z;     (* int(text) for text with non-ASCII characters *)
  int_fits : N -> bool;        (* does int(text) convert that many decimal digits? (sys.set_int_max_str_digits) *)
  lit_ext : pystr -> res pyval;    (* ast.literal_eval outside the modelled fragment *)
  set_order : list pystr -> list pystr;  (* iteration order of a set of str *)
  zset_order : list Z -> list Z;         (* iteration order of a set of int *)
  set_mixed : list pyval -> list pyval -> list pyval;  (* list(set(a).union(b)) when neither all members are str nor all are int *)
  import_time : pystr;         (* repr(datetime.now().timestamp()) at import *)
}.

(** ASCII classes. *)
Definition between (a b c : N) : bool := N.leb a c && N.leb c b.
Definition is_digit0 (c : N) : bool := between 48 57 c.           (* [0-9] *)
Definition is_upper0 (c : N) : bool := between 65 90 c.
Definition is_lower0 (c : N) : bool := between 97 122 c.
Definition is_alpha0 (c : N) : bool := is_upper0 c || is_lower0 c.
Definition is_word0 (c : N) : bool := is_alpha0 c || is_digit0 c || N.eqb c 95.
Definition is_space0 (c : N) : bool := between 9 13 c || between 28 32 c.

Definition is_ascii (c : N) : bool := N.ltb c 128.

Section Classes.
  Context {rt : PyRt}.
  (** re's \w, \s and \d for str patterns. *)
  Definition is_word (c : N) : bool := if is_ascii c then is_word0 c else u_word c.
  Definition is_space (c : N) : bool := if is_ascii c then is_space0 c else u_space c.
  Definition is_digit (c : N) : bool := if is_ascii c then is_digit0 c else u_digit c.
  (** re's '.' (no DOTALL): anything but a line feed. *)
  Definition not_nl (c : N) : bool := negb (N.eqb c 10).

  Definition lower0 (c : N) : N := if is_upper0 c then (c + 32)%N else c.

  (** Does the text character [c] equal the pattern character [p] (an ASCII
      character) under re.IGNORECASE? *)
  Definition ci_eqb (p c : N) : bool :=
    if is_ascii c then N.eqb (lower0 p) (lower0 c)
    else match u_ci c with Some l => N.eqb l (lower0 p) | None => false end.

  (** str.lower() *)
  Definition str_lower (s : pystr) : pystr :=
    flat_map (fun c => if is_ascii c then [lower0 c] else u_lower c) s.

  (** str.isupper() *)
  Definition ch_upper (c : N) : bool := if is_ascii c then is_upper0 c else u_upper c.
  Definition ch_lowertitle (c : N) : bool := if is_ascii c then is_lower0 c else u_lowertitle c.
  Definition str_isupper (s : pystr) : bool :=
    existsb ch_upper s && negb (existsb ch_lowertitle s).
End Classes.

(** Laws of CPython used by some theorems (each theorem that needs them says so). *)
Record rt_ok (rt : PyRt) : Prop := {
  rt_word_space : forall c, u_word c = true -> u_space c = false;
  rt_digit_word : forall c, u_digit c = true -> u_word c = true;
  rt_ci_word : forall c l, u_ci c = Some l -> u_word c = true;
  rt_order : forall l, NoDup l -> NoDup (set_order l) /\ (forall x, In x (set_order l) <-> In x l);
  rt_zorder : forall l, NoDup l -> NoDup (zset_order l) /\ (forall x, In x (zset_order l) <-> In x l);
}.

(** str helper functions. *)
Fixpoint starts_with (p s : pystr) : bool :=
  match p, s with
  | [], _ => true
  | x :: p', y :: s' => N.eqb x y && starts_with p' s'
  | _ :: _, [] => false
  end.

(** [p in s] *)
Fixpoint contains (p s : pystr) : bool :=
  starts_with p s || match s with [] => false | _ :: s' => contains p s' end.

(** [s.count(c)] for a single character. *)
Fixpoint count_ch (c : N) (s : pystr) : nat :=
  match s with [] => 0 | x :: s' => (if N.eqb c x then 1 else 0) + count_ch c s' end.

(** [sum(1 for x in s if x in (a, b))] *)
Fixpoint count2 (a b : N) (s : pystr) : nat :=
  match s with
  | [] => 0
  | x :: s' => (if N.eqb x a || N.eqb x b then 1 else 0) + count2 a b s'
  end.

(** [s.replace(old, new)] for non-empty [old]: leftmost, non-overlapping. *)
Fixpoint replace_from (old new : pystr) (skip : nat) (s : pystr) : pystr :=
  match s with
  | [] => []
  | x :: s' =>
      match skip with
      | S k => replace_from old new k s'
      | O => if starts_with old s
             then new ++ replace_from old new (List.length old - 1) s'
             else x :: replace_from old new 0 s'
      end
  end.
Definition replace (old new s : pystr) : pystr := replace_from old new 0 s.

(** [s.lstrip], [s.rstrip], [s.strip] for a character predicate. *)
Fixpoint lstrip (p : N -> bool) (s : pystr) : pystr :=
  match s with [] => [] | x :: s' => if p x then lstrip p s' else s end.
Definition rstrip (p : N -> bool) (s : pystr) : pystr := rev (lstrip p (rev s)).
Definition strip (p : N -> bool) (s : pystr) : pystr := rstrip p (lstrip p s).

(** Decimal text of a natural number / integer: [str(z)]. *)
Definition digit_ch (d : N) : N := (48 + d)%N.
Fixpoint dec_pos (fuel : nat) (n : N) (acc : pystr) : pystr :=
  match fuel with
  | O => acc
  | S f => let acc' := digit_ch (n mod 10) :: acc in
           if N.eqb (n / 10) 0 then acc' else dec_pos f (n / 10)%N acc'
  end.
Definition str_of_N (n : N) : pystr := dec_pos (S (N.size_nat n)) n [].
Definition str_of_Z (z : Z) : pystr :=
  match z with
  | Z0 => [48%N]
  | Zpos p => str_of_N (Npos p)
  | Zneg p => 45%N :: str_of_N (Npos p)
  end.
