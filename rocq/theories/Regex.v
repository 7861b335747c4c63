(** * Regex: Python's [re] for the class of expressions that /repo uses.

    All regular expressions of /repo (wiggle_query_language/clauses/regexes)
    are built from single-character sets, concatenation, alternation, an optional
    item [?] (greedy), [*]/[+] of a single-character set (greedy) and named groups.
    The matcher below explores alternatives in the order of CPython's
    backtracking engine and returns the first one that succeeds. *)
From Verif Require Import PyBase.

(** Named groups, see Patterns.v. *)
Inductive place := PLeft | PLeftMiddle | PMiddle | PMiddleRight | PRight.
Inductive part := Whole | Handle | Label | Props.
Inductive gname :=
| GP (p : place) (q : part)
| GPropName | GPropValue | GNone | GBool | GFloat | GInt | GList | GString
| GRelWhole | GRelName
| GKeyword.

Definition place_eqb (a b : place) : bool :=
  match a, b with
  | PLeft, PLeft | PLeftMiddle, PLeftMiddle | PMiddle, PMiddle
  | PMiddleRight, PMiddleRight | PRight, PRight => true
  | _, _ => false
  end.
Definition part_eqb (a b : part) : bool :=
  match a, b with
  | Whole, Whole | Handle, Handle | Label, Label | Props, Props => true
  | _, _ => false
  end.
Definition gname_eqb (a b : gname) : bool :=
  match a, b with
  | GP p q, GP p' q' => place_eqb p p' && part_eqb q q'
  | GPropName, GPropName | GPropValue, GPropValue | GNone, GNone | GBool, GBool
  | GFloat, GFloat | GInt, GInt | GList, GList | GString, GString
  | GRelWhole, GRelWhole | GRelName, GRelName | GKeyword, GKeyword => true
  | _, _ => false
  end.

Inductive re :=
| Eps
| Set_ (p : N -> bool)
| Cat (a b : re)
| Alt (a b : re)
| Opt (a : re)
| Star (p : N -> bool)
| Grp (n : gname) (a : re).

Definition Plus (p : N -> bool) : re := Cat (Set_ p) (Star p).

(** Captured texts, most recent first. *)
Definition caps := list (gname * pystr).

Fixpoint cap (n : gname) (c : caps) : option pystr :=
  match c with
  | [] => None
  | (m, t) :: c' => if gname_eqb n m then Some t else cap n c'
  end.

(** The part of [s] consumed when [s'] remains. *)
Definition consumed (s s' : pystr) : pystr := firstn (List.length s - List.length s') s.

Section Match.
  Context {A : Type}.

  Fixpoint mt_star (p : N -> bool) (s : pystr) (k : pystr -> option A) : option A :=
    match s with
    | x :: s' => if p x
                 then match mt_star p s' k with Some r => Some r | None => k s end
                 else k s
    | [] => k s
    end.

  (** Backtracking matcher in continuation passing style. *)
  Fixpoint mt (r : re) (s : pystr) (c : caps) (k : pystr -> caps -> option A) : option A :=
    match r with
    | Eps => k s c
    | Set_ p => match s with x :: s' => if p x then k s' c else None | [] => None end
    | Cat a b => mt a s c (fun s1 c1 => mt b s1 c1 k)
    | Alt a b => match mt a s c k with Some r => Some r | None => mt b s c k end
    | Opt a => match mt a s c k with Some r => Some r | None => k s c end
    | Star p => mt_star p s (fun s1 => k s1 c)
    | Grp n a => mt a s c (fun s1 c1 => k s1 ((n, consumed s s1) :: c1))
    end.
End Match.

(** [re.match]: a match starting at the beginning of [s]: (text, remaining, groups). *)
Definition match_here (r : re) (s : pystr) : option (pystr * caps) :=
  mt r s [] (fun s' c => Some (s', c)).

(** As above, but the match must be non-empty (CPython's [must_advance]). *)
Definition match_here_ne (r : re) (s : pystr) : option (pystr * caps) :=
  mt r s [] (fun s' c => if Nat.eqb (List.length s') (List.length s) then None else Some (s', c)).

(** Scanning: the subject is cut in characters that belong to no match, and matches. *)
Inductive tok :=
| Chr (x : N)
| Mat (text : pystr) (c : caps).

(** One scan over the subject, as done by [finditer]/[findall]/[sub]/[split]
    (CPython 3.7 and later): leftmost match; an empty match is followed by an
    attempt at a non-empty match at the same position. *)
Fixpoint scan (r : re) (skip : nat) (s : pystr) : list tok :=
  match skip with
  | S k => match s with [] => [] | _ :: s' => scan r k s' end
  | O =>
      let after := match s with [] => [] | x :: s' => Chr x :: scan r 0 s' end in
      let go (m : option (pystr * caps)) :=
        match m with
        | Some (s1, c) =>
            Mat (consumed s s1) c ::
            match s with
            | [] => []
            | _ :: s' => scan r (List.length s - List.length s1 - 1) s'
            end
        | None => after
        end in
      match match_here r s with
      | None => after
      | Some (s1, c) =>
          if Nat.eqb (List.length s1) (List.length s)
          then Mat [] c :: go (match_here_ne r s)
          else go (Some (s1, c))
      end
  end.

Fixpoint mats (l : list tok) : list (pystr * caps) :=
  match l with
  | [] => []
  | Chr _ :: l' => mats l'
  | Mat t c :: l' => (t, c) :: mats l'
  end.

(** [pattern.finditer(s)]: the matches with their groups. *)
Definition finditer (r : re) (s : pystr) : list (pystr * caps) := mats (scan r 0 s).

(** [bool(pattern.search(s))] *)
Definition search (r : re) (s : pystr) : bool :=
  match finditer r s with [] => false | _ => true end.

(** [pattern.sub("", s)] *)
Fixpoint unmatched (l : list tok) : pystr :=
  match l with
  | [] => []
  | Chr x :: l' => x :: unmatched l'
  | Mat _ _ :: l' => unmatched l'
  end.
Definition sub_empty (r : re) (s : pystr) : pystr := unmatched (scan r 0 s).

(** [re.split(pattern, s)] (no groups in the pattern). *)
Fixpoint pieces (l : list tok) (acc : pystr) : list pystr :=
  match l with
  | [] => [rev acc]
  | Chr x :: l' => pieces l' (x :: acc)
  | Mat _ _ :: l' => rev acc :: pieces l' []
  end.
Definition split_re (r : re) (s : pystr) : list pystr := pieces (scan r 0 s) [].

(** Concatenation of a list of expressions, and literals. *)
Fixpoint cats (l : list re) : re :=
  match l with
  | [] => Eps
  | [a] => a
  | a :: l' => Cat a (cats l')
  end.
Fixpoint alts (l : list re) : re :=
  match l with
  | [] => Set_ (fun _ => false)
  | [a] => a
  | a :: l' => Alt a (alts l')
  end.
Definition ch (c : N) : re := Set_ (N.eqb c).
Definition lit (s : pystr) : re := cats (List.map ch s).
Definition lit_ci `{PyRt} (s : pystr) : re := cats (List.map (fun c => Set_ (ci_eqb c)) s).
