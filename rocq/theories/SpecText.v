(** * SpecText: what the text-level properties mean (C01-C08)

    Only the vocabulary of PyBase is used: no regular expressions and no
    function of the model. *)
From Verif Require Import PyBase.
From Coq Require Import Permutation.

Section SpecText.
  Context {rt : PyRt}.

  (** [w] spells [p], letter case ignored. *)
  Definition Ci (p w : pystr) : Prop := Forall2 (fun a b => ci_eqb a b = true) p w.

  Definition no_newline (s : pystr) : Prop := ~ In 10%N s.
  Definition all_space (s : pystr) : Prop := Forall (fun c => is_space c = true) s.

  (** A complete MAKE/FIND statement: keyword, white space, '(' , at least one
      character without line break, ');'. *)
  Definition Statement (kw m : pystr) : Prop :=
    exists k sp body, m = k ++ sp ++ py "(" ++ body ++ py ");" /\
      Ci kw k /\ all_space sp /\ body <> [] /\ no_newline body.

  (** A complete REPORT statement: keyword, at least one character without line break, ';'. *)
  Definition ReportStatement (kw m : pystr) : Prop :=
    exists k body, m = k ++ body ++ py ";" /\ Ci kw k /\ body <> [] /\ no_newline body.

  (** [ms] are the pieces of [q] that satisfy [P], taken from left to right, each as
      long as possible; between two pieces no piece could have started. *)
  Inductive Extracted (P : pystr -> Prop) : pystr -> list pystr -> Prop :=
  | Ex_end : Extracted P [] []
  | Ex_skip : forall x q ms,
      (forall m rest, x :: q = m ++ rest -> ~ P m) ->
      Extracted P q ms -> Extracted P (x :: q) ms
  | Ex_take : forall m q ms,
      P m -> m <> [] ->
      (forall m' rest, m ++ q = m' ++ rest -> P m' -> List.length m' <= List.length m) ->
      Extracted P q ms -> Extracted P (m ++ q) (m :: ms).

  (** [p] is an anagram of [kw], letter case ignored. *)
  Definition Anagram (kw w : pystr) : Prop := exists p, Permutation kw p /\ Ci p w.
  (** an anagram followed by '(' with at most one white space between them *)
  Definition AnagramCall (kw q : pystr) : Prop :=
    exists a w sp b, q = a ++ w ++ sp ++ py "(" ++ b /\ Anagram kw w /\
                     (sp = [] \/ exists c, sp = [c] /\ is_space c = true).
  (** an anagram followed on its line by some text and ';' *)
  Definition AnagramLine (kw q : pystr) : Prop :=
    exists a w t b, q = a ++ w ++ t ++ py ";" ++ b /\ Anagram kw w /\ t <> [] /\ no_newline t.

  (** ** The three clauses *)
  Definition keyword (c : clause) : pystr :=
    match c with MAKE => py "MAKE" | FIND => py "FIND" | REPORT => py "REPORT" | CRITERIA => py "CRITERIA" end.
  (** the complete statements of a clause *)
  Definition StatementOf (c : clause) : pystr -> Prop :=
    match c with
    | MAKE => Statement (py "MAKE") | FIND => Statement (py "FIND")
    | REPORT => ReportStatement (py "REPORT") | CRITERIA => fun _ => False
    end.
  (** the texts in which the keyword of a clause counts as misspelt *)
  Definition Misspelt (c : clause) (q : pystr) : Prop :=
    match c with
    | MAKE => AnagramCall (py "MAKE") q
    | FIND => AnagramCall (py "FIND") q
    | REPORT => AnagramLine (py "REPORT") q
    | CRITERIA => False
    end.
  (** the keyword occurs somewhere in [s], letter case ignored *)
  Definition Occurs (kw s : pystr) : Prop := exists a w b, s = a ++ w ++ b /\ Ci kw w.
  (** lines joined by line feeds *)
  Fixpoint join_lines (ls : list pystr) : pystr :=
    match ls with [] => [] | [l] => l | l :: ls' => l ++ 10%N :: join_lines ls' end.

  (** pieces and gaps in turn *)
  Fixpoint weave (gaps ms : list pystr) : pystr :=
    match gaps, ms with
    | g :: gaps', m :: ms' => g ++ m ++ weave gaps' ms'
    | g :: _, [] => g
    | [], _ => []
    end.

  Definition has_illegal (s : pystr) : Prop := exists c, In c s /\ In c (py "#%&*$").

  (** [out] is what is left of [s] when the pieces satisfying [P] are taken out from
      left to right, each as long as possible; [ms] are those pieces *)
  Inductive TakenOut (P : pystr -> Prop) : pystr -> pystr -> list pystr -> Prop :=
  | TO_end : TakenOut P [] [] []
  | TO_skip : forall x s out ms,
      (forall m rest, x :: s = m ++ rest -> ~ P m) ->
      TakenOut P s out ms -> TakenOut P (x :: s) (x :: out) ms
  | TO_take : forall m s out ms,
      P m -> m <> [] ->
      (forall m' rest, m ++ s = m' ++ rest -> P m' -> List.length m' <= List.length m) ->
      TakenOut P s out ms -> TakenOut P (m ++ s) out (m :: ms).
  (** a list literal: '[', at least one of: word character, white space, comma, quote,
      dot, @; then ']' *)
  Definition ListLiteral (m : pystr) : Prop :=
    exists body, m = py "[" ++ body ++ py "]" /\ body <> [] /\
      Forall (fun c => is_word c = true \/ is_space c = true \/ In c (py ",'"".@")) body.

  (** a maximal piece of [s] without arrow heads *)
  Definition is_arrow (c : N) : Prop := c = 60%N \/ c = 62%N.
  Definition Segment (s seg : pystr) : Prop :=
    exists a b, s = a ++ seg ++ b /\ (forall c, In c seg -> ~ is_arrow c) /\
      (a = [] \/ exists a' c, a = a' ++ [c] /\ is_arrow c) /\
      (b = [] \/ exists c b', b = c :: b' /\ is_arrow c).

  Definition occ (c : N) (s : pystr) : nat := count_occ N.eq_dec s c.
  (** numbers of parentheses, braces and brackets *)
  Definition even_brackets (s : pystr) : Prop :=
    Nat.Even (occ 40 s + occ 41 s) /\ Nat.Even (occ 123 s + occ 125 s) /\ Nat.Even (occ 91 s + occ 93 s).

  (** a relationship (its text and its name) that the check should accept *)
  Definition rel_acceptable (t name : pystr) : Prop :=
    ((In 60%N t /\ ~ In 62%N t) \/ (In 62%N t /\ ~ In 60%N t)) /\
    (name = [] \/ str_isupper name = true).
End SpecText.
