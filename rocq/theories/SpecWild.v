(** * SpecWild: names with wild cards (C81)

    The rules of Python's fnmatch module: a star stands for any text, a question mark for any character, brackets for one
    of the characters (with an exclamation mark: none of the characters) listed, which may be ranges such as a-z; a
    closing bracket directly after the opening one (or the exclamation mark) is listed, and an opening bracket that is
    never closed stands for itself. Ranges that run backward, such as z-a, list nothing; but an exclamation mark that has
    only such ranges before it counts as one directly after the opening bracket. *)
From Verif Require Import PyBase FS Store SpecGdbms.

(** the text between brackets lists single characters and ranges *)
Inductive item := One (c : N) | Span (a b : N).
Inductive items : pystr -> list item -> Prop :=
| items_none : items [] []
| items_span : forall a b r l, items r l -> items (a :: 45%N :: b :: r) (Span a b :: l)
| items_one : forall a r l, (forall b r', r <> 45%N :: b :: r') -> items r l -> items (a :: r) (One a :: l).
Definition lists (l : list item) (x : N) : Prop := In (One x) l \/ exists a b, In (Span a b) l /\ (a <= x <= b)%N.
Definition backward (i : item) : Prop := match i with One _ => False | Span a b => (b < a)%N end.
(** brackets that list [l] stand for [x]; [neg]: after an exclamation mark *)
Inductive stands : bool -> list item -> N -> Prop :=
| stands_not : forall l x, ~ lists l x -> stands true l x
| stands_for : forall l x, lists l x ->
    (forall l0 l1 i, l = l0 ++ i :: l1 -> Forall backward l0 -> ~ backward i -> i <> One 33%N /\ forall b, i <> Span 33%N b) -> stands false l x
| stands_late : forall l0 l1 x, Forall backward l0 -> ~ lists l1 x -> stands false (l0 ++ One 33%N :: l1) x
| stands_span : forall l0 b l1 x, Forall backward l0 -> (33 <= b)%N -> ~ lists (One 45%N :: One b :: l1) x -> stands false (l0 ++ Span 33%N b :: l1) x.
(** the text [s] after an opening bracket begins with [body] and its closing bracket; [neg]: after an exclamation mark *)
Definition brackets (s : pystr) (neg : bool) (body rest : pystr) : Prop :=
  s = (if neg then [33%N] else []) ++ body ++ 93%N :: rest /\ body <> [] /\ ~ In 93%N (tl body) /\ (neg = false -> hd 0%N body <> 33%N).
(** the name [t] fits the pattern [s] *)
Inductive fits : pystr -> pystr -> Prop :=
| fits_end : fits [] []
| fits_star : forall s t1 t2, fits s t2 -> fits (42%N :: s) (t1 ++ t2)
| fits_question : forall s x t, fits s t -> fits (63%N :: s) (x :: t)
| fits_brackets : forall s neg body rest l x t, brackets s neg body rest -> items body l -> stands neg l x ->
    fits rest t -> fits (91%N :: s) (x :: t)
| fits_open : forall s t, (forall neg body rest, ~ brackets s neg body rest) -> fits s t -> fits (91%N :: s) (91%N :: t)
| fits_itself : forall c s t, c <> 42%N -> c <> 63%N -> c <> 91%N -> fits s t -> fits (c :: s) (c :: t).

(** deleting the graph [n] strikes the folder [m]: names that begin with a dot are only struck by those that do *)
Definition strikes (n m : pystr) : Prop := fits n m /\ (visible m \/ ~ visible n).
(** [p] lies, and is not hidden, in a folder in [dir] that the deletion of [n] strikes *)
Definition struck (dir : path) (n : pystr) (w : world) (p : path) : Prop :=
  exists m x, p = dir ++ [m; x] /\ strikes n m /\ entry_at (dir ++ [m]) w = Some EDir /\ visible x.
