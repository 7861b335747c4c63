(** * SpecLine: the line that stands for an exception of the project, and upper case (C66, C68)

    [explains] and [failure] (SpecMessages, SpecMessagesRun) tell which message an exception has; here is its text. *)
From Verif Require Import PyBase Messages SpecShown.

(** the exceptions of exceptions/ that a query, a node or a relationship can raise, with the names of their classes *)
Definition project_exceptions : list (exn * pystr) :=
  [(ClauseSyntaxError, py "ClauseSyntaxError"); (IllegalCharacterError, py "IllegalCharacterError");
   (NonDirectedRelationshipError, py "NonDirectedRelationshipError"); (ParamSyntaxError, py "ParamSyntaxError");
   (RelationshipNameSyntaxError, py "RelationshipNameSyntaxError");
   (WiggleGraphIllegalPropertyValue, py "WiggleGraphIllegalPropertyValue");
   (PropertyTypeAssignmentError, py "PropertyTypeAssignmentError"); (MakeDuplicateHandlesError, py "MakeDuplicateHandlesError");
   (MultipleClauseStatementsError, py "MultipleClauseStatementsError");
   (FindReportHandleMissmatch, py "FindReportHandleMissmatch"); (NodeExistsError, py "NodeExistsError");
   (RelationshipToFromError, py "RelationshipToFromError"); (NodeHasUnrelatedRelationship, py "NodeHasUnrelatedRelationship")].

(** texts one after the other with a comma and a blank between them *)
Inductive listed : list pystr -> pystr -> Prop :=
| listed_none : listed [] []
| listed_one t : listed [t] t
| listed_more t ts s : ts <> [] -> listed ts s -> listed (t :: ts) (t ++ py ", " ++ s).

(** [t] is the text of a message, with the strings it quotes shown in quotes *)
Definition message_reads (u : N -> bool) (m : message) (t : pystr) : Prop :=
  match m with
  | Text s => t = s
  | Quoting a (AList l) b => exists ts s, Forall2 (shows_text u) l ts /\ listed ts s /\ t = a ++ py "[" ++ s ++ py "]" ++ b
  | Quoting a (ATuple l) b => exists ts s, Forall2 (shows_text u) l ts /\ listed ts s /\ t = a ++ py "(" ++ s ++ py ")" ++ b
  end.
Definition quotes_unicode (m : message) : Prop :=
  match m with Text _ => True | Quoting _ (AList l) _ | Quoting _ (ATuple l) _ => Forall unicode l end.

(** [t] is [s] in upper case: a-z by their ASCII capitals, what is beyond ASCII by Python's table *)
Definition upper_char {rt : PyRt} (c : N) (t : pystr) : Prop :=
  ((97 <= c <= 122)%N /\ t = [(c - 32)%N]) \/ ((c < 128)%N /\ ~ (97 <= c <= 122)%N /\ t = [c]) \/ ((128 <= c)%N /\ t = u_upcase c).
Definition in_upper_case {rt : PyRt} (s t : pystr) : Prop := exists ts, Forall2 upper_char s ts /\ t = concat ts.
