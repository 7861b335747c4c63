(** * SpecLines: a query of several lines as it is written, and what it answers (C67)

    The lines come in any order: MAKE statements, one FIND statement and at most one REPORT statement
    (SpecWhole and SpecText say how they are written). *)
From Verif Require Import PyBase SpecText SpecPattern SpecGrammar Checks FS Store SpecStore Find SpecWhole.

Section SpecLines.
  Context {rt : PyRt}.

  Inductive qline :=
  | MakeLine (kw : pystr) (l : list (pystr * dpattern))
  | FindLine (kw : pystr) (l : list (pystr * dpattern))
  | ReportLine (t : pystr).
  Definition line_text (x : qline) : pystr :=
    match x with MakeLine kw l | FindLine kw l => statement_text kw l | ReportLine t => t end.
  Definition clause_of (x : qline) : clause :=
    match x with MakeLine _ _ => MAKE | FindLine _ _ => FIND | ReportLine _ => REPORT end.
  Definition query_text (ls : list qline) : pystr := join_lines (map line_text ls).

  (** the patterns of the MAKE lines, in the order in which they are written *)
  Definition made (ls : list qline) : list (pystr * dpattern) :=
    flat_map (fun x => match x with MakeLine _ l => l | _ => [] end) ls.

  Definition line_drawn (x : qline) : Prop :=
    match x with
    | MakeLine kw l => (kw = py "MAKE" \/ kw = py "make") /\ drawn_list l
    | FindLine kw l => (kw = py "FIND" \/ kw = py "find") /\ drawn_list l
    | ReportLine t => ReportStatement (py "REPORT") t /\ no_newline t /\ (starts (py "REPORT") t \/ starts (py "report") t)
    end.

  Record query_drawn (ls : list qline) : Prop := {
    qd_lines : Forall line_drawn ls;
    (** a keyword is only written in lines of its own kind *)
    qd_apart : forall x c, In x ls -> In c [MAKE; FIND; REPORT] -> clause_of x <> c -> ~ Occurs (keyword c) (line_text x);
    (** a clause that is left out is not there with its letters shuffled, either *)
    qd_spelt : forall c, In c [MAKE; FIND; REPORT] -> (forall x, In x ls -> clause_of x <> c) -> ~ Misspelt c (query_text ls);
    qd_report : forall a x b y c, ls = a ++ x :: b ++ y :: c -> clause_of x = REPORT -> clause_of y <> REPORT }.
  (** [p] is the first pattern of the only FIND line *)
  Definition asks (ls : list qline) (p : dpattern) : Prop :=
    exists a kw b l c, ls = a ++ FindLine kw ((b, p) :: l) :: c /\ forall x, In x (a ++ c) -> clause_of x <> FIND.

  (** every handle of the pattern is a piece of the text of the REPORT line *)
  Definition mentioned (ls : list qline) (p : dpattern) : Prop :=
    forall t h, In (ReportLine t) ls -> In h (handles_in p) -> exists a b, t = a ++ h ++ b.

  (** some label of the pattern is in the graph's index and none of its relationship names is *)
  Definition hit (p : dpattern) (G : graph) : Prop :=
    (exists n, In n (nodes_in p) /\ In (dn_label n) (ix_labels (g_ix G))) /\
    ~ exists r, In r (rels_in p) /\ dr_name r <> [] /\ In (dr_name r) (ix_names (g_ix G)).

  (** what the query answers on a graph that holds [G], and what it leaves *)
  Definition answers (p : dpattern) (G : graph) (w : world) (out : res bool * world) : Prop :=
    match p with
    | Two _ _ _ => out = (Err ValidationError, w)
    | _ => hit p G /\ out = (Ok true, w) \/
           ~ hit p G /\ out = (Ok true, {| w_fs := w_fs w; w_in := w_in w; w_out := w_out w ++ [NO_RESULTS] |})
    end.
End SpecLines.
