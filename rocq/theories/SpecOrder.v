(** * SpecOrder: the order of the lines of a query, and queries that are taken apart (C84) *)
From Verif Require Import PyBase SpecText SpecPattern SpecGrammar Checks FS Store SpecStore Find SpecWhole SpecLines.

(** the texts of the lines of one kind, in the order in which they are written *)
Fixpoint texts_of (c : clause) (ls : list qline) : list pystr :=
  match ls with
  | [] => []
  | x :: ls' => match clause_of x, c with
                | MAKE, MAKE | FIND, FIND | REPORT, REPORT => line_text x :: texts_of c ls'
                | _, _ => texts_of c ls'
                end
  end.
(** lines of one kind stand in the same order; those of different kinds may be mixed in any way *)
Definition rearranged (ls ls' : list qline) : Prop := forall c, In c [MAKE; FIND; REPORT] -> texts_of c ls = texts_of c ls'.

(** a MAKE line with a relationship in it *)
Definition linking (m : qline) : Prop := exists kw l bp, m = MakeLine kw l /\ In bp l /\ rels_in (snd bp) <> [].
Definition two_nodes (p : dpattern) : Prop := match p with Two _ _ _ => True | _ => False end.
