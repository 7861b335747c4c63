(** * SpecCount: how many nodes and relationships are written in a pattern (C88) *)
From Verif Require Import PyBase Statements SpecPattern SpecGrammar.

Definition nodes_written (p : wpattern) : Z :=
  match p with OneNode _ => 1 | TwoNodes _ _ _ => 2 | ThreeNodes _ _ _ _ _ => 3 end%Z.
Definition rels_written (p : wpattern) : Z :=
  match p with OneNode _ => 0 | TwoNodes _ _ _ => 1 | ThreeNodes _ _ _ _ _ => 2 end%Z.
(** the line shown for each of them *)
Definition line_written (p : wpattern) : pystr :=
  match p with
  | OneNode _ => py "|ParsedPattern| Nodes: 1, Rels: 0"
  | TwoNodes _ _ _ => py "|ParsedPattern| Nodes: 2, Rels: 1"
  | ThreeNodes _ _ _ _ _ => py "|ParsedPattern| Nodes: 3, Rels: 2"
  end.
(** the sum of a count over some patterns *)
Fixpoint total {A} (f : A -> Z) (l : list A) : Z := match l with [] => 0%Z | x :: l' => (f x + total f l')%Z end.
(** one, if the pattern goes on to a node behind a second relationship *)
Definition third (p : pattern) : Z := match p_text (right_node p) with Some (_ :: _) => 1%Z | _ => 0%Z end.
