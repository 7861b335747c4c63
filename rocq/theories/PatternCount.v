(** * PatternCount: what a parsed pattern says about itself

    models/wql/parsing/parsed_query.py: the two counts of a [ParsedPattern] and its [__repr__]. *)
From Verif Require Import PyBase Statements.

(** [bool(x)] as a number, for an optional text: None and the empty text count 0. parsed_query.py:60, 68 *)
Definition bool_text (o : option pystr) : Z := match o with Some (_ :: _) => 1%Z | _ => 0%Z end.

(** parsed_query.py:53-60 number_of_nodes *)
Definition number_of_nodes (p : pattern) : Z :=
  (bool_text (p_text (left_node p)) + bool_text (p_text (middle_node p)) + bool_text (p_text (right_node p)))%Z.

(** parsed_query.py:62-68 number_of_relationships *)
Definition number_of_relationships (p : pattern) : Z :=
  (bool_text (p_text (left_middle_rel p)) + bool_text (p_text (middle_right_rel p)))%Z.

(** parsed_query.py:70-71 __repr__; the class name is that of ParsedPattern, which has no subclasses *)
Definition pattern_repr (p : pattern) : pystr :=
  py "|ParsedPattern| Nodes: " ++ str_of_Z (number_of_nodes p) ++ py ", Rels: " ++ str_of_Z (number_of_relationships p).
