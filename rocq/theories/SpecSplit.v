(** * SpecSplit: when two disks hold the same graph (C71), and patterns that differ in handles only (C72) *)
From Verif Require Import PyBase Json SpecJson Props Statements FS Store SpecStore Make SpecMake.

Section SpecSplit.
  Context {rt : PyRt}.

  (** database and counter hold the same text; the indexes hold the same numbers, labels and names, maybe in
      another order *)
  Definition same_graph (g : gdbms) (w1 w2 : world) : Prop :=
    (exists t, file_is (database_fp g) t w1 /\ file_is (database_fp g) t w2) /\
    (exists t, file_is (wiggle_number_fp g) t w1 /\ file_is (wiggle_number_fp g) t w2) /\
    exists i1 i2, index_file (indexes_fp g) i1 w1 /\ index_file (indexes_fp g) i2 w2 /\
      (forall k z, In z (numbers_of k (ix_rels i1)) <-> In z (numbers_of k (ix_rels i2))) /\
      (forall s, In s (ix_labels i1) <-> In s (ix_labels i2)) /\
      (forall s, In s (ix_names i1) <-> In s (ix_names i2)).

  (** the MAKEs [ls], one after the other, all of them succeeding; [None] when one does not *)
  Fixpoint in_turn (ls : list (list parsed_make)) (g : gdbms) (w : world) : option world :=
    match ls with
    | [] => Some w
    | l :: ls' => match run (make l g) w with (Ok true, w') => in_turn ls' g w' | _ => None end
    end.

  (** some stored node of the patterns has a relationship of its own: a left relationship, or a right one that
      points to the right (C19) *)
  Definition has_relationship (ps : list pattern) : Prop :=
    exists p, In p ps /\
      (drawn (left_middle_rel p) = true \/
       drawn (middle_right_rel p) = true /\ points_right (middle_right_rel p) = true).

  (** nodes drawn with the same label, and properties that mean the same or are refused with the same exception
      ([get_property_dict], characterised by C13-C16); the handle and the blanks do not matter *)
  Definition same_node (a b : piece) : Prop := drawn a = drawn b /\ p_label a = p_label b /\
    get_property_dict (p_props a) = get_property_dict (p_props b).
  (** relationships that have, besides, the same arrow heads *)
  Definition same_relationship (a b : piece) : Prop :=
    same_node a b /\ points_right a = points_right b /\ (two_heads a <-> two_heads b).
  Definition same_drawing (p q : pattern) : Prop :=
    same_node (left_node p) (left_node q) /\ same_relationship (left_middle_rel p) (left_middle_rel q) /\
    same_node (middle_node p) (middle_node q) /\ same_relationship (middle_right_rel p) (middle_right_rel q) /\
    same_node (right_node p) (right_node q).
End SpecSplit.
