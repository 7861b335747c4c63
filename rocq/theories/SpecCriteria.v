(** * SpecCriteria: FIND with CRITERIA (C61) *)
From Verif Require Import PyBase Props Statements SpecMake Find Criteria.

Section SpecCriteria.
  Context {rt : PyRt}.

  (** the criteria for a handle: a dictionary lookup; nothing for an element without a handle *)
  Definition criteria_for (cr : criteria) (x : piece) : option yes_no :=
    match p_handle x with Some h => d_get h cr | None => None end.
  (** [x] is drawn with a property list *)
  Definition has_list (x : piece) : Prop := exists c t, p_props x = Some (c :: t).
  (** there are properties to match in the criteria for [x] *)
  Definition wanted (cr : criteria) (x : piece) : Prop := exists c, criteria_for cr x = Some c /\ yn_yes c <> [].
  (** The criteria can be used with the pattern: what they match has a property list; of three nodes, the first one
      has a property list and there are criteria for the second one. *)
  Record fits (cr : criteria) (p : pattern) : Prop := {
    ft_left : wanted cr (left_node p) -> has_list (left_node p);
    ft_others : forall x, In x [left_middle_rel p; middle_node p; middle_right_rel p] -> drawn x = true -> wanted cr x -> has_list x;
    ft_three : drawn (middle_node p) = true -> has_list (left_node p) /\ criteria_for cr (middle_node p) <> None }.

  Definition look {A} (k : pystr) (d : option (list (pystr * A))) : option A := match d with Some d => d_get k d | None => None end.
  Definition over {A} (a b : option A) : option A := match a with Some _ => a | None => b end.
  (** the conditions [yes] and [no] of an element with the own properties [own]: the criteria win *)
  Definition merged (c : option yes_no) (own : option cdict) (yes no : option cdict) : Prop := forall k,
    look k yes = over (option_map CVal (look k (option_map yn_yes c))) (look k own) /\
    look k no = option_map CVal (look k (option_map yn_no c)).
  (** the dictionaries of the criteria have no repeated keys *)
  Definition dicts_ok (cr : criteria) : Prop :=
    forall h c, In (h, c) cr -> NoDup (map fst (yn_yes c)) /\ NoDup (map fst (yn_no c)).
  (** an element [x] of the pattern whose own conditions are those of [own_of], with the resulting conditions *)
  Definition conditions (cr : criteria) (x own_of : piece) (yes no : option cdict) : Prop :=
    exists o, get_property_dict (p_props own_of) = Ok o /\ merged (criteria_for cr x) (option_map as_conds o) yes no.
  Definition nodes_of (r : cfind) : list cnode :=
    cf_left r :: (match cf_middle r with Some n => [n] | None => [] end) ++ (match cf_right r with Some n => [n] | None => [] end).
End SpecCriteria.
