(** * SpecSound: database, index and counter agree (C58) *)
From Verif Require Import PyBase Json SpecJson Statements FS Store SpecStore Make SpecMake Query.

(** the number in the metadata [name] of an object *)
Definition number_in (name : pystr) (v : pyval) : list Z :=
  match field name v with
  | Some md => match field (py "wn") md with Some (VInt z) => [z] | _ => [] end
  | None => []
  end.
Definition rel_number (r : pyval) : list Z := number_in (py "relationship_metadata") r.
Definition node_number (v : pyval) : list Z := number_in (py "node_metadata") v.
(** the numbers of all nodes and of all relationships that they list *)
Definition all_numbers (d : list (pystr * pyval)) : list Z :=
  flat_map (fun kv => node_number (snd kv) ++ flat_map rel_number (relations (snd kv))) d.

Section SpecSound.
  Context {rt : PyRt}.

  Record sound (G : graph) : Prop := {
    (* the index holds, for every key, exactly the numbers of the relationships the node lists *)
    so_rels : forall k z, In z (numbers_of k (ix_rels (g_ix G))) <->
                exists v r, In (k, v) (g_db G) /\ In r (relations v) /\ rel_number r = [z];
    (* every label and every name in use is in its index *)
    so_labels : forall k v s, In (k, v) (g_db G) -> field (py "node_label") v = Some (VStr s) -> In s (ix_labels (g_ix G));
    so_names : forall k v r s, In (k, v) (g_db G) -> In r (relations v) -> field (py "relationship_name") r = Some (VStr s) ->
                 s = [] \/ In s (ix_names (g_ix G));
    (* a node is stored under its number and lists relationships that have a number and start at it *)
    so_key : forall k v, In (k, v) (g_db G) -> exists n, k = str_of_Z n /\ node_number v = [n] /\
               forall r, In r (relations v) -> field (py "wn_from_node") r = Some (VInt n) /\ exists z, rel_number r = [z];
    (* no number is used twice and all lie below the counter *)
    so_once : NoDup (all_numbers (g_db G));
    so_below : forall z, In z (all_numbers (g_db G)) -> (z < g_next G)%Z }.

  (** a graph in which nothing was made yet *)
  Definition empty_graph (G : graph) : Prop :=
    g_db G = [] /\ ix_rels (g_ix G) = [] /\ ix_labels (g_ix G) = [] /\ ix_names (g_ix G) = [].

  (** queries one after the other; what they raise is caught *)
  Fixpoint session (g : gdbms) (qs : list pystr) (w : world) : list (res bool) * world :=
    match qs with
    | [] => ([], w)
    | q :: qs' => let (r, w1) := run (query q g) w in let (rs, w2) := session g qs' w1 in (r :: rs, w2)
    end.
  (** the exceptions that a half-done MAKE raises (C23, C27) *)
  Definition corrupting (r : res bool) : Prop := r = Err JSONDecodeError \/ r = Err TypeError.
End SpecSound.
