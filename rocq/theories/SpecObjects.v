(** * SpecObjects: what a user of Node and Relationship objects relies on (C73) *)
From Verif Require Import PyBase Data Objects.

(** a relationship that leads from a node to another one *)
Definition proper_rel (r : rel_obj) : Prop := ro_from r <> ro_to r.
(** the relationships of a node *)
Definition rels_of (o : node_obj) : list rel_obj := match field_value (no_rels o) with Some l => l | None => [] end.
(** every relationship of the node starts or ends at the node *)
Definition own_rels (o : node_obj) : Prop :=
  forall r, In r (rels_of o) -> ro_from r = mo_wn (no_meta o) \/ ro_to r = mo_wn (no_meta o).
Definition proper_node (o : node_obj) : Prop := own_rels o /\ Forall proper_rel (rels_of o).

(** what an export shows of a field that may be absent or null: without the option [none] null is shown,
    without the options [unset] and [none] also if it was not given *)
Definition shown {A} (unset none : bool) (f : A -> pyval) (o : option (option A)) : option pyval :=
  match o with
  | Some (Some a) => Some (f a)
  | Some None => if none then None else Some VNone
  | None => if unset || none then None else Some VNone
  end.
(** [d] has no members but these *)
Definition only_keys (l : list pystr) (d : list (pystr * pyval)) : Prop := NoDup (map fst d) /\ forall k, In k (map fst d) -> In k l.

(** ** What repr() shows *)
(** the text says: a node with this label and number *)
Definition printed_node (t label : pystr) (z : Z) : Prop := t = py "|Node| " ++ label ++ py ": " ++ str_of_Z z.
(** the text says: a relationship of this name between these nodes *)
Definition printed_rel (t name : pystr) (x y : Z) : Prop :=
  t = py "|Relationship| " ++ name ++ py ": FROM " ++ str_of_Z x ++ py " TO " ++ str_of_Z y.
Definition name_or_none (r : rel_obj) : pystr := match ro_name r with Some (Some n) => n | _ => py "None" end.

Section SpecObjects.
  Context {rt : PyRt}.

  Definition exported_meta (unset none : bool) (m : meta_obj) (v : pyval) : Prop :=
    exists d, v = VDict d /\ only_keys [py "wn"; py "created_at"; py "updated_at"] d /\
      d_get (py "wn") d = Some (VInt (mo_wn m)) /\
      d_get (py "created_at") d = match mo_created m with
                                  | Some t => Some (VFloat t)
                                  | None => if unset then None else Some (VFloat import_time)
                                  end /\
      d_get (py "updated_at") d = shown unset none VFloat (mo_updated m).
  Definition exported_rel (unset none : bool) (r : rel_obj) (v : pyval) : Prop :=
    exists d m, v = VDict d /\
      only_keys [py "relationship_metadata"; py "relationship_name"; py "wn_from_node"; py "wn_to_node"; py "properties"] d /\
      d_get (py "relationship_metadata") d = Some m /\ exported_meta unset none (ro_meta r) m /\
      d_get (py "relationship_name") d = shown unset none VStr (ro_name r) /\
      d_get (py "wn_from_node") d = Some (VInt (ro_from r)) /\
      d_get (py "wn_to_node") d = Some (VInt (ro_to r)) /\
      d_get (py "properties") d = shown unset none VDict (ro_props r).
  Definition exported_node (unset none : bool) (o : node_obj) (v : pyval) : Prop :=
    exists d m rs, v = VDict d /\
      only_keys [py "node_metadata"; py "node_label"; py "properties"; py "relations"] d /\
      d_get (py "node_metadata") d = Some m /\ exported_meta unset none (no_meta o) m /\
      d_get (py "node_label") d = Some (VStr (no_label o)) /\
      d_get (py "properties") d = shown unset none VDict (no_props o) /\
      Forall2 (exported_rel unset none) (rels_of o) rs /\
      d_get (py "relations") d = shown unset none (fun _ => VList rs) (no_rels o).

  (** the entry [kv] of a database is the node [o]: the class accepts its value, and [o] exports just that entry *)
  Definition is_node (kv : pystr * pyval) (o : node_obj) : Prop :=
    read_node (snd kv) = Ok o /\ export_node false false o = [kv] /\ proper_node o.
End SpecObjects.
