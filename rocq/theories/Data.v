(** * Data: nodes and relationships as they are stored
    models/wql/data/wiggle_metadata.py, relationship.py, node.py *)
From Verif Require Import PyBase.

(** models/wql/data/relationship.py:11-25 Relationship *)
Record relationship := { r_wn : Z; r_name : option pystr; r_from : Z; r_to : Z;
                         r_props : option (list (pystr * pyval)) }.

(** models/wql/data/node.py:12-24 Node *)
Record node := { n_wn : Z; n_label : pystr; n_props : option (list (pystr * pyval));
                 n_rels : option (list relationship) }.

Section Data.
  Context {rt : PyRt}.

  (** models/wql/data/relationship.py:34-44 validate_from_to_wn *)
  Definition new_relationship (wn : Z) (name : option pystr) (from to : Z)
             (props : option (list (pystr * pyval))) : res relationship :=
    if Z.eqb from to then Err RelationshipToFromError
    else Ok {| r_wn := wn; r_name := name; r_from := from; r_to := to; r_props := props |}.

  (** models/wql/data/node.py:56-71 validate_relationships *)
  Definition new_node (wn : Z) (label : pystr) (props : option (list (pystr * pyval)))
             (rels : option (list relationship)) : res node :=
    let unrelated r := negb (Z.eqb wn (r_from r)) && negb (Z.eqb wn (r_to r)) in
    match rels with
    | Some l => if existsb unrelated l then Err NodeHasUnrelatedRelationship
                else Ok {| n_wn := wn; n_label := label; n_props := props; n_rels := rels |}
    | None => Ok {| n_wn := wn; n_label := label; n_props := props; n_rels := rels |}
    end.

  (** models/wql/data/wiggle_metadata.py:7-10: the default of [created_at] is
      evaluated once, when the module is imported *)
  Definition metadata_val (wn : Z) : pyval :=
    VDict [(py "wn", VInt wn); (py "created_at", VFloat import_time); (py "updated_at", VNone)].

  Definition opt_dict_val (d : option (list (pystr * pyval))) : pyval :=
    match d with Some d => VDict d | None => VNone end.
  Definition opt_str_val (s : option pystr) : pyval :=
    match s with Some s => VStr s | None => VNone end.

  (** pydantic .dict() of a Relationship and of a Node (field order of the classes) *)
  Definition rel_val (r : relationship) : pyval :=
    VDict [(py "relationship_metadata", metadata_val (r_wn r));
           (py "relationship_name", opt_str_val (r_name r));
           (py "wn_from_node", VInt (r_from r));
           (py "wn_to_node", VInt (r_to r));
           (py "properties", opt_dict_val (r_props r))].
  Definition node_val (n : node) : pyval :=
    VDict [(py "node_metadata", metadata_val (n_wn n));
           (py "node_label", VStr (n_label n));
           (py "properties", opt_dict_val (n_props n));
           (py "relations", match n_rels n with
                            | Some l => VList (List.map rel_val l)
                            | None => VNone
                            end)].
End Data.
