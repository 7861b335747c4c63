(** * Objects: Node and Relationship objects outside MAKE
    models/wql/data/wiggle_metadata.py, relationship.py, node.py

    What a user of these classes can do with them: make them from keyword arguments or from a
    dictionary (pydantic 1.10.2), compare and print them, and export them. *)
From Verif Require Import PyBase Data.

(** The objects, with what pydantic keeps in __fields_set__: an optional field is [None] if it was
    not given, [Some] of its value if it was.
    wiggle_metadata.py:7-10 WiggleGraphMetalData; relationship.py:11-25; node.py:12-24 *)
Record meta_obj := { mo_wn : Z; mo_created : option pystr; mo_updated : option (option pystr) }.
Record rel_obj := { ro_meta : meta_obj; ro_name : option (option pystr); ro_from : Z; ro_to : Z;
                    ro_props : option (option (list (pystr * pyval))) }.
Record node_obj := { no_meta : meta_obj; no_label : pystr; no_props : option (option (list (pystr * pyval)));
                     no_rels : option (option (list rel_obj)) }.

(** the value of an optional field whose default is None *)
Definition field_value {A} (o : option (option A)) : option A := match o with Some v => v | None => None end.
Definition given {A} (o : option A) : bool := match o with Some _ => true | None => false end.

(** ** Construction from keyword arguments of the right types *)

(** relationship.py:34-46 validate_from_to_wn *)
Definition Relationship (a : rel_obj) : res rel_obj :=
  if Z.eqb (ro_from a) (ro_to a) then Err RelationshipToFromError else Ok a.

(** node.py:56-71 validate_relationships *)
Definition Node (a : node_obj) : res node_obj :=
  let wn := mo_wn (no_meta a) in
  let unrelated r := negb (Z.eqb wn (ro_from r)) && negb (Z.eqb wn (ro_to r)) in
  match field_value (no_rels a) with
  | Some l => if existsb unrelated l then Err NodeHasUnrelatedRelationship else Ok a
  | None => Ok a
  end.

(** the objects that MAKE builds: make.py:57, 68-73 and 82, 86-92 (every field of a node and of a
    relationship is given, of the metadata only the number) *)
Definition made_meta (wn : Z) : meta_obj := {| mo_wn := wn; mo_created := None; mo_updated := None |}.
Definition rel_made (r : relationship) : rel_obj :=
  {| ro_meta := made_meta (r_wn r); ro_name := Some (r_name r); ro_from := r_from r; ro_to := r_to r;
     ro_props := Some (r_props r) |}.
Definition node_made (n : node) : node_obj :=
  {| no_meta := made_meta (n_wn n); no_label := n_label n; no_props := Some (n_props n);
     no_rels := Some (option_map (map rel_made) (n_rels n)) |}.

Section Objects.
  Context {rt : PyRt}.

  (** ** Export *)

  (** pydantic BaseModel.dict(exclude_unset, exclude_none): the fields in the order of the class,
      without those that were not given and without those that are None, if so asked.  The members
      of dictionaries and lists are never left out. *)
  Definition is_none (v : pyval) : bool := match v with VNone => true | _ => false end.
  Definition fields (unset none : bool) (l : list (pystr * bool * pyval)) : pyval :=
    VDict (flat_map (fun f => match f with (k, g, v) =>
                       if (unset && negb g) || (none && is_none v) then [] else [(k, v)] end) l).
  Definition opt_float_val (o : option pystr) : pyval := match o with Some t => VFloat t | None => VNone end.
  Definition meta_dict (unset none : bool) (m : meta_obj) : pyval :=
    fields unset none
      [(py "wn", true, VInt (mo_wn m));
       (py "created_at", given (mo_created m), VFloat (match mo_created m with Some t => t | None => import_time end));
       (py "updated_at", given (mo_updated m), opt_float_val (field_value (mo_updated m)))].
  Definition rel_dict (unset none : bool) (r : rel_obj) : pyval :=
    fields unset none
      [(py "relationship_metadata", true, meta_dict unset none (ro_meta r));
       (py "relationship_name", given (ro_name r), opt_str_val (field_value (ro_name r)));
       (py "wn_from_node", true, VInt (ro_from r));
       (py "wn_to_node", true, VInt (ro_to r));
       (py "properties", given (ro_props r), opt_dict_val (field_value (ro_props r)))].
  Definition node_dict (unset none : bool) (n : node_obj) : pyval :=
    fields unset none
      [(py "node_metadata", true, meta_dict unset none (no_meta n));
       (py "node_label", true, VStr (no_label n));
       (py "properties", given (no_props n), opt_dict_val (field_value (no_props n)));
       (py "relations", given (no_rels n),
        match field_value (no_rels n) with Some l => VList (map (rel_dict unset none) l) | None => VNone end)].

  (** node.py:38-45 export_node *)
  Definition export_node (unset none : bool) (n : node_obj) : list (pystr * pyval) :=
    [(str_of_Z (mo_wn (no_meta n)), node_dict unset none n)].

  (** pydantic BaseModel.__eq__ of two nodes: their .dict() are equal.  Values are compared as they
      are here; Python's 1 == 1.0 == True between property values is left out. *)
  Definition same_node (a b : node_obj) : Prop := node_dict false false a = node_dict false false b.

  (** ** Construction from a dictionary: Node( ** d)
      Simplification: no coercions; a value of another type than the field's is refused, where
      pydantic would accept some (a text of digits for an int, an int for a float, ...). *)

  (** A field that pydantic refuses is noted and the others are still read; the root validators run
      all the same.  Exceptions other than ValidationError pass through. *)
  Definition soft {A} (r : res A) : res (option A) :=
    match r with Ok a => Ok (Some a) | Err ValidationError => Ok None | Err e => Err e end.
  Definition required {A} (d : list (pystr * pyval)) (k : pystr) (f : pyval -> res A) : res A :=
    match d_get k d with Some v => f v | None => Err ValidationError end.
  Definition optional {A} (d : list (pystr * pyval)) (k : pystr) (f : pyval -> res A) : res (option A) :=
    match d_get k d with Some v => let? a := f v in Ok (Some a) | None => Ok None end.
  Definition nullable {A} (f : pyval -> res A) (v : pyval) : res (option A) :=
    match v with VNone => Ok None | _ => let? a := f v in Ok (Some a) end.
  Definition an_int (v : pyval) : res Z := match v with VInt z => Ok z | _ => Err ValidationError end.
  Definition a_float (v : pyval) : res pystr := match v with VFloat t => Ok t | _ => Err ValidationError end.
  Definition a_str (v : pyval) : res pystr := match v with VStr t => Ok t | _ => Err ValidationError end.
  Definition a_dict (v : pyval) : res (list (pystr * pyval)) := match v with VDict d => Ok d | _ => Err ValidationError end.
  (** every member is read, also behind one that is refused *)
  Definition a_list {A} (f : pyval -> res A) (v : pyval) : res (list A) :=
    match v with
    | VList l => let? os := mapM (fun x => soft (f x)) l in
                 mapM (fun o => match o with Some a => Ok a | None => Err ValidationError end) os
    | _ => Err ValidationError
    end.

  (** wiggle_metadata.py:7-10 *)
  Definition read_meta (v : pyval) : res meta_obj :=
    let? d := a_dict v in
    let? wn := required d (py "wn") an_int in
    let? created := optional d (py "created_at") a_float in
    let? updated := optional d (py "updated_at") (nullable a_float) in
    Ok {| mo_wn := wn; mo_created := created; mo_updated := updated |}.

  (** relationship.py:18-25 and the root validator 34-46, which looks up the two numbers even if they
      were refused *)
  Definition read_rel (v : pyval) : res rel_obj :=
    let? d := a_dict v in
    let? m := soft (required d (py "relationship_metadata") read_meta) in
    let? name := soft (optional d (py "relationship_name") (nullable a_str)) in
    let? from := soft (required d (py "wn_from_node") an_int) in
    let? to := soft (required d (py "wn_to_node") an_int) in
    let? props := soft (optional d (py "properties") (nullable a_dict)) in
    match from, to with
    | Some from, Some to =>
        if Z.eqb from to then Err RelationshipToFromError
        else match m, name, props with
             | Some m, Some name, Some props =>
                 Ok {| ro_meta := m; ro_name := name; ro_from := from; ro_to := to; ro_props := props |}
             | _, _, _ => Err ValidationError
             end
    | _, _ => Err KeyError
    end.

  (** node.py:18-24 and the root validator 56-71, which looks up the metadata and the relationships
      even if they were refused *)
  Definition read_node (v : pyval) : res node_obj :=
    let? d := a_dict v in
    let? m := soft (required d (py "node_metadata") read_meta) in
    let? label := soft (required d (py "node_label") a_str) in
    let? props := soft (optional d (py "properties") (nullable a_dict)) in
    let? rels := soft (optional d (py "relations") (nullable (a_list read_rel))) in
    match m, rels with
    | Some m, Some rels =>
        let? n := Node {| no_meta := m; no_label := match label with Some l => l | None => [] end;
                          no_props := match props with Some p => p | None => None end; no_rels := rels |} in
        match label, props with
        | Some _, Some _ => Ok n
        | _, _ => Err ValidationError
        end
    | _, _ => Err KeyError
    end.

  (** ** The other methods *)

  (** node.py:33-36 node_relationship_names *)
  Definition node_relationship_names (n : node_obj) : option (list (option pystr)) :=
    match field_value (no_rels n) with
    | Some (r :: rs) => Some (map (fun r => field_value (ro_name r)) (r :: rs))
    | _ => None
    end.

  (** node.py:47-54 export_relationship_indexes *)
  Definition export_relationship_indexes (n : node_obj) : option (list (pystr * list Z)) :=
    match field_value (no_rels n) with
    | Some (r :: rs) => Some [(str_of_Z (mo_wn (no_meta n)), z_of_list (map ro_to (r :: rs)))]
    | _ => None
    end.

  (** node.py:30-31 and relationship.py:31-32 __repr__ *)
  Definition node_repr (n : node_obj) : pystr :=
    py "|Node| " ++ no_label n ++ py ": " ++ str_of_Z (mo_wn (no_meta n)).
  Definition rel_repr (r : rel_obj) : pystr :=
    py "|Relationship| " ++ (match field_value (ro_name r) with Some s => s | None => py "None" end) ++
    py ": FROM " ++ str_of_Z (ro_from r) ++ py " TO " ++ str_of_Z (ro_to r).
End Objects.
