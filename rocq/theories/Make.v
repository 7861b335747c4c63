(** * Make: the MAKE clause
    clauses/transform_helpers/relationships.py, clauses/make/transform/make_pre.py,
    clauses/make/make.py, models/wql/clauses/make/make_pre.py
    (all under wiggle_query_language/ and models/) *)
From Verif Require Import PyBase Props Checks Statements Data FS Store.

(** models/wql/clauses/make/make_pre.py:6-12 RelationshipPre *)
Record rel_pre := { rp_wn : Z; rp_name : option pystr; rp_handle : option pystr;
                    rp_props : option pystr; rp_from : Z; rp_to : Z }.

(** make_pre.py:15-20 NodePre *)
Record node_pre := { np_wn : Z; np_label : pystr; np_handle : option pystr;
                     np_props : option pystr; np_rels : list rel_pre }.

(** make_pre.py:23-28 MakePre *)
Record make_pre := { mp_left : node_pre; mp_middle : option node_pre; mp_right : option node_pre;
                     mp_labels : list pystr; mp_names : list pystr }.

Section Make.
  Context {rt : PyRt}.

  (** clauses/transform_helpers/relationships.py:4-15 relationship_is_left_to_right *)
  Definition relationship_is_left_to_right (t : pystr) : res bool :=
    if contains (py "<") t && contains (py ">") t then Err NonDirectedRelationshipError
    else match t with
         | [] => Err IndexError
         | _ => Ok (N.eqb (List.last t 0%N) 62)
         end.

  (** NodePre(...) of transform/make_pre.py:25-30, 38-43, 51-56: [node_label: str] is required *)
  Definition new_node_pre (wn : Z) (p : piece) : res node_pre :=
    match p_label p with
    | None => Err ValidationError
    | Some l => Ok {| np_wn := wn; np_label := l; np_handle := p_handle p;
                      np_props := p_props p; np_rels := [] |}
    end.

  Definition add_rel (r : rel_pre) (n : node_pre) : node_pre :=
    {| np_wn := np_wn n; np_label := np_label n; np_handle := np_handle n;
       np_props := np_props n; np_rels := np_rels n ++ [r] |}.

  Definition new_rel_pre (wn : Z) (p : piece) (from to : Z) : rel_pre :=
    {| rp_wn := wn; rp_name := p_label p; rp_handle := p_handle p; rp_props := p_props p;
       rp_from := from; rp_to := to |}.

  Definition opt_node (p : piece) (wn : Z) : res (Z * option node_pre) :=
    if truthy (p_text p)
    then let? n := new_node_pre wn p in Ok ((wn + 1)%Z, Some n)
    else Ok (wn, None).

  Definition labels_of (n : option node_pre) : list pystr :=
    match n with Some n => [np_label n] | None => [] end.

  (** transform/make_pre.py:61-91 and 93-123: one relationship between the nodes [a] and [b]; a
      missing node is an AttributeError on [None.wn] *)
  Definition link (p : piece) (wn : Z) (a b : option node_pre)
    : res (Z * option node_pre * option node_pre * list pystr) :=
    match p_text p with
    | Some (c :: t) =>
        let? ltr := relationship_is_left_to_right (c :: t) in
        match a, b with
        | Some na, Some nb =>
            let r := if ltr then new_rel_pre wn p (np_wn na) (np_wn nb)
                     else new_rel_pre wn p (np_wn nb) (np_wn na) in
            let names := truthy_list (rp_name r) in
            if ltr then Ok ((wn + 1)%Z, Some (add_rel r na), Some nb, names)
            else Ok ((wn + 1)%Z, Some na, Some (add_rel r nb), names)
        | _, _ => Err AttributeError
        end
    | _ => Ok (wn, a, b, [])
    end.

  (** transform/make_pre.py:22-126: one pattern *)
  Definition process_pattern (p : pattern) (wn : Z) : res (Z * make_pre) :=
    let? lft := new_node_pre wn (left_node p) in
    let wn := (wn + 1)%Z in
    let? (wn, middle) := opt_node (middle_node p) wn in
    let? (wn, rgt) := opt_node (right_node p) wn in
    let labels := s_of_list (np_label lft :: labels_of middle ++ labels_of rgt) in
    let? (wn, lft', middle, names1) := link (left_middle_rel p) wn (Some lft) middle in
    let? (wn, middle, rgt, names2) := link (middle_right_rel p) wn middle rgt in
    match lft' with
    | Some lft => Ok (wn, {| mp_left := lft; mp_middle := middle; mp_right := rgt;
                              mp_labels := labels; mp_names := s_of_list (names1 ++ names2) |})
    | None => Err AttributeError
    end.

  Fixpoint process_patterns (ps : list pattern) (wn : Z) : res (Z * list make_pre) :=
    match ps with
    | [] => Ok (wn, [])
    | p :: ps' => let? (wn1, m) := process_pattern p wn in
                  let? (wn2, ms) := process_patterns ps' wn1 in
                  Ok (wn2, m :: ms)
    end.

  (** transform/make_pre.py:7-128 process_parsed_make_list *)
  Definition process_parsed_make_list (l : list parsed_make) (wn : Z) : res (Z * list make_pre) :=
    process_patterns (flat_map pm_patterns l) wn.

  (** make.py:76-92 make_relationship *)
  Definition make_relationship (r : rel_pre) : res relationship :=
    let? props := get_property_dict (rp_props r) in
    new_relationship (rp_wn r) (rp_name r) (rp_from r) (rp_to r) props.

  (** make.py:51-73 make_node *)
  Definition make_node (n : node_pre) : res node :=
    let? props := get_property_dict (np_props n) in
    let? rels := match np_rels n with
                 | [] => Ok None
                 | l => let? rs := mapM make_relationship l in Ok (Some rs)
                 end in
    new_node (np_wn n) (np_label n) props rels.

  (** make.py:33-48 make_nodes: line 46 makes the LEFT node again when there is a right node *)
  Definition make_nodes (m : make_pre) : res (list node) :=
    let? l := make_node (mp_left m) in
    let? md := match mp_middle m with
               | Some n => let? x := make_node n in Ok [x]
               | None => Ok []
               end in
    let? r := match mp_right m with
              | Some _ => let? x := make_node (mp_left m) in Ok [x]
              | None => Ok []
              end in
    Ok (l :: md ++ r).

  (** make.py:106: {str(node.wn): node.dict() for node in nodes_list} *)
  Definition nodes_dict (ns : list node) : list (pystr * pyval) :=
    fold_left (fun d n => d_set (str_of_Z (n_wn n)) (node_val n) d) ns [].

  (** make.py:95-111 add_nodes_to_graph *)
  Definition add_nodes_to_graph (ns : list node) (g : gdbms) : io bool :=
    add_item_to_database (database_fp g) (nodes_dict ns).

  (** make.py:127-131 *)
  Definition rel_index_items (ns : list node) : list (pystr * list Z) :=
    fold_left (fun d n => match n_rels n with
                          | Some (r :: rs) => d_set (str_of_Z (n_wn n)) (z_of_list (map r_wn (r :: rs))) d
                          | _ => d
                          end) ns [].

  (** make.py:132-139 *)
  Definition labels_to_add (ms : list make_pre) : list pystr :=
    fold_left (fun acc m => s_union acc (mp_labels m)) ms [].
  Definition names_to_add (ms : list make_pre) : list pystr :=
    fold_left (fun acc m => s_union acc (mp_names m)) ms [].

  (** make.py:114-151 add_indexes *)
  Definition add_indexes (ns : list node) (ms : list make_pre) (g : gdbms) : io bool :=
    let! _ := add_items_to_node_relationships_index (indexes_fp g) (rel_index_items ns) in
    let! _ := add_items_to_node_labels_index (indexes_fp g) (labels_to_add ms) in
    let! _ := add_items_to_relationship_names_index (indexes_fp g) (names_to_add ms) in
    Ret true.

  (** make.py:154-192 make *)
  Definition make (l : list parsed_make) (g : gdbms) : io bool :=
    let! wn := get_current_wiggle_number (wiggle_number_fp g) in
    let! (wn', ms) := lift (process_parsed_make_list l wn) in
    let! nss := lift (mapM make_nodes ms) in
    let ns := List.concat nss in
    let! _ := add_nodes_to_graph ns g in
    let! _ := add_indexes ns ms g in
    let! _ := update_wiggle_number (wiggle_number_fp g) wn' in
    Ret true.
End Make.
