(** * Store: the three files of a graph
    wiggle_query_language/graph/database/database.py, graph/database/indexes (all files),
    graph/state/wiggle_number.py, models/wigish/dbms.py *)
From Verif Require Import PyBase Json FS.

(** models/wigish/dbms.py:6-13 GDBMSFilePath *)
Record gdbms := { database_fp : path; indexes_fp : path; wiggle_number_fp : path }.

(** graph/database/indexes/__init__.py:1-3 *)
Definition NODE_LABELS : pystr := py "node_labels".
Definition NODE_RELATIONSHIPS : pystr := py "node_relationships".
Definition RELATIONSHIP_NAMES : pystr := py "relationship_names".

Section Store.
  Context {rt : PyRt}.

  Definition read_json (p : path) : io pyval :=
    let! t := do_text (CRead p) in lift (load_json t).

  (** ** database.py *)

  (** database.py:13-28 load_database *)
  Definition load_database (p : path) : io pyval :=
    io_catch (read_json p)
      (fun e => match e with JSONDecodeError => Some (Ret (VDict [])) | _ => None end).

  (** [k in database] and [database[k] = node] of database.py:44-50, for any JSON value *)
  Definition db_add (k : pystr) (v : pyval) (db : pyval) : res pyval :=
    match db with
    | VDict d => if d_mem k d then Err NodeExistsError else Ok (VDict (d_set k v d))
    | VList l => if existsb (fun x => match x with VStr s => str_eqb k s | _ => false end) l
                 then Err NodeExistsError else Err TypeError
    | VStr s => if contains k s then Err NodeExistsError else Err TypeError
    | _ => Err TypeError
    end.
  Fixpoint db_add_all (items : list (pystr * pyval)) (db : pyval) : res pyval :=
    match items with
    | [] => Ok db
    | (k, v) :: items' => let? db' := db_add k v db in db_add_all items' db'
    end.

  (** json.dump to a handle positioned at [off]; after a TypeError the text encoded so far is
      still flushed when the [with] block closes the file. *)
  Definition write_json (p : path) (off : nat) (v : pyval) : io nat :=
    let (t, ok) := dump_top Indent4 v in
    let! _ := do_unit (CWrite p off t) in
    if ok then Ret (off + List.length t) else Throw TypeError.

  (** database.py:31-59 add_item_to_database: seek(0), no truncate *)
  Definition add_item_to_database (p : path) (items : list (pystr * pyval)) : io bool :=
    let! db := read_json p in
    let! db' := lift (db_add_all items db) in
    let! _ := write_json p 0 db' in
    Ret true.

  (** database.py:62-79 wipe_database; the result is None when not sure *)
  Definition wipe_database (p : path) (im_sure : bool) : io (option bool) :=
    if im_sure then
      let! _ := do_unit (CCreate p) in
      let! n := write_json p 0 (VDict []) in
      let! _ := do_unit (CTrunc p n) in
      Ret (Some true)
    else Ret None.

  (** ** indexes *)

  (** [indexes[name]] *)
  Definition index_get (name : pystr) (idx : pyval) : res pyval :=
    match idx with
    | VDict d => match d_get name d with Some v => Ok v | None => Err KeyError end
    | _ => Err TypeError
    end.
  Definition index_put (name : pystr) (v : pyval) (idx : pyval) : res pyval :=
    match idx with
    | VDict d => Ok (VDict (d_set name v d))
    | _ => Err TypeError
    end.

  (** iteration over a value of the file, as by [set(v)]: a text gives its characters, a dict its keys *)
  Definition iter_val (v : pyval) : res (list pyval) :=
    match v with
    | VList l => Ok l
    | VStr s => Ok (map (fun c => VStr [c]) s)
    | VDict d => Ok (map (fun kv => VStr (fst kv)) d)
    | _ => Err TypeError
    end.
  Definition hashable (v : pyval) : bool := match v with VList _ | VDict _ => false | _ => true end.
  (** the members of [set(v)], as listed in the file *)
  Definition set_val (v : pyval) : res (list pyval) :=
    let? l := iter_val v in if forallb hashable l then Ok l else Err TypeError.

  Fixpoint strs_of (l : list pyval) : option (list pystr) :=
    match l with
    | [] => Some []
    | VStr s :: l' => match strs_of l' with Some r => Some (s :: r) | None => None end
    | _ => None
    end.
  Fixpoint ints_of (l : list pyval) : option (list Z) :=
    match l with
    | [] => Some []
    | VInt z :: l' => match ints_of l' with Some r => Some (z :: r) | None => None end
    | _ => None
    end.

  (** [list(set(v).union(items))].  The program writes lists of strings (of ints); for other
      lists, which only somebody else can have written, the result is left to the runtime. *)
  Definition str_union (v : pyval) (items : list pystr) : res (list pyval) :=
    let? l := set_val v in
    Ok (match strs_of l with
        | Some ss => map VStr (set_order (s_union (s_of_list ss) items))
        | None => set_mixed l (map VStr items)
        end).
  Definition int_union (v : pyval) (items : list Z) : res (list pyval) :=
    let? l := set_val v in
    Ok (match ints_of l with
        | Some zs => map VInt (zset_order (z_union (z_of_list zs) items))
        | None => set_mixed l (map VInt items)
        end).

  (** [set(v)].  Simplification: of its members only the strings (the ints) are returned. *)
  Definition str_set (v : pyval) : res (list pystr) :=
    let? l := set_val v in
    Ok (s_of_list (flat_map (fun x => match x with VStr s => [s] | _ => [] end) l)).
  Definition int_set (v : pyval) : res (list Z) :=
    let? l := set_val v in
    Ok (z_of_list (flat_map (fun x => match x with VInt z => [z] | _ => [] end) l)).

  (** index_helpers.py:8-27 add_items_set_to_index_by_name *)
  Definition add_items_set (p : path) (items : list pystr) (name : pystr) : io bool :=
    let! idx := read_json p in
    let! upd := lift (let? v := index_get name idx in str_union v items) in
    let! idx' := lift (index_put name (VList upd) idx) in
    let! n := write_json p 0 idx' in
    let! _ := do_unit (CTrunc p n) in
    Ret true.

  (** index_helpers.py:30-50 load_index_set_by_name *)
  Definition load_index_set (p : path) (name : pystr) : io (list pystr) :=
    io_catch
      (let! idx := read_json p in
       lift (let? v := index_get name idx in str_set v))
      (fun e => match e with JSONDecodeError => Some (Ret []) | _ => None end).

  (** index_helpers.py:53-74 wipe_index_set_by_name *)
  Definition wipe_index (p : path) (name : pystr) (empty : pyval) (im_sure : bool) : io (option bool) :=
    if im_sure then
      let! idx := read_json p in
      let! idx' := lift (index_put name empty idx) in
      let! n := write_json p 0 idx' in
      let! _ := do_unit (CTrunc p n) in
      Ret (Some true)
    else Ret None.

  (** node_labels_index.py:11-36, 39-60 and relationship_names_index.py:11-36, 39-52 *)
  Definition add_items_to_node_labels_index (p : path) (l : list pystr) := add_items_set p l NODE_LABELS.
  Definition add_items_to_relationship_names_index (p : path) (l : list pystr) :=
    add_items_set p l RELATIONSHIP_NAMES.
  Definition load_node_labels_index (p : path) := load_index_set p NODE_LABELS.
  Definition load_relationship_names_index (p : path) := load_index_set p RELATIONSHIP_NAMES.
  Definition wipe_node_labels_index (p : path) := wipe_index p NODE_LABELS (VList []).
  Definition wipe_relationship_names_index (p : path) := wipe_index p RELATIONSHIP_NAMES (VList []).
  (** node_relationships_index.py:78-98 *)
  Definition wipe_node_relationships_index (p : path) := wipe_index p NODE_RELATIONSHIPS (VDict []).

  (** node_relationships_index.py:34-40: one item of the loop *)
  Definition rel_index_add (k : pystr) (new : list Z) (d : list (pystr * pyval)) : res (list (pystr * pyval)) :=
    match d_get k d with
    | Some old => let? u := int_union old new in Ok (d_set k (VList u) d)
    | None => Ok (d_set k (VList (map VInt (zset_order new))) d)
    end.
  Fixpoint rel_index_add_all (items : list (pystr * list Z)) (d : list (pystr * pyval))
    : res (list (pystr * pyval)) :=
    match items with
    | [] => Ok d
    | (k, s) :: items' => let? d' := rel_index_add k s d in rel_index_add_all items' d'
    end.
  (** the whole loop; an entry that is not a dict is a TypeError at the first item *)
  Definition rel_entry_add (items : list (pystr * list Z)) (v : pyval) : res pyval :=
    match v with
    | VDict d => let? d' := rel_index_add_all items d in Ok (VDict d')
    | _ => match items with [] => Ok v | _ => Err TypeError end
    end.

  (** node_relationships_index.py:20-49 add_items_to_node_relationships_index.
      [seek(0)] is inside the loop over the items: with no items the handle stays at the end of the file. *)
  Definition add_items_to_node_relationships_index (p : path) (items : list (pystr * list Z)) : io bool :=
    let! t := do_text (CRead p) in
    let! idx := lift (load_json t) in
    let! v := lift (index_get NODE_RELATIONSHIPS idx) in
    let! v' := lift (rel_entry_add items v) in
    let off := match items with [] => List.length t | _ => 0 end in
    let! idx' := lift (index_put NODE_RELATIONSHIPS v' idx) in
    let! n := write_json p off idx' in
    let! _ := do_unit (CTrunc p n) in
    Ret true.

  (** node_relationships_index.py:52-75 load_node_relationships_index (and json_to_dict:10-13, whose
      [rel_indexes.items()] needs a dict) *)
  Definition load_node_relationships_index (p : path) : io (list (pystr * list Z)) :=
    io_catch
      (let! idx := read_json p in
       lift (let? v := index_get NODE_RELATIONSHIPS idx in
             let? d := match v with VDict d => Ok d | _ => Err AttributeError end in
             mapM (fun kv => let? s := int_set (snd kv) in Ok (fst kv, s)) d))
      (fun e => match e with JSONDecodeError => Some (Ret []) | _ => None end).

  (** ** wiggle_number.py *)

  (** [int(text)]: optional white space (of C, not of Unicode, in an ASCII text), sign, decimal
      digits with single underscores between digits.  Texts with non-ASCII characters are left to
      the runtime. *)
  Definition is_c_space (c : N) : bool := between 9 13 c || N.eqb c 32.
  Fixpoint digits_us (prev : bool) (s : pystr) (acc : N) : option N :=
    match s with
    | [] => if prev then Some acc else None
    | c :: s' => if is_digit0 c then digits_us true s' (acc * 10 + (c - 48))%N
                 else if N.eqb c 95 && prev then digits_us false s' acc
                 else None
    end.
  Definition py_int (s : pystr) : res Z :=
    if forallb is_ascii s then
      let t := strip is_c_space s in
      let r := match t with
               | c :: t' => if N.eqb c 45 then option_map (fun n => (- Z.of_N n)%Z) (digits_us false t' 0)
                            else if N.eqb c 43 then option_map Z.of_N (digits_us false t' 0)
                            else option_map Z.of_N (digits_us false t 0)
               | [] => None
               end in
      match r with Some z => Ok z | None => Err ValueError end
    else match int_ext s with Some z => Ok z | None => Err ValueError end.

  (** wiggle_number.py:7-26 get_current_wiggle_number *)
  Definition get_current_wiggle_number (p : path) : io Z :=
    let! t := do_text (CRead p) in
    match t with
    | [] => Throw PlainException
    | _ => lift (py_int t)
    end.

  (** wiggle_number.py:29-41 update_wiggle_number *)
  Definition update_wiggle_number (p : path) (z : Z) : io Z :=
    let! _ := do_unit (CCreate p) in
    let! _ := do_unit (CWrite p 0 (str_of_Z z)) in
    Ret z.
End Store.
