(** * Log: what the program writes to its log
    wiggle_graph_logger/graph_logger.py:6-20 and the calls of graph_logger in the modules below

    A record whose level is at least that of the logger goes to the file graph_logger.log (and to the terminal) as soon
    as it is made: the handlers of graph_logger.py:10-20 have level DEBUG and flush each record.  The logger itself has
    level DEBUG (graph_logger.py:7) until query.py is imported, and WARNING from then on (query.py:24), unless its
    user sets it back.  The programs below make all records; [written] drops those below a level.  Simplifications: a record is its level and its
    message, without the time and, for [graph_logger.exception], without the traceback; writing the log does not
    fail; the log is kept apart from the terminal of the model.

    The functions are those of Props, Store, Make, Find and Query, branch by branch, with the records added;
    LogFacts shows that without the records they are the same programs. *)
From Verif Require Import PyBase Json Literal Regex Patterns Props Checks Statements Data FS Store Make Find Query.

Inductive level := DEBUG | INFO | ERROR.
Definition record : Type := level * pystr.
(** logging.DEBUG, INFO, WARNING and ERROR; no record of this program has level WARNING *)
Definition level_no (l : level) : N := match l with DEBUG => 10 | INFO => 20 | ERROR => 40 end.
Definition WARNING : N := 30.
(** Logger.isEnabledFor: what a logger whose level is [threshold] writes of the records [l] *)
Definition written (threshold : N) (l : list record) : list record :=
  List.filter (fun r => N.leb threshold (level_no (fst r))) l.

(** ** Results with records *)
Definition logged (A : Type) : Type := list record * res A.
Definition wbind {A B} (x : logged A) (f : A -> logged B) : logged B :=
  match snd x with
  | Ok a => (fst x ++ fst (f a), snd (f a))
  | Err e => (fst x, Err e)
  end.
Definition silent {A} (r : res A) : logged A := ([], r).
Notation "'letw' x ':=' e 'in' k" := (wbind e (fun x => k)) (at level 200, x pattern, right associativity).
Fixpoint wmapM {A B} (f : A -> logged B) (l : list A) : logged (list B) :=
  match l with
  | [] => silent (Ok [])
  | x :: l' => letw y := f x in letw ys := wmapM f l' in silent (Ok (y :: ys))
  end.

(** ** Programs with records *)
Inductive lio (A : Type) :=
| LRet (a : A)
| LThrow (e : exn)
| LDo (c : cmd) (k : resp -> lio A)
| LLog (r : record) (m : lio A).
Arguments LRet {A} a.
Arguments LThrow {A} e.
Arguments LDo {A} c k.
Arguments LLog {A} r m.

Fixpoint lbind {A B} (m : lio A) (f : A -> lio B) : lio B :=
  match m with
  | LRet a => f a
  | LThrow e => LThrow e
  | LDo c k => LDo c (fun r => lbind (k r) f)
  | LLog r m' => LLog r (lbind m' f)
  end.
Notation "'let&' x ':=' e 'in' k" := (lbind e (fun x => k)) (at level 200, x pattern, right associativity).
Fixpoint lcatch {A} (m : lio A) (h : exn -> option (lio A)) : lio A :=
  match m with
  | LRet a => LRet a
  | LThrow e => match h e with Some m' => m' | None => LThrow e end
  | LDo c k => LDo c (fun r => lcatch (k r) h)
  | LLog r m' => LLog r (lcatch m' h)
  end.
(** a program that logs nothing *)
Fixpoint mute {A} (m : io A) : lio A :=
  match m with
  | Ret a => LRet a
  | Throw e => LThrow e
  | Do c k => LDo c (fun r => mute (k r))
  end.
Definition note (l : level) (t : pystr) : lio unit := LLog (l, t) (LRet tt).
Fixpoint notes {A} (l : list record) (m : lio A) : lio A :=
  match l with [] => m | r :: l' => LLog r (notes l' m) end.
Definition wlift {A} (x : logged A) : lio A := notes (fst x) (mute (lift (snd x))).

(** a whole run: the records, the result and the world left *)
Fixpoint lrun {A} (m : lio A) (w : world) : list record * res A * world :=
  match m with
  | LRet a => ([], Ok a, w)
  | LThrow e => ([], Err e, w)
  | LDo c k => let (r, w') := exec c w in lrun (k r) w'
  | LLog r m' => match lrun m' w with (l, x, w') => (r :: l, x, w') end
  end.
(** a run up to some moment, at which the process may die *)
Inductive lcrash {A} : lio A -> world -> list record -> world -> Prop :=
| lcrash_now : forall m w, lcrash m w [] w
| lcrash_write : forall p off t t1 t2 k w, t = t1 ++ t2 -> lcrash (LDo (CWrite p off t) k) w [] (snd (exec (CWrite p off t1) w))
| lcrash_later : forall c k w l w', lcrash (k (fst (exec c w))) (snd (exec c w)) l w' -> lcrash (LDo c k) w l w'
| lcrash_log : forall r m w l w', lcrash m w l w' -> lcrash (LLog r m) w (r :: l) w'.

Section Log.
  Context {rt : PyRt}.
  (** str(x) of a list *)
  Context (list_text : pyval -> pystr).

  (** ** parse_properties.py *)
  (** str(x); a float is held as the text that json writes, which differs from str() for the infinite one only *)
  Definition value_text (v : pyval) : pystr :=
    match v with
    | VBool true => py "True" | VBool false => py "False"
    | VFloat t => if str_eqb t (py "Infinity") then py "inf" else t
    | VInt z => str_of_Z z
    | VStr s => s
    | _ => list_text v
    end.
  (** parse_properties.py:117, 133, 154, 178 and 199 *)
  Definition determined (what : pystr) (text : pystr) (r : res pyval) : logged pyval :=
    match r with
    | Ok v => ([(DEBUG, text ++ py " was determined to be " ++ what ++ value_text v)], Ok v)
    | Err e => ([], Err e)
    end.
  (** parse_properties.py:53-79 handle_extracted_property *)
  Definition handle_extracted_l (c : caps) (value : pystr) : logged pyval :=
    letw t := silent (yield_type c) in
    let v := clean value in
    match t with
    | PNone => silent (handle_null v)
    | PBool => determined [] v (handle_bool v)
    | PFloat => determined (py "a float: ") v (handle_float v)
    | PInt => determined (py "an int: ") v (handle_int v)
    | PList => determined (py "a list: ") v (handle_list v)
    | PString => determined (py "a string: ") v (handle_string v)
    end.
  (** parse_properties.py:35-48 *)
  Definition one_property_l (c : caps) : logged (pystr * pyval) :=
    match cap GPropName c, cap GPropValue c with
    | Some name, Some value =>
        match strip is_space value with
        | [] => silent (Err WiggleGraphIllegalPropertyValue)
        | _ => letw v := handle_extracted_l c value in silent (Ok (name, v))
        end
    | _, _ => silent (Err ValidationError)
    end.
  (** parse_properties.py:27-50 parse_properties *)
  Fixpoint props_loop_l (ms : list (pystr * caps)) (d : list (pystr * pyval)) : logged (list (pystr * pyval)) :=
    match ms with
    | [] => silent (Ok d)
    | (_, c) :: ms' => letw kv := one_property_l c in props_loop_l ms' (d_set (fst kv) (snd kv) d)
    end.
  (** parse_properties.py:12-24 get_property_dict *)
  Definition get_property_dict_l (s : option pystr) : logged (option (list (pystr * pyval))) :=
    match s with
    | None | Some [] => silent (Ok None)
    | Some s => letw d := props_loop_l (finditer all_properties s) [] in silent (Ok (Some d))
    end.

  (** ** database.py *)
  (** database.py:13-28 load_database *)
  Definition load_database_l (p : path) : lio pyval :=
    let& _ := note INFO (py "Attempting to loading database") in
    lcatch (let& v := mute (read_json p) in
            let& _ := note INFO (py "Successfully loaded database") in
            LRet v)
      (fun e => match e with
                | JSONDecodeError => Some (let& _ := note ERROR (py "Empty database, returning a new one") in LRet (VDict []))
                | _ => None
                end).
  (** database.py:55-57 *)
  Definition added_text (n : nat) : pystr := py "Successfully added " ++ str_of_Z (Z.of_nat n) ++ py " records to the database.".
  (** database.py:31-59 add_item_to_database *)
  Definition add_item_to_database_l (p : path) (items : list (pystr * pyval)) : lio bool :=
    let& db := mute (read_json p) in
    let& _ := note INFO (py "writing to db") in
    let& db' := mute (lift (db_add_all items db)) in
    let& _ := mute (write_json p 0 db') in
    let& _ := note INFO (added_text (List.length items)) in
    LRet true.
  (** database.py:62-79 wipe_database; [im_sure] is False if it is not true *)
  Definition wipe_database_l (p : path) (im_sure : bool) : lio (option bool) :=
    if im_sure then
      let& _ := note INFO (py "Dropping database") in
      let& _ := mute (do_unit (CCreate p)) in
      let& n := mute (write_json p 0 (VDict [])) in
      let& _ := mute (do_unit (CTrunc p n)) in
      let& _ := note INFO (py "Database successfully dropped.") in
      LRet (Some true)
    else
      let& _ := note DEBUG (py "Did not drop database as im_sure=False") in
      LRet None.

  (** ** indexes *)
  (** index_helpers.py:30-50 load_index_set_by_name *)
  Definition load_index_set_l (p : path) (name : pystr) : lio (list pystr) :=
    let& _ := note INFO (py "Attempting to loading " ++ name ++ py " indexes") in
    lcatch
      (let& idx := mute (read_json p) in
       let& v := mute (lift (index_get name idx)) in
       let& _ := note INFO (py "Successfully loaded " ++ name ++ py " index") in
       mute (lift (str_set v)))
      (fun e => match e with
                | JSONDecodeError => Some (let& _ := note ERROR (py "Empty " ++ name ++ py " indexes, returning a new one") in LRet [])
                | _ => None
                end).
  (** node_relationships_index.py:52-75 load_node_relationships_index *)
  Definition load_node_relationships_index_l (p : path) : lio (list (pystr * list Z)) :=
    let& _ := note INFO (py "Attempting to loading Relationship indexes") in
    lcatch
      (let& idx := mute (read_json p) in
       let& v := mute (lift (index_get NODE_RELATIONSHIPS idx)) in
       let& _ := note INFO (py "Successfully loaded node_relationships index") in
       mute (lift (let? d := match v with VDict d => Ok d | _ => Err AttributeError end in
                   mapM (fun kv => let? s := int_set (snd kv) in Ok (fst kv, s)) d)))
      (fun e => match e with
                | JSONDecodeError => Some (let& _ := note ERROR (py "Empty relationship indexes, returning a new one") in LRet [])
                | _ => None
                end).
  (** index_helpers.py:53-74 wipe_index_set_by_name and node_relationships_index.py:78-98: [start] and [finish] are
      the texts of the two records *)
  Definition wipe_index_l (start finish : pystr) (p : path) (name : pystr) (empty : pyval) (im_sure : bool) : lio (option bool) :=
    if im_sure then
      let& _ := note INFO start in
      let& idx := mute (read_json p) in
      let& idx' := mute (lift (index_put name empty idx)) in
      let& n := mute (write_json p 0 idx') in
      let& _ := mute (do_unit (CTrunc p n)) in
      let& _ := note INFO finish in
      LRet (Some true)
    else
      let& _ := note DEBUG (py "Did not drop relationship indexes as im_sure=False") in
      LRet None.
  Definition wipe_index_set_l (p : path) (name : pystr) : bool -> lio (option bool) :=
    wipe_index_l (py "Dropping " ++ name ++ py " indexes") (name ++ py " successfully dropped.") p name (VList []).
  Definition wipe_node_relationships_index_l (p : path) : bool -> lio (option bool) :=
    wipe_index_l (py "Dropping relationship indexes") (py "Relationship indexes successfully dropped.") p NODE_RELATIONSHIPS (VDict []).

  (** ** wiggle_number.py *)
  (** wiggle_number.py:25 *)
  Definition got_text (z : Z) : pystr := py "Successfully got Wiggle number was " ++ str_of_Z z.
  (** wiggle_number.py:7-26 get_current_wiggle_number *)
  Definition get_current_wiggle_number_l (p : path) : lio Z :=
    let& _ := note DEBUG (py "Attempting getting WiggleNumber") in
    let& t := mute (do_text (CRead p)) in
    match t with
    | [] => LThrow PlainException
    | _ => let& _ := note DEBUG (py "Wiggle number found, casting to int") in
           let& z := mute (lift (py_int t)) in
           let& _ := note INFO (got_text z) in
           LRet z
    end.
  (** wiggle_number.py:29-41 update_wiggle_number *)
  Definition update_wiggle_number_l (p : path) (z : Z) : lio Z :=
    let& _ := note DEBUG (py "Updating state for WiggleNumber") in
    let& _ := mute (do_unit (CCreate p)) in
    let& _ := mute (do_unit (CWrite p 0 (str_of_Z z))) in
    let& _ := note DEBUG (py "Successfully updated state for WiggleNumber") in
    LRet z.

  (** ** MAKE *)
  (** make.py:76-92 make_relationship *)
  Definition make_relationship_l (r : rel_pre) : logged relationship :=
    letw props := get_property_dict_l (rp_props r) in
    silent (new_relationship (rp_wn r) (rp_name r) (rp_from r) (rp_to r) props).
  (** make.py:51-73 make_node *)
  Definition make_node_l (n : node_pre) : logged node :=
    letw props := get_property_dict_l (np_props n) in
    letw rels := match np_rels n with
                 | [] => silent (Ok None)
                 | l => letw rs := wmapM make_relationship_l l in silent (Ok (Some rs))
                 end in
    silent (new_node (np_wn n) (np_label n) props rels).
  (** make.py:33-48 make_nodes *)
  Definition make_nodes_l (m : make_pre) : logged (list node) :=
    letw l := make_node_l (mp_left m) in
    letw md := match mp_middle m with
               | Some n => letw x := make_node_l n in silent (Ok [x])
               | None => silent (Ok [])
               end in
    letw r := match mp_right m with
              | Some _ => letw x := make_node_l (mp_left m) in silent (Ok [x])
              | None => silent (Ok [])
              end in
    silent (Ok (l :: md ++ r)).
  (** make.py:154-192 make; adding to the indexes logs nothing *)
  Definition make_l (l : list parsed_make) (g : gdbms) : lio bool :=
    let& wn := get_current_wiggle_number_l (wiggle_number_fp g) in
    let& (wn', ms) := mute (lift (process_parsed_make_list l wn)) in
    let& nss := wlift (wmapM make_nodes_l ms) in
    let ns := List.concat nss in
    let& _ := add_item_to_database_l (database_fp g) (nodes_dict ns) in
    let& _ := mute (add_indexes ns ms g) in
    let& _ := update_wiggle_number_l (wiggle_number_fp g) wn' in
    LRet true.

  (** ** FIND *)
  (** find_pre.py:57-65, 77-94 and 97-118 *)
  Definition find_left_l (p : pattern) : logged find_node_pre :=
    letw props := get_property_dict_l (p_props (left_node p)) in
    silent (new_find_node (p_label (left_node p)) (p_handle (left_node p)) props).
  Definition find_middle_l (p : pattern) : logged (option find_node_pre) :=
    if truthy (p_text (middle_node p)) then
      letw props := get_property_dict_l (p_props (middle_node p)) in
      letw n := silent (new_find_node (p_label (middle_node p)) (p_handle (middle_node p)) props) in
      silent (Ok (Some n))
    else silent (Ok None).
  Definition find_right_l (p : pattern) : logged (option find_node_pre) :=
    if truthy (p_text (middle_node p)) then
      letw props := get_property_dict_l (p_props (left_node p)) in
      letw n := silent (new_find_node (p_label (right_node p)) (p_handle (middle_node p)) props) in
      silent (Ok (Some n))
    else silent (Ok None).
  (** find_pre.py:120-145 and 147-172 *)
  Definition find_link_l (p : piece) (a b : option find_node_pre)
    : logged (option find_node_pre * option find_node_pre * list pystr) :=
    match p_text p with
    | Some (c :: t) =>
        letw props := get_property_dict_l (p_props p) in
        let r := {| fr_name := p_label p; fr_handle := p_handle p; fr_yes := props; fr_no := Some [] |} in
        letw ltr := silent (relationship_is_left_to_right (c :: t)) in
        if (ltr : bool) then match a with
                    | Some n => silent (Ok (Some (find_add_rel r n), b, truthy_list (p_label p)))
                    | None => silent (Err AttributeError)
                    end
        else match b with
             | Some n => silent (Ok (a, Some (find_add_rel r n), truthy_list (p_label p)))
             | None => silent (Err AttributeError)
             end
    | _ => silent (Ok (a, b, []))
    end.
  (** find_pre.py:42-176 process_parsed_find *)
  Definition process_pattern_find_l (p : pattern) : logged find_pre :=
    letw lft := find_left_l p in
    letw middle := find_middle_l p in
    letw rgt := find_right_l p in
    let labels := s_of_list (fn_label lft :: find_labels middle ++ find_labels rgt) in
    letw (lft', middle, names1) := find_link_l (left_middle_rel p) (Some lft) middle in
    letw (middle, rgt, names2) := find_link_l (middle_right_rel p) middle rgt in
    match lft' with
    | Some lft => silent (Ok {| fp_left := lft; fp_middle := middle; fp_right := rgt;
                                fp_labels := labels; fp_names := s_of_list (names1 ++ names2) |})
    | None => silent (Err AttributeError)
    end.
  (** short_circuits/find_short_circuits.py:17-34 find_short_circuit *)
  Definition find_short_circuit_l (f : find_pre) (g : gdbms) : lio bool :=
    let& labels := load_index_set_l (indexes_fp g) NODE_LABELS in
    let& names := load_index_set_l (indexes_fp g) RELATIONSHIP_NAMES in
    if negb (node_label_is_in_index (fp_labels f) labels) then LRet false
    else if relationship_name_is_in_index (fp_names f) names then LRet false
    else LRet true.
  (** find.py:11-25 find *)
  Definition find_l (f : parsed_find) (g : gdbms) : lio (option (list (bool * bool))) :=
    let& fp := wlift (process_pattern_find_l (pf_pattern f)) in
    let& ok := find_short_circuit_l fp g in
    if (ok : bool) then LRet (Some [(true, false)])
    else let& _ := mute (do_unit (CPrint NO_RESULTS)) in LRet None.

  (** ** Queries *)
  (** query.py:53-71 execute_query; the parsers of query.py:27-50 log nothing *)
  Definition execute_query_l (pq : parsed_query) (g : gdbms) : lio bool :=
    let& _ := match q_make pq with
              | Some (m :: ms) => make_l (m :: ms) g
              | _ => LRet true
              end in
    match q_find pq with
    | Some f =>
        let& found := find_l f g in
        let& _ := match q_report pq with
                  | Some r => mute (report r found g)
                  | None => LRet true
                  end in
        LRet true
    | None => LThrow PlainException
    end.
  (** query.py:81-93 query *)
  Definition query_l (q : pystr) (g : gdbms) : lio bool :=
    let& pq := mute (lift (parse_query_string q)) in
    let& _ := execute_query_l pq g in
    LRet true.
End Log.
