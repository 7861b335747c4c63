(** * MessagesRun: executing a query, with the messages of the exceptions

    clauses/transform_helpers/relationships.py, clauses/make/transform/make_pre.py, clauses/make/make.py,
    clauses/find/transform/find_pre.py, clauses/find/find.py, models/wql/data/node.py and relationship.py,
    graph/database/database.py, graph/state/wiggle_number.py, core/query/query.py, exceptions/wiggle_base_exception.py and
    wiggle_shell/wiggleshell.py.

    Every function that raises an exception of the code base, or calls one that does, is written again with its message, as in Messages.v. *)
From Verif Require Import PyBase Json Props Checks Statements Data FS Store Make Find Query Messages.

(** A program with messages ends normally, with a value or with an exception and its message. *)
Definition iom (A : Type) : Type := io (resm A).
Definition iom_bind {A B} (x : iom A) (f : A -> iom B) : iom B :=
  io_bind x (fun r => match r with Good a => f a | Bad e m => Ret (Bad e m) end).
Notation "'let~' x ':=' e 'in' k" := (iom_bind e (fun x => k)) (at level 200, x pattern, right associativity).
Notation "'letm' ' x := a 'in' b" := (bindm a (fun y => match y with x => b end)) (at level 200, x pattern, a at level 100, b at level 200).
(** a program that raises only exceptions of Python *)
Definition own_io {A} (x : io A) : iom A := io_catch (let! a := x in Ret (Good a)) (fun e => Some (Ret (Bad e None))).

Section MessagesRun.
  Context {rt : PyRt}.

  (** clauses/transform_helpers/relationships.py:4-15 relationship_is_left_to_right *)
  Definition relationship_is_left_to_right_m (t : pystr) : resm bool :=
    if contains (py "<") t && contains (py ">") t
    then raise NonDirectedRelationshipError (Text (py "Non directed relationship found: " ++ t))
    else match t with
         | [] => Bad IndexError None
         | _ => Good (N.eqb (List.last t 0%N) 62)
         end.

  (** ** MAKE *)
  (** transform/make_pre.py:61-91 and 93-123 *)
  Definition link_m (p : piece) (wn : Z) (a b : option node_pre)
    : resm (Z * option node_pre * option node_pre * list pystr) :=
    match p_text p with
    | Some (c :: t) =>
        letm ltr := relationship_is_left_to_right_m (c :: t) in
        match a, b with
        | Some na, Some nb =>
            let r := if ltr then new_rel_pre wn p (np_wn na) (np_wn nb)
                     else new_rel_pre wn p (np_wn nb) (np_wn na) in
            let names := truthy_list (rp_name r) in
            if ltr then Good ((wn + 1)%Z, Some (add_rel r na), Some nb, names)
            else Good ((wn + 1)%Z, Some na, Some (add_rel r nb), names)
        | _, _ => Bad AttributeError None
        end
    | _ => Good (wn, a, b, [])
    end.
  (** transform/make_pre.py:22-126 *)
  Definition process_pattern_m (p : pattern) (wn : Z) : resm (Z * make_pre) :=
    letm lft := own (new_node_pre wn (left_node p)) in
    let wn := (wn + 1)%Z in
    letm '(wn, middle) := own (opt_node (middle_node p) wn) in
    letm '(wn, rgt) := own (opt_node (right_node p) wn) in
    let labels := s_of_list (np_label lft :: labels_of middle ++ labels_of rgt) in
    letm '(wn, lft', middle, names1) := link_m (left_middle_rel p) wn (Some lft) middle in
    letm '(wn, middle, rgt, names2) := link_m (middle_right_rel p) wn middle rgt in
    match lft' with
    | Some lft => Good (wn, {| mp_left := lft; mp_middle := middle; mp_right := rgt;
                                mp_labels := labels; mp_names := s_of_list (names1 ++ names2) |})
    | None => Bad AttributeError None
    end.
  Fixpoint process_patterns_m (ps : list pattern) (wn : Z) : resm (Z * list make_pre) :=
    match ps with
    | [] => Good (wn, [])
    | p :: ps' => letm '(wn1, m) := process_pattern_m p wn in
                  letm '(wn2, ms) := process_patterns_m ps' wn1 in
                  Good (wn2, m :: ms)
    end.
  (** transform/make_pre.py:7-128 process_parsed_make_list *)
  Definition process_parsed_make_list_m (l : list parsed_make) (wn : Z) : resm (Z * list make_pre) :=
    process_patterns_m (flat_map pm_patterns l) wn.

  (** models/wql/data/relationship.py:34-44 validate_from_to_wn: [cls.wn] is the property object itself, whose text has an address;
      C68 shows that this message is never shown, so the address is left out here *)
  Definition wn_property : pystr := py "<property object>".
  Definition new_relationship_m (wn : Z) (name : option pystr) (from to : Z) (props : option (list (pystr * pyval))) : resm relationship :=
    if Z.eqb from to then raise RelationshipToFromError (Text (py "Self relationships are not allowed: WN" ++ wn_property ++ py " to: WN" ++ str_of_Z to ++
                                                               py " from: WN" ++ str_of_Z from))
    else Good {| r_wn := wn; r_name := name; r_from := from; r_to := to; r_props := props |}.
  (** models/wql/data/node.py:56-71 validate_relationships *)
  Definition new_node_m (wn : Z) (label : pystr) (props : option (list (pystr * pyval))) (rels : option (list relationship)) : resm node :=
    let unrelated r := negb (Z.eqb wn (r_from r)) && negb (Z.eqb wn (r_to r)) in
    match rels with
    | Some l => match List.find unrelated l with
                | Some r => raise NodeHasUnrelatedRelationship (Text (py "Relationship WN" ++ str_of_Z (r_wn r) ++ py " not associated with this node."))
                | None => Good {| n_wn := wn; n_label := label; n_props := props; n_rels := rels |}
                end
    | None => Good {| n_wn := wn; n_label := label; n_props := props; n_rels := rels |}
    end.
  (** make.py:76-92 make_relationship *)
  Definition make_relationship_m (r : rel_pre) : resm relationship :=
    letm props := get_property_dict_m (rp_props r) in
    new_relationship_m (rp_wn r) (rp_name r) (rp_from r) (rp_to r) props.
  (** make.py:51-73 make_node *)
  Definition make_node_m (n : node_pre) : resm node :=
    letm props := get_property_dict_m (np_props n) in
    letm rels := match np_rels n with
                 | [] => Good None
                 | l => letm rs := mapMm make_relationship_m l in Good (Some rs)
                 end in
    new_node_m (np_wn n) (np_label n) props rels.
  (** make.py:33-48 make_nodes *)
  Definition make_nodes_m (m : make_pre) : resm (list node) :=
    letm l := make_node_m (mp_left m) in
    letm md := match mp_middle m with
               | Some n => letm x := make_node_m n in Good [x]
               | None => Good []
               end in
    letm r := match mp_right m with
              | Some _ => letm x := make_node_m (mp_left m) in Good [x]
              | None => Good []
              end in
    Good (l :: md ++ r).

  (** database.py:44-50 *)
  Definition node_exists {A} (k : pystr) : resm A :=
    raise NodeExistsError (Text (py "Node " ++ k ++ py " already exists did you mean to update")).
  Definition db_add_m (k : pystr) (v : pyval) (db : pyval) : resm pyval :=
    match db with
    | VDict d => if d_mem k d then node_exists k else Good (VDict (d_set k v d))
    | VList l => if existsb (fun x => match x with VStr s => str_eqb k s | _ => false end) l
                 then node_exists k else Bad TypeError None
    | VStr s => if contains k s then node_exists k else Bad TypeError None
    | _ => Bad TypeError None
    end.
  Fixpoint db_add_all_m (items : list (pystr * pyval)) (db : pyval) : resm pyval :=
    match items with
    | [] => Good db
    | (k, v) :: items' => letm db' := db_add_m k v db in db_add_all_m items' db'
    end.
  (** database.py:31-59 add_item_to_database *)
  Definition add_item_to_database_m (p : path) (items : list (pystr * pyval)) : iom bool :=
    let~ db := own_io (read_json p) in
    let~ db' := Ret (db_add_all_m items db) in
    let~ _ := own_io (write_json p 0 db') in
    Ret (Good true).

  (** wiggle_number.py:7-26 get_current_wiggle_number *)
  Definition get_current_wiggle_number_m (p : path) : iom Z :=
    let~ t := own_io (do_text (CRead p)) in
    match t with
    | [] => Ret (raise PlainException (Text (py "HOLD FIRE on overwriting the issue!")))
    | _ => Ret (own (py_int t))
    end.

  (** make.py:154-192 make; make.py:95-111 add_nodes_to_graph; the index functions raise no exception of the code base *)
  Definition make_m (l : list parsed_make) (g : gdbms) : iom bool :=
    let~ wn := get_current_wiggle_number_m (wiggle_number_fp g) in
    let~ (wn', ms) := Ret (process_parsed_make_list_m l wn) in
    let~ nss := Ret (mapMm make_nodes_m ms) in
    let ns := List.concat nss in
    let~ _ := add_item_to_database_m (database_fp g) (nodes_dict ns) in
    let~ _ := own_io (add_indexes ns ms g) in
    let~ _ := own_io (update_wiggle_number (wiggle_number_fp g) wn') in
    Ret (Good true).

  (** ** FIND *)
  (** find_pre.py:57-65, 77-94 and 97-118 *)
  Definition find_left_m (p : pattern) : resm find_node_pre :=
    letm props := get_property_dict_m (p_props (left_node p)) in
    own (new_find_node (p_label (left_node p)) (p_handle (left_node p)) props).
  Definition find_middle_m (p : pattern) : resm (option find_node_pre) :=
    if truthy (p_text (middle_node p)) then
      letm props := get_property_dict_m (p_props (middle_node p)) in
      letm n := own (new_find_node (p_label (middle_node p)) (p_handle (middle_node p)) props) in
      Good (Some n)
    else Good None.
  Definition find_right_m (p : pattern) : resm (option find_node_pre) :=
    if truthy (p_text (middle_node p)) then
      letm props := get_property_dict_m (p_props (left_node p)) in
      letm n := own (new_find_node (p_label (right_node p)) (p_handle (middle_node p)) props) in
      Good (Some n)
    else Good None.
  (** find_pre.py:120-145 and 147-172 *)
  Definition find_link_m (p : piece) (a b : option find_node_pre)
    : resm (option find_node_pre * option find_node_pre * list pystr) :=
    match p_text p with
    | Some (c :: t) =>
        letm props := get_property_dict_m (p_props p) in
        let r := {| fr_name := p_label p; fr_handle := p_handle p; fr_yes := props; fr_no := Some [] |} in
        letm ltr := relationship_is_left_to_right_m (c :: t) in
        if ltr then match a with
                    | Some n => Good (Some (find_add_rel r n), b, truthy_list (p_label p))
                    | None => Bad AttributeError None
                    end
        else match b with
             | Some n => Good (a, Some (find_add_rel r n), truthy_list (p_label p))
             | None => Bad AttributeError None
             end
    | _ => Good (a, b, [])
    end.
  (** find_pre.py:42-176 process_parsed_find *)
  Definition process_pattern_find_m (p : pattern) : resm find_pre :=
    letm lft := find_left_m p in
    letm middle := find_middle_m p in
    letm rgt := find_right_m p in
    let labels := s_of_list (fn_label lft :: find_labels middle ++ find_labels rgt) in
    letm '(lft', middle, names1) := find_link_m (left_middle_rel p) (Some lft) middle in
    letm '(middle, rgt, names2) := find_link_m (middle_right_rel p) middle rgt in
    match lft' with
    | Some lft => Good {| fp_left := lft; fp_middle := middle; fp_right := rgt;
                           fp_labels := labels; fp_names := s_of_list (names1 ++ names2) |}
    | None => Bad AttributeError None
    end.
  (** find.py:11-25 find *)
  Definition find_m (f : parsed_find) (g : gdbms) : iom (option (list (bool * bool))) :=
    let~ fp := Ret (process_pattern_find_m (pf_pattern f)) in
    let~ ok := own_io (find_short_circuit fp g) in
    if (ok : bool) then Ret (Good (Some [(true, false)]))
    else let~ _ := own_io (do_unit (CPrint NO_RESULTS)) in Ret (Good None).

  (** ** Queries *)
  (** query.py:53-71 execute_query *)
  Definition execute_query_m (pq : parsed_query) (g : gdbms) : iom bool :=
    let~ _ := match q_make pq with
              | Some (m :: ms) => make_m (m :: ms) g
              | _ => Ret (Good true)
              end in
    match q_find pq with
    | Some f =>
        let~ found := find_m f g in
        let~ _ := match q_report pq with
                  | Some r => own_io (report r found g)
                  | None => Ret (Good true)
                  end in
        Ret (Good true)
    | None => Ret (raise PlainException (Text (py "You must provide a FIND with a RETURN! FUBAR")))
    end.
  (** query.py:81-93 query *)
  Definition query_m (q : pystr) (g : gdbms) : iom bool :=
    let~ pq := Ret (parse_query_string_m q) in
    let~ _ := execute_query_m pq g in
    Ret (Good true).

  (** ** What the shell prints *)
  Section Shown.
    (** str.isprintable of one character that is not ASCII *)
    Context (u_printable : N -> bool).
    (** str(e) for the exceptions of Python and pydantic *)
    Context (python_text : exn -> pystr).

    Definition hex_digit (n : N) : N := (if N.ltb n 10 then 48 + n else 87 + n)%N.
    Fixpoint hex (digits : nat) (c : N) : pystr :=
      match digits with O => [] | S d => hex d (c / 16)%N ++ [hex_digit (c mod 16)%N] end.
    (** one character in the repr of a str that is quoted with [q] *)
    Definition repr_char (q c : N) : pystr :=
      if N.eqb c q || N.eqb c 92 then [92%N; c]
      else if N.eqb c 9 then py "\t" else if N.eqb c 10 then py "\n" else if N.eqb c 13 then py "\r"
      else if N.ltb c 32 || N.eqb c 127 then py "\x" ++ hex 2 c
      else if N.ltb c 127 then [c]
      else if u_printable c then [c]
      else if N.ltb c 256 then py "\x" ++ hex 2 c
      else if N.ltb c 65536 then py "\u" ++ hex 4 c
      else py "\U" ++ hex 8 c.
    (** repr(s): single quotes, unless [s] has one and no double quote *)
    Definition repr (s : pystr) : pystr :=
      let q := if existsb (N.eqb 39) s && negb (existsb (N.eqb 34) s) then 34%N else 39%N in
      q :: flat_map (repr_char q) s ++ [q].
    (** the text of a list and of a tuple (the tuples here have two members) *)
    Definition quoted_text (x : quoted) : pystr :=
      match x with
      | AList l => py "[" ++ join (py ", ") (map repr l) ++ py "]"
      | ATuple l => py "(" ++ join (py ", ") (map repr l) ++ py ")"
      end.
    Definition message_text (m : message) : pystr :=
      match m with Text s => s | Quoting a x b => a ++ quoted_text x ++ b end.
    (** the names of the classes of exceptions/ *)
    Definition class_name (e : exn) : option pystr :=
      match e with
      | ClauseSyntaxError => Some (py "ClauseSyntaxError") | IllegalCharacterError => Some (py "IllegalCharacterError")
      | NonDirectedRelationshipError => Some (py "NonDirectedRelationshipError") | ParamSyntaxError => Some (py "ParamSyntaxError")
      | RelationshipNameSyntaxError => Some (py "RelationshipNameSyntaxError")
      | WiggleGraphIllegalPropertyValue => Some (py "WiggleGraphIllegalPropertyValue")
      | PropertyTypeAssignmentError => Some (py "PropertyTypeAssignmentError")
      | MakeDuplicateHandlesError => Some (py "MakeDuplicateHandlesError")
      | MultipleClauseStatementsError => Some (py "MultipleClauseStatementsError")
      | FindReportHandleMissmatch => Some (py "FindReportHandleMissmatch") | NodeExistsError => Some (py "NodeExistsError")
      | RelationshipToFromError => Some (py "RelationshipToFromError")
      | NodeHasUnrelatedRelationship => Some (py "NodeHasUnrelatedRelationship")
      | _ => None
      end.
    (** exceptions/wiggle_base_exception.py:9-10 __str__, and str() of Exception(message) *)
    Definition exception_text (e : exn) (m : option message) : pystr :=
      match m with
      | None => python_text e
      | Some m => match class_name e with Some n => n ++ py ": " ++ message_text m | None => message_text m end
      end.

    (** wiggleshell.py:24-44 *)
    Fixpoint shell_loop_m (fuel : nat) (g : gdbms) : io unit :=
      match fuel with
      | O => Throw OutOfFuel
      | S f =>
          let! q := do_text CInput in
          let! _ := do_unit (CPrint (q ++ py " " ++ [10%N])) in
          if str_eqb q (py "q") then do_unit (CPrint GOOD_BYE)
          else if contains (py "help") (str_lower q) then
            let! _ := do_unit (CPrint HELPFUL) in shell_loop_m f g
          else
            let! r := query_m q g in
            match r with
            | Good _ => shell_loop_m f g
            | Bad e m => let! _ := do_unit (CPrint (exception_text e m)) in shell_loop_m f g
            end
      end.
  End Shown.
End MessagesRun.
