(** * Prop_Make: what one MAKE does to the graph (C17-C23, C27, C53)

    [stored g G w]: the three files of [g] in the world [w] hold the graph [G].
    [acceptable ps n items]: the patterns [ps] can be turned into nodes, and [items] are the database
    entries of these nodes when numbering starts at [n].  Both are in SpecStore / SpecMake. *)
From Verif Require Import PyBase Json SpecJson RtLaws Props Statements FS Store SpecStore Make SpecMake MakeMore MakeFinal MakeRun AsciiRt AsciiFacts.

(** ** Examples: a fresh graph and three MAKE statements *)
Definition ex_g : gdbms := {| database_fp := [py "database"]; indexes_fp := [py "indexes"]; wiggle_number_fp := [py "counter"] |}.
Definition ex_G : graph := {| g_db := []; g_ix := {| ix_rels := []; ix_labels := []; ix_names := [] |}; g_next := 0 |}.
Definition ex_w : world :=
  {| w_fs := [([py "database"], EFile (py "{}"));
              ([py "indexes"], EFile (dump_text Compact (index_val (g_ix ex_G))));
              ([py "counter"], EFile (py "0"))]; w_in := []; w_out := [] |}.
Lemma ex_stored : @stored ascii_rt ex_g ex_G ex_w.
Proof.
  constructor; try reflexivity.
  - repeat split; discriminate.
  - constructor; try reflexivity; cbn; [apply vo_dict; constructor| |intros k []]. constructor; cbn; constructor.
  - exists Compact. reflexivity.
Qed.
Definition ex_parse (q : pystr) : list parsed_make :=
  match @parse_make ascii_rt q with Ok (Some l) => l | _ => [] end.
Definition ex_two : list parsed_make := ex_parse (py "MAKE (:Person{n:1})-[:KNOWS]->(:City);").
Definition ex_three : list parsed_make := ex_parse (py "MAKE (:Person)-[:KNOWS]->(:City)-[:IN]->(:Land);").
Definition ex_alone : list parsed_make := ex_parse (py "MAKE (:Person{n:1});").
Definition ex_bytes : list parsed_make := ex_parse (py "MAKE (:Person{n:[b'x']})-[:KNOWS]->(:City);").
Ltac ex_names := repeat constructor; intros x s H; cbn in H; repeat (destruct H as [<-|H]; [cbn; intros E; inversion E; subst; repeat constructor|]); destruct H.
Lemma ex_two_names : Forall (@names_ok) (patterns_of ex_two).
Proof. vm_compute patterns_of. ex_names. Qed.
Lemma ex_three_names : Forall (@names_ok) (patterns_of ex_three).
Proof. vm_compute patterns_of. ex_names. Qed.
Lemma ex_alone_names : Forall (@names_ok) (patterns_of ex_alone).
Proof. vm_compute patterns_of. ex_names. Qed.

(** ** C17: the direction of a relationship *)
(** left relationship: the last character of its text decides *)
Theorem C17_left_relationship_direction : forall (rt : PyRt) g G w l w' ps1 p ps2,
  rt_data rt -> stored g G w -> Forall names_ok (patterns_of l) ->
  patterns_of l = ps1 ++ p :: ps2 -> run (make l g) w = (Ok true, w') -> drawn (left_middle_rel p) = true ->
  let w0 := (g_next G + size_all ps1)%Z in
  exists items, run (load_database (database_fp g)) w' = (Ok (VDict (g_db G ++ items)), w') /\
    forall a a' b, lists_link items a (num_rel1 p w0) a' b <->
      if points_right (left_middle_rel p) then a = num_left w0 /\ a' = num_left w0 /\ b = num_middle w0
      else a = num_middle w0 /\ a' = num_middle w0 /\ b = num_left w0.
Proof. exact @dir_left. Qed.
Print Assumptions C17_left_relationship_direction.

(** right relationship: the same, except that one that starts at the right node is not stored (C19) *)
Theorem C17_right_relationship_direction : forall (rt : PyRt) g G w l w' ps1 p ps2,
  rt_data rt -> stored g G w -> Forall names_ok (patterns_of l) ->
  patterns_of l = ps1 ++ p :: ps2 -> run (make l g) w = (Ok true, w') -> drawn (middle_right_rel p) = true ->
  let w0 := (g_next G + size_all ps1)%Z in
  exists items, run (load_database (database_fp g)) w' = (Ok (VDict (g_db G ++ items)), w') /\
    forall a a' b, lists_link items a (num_rel2 p w0) a' b <->
      points_right (middle_right_rel p) = true /\ a = num_middle w0 /\ a' = num_middle w0 /\ b = num_right p w0.
Proof. exact @dir_right. Qed.
Print Assumptions C17_right_relationship_direction.

(** both heads: refused, whatever the files hold *)
Theorem C17_two_heads_refused : forall (rt : PyRt) g w l p x,
  In p (patterns_of l) -> x = left_middle_rel p \/ x = middle_right_rel p ->
  drawn x = true -> two_heads x -> exists e, run (make l g) w = (Err e, w).
Proof. exact @dir_both. Qed.
Print Assumptions C17_two_heads_refused.

(** the same statement, with a blank behind the arrow: stored the other way round *)
Definition ex_links (q : string) : list (Z * Z) :=
  let w' := snd (@run bool (@make ascii_rt (ex_parse (py q)) ex_g) ex_w) in
  match fst (run (@load_database ascii_rt (database_fp ex_g)) w') with
  | Ok (VDict d) => flat_map (fun kv => flat_map (fun r =>
      match field (py "wn_from_node") r, field (py "wn_to_node") r with
      | Some (VInt a), Some (VInt b) => [(a, b)] | _, _ => [] end) (relations (snd kv))) d
  | _ => []
  end.
Theorem C17_blank_behind_arrow_refuted :
  ex_links "MAKE (:Person)-[:KNOWS]->(:City);" = [(0, 1)]%Z /\
  ex_links "MAKE (:Person)-[:KNOWS]-> (:City);" = [(1, 0)]%Z /\
  ex_links "MAKE (:Person)<-[:KNOWS]-(:City);" = [(1, 0)]%Z.
Proof. vm_compute. repeat split. Qed.
Print Assumptions C17_blank_behind_arrow_refuted.

Example C17_hypotheses : exists p w', patterns_of ex_two = [] ++ p :: [] /\ drawn (left_middle_rel p) = true /\
  points_right (left_middle_rel p) = true /\ @run bool (@make ascii_rt ex_two ex_g) ex_w = (Ok true, w').
Proof. eexists _, _. vm_compute. repeat split. Qed.
Example C17_hypotheses_right : exists p w', patterns_of ex_three = [] ++ p :: [] /\ drawn (middle_right_rel p) = true /\
  points_right (middle_right_rel p) = true /\ @run bool (@make ascii_rt ex_three ex_g) ex_w = (Ok true, w').
Proof. eexists _, _. vm_compute. repeat split. Qed.
(** the parser lets two heads through behind a statement without relationship (C07) *)
Example C17_hypotheses_heads :
  exists p, In p (patterns_of (ex_parse (py "MAKE (:Z);" ++ [10%N] ++ py "MAKE (:A)<-[:R]->(:B);"))) /\
  drawn (left_middle_rel p) = true /\ two_heads (left_middle_rel p).
Proof. eexists. split; [vm_compute; right; left; reflexivity|]. split; [reflexivity|]. split; vm_compute; tauto. Qed.

(** ** C18 *)
Theorem C18_numbers_consecutive : forall (l : list parsed_make) (w w' : Z) (ms : list make_pre),
  process_parsed_make_list l w = Ok (w', ms) ->
  exists k : nat, w' = (w + Z.of_nat k)%Z /\ flat_map (fun m => node_numbers m ++ rel_numbers m) ms = zrange w k.
Proof. exact consecutive. Qed.
Print Assumptions C18_numbers_consecutive.

Theorem C18_numbers_counted : forall (l : list parsed_make) (w w' : Z) (ms : list make_pre),
  process_parsed_make_list l w = Ok (w', ms) -> w' = (w + size_all (patterns_of l))%Z /\ Forall well_drawn (patterns_of l).
Proof. exact counted. Qed.
Print Assumptions C18_numbers_counted.

(** [zrange w k] is w, w+1, ..., w+k-1: no number twice, none left out *)
Theorem C18_each_number_once : forall (w : Z) (k : nat),
  NoDup (zrange w k) /\ forall z, In z (zrange w k) <-> (w <= z < w + Z.of_nat k)%Z.
Proof. exact zrange_NoDup. Qed.
Print Assumptions C18_each_number_once.

Example C18_example : match process_parsed_make_list (ex_three ++ ex_two) 7 with
  | Ok (w', ms) => w' = 15%Z /\ map node_numbers ms = [[7; 8; 9]; [12; 13]]%Z /\ map rel_numbers ms = [[10; 11]; [14]]%Z
  | Err _ => False end.
Proof. vm_compute. repeat split. Qed.

(** ** C19 *)
Theorem C19_right_node_lost : forall (rt : PyRt) g G w l w' ps1 p ps2,
  rt_data rt -> stored g G w -> Forall names_ok (patterns_of l) ->
  patterns_of l = ps1 ++ p :: ps2 -> drawn (right_node p) = true ->
  run (make l g) w = (Ok true, w') ->
  exists d z, run (load_database (database_fp g)) w' = (Ok (VDict d), w') /\
    run (get_current_wiggle_number (wiggle_number_fp g)) w' = (Ok z, w') /\
    let r := num_right p (g_next G + size_all ps1) in
    (g_next G <= r < z)%Z /\ ~ In (str_of_Z r) (keys d) /\ forall n a b, ~ lists_link d r n a b.
Proof. exact @right_lost. Qed.
Print Assumptions C19_right_node_lost.

Example C19_hypotheses : exists p w', patterns_of ex_three = [] ++ p :: [] /\ drawn (right_node p) = true /\
  @run bool (@make ascii_rt ex_three ex_g) ex_w = (Ok true, w').
Proof. eexists _, _. vm_compute. repeat split. Qed.

(** ** C20 *)
Theorem C20_nodes_list_their_own : forall (rt : PyRt) g G w l w',
  rt_data rt -> stored g G w -> Forall names_ok (patterns_of l) -> run (make l g) w = (Ok true, w') ->
  exists items, run (load_database (database_fp g)) w' = (Ok (VDict (g_db G ++ items)), w') /\
    forall a n a' b, lists_link items a n a' b -> a' = a /\ b <> a.
Proof. exact @own_only. Qed.
Print Assumptions C20_nodes_list_their_own.

(** A drawn relationship whose start is stored is listed there, and its end is a stored node unless
    it is the right node of a three-node pattern. *)
Theorem C20_ends_stored_unless_right_node : forall (rt : PyRt) g G w l w' ps1 p ps2 k,
  rt_data rt -> stored g G w -> Forall names_ok (patterns_of l) ->
  patterns_of l = ps1 ++ p :: ps2 -> run (make l g) w = (Ok true, w') ->
  In k (links p (g_next G + size_all ps1)) -> In (lk_from k) (map fst (stored_nodes p (g_next G + size_all ps1))) ->
  exists d, run (load_database (database_fp g)) w' = (Ok (VDict d), w') /\
    lists_link d (lk_from k) (lk_num k) (lk_from k) (lk_to k) /\ lk_from k <> lk_to k /\
    (In (str_of_Z (lk_to k)) (keys d) <-> lk_to k <> num_right p (g_next G + size_all ps1)).
Proof. exact @ends_stored. Qed.
Print Assumptions C20_ends_stored_unless_right_node.

Example C20_hypotheses : exists p k w', patterns_of ex_three = [] ++ p :: [] /\ In k (links p 0) /\
  In (lk_from k) (map fst (stored_nodes p 0)) /\ lk_to k = num_right p 0 /\
  @run bool (@make ascii_rt ex_three ex_g) ex_w = (Ok true, w').
Proof. eexists _, _, _. split; [vm_compute; reflexivity|]. split; [right; left; reflexivity|]. vm_compute. auto. Qed.

(** ** C21: refused before anything is written *)
(** a pattern that is badly drawn, or a property text without meaning: any state of the files *)
Theorem C21_bad_pattern_changes_nothing : forall (rt : PyRt) l g w p,
  In p (patterns_of l) -> ~ well_drawn p \/ meaningless p -> exists e, run (make l g) w = (Err e, w).
Proof. exact @bad_pattern_refused. Qed.
Print Assumptions C21_bad_pattern_changes_nothing.

Theorem C21_unacceptable_changes_nothing : forall (rt : PyRt) l g w z,
  run (get_current_wiggle_number (wiggle_number_fp g)) w = (Ok z, w) ->
  (~ exists items, acceptable (patterns_of l) z items) -> exists e, run (make l g) w = (Err e, w).
Proof. exact @refused_not_acceptable. Qed.
Print Assumptions C21_unacceptable_changes_nothing.

Theorem C21_taken_number_changes_nothing : forall (rt : PyRt) l g w z d items k,
  run (get_current_wiggle_number (wiggle_number_fp g)) w = (Ok z, w) ->
  run (read_json (database_fp g)) w = (Ok (VDict d), w) ->
  acceptable (patterns_of l) z items -> In k (keys items) -> In k (keys d) ->
  run (make l g) w = (Err NodeExistsError, w).
Proof. exact @make_taken. Qed.
Print Assumptions C21_taken_number_changes_nothing.

Theorem C21_unreadable_counter_changes_nothing : forall (rt : PyRt) l g w e,
  run (get_current_wiggle_number (wiggle_number_fp g)) w = (Err e, w) -> run (make l g) w = (Err e, w).
Proof. exact @make_no_counter. Qed.
Print Assumptions C21_unreadable_counter_changes_nothing.

Theorem C21_unreadable_database_changes_nothing : forall (rt : PyRt) l g w e,
  run (read_json (database_fp g)) w = (Err e, w) -> exists e', run (make l g) w = (Err e', w).
Proof. exact @make_unreadable_db. Qed.
Print Assumptions C21_unreadable_database_changes_nothing.

Example C21_hypotheses_label : exists p, In p (patterns_of (ex_parse (py "MAKE (a)-[:R]->(:B);"))) /\ ~ well_drawn p.
Proof. eexists. split; [vm_compute; left; reflexivity|]. intros [H _ _ _ _]. apply H. reflexivity. Qed.
Example C21_hypotheses_property : exists p, In p (patterns_of (ex_parse (py "MAKE (:A{x:NULL})-[:R]->(:B);"))) /\ @meaningless ascii_rt p.
Proof. eexists. split; [vm_compute; left; reflexivity|]. left. eexists. vm_compute. reflexivity. Qed.
Example C21_example_taken :
  let w := {| w_fs := [([py "database"], EFile (py "{""1"": null}")); ([py "counter"], EFile (py "0"))]; w_in := []; w_out := [] |} in
  @run bool (@make ascii_rt ex_two ex_g) w = (Err NodeExistsError, w).
Proof. vm_compute. reflexivity. Qed.

(** ** C22 *)
Theorem C22_successful_make_effect : forall (rt : PyRt) g G w l b w',
  rt_data rt -> stored g G w -> Forall names_ok (patterns_of l) -> run (make l g) w = (Ok b, w') ->
  b = true /\ unchanged_but [database_fp g; indexes_fp g; wiggle_number_fp g] w w' /\
  exists items, acceptable (patterns_of l) (g_next G) items /\ dict_ser items = true /\
    (exists k z, owns (patterns_of l) (g_next G) k z) /\
    exists G', stored g G' w' /\ made (patterns_of l) G G' /\ g_db G' = g_db G ++ items.
Proof. exact @make_ok_effect. Qed.
Print Assumptions C22_successful_make_effect.

(** and it does succeed when the patterns are acceptable, json can write them, and a relationship starts at a stored node *)
Theorem C22_make_succeeds : forall (rt : PyRt) g G w l items,
  rt_data rt -> stored g G w -> Forall names_ok (patterns_of l) ->
  acceptable (patterns_of l) (g_next G) items -> dict_ser items = true -> (exists k z, owns (patterns_of l) (g_next G) k z) ->
  exists w', run (make l g) w = (Ok true, w').
Proof. exact @make_ok_when. Qed.
Print Assumptions C22_make_succeeds.

Example C22_hypotheses : exists w', rt_data ascii_rt /\ @stored ascii_rt ex_g ex_G ex_w /\ Forall names_ok (patterns_of ex_two) /\
  @run bool (@make ascii_rt ex_two ex_g) ex_w = (Ok true, w').
Proof. eexists. split; [exact ascii_data|]. split; [exact ex_stored|]. split; [exact ex_two_names|]. vm_compute. reflexivity. Qed.
Example C22_hypotheses_succeeds : exists items, @acceptable ascii_rt (patterns_of ex_two) (g_next ex_G) items /\ dict_ser items = true /\
  exists k z, owns (patterns_of ex_two) (g_next ex_G) k z.
Proof.
  destruct C22_hypotheses as (w' & H1 & H2 & H3 & H4).
  destruct (C22_successful_make_effect ascii_rt _ _ _ _ _ _ H1 H2 H3 H4) as (_ & _ & items & A & Sr & O & _). eauto.
Qed.

(** ** C23: no relationship starts at a stored node *)
Theorem C23_no_relationship_corrupts_index : forall (rt : PyRt) g G w l items,
  rt_data rt -> stored g G w -> Forall names_ok (patterns_of l) ->
  acceptable (patterns_of l) (g_next G) items -> dict_ser items = true -> (forall k z, ~ owns (patterns_of l) (g_next G) k z) ->
  exists t w', run (make l g) w = (Err JSONDecodeError, w') /\ unchanged_but [database_fp g; indexes_fp g] w w' /\
    db_file (database_fp g) (g_db G ++ items) w' /\
    file_is (indexes_fp g) t w /\ file_is (indexes_fp g) (t ++ dump_text Indent4 (index_val (g_ix G))) w' /\
    run (read_json (indexes_fp g)) w' = (Err JSONDecodeError, w') /\
    run (get_current_wiggle_number (wiggle_number_fp g)) w' = (Ok (g_next G), w').
Proof. exact @make_half. Qed.
Print Assumptions C23_no_relationship_corrupts_index.

(** the only two ways in which a MAKE can raise and still have changed something: C27 and C23 *)
Theorem C23_only_half_done_cases : forall (rt : PyRt) g G w l e w',
  rt_data rt -> stored g G w -> Forall names_ok (patterns_of l) ->
  run (make l g) w = (Err e, w') -> w' <> w ->
  exists items, acceptable (patterns_of l) (g_next G) items /\
    (e = TypeError /\ dict_ser items = false \/
     e = JSONDecodeError /\ dict_ser items = true /\ forall k z, ~ owns (patterns_of l) (g_next G) k z).
Proof. exact @make_half_only. Qed.
Print Assumptions C23_only_half_done_cases.

Example C23_example : exists w', @run bool (@make ascii_rt ex_alone ex_g) ex_w = (Err JSONDecodeError, w') /\ w' <> ex_w.
Proof. eexists. split; [vm_compute; reflexivity|]. vm_compute. discriminate. Qed.
Example C23_hypotheses : exists items, @acceptable ascii_rt (patterns_of ex_alone) (g_next ex_G) items /\ dict_ser items = true /\
  forall k z, ~ owns (patterns_of ex_alone) (g_next ex_G) k z.
Proof.
  destruct C23_example as (w' & H1 & H2).
  destruct (C23_only_half_done_cases ascii_rt _ _ _ _ _ _ ascii_data ex_stored ex_alone_names H1 H2) as (items & A & [[? _]|(_ & B & C)]); [discriminate|eauto].
Qed.

(** ** C27 for a MAKE *)
Theorem C27_make_with_unwritable_value : forall (rt : PyRt), rt_data rt -> forall g G w, stored g G w ->
  forall l items, Forall names_ok (patterns_of l) -> acceptable (patterns_of l) (g_next G) items -> dict_ser items = false ->
  exists w', run (make l g) w = (Err TypeError, w') /\ unchanged_but [database_fp g] w w' /\
    run (read_json (database_fp g)) w' = (Err JSONDecodeError, w') /\
    run (load_database (database_fp g)) w' = (Ok (VDict []), w').
Proof. exact @make_unwritable. Qed.
Print Assumptions C27_make_with_unwritable_value.

Example C27_make_example : fst (@run bool (@make ascii_rt ex_bytes ex_g) ex_w) = Err TypeError.
Proof. vm_compute. reflexivity. Qed.
Example C27_make_hypotheses : exists items, Forall names_ok (patterns_of ex_bytes) /\
  @acceptable ascii_rt (patterns_of ex_bytes) (g_next ex_G) items /\ dict_ser items = false.
Proof.
  assert (N : Forall names_ok (patterns_of ex_bytes)) by (vm_compute patterns_of; ex_names).
  assert (H : exists w', @run bool (@make ascii_rt ex_bytes ex_g) ex_w = (Err TypeError, w') /\ w' <> ex_w)
    by (eexists; split; [vm_compute; reflexivity|vm_compute; discriminate]).
  destruct H as (w' & H1 & H2).
  destruct (C23_only_half_done_cases ascii_rt _ _ _ _ _ _ ascii_data ex_stored N H1 H2) as (items & A & [[_ ?]|(? & _)]); [eauto|discriminate].
Qed.

(** ** C53 *)
Theorem C53_created_at_is_import_time : forall (rt : PyRt) g G w l w',
  rt_data rt -> stored g G w -> Forall names_ok (patterns_of l) -> run (make l g) w = (Ok true, w') ->
  exists items, run (load_database (database_fp g)) w' = (Ok (VDict (g_db G ++ items)), w') /\
    forall k v, In (k, v) items ->
      (exists n, k = str_of_Z n /\ field (py "node_metadata") v =
         Some (VDict [(py "wn", VInt n); (py "created_at", VFloat import_time); (py "updated_at", VNone)])) /\
      forall r, In r (relations v) -> exists n, field (py "relationship_metadata") r =
         Some (VDict [(py "wn", VInt n); (py "created_at", VFloat import_time); (py "updated_at", VNone)]).
Proof. exact @created_at. Qed.
Print Assumptions C53_created_at_is_import_time.
Example C53_hypotheses : exists w', @run bool (@make ascii_rt ex_two ex_g) ex_w = (Ok true, w').
Proof. eexists. vm_compute. reflexivity. Qed.
