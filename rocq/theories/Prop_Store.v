(** * Prop_Store: the database, the counter and the indexes (C26, C27, C28, C30, C31, C32)

    [db_file], [index_file], [file_is] and [unchanged_but] are those of SpecStore. *)
From Verif Require Import PyBase Json SpecJson FS Store SpecStore StoreFacts StoreMore IndexText AsciiRt AsciiFacts.

(** ** C26 *)
Theorem C26_taken_number_refused : forall (rt : PyRt) (p : path) (d items : list (pystr * pyval)) (w : world) (k : pystr),
  db_file p d w -> In k (keys items) -> In k (keys d) ->
  run (add_item_to_database p items) w = (Err NodeExistsError, w).
Proof. exact @store_refuse. Qed.
Print Assumptions C26_taken_number_refused.

Theorem C26_new_numbers_added : forall (rt : PyRt) (p : path) (d items : list (pystr * pyval)) (w : world),
  db_file p d w -> dict_ok items -> (forall k, In k (keys items) -> ~ In k (keys d)) -> dict_ser items = true ->
  exists w', run (add_item_to_database p items) w = (Ok true, w') /\ unchanged_but [p] w w' /\
    run (load_database p) w' = (Ok (VDict (d ++ items)), w') /\ db_file p (d ++ items) w'.
Proof. exact @store_add. Qed.
Print Assumptions C26_new_numbers_added.

Definition C26_world (t : pystr) : world := {| w_fs := [([py "db"], EFile t)]; w_in := []; w_out := [] |}.
Definition C26_old : list (pystr * pyval) := [(py "0", VInt 5)].
Definition C26_new : list (pystr * pyval) := [(py "1", VList [VStr (py "x")])].
Example C26_hypotheses : let rt := ascii_rt in
  db_file [py "db"] C26_old (C26_world (dump_text Indent4 (VDict C26_old))) /\
  dict_ok C26_new /\ (forall k, In k (keys C26_new) -> ~ In k (keys C26_old)) /\ dict_ser C26_new = true.
Proof.
  intros rt. repeat split; try reflexivity.
  - apply vo_dict; [|repeat constructor; intros []]. repeat constructor.
  - apply vo_dict; [|repeat constructor; intros []]. repeat constructor.
  - intros k [<-|[]] [H|[]]. discriminate.
Qed.
Example C26_example : let rt := ascii_rt in
  fst (run (add_item_to_database [py "db"] C26_old) (C26_world (dump_text Indent4 (VDict C26_old)))) = Err NodeExistsError.
Proof. vm_compute. reflexivity. Qed.

(** ** C27, the write: a value json refuses destroys the file *)
Theorem C27_unwritable_item_destroys_database : forall (rt : PyRt) (p : path) (d items : list (pystr * pyval)) (w : world),
  db_file p d w -> dict_ok items -> (forall k, In k (keys items) -> ~ In k (keys d)) -> dict_ser items = false ->
  exists w', run (add_item_to_database p items) w = (Err TypeError, w') /\ unchanged_but [p] w w' /\
    run (read_json p) w' = (Err JSONDecodeError, w') /\ run (load_database p) w' = (Ok (VDict []), w').
Proof. exact @store_bad. Qed.
Print Assumptions C27_unwritable_item_destroys_database.

Example C27_item : let rt := ascii_rt in dict_ok [(py "1", VList [VOpaque])] /\ dict_ser [(py "1", VList [VOpaque])] = false.
Proof. split; [|reflexivity]. apply vo_dict; [|repeat constructor; intros []]. repeat constructor. Qed.

(** ** C28: the new text covers the old one, and the file is exactly the new document *)
Theorem C28_new_text_not_shorter : forall (rt : PyRt) (d items : list (pystr * pyval)),
  dict_ok d -> dict_ser d = true ->
  List.length (dump_text Indent4 (VDict d)) <= List.length (dump_text Indent4 (VDict (d ++ items))).
Proof. exact @new_text_longer. Qed.
Print Assumptions C28_new_text_not_shorter.

Theorem C28_no_residue : forall (rt : PyRt) (p : path) (d items : list (pystr * pyval)) (w : world),
  db_file p d w -> dict_ok items -> (forall k, In k (keys items) -> ~ In k (keys d)) ->
  exists r w', run (add_item_to_database p items) w = (r, w') /\
    file_is p (dump_text Indent4 (VDict (d ++ items))) w'.
Proof. exact @no_residue. Qed.
Print Assumptions C28_no_residue.

(** on a file the program did not write there can be residue *)
Theorem C28_foreign_file_refuted :
  exists w', run (@add_item_to_database ascii_rt [py "db"] []) (C26_world (py "{            }")) = (Ok true, w') /\
    file_is [py "db"] (py "{}           }") w' /\ fst (run (@load_database ascii_rt [py "db"]) w') = Ok (VDict []).
Proof. eexists. split; [vm_compute; reflexivity|]. split; vm_compute; reflexivity. Qed.
Print Assumptions C28_foreign_file_refuted.

(** ** C30 *)
Theorem C30_counter_round_trip : forall (rt : PyRt) (p : path) (t : pystr) (z : Z) (w : world), file_is p t w ->
  exists w', run (update_wiggle_number p z) w = (Ok z, w') /\ unchanged_but [p] w w' /\
    run (get_current_wiggle_number p) w' = (Ok z, w').
Proof. exact @counter_round_trip. Qed.
Print Assumptions C30_counter_round_trip.

Theorem C30_empty_counter_refused : forall (rt : PyRt) (p : path) (w : world),
  file_is p [] w -> run (get_current_wiggle_number p) w = (Err PlainException, w).
Proof. exact @counter_empty. Qed.
Print Assumptions C30_empty_counter_refused.

Example C30_example : let rt := ascii_rt in
  fst (run (let! _ := update_wiggle_number [py "db"] (-1203)%Z in get_current_wiggle_number [py "db"]) (C26_world (py "7"))) = Ok (-1203)%Z.
Proof. vm_compute. reflexivity. Qed.

(** ** C31 *)
Theorem C31_labels_union : forall (rt : PyRt) (p : path) (items : list pystr) (ix : index) (w : world),
  rt_ok rt -> Forall str_ok items -> index_file p ix w ->
  exists l w', run (add_items_to_node_labels_index p items) w = (Ok true, w') /\ unchanged_but [p] w w' /\
    index_file p {| ix_rels := ix_rels ix; ix_labels := l; ix_names := ix_names ix |} w' /\
    run (load_node_labels_index p) w' = (Ok l, w') /\ (forall x, In x l <-> In x (ix_labels ix) \/ In x items) /\
    run (load_relationship_names_index p) w' = (Ok (ix_names ix), w') /\
    run (load_node_relationships_index p) w' = (Ok (ix_rels ix), w').
Proof. exact @labels_union. Qed.
Print Assumptions C31_labels_union.

Theorem C31_names_union : forall (rt : PyRt) (p : path) (items : list pystr) (ix : index) (w : world),
  rt_ok rt -> Forall str_ok items -> index_file p ix w ->
  exists l w', run (add_items_to_relationship_names_index p items) w = (Ok true, w') /\ unchanged_but [p] w w' /\
    index_file p {| ix_rels := ix_rels ix; ix_labels := ix_labels ix; ix_names := l |} w' /\
    run (load_relationship_names_index p) w' = (Ok l, w') /\ (forall x, In x l <-> In x (ix_names ix) \/ In x items) /\
    run (load_node_labels_index p) w' = (Ok (ix_labels ix), w') /\
    run (load_node_relationships_index p) w' = (Ok (ix_rels ix), w').
Proof. exact @names_union. Qed.
Print Assumptions C31_names_union.

(** For relationship numbers there must be at least one item. *)
Theorem C31_relationships_union : forall (rt : PyRt) (p : path) (items : list (pystr * list Z)) (ix : index) (w : world),
  rt_ok rt -> items <> [] -> Forall (fun kv => str_ok (fst kv) /\ NoDup (snd kv)) items -> index_file p ix w ->
  exists d w', run (add_items_to_node_relationships_index p items) w = (Ok true, w') /\ unchanged_but [p] w w' /\
    index_file p {| ix_rels := d; ix_labels := ix_labels ix; ix_names := ix_names ix |} w' /\
    run (load_node_relationships_index p) w' = (Ok d, w') /\
    (forall k z, In z (numbers_of k d) <-> In z (numbers_of k (ix_rels ix)) \/ exists s, In (k, s) items /\ In z s) /\
    run (load_node_labels_index p) w' = (Ok (ix_labels ix), w') /\
    run (load_relationship_names_index p) w' = (Ok (ix_names ix), w').
Proof. exact @rels_union. Qed.
Print Assumptions C31_relationships_union.

(** Adding the same labels again changes nothing but the order. *)
Theorem C31_add_twice : forall (rt : PyRt) (p : path) (items : list pystr) (ix : index) (w : world),
  rt_ok rt -> Forall str_ok items -> index_file p ix w ->
  exists l w1 l2 w2,
    run (add_items_to_node_labels_index p items) w = (Ok true, w1) /\ run (load_node_labels_index p) w1 = (Ok l, w1) /\
    run (add_items_to_node_labels_index p items) w1 = (Ok true, w2) /\ run (load_node_labels_index p) w2 = (Ok l2, w2) /\
    (forall x, In x l2 <-> In x l) /\ List.length l2 = List.length l.
Proof. exact @add_labels_twice. Qed.
Print Assumptions C31_add_twice.

Theorem C31_add_names_twice : forall (rt : PyRt) (p : path) (items : list pystr) (ix : index) (w : world),
  rt_ok rt -> Forall str_ok items -> index_file p ix w ->
  exists l w1 l2 w2,
    run (add_items_to_relationship_names_index p items) w = (Ok true, w1) /\ run (load_relationship_names_index p) w1 = (Ok l, w1) /\
    run (add_items_to_relationship_names_index p items) w1 = (Ok true, w2) /\ run (load_relationship_names_index p) w2 = (Ok l2, w2) /\
    (forall x, In x l2 <-> In x l) /\ List.length l2 = List.length l.
Proof. exact @add_names_twice. Qed.
Print Assumptions C31_add_names_twice.
Theorem C31_add_relationships_twice : forall (rt : PyRt) (p : path) (items : list (pystr * list Z)) (ix : index) (w : world),
  rt_ok rt -> items <> [] -> Forall (fun kv => str_ok (fst kv) /\ NoDup (snd kv)) items -> index_file p ix w ->
  exists d w1 d2 w2,
    run (add_items_to_node_relationships_index p items) w = (Ok true, w1) /\ run (load_node_relationships_index p) w1 = (Ok d, w1) /\
    run (add_items_to_node_relationships_index p items) w1 = (Ok true, w2) /\ run (load_node_relationships_index p) w2 = (Ok d2, w2) /\
    forall k, (forall z, In z (numbers_of k d2) <-> In z (numbers_of k d)) /\ List.length (numbers_of k d2) = List.length (numbers_of k d).
Proof. exact @add_rels_twice. Qed.
Print Assumptions C31_add_relationships_twice.

(** With no item the whole document is appended to the file, which cannot be read afterwards. *)
Theorem C31_no_relationships_refuted : forall (rt : PyRt) (p : path) (ix : index) (w : world), index_file p ix w ->
  exists w', run (add_items_to_node_relationships_index p []) w = (Ok true, w') /\ unchanged_but [p] w w' /\
    run (read_json p) w' = (Err JSONDecodeError, w').
Proof. exact @rels_nothing. Qed.
Print Assumptions C31_no_relationships_refuted.

Definition C31_index : index := {| ix_rels := [(py "0", [2%Z])]; ix_labels := [py "A"; py "B"]; ix_names := [py "R"] |}.
Example C31_hypotheses : let rt := ascii_rt in
  rt_ok rt /\ index_file [py "db"] C31_index (C26_world (dump_text Compact (index_val C31_index))) /\
  Forall (fun kv => str_ok (fst kv) /\ NoDup (snd kv)) [(py "0", [3; 4]%Z)].
Proof.
  intros rt. split; [exact ascii_ok'|]. split.
  - split; [|exists Compact; reflexivity].
    constructor; cbn; repeat constructor; cbn; intros H; repeat (destruct H as [H|H]; [discriminate|]); destruct H.
  - repeat constructor; cbn; intros H; repeat (destruct H as [H|H]; [discriminate|]); destruct H.
Qed.

(** adding never makes the text of the file shorter, whatever the order in which a set is written *)
Theorem C31_text_never_shorter : forall (rt : PyRt), rt_ok rt -> forall (p : path) (ix : index) (st : style) (w : world),
  index_ok ix -> file_is p (dump_text st (index_val ix)) w ->
  let longer (m : io bool) := exists t w', run m w = (Ok true, w') /\ file_is p t w' /\ List.length (dump_text st (index_val ix)) <= List.length t in
  (forall l, Forall str_ok l -> longer (add_items_to_node_labels_index p l)) /\
  (forall l, Forall str_ok l -> longer (add_items_to_relationship_names_index p l)) /\
  (forall l, Forall (fun kv => str_ok (fst kv) /\ NoDup (snd kv)) l -> longer (add_items_to_node_relationships_index p l)).
Proof. exact @index_text_grows. Qed.
Print Assumptions C31_text_never_shorter.

(** ** C32 *)
Theorem C32_wipe_needs_confirmation : forall (rt : PyRt) (p : path) (w : world),
  run (wipe_database p false) w = (Ok None, w) /\ run (wipe_node_labels_index p false) w = (Ok None, w) /\
  run (wipe_relationship_names_index p false) w = (Ok None, w) /\
  run (wipe_node_relationships_index p false) w = (Ok None, w).
Proof. exact @wipe_needs_sure. Qed.
Print Assumptions C32_wipe_needs_confirmation.

Theorem C32_wipe_database : forall (rt : PyRt) (p : path) (t : pystr) (w : world), file_is p t w ->
  exists w', run (wipe_database p true) w = (Ok (Some true), w') /\ unchanged_but [p] w w' /\
    file_is p (py "{}") w' /\ run (load_database p) w' = (Ok (VDict []), w').
Proof. exact @wipe_db_sure. Qed.
Print Assumptions C32_wipe_database.

(** [what]: 0 the relationship numbers, 1 the labels, 2 the names *)
Theorem C32_wipe_one_index : forall (rt : PyRt) (p : path) (ix : index) (w : world) (what : nat),
  index_file p ix w -> what < 3 ->
  let ix' := {| ix_rels := if Nat.eqb what 0 then [] else ix_rels ix;
                ix_labels := if Nat.eqb what 1 then [] else ix_labels ix;
                ix_names := if Nat.eqb what 2 then [] else ix_names ix |} in
  exists w', run (match what with 0 => wipe_node_relationships_index p true | 1 => wipe_node_labels_index p true
                  | _ => wipe_relationship_names_index p true end) w = (Ok (Some true), w') /\ unchanged_but [p] w w' /\
    index_file p ix' w' /\
    run (load_node_relationships_index p) w' = (Ok (ix_rels ix'), w') /\
    run (load_node_labels_index p) w' = (Ok (ix_labels ix'), w') /\
    run (load_relationship_names_index p) w' = (Ok (ix_names ix'), w').
Proof. exact @wipe_index_sure. Qed.
Print Assumptions C32_wipe_one_index.

Example C32_example : let rt := ascii_rt in
  fst (run (let! _ := wipe_node_labels_index [py "db"] true in
            let! a := load_node_labels_index [py "db"] in
            let! b := load_relationship_names_index [py "db"] in Ret (a, b))
        (C26_world (dump_text Compact (index_val C31_index)))) = Ok ([], [py "R"]).
Proof. vm_compute. reflexivity. Qed.
