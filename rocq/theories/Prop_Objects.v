(** * Prop_Objects: Node and Relationship objects (C73)

    [proper_rel], [own_rels], [proper_node], [exported_node], [is_node], [printed_node] and [printed_rel] are in SpecObjects. *)
From Verif Require Import PyBase Data Json SpecJson RtLaws Statements FS Store SpecStore Make SpecMake Find Query SpecShell SpecDurable SpecWhole SpecSchema
  SchemaFacts Objects SpecObjects ObjectsFacts ObjectsPrint ObjectsRefuse AsciiRt AsciiFacts Prop_Make Prop_Query Prop_Durable Prop_Schema.

(** When the objects can be made. *)
Theorem C73_relationship_built : forall a, (proper_rel a /\ Relationship a = Ok a) \/ (~ proper_rel a /\ Relationship a = Err RelationshipToFromError).
Proof. exact relationship_built. Qed.
Print Assumptions C73_relationship_built.
Theorem C73_node_built : forall a, (own_rels a /\ Node a = Ok a) \/ (~ own_rels a /\ Node a = Err NodeHasUnrelatedRelationship).
Proof. exact node_built. Qed.
Print Assumptions C73_node_built.

(** What is exported, for all four ways to export. *)
Theorem C73_export : forall (rt : PyRt) unset none o,
  exists v, export_node unset none o = [(str_of_Z (mo_wn (no_meta o)), v)] /\ exported_node unset none o v.
Proof. exact @node_export. Qed.
Print Assumptions C73_export.
Theorem C73_made_export : forall (rt : PyRt) n, export_node false false (node_made n) = [(str_of_Z (n_wn n), node_val n)].
Proof. exact @made_export. Qed.
Print Assumptions C73_made_export.

(** Every export can be read back in the same process, and a full one in every other process. *)
Theorem C73_read_back : forall (rt : PyRt) unset none o, proper_node o -> exists o', read_node (node_dict unset none o) = Ok o' /\ same_node o' o.
Proof. exact @read_back. Qed.
Print Assumptions C73_read_back.
Theorem C73_read_back_elsewhere : forall (rt1 rt2 : PyRt) none o, proper_node o ->
  exists o', read_node (@node_dict rt1 false none o) = Ok o' /\ @node_dict rt2 false false o' = @node_dict rt1 false false o.
Proof. exact read_back_elsewhere. Qed.
Print Assumptions C73_read_back_elsewhere.
(** A node without its metadata is refused with a KeyError. *)
Theorem C73_no_metadata_is_a_KeyError : forall d, d_get (py "node_metadata") d = None -> d_get (py "relations") d = None ->
  read_node (VDict d) = Err KeyError.
Proof. exact no_metadata. Qed.
Print Assumptions C73_no_metadata_is_a_KeyError.
(** Whatever is read from a dictionary is a proper node: no dictionary gives one with a relationship to itself or of other nodes. *)
Theorem C73_read_is_proper : forall v o, read_node v = Ok o -> proper_node o.
Proof. exact read_node_proper. Qed.
Print Assumptions C73_read_is_proper.
(** A relationship from a node to itself is named as the reason, whatever else is wrong, if the relationships before it can be read. *)
Theorem C73_self_relationship_named : forall d l1 r l2 z,
  d_get (py "relations") d = Some (VList (l1 ++ VDict r :: l2)) -> Forall (fun x => exists o, read_rel x = Ok o) l1 ->
  d_get (py "wn_from_node") r = Some (VInt z) -> d_get (py "wn_to_node") r = Some (VInt z) ->
  read_node (VDict d) = Err RelationshipToFromError.
Proof. exact self_refused. Qed.
Print Assumptions C73_self_relationship_named.
Example C73_self_relationship_example :
  read_node (VDict [(py "relations", VList [VDict [(py "wn_from_node", VInt 3); (py "wn_to_node", VInt 3)]])]) = Err RelationshipToFromError.
Proof. apply C73_self_relationship_named with (l1 := []) (r := [(py "wn_from_node", VInt 3); (py "wn_to_node", VInt 3)]) (l2 := []) (z := 3%Z); [reflexivity|constructor|reflexivity|reflexivity]. Qed.

(** What MAKE stores for the patterns [ps] are nodes; the numbers they export for the index are other ones than those of their relationships,
    which are what MAKE writes to the index (C22). *)
Theorem C73_made_nodes : forall (rt : PyRt) ps w items, acceptable ps w items ->
  Forall (fun kv => exists o, is_node kv o /\
    forall k s x, export_relationship_indexes o = Some [(k, s)] -> In x s -> ~ exists r, In r (rels_of o) /\ mo_wn (ro_meta r) = x) items.
Proof. exact @made_nodes. Qed.
Print Assumptions C73_made_nodes.
(** Whatever was sent to a graph: every entry in its database is a node. *)
Theorem C73_database_of_nodes : forall (rt : PyRt), rt_data rt -> rt_lists -> forall g h w w' d v,
  history g h w w' -> distinct_files g -> db_file (database_fp g) d w -> Forall (fun kv => exists o, is_node kv o) d ->
  run (read_json (database_fp g)) w' = (Ok v, w') -> exists d', v = VDict d' /\ Forall (fun kv => exists o, is_node kv o) d'.
Proof. exact @database_nodes. Qed.
Print Assumptions C73_database_of_nodes.

(** The names and the ends of a node's relationships. *)
Theorem C73_names : forall o, node_relationship_names o = match rels_of o with [] => None | l => Some (map (fun r => field_value (ro_name r)) l) end.
Proof. exact names_of. Qed.
Print Assumptions C73_names.
Theorem C73_ends : forall o, (rels_of o = [] /\ export_relationship_indexes o = None) \/
  (rels_of o <> [] /\ exists s, export_relationship_indexes o = Some [(str_of_Z (mo_wn (no_meta o)), s)] /\ NoDup s /\
    forall x, In x s <-> exists r, In r (rels_of o) /\ ro_to r = x).
Proof. exact targets_of. Qed.
Print Assumptions C73_ends.

(** The printed form of an object tells its label or name and its numbers, and can be read in one way only. *)
Theorem C73_node_printed : forall o, printed_node (node_repr o) (no_label o) (mo_wn (no_meta o)) /\
  forall l z, printed_node (node_repr o) l z -> l = no_label o /\ z = mo_wn (no_meta o).
Proof. exact printed_node_says. Qed.
Print Assumptions C73_node_printed.
Theorem C73_relationship_printed : forall r, printed_rel (rel_repr r) (name_or_none r) (ro_from r) (ro_to r) /\
  forall n x y, printed_rel (rel_repr r) n x y -> n = name_or_none r /\ x = ro_from r /\ y = ro_to r.
Proof. exact printed_rel_says. Qed.
Print Assumptions C73_relationship_printed.
(** That different relationships between the same nodes look different is false: one without a name looks like one named None. *)
Theorem C73_relationship_without_name_refuted :
  ~ (forall r r', rel_repr r = rel_repr r' -> field_value (ro_name r) = field_value (ro_name r')).
Proof.
  intros H. specialize (H {| ro_meta := made_meta 9; ro_name := Some None; ro_from := 8; ro_to := 7; ro_props := None |}
                          {| ro_meta := made_meta 9; ro_name := Some (Some (py "None")); ro_from := 8; ro_to := 7; ro_props := None |} eq_refl).
  discriminate.
Qed.
Print Assumptions C73_relationship_without_name_refuted.

(** ** A partial export forgets when the node was created: read in another process it is another node *)
Definition ob_later : PyRt := {|
  u_word := @u_word ascii_rt; u_space := @u_space ascii_rt; u_digit := @u_digit ascii_rt;
  u_upper := @u_upper ascii_rt; u_lowertitle := @u_lowertitle ascii_rt; u_lower := @u_lower ascii_rt;
  u_upcase := @u_upcase ascii_rt; u_ci := @u_ci ascii_rt;
  f_repr := @f_repr ascii_rt; int_ext := @int_ext ascii_rt; int_fits := @int_fits ascii_rt; lit_ext := @lit_ext ascii_rt;
  set_order := @set_order ascii_rt; zset_order := @zset_order ascii_rt; set_mixed := @set_mixed ascii_rt; import_time := py "1999999999.5" |}.
(** Node 7 with a relationship 9 from 8, with and without things given *)
Definition ob_rel : rel_obj := {| ro_meta := made_meta 9; ro_name := None; ro_from := 8; ro_to := 7; ro_props := Some None |}.
Definition ob_node : node_obj :=
  {| no_meta := {| mo_wn := 7; mo_created := None; mo_updated := Some None |}; no_label := py "Ant";
     no_props := Some (Some [(py "age", VNone)]); no_rels := Some (Some [ob_rel]) |}.
Lemma ob_proper : proper_node ob_node.
Proof. split; [intros r [<-|[]]; right; reflexivity|]. constructor; [discriminate|constructor]. Qed.
Theorem C73_partial_export_forgets_the_time_refuted :
  ~ (forall (rt1 rt2 : PyRt) none o o', proper_node o -> read_node (@node_dict rt1 true none o) = Ok o' ->
     @node_dict rt2 false false o' = @node_dict rt1 false false o).
Proof.
  intros H. destruct (C73_read_back ascii_rt true false ob_node ob_proper) as (o' & R & _).
  specialize (H ascii_rt ob_later false ob_node o' ob_proper R). vm_compute in R. injection R as <-. vm_compute in H. discriminate.
Qed.
Print Assumptions C73_partial_export_forgets_the_time_refuted.

(** ** Examples *)
Example C73_example_exports :
  @export_node ascii_rt true true ob_node =
    [(py "7", VDict [(py "node_metadata", VDict [(py "wn", VInt 7)]); (py "node_label", VStr (py "Ant"));
                     (py "properties", VDict [(py "age", VNone)]);
                     (py "relations", VList [VDict [(py "relationship_metadata", VDict [(py "wn", VInt 9)]);
                                                    (py "wn_from_node", VInt 8); (py "wn_to_node", VInt 7)]])])] /\
  Node ob_node = Ok ob_node /\ node_relationship_names ob_node = Some [None] /\ export_relationship_indexes ob_node = Some [(py "7", [7%Z])] /\
  node_repr ob_node = py "|Node| Ant: 7" /\ rel_repr ob_rel = py "|Relationship| None: FROM 8 TO 7".
Proof. vm_compute. repeat split. Qed.
Example C73_example_refused :
  Node {| no_meta := made_meta 3; no_label := py "Ant"; no_props := None; no_rels := Some (Some [ob_rel]) |} = Err NodeHasUnrelatedRelationship /\
  Relationship {| ro_meta := made_meta 9; ro_name := None; ro_from := 8; ro_to := 8; ro_props := None |} = Err RelationshipToFromError /\
  read_node (VDict [(py "node_label", VStr (py "Ant"))]) = Err KeyError.
Proof. vm_compute. repeat split. Qed.
(** the hypotheses of the theorem on databases are met *)
Example C73_hypotheses : rt_data ascii_rt /\ @rt_lists ascii_rt /\
  @history ascii_rt ex_g [(du_q, Answered); (du_q, Cut); (du_q, Cut)] ex_w du_3 /\ distinct_files ex_g /\ @db_file ascii_rt (database_fp ex_g) [] ex_w /\
  exists v, run (@read_json ascii_rt (database_fp ex_g)) du_3 = (Ok v, du_3) /\ v <> VDict [].
Proof. split; [exact ascii_data|]. split; [exact ascii_lists|]. exact C69_hypotheses. Qed.
(** MAKE's node 0 has relationship 2 to node 1: it exports 1, and 2 is in the index *)
Definition ob_w : world := snd (run (@query ascii_rt (py "MAKE (:Ant)-[:EATS]->(:Bee);" ++ nl ++ py "FIND (:Ant);") ex_g) ex_w).
Definition ob_stored : res node_obj :=
  match fst (run (@read_json ascii_rt (database_fp ex_g)) ob_w) with Ok (VDict ((_, v) :: _)) => read_node v | _ => Err KeyError end.
Example C73_example_index : exists o, ob_stored = Ok o /\ export_relationship_indexes o = Some [(py "0", [1%Z])] /\
  fst (run (@load_node_relationships_index ascii_rt (indexes_fp ex_g)) ob_w) = Ok [(py "0", [2%Z])].
Proof. eexists. split; [vm_compute; reflexivity|]. vm_compute. split; reflexivity. Qed.
