(** * ObjectsRefuse: proofs about dictionaries that are no nodes (C73) *)
From Verif Require Import PyBase Data Objects SpecObjects ObjectsFacts.

Lemma bind_err {A B} (r : res A) (f : A -> res B) (P : exn -> Prop) : (forall e, r = Err e -> P e) -> (forall a e, f a = Err e -> P e) ->
  forall e, bind r f = Err e -> P e.
Proof. intros H K e. destruct r as [a|e']; cbn; [apply K|intros [= ->]; apply H; reflexivity]. Qed.
Lemma read_meta_err v e : read_meta v = Err e -> e = ValidationError.
Proof.
  revert e. unfold read_meta, required, optional, nullable.
  apply bind_err; [destruct v; cbn; congruence|intros d].
  apply bind_err; [intros e; destruct (d_get (py "wn") d) as [[]|]; cbn; congruence|intros x].
  apply bind_err; [intros e; destruct (d_get (py "created_at") d) as [[]|]; cbn; congruence|intros y].
  apply bind_err; [intros e; destruct (d_get (py "updated_at") d) as [[]|]; cbn; congruence|congruence].
Qed.
Lemma soft_ok {A} (r : res A) : (forall e, r = Err e -> e = ValidationError) -> exists o, soft r = Ok o.
Proof. intros H. destruct r as [a|e]; cbn; [eexists; reflexivity|]. rewrite (H e eq_refl). eexists; reflexivity. Qed.
Lemma soft_meta d k : exists o, soft (required d k read_meta) = Ok o.
Proof. apply soft_ok. intros e. unfold required. destruct (d_get k d); [apply read_meta_err|congruence]. Qed.
Lemma soft_str d k : exists o, soft (required d k a_str) = Ok o.
Proof. apply soft_ok. intros e. unfold required. destruct (d_get k d) as [[]|]; cbn; congruence. Qed.
Lemma soft_opt_str d k : exists o, soft (optional d k (nullable a_str)) = Ok o.
Proof. apply soft_ok. intros e. unfold optional, nullable. destruct (d_get k d) as [[]|]; cbn; congruence. Qed.
Lemma soft_opt_dict d k : exists o, soft (optional d k (nullable a_dict)) = Ok o.
Proof. apply soft_ok. intros e. unfold optional, nullable. destruct (d_get k d) as [[]|]; cbn; congruence. Qed.

Lemma self_rel r z : d_get (py "wn_from_node") r = Some (VInt z) -> d_get (py "wn_to_node") r = Some (VInt z) -> read_rel (VDict r) = Err RelationshipToFromError.
Proof.
  intros F T. unfold read_rel. cbn [a_dict bind].
  destruct (soft_meta r (py "relationship_metadata")) as [m ->]. cbn [bind].
  destruct (soft_opt_str r (py "relationship_name")) as [n ->]. cbn [bind].
  destruct (soft_opt_dict r (py "properties")) as [p ->]. unfold required. rewrite F, T. cbn [an_int soft bind]. rewrite Z.eqb_refl. reflexivity.
Qed.
Lemma self_in_list l1 r l2 : Forall (fun x => exists o, read_rel x = Ok o) l1 -> read_rel r = Err RelationshipToFromError ->
  mapM (fun x => soft (read_rel x)) (l1 ++ r :: l2) = Err RelationshipToFromError.
Proof.
  intros F E. induction F as [|x l (o & H) F IH]; cbn [app mapM]; [rewrite E; reflexivity|]. rewrite H. cbn [soft bind]. rewrite IH. reflexivity.
Qed.
Lemma self_refused d l1 r l2 z : d_get (py "relations") d = Some (VList (l1 ++ VDict r :: l2)) -> Forall (fun x => exists o, read_rel x = Ok o) l1 ->
  d_get (py "wn_from_node") r = Some (VInt z) -> d_get (py "wn_to_node") r = Some (VInt z) -> read_node (VDict d) = Err RelationshipToFromError.
Proof.
  intros R F A B. unfold read_node. cbn [a_dict bind].
  destruct (soft_meta d (py "node_metadata")) as [m ->]. cbn [bind].
  destruct (soft_str d (py "node_label")) as [n ->]. cbn [bind].
  destruct (soft_opt_dict d (py "properties")) as [p ->]. cbn [bind].
  unfold optional. rewrite R. cbn [nullable a_list]. rewrite (self_in_list l1 (VDict r) l2 F (self_rel r z A B)). reflexivity.
Qed.

Lemma read_rel_proper v o : read_rel v = Ok o -> proper_rel o.
Proof.
  unfold read_rel. destruct (a_dict v) as [d|]; cbn [bind]; [|discriminate].
  destruct (soft_meta d (py "relationship_metadata")) as [m ->]. cbn [bind].
  destruct (soft_opt_str d (py "relationship_name")) as [n ->]. cbn [bind].
  destruct (soft (required d (py "wn_from_node") an_int)) as [[x|]|]; cbn [bind]; try discriminate;
    destruct (soft (required d (py "wn_to_node") an_int)) as [[y|]|]; cbn [bind]; try discriminate;
    destruct (soft_opt_dict d (py "properties")) as [p ->]; cbn [bind]; try discriminate.
  destruct (Z.eqb_spec x y) as [E|E]; [discriminate|]. destruct m, n, p; try discriminate. intros [= <-]. exact E.
Qed.
Lemma all_read l os rs : mapM (fun x => soft (read_rel x)) l = Ok os -> mapM (fun o => match o with Some a => Ok a | None => Err ValidationError end) os = Ok rs ->
  Forall proper_rel rs.
Proof.
  revert os rs. induction l as [|x l IH]; cbn [mapM]; intros os rs E F; [injection E as <-; injection F as <-; constructor|].
  destruct (read_rel x) as [o|e] eqn:R; cbn [soft bind] in E.
  - destruct (mapM (fun x => soft (read_rel x)) l) as [os'|] eqn:E'; cbn [bind] in E; [|discriminate]. injection E as <-. cbn [mapM bind] in F.
    destruct (mapM _ os') as [rs'|] eqn:F'; cbn [bind] in F; [|discriminate]. injection F as <-. constructor; [exact (read_rel_proper x o R)|exact (IH os' rs' eq_refl F')].
  - destruct e; try discriminate E. cbn [bind] in E.
    destruct (mapM (fun x => soft (read_rel x)) l) as [os'|] eqn:E'; cbn [bind] in E; [|discriminate]. injection E as <-. discriminate F.
Qed.
Lemma rels_proper d k o : soft (optional d k (nullable (a_list read_rel))) = Ok (Some o) ->
  Forall proper_rel match field_value o with Some l => l | None => [] end.
Proof.
  unfold optional, nullable. destruct (d_get k d) as [v|]; [|intros [= <-]; constructor].
  destruct v as [| | | | |l| |]; cbn [a_list bind soft]; try discriminate; try (intros [= <-]; constructor).
  destruct (mapM (fun x => soft (read_rel x)) l) as [os|[]] eqn:E; cbn [bind soft]; try discriminate.
  destruct (mapM _ os) as [rs|[]] eqn:F; cbn [bind soft]; try discriminate. intros [= <-]. cbn. exact (all_read l os rs E F).
Qed.
Lemma read_node_proper v o : read_node v = Ok o -> proper_node o.
Proof.
  unfold read_node. destruct (a_dict v) as [d|]; cbn [bind]; [|discriminate].
  destruct (soft_meta d (py "node_metadata")) as [m ->]. cbn [bind].
  destruct (soft_str d (py "node_label")) as [n ->]. cbn [bind].
  destruct (soft_opt_dict d (py "properties")) as [p ->]. cbn [bind].
  destruct (soft (optional d (py "relations") _)) as [[rs|]|] eqn:R; cbn [bind]; try discriminate; destruct m as [m|]; try discriminate.
  apply rels_proper in R. intros E.
  match type of E with context [Node ?a] => destruct (node_built a) as [[H1 H2]|[_ H2]]; rewrite H2 in E; cbn [bind] in E; [|discriminate E] end.
  destruct n, p; try discriminate E. injection E as <-. split; [exact H1|exact R].
Qed.
