(** * MakeFacts: the model of MAKE against SpecMake *)
From Verif Require Import PyBase BaseFacts Json JsonFacts RtLaws Props PropsFacts Checks Statements Data FS FSFacts Store
  SpecStore StoreFacts Make SpecMake.
From Coq Require Import ZifyBool ZifyN ZifyNat.

Section Pre.
  Context {rt : PyRt}.

  Definition pre_rel (l : drawn_link) : rel_pre := new_rel_pre (lk_num l) (lk_piece l) (lk_from l) (lk_to l).
  Definition pre_node (n : Z) (x : piece) (s : pystr) (ls : list drawn_link) : node_pre :=
    {| np_wn := n; np_label := s; np_handle := p_handle x; np_props := p_props x; np_rels := map pre_rel ls |}.

  Lemma new_node_pre_spec n x : new_node_pre n x = match p_label x with Some s => Ok (pre_node n x s []) | None => Err ValidationError end.
  Proof. unfold new_node_pre. destruct (p_label x); reflexivity. Qed.
  Lemma opt_node_spec x w : opt_node x w =
    if drawn x then match p_label x with Some s => Ok ((w + 1)%Z, Some (pre_node w x s [])) | None => Err ValidationError end
    else Ok (w, None).
  Proof.
    unfold opt_node. change (truthy (p_text x)) with (drawn x). destruct (drawn x); [|reflexivity].
    rewrite new_node_pre_spec. destruct (p_label x); reflexivity.
  Qed.

  Definition two_headsb (x : piece) : bool := contains (py "<") (text_of x) && contains (py ">") (text_of x).
  Lemma two_headsb_spec x : two_headsb x = true <-> two_heads x.
  Proof. unfold two_headsb, two_heads. rewrite andb_true_iff. rewrite (contains_ch 60), (contains_ch 62). tauto. Qed.

  Lemma link_eq x w a b : link x w a b =
    if drawn x then
      if two_headsb x then Err NonDirectedRelationshipError
      else match a, b with
           | Some na, Some nb =>
               let l := between_nodes w x (np_wn na) (np_wn nb) in
               if points_right x then Ok ((w + 1)%Z, Some (add_rel (pre_rel l) na), Some nb, truthy_list (p_label x))
               else Ok ((w + 1)%Z, Some na, Some (add_rel (pre_rel l) nb), truthy_list (p_label x))
           | _, _ => Err AttributeError
           end
    else Ok (w, a, b, []).
  Proof.
    unfold link, drawn, two_headsb, points_right, between_nodes, text_of.
    destruct (p_text x) as [[|c t]|] eqn:E; try reflexivity.
    unfold relationship_is_left_to_right. destruct (contains (py "<") (c :: t) && contains (py ">") (c :: t)); [reflexivity|].
    cbn [bind]. destruct a, b; try reflexivity. unfold points_right, text_of. rewrite E.
    destruct (N.eqb (last (c :: t) 0%N) 62); reflexivity.
  Qed.

  (** what the first half of MAKE gives for a pattern *)
  Record pre_ok (p : pattern) (w : Z) (m : make_pre) : Prop := {
    po_left : exists s, p_label (left_node p) = Some s /\ mp_left m = pre_node w (left_node p) s (owned p w w);
    po_middle : if drawn (middle_node p)
                then exists s, p_label (middle_node p) = Some s /\
                     mp_middle m = Some (pre_node (w + 1) (middle_node p) s (owned p w (w + 1)%Z))
                else mp_middle m = None;
    po_right : if drawn (right_node p)
               then exists s, p_label (right_node p) = Some s /\
                    mp_right m = Some (pre_node (num_right p w) (right_node p) s (owned p w (num_right p w)))
               else mp_right m = None;
    po_labels : forall s, In s (mp_labels m) <-> exists x, In x (map snd (drawn_nodes p w)) /\ p_label x = Some s;
    po_names : forall s, In s (mp_names m) <-> exists l, In l (links p w) /\ p_label (lk_piece l) = Some s /\ s <> [] }.

  Lemma truthy_list_In o s : In s (truthy_list o) <-> o = Some s /\ s <> [].
  Proof.
    destruct o as [[|c t]|]; cbn [truthy_list In]; split; intros H; try tauto.
    - destruct H as [H H']. congruence.
    - destruct H as [<-|[]]. split; [reflexivity|discriminate].
    - destruct H as [H _]. left. congruence.
    - destruct H as [H _]. discriminate.
  Qed.

  Lemma lk_piece_between n x a b : lk_piece (between_nodes n x a b) = x.
  Proof. unfold between_nodes. destruct (points_right x); reflexivity. Qed.
  Lemma lk_from_between n x a b : lk_from (between_nodes n x a b) = if points_right x then a else b.
  Proof. unfold between_nodes. destruct (points_right x); reflexivity. Qed.
  Lemma lk_num_between n x a b : lk_num (between_nodes n x a b) = n.
  Proof. unfold between_nodes. destruct (points_right x); reflexivity. Qed.

  Ltac decide_z :=
    repeat (rewrite Z.eqb_refl ||
            match goal with |- context [(?a =? ?b)%Z] => replace (a =? b)%Z with false by (symmetry; apply Z.eqb_neq; clear; lia) end).

  Ltac bad := right; split; [intros [W1 W2 W3 W4 W5]; repeat match goal with H : two_headsb _ = true |- _ => apply two_headsb_spec in H end;
                  repeat match goal with H : ?a = true -> _, H' : ?a = true |- _ => specialize (H H') end; intuition congruence
                |eexists; reflexivity].
  Ltac nodes_tac :=
    unfold add_rel, pre_node, owned, links;
    repeat match goal with H : drawn _ = _ |- _ => rewrite H end;
    unfold between_nodes, num_rel2, num_rel1, num_left, num_middle, num_right;
    repeat match goal with H : drawn _ = _ |- _ => rewrite H end;
    repeat match goal with H : points_right _ = _ |- _ => rewrite H end;
    cbn [one app filter lk_from np_wn np_label np_handle np_props np_rels]; rewrite ?Z.add_0_r;
    decide_z; cbn [map app pre_rel lk_num lk_piece lk_from lk_to];
    unfold pre_rel; cbn [lk_num lk_piece lk_from lk_to];
    rewrite ?Z.add_0_r; reflexivity.
  Ltac links_tac :=
    intros s; rewrite s_of_list_In, ?in_app_iff, ?truthy_list_In; unfold links;
    repeat match goal with H : drawn _ = _ |- _ => rewrite H end; cbn [app In];
    split;
      [ intros H; repeat (destruct H as [H|H]); try (destruct H; fail); destruct H as [H H'];
        first [eexists; split; [left; reflexivity|]; rewrite lk_piece_between; split; assumption
              |eexists; split; [right; left; reflexivity|]; rewrite lk_piece_between; split; assumption]
      | intros (l & H & E & N); repeat (destruct H as [<-|H]; [rewrite lk_piece_between in E; tauto|]); destruct H].
  Ltac labels_tac :=
    intros s; rewrite s_of_list_In; cbn [labels_of np_label pre_node app In]; unfold drawn_nodes;
    repeat match goal with H : drawn _ = _ |- _ => rewrite H end; cbn [app map snd In];
    split; [intros H; repeat (destruct H as [<-|H]; [eexists; split; [|eassumption]; tauto|]); destruct H
           |intros (x & H & E); repeat (destruct H as [<-|H]; [first [left; congruence|right; left; congruence|right; right; left; congruence]|]); destruct H].
  Ltac good :=
    left; split;
    [constructor; try congruence; intros; repeat split; auto; try congruence; rewrite <- two_headsb_spec; congruence|];
    eexists; split;
    [cbn [bind np_wn add_rel pre_node]; unfold size;
     repeat match goal with H : drawn _ = _ |- _ => rewrite H end; cbn [one];
     match goal with |- Ok (?a, _) = Ok (?b, _) => replace a with b by lia end; reflexivity|];
    constructor; cbn [mp_left mp_middle mp_right mp_labels mp_names];
    [ eexists; split; [eassumption|nodes_tac]
    | repeat match goal with H : drawn _ = _ |- _ => rewrite H end; (reflexivity || (eexists; split; [eassumption|nodes_tac]))
    | repeat match goal with H : drawn _ = _ |- _ => rewrite H end; (reflexivity || (eexists; split; [eassumption|nodes_tac]))
    | labels_tac
    | links_tac ].

  Lemma process_pattern_spec p w :
    (well_drawn p /\ exists m, process_pattern p w = Ok ((w + size p)%Z, m) /\ pre_ok p w m) \/
    (~ well_drawn p /\ exists e, process_pattern p w = Err e).
  Proof.
    unfold process_pattern. rewrite new_node_pre_spec.
    destruct (p_label (left_node p)) as [sl|] eqn:El; [|bad].
    cbn [bind]. rewrite opt_node_spec.
    destruct (drawn (middle_node p)) eqn:Dm;
      [destruct (p_label (middle_node p)) as [sm|] eqn:Em; [|bad]|];
    cbn [bind]; rewrite opt_node_spec;
    (destruct (drawn (right_node p)) eqn:Dr;
      [destruct (p_label (right_node p)) as [sr|] eqn:Er; [|bad]|]);
    cbn [bind]; rewrite link_eq;
    (destruct (drawn (left_middle_rel p)) eqn:D1;
      [destruct (two_headsb (left_middle_rel p)) eqn:T1; [bad|]; try bad; cbv zeta; destruct (points_right (left_middle_rel p)) eqn:P1|]);
    cbn [bind]; rewrite link_eq;
    (destruct (drawn (middle_right_rel p)) eqn:D2;
      [destruct (two_headsb (middle_right_rel p)) eqn:T2; [bad|]; try bad; cbv zeta; destruct (points_right (middle_right_rel p)) eqn:P2|]);
    cbn [bind].
    all: good.
  Qed.
End Pre.

Section Values.
  Context {rt : PyRt}.

  Lemma props_value_eq x v : props_value x v <-> exists d, get_property_dict (p_props x) = Ok d /\ v = opt_dict_val d.
  Proof.
    unfold props_value. destruct (get_property_dict (p_props x)) as [[d|]|e]; cbn [opt_dict_val].
    - split; [intros ->; eauto|intros (d' & E & ->); inv E; reflexivity].
    - split; [intros ->; eexists; split; [reflexivity|reflexivity]|intros (d' & E & ->); inv E; reflexivity].
    - split; [tauto|intros (d & E & _); discriminate].
  Qed.

  Lemma make_rel_spec l : lk_from l <> lk_to l ->
    (exists r, make_relationship (pre_rel l) = Ok r /\ link_value l (rel_val r) /\ r_wn r = lk_num l /\ r_from r = lk_from l) \/
    ((exists e, make_relationship (pre_rel l) = Err e) /\ forall v, ~ link_value l v).
  Proof.
    intros N. unfold make_relationship, pre_rel, new_rel_pre. cbn [rp_props rp_wn rp_name rp_from rp_to].
    destruct (get_property_dict (p_props (lk_piece l))) as [d|e] eqn:E; cbn [bind].
    - left. unfold new_relationship. apply Z.eqb_neq in N. rewrite N. eexists. split; [reflexivity|]. cbn [r_wn r_from].
      repeat split. exists (opt_dict_val d). split; [apply props_value_eq; eauto|]. reflexivity.
    - right. split; [eauto|]. intros v (pv & H & _). apply props_value_eq in H as (d & H & _). congruence.
  Qed.

  Lemma make_rels_spec ls : Forall (fun l => lk_from l <> lk_to l) ls ->
    (exists rs, mapM make_relationship (map pre_rel ls) = Ok rs /\ Forall2 link_value ls (map rel_val rs) /\
       map r_wn rs = map lk_num ls /\ map r_from rs = map lk_from ls) \/
    ((exists e, mapM make_relationship (map pre_rel ls) = Err e) /\ forall vs, ~ Forall2 link_value ls vs).
  Proof.
    induction 1 as [|l ls H HF IH]; cbn [map mapM].
    - left. exists []. repeat split. constructor.
    - destruct (make_rel_spec l H) as [(r & E & V & W & F)|((e & E) & V)]; rewrite E; cbn [bind].
      + destruct IH as [(rs & E' & V' & W' & F')|((e & E') & V')]; rewrite E'; cbn [bind].
        * left. exists (r :: rs). cbn [map]. repeat split; [constructor; auto|congruence|congruence].
        * right. split; [eauto|]. intros vs HV. inv HV. eapply V'; eauto.
      + right. split; [eauto|]. intros vs HV. inv HV. eapply V; eauto.
  Qed.

  (** only when the middle node is drawn are the three numbers different *)
  Lemma links_from_to p w : well_drawn p -> Forall (fun l => lk_from l <> lk_to l) (links p w).
  Proof.
    intros [_ _ _ _ W2]. unfold links, between_nodes, num_left, num_middle, num_right.
    apply Forall_app; split.
    - destruct (drawn (left_middle_rel p)); repeat constructor. destruct (points_right (left_middle_rel p)); cbn [lk_from lk_to]; lia.
    - destruct (drawn (middle_right_rel p)) eqn:D; repeat constructor. destruct (W2 eq_refl) as (-> & _ & _).
      destruct (points_right (middle_right_rel p)); cbn [lk_from lk_to one]; lia.
  Qed.
  Lemma owned_In p w n l : In l (owned p w n) <-> In l (links p w) /\ lk_from l = n.
  Proof. unfold owned. rewrite filter_In, Z.eqb_eq. tauto. Qed.

  Definition rel_nums (nd : node) : list Z := match n_rels nd with Some rs => map r_wn rs | None => [] end.
  (** what [make_node] gives for a node *)
  Record made_node (p : pattern) (w n : Z) (x : piece) (nd : node) : Prop := {
    mn_wn : n_wn nd = n;
    mn_val : node_value p w n x (node_val nd);
    mn_rels : rel_nums nd = map lk_num (owned p w n);
    mn_some : n_rels nd <> Some [] }.

  Lemma make_node_spec p w n x s : well_drawn p -> p_label x = Some s ->
    (exists nd, make_node (pre_node n x s (owned p w n)) = Ok nd /\ made_node p w n x nd) \/
    ((exists e, make_node (pre_node n x s (owned p w n)) = Err e) /\ forall v, ~ node_value p w n x v).
  Proof.
    intros W L. unfold make_node, pre_node. cbn [np_props np_rels np_wn np_label].
    destruct (get_property_dict (p_props x)) as [d|e] eqn:E; cbn [bind].
    2:{ right. split; [eauto|]. intros v (pv & rels & H & _). apply props_value_eq in H as (d & H & _). congruence. }
    assert (HF : Forall (fun l => lk_from l <> lk_to l) (owned p w n)).
    { apply Forall_forall. intros l Hl. apply owned_In in Hl as [Hl _]. pose proof (links_from_to p w W) as H. rewrite Forall_forall in H. auto. }
    assert (HN : map lk_from (owned p w n) = map (fun _ => n) (owned p w n)).
    { apply map_ext_in. intros l Hl. apply owned_In in Hl. tauto. }
    destruct (make_rels_spec (owned p w n) HF) as [(rs & E' & V' & W' & F')|((e & E') & V')].
    - left. destruct (owned p w n) as [|l ls] eqn:EO.
      + cbn [map bind]. unfold new_node. cbn [bind]. eexists. split; [reflexivity|]. constructor; cbn [n_wn n_rels rel_nums map].
        * reflexivity.
        * exists (opt_dict_val d), []. rewrite EO. repeat split; [apply props_value_eq; eauto|constructor|].
          unfold node_val. cbn [n_wn n_label n_props n_rels]. unfold name_value. rewrite L. reflexivity.
        * unfold rel_nums. rewrite EO. reflexivity.
        * discriminate.
      + cbn [map]. cbn [map] in E'. rewrite E'. cbn [bind]. unfold new_node.
        replace (existsb (fun r => negb (n =? r_from r)%Z && negb (n =? r_to r)%Z) rs) with false.
        2:{ symmetry. rewrite HN in F'. clear - F'. generalize (l :: ls) F'. clear F'.
            induction rs as [|r rs IH]; intros [|m ms] F; cbn [existsb map] in *; try discriminate; [reflexivity|].
            inv F. rewrite Z.eqb_refl. cbn [negb andb orb]. apply (IH ms). assumption. }
        eexists. split; [reflexivity|]. constructor; cbn [n_wn n_rels].
        * reflexivity.
        * exists (opt_dict_val d), (map rel_val rs). rewrite EO. repeat split; [apply props_value_eq; eauto|assumption|].
          unfold node_val. cbn [n_wn n_label n_props n_rels]. unfold name_value. rewrite L.
          destruct rs; [discriminate|]. reflexivity.
        * unfold rel_nums. cbn [n_rels]. rewrite EO. assumption.
        * destruct rs; [discriminate|]. discriminate.
    - right. split.
      + destruct (owned p w n) as [|l ls] eqn:EO; [discriminate|]. cbn [map]. cbn [map] in E'. rewrite E'. cbn [bind]. eauto.
      + intros v (pv & rels & _ & H & _). eapply V'; eauto.
  Qed.

  (** [make_nodes]: the stored nodes, and the left one again when there is a right one *)
  Definition again (p : pattern) (ns : list node) : list node :=
    if drawn (right_node p) then firstn 1 ns else [].
  Lemma make_nodes_spec p w m : well_drawn p -> pre_ok p w m ->
    (exists ns, make_nodes m = Ok (ns ++ again p ns) /\
       Forall2 (fun nx nd => made_node p w (fst nx) (snd nx) nd) (stored_nodes p w) ns) \/
    ((exists e, make_nodes m = Err e) /\ forall items, ~ entries p w items).
  Proof.
    intros W [(sl & Ll & Pl) Pm Pr _ _]. unfold make_nodes. rewrite Pl.
    unfold entries, stored_nodes, num_left, num_middle.
    destruct (make_node_spec p w w (left_node p) sl W Ll) as [(nl & El & Vl)|((e & El) & Vl)]; rewrite El; cbn [bind].
    2:{ right. split; [eauto|]. intros items H. inv H. match goal with H : _ /\ node_value _ _ _ _ _ |- _ => apply (Vl _ (proj2 H)) end. }
    assert (R : (let? r := match mp_right m with
              | Some _ => let? x := Ok nl in Ok [x]
              | None => Ok []
              end in Ok r) = Ok (again p [nl])).
    { unfold again. destruct (drawn (right_node p)); [destruct Pr as (s & _ & ->)|rewrite Pr]; reflexivity. }
    destruct (drawn (middle_node p)).
    - destruct Pm as (sm & Lm & Pm). rewrite Pm.
      destruct (make_node_spec p w (w + 1)%Z (middle_node p) sm W Lm) as [(nm & Em & Vm)|((e & Em) & Vm)]; rewrite Em; cbn [bind].
      + left. exists [nl; nm]. split; [|apply Forall2_cons; [exact Vl|apply Forall2_cons; [exact Vm|constructor]]].
        apply bind_ok in R as (r & R & Q). cbn [bind] in R. rewrite R. inv Q. unfold again. destruct (drawn (right_node p)); reflexivity.
      + right. split; [eauto|]. intros items H. inv H. match goal with H : Forall2 _ [_] _ |- _ => inv H end.
        match goal with H : _ /\ node_value _ _ _ (snd (_, middle_node p)) _ |- _ => apply (Vm _ (proj2 H)) end.
    - rewrite Pm. cbn [bind]. left. exists [nl]. split; [|apply Forall2_cons; [exact Vl|constructor]].
      apply bind_ok in R as (r & R & Q). cbn [bind] in R. rewrite R. inv Q. unfold again. destruct (drawn (right_node p)); reflexivity.
  Qed.

  (** ** The two dictionaries built from the nodes *)
  Definition upd {A} (f : node -> option A) (d : list (pystr * A)) (nd : node) : list (pystr * A) :=
    match f nd with Some v => d_set (str_of_Z (n_wn nd)) v d | None => d end.
  Definition row {A} (f : node -> option A) (nd : node) : list (pystr * A) :=
    match f nd with Some v => [(str_of_Z (n_wn nd), v)] | None => [] end.
  Lemma d_set_same {A} k (v : A) d : d_get k d = Some v -> d_set k v d = d.
  Proof.
    induction d as [|[q x] d IH]; cbn [d_get d_set]; [discriminate|]. str_case k q.
    - intros E'. inv E'. reflexivity.
    - intros H. rewrite IH; auto.
  Qed.
  Lemma upd_all {A} (f : node -> option A) ns d :
    NoDup (map n_wn ns) -> (forall nd, In nd ns -> ~ In (str_of_Z (n_wn nd)) (keys d)) ->
    fold_left (upd f) ns d = d ++ flat_map (row f) ns.
  Proof.
    revert d; induction ns as [|nd ns IH]; intros d N H; cbn [fold_left flat_map]; [rewrite app_nil_r; reflexivity|].
    cbn [map] in N. inv N. unfold upd at 2. unfold row at 1. destruct (f nd) as [v|].
    - rewrite d_set_new; [|apply H; left; auto]. rewrite IH; [rewrite <- app_assoc; reflexivity|assumption|].
      intros x Hx. rewrite keys_app, in_app_iff. intros [K|[K|[]]].
      + eapply H; [right; eassumption|assumption].
      + cbn [fst] in K. apply str_of_Z_inj in K. match goal with H : ~ In (n_wn nd) _ |- _ => apply H end. rewrite K. apply (in_map n_wn). assumption.
    - rewrite IH; [reflexivity|assumption|]. intros x Hx. apply H. right. assumption.
  Qed.
  Lemma upd_again {A} (f : node -> option A) p ns d :
    NoDup (map n_wn ns) -> (forall nd, In nd ns -> ~ In (str_of_Z (n_wn nd)) (keys d)) ->
    fold_left (upd f) (ns ++ again p ns) d = d ++ flat_map (row f) ns.
  Proof.
    intros N H. rewrite fold_left_app, (upd_all f ns d N H). unfold again.
    destruct (drawn (right_node p)); [|reflexivity]. destruct ns as [|nd ns]; [reflexivity|].
    cbn [firstn fold_left flat_map]. unfold upd, row. destruct (f nd) as [v|] eqn:E; [|reflexivity].
    apply d_set_same. rewrite d_get_app. destruct (d_get (str_of_Z (n_wn nd)) d) eqn:G.
    - exfalso. eapply H; [left; reflexivity|]. apply d_get_Some_keys. eauto.
    - cbn [app d_get]. rewrite str_eqb_refl. reflexivity.
  Qed.

  Lemma stored_nums p w : Forall (fun n => (w <= n < w + size p)%Z) (map fst (stored_nodes p w)) /\ NoDup (map fst (stored_nodes p w)).
  Proof.
    unfold stored_nodes, num_left, num_middle, size.
    assert (forall b, 0 <= one b)%Z by (intros []; cbn; lia).
    pose proof (H (drawn (right_node p))). pose proof (H (drawn (left_middle_rel p))). pose proof (H (drawn (middle_right_rel p))).
    destruct (drawn (middle_node p)); cbn [map fst app one]; split; repeat constructor; try lia; cbn [In].
    - intros [E|[]]. lia.
    - tauto.
    - tauto.
  Qed.
  Lemma size_pos p : (1 <= size p)%Z.
  Proof.
    unfold size. assert (forall b, 0 <= one b)%Z by (intros []; cbn; lia).
    pose proof (H (drawn (middle_node p))). pose proof (H (drawn (right_node p))). pose proof (H (drawn (left_middle_rel p))). pose proof (H (drawn (middle_right_rel p))). lia.
  Qed.
  Lemma size_all_pos ps : (0 <= size_all ps)%Z.
  Proof. induction ps as [|p ps IH]; cbn [size_all]; [lia|]. pose proof (size_pos p). lia. Qed.

  Definition f_node (nd : node) : option pyval := Some (node_val nd).
  Definition f_rels (nd : node) : option (list Z) :=
    match n_rels nd with Some (r :: rs) => Some (z_of_list (map r_wn (r :: rs))) | _ => None end.
  Lemma nodes_dict_upd ns : nodes_dict ns = fold_left (upd f_node) ns [].
  Proof. reflexivity. Qed.
  Lemma rel_index_upd ns : rel_index_items ns = fold_left (upd f_rels) ns [].
  Proof.
    unfold rel_index_items. generalize (@nil (pystr * list Z)). induction ns as [|nd ns IH]; intros d; cbn [fold_left]; [reflexivity|].
    rewrite <- IH. f_equal. unfold upd, f_rels. destruct (n_rels nd) as [[|r rs]|]; reflexivity.
  Qed.

  Fixpoint all_made (ps : list pattern) (w : Z) (nss : list (list node)) : Prop :=
    match ps, nss with
    | [], [] => True
    | p :: ps', ns :: nss' =>
        Forall2 (fun nx nd => made_node p w (fst nx) (snd nx) nd) (stored_nodes p w) ns /\ all_made ps' (w + size p)%Z nss'
    | _, _ => False
    end.
  Fixpoint again_all (ps : list pattern) (nss : list (list node)) : list (list node) :=
    match ps, nss with
    | p :: ps', ns :: nss' => (ns ++ again p ns) :: again_all ps' nss'
    | _, _ => []
    end.
  Fixpoint all_pre (ps : list pattern) (w : Z) (ms : list make_pre) : Prop :=
    match ps, ms with
    | [], [] => True
    | p :: ps', m :: ms' => pre_ok p w m /\ all_pre ps' (w + size p)%Z ms'
    | _, _ => False
    end.

  Lemma process_patterns_spec ps w :
    (Forall well_drawn ps /\ exists ms, process_patterns ps w = Ok ((w + size_all ps)%Z, ms) /\ all_pre ps w ms) \/
    (~ Forall well_drawn ps /\ exists e, process_patterns ps w = Err e).
  Proof.
    revert w; induction ps as [|p ps IH]; intros w; cbn [process_patterns size_all all_pre].
    - left. split; [constructor|]. exists []. rewrite Z.add_0_r. auto.
    - destruct (process_pattern_spec p w) as [(W & m & E & P)|(W & e & E)]; rewrite E; cbn [bind].
      + destruct (IH (w + size p)%Z) as [(W' & ms & E' & P')|(W' & e & E')]; rewrite E'; cbn [bind].
        * left. split; [constructor; auto|]. exists (m :: ms). rewrite Z.add_assoc. auto.
        * right. split; [intros HF; inv HF; auto|eauto].
      + right. split; [intros HF; inv HF; auto|eauto].
  Qed.
  Lemma make_all_spec ps w ms : Forall well_drawn ps -> all_pre ps w ms ->
    (exists nss, mapM make_nodes ms = Ok (again_all ps nss) /\ all_made ps w nss) \/
    ((exists e, mapM make_nodes ms = Err e) /\ forall items, ~ entries_all ps w items).
  Proof.
    intros HW; revert w ms; induction HW as [|p ps W HW IH]; intros w [|m ms]; cbn [all_pre]; intros H; try tauto.
    - left. exists []. split; [reflexivity|exact I].
    - destruct H as [P H]. cbn [mapM]. destruct (make_nodes_spec p w m W P) as [(ns & E & V)|((e & E) & V)]; rewrite E; cbn [bind].
      + destruct (IH _ _ H) as [(nss & E' & V')|((e & E') & V')]; rewrite E'; cbn [bind].
        * left. exists (ns :: nss). split; [reflexivity|]. cbn [all_made]. auto.
        * right. split; [eauto|]. intros items (a & b & _ & _ & Hb). eapply V'; eauto.
      + right. split; [eauto|]. intros items (a & b & _ & Ha & _). eapply V; eauto.
  Qed.

  Lemma made_nums p w ns : Forall2 (fun nx nd => made_node p w (fst nx) (snd nx) nd) (stored_nodes p w) ns ->
    map n_wn ns = map fst (stored_nodes p w).
  Proof. generalize (stored_nodes p w). intros l H. induction H as [|nx nd l ns [E _ _ _] _ IH]; cbn [map]; congruence. Qed.

  Lemma upd_patterns {A} (f : node -> option A) ps w nss d : all_made ps w nss ->
    (forall k, In k (keys d) -> exists z, k = str_of_Z z /\ (z < w)%Z) ->
    fold_left (upd f) (concat (again_all ps nss)) d = d ++ flat_map (row f) (concat nss).
  Proof.
    revert w nss d; induction ps as [|p ps IH]; intros w [|ns nss] d; cbn [all_made again_all concat]; try tauto.
    - intros _ _. cbn [fold_left flat_map]. rewrite app_nil_r. reflexivity.
    - intros [H1 H2] Hk. destruct (stored_nums p w) as [R N]. rewrite <- (made_nums p w ns H1) in R, N.
      rewrite fold_left_app, upd_again; [|assumption|].
      + rewrite (IH (w + size p)%Z nss _ H2).
        * rewrite flat_map_app, app_assoc. reflexivity.
        * intros k. rewrite keys_app, in_app_iff. pose proof (size_pos p). intros [K|K].
          -- destruct (Hk k K) as (z & -> & Hz). exists z. split; [reflexivity|lia].
          -- apply in_map_iff in K as ((k' & v) & <- & K). apply in_flat_map in K as (nd & K & K'). unfold row in K'.
             destruct (f nd); [|destruct K']. destruct K' as [K'|[]]. inv K'. exists (n_wn nd). split; [reflexivity|].
             rewrite Forall_forall in R. apply R. apply in_map. assumption.
      + intros nd Hnd K. destruct (Hk _ K) as (z & E & Hz). apply str_of_Z_inj in E. subst z.
        rewrite Forall_forall in R. specialize (R _ (in_map n_wn _ _ Hnd)). lia.
  Qed.

  Lemma rows_entries ps w nss : all_made ps w nss -> entries_all ps w (flat_map (row f_node) (concat nss)).
  Proof.
    revert w nss; induction ps as [|p ps IH]; intros w [|ns nss]; cbn [all_made entries_all concat]; try tauto.
    intros [H1 H2]. rewrite flat_map_app. do 2 eexists. split; [reflexivity|]. split; [|apply IH; assumption].
    unfold entries. clear - H1. induction H1 as [|nx nd l ns [E V _ _] _ IH]; cbn [flat_map row f_node app]; constructor; auto.
    cbn [fst snd]. rewrite E. auto.
  Qed.
  Lemma rows_owns ps w nss : all_made ps w nss -> forall k z,
    (exists s, In (k, s) (flat_map (row f_rels) (concat nss)) /\ In z s) <-> owns ps w k z.
  Proof.
    revert w nss; induction ps as [|p ps IH]; intros w [|ns nss]; cbn [all_made owns concat]; try tauto.
    - intros _ k z. cbn [flat_map In]. split; [intros (s & [] & _)|tauto].
    - intros [H1 H2] k z. rewrite flat_map_app. rewrite <- (IH _ _ H2 k z). clear IH H2.
      assert (G : (exists s, In (k, s) (flat_map (row f_rels) ns) /\ In z s) <->
                  (exists n x l, In (n, x) (stored_nodes p w) /\ k = str_of_Z n /\ In l (owned p w n) /\ z = lk_num l)).
      { revert H1. generalize (stored_nodes p w). intros l H1. induction H1 as [|[n x] nd l ns M _ IH].
        - cbn [flat_map In]. split; [intros (s & [] & _)|intros (n & x & l & [] & _)].
        - cbn [flat_map]. destruct M as [E _ R S]. cbn [fst snd] in *.
          transitivity ((k = str_of_Z n /\ In z (map lk_num (owned p w n))) \/ (exists s, In (k, s) (flat_map (row f_rels) ns) /\ In z s)).
          + rewrite <- R, <- E. unfold row at 1, f_rels, rel_nums.
            destruct (n_rels nd) as [[|r rs]|]; [congruence| |].
            * split.
              -- intros (s & K & Z). apply in_app_iff in K as [[K|[]]|K]; [|right; eauto]. inv K. left. split; [reflexivity|].
                 exact (proj1 (z_of_list_In _ _) Z).
              -- intros [(-> & Z)|(s & K & Z)]; [|exists s; split; [apply in_app_iff; auto|assumption]].
                 eexists. split; [left; reflexivity|]. apply z_of_list_In. exact Z.
            * cbn [app In]. tauto.
          + rewrite IH. split.
            * intros [(-> & Z)|(n' & x' & l' & A & B)].
              -- apply in_map_iff in Z as (lk & <- & Z). exists n, x, lk. split; [left; reflexivity|auto].
              -- exists n', x', l'. split; [right; assumption|assumption].
            * intros (n' & x' & l' & [A|A] & B & C & D).
              -- inv A. left. split; [reflexivity|]. apply in_map. assumption.
              -- right. exists n', x', l'. auto. }
      rewrite <- G. split.
      + intros (s & K & Z). apply in_app_iff in K as [K|K]; [left|right]; eauto.
      + intros [(s & K & Z)|(s & K & Z)]; exists s; (split; [apply in_app_iff; auto|assumption]).
  Qed.
  Lemma rows_ok nss : items_ok (flat_map (row f_rels) nss).
  Proof.
    apply Forall_forall. intros [k s] H. apply in_flat_map in H as (nd & _ & H). unfold row, f_rels in H.
    destruct (n_rels nd) as [[|r rs]|]; [destruct H| |destruct H]. destruct H as [H|[]]. inv H. cbn [fst snd].
    split; [apply str_of_Z_ok|apply z_of_list_NoDup].
  Qed.
  Lemma rows_nil ps w nss : all_made ps w nss -> (flat_map (row f_rels) (concat nss) = [] <-> forall k z, ~ owns ps w k z).
  Proof.
    intros H. split.
    - intros E k z O. apply (rows_owns _ _ _ H) in O as (s & K & _). rewrite E in K. destruct K.
    - intros O. destruct (flat_map (row f_rels) (concat nss)) as [|[k s] r] eqn:E; [reflexivity|]. exfalso.
      assert (K : In (k, s) (flat_map (row f_rels) (concat nss))) by (rewrite E; left; reflexivity).
      pose proof K as K'. apply in_flat_map in K' as (nd & _ & K'). unfold row, f_rels in K'.
      destruct (n_rels nd) as [[|r0 rs]|]; [destruct K'| |destruct K']. destruct K' as [K'|[]]. inv K'.
      apply (O (str_of_Z (n_wn nd)) (r_wn r0)). apply (rows_owns _ _ _ H). eexists. split; [exact K|]. apply z_of_list_In. left. reflexivity.
  Qed.

  (** labels and names *)
  Lemma fold_union_In {A} (f : A -> list pystr) (l : list A) acc x :
    In x (fold_left (fun acc m => s_union acc (f m)) l acc) <-> In x acc \/ exists m, In m l /\ In x (f m).
  Proof.
    revert acc; induction l as [|m l IH]; intros acc; cbn [fold_left].
    - split; [auto|intros [H|(m & [] & _)]; assumption].
    - rewrite IH, s_union_In. split.
      + intros [[H|H]|(m' & H & H')]; [auto|right; exists m; split; [left; reflexivity|assumption]|right; exists m'; split; [right; assumption|assumption]].
      + intros [H|(m' & [<-|H] & H')]; [auto|auto|right; eauto].
  Qed.
  Lemma drawn_nodes_snd p w w' : map snd (drawn_nodes p w) = map snd (drawn_nodes p w').
  Proof. unfold drawn_nodes. destruct (drawn (middle_node p)), (drawn (right_node p)); reflexivity. Qed.
  Lemma links_piece p w w' : map lk_piece (links p w) = map lk_piece (links p w').
  Proof.
    unfold links. rewrite !map_app. destruct (drawn (left_middle_rel p)), (drawn (middle_right_rel p)); cbn [map app]; rewrite ?lk_piece_between; reflexivity.
  Qed.
  Lemma labels_spec ps w ms : all_pre ps w ms -> forall s, In s (labels_to_add ms) <-> label_drawn ps s.
  Proof.
    intros H s. unfold labels_to_add. rewrite fold_union_In. cbn [In]. unfold label_drawn.
    transitivity (exists m, In m ms /\ In s (mp_labels m)); [tauto|].
    revert w ms H; induction ps as [|p ps IH]; intros w [|m ms]; cbn [all_pre]; try tauto.
    - intros _. split; [intros (m & [] & _)|intros (p & x & [] & _)].
    - intros [[_ _ _ L _] H]. specialize (IH _ _ H). destruct IH as [I1 I2]. split.
      + intros (m' & [<-|K] & K').
        * apply L in K' as (x & X & E). exists p, x. split; [left; reflexivity|]. rewrite (drawn_nodes_snd p 0 w). auto.
        * destruct (I1 (ex_intro _ m' (conj K K'))) as (p' & x & A & B). exists p', x. split; [right; assumption|assumption].
      + intros (p' & x & [<-|K] & X & E).
        * exists m. split; [left; reflexivity|]. apply L. exists x. rewrite (drawn_nodes_snd p w 0). auto.
        * destruct I2 as (m' & A & B); [eauto 6|]. exists m'. split; [right; assumption|assumption].
  Qed.
  Lemma names_spec ps w ms : all_pre ps w ms -> forall s, In s (names_to_add ms) <-> name_drawn ps s.
  Proof.
    intros H s. unfold names_to_add. rewrite fold_union_In. cbn [In]. unfold name_drawn.
    transitivity (exists m, In m ms /\ In s (mp_names m)); [tauto|].
    assert (LP : forall p w w' s, (exists l, In l (links p w) /\ p_label (lk_piece l) = Some s /\ s <> []) ->
                                  (exists l, In l (links p w') /\ p_label (lk_piece l) = Some s /\ s <> [])).
    { intros p w1 w2 t (l & Hl & E & N). apply (in_map lk_piece) in Hl. rewrite (links_piece p w1 w2) in Hl.
      apply in_map_iff in Hl as (l' & El & Hl). exists l'. rewrite El. auto. }
    revert w ms H; induction ps as [|p ps IH]; intros w [|m ms]; cbn [all_pre]; try tauto.
    - intros _. split; [intros (m & [] & _)|intros (p & x & [] & _)].
    - intros [[_ _ _ _ L] H]. specialize (IH _ _ H). destruct IH as [I1 I2]. split.
      + intros (m' & [<-|K] & K').
        * apply L in K'. apply (LP p w 0%Z) in K' as (l & A & B). exists p, l. split; [left; reflexivity|]. auto.
        * destruct (I1 (ex_intro _ m' (conj K K'))) as (p' & x & A & B). exists p', x. split; [right; assumption|assumption].
      + intros (p' & l & [<-|K] & X & E).
        * exists m. split; [left; reflexivity|]. apply L. apply (LP p 0%Z w). exists l. auto.
        * destruct I2 as (m' & A & B); [exists p', l; auto|]. exists m'. split; [right; assumption|assumption].
  Qed.

  (** the pure half of MAKE *)
  Record ready (ps : list pattern) (w : Z) (ms : list make_pre) (ns : list node) (items : list (pystr * pyval)) : Prop := {
    rd_well : Forall well_drawn ps;
    rd_entries : entries_all ps w items;
    rd_nodes : nodes_dict ns = items;
    rd_rels_ok : items_ok (rel_index_items ns);
    rd_rels : forall k z, (exists s, In (k, s) (rel_index_items ns) /\ In z s) <-> owns ps w k z;
    rd_none : rel_index_items ns = [] <-> forall k z, ~ owns ps w k z;
    rd_labels : forall s, In s (labels_to_add ms) <-> label_drawn ps s;
    rd_names : forall s, In s (names_to_add ms) <-> name_drawn ps s }.
  Theorem prepare_spec ps w :
    (exists ms nss items, process_patterns ps w = Ok ((w + size_all ps)%Z, ms) /\ mapM make_nodes ms = Ok nss /\
       ready ps w ms (concat nss) items) \/
    ((~ exists items, Forall well_drawn ps /\ entries_all ps w items) /\
     ((exists e, process_patterns ps w = Err e) \/
      exists ms e, process_patterns ps w = Ok ((w + size_all ps)%Z, ms) /\ mapM make_nodes ms = Err e)).
  Proof.
    destruct (process_patterns_spec ps w) as [(W & ms & E & P)|(W & e & E)].
    - destruct (make_all_spec ps w ms W P) as [(nss & E' & V)|((e & E') & V)].
      + left. exists ms, (again_all ps nss), (flat_map (row f_node) (concat nss)). split; [assumption|]. split; [assumption|].
        assert (R : rel_index_items (concat (again_all ps nss)) = flat_map (row f_rels) (concat nss)).
        { rewrite rel_index_upd. rewrite (upd_patterns f_rels ps w nss [] V); [reflexivity|intros k []]. }
        constructor; try rewrite R.
        * assumption.
        * apply rows_entries. assumption.
        * rewrite nodes_dict_upd. rewrite (upd_patterns f_node ps w nss [] V); [reflexivity|intros k []].
        * apply rows_ok.
        * apply rows_owns. assumption.
        * apply rows_nil. assumption.
        * eapply labels_spec; eauto.
        * eapply names_spec; eauto.
      + right. split; [|eauto 6]. intros (items & _ & H). eapply V; eauto.
    - right. split; [|eauto]. intros (items & H & _). auto.
  Qed.

  (** ** Entries are determined and can be written *)
  Lemma props_value_fun x v v' : props_value x v -> props_value x v' -> v = v'.
  Proof. rewrite !props_value_eq. intros (d & E & ->) (d' & E' & ->). congruence. Qed.
  Lemma Forall2_fun {A B} (R : A -> B -> Prop) l a b : (forall x u v, In x l -> R x u -> R x v -> u = v) -> Forall2 R l a -> Forall2 R l b -> a = b.
  Proof.
    intros F H; revert b; induction H as [|x u l a Hx H IH]; intros b H'; inv H'; [reflexivity|]. f_equal.
    - eapply F; eauto. left. reflexivity.
    - apply IH; [|assumption]. intros. eapply F; eauto. right. assumption.
  Qed.
  Lemma link_value_fun l v v' : link_value l v -> link_value l v' -> v = v'.
  Proof. intros (pv & H & ->) (pv' & H' & ->). rewrite (props_value_fun _ _ _ H H'). reflexivity. Qed.
  Lemma node_value_fun p w n x v v' : node_value p w n x v -> node_value p w n x v' -> v = v'.
  Proof.
    intros (pv & rs & H & R & ->) (pv' & rs' & H' & R' & ->). rewrite (props_value_fun _ _ _ H H').
    rewrite (Forall2_fun _ _ _ _ (fun x u v _ => link_value_fun x u v) R R'). reflexivity.
  Qed.
  Lemma entries_fun p w a b : entries p w a -> entries p w b -> a = b.
  Proof.
    apply Forall2_fun. intros [n x] [k v] [k' v'] _ [E V] [E' V']. cbn [fst snd] in *. subst. f_equal.
    eapply node_value_fun; eauto.
  Qed.
  Lemma entries_all_fun ps w a b : entries_all ps w a -> entries_all ps w b -> a = b.
  Proof.
    revert w a b; induction ps as [|p ps IH]; intros w a b; cbn [entries_all]; [congruence|].
    intros (a1 & a2 & -> & A1 & A2) (b1 & b2 & -> & B1 & B2). f_equal; [eapply entries_fun; eauto|eapply IH; eauto].
  Qed.

  Lemma entries_keys p w items : entries p w items -> keys items = map str_of_Z (map fst (stored_nodes p w)).
  Proof.
    unfold entries. generalize (stored_nodes p w). intros l H. induction H as [|nx kv l items [E _] _ IH]; cbn [keys map]; [reflexivity|].
    rewrite E. f_equal. exact IH.
  Qed.
  Lemma entries_all_keys ps w items : entries_all ps w items ->
    NoDup (keys items) /\ forall k, In k (keys items) -> exists z, k = str_of_Z z /\ (w <= z < w + size_all ps)%Z.
  Proof.
    revert w items; induction ps as [|p ps IH]; intros w items; cbn [entries_all size_all].
    - intros ->. split; [constructor|intros k []].
    - intros (a & b & -> & A & B). destruct (IH _ _ B) as [NB KB]. rewrite keys_app.
      destruct (stored_nums p w) as [R N]. pose proof (entries_keys p w a A) as KA. pose proof (size_all_pos ps). pose proof (size_pos p).
      assert (HA : forall k, In k (keys a) -> exists z, k = str_of_Z z /\ (w <= z < w + size p)%Z).
      { intros k K. rewrite KA in K. apply in_map_iff in K as (z & <- & K). rewrite Forall_forall in R. eauto. }
      split.
      + apply NoDup_app_intro.
        * rewrite KA. apply FinFun.Injective_map_NoDup; [|assumption]. intros x y. apply str_of_Z_inj.
        * assumption.
        * intros k K K'. destruct (HA k K) as (z & -> & Hz). destruct (KB _ K') as (z' & E & Hz'). apply str_of_Z_inj in E. lia.
      + intros k K. apply in_app_iff in K as [K|K].
        * destruct (HA k K) as (z & -> & Hz). exists z. split; [reflexivity|lia].
        * destruct (KB k K) as (z & -> & Hz). exists z. split; [reflexivity|lia].
  Qed.

  Context (D : rt_data rt).
  Lemma py_str_ok s : forallb is_ascii s = true -> str_ok s.
  Proof. apply ascii_str_ok. Qed.
  Lemma metadata_ok n : val_ok (metadata n).
  Proof.
    unfold metadata. apply vo_dict.
    - repeat apply Forall_cons; try apply Forall_nil; cbn [fst snd]; (split; [apply py_str_ok; reflexivity|]).
      + constructor.
      + apply vo_float. apply (rt_time _ D).
      + constructor.
    - cbn. repeat constructor; cbn [In]; intros H; repeat (destruct H as [H|H]; [discriminate|]); destruct H.
  Qed.
  Lemma props_value_ok x v : props_value x v -> val_ok v.
  Proof.
    rewrite props_value_eq. intros ([d|] & E & ->); cbn [opt_dict_val]; [|constructor]. eapply get_property_dict_ok; eauto.
  Qed.
  Lemma name_value_ok x : (forall s, p_label x = Some s -> str_ok s) -> val_ok (name_value x).
  Proof. intros H. unfold name_value. destruct (p_label x); constructor. auto. Qed.
  Lemma link_value_ok l v : (forall s, p_label (lk_piece l) = Some s -> str_ok s) -> link_value l v -> val_ok v.
  Proof.
    intros N (pv & H & ->). apply vo_dict.
    - repeat apply Forall_cons; try apply Forall_nil; cbn [fst snd]; (split; [apply py_str_ok; reflexivity|]).
      + apply metadata_ok.
      + apply name_value_ok. assumption.
      + constructor.
      + constructor.
      + eapply props_value_ok; eauto.
    - cbn. repeat constructor; cbn [In]; intros K; repeat (destruct K as [K|K]; [discriminate|]); destruct K.
  Qed.
  Lemma links_pieces p w l : In l (links p w) -> In (lk_piece l) [left_node p; left_middle_rel p; middle_node p; middle_right_rel p; right_node p].
  Proof.
    unfold links. rewrite in_app_iff. intros [H|H].
    - destruct (drawn (left_middle_rel p)); [|destruct H]. destruct H as [<-|[]]. rewrite lk_piece_between. cbn [In]. tauto.
    - destruct (drawn (middle_right_rel p)); [|destruct H]. destruct H as [<-|[]]. rewrite lk_piece_between. cbn [In]. tauto.
  Qed.
  Lemma node_value_ok p w n x v : names_ok p -> In x [left_node p; middle_node p; right_node p] -> node_value p w n x v -> val_ok v.
  Proof.
    intros N X (pv & rs & H & R & ->). apply vo_dict.
    - repeat apply Forall_cons; try apply Forall_nil; cbn [fst snd]; (split; [apply py_str_ok; reflexivity|]).
      + apply metadata_ok.
      + apply name_value_ok. intros s. apply N. cbn [In] in *. tauto.
      + eapply props_value_ok; eauto.
      + assert (HR : Forall val_ok rs).
        { assert (HL : forall l, In l (owned p w n) -> forall s, p_label (lk_piece l) = Some s -> str_ok s).
          { intros l Hl s. apply N. apply owned_In in Hl as [Hl _]. eapply links_pieces; eauto. }
          revert HL. induction R as [|l v ls rs HV R IH]; intros HL; constructor.
          - eapply link_value_ok; [|eassumption]. apply HL. left. reflexivity.
          - apply IH. intros. eapply HL; eauto. right. assumption. }
        destruct rs; constructor. assumption.
    - cbn. repeat constructor; cbn [In]; intros K; repeat (destruct K as [K|K]; [discriminate|]); destruct K.
  Qed.
  Lemma props_value_ser x v : (forall d, get_property_dict (p_props x) = Ok (Some d) -> dict_ser d = true) -> props_value x v -> ser v = true.
  Proof.
    intros H. rewrite props_value_eq. intros ([d|] & E & ->); cbn [opt_dict_val]; [|reflexivity]. cbn [ser]. apply (H d E).
  Qed.
  Lemma name_value_ser x : ser (name_value x) = true.
  Proof. unfold name_value. destruct (p_label x); reflexivity. Qed.
  Lemma entries_all_ser ps w items : Forall writable ps -> entries_all ps w items -> dict_ser items = true.
  Proof.
    intros N; revert w items; induction N as [|p ps Np N IH]; intros w items; cbn [entries_all].
    - intros ->. reflexivity.
    - intros (a & b & -> & A & B). unfold dict_ser. rewrite forallb_app. fold (dict_ser a) (dict_ser b). rewrite (IH _ _ B), andb_true_r.
      assert (HX : forall nx, In nx (stored_nodes p w) -> In (snd nx) [left_node p; left_middle_rel p; middle_node p; middle_right_rel p; right_node p]).
      { intros nx. unfold stored_nodes. intros [<-|H]; [cbn; tauto|]. destruct (drawn (middle_node p)); [|destruct H]. destruct H as [<-|[]]. cbn; tauto. }
      revert HX A. unfold entries. generalize (stored_nodes p w). intros l HX H. induction H as [|nx kv l items [E V] _ IH']; [reflexivity|].
      unfold dict_ser. cbn [forallb]. fold (dict_ser items). rewrite IH' by (intros; apply HX; right; assumption). rewrite andb_true_r.
      destruct V as (pv & rs & P & R & ->). cbn [ser forallb snd].
      rewrite name_value_ser, (props_value_ser (snd nx) pv); [|intros d; apply (Np (snd nx) d); apply HX; left; reflexivity|exact P].
      cbn [andb]. rewrite andb_true_r.
      assert (HR : forallb ser rs = true).
      { assert (HL : forall k, In k (owned p w (fst nx)) -> In (lk_piece k) [left_node p; left_middle_rel p; middle_node p; middle_right_rel p; right_node p])
          by (intros k Hk; apply owned_In in Hk as [Hk _]; eapply links_pieces; eauto).
        revert HL. induction R as [|k v ls rs HV R IHR]; intros HL; [reflexivity|]. cbn [forallb].
        rewrite IHR by (intros; apply HL; right; assumption). rewrite andb_true_r.
        destruct HV as (pv' & P' & ->). cbn [ser forallb snd].
        rewrite name_value_ser, (props_value_ser (lk_piece k) pv'); [reflexivity| |exact P'].
        intros d; apply (Np (lk_piece k) d). apply HL. left. reflexivity. }
      destruct rs; [reflexivity|exact HR].
  Qed.
  Lemma entries_all_vals ps w items : Forall names_ok ps -> entries_all ps w items ->
    Forall (fun kv => str_ok (fst kv) /\ val_ok (snd kv)) items.
  Proof.
    intros N; revert w items; induction N as [|p ps Np N IH]; intros w items; cbn [entries_all].
    - intros ->. constructor.
    - intros (a & b & -> & A & B). apply Forall_app. split; [|eapply IH; eauto].
      assert (HX : forall nx, In nx (stored_nodes p w) -> In (snd nx) [left_node p; middle_node p; right_node p]).
      { intros nx. unfold stored_nodes. intros [<-|H]; [cbn; tauto|]. destruct (drawn (middle_node p)); [|destruct H]. destruct H as [<-|[]]. cbn; tauto. }
      revert HX A. unfold entries. generalize (stored_nodes p w). intros l HX H. induction H as [|nx kv l items [E V] _ IH']; constructor.
      + split; [rewrite E; apply str_of_Z_ok|]. eapply node_value_ok; [eassumption| |eassumption]. apply HX. left. reflexivity.
      + apply IH'. intros. apply HX. right. assumption.
  Qed.
  Lemma entries_all_ok ps w items : Forall names_ok ps -> entries_all ps w items -> dict_ok items.
  Proof. intros N H. apply vo_dict; [eapply entries_all_vals; eauto|]. apply (entries_all_keys ps w items H). Qed.
End Values.
