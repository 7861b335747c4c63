(** * ObjectsFacts: proofs about Node and Relationship objects *)
From Verif Require Import PyBase BaseFacts Data Props Statements FS Store SpecStore Make Json SpecJson SpecMake RtLaws Query SpecShell SpecDurable SpecWhole SpecSchema SchemaFacts
  Objects SpecObjects.
From Coq Require Import Lia.

Theorem relationship_built a : (proper_rel a /\ Relationship a = Ok a) \/ (~ proper_rel a /\ Relationship a = Err RelationshipToFromError).
Proof. unfold proper_rel, Relationship. destruct (Z.eqb_spec (ro_from a) (ro_to a)); [right|left]; auto. Qed.
Theorem node_built a : (own_rels a /\ Node a = Ok a) \/ (~ own_rels a /\ Node a = Err NodeHasUnrelatedRelationship).
Proof.
  unfold own_rels, rels_of, Node. destruct (field_value (no_rels a)) as [l|]; [|left; split; [intros r []|reflexivity]].
  set (f := fun r => negb (Z.eqb (mo_wn (no_meta a)) (ro_from r)) && negb (Z.eqb (mo_wn (no_meta a)) (ro_to r))).
  assert (Hf : forall r, f r = false <-> ro_from r = mo_wn (no_meta a) \/ ro_to r = mo_wn (no_meta a)).
  { intros r. unfold f. destruct (Z.eqb_spec (mo_wn (no_meta a)) (ro_from r)), (Z.eqb_spec (mo_wn (no_meta a)) (ro_to r)); cbn [negb andb]; split; auto; try discriminate; intros [|]; congruence. }
  destruct (existsb f l) eqn:E; [right|left]; (split; [|reflexivity]).
  - intros H. apply existsb_exists in E as (r & I & E). apply H, Hf in I. congruence.
  - intros r I. apply Hf. destruct (f r) eqn:X; auto. assert (existsb f l = true) by (apply existsb_exists; eauto). congruence.
Qed.

Section ObjectsFacts.
  Context {rt : PyRt}.

  Lemma opt_field {A} (f : A -> pyval) (un nn : bool) (o : option (option A)) (v : pyval) :
    (forall a, is_none (f a) = false) -> v = match field_value o with Some a => f a | None => VNone end ->
    (if (un && negb (given o)) || (nn && is_none v) then None else Some v) = shown un nn f o.
  Proof. intros H ->. destruct o as [[a|]|], un, nn; cbn [given field_value shown is_none negb andb orb]; rewrite ?H; reflexivity. Qed.

  Lemma meta_exported un nn m : exported_meta un nn m (meta_dict un nn m).
  Proof.
    unfold exported_meta, meta_dict, fields. eexists. split; [reflexivity|].
    destruct m as [wn [c|] [[u|]|]], un, nn; cbn [mo_wn mo_created mo_updated given field_value opt_float_val is_none negb andb orb flat_map app];
      (split; [split; [cbn [map fst]; repeat constructor; cbn [In]; intuition discriminate|intros k; cbn [map fst In]; tauto]|]; repeat split).
  Qed.
  Lemma rel_exported un nn r : exported_rel un nn r (rel_dict un nn r).
  Proof.
    unfold exported_rel, rel_dict. set (M := meta_dict un nn (ro_meta r)). assert (HM : is_none M = false) by reflexivity. assert (EM : exported_meta un nn (ro_meta r) M) by apply meta_exported. clearbody M. unfold fields. eexists. exists M. split; [reflexivity|].
    destruct r as [m [[c|]|] fr to [[u|]|]], un, nn; cbn [map flat_map]; rewrite ?HM; cbn [ro_meta ro_name ro_from ro_to ro_props given field_value opt_str_val opt_dict_val is_none negb andb orb flat_map app];
      (split; [split; [cbn [map fst]; repeat constructor; cbn [In]; intuition discriminate|intros k; cbn [map fst In]; tauto]|]; split; [reflexivity|]; split; [exact EM|]; repeat split).
  Qed.
  Lemma node_exported un nn o : exported_node un nn o (node_dict un nn o).
  Proof.
    unfold exported_node, node_dict. set (M := meta_dict un nn (no_meta o)). assert (HM : is_none M = false) by reflexivity. assert (EM : exported_meta un nn (no_meta o) M) by apply meta_exported. clearbody M. unfold fields. eexists. exists M, (map (rel_dict un nn) (rels_of o)). split; [reflexivity|].
    assert (F : forall l, Forall2 (exported_rel un nn) l (map (rel_dict un nn) l)) by (induction l; constructor; auto using rel_exported).
    specialize (F (rels_of o)). revert F. unfold rels_of.
    destruct o as [m lb [[u|]|] [[l|]|]], un, nn; cbn [flat_map]; rewrite ?HM; cbn [no_meta no_label no_props no_rels given field_value opt_dict_val is_none negb andb orb flat_map app]; intros F;
      (split; [split; [cbn [map fst]; repeat constructor; cbn [In]; intuition discriminate|intros k; cbn [map fst In]; tauto]|]; split; [reflexivity|]; split; [exact EM|]; split; [reflexivity|]; split; [reflexivity|]; split; [exact F|reflexivity]).
  Qed.
  Theorem node_export un nn o : exists v, export_node un nn o = [(str_of_Z (mo_wn (no_meta o)), v)] /\ exported_node un nn o v.
  Proof. exists (node_dict un nn o). split; [reflexivity|apply node_exported]. Qed.

  (** ** reading an export back *)
  Definition back {A} (un nn : bool) (o : option (option A)) : option (option A) :=
    match o with
    | Some (Some a) => Some (Some a)
    | Some None => if nn then None else Some None
    | None => if un || nn then None else Some None
    end.
  Definition meta_back (un nn : bool) (m : meta_obj) : meta_obj :=
    {| mo_wn := mo_wn m; mo_created := match mo_created m with Some t => Some t | None => if un then None else Some import_time end;
       mo_updated := back un nn (mo_updated m) |}.
  Definition rel_back (un nn : bool) (r : rel_obj) : rel_obj :=
    {| ro_meta := meta_back un nn (ro_meta r); ro_name := back un nn (ro_name r); ro_from := ro_from r; ro_to := ro_to r;
       ro_props := back un nn (ro_props r) |}.
  Definition node_back (un nn : bool) (o : node_obj) : node_obj :=
    {| no_meta := meta_back un nn (no_meta o); no_label := no_label o; no_props := back un nn (no_props o);
       no_rels := match back un nn (no_rels o) with Some (Some l) => Some (Some (map (rel_back un nn) l)) | x => x end |}.

  Lemma read_meta_back un nn m : read_meta (meta_dict un nn m) = Ok (meta_back un nn m).
  Proof. destruct m as [wn [c|] [[u|]|]], un, nn; reflexivity. Qed.
  Lemma is_none_meta un nn m : is_none (meta_dict un nn m) = false.
  Proof. reflexivity. Qed.

  Lemma get_required {A} d k v (f : pyval -> res A) : d_get k d = Some v -> required d k f = f v.
  Proof. intros H. unfold required. rewrite H. reflexivity. Qed.
  Lemma get_shown {A B} un nn (o : option (option A)) (g : A -> pyval) (h : A -> B) (f : pyval -> res B) d k :
    (forall a, o = Some (Some a) -> f (g a) = Ok (h a) /\ g a <> VNone) -> d_get k d = shown un nn g o ->
    optional d k (nullable f) = Ok (match back un nn o with Some (Some a) => Some (Some (h a)) | Some None => Some None | None => None end).
  Proof.
    intros H E. unfold optional. rewrite E. destruct o as [[a|]|], un, nn; cbn [shown back orb]; try reflexivity;
      destruct (H a eq_refl) as [Hf Hn]; (unfold nullable; destruct (g a) eqn:G; try congruence; rewrite Hf; reflexivity).
  Qed.
  Lemma back_id {A} un nn (o : option (option A)) : match back un nn o with Some (Some a) => Some (Some a) | Some None => Some None | None => None end = back un nn o.
  Proof. destruct (back un nn o) as [[a|]|]; reflexivity. Qed.

  Lemma read_rel_back un nn r : proper_rel r -> read_rel (rel_dict un nn r) = Ok (rel_back un nn r).
  Proof.
    intros P. assert (ND : Z.eqb (ro_from r) (ro_to r) = false) by (apply Z.eqb_neq; exact P).
    pose proof (rel_exported un nn r) as (d & m & E & _ & G1 & _ & G2 & G3 & G4 & G5).
    assert (Em : m = meta_dict un nn (ro_meta r)).
    { unfold rel_dict, fields in E. cbn [flat_map] in E. rewrite is_none_meta in E. cbn [negb] in E. rewrite !Bool.andb_false_r in E. cbn [orb app] in E.
      injection E as E. rewrite <- E in G1. cbn [d_get] in G1. injection G1 as <-. reflexivity. }
    rewrite E. unfold read_rel. cbn [a_dict bind].
    rewrite (get_required _ _ _ _ G1), Em, read_meta_back. cbn [soft bind].
    rewrite (get_shown un nn (ro_name r) VStr (fun x => x) a_str d _ ltac:(split; [reflexivity|discriminate]) G2), back_id. cbn [soft bind].
    rewrite (get_required _ _ _ _ G3). cbn [an_int soft bind]. rewrite (get_required _ _ _ _ G4). cbn [an_int soft bind].
    rewrite (get_shown un nn (ro_props r) VDict (fun x => x) a_dict d _ ltac:(split; [reflexivity|discriminate]) G5), back_id. cbn [soft bind].
    rewrite ND. reflexivity.
  Qed.
  Lemma read_rels_back un nn l : Forall proper_rel l -> a_list read_rel (VList (map (rel_dict un nn) l)) = Ok (map (rel_back un nn) l).
  Proof.
    intros F. unfold a_list.
    assert (E : mapM (fun x => soft (read_rel x)) (map (rel_dict un nn) l) = Ok (map (fun r => Some (rel_back un nn r)) l)).
    { induction F as [|r l P F IH]; [reflexivity|]. cbn [map mapM]. rewrite (read_rel_back un nn r P). cbn [soft bind]. rewrite IH. reflexivity. }
    rewrite E. cbn [bind]. clear. induction l as [|r l IH]; [reflexivity|]. cbn [map mapM bind]. rewrite IH. reflexivity.
  Qed.
  Lemma rels_of_back un nn o : rels_of (node_back un nn o) = map (rel_back un nn) (rels_of o).
  Proof. unfold rels_of, node_back. cbn [no_rels]. destruct (no_rels o) as [[l|]|], un, nn; reflexivity. Qed.
  Lemma read_node_back un nn o : proper_node o -> read_node (node_dict un nn o) = Ok (node_back un nn o).
  Proof.
    intros [O P].
    assert (B : Node (node_back un nn o) = Ok (node_back un nn o)).
    { destruct (node_built (node_back un nn o)) as [[_ X]|[N _]]; [exact X|]. exfalso. apply N. intros r I. rewrite rels_of_back in I.
      apply in_map_iff in I as (r' & <- & I). apply O in I. exact I. }
    unfold node_dict. set (rs := match field_value (no_rels o) with Some l => VList (map (rel_dict un nn) l) | None => VNone end).
    assert (X : exists d, fields un nn [(py "node_metadata", true, meta_dict un nn (no_meta o)); (py "node_label", true, VStr (no_label o));
        (py "properties", given (no_props o), opt_dict_val (field_value (no_props o))); (py "relations", given (no_rels o), rs)] = VDict d /\
       d_get (py "node_metadata") d = Some (meta_dict un nn (no_meta o)) /\ d_get (py "node_label") d = Some (VStr (no_label o)) /\
       d_get (py "properties") d = shown un nn VDict (no_props o) /\
       d_get (py "relations") d = shown un nn (fun l => VList (map (rel_dict un nn) l)) (no_rels o)).
    { eexists. split; [reflexivity|]. set (M := meta_dict un nn (no_meta o)). assert (HM : is_none M = false) by reflexivity. clearbody M. unfold rs.
      destruct (no_props o) as [[p|]|], (no_rels o) as [[l|]|], un, nn; cbn [given field_value opt_dict_val flat_map]; rewrite ?HM; cbn [is_none negb andb orb app]; repeat split. }
    destruct X as (d & -> & G1 & G2 & G3 & G4). unfold read_node. cbn [a_dict bind].
    rewrite (get_required _ _ _ _ G1), read_meta_back. cbn [soft bind]. rewrite (get_required _ _ _ _ G2). cbn [a_str soft bind].
    rewrite (get_shown un nn (no_props o) VDict (fun x => x) a_dict d _ ltac:(split; [reflexivity|discriminate]) G3), back_id. cbn [soft bind].
    rewrite (get_shown un nn (no_rels o) (fun l => VList (map (rel_dict un nn) l)) (map (rel_back un nn)) (a_list read_rel) d _).
    - cbn [soft bind].
      replace {| no_meta := meta_back un nn (no_meta o); no_label := no_label o; no_props := back un nn (no_props o);
                 no_rels := match back un nn (no_rels o) with Some (Some a) => Some (Some (map (rel_back un nn) a)) | Some None => Some None | None => None end |}
        with (node_back un nn o).
      + rewrite B. reflexivity.
      + unfold node_back. destruct (back un nn (no_rels o)) as [[l|]|]; reflexivity.
    - intros l E. split; [|discriminate]. apply read_rels_back. unfold rels_of in P. rewrite E in P. exact P.
    - exact G4.
  Qed.
End ObjectsFacts.

(** the same dictionary, also in another process if all was exported *)
Lemma field_back {A} un nn (o : option (option A)) : field_value (back un nn o) = field_value o.
Proof. destruct o as [[a|]|], un, nn; reflexivity. Qed.
Section Elsewhere.
  Context (rt1 rt2 : PyRt) (un : bool) (H : un = true -> @import_time rt1 = @import_time rt2).
  Lemma fields_all (l : list (pystr * bool * pyval)) : fields false false l = VDict (map (fun f => match f with (k, _, v) => (k, v) end) l).
  Proof. unfold fields. f_equal. induction l as [|[[k g] v] l IH]; [reflexivity|]. change (( k, v) :: flat_map (fun f : pystr * bool * pyval => match f with (k, g, v) => if (false && negb g) || (false && is_none v) then [] else [(k, v)] end) l = (k, v) :: map (fun f : pystr * bool * pyval => match f with (k, _, v) => (k, v) end) l). rewrite IH. reflexivity. Qed.
  Lemma meta_same nn m : @meta_dict rt2 false false (@meta_back rt1 un nn m) = @meta_dict rt1 false false m.
  Proof.
    unfold meta_dict. rewrite !fields_all. cbn [map meta_back mo_wn mo_created mo_updated]. rewrite field_back.
    destruct (mo_created m) as [t|]; [reflexivity|]. destruct un; [|reflexivity]. rewrite (H eq_refl). reflexivity.
  Qed.
  Lemma rel_same nn r : @rel_dict rt2 false false (@rel_back rt1 un nn r) = @rel_dict rt1 false false r.
  Proof. unfold rel_dict. rewrite !fields_all. cbn [map rel_back ro_meta ro_name ro_from ro_to ro_props]. rewrite !field_back, meta_same. reflexivity. Qed.
  Theorem node_same nn o : @node_dict rt2 false false (@node_back rt1 un nn o) = @node_dict rt1 false false o.
  Proof.
    unfold node_dict. rewrite !fields_all. cbn [map node_back no_meta no_label no_props no_rels]. rewrite field_back, meta_same. do 4 f_equal.
    f_equal. f_equal. destruct (no_rels o) as [[l|]|]; [|clear H; destruct nn; reflexivity|clear H; destruct un, nn; reflexivity].
    cbn [back field_value]. rewrite map_map. f_equal. apply map_ext. intros r. apply rel_same.
  Qed.
End Elsewhere.

(** ** the entries of a database *)
Section Entries.
  Context {rt : PyRt}.

  Definition full_meta (n : Z) : meta_obj := {| mo_wn := n; mo_created := Some import_time; mo_updated := Some None |}.
  Definition full_rel (m : Z) (name : option pystr) (a b : Z) (p : option (list (pystr * pyval))) : rel_obj :=
    {| ro_meta := full_meta m; ro_name := Some name; ro_from := a; ro_to := b; ro_props := Some p |}.
  Definition full_node (n : Z) (label : pystr) (p : option (list (pystr * pyval))) (l : list rel_obj) : node_obj :=
    {| no_meta := full_meta n; no_label := label; no_props := Some p; no_rels := Some (match l with [] => None | _ => Some l end) |}.
  Lemma is_node_by kv o : proper_node o -> kv = (str_of_Z (mo_wn (no_meta o)), node_dict false false o) ->
    is_node kv (node_back false false o).
  Proof.
    intros P ->. unfold is_node. cbn [snd]. split; [apply read_node_back; exact P|].
    split; [unfold export_node; rewrite (node_same rt rt false) by discriminate; reflexivity|].
    destruct P as [O P]. split.
    - intros r I. rewrite rels_of_back in I. apply in_map_iff in I as (r' & <- & I). apply O in I. exact I.
    - rewrite rels_of_back. apply Forall_forall. intros r I. apply in_map_iff in I as (r' & <- & I). rewrite Forall_forall in P. apply P in I. exact I.
  Qed.
  Lemma full_rels n label p l : rels_of (full_node n label p l) = l.
  Proof. destruct l; reflexivity. Qed.
  Lemma full_dict n label p l : node_dict false false (full_node n label p l) =
    VDict [(py "node_metadata", VDict [(py "wn", VInt n); (py "created_at", VFloat import_time); (py "updated_at", VNone)]); (py "node_label", VStr label);
           (py "properties", opt_dict_val p); (py "relations", match map (rel_dict false false) l with [] => VNone | rs => VList rs end)].
  Proof. destruct l; reflexivity. Qed.

  (** what the patterns [ps] store *)
  Lemma entries_nodes p w items : well_drawn p -> entries p w items ->
    Forall (fun kv => exists o, is_node kv o /\ forall r r', In r (rels_of o) -> In r' (rels_of o) -> mo_wn (ro_meta r) <> ro_to r') items.
  Proof.
    intros W E. unfold entries in E.
    assert (S : forall nx, In nx (stored_nodes p w) -> p_label (snd nx) <> None).
    { unfold stored_nodes. intros nx [<-|I]; [apply (wd_left _ W)|]. destruct (drawn (middle_node p)) eqn:Dm; [|destruct I]. destruct I as [<-|[]]. exact (wd_middle _ W Dm). }
    revert S. induction E as [|nx kv ns items H E IH]; intros S; constructor; [|apply IH; intros; apply S; right; assumption].
    specialize (S nx (or_introl eq_refl)). destruct nx as [n x], kv as [k v]. cbn [fst snd] in *. destruct H as (-> & pv & rels & PV & F & ->).
    unfold name_value in *. destruct (p_label x) as [lb|]; [clear S|congruence].
    assert (PO : forall y q, props_value y q -> exists o, q = opt_dict_val o).
    { clear. intros y q H. unfold props_value in H. destruct (get_property_dict (p_props y)) as [[d|]|]; [exists (Some d)|exists None|contradiction]; exact H. }
    destruct (PO _ _ PV) as (po & ->).
    assert (L : exists l, rels = map (rel_dict false false) l /\ map (fun r => (mo_wn (ro_meta r), ro_from r, ro_to r)) l = map (fun k => (lk_num k, lk_from k, lk_to k)) (owned p w n)).
    { clear -F PO. induction F as [|k v ls vs H F IH]; [exists []; auto|]. destruct IH as (l & -> & EL). destruct H as (q & PQ & ->). destruct (PO _ _ PQ) as (qo & ->).
      exists (full_rel (lk_num k) (p_label (lk_piece k)) (lk_from k) (lk_to k) qo :: l). cbn [map]. split; [|f_equal; exact EL].
      reflexivity. }
    destruct L as (l & -> & EL).
    assert (NUM : forall r, In r l -> exists k, In k (owned p w n) /\ mo_wn (ro_meta r) = lk_num k /\ ro_from r = lk_from k /\ ro_to r = lk_to k).
    { intros r I. apply (in_map (fun r => (mo_wn (ro_meta r), ro_from r, ro_to r))) in I. rewrite EL in I. apply in_map_iff in I as (k & X & I). injection X as X1 X2 X3. exists k. auto. }
    assert (OW : forall k, In k (owned p w n) -> lk_from k = n /\ lk_from k <> lk_to k /\ (lk_to k < num_rel1 p w <= lk_num k)%Z).
    { clear -W. intros k I. unfold owned in I. apply filter_In in I as [I E]. apply Z.eqb_eq in E. split; [exact E|].
      unfold links in I. apply in_app_iff in I as [I|I].
      - destruct (drawn (left_middle_rel p)) eqn:D; [|destruct I]. destruct (wd_rel1 _ W D) as [Dm _]. destruct I as [<-|[]].
        unfold between_nodes, num_rel1, num_left, num_middle in *. rewrite Dm in *. destruct (points_right _), (drawn (right_node p)); cbn [lk_num lk_from lk_to one] in *; lia.
      - destruct (drawn (middle_right_rel p)) eqn:D; [|destruct I]. destruct (wd_rel2 _ W D) as (Dm & Dr & _). destruct I as [<-|[]].
        unfold between_nodes, num_rel2, num_rel1, num_middle, num_right in *. rewrite Dm, Dr in *. destruct (points_right _), (drawn (left_middle_rel p)); cbn [lk_num lk_from lk_to one] in *; lia. }
    exists (node_back false false (full_node n lb po l)). split.
    - apply is_node_by.
      + split; [intros r I|apply Forall_forall; intros r I]; rewrite full_rels in I; destruct (NUM r I) as (k & K & _ & E1 & E2); destruct (OW k K) as (A & B & _).
        * left. cbn [full_node no_meta full_meta mo_wn]. congruence.
        * unfold proper_rel. congruence.
      + rewrite full_dict. destruct l; reflexivity.
    - intros r r' I I'. rewrite rels_of_back, full_rels in I, I'. apply in_map_iff in I as (a & <- & I). apply in_map_iff in I' as (b & <- & I').
      destruct (NUM a I) as (k & K & EN & _ & _). destruct (NUM b I') as (k' & K' & _ & _ & ET). destruct (OW k K) as (_ & _ & A). destruct (OW k' K') as (_ & _ & B).
      cbn [rel_back ro_meta meta_back mo_wn ro_to]. lia.
  Qed.
  Lemma made_nodes_l ps w items : acceptable ps w items ->
    Forall (fun kv => exists o, is_node kv o /\ forall r r', In r (rels_of o) -> In r' (rels_of o) -> mo_wn (ro_meta r) <> ro_to r') items.
  Proof.
    intros [W E]. revert w items E. induction W as [|p ps P W IH]; intros w items E; cbn [entries_all] in E; [subst; constructor|].
    destruct E as (a & b & -> & Ea & Eb). apply Forall_app. split; [eapply entries_nodes; eauto|eapply IH; eauto].
  Qed.

  Theorem names_of o : node_relationship_names o = match rels_of o with [] => None | l => Some (map (fun r => field_value (ro_name r)) l) end.
  Proof. unfold node_relationship_names, rels_of. destruct (field_value (no_rels o)) as [[|r l]|]; reflexivity. Qed.
  Theorem targets_of o : (rels_of o = [] /\ export_relationship_indexes o = None) \/
    (rels_of o <> [] /\ exists s, export_relationship_indexes o = Some [(str_of_Z (mo_wn (no_meta o)), s)] /\ NoDup s /\
      forall x, In x s <-> exists r, In r (rels_of o) /\ ro_to r = x).
  Proof.
    unfold export_relationship_indexes, rels_of. destruct (field_value (no_rels o)) as [[|r l]|]; [left; auto| |left; auto]. right. split; [discriminate|].
    eexists. split; [reflexivity|]. split; [apply z_of_list_NoDup|]. intros x. rewrite z_of_list_In, in_map_iff. split; intros (r' & A & B); eauto.
  Qed.
  Theorem made_nodes ps w items : acceptable ps w items ->
    Forall (fun kv => exists o, is_node kv o /\
      forall k s x, export_relationship_indexes o = Some [(k, s)] -> In x s -> ~ exists r, In r (rels_of o) /\ mo_wn (ro_meta r) = x) items.
  Proof.
    intros A. eapply Forall_impl; [|apply (made_nodes_l _ _ _ A)]. intros kv (o & I & H). exists o. split; [exact I|].
    intros k s x E X (r & R & N). destruct (targets_of o) as [[_ E']|(_ & s' & E' & _ & T)]; [congruence|]. rewrite E in E'. injection E' as -> ->.
    apply T in X as (r' & R' & N'). exact (H r r' R R' ltac:(congruence)).
  Qed.
  Theorem made_export n : export_node false false (node_made n) = [(str_of_Z (n_wn n), node_val n)].
  Proof.
    unfold export_node, node_dict. rewrite fields_all. cbn [map node_made no_meta made_meta mo_wn no_label no_props no_rels field_value]. f_equal. f_equal. unfold node_val. do 4 f_equal.
    f_equal. f_equal. destruct (n_rels n) as [l|]; cbn [option_map]; [|reflexivity]. rewrite map_map. reflexivity.
  Qed.
  Theorem read_back un nn o : proper_node o -> exists o', read_node (node_dict un nn o) = Ok o' /\ same_node o' o.
  Proof. intros P. exists (node_back un nn o). split; [apply read_node_back; exact P|apply node_same; reflexivity]. Qed.

  (** what the database of a graph can hold *)
  Theorem entry_node kv : entry kv -> exists o, is_node kv o.
  Proof.
    intros (n & lb & pv & rels & _ & PV & F & _ & ->).
    assert (PO : forall q, properties_obj q -> exists o, q = opt_dict_val o).
    { clear. intros q [->|(d & -> & _)]; [exists None|exists (Some d)]; reflexivity. }
    destruct (PO _ PV) as (po & ->).
    assert (L : exists l, rels = map (rel_dict false false) l /\ Forall (fun r => ro_from r = n /\ proper_rel r) l).
    { clear -F PO. induction F as [|v vs H F IH]; [exists []; auto|]. destruct IH as (l & -> & EL). destruct H as (m & name & to & q & _ & PQ & T & _ & ->). destruct (PO _ PQ) as (qo & ->).
      exists (full_rel m (Some name) n to qo :: l). split; [reflexivity|]. constructor; [|exact EL]. split; [reflexivity|]. unfold proper_rel. cbn [full_rel ro_from ro_to]. lia. }
    destruct L as (l & -> & FL). rewrite Forall_forall in FL.
    exists (node_back false false (full_node n lb po l)). apply is_node_by.
    - split; [intros r I|apply Forall_forall; intros r I]; rewrite full_rels in I; destruct (FL r I) as [A B]; [left; exact A|exact B].
    - rewrite full_dict. destruct l; reflexivity.
  Qed.
End Entries.

Theorem read_back_elsewhere (rt1 rt2 : PyRt) nn o : proper_node o ->
  exists o', @read_node (@node_dict rt1 false nn o) = Ok o' /\ @node_dict rt2 false false o' = @node_dict rt1 false false o.
Proof. intros P. exists (@node_back rt1 false nn o). split; [apply read_node_back; exact P|apply node_same; discriminate]. Qed.
Theorem no_metadata d : d_get (py "node_metadata") d = None -> d_get (py "relations") d = None -> read_node (VDict d) = Err KeyError.
Proof.
  intros E1 E2. unfold read_node, required, optional. cbn [a_dict bind]. rewrite E1, E2. cbn [soft bind].
  assert (L : forall A (r : res A), (forall e, r = Err e -> e = ValidationError) -> exists o, soft r = Ok o).
  { intros A [a|e] H; [exists (Some a); reflexivity|]. rewrite (H e eq_refl). exists None. reflexivity. }
  destruct (L _ (match d_get (py "node_label") d with Some v => a_str v | None => Err ValidationError end)) as (o1 & ->).
  { destruct (d_get (py "node_label") d) as [v|]; [destruct v; cbn [a_str]|]; intros e H; congruence. }
  cbn [bind].
  destruct (L _ (match d_get (py "properties") d with Some v => let? a := nullable a_dict v in Ok (Some a) | None => Ok None end)) as (o2 & ->).
  { destruct (d_get (py "properties") d) as [v|]; [destruct v; cbn [nullable a_dict bind]|]; intros e H; congruence. }
  reflexivity.
Qed.

Theorem database_nodes (rt : PyRt) : rt_data rt -> rt_lists -> forall g h w w' d v,
  history g h w w' -> distinct_files g -> db_file (database_fp g) d w -> Forall (fun kv => exists o, is_node kv o) d ->
  run (read_json (database_fp g)) w' = (Ok v, w') -> exists d', v = VDict d' /\ Forall (fun kv => exists o, is_node kv o) d'.
Proof.
  intros D RL g h w w' d v H DF DB FN R. destruct (schema D RL g h w w' d v H DF DB R) as (more & -> & F).
  exists (d ++ more). split; [reflexivity|]. apply Forall_app. split; [exact FN|]. eapply Forall_impl; [|exact F]. apply entry_node.
Qed.
