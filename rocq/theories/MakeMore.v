(** * MakeMore: consequences for numbers, directions and endpoints (C17-C20, C53) *)
From Verif Require Import PyBase BaseFacts Json JsonFacts RtLaws Props PropsFacts Checks Statements Data FS FSFacts Store
  SpecStore StoreFacts Make SpecMake MakeFacts MakeRun.
From Coq Require Import ZifyBool ZifyN ZifyNat.

Section Entries.
  Context {rt : PyRt}.

  Lemma Forall2_in_l {A B} (R : A -> B -> Prop) l m : Forall2 R l m -> forall a, In a l -> exists b, In b m /\ R a b.
  Proof.
    induction 1 as [|x y l m HR H IH]; intros a; [intros []|]. intros [<-|Ha]; [exists y; split; [left; reflexivity|assumption]|].
    destruct (IH a Ha) as (b & Hb & HR'). exists b. split; [right; assumption|assumption].
  Qed.
  Lemma Forall2_in_r {A B} (R : A -> B -> Prop) l m : Forall2 R l m -> forall b, In b m -> exists a, In a l /\ R a b.
  Proof.
    induction 1 as [|x y l m HR H IH]; intros b; [intros []|]. intros [<-|Hb]; [exists x; split; [left; reflexivity|assumption]|].
    destruct (IH b Hb) as (a & Ha & HR'). exists a. split; [right; assumption|assumption].
  Qed.
  Lemma entries_all_split ps w items : entries_all ps w items -> forall kv, In kv items <->
    exists ps1 p ps2 n x, ps = ps1 ++ p :: ps2 /\ In (n, x) (stored_nodes p (w + size_all ps1)) /\
      fst kv = str_of_Z n /\ node_value p (w + size_all ps1) n x (snd kv).
  Proof.
    revert w items; induction ps as [|p ps IH]; intros w items; cbn [entries_all].
    - intros -> kv. split; [intros []|]. intros (ps1 & p & ps2 & n & x & E & _). destruct ps1; discriminate.
    - intros (a & b & -> & A & B) kv. rewrite in_app_iff, (IH _ _ B kv). split.
      + intros [H|(ps1 & q & ps2 & n & x & -> & H1 & H2 & H3)].
        * exists [], p, ps. cbn [size_all]. rewrite Z.add_0_r.
          unfold entries in A. destruct (Forall2_in_r _ _ _ A kv H) as ([n x] & Hx & E & V); eauto 10.
        * exists (p :: ps1), q, ps2, n, x. cbn [size_all]. rewrite Z.add_assoc. auto.
      + intros ([|q ps1] & r & ps2 & n & x & E & H1 & H2 & H3); inv E.
        * left. cbn [size_all] in *. rewrite Z.add_0_r in *. unfold entries in A.
          destruct (Forall2_in_l _ _ _ A (n, x) H1) as ([k v] & Hv & E' & V). cbn [fst snd] in *.
          destruct kv as [k' v']. cbn [fst snd] in *. replace k' with k by congruence. replace v' with v; [assumption|].
          eapply node_value_fun; eauto.
        * right. cbn [size_all] in *. rewrite Z.add_assoc in *. exists ps1, r, ps2, n, x. auto.
  Qed.

  Lemma relations_node p w n x v : node_value p w n x v -> Forall2 link_value (owned p w n) (relations v).
  Proof.
    intros (pv & rels & _ & R & ->). unfold relations.
    change (field (py "relations") _) with (Some (match rels with [] => VNone | _ :: _ => VList rels end)).
    destruct rels; assumption.
  Qed.
  Lemma link_fields l r : link_value l r ->
    field (py "relationship_metadata") r = Some (metadata (lk_num l)) /\
    field (py "relationship_name") r = Some (name_value (lk_piece l)) /\
    field (py "wn_from_node") r = Some (VInt (lk_from l)) /\ field (py "wn_to_node") r = Some (VInt (lk_to l)).
  Proof. intros (pv & _ & ->). repeat split. Qed.

  Lemma lists_link_spec ps w items a n a' b : entries_all ps w items -> (lists_link items a n a' b <->
    exists ps1 p ps2 x l, ps = ps1 ++ p :: ps2 /\ In (a, x) (stored_nodes p (w + size_all ps1)) /\
      In l (owned p (w + size_all ps1) a) /\ lk_num l = n /\ lk_from l = a' /\ lk_to l = b).
  Proof.
    intros E. split.
    - intros (v & r & md & Hv & Hr & F1 & F2 & F3 & F4).
      apply (entries_all_split ps w items E) in Hv as (ps1 & p & ps2 & m & x & -> & Hx & Em & V). cbn [fst snd] in *.
      apply str_of_Z_inj in Em. subst m. apply relations_node in V.
      destruct (Forall2_in_r _ _ _ V r Hr) as (l & Hl & L). apply link_fields in L as (L1 & _ & L3 & L4).
      exists ps1, p, ps2, x, l. repeat split; auto.
      + rewrite L1 in F1. inv F1. change (field (py "wn") (metadata (lk_num l))) with (Some (VInt (lk_num l))) in F2. congruence.
      + congruence.
      + congruence.
    - intros (ps1 & p & ps2 & x & l & -> & Hx & Hl & <- & <- & <-).
      assert (HV : exists v, In (str_of_Z a, v) items /\ node_value p (w + size_all ps1) a x v).
      { clear Hl. revert w items E Hx. induction ps1 as [|q ps1 IH]; intros w items; cbn [app entries_all size_all].
        - rewrite Z.add_0_r. intros (i1 & i2 & -> & A & _) Hx. destruct (Forall2_in_l _ _ _ A _ Hx) as ([k v] & Hv & Ek & V). cbn [fst snd] in *.
          subst k. exists v. split; [apply in_app_iff; auto|assumption].
        - rewrite Z.add_assoc. intros (i1 & i2 & -> & _ & B) Hx. destruct (IH _ _ B Hx) as (v & Hv & V). exists v. split; [apply in_app_iff; auto|assumption]. }
      destruct HV as (v & Hv & V). apply relations_node in V. destruct (Forall2_in_l _ _ _ V l Hl) as (r & Hr & L).
      apply link_fields in L as (L1 & _ & L3 & L4). exists v, r, (metadata (lk_num l)). repeat split; auto.
  Qed.

  Lemma one_range b : (0 <= one b <= 1)%Z.
  Proof. destruct b; cbn; lia. Qed.
  Lemma link_range p w l : In l (links p w) -> (w < lk_num l < w + size p)%Z.
  Proof.
    unfold links, size, num_rel2, num_rel1. pose proof (one_range (drawn (middle_node p))). pose proof (one_range (drawn (right_node p))).
    rewrite in_app_iff. destruct (drawn (left_middle_rel p)), (drawn (middle_right_rel p)); cbn [one In]; intros [L|L];
      try (destruct L; fail); (destruct L as [<-|[]]); rewrite lk_num_between; lia.
  Qed.
  Lemma split_unique (ps1 qs1 ps2 qs2 : list pattern) p q (n w : Z) :
    ps1 ++ p :: ps2 = qs1 ++ q :: qs2 ->
    (w + size_all ps1 <= n < w + size_all ps1 + size p)%Z -> (w + size_all qs1 <= n < w + size_all qs1 + size q)%Z ->
    ps1 = qs1 /\ p = q /\ ps2 = qs2.
  Proof.
    revert qs1 w; induction ps1 as [|x ps1 IH]; intros [|y qs1] w E; cbn [app] in E; inv E; cbn [size_all].
    - auto.
    - pose proof (size_all_pos qs1). intros. lia.
    - pose proof (size_all_pos ps1). intros. lia.
    - intros A B. destruct (IH qs1 (w + size y)%Z) as (-> & -> & ->); [assumption|lia|lia|auto].
  Qed.
  Lemma links_num p w l l' : In l (links p w) -> In l' (links p w) -> lk_num l = lk_num l' -> l = l'.
  Proof.
    unfold links, num_rel2. rewrite !in_app_iff. pose proof (one_range (drawn (left_middle_rel p))).
    destruct (drawn (left_middle_rel p)), (drawn (middle_right_rel p)); cbn [one In] in *; intros A B E;
      repeat match goal with H : _ \/ _ |- _ => destruct H | H : False |- _ => destruct H end; subst; try reflexivity;
      rewrite ?lk_num_between in E; lia.
  Qed.

  (** For the relationships of one pattern of the list: which node lists them, and their ends. *)
  Lemma lists_link_of ps1 p ps2 w items l a a' b :
    entries_all (ps1 ++ p :: ps2) w items -> In l (links p (w + size_all ps1)) ->
    (lists_link items a (lk_num l) a' b <->
     a = lk_from l /\ a' = lk_from l /\ b = lk_to l /\ In (lk_from l) (map fst (stored_nodes p (w + size_all ps1)))).
  Proof.
    intros E L. rewrite (lists_link_spec _ _ _ _ _ _ _ E). split.
    - intros (qs1 & q & qs2 & x & l' & E' & Hx & Hl & N & <- & <-). apply owned_In in Hl as [Hl Ha].
      assert (U : ps1 = qs1 /\ p = q /\ ps2 = qs2).
      { eapply (split_unique _ _ _ _ _ _ (lk_num l) w E'); [apply link_range in L; lia|apply link_range in Hl; lia]. }
      destruct U as (<- & <- & <-). assert (l' = l) by (eapply links_num; eauto). subst l' a.
      repeat split. apply (in_map fst) in Hx. exact Hx.
    - intros (-> & -> & -> & Hx). apply in_map_iff in Hx as ((n & x) & En & Hx). cbn [fst] in En. subst n.
      exists ps1, p, ps2, x, l. repeat split; auto. apply owned_In. auto.
  Qed.

  (** C17 *)
  Theorem direction1 ps1 p ps2 w items : entries_all (ps1 ++ p :: ps2) w items -> Forall well_drawn (ps1 ++ p :: ps2) ->
    drawn (left_middle_rel p) = true -> let w0 := (w + size_all ps1)%Z in
    forall a a' b, lists_link items a (num_rel1 p w0) a' b <->
      if points_right (left_middle_rel p) then a = num_left w0 /\ a' = num_left w0 /\ b = num_middle w0
      else a = num_middle w0 /\ a' = num_middle w0 /\ b = num_left w0.
  Proof.
    intros E W Dr w0 a a' b. apply Forall_elt in W. destruct W as [_ _ _ W _]. destruct (W Dr) as [Dm _].
    set (l := between_nodes (num_rel1 p w0) (left_middle_rel p) (num_left w0) (num_middle w0)).
    assert (L : In l (links p w0)). { unfold links. rewrite Dr. left. reflexivity. }
    replace (num_rel1 p w0) with (lk_num l) by apply lk_num_between.
    rewrite (lists_link_of _ _ _ _ _ l _ _ _ E L).
    assert (H : In (lk_from l) (map fst (stored_nodes p w0))).
    { unfold stored_nodes. rewrite Dm. unfold l. rewrite lk_from_between. destruct (points_right (left_middle_rel p)); cbn; tauto. }
    unfold l, between_nodes in *. destruct (points_right (left_middle_rel p)); cbn [lk_from lk_to] in *; tauto.
  Qed.
  Theorem direction2 ps1 p ps2 w items : entries_all (ps1 ++ p :: ps2) w items -> Forall well_drawn (ps1 ++ p :: ps2) ->
    drawn (middle_right_rel p) = true -> let w0 := (w + size_all ps1)%Z in
    forall a a' b, lists_link items a (num_rel2 p w0) a' b <->
      points_right (middle_right_rel p) = true /\ a = num_middle w0 /\ a' = num_middle w0 /\ b = num_right p w0.
  Proof.
    intros E W Dr w0 a a' b. apply Forall_elt in W. destruct W as [_ _ _ _ W]. destruct (W Dr) as [Dm _].
    set (l := between_nodes (num_rel2 p w0) (middle_right_rel p) (num_middle w0) (num_right p w0)).
    assert (L : In l (links p w0)). { unfold links. rewrite Dr. apply in_app_iff. right. left. reflexivity. }
    replace (num_rel2 p w0) with (lk_num l) by apply lk_num_between.
    rewrite (lists_link_of _ _ _ _ _ l _ _ _ E L).
    assert (H : In (lk_from l) (map fst (stored_nodes p w0)) <-> points_right (middle_right_rel p) = true).
    { unfold stored_nodes. rewrite Dm. unfold l. rewrite lk_from_between. unfold num_left, num_middle, num_right. rewrite Dm.
      destruct (points_right (middle_right_rel p)); cbn; [tauto|]. split; [|discriminate]. intros [H|[H|[]]]; lia. }
    fold w0. rewrite H. unfold l, between_nodes. destruct (points_right (middle_right_rel p)); cbn [lk_from lk_to]; [tauto|].
    split; intros H'; [destruct H' as (_ & _ & _ & H'); discriminate|destruct H'; discriminate].
  Qed.

  (** C19 *)
  Lemma right_not_key ps1 p ps2 w items : entries_all (ps1 ++ p :: ps2) w items -> Forall well_drawn (ps1 ++ p :: ps2) ->
    drawn (right_node p) = true -> ~ In (str_of_Z (num_right p (w + size_all ps1))) (keys items).
  Proof.
    intros E W Dr K. apply in_map_iff in K as ([k v] & Ek & K). cbn [fst] in Ek. subst k.
    apply (entries_all_split _ _ _ E) in K as (qs1 & q & qs2 & n & x & E' & Hx & En & _). cbn [fst] in En.
    apply str_of_Z_inj in En. subst n. set (w0 := (w + size_all ps1)%Z) in *.
    pose proof (one_range (drawn (middle_node p))). pose proof (one_range (drawn (left_middle_rel p))). pose proof (one_range (drawn (middle_right_rel p))).
    destruct (stored_nums q (w + size_all qs1)) as [R _]. rewrite Forall_forall in R. pose proof (R _ (in_map fst _ _ Hx)) as Rx. cbn [fst] in Rx.
    destruct (split_unique _ _ _ _ _ _ (num_right p w0) w E') as (<- & <- & <-).
    - unfold w0, num_right, size. rewrite Dr. cbn [one]. lia.
    - assumption.
    - fold w0 in Hx. unfold stored_nodes, num_left, num_middle, num_right in Hx.
      destruct Hx as [Hx|Hx]; [inv Hx; lia|]. destruct (drawn (middle_node p)); [|destruct Hx]. destruct Hx as [Hx|[]]. inv Hx. cbn [one] in *. lia.
  Qed.

  (** C20 *)
  Lemma lists_own ps w items a n a' b : entries_all ps w items -> Forall well_drawn ps -> lists_link items a n a' b -> a' = a /\ b <> a.
  Proof.
    intros E W L. apply (lists_link_spec _ _ _ _ _ _ _ E) in L as (ps1 & p & ps2 & x & l & -> & _ & Hl & _ & <- & <-).
    apply owned_In in Hl as [Hl <-]. split; [reflexivity|]. apply Forall_elt in W. pose proof (links_from_to p (w + size_all ps1) W) as F.
    rewrite Forall_forall in F. specialize (F l Hl). congruence.
  Qed.

  (** C53 *)
  Lemma node_fields p w n x v : node_value p w n x v -> field (py "node_metadata") v = Some (metadata n).
  Proof. intros (pv & rels & _ & _ & ->). reflexivity. Qed.
  Lemma all_created ps w items k v : entries_all ps w items -> In (k, v) items ->
    (exists n, k = str_of_Z n /\ field (py "node_metadata") v = Some (metadata n)) /\
    forall r, In r (relations v) -> exists n, field (py "relationship_metadata") r = Some (metadata n).
  Proof.
    intros E H. apply (entries_all_split _ _ _ E) in H as (ps1 & p & ps2 & n & x & -> & Hx & En & V). cbn [fst snd] in *. split.
    - exists n. split; [assumption|]. eapply node_fields; eauto.
    - intros r Hr. apply relations_node in V. destruct (Forall2_in_r _ _ _ V r Hr) as (l & Hl & L). exists (lk_num l). apply link_fields in L. tauto.
  Qed.
End Entries.

(** ** C18: the numbers in the order of the pieces *)
Section Numbers.
  Context {rt : PyRt}.
  Lemma zrange_app w a b : zrange w (a + b) = zrange w a ++ zrange (w + Z.of_nat a)%Z b.
  Proof.
    revert w; induction a as [|a IH]; intros w; cbn [zrange Nat.add app]; [f_equal; lia|]. f_equal. rewrite IH. do 2 f_equal. lia.
  Qed.

  Lemma numbers_one p w m : well_drawn p -> pre_ok p w m -> node_numbers m ++ rel_numbers m = zrange w (Z.to_nat (size p)).
  Proof.
    intros [_ _ _ W1 W2] [(sl & _ & Pl) Pm Pr _ _]. unfold node_numbers, rel_numbers. rewrite Pl. cbn [np_wn np_rels pre_node].
    assert (Q : forall ls, map rp_wn (map pre_rel ls) = map lk_num ls) by (intros; rewrite map_map; reflexivity). rewrite Q.
    unfold size.
    destruct (drawn (middle_node p)) eqn:Dm; [destruct Pm as (sm & _ & ->)|rewrite Pm]; cbn [np_wn np_rels pre_node]; rewrite ?Q;
    (destruct (drawn (right_node p)) eqn:Dr; [destruct Pr as (sr & _ & ->)|rewrite Pr]; cbn [np_wn np_rels pre_node]; rewrite ?Q);
    (destruct (drawn (left_middle_rel p)) eqn:D1; [destruct (W1 eq_refl) as [? _]|]); try discriminate;
    (destruct (drawn (middle_right_rel p)) eqn:D2; [destruct (W2 eq_refl) as (? & ? & _)|]); try discriminate;
    unfold owned, links; rewrite ?D1, ?D2; unfold between_nodes, num_rel2, num_rel1, num_left, num_middle, num_right; rewrite ?Dm, ?Dr, ?D1; cbn [one];
    try (destruct (points_right (left_middle_rel p))); try (destruct (points_right (middle_right_rel p)));
    cbn [app filter lk_from map lk_num]; rewrite ?Z.add_0_r;
    repeat (rewrite Z.eqb_refl || match goal with |- context [(?a =? ?b)%Z] => replace (a =? b)%Z with false by (symmetry; apply Z.eqb_neq; clear; lia) end);
    cbn [app filter lk_from map lk_num];
    match goal with |- _ = zrange w (Z.to_nat ?n) => let v := eval vm_compute in (Z.to_nat n) in change (Z.to_nat n) with v end;
    cbn [zrange]; repeat (f_equal; try lia).
  Qed.

  Theorem numbers_consecutive l w w' ms : process_parsed_make_list l w = Ok (w', ms) ->
    let ns := flat_map (fun m => node_numbers m ++ rel_numbers m) ms in
    ns = zrange w (List.length ns) /\ w' = (w + Z.of_nat (List.length ns))%Z.
  Proof.
    unfold process_parsed_make_list. fold (patterns_of l). destruct (process_patterns_spec (patterns_of l) w) as [(W & ms' & E & P)|(_ & e & E)]; rewrite E; [|discriminate].
    intros H. inv H. cbv zeta.
    assert (G : flat_map (fun m => node_numbers m ++ rel_numbers m) ms = zrange w (Z.to_nat (size_all (patterns_of l)))).
    { clear E. revert w ms P. induction W as [|p ps Wp W IH]; intros w [|m ms]; cbn [all_pre]; try tauto.
      intros [Pm P]. cbn [flat_map size_all]. rewrite (IH _ _ P), (numbers_one p w m Wp Pm).
      pose proof (size_pos p). pose proof (size_all_pos ps). rewrite Z2Nat.inj_add by lia. rewrite zrange_app, Z2Nat.id by lia. reflexivity. }
    rewrite G. assert (L : forall k w, List.length (zrange w k) = k) by (induction k; intros; cbn; congruence).
    rewrite L. split; [reflexivity|]. rewrite Z2Nat.id; [reflexivity|apply size_all_pos].
  Qed.
  Lemma zrange_NoDup w k : NoDup (zrange w k) /\ forall z, In z (zrange w k) <-> (w <= z < w + Z.of_nat k)%Z.
  Proof.
    revert w; induction k as [|k IH]; intros w; cbn [zrange].
    - split; [constructor|]. intros z. split; [intros []|lia].
    - destruct (IH (w + 1)%Z) as [N I]. split.
      + constructor; [|assumption]. rewrite I. lia.
      + intros z. cbn [In]. rewrite I. lia.
  Qed.
End Numbers.
