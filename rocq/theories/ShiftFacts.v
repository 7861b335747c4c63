(** * ShiftFacts: what MAKE does does not depend on the value of the counter (C83) *)
From Verif Require Import PyBase BaseFacts Json SpecJson RtLaws Props Statements PatternFacts Data FS FSFacts Store SpecStore Make SpecMake MakeFacts MakeRun
  MakeFinal SplitFacts.
From Coq Require Import ZifyBool ZifyN ZifyNat.

Definition res_map {A B} (f : A -> B) (r : res A) : res B := match r with Ok x => Ok (f x) | Err e => Err e end.

Section Shift.
  Context {rt : PyRt} (k : Z).
  Definition sh_rel (r : rel_pre) : rel_pre :=
    {| rp_wn := rp_wn r + k; rp_name := rp_name r; rp_handle := rp_handle r; rp_props := rp_props r; rp_from := rp_from r + k; rp_to := rp_to r + k |}.
  Definition sh_node (n : node_pre) : node_pre :=
    {| np_wn := np_wn n + k; np_label := np_label n; np_handle := np_handle n; np_props := np_props n; np_rels := map sh_rel (np_rels n) |}.
  Definition sh_pre (m : make_pre) : make_pre :=
    {| mp_left := sh_node (mp_left m); mp_middle := option_map sh_node (mp_middle m); mp_right := option_map sh_node (mp_right m);
       mp_labels := mp_labels m; mp_names := mp_names m |}.
  Definition sh_made_rel (r : relationship) : relationship :=
    {| r_wn := r_wn r + k; r_name := r_name r; r_from := r_from r + k; r_to := r_to r + k; r_props := r_props r |}.
  Definition sh_made (n : node) : node :=
    {| n_wn := n_wn n + k; n_label := n_label n; n_props := n_props n; n_rels := option_map (map sh_made_rel) (n_rels n) |}.

  Lemma sh_new_node w p : new_node_pre (w + k) p = res_map sh_node (new_node_pre w p).
  Proof. unfold new_node_pre. destruct (p_label p); reflexivity. Qed.
  Lemma sh_opt_node p w : opt_node p (w + k) = res_map (fun x => ((fst x + k)%Z, option_map sh_node (snd x))) (opt_node p w).
  Proof.
    unfold opt_node. destruct (truthy (p_text p)); [|reflexivity]. rewrite sh_new_node. destruct (new_node_pre w p); [|reflexivity].
    cbn [res_map bind fst snd option_map]. do 2 f_equal. lia.
  Qed.
  Lemma sh_add_rel r n : sh_node (add_rel r n) = add_rel (sh_rel r) (sh_node n).
  Proof. unfold sh_node, add_rel. cbn. rewrite map_app. reflexivity. Qed.
  Lemma sh_link p w a b : link p (w + k) (option_map sh_node a) (option_map sh_node b) =
    res_map (fun x => ((fst (fst (fst x)) + k)%Z, option_map sh_node (snd (fst (fst x))), option_map sh_node (snd (fst x)), snd x)) (link p w a b).
  Proof.
    unfold link. destruct (p_text p) as [[|c t]|]; try reflexivity. destruct (relationship_is_left_to_right (c :: t)) as [ltr|]; [|reflexivity].
    cbn [bind]. destruct a as [na|], b as [nb|]; try reflexivity. cbn [option_map]. cbv zeta. replace (w + k + 1)%Z with (w + 1 + k)%Z by lia.
    destruct ltr; cbn [res_map fst snd option_map]; rewrite sh_add_rel; reflexivity.
  Qed.
  Lemma sh_labels n : labels_of (option_map sh_node n) = labels_of n.
  Proof. destruct n; reflexivity. Qed.
  Lemma sh_pattern p w : process_pattern p (w + k) = res_map (fun x => ((fst x + k)%Z, sh_pre (snd x))) (process_pattern p w).
  Proof.
    unfold process_pattern. rewrite sh_new_node. destruct (new_node_pre w (left_node p)) as [lft|]; [|reflexivity]. cbn [res_map bind]. cbv zeta.
    replace (w + k + 1)%Z with (w + 1 + k)%Z by lia. rewrite sh_opt_node. destruct (opt_node (middle_node p) (w + 1)) as [[w1 md]|]; [|reflexivity].
    cbn [res_map bind fst snd]. rewrite sh_opt_node. destruct (opt_node (right_node p) w1) as [[w2 rg]|]; [|reflexivity]. cbn [res_map bind fst snd].
    pose proof (sh_link (left_middle_rel p) w2 (Some lft) md) as E. cbn [option_map] in E. rewrite E.
    destruct (link (left_middle_rel p) w2 (Some lft) md) as [[[[w3 l3] m3] n1]|]; [|reflexivity]. cbn [res_map bind fst snd].
    rewrite sh_link. destruct (link (middle_right_rel p) w3 m3 rg) as [[[[w4 m4] r4] n2]|]; [|reflexivity]. cbn [res_map bind fst snd].
    destruct l3 as [l3|]; [|reflexivity]. cbn [option_map res_map fst snd]. rewrite !sh_labels. reflexivity.
  Qed.
  Lemma sh_patterns ps : forall w, process_patterns ps (w + k) = res_map (fun x => ((fst x + k)%Z, map sh_pre (snd x))) (process_patterns ps w).
  Proof.
    induction ps as [|p ps IH]; intros w; cbn [process_patterns]; [reflexivity|]. rewrite sh_pattern. destruct (process_pattern p w) as [[w1 m]|]; [|reflexivity].
    cbn [res_map bind fst snd]. rewrite IH. destruct (process_patterns ps w1) as [[w2 ms]|]; reflexivity.
  Qed.
  Lemma sh_eqb a b : Z.eqb (a + k) (b + k) = Z.eqb a b.
  Proof. destruct (Z.eqb_spec a b), (Z.eqb_spec (a + k) (b + k)); lia || reflexivity. Qed.
  Lemma sh_make_rel r : make_relationship (sh_rel r) = res_map sh_made_rel (make_relationship r).
  Proof.
    unfold make_relationship, new_relationship. cbn [sh_rel rp_props rp_from rp_to rp_wn rp_name]. rewrite sh_eqb.
    destruct (get_property_dict (rp_props r)); [|reflexivity]. cbn [bind]. destruct (Z.eqb (rp_from r) (rp_to r)); reflexivity.
  Qed.
  Lemma sh_make_rels l : mapM make_relationship (map sh_rel l) = res_map (map sh_made_rel) (mapM make_relationship l).
  Proof.
    induction l as [|r l IH]; [reflexivity|]. cbn [map mapM]. rewrite sh_make_rel, IH. destruct (make_relationship r); [|reflexivity]. cbn [res_map bind].
    destruct (mapM make_relationship l); reflexivity.
  Qed.
  Lemma sh_new_made wn lab pr rels : new_node (wn + k) lab pr (option_map (map sh_made_rel) rels) = res_map sh_made (new_node wn lab pr rels).
  Proof.
    unfold new_node. destruct rels as [l|]; [|reflexivity]. cbn [option_map].
    assert (E : existsb (fun r => negb (wn + k =? r_from r) && negb (wn + k =? r_to r))%Z (map sh_made_rel l) =
                existsb (fun r => negb (wn =? r_from r) && negb (wn =? r_to r))%Z l).
    { induction l as [|r l IH]; [reflexivity|]. cbn [map existsb sh_made_rel r_from r_to]. rewrite !sh_eqb, IH. reflexivity. }
    cbv zeta. rewrite E. destruct (existsb _ l); reflexivity.
  Qed.
  Lemma sh_make_node n : make_node (sh_node n) = res_map sh_made (make_node n).
  Proof.
    unfold make_node. cbn [sh_node np_props np_rels np_wn np_label]. destruct (get_property_dict (np_props n)) as [pr|]; [|reflexivity]. cbn [bind].
    destruct (np_rels n) as [|r l]; [apply (sh_new_made (np_wn n) (np_label n) pr None)|]. cbn [map]. rewrite <- (map_cons sh_rel r l), sh_make_rels.
    destruct (mapM make_relationship (r :: l)) as [rs|]; [|reflexivity]. cbn [res_map bind]. apply (sh_new_made (np_wn n) (np_label n) pr (Some rs)).
  Qed.
  Lemma sh_make_nodes m : make_nodes (sh_pre m) = res_map (map sh_made) (make_nodes m).
  Proof.
    unfold make_nodes. cbn [sh_pre mp_left mp_middle mp_right]. rewrite sh_make_node. destruct (make_node (mp_left m)) as [l|]; [|reflexivity]. cbn [res_map bind].
    destruct (mp_middle m) as [a|]; cbn [option_map]; [rewrite sh_make_node; destruct (make_node a) as [x|]; [|reflexivity]; cbn [res_map bind]|cbn [bind]];
      (destruct (mp_right m) as [b|]; cbn [option_map res_map bind]; reflexivity).
  Qed.
  Lemma sh_all_nodes ms : mapM make_nodes (map sh_pre ms) = res_map (map (map sh_made)) (mapM make_nodes ms).
  Proof.
    induction ms as [|m ms IH]; [reflexivity|]. cbn [map mapM]. rewrite sh_make_nodes, IH. destruct (make_nodes m); [|reflexivity]. cbn [res_map bind].
    destruct (mapM make_nodes ms); reflexivity.
  Qed.
End Shift.
