(** * CriteriaFacts: FIND with CRITERIA (C61) *)
From Verif Require Import PyBase BaseFacts Props Checks Statements FS FSFacts Store Make SpecMake MakeFacts PatternFacts SpecFind Find FindFacts Criteria SpecCriteria.

Definition cmp {A B} (E : exn -> Prop) (R : A -> B -> Prop) (x : res A) (y : res B) : Prop :=
  (exists e, E e /\ x = Err e) \/ (exists e, x = Err e /\ y = Err e) \/ (exists a b, x = Ok a /\ y = Ok b /\ R a b).
Lemma cmp_bind {A B A' B'} E (R : A -> B -> Prop) (R' : A' -> B' -> Prop) x y f g :
  cmp E R x y -> (forall a b, R a b -> cmp E R' (f a) (g b)) -> cmp E R' (bind x f) (bind y g).
Proof.
  intros [(e & He & ->)|[(e & -> & ->)|(a & b & -> & -> & H)]] F; cbn [bind].
  - left. eauto. - right. left. eauto. - apply F. exact H.
Qed.
Lemma cmp_ok {A B} E (R : A -> B -> Prop) a b : R a b -> cmp E R (Ok a) (Ok b).
Proof. right. right. eauto. Qed.
Lemma cmp_err {A B} E (R : A -> B -> Prop) e : cmp E R (Err e) (Err e).
Proof. right. left. eauto. Qed.

Section CriteriaFacts.
  Context {rt : PyRt}.

  (** ** the embedding of the model without criteria *)
  Definition rel_of (r : find_rel_pre) : crel :=
    {| cr_name := fr_name r; cr_handle := fr_handle r; cr_yes := option_map as_conds (fr_yes r); cr_no := option_map as_conds (fr_no r) |}.
  Definition node_of (n : find_node_pre) : cnode :=
    {| cn_label := fn_label n; cn_handle := fn_handle n; cn_yes := option_map as_conds (fn_yes n); cn_no := option_map as_conds (fn_no n);
       cn_rels := map rel_of (fn_rels n) |}.
  Definition pre_of (f : find_pre) : cfind :=
    {| cf_left := node_of (fp_left f); cf_middle := option_map node_of (fp_middle f); cf_right := option_map node_of (fp_right f);
       cf_labels := fp_labels f; cf_names := fp_names f |}.

  Section Compare.
    Context (cr : option criteria).
    Definition CE (e : exn) : Prop := cr <> None /\ In e [AttributeError; TypeError].
    Definition RN (a : cnode) (b : find_node_pre) : Prop := cn_label a = fn_label b /\ (cr = None -> a = node_of b).
    Definition RO (a : option cnode) (b : option find_node_pre) : Prop :=
      match a, b with Some a, Some b => RN a b | None, None => True | _, _ => False end.
    Lemma cmp_cond s : cmp CE (fun a b => a = option_map as_conds b) (cond_dict s) (get_property_dict s).
    Proof. unfold cond_dict. destruct (get_property_dict s); [apply cmp_ok; reflexivity|apply cmp_err]. Qed.
    Lemma update_if_err d e : (exists x, update_if d e = Ok x) \/ update_if d e = Err AttributeError.
    Proof. unfold update_if. destruct e; [eauto|]. destruct d; eauto. Qed.
    Lemma add_ok h yes no : (exists a b, add_criteria cr h yes no = Ok (a, b)) \/ (cr <> None /\ add_criteria cr h yes no = Err AttributeError).
    Proof.
      unfold add_criteria. destruct cr as [c0|]; [|eauto]. destruct (crit_get c0 h) as [c|]; [|eauto].
      destruct (update_if_err yes (yn_yes c)) as [(a & ->)| ->]; cbn [bind]; [|right; split; [discriminate|reflexivity]].
      destruct (update_if_err no (yn_no c)) as [(b & ->)| ->]; cbn [bind]; [eauto|right; split; [discriminate|reflexivity]].
    Qed.
    Lemma add_none h yes no a b : add_criteria cr h yes no = Ok (a, b) -> cr = None -> a = yes /\ b = no.
    Proof. intros H E. unfold add_criteria in H. rewrite E in H. inv H. auto. Qed.
    Lemma cmp_node l h a b : (cr = None -> a = option_map as_conds b) -> cmp CE RN (new_cnode cr l h a) (new_find_node l h b).
    Proof.
      intros H. unfold new_cnode, new_find_node. destruct l as [l|]; [|apply cmp_err].
      destruct (add_ok h a (Some [])) as [(y & n & E)|[N E]]; rewrite E; cbn [bind]; [|left; exists AttributeError; split; [split; [exact N|left; reflexivity]|reflexivity]].
      apply cmp_ok. split; [reflexivity|]. intros En. destruct (add_none _ _ _ _ _ E En) as [-> ->]. rewrite (H En). reflexivity.
    Qed.
    Lemma cmp_left p : cmp CE RN (cfind_left cr p) (find_left p).
    Proof. unfold cfind_left, find_left. eapply cmp_bind; [apply cmp_cond|]. intros a b ->. apply cmp_node. auto. Qed.
    Lemma cmp_middle p : cmp CE RO (cfind_middle cr p) (find_middle p).
    Proof.
      unfold cfind_middle, find_middle. destruct (truthy _); [|apply cmp_ok; exact I]. eapply cmp_bind; [apply cmp_cond|]. intros a b ->.
      eapply cmp_bind; [apply cmp_node; auto|]. intros a b' H. apply cmp_ok. exact H.
    Qed.
    Lemma cmp_right p : cmp CE RO (cfind_right cr p) (find_right p).
    Proof.
      unfold cfind_right, find_right. destruct (truthy _); [|apply cmp_ok; exact I]. eapply cmp_bind; [apply cmp_cond|]. intros a b ->.
      assert (X : (exists a', update_model cr (p_handle (middle_node p)) (option_map as_conds b) = Ok a' /\ (cr = None -> a' = option_map as_conds b)) \/
        (exists e, CE e /\ update_model cr (p_handle (middle_node p)) (option_map as_conds b) = Err e)).
      { unfold update_model, CE. destruct cr as [c|]; [|eauto].
        destruct (option_map as_conds b); [|right; eexists; split; [split; [discriminate|left; reflexivity]|reflexivity]].
        destruct (crit_get c _); [left; eexists; split; [reflexivity|discriminate]|]. right. eexists. split; [split; [discriminate|right; left; reflexivity]|reflexivity]. }
      destruct X as [(a' & -> & H)|(e & He & ->)]; cbn [bind]; [|left; eauto].
      eapply cmp_bind; [apply cmp_node; exact H|]. intros x y Hxy. apply cmp_ok. exact Hxy.
    Qed.
    Lemma RN_add r r' a b : RN a b -> (cr = None -> r = rel_of r') -> RN (cadd_rel r a) (find_add_rel r' b).
    Proof.
      intros [H1 H2] Hr. split; [exact H1|]. intros E. rewrite (H2 E), (Hr E). unfold cadd_rel, find_add_rel, node_of. cbn. rewrite map_app. reflexivity.
    Qed.
    Lemma cmp_link x a b a' b' : RO a a' -> RO b b' ->
      cmp CE (fun x y => RO (fst (fst x)) (fst (fst y)) /\ RO (snd (fst x)) (snd (fst y)) /\ snd x = snd y) (cfind_link cr x a b) (find_link x a' b').
    Proof.
      intros Ha Hb. unfold cfind_link, find_link. destruct (p_text x) as [[|c t]|]; try (apply cmp_ok; auto).
      eapply cmp_bind; [apply cmp_cond|]. intros u v ->.
      destruct (add_ok (p_handle x) (option_map as_conds v) (Some [])) as [(y & n & E)|[N E]]; rewrite E; cbn [bind];
        [|left; exists AttributeError; split; [split; [exact N|left; reflexivity]|reflexivity]].
      destruct (relationship_is_left_to_right (c :: t)) as [ltr|e]; cbn [bind]; [|apply cmp_err].
      assert (R : cr = None -> {| cr_name := p_label x; cr_handle := p_handle x; cr_yes := y; cr_no := n |} =
        rel_of {| fr_name := p_label x; fr_handle := p_handle x; fr_yes := v; fr_no := Some [] |}).
      { intros En. destruct (add_none _ _ _ _ _ E En) as [-> ->]. reflexivity. }
      destruct ltr.
      - destruct a, a'; try contradiction; [|apply cmp_err]. apply cmp_ok. cbn [fst snd]. split; [|auto]. apply RN_add; auto.
      - destruct b, b'; try contradiction; [|apply cmp_err]. apply cmp_ok. cbn [fst snd]. split; [auto|split; [|auto]]. apply RN_add; auto.
    Qed.
    Lemma RO_labels a b : RO a b -> cfind_labels a = find_labels b.
    Proof. destruct a, b; cbn; try contradiction; [intros [-> _]; reflexivity|reflexivity]. Qed.
    Lemma RO_none a b : RO a b -> cr = None -> a = option_map node_of b.
    Proof. destruct a, b; cbn; try contradiction; [intros [_ H] E; rewrite (H E); reflexivity|reflexivity]. Qed.
    Lemma cmp_process p : cmp CE (fun a b => cf_labels a = fp_labels b /\ cf_names a = fp_names b /\ (cr = None -> a = pre_of b)) (process_find cr p) (process_pattern_find p).
    Proof.
      unfold process_find, process_pattern_find.
      eapply cmp_bind; [apply cmp_left|]. intros l l' Hl. eapply cmp_bind; [apply cmp_middle|]. intros m m' Hm. eapply cmp_bind; [apply cmp_right|]. intros r r' Hr.
      eapply cmp_bind; [apply (cmp_link _ (Some l) m (Some l') m'); [exact Hl|exact Hm]|]. intros [[l1 m1] n1] [[l1' m1'] n1'] (H1 & H2 & H3). cbn [fst snd] in *. subst n1'.
      eapply cmp_bind; [apply cmp_link; [exact H2|exact Hr]|]. intros [[m2 r2] n2] [[m2' r2'] n2'] (H4 & H5 & H6). cbn [fst snd] in *. subst n2'.
      destruct l1 as [l1|], l1' as [l1'|]; try contradiction; [|apply cmp_err]. apply cmp_ok. cbn [cf_labels fp_labels cf_names fp_names].
      assert (El : cn_label l :: cfind_labels m ++ cfind_labels r = fn_label l' :: find_labels m' ++ find_labels r').
      { rewrite (RO_labels _ _ Hm), (RO_labels _ _ Hr). destruct Hl as [-> _]. reflexivity. }
      rewrite El. split; [reflexivity|]. split; [reflexivity|]. intros En. unfold pre_of. cbn [fp_left fp_middle fp_right fp_labels fp_names].
      rewrite <- (RO_none _ _ H4 En), <- (RO_none _ _ H5 En). destruct H1 as [_ H1]. rewrite <- (H1 En). reflexivity.
    Qed.
  End Compare.

  (** ** without criteria: the model of Find.v *)
  Theorem no_criteria f g : process_find None (pf_pattern f) = bind (process_parsed_find f) (fun x => Ok (pre_of x)) /\ find_criteria f g None = find f g.
  Proof.
    assert (E : process_find None (pf_pattern f) = bind (process_parsed_find f) (fun x => Ok (pre_of x))).
    { unfold process_parsed_find. destruct (cmp_process None (pf_pattern f)) as [(e & [N _] & _)|[(e & -> & ->)|(a & b & -> & -> & _ & _ & H)]]; [congruence|reflexivity|].
      rewrite (H eq_refl). reflexivity. }
    split; [exact E|]. unfold find_criteria, find. rewrite E. destruct (process_parsed_find f) as [x|e]; reflexivity.
  Qed.
  (** ** criteria do not change the answer *)
  Lemma same_or_refused f g cr : (exists e, In e [AttributeError; TypeError] /\ find_criteria f g (Some cr) = Throw e /\ process_find (Some cr) (pf_pattern f) = Err e) \/
    find_criteria f g (Some cr) = find f g.
  Proof.
    unfold find_criteria, find, process_parsed_find.
    destruct (cmp_process (Some cr) (pf_pattern f)) as [(e & [_ He] & E)|[(e & -> & ->)|(a & b & -> & -> & H1 & H2 & _)]].
    - left. exists e. rewrite E. auto.
    - right. reflexivity.
    - right. cbn [lift io_bind]. unfold short_circuit, find_short_circuit. rewrite H1, H2. reflexivity.
  Qed.
  Theorem answer_unchanged f g cr w : run (find_criteria f g (Some cr)) w = run (find f g) w \/
    exists e, In e [AttributeError; TypeError] /\ run (find_criteria f g (Some cr)) w = (Err e, w).
  Proof. destruct (same_or_refused f g cr) as [(e & He & E & _)|E]; rewrite E; [right; exists e; auto|left; reflexivity]. Qed.

  (** ** when they are refused *)
  Lemma crit_for cr x : crit_get cr (p_handle x) = criteria_for cr x.
  Proof. reflexivity. Qed.
  Lemma has_list_dict x o : get_property_dict (p_props x) = Ok o -> (has_list x <-> o <> None).
  Proof.
    unfold get_property_dict, has_list. destruct (p_props x) as [[|c t]|].
    - intros E. inv E. split; [intros (? & ? & H); discriminate|congruence].
    - destruct (parse_properties (c :: t)); [|discriminate]. intros E. inv E. split; [discriminate|eauto].
    - intros E. inv E. split; [intros (? & ? & H); discriminate|congruence].
  Qed.
  Lemma update_some d e : exists x, update_if (Some d) e = Ok x.
  Proof. destruct e; eexists; reflexivity. Qed.
  Lemma add_iff cr x own : (exists a b, add_criteria (Some cr) (p_handle x) own (Some []) = Ok (a, b)) <-> (wanted cr x -> own <> None).
  Proof.
    unfold add_criteria, wanted. rewrite crit_for. destruct (criteria_for cr x) as [c|].
    - destruct (update_some [] (yn_no c)) as (n & En). change (@Some cdict []) with (@Some (list (pystr * cval)) []) in En. split.
      + intros (a & b & E) (c' & Ec & N). inv Ec. destruct own; [discriminate|].
        exfalso. clear En. destruct (yn_yes c') as [|y l]; [congruence|]. change (update_if None (y :: l)) with (@Err (option cdict) AttributeError) in E. discriminate E.
      + intros H. destruct (yn_yes c) as [|y l] eqn:Ey.
        * change (update_if own []) with (Ok own). cbn [bind]. exists own, n. rewrite En. reflexivity.
        * destruct own as [d|]; [|exfalso; apply H; [exists c; split; [reflexivity|congruence]|reflexivity]].
          destruct (update_some d (y :: l)) as (z & ->). cbn [bind]. exists z, n. rewrite En. reflexivity.
    - split; [intros _ (c & E & _); discriminate|eauto].
  Qed.
  Lemma drawn_truthy x : drawn x = truthy (p_text x).
  Proof. reflexivity. Qed.
  Lemma dict_none {A B} (f : A -> B) o : option_map f o <> None <-> o <> None.
  Proof. destruct o; cbn; split; congruence. Qed.
  Lemma node_iff cr x own : p_label x <> None -> (exists n, new_cnode (Some cr) (p_label x) (p_handle x) own = Ok n) <-> (wanted cr x -> own <> None).
  Proof.
    intros L. rewrite <- add_iff. unfold new_cnode. destruct (p_label x); [|congruence]. split.
    - intros (n & E). apply bind_ok in E as ([a b] & E & _). eauto.
    - intros (a & b & ->). cbn [bind]. eauto.
  Qed.
  Lemma bind_ok' {A B} (x : res A) (f : A -> res B) b : bind x f = Ok b -> exists a, x = Ok a /\ f a = Ok b.
  Proof. destruct x; [eauto|discriminate]. Qed.
  Lemma link_inv cr x a b y : cfind_link (Some cr) x a b = Ok y -> drawn x = true -> wanted cr x -> has_list x.
  Proof.
    unfold cfind_link, drawn. destruct (p_text x) as [[|c t]|]; try discriminate. intros E _ W. apply bind_ok in E as (o & Eo & E).
    apply bind_ok in E as ([u v] & Ea & _). unfold cond_dict in Eo. apply bind_ok in Eo as (o' & Eo & X). inv X.
    apply (has_list_dict x _ Eo). rewrite <- (dict_none as_conds). apply (proj1 (add_iff cr x _)); eauto.
  Qed.
  Lemma link_fwd cr x (a b : option cnode) a' b' y : find_link x a' b' = Ok y -> (drawn x = true -> wanted cr x -> has_list x) ->
    (a = None <-> a' = None) -> (b = None <-> b' = None) ->
    exists y', cfind_link (Some cr) x a b = Ok y' /\ (fst (fst y') = None <-> fst (fst y) = None) /\ (snd (fst y') = None <-> snd (fst y) = None).
  Proof.
    unfold find_link, cfind_link, drawn. destruct (p_text x) as [[|c t]|].
    - intros E _ Ha Hb. inv E. eexists. split; [reflexivity|auto].
    - intros E W Ha Hb. apply bind_ok in E as (o & Eo & E). unfold cond_dict. rewrite Eo. cbn [bind].
      destruct (proj2 (add_iff cr x (option_map as_conds o))) as (u & v & ->). { intros Ww. apply dict_none. apply (has_list_dict x _ Eo). auto. }
      cbn [bind]. apply bind_ok in E as (ltr & -> & E). cbn [bind]. destruct ltr.
      + destruct a' as [n|]; [|discriminate]. inv E. destruct a; [|exfalso; destruct Ha as [Ha _]; specialize (Ha eq_refl); discriminate].
        eexists. split; [reflexivity|]. cbn [fst snd]. split; [split; discriminate|auto].
      + destruct b' as [n|]; [|discriminate]. inv E. destruct b; [|exfalso; destruct Hb as [Hb _]; specialize (Hb eq_refl); discriminate].
        eexists. split; [reflexivity|]. cbn [fst snd]. split; [auto|split; discriminate].
    - intros E _ Ha Hb. inv E. eexists. split; [reflexivity|auto].
  Qed.
  Lemma node_label {l h o n} : new_find_node l h o = Ok n -> l <> None.
  Proof. destruct l; [congruence|discriminate]. Qed.
  Theorem fits_iff cr p : (exists fp, process_pattern_find p = Ok fp) -> ((exists r, process_find (Some cr) p = Ok r) <-> fits cr p).
  Proof.
    intros (fp & E). unfold process_pattern_find in E.
    apply bind_ok in E as (l & El & E). apply bind_ok in E as (m & Em & E). apply bind_ok in E as (r & Er & E).
    apply bind_ok in E as ([[l1 m1] n1] & E1 & E). apply bind_ok in E as ([[m2 r2] n2] & E2 & E3).
    unfold find_left in El. apply bind_ok in El as (ol & Eol & El).
    unfold process_find, cfind_left. unfold cond_dict at 1. rewrite Eol. cbn [bind]. split.
    - intros (fr & F). apply bind_ok in F as (cl & Fl & F). apply bind_ok in F as (cm & Fm & F). apply bind_ok in F as (crt & Fr & F).
      apply bind_ok in F as ([[cl1 cm1] k1] & F1 & F). apply bind_ok in F as ([[cm2 cr2] k2] & F2 & _).
      assert (Wl : wanted cr (left_node p) -> has_list (left_node p)).
      { intros W. apply (has_list_dict _ _ Eol). rewrite <- (dict_none as_conds). apply (proj1 (node_iff cr (left_node p) _ (node_label El))); eauto. }
      split; [exact Wl| |].
      + intros x [<-|[<-|[<-|[]]]] Dx W; [eapply link_inv; eauto| |eapply link_inv; eauto].
        unfold cfind_middle in Fm. unfold find_middle in Em. rewrite drawn_truthy in Dx. rewrite Dx in *.
        apply bind_ok in Em as (om & Eom & Em). apply bind_ok in Em as (nm & Enm & _). unfold cond_dict in Fm. rewrite Eom in Fm. cbn [bind] in Fm.
        apply bind_ok in Fm as (cnm & Fnm & _). apply (has_list_dict _ _ Eom). rewrite <- (dict_none as_conds).
        apply (proj1 (node_iff cr (middle_node p) _ (node_label Enm))); eauto.
      + intros Dm. unfold cfind_right in Fr. rewrite drawn_truthy in Dm. rewrite Dm in Fr. unfold cond_dict in Fr. rewrite Eol in Fr. cbn [bind] in Fr.
        apply bind_ok in Fr as (o2 & Fu & _). unfold update_model in Fu. rewrite crit_for in Fu. split.
        * apply (has_list_dict _ _ Eol). destruct ol; [discriminate|]. discriminate Fu.
        * destruct (criteria_for cr (middle_node p)); [discriminate|]. destruct (option_map as_conds ol); discriminate Fu.
    - intros [Wl Wo W3].
      destruct (proj2 (node_iff cr (left_node p) (option_map as_conds ol) (node_label El))) as (cl & Fl).
      { intros W. apply dict_none, (has_list_dict _ _ Eol). auto. }
      rewrite Fl. cbn [bind].
      assert (Hm : exists cm, cfind_middle (Some cr) p = Ok cm /\ (cm = None <-> m = None)).
      { unfold cfind_middle. unfold find_middle in Em. destruct (truthy (p_text (middle_node p))) eqn:Dm; [|inv Em; exists None; tauto].
        apply bind_ok in Em as (om & Eom & Em). apply bind_ok in Em as (nm & Enm & Em). inv Em. unfold cond_dict. rewrite Eom. cbn [bind].
        destruct (proj2 (node_iff cr (middle_node p) (option_map as_conds om) (node_label Enm))) as (cm & ->).
        { intros W. apply dict_none, (has_list_dict _ _ Eom). apply Wo; auto. right. left. reflexivity. }
        eexists. split; [reflexivity|]. split; discriminate. }
      destruct Hm as (cm & -> & Hm). cbn [bind].
      assert (Hr : exists cr2, cfind_right (Some cr) p = Ok cr2 /\ (cr2 = None <-> r = None)).
      { unfold cfind_right. unfold find_right in Er. destruct (truthy (p_text (middle_node p))) eqn:Dm; [|inv Er; exists None; tauto].
        apply bind_ok in Er as (o2 & Eo2 & Er). apply bind_ok in Er as (nr & Enr & Er). inv Er. unfold cond_dict. rewrite Eol. cbn [bind].
        destruct (W3 Dm) as [HL HC]. apply (has_list_dict _ _ Eol) in HL. destruct ol as [dl|]; [|congruence]. cbn [option_map update_model]. rewrite crit_for.
        destruct (criteria_for cr (middle_node p)) as [c|] eqn:Ec; [|congruence]. cbn [bind]. unfold new_cnode.
        pose proof (node_label Enr) as Nl. destruct (p_label (right_node p)); [|congruence].
        match goal with |- context [add_criteria (Some cr) ?h (Some ?d) (Some [])] => destruct (proj2 (add_iff cr (middle_node p) (Some d))) as (u & v & Eu) end; [discriminate|].
        rewrite Eu. cbn [bind]. eexists. split; [reflexivity|]. split; discriminate. }
      destruct Hr as (cr2 & -> & Hr). cbn [bind].
      destruct (link_fwd cr (left_middle_rel p) (Some cl) cm (Some l) m _ E1) as (y1 & -> & A1 & A2); [intros; apply Wo; auto; left; reflexivity|split; discriminate|exact Hm|].
      cbn [bind]. destruct y1 as [[cl1 cm1] k1]. cbn [fst snd] in *.
      destruct (link_fwd cr (middle_right_rel p) cm1 cr2 m1 r _ E2) as (y2 & -> & A3 & A4); [intros; apply Wo; auto; right; right; left; reflexivity|exact A2|exact Hr|].
      cbn [bind]. destruct y2 as [[cm2 cr3] k2]. cbn [fst snd] in *. destruct cl1; [eauto|]. destruct A1 as [A1 _]. rewrite (A1 eq_refl) in E3. discriminate.
  Qed.
  Theorem usable_criteria f g cr w : is_pattern (pf_pattern f) -> findable (pf_pattern f) ->
    (fits cr (pf_pattern f) /\ run (find_criteria f g (Some cr)) w = run (find f g) w) \/
    (~ fits cr (pf_pattern f) /\ exists e, In e [AttributeError; TypeError] /\ run (find_criteria f g (Some cr)) w = (Err e, w)).
  Proof.
    intros P F. destruct (FindFacts.process_find _ P) as [(_ & fp & E & _)|(NF & _)]; [|contradiction].
    pose proof (fits_iff cr (pf_pattern f) (ex_intro _ fp E)) as I.
    destruct (Criteria.process_find (Some cr) (pf_pattern f)) as [r|e] eqn:Ep.
    - left. split; [apply I; eauto|]. destruct (same_or_refused f g cr) as [(e & _ & _ & X)|X]; [congruence|rewrite X; reflexivity].
    - right. split; [intros H; apply I in H as (r & H); discriminate|]. destruct (cmp_process (Some cr) (pf_pattern f)) as [(e' & [_ He] & X)|[(e' & X & Y)|(a & b & X & _)]]; try congruence.
      exists e'. split; [exact He|]. unfold find_criteria. rewrite X. reflexivity.
  Qed.

  (** ** the conditions *)
  Lemma d_get_update {A} k (e d : list (pystr * A)) : NoDup (map fst e) -> d_get k (d_update d e) = over (d_get k e) (d_get k d).
  Proof.
    unfold d_update. revert d. induction e as [|[k' v] e IH]; intros d N; [reflexivity|]. inv N. cbn [fold_left fst snd d_get]. rewrite IH by assumption.
    destruct (str_eqb k k') eqn:Ek.
    - apply str_eqb_eq in Ek. subst k'. assert (X : d_get k e = None) by (apply d_get_None_keys; exact H1). rewrite X, d_get_set, str_eqb_refl. reflexivity.
    - rewrite d_get_set, Ek. reflexivity.
  Qed.
  Lemma get_conds k e : d_get k (as_conds e) = option_map CVal (d_get k e).
  Proof. unfold as_conds. induction e as [|[k' v] e IH]; [reflexivity|]. cbn [map fst snd d_get]. destruct (str_eqb k k'); [reflexivity|exact IH]. Qed.
  Lemma keys_conds e : map fst (as_conds e) = map fst e.
  Proof. unfold as_conds. rewrite map_map. reflexivity. Qed.
  Lemma update_look d e x k : NoDup (map fst e) -> update_if d e = Ok x -> look k x = over (option_map CVal (d_get k e)) (look k d).
  Proof.
    intros N E. destruct e as [|y e0] eqn:Ee; [inv E; reflexivity|]. rewrite <- Ee in *.
    assert (X : exists d', d = Some d' /\ x = Some (d_update d' (as_conds e))).
    { unfold update_if in E. destruct d as [d'|]; [|subst; discriminate]. exists d'. split; [reflexivity|]. rewrite Ee in E |- *. congruence. }
    destruct X as (d' & -> & ->). cbn [look].
    rewrite d_get_update by (rewrite keys_conds; exact N). rewrite get_conds. reflexivity.
  Qed.
  Lemma add_merged cr h own yes no : dicts_ok cr -> add_criteria (Some cr) h own (Some []) = Ok (yes, no) -> merged (crit_get cr h) own yes no.
  Proof.
    intros Dk E k. unfold add_criteria in E. destruct (crit_get cr h) as [c|] eqn:Ec; [|inv E; cbn; auto].
    assert (N : NoDup (map fst (yn_yes c)) /\ NoDup (map fst (yn_no c))).
    { unfold crit_get in Ec. destruct h as [h|]; [|discriminate]. apply d_get_In in Ec. eapply Dk; eauto. }
    apply bind_ok in E as (y & Ey & E). apply bind_ok in E as (n & En & E). inv E. cbn [option_map look]. split.
    - apply update_look; [apply N|exact Ey].
    - rewrite (update_look _ _ _ k (proj2 N) En). destruct (d_get k (yn_no c)); reflexivity.
  Qed.
  Definition cond_of (n : cnode) : option cdict * option cdict := (cn_yes n, cn_no n).
  Lemma link_keeps cr x a b a' b' ns : dicts_ok cr -> cfind_link (Some cr) x a b = Ok (a', b', ns) ->
    option_map cond_of a' = option_map cond_of a /\ option_map cond_of b' = option_map cond_of b /\
    (forall n r, (a = Some n \/ b = Some n) -> In r (cn_rels n) -> exists n', (a' = Some n' \/ b' = Some n') /\ In r (cn_rels n')) /\
    (forall n r, a = Some n -> In r (cn_rels n) -> exists n', a' = Some n' /\ In r (cn_rels n')) /\
    (forall n r, b = Some n -> In r (cn_rels n) -> exists n', b' = Some n' /\ In r (cn_rels n')) /\
    (drawn x = true -> exists n r, (a' = Some n \/ b' = Some n) /\ In r (cn_rels n) /\ cr_name r = p_label x /\ cr_handle r = p_handle x /\ conditions cr x x (cr_yes r) (cr_no r)).
  Proof.
    intros Dk E. unfold cfind_link in E. unfold drawn. destruct (p_text x) as [[|c t]|].
    - inv E. repeat split; eauto; discriminate.
    - apply bind_ok in E as (o & Eo & E). apply bind_ok in E as ([yes no] & Ea & E). apply bind_ok in E as (ltr & _ & E).
      unfold cond_dict in Eo. apply bind_ok in Eo as (o' & Eo & X). inv X.
      assert (C : conditions cr x x yes no) by (exists o'; split; [exact Eo|apply add_merged; auto]).
      assert (IA : forall n r, In r (cn_rels n) -> In r (cn_rels (cadd_rel {| cr_name := p_label x; cr_handle := p_handle x; cr_yes := yes; cr_no := no |} n))).
      { intros n r H. cbn. apply in_or_app. auto. }
      assert (IL : forall n, In {| cr_name := p_label x; cr_handle := p_handle x; cr_yes := yes; cr_no := no |} (cn_rels (cadd_rel {| cr_name := p_label x; cr_handle := p_handle x; cr_yes := yes; cr_no := no |} n))).
      { intros n. cbn. apply in_or_app. right. left. reflexivity. }
      destruct ltr.
      + destruct a as [n|]; [|discriminate]. inv E. repeat split; eauto.
        * intros n0 r [H|H] Hr; [inv H; eauto|eauto].
        * intros n0 r H Hr. inv H. eauto.
        * intros _. eexists _, _. split; [left; reflexivity|]. split; [apply IL|]. auto.
      + destruct b as [n|]; [|discriminate]. inv E. repeat split; eauto.
        * intros n0 r [H|H] Hr; [eauto|inv H; eauto].
        * intros n0 r H Hr. inv H. eauto.
        * intros _. eexists _, _. split; [right; reflexivity|]. split; [apply IL|]. auto.
    - inv E. repeat split; eauto; discriminate.
  Qed.
  Lemma node_conds cr l x own n : dicts_ok cr -> new_cnode (Some cr) l (p_handle x) own = Ok n -> merged (criteria_for cr x) own (cn_yes n) (cn_no n).
  Proof.
    intros Dk E. unfold new_cnode in E. destruct l; [|discriminate]. apply bind_ok in E as ([y m] & Ea & E). inv E. apply add_merged; auto.
  Qed.
  Theorem criteria_conditions cr p r : dicts_ok cr -> process_find (Some cr) p = Ok r ->
    conditions cr (left_node p) (left_node p) (cn_yes (cf_left r)) (cn_no (cf_left r)) /\
    (drawn (middle_node p) = true -> exists m, cf_middle r = Some m /\ conditions cr (middle_node p) (middle_node p) (cn_yes m) (cn_no m)) /\
    (drawn (middle_node p) = true -> exists n o, cf_right r = Some n /\ get_property_dict (p_props (left_node p)) = Ok o /\
      exists c, criteria_for cr (middle_node p) = Some c /\
      merged (Some c) (option_map (fun d => d_update (as_conds d) [(py "props_dict_yes_match", CDict (yn_yes c)); (py "props_dict_no_match", CDict (yn_no c))]) o) (cn_yes n) (cn_no n)) /\
    (forall x, In x [left_middle_rel p; middle_right_rel p] -> drawn x = true -> exists n rel, In n (nodes_of r) /\ In rel (cn_rels n) /\
      cr_name rel = p_label x /\ cr_handle rel = p_handle x /\ conditions cr x x (cr_yes rel) (cr_no rel)).
  Proof.
    intros Dk F. unfold process_find in F. apply bind_ok in F as (cl & Fl & F). apply bind_ok in F as (cm & Fm & F). apply bind_ok in F as (crt & Fr & F).
    apply bind_ok in F as ([[cl1 cm1] k1] & F1 & F). apply bind_ok in F as ([[cm2 cr2] k2] & F2 & F).
    destruct (link_keeps _ _ _ _ _ _ _ Dk F1) as (A1 & A2 & _ & A3 & A4 & A5). destruct (link_keeps _ _ _ _ _ _ _ Dk F2) as (B1 & B2 & _ & B3 & B4 & B5).
    destruct cl1 as [l1|]; [|discriminate]. inv F. cbn [cf_left cf_middle cf_right nodes_of].
    split; [|split; [|split]].
    - unfold cfind_left, cond_dict in Fl. apply bind_ok in Fl as (o & Eo & Fl). apply bind_ok in Eo as (o' & Eo & X). inv X.
      exists o'. split; [exact Eo|]. apply node_conds in Fl; [|exact Dk]. cbn [option_map] in A1. unfold cond_of in A1. injection A1 as E1 E2. rewrite E1, E2. exact Fl.
    - intros Dm. unfold cfind_middle in Fm. rewrite <- drawn_truthy, Dm in Fm. unfold cond_dict in Fm. apply bind_ok in Fm as (o & Eo & Fm). apply bind_ok in Eo as (o' & Eo & X). inv X.
      apply bind_ok in Fm as (n & Fn & X). inv X. rewrite A2 in B1. cbn [option_map] in B1. destruct cm2 as [n2|]; [|discriminate]. exists n2. split; [reflexivity|].
      exists o'. split; [exact Eo|]. apply node_conds in Fn; [|exact Dk]. cbn [option_map] in B1. unfold cond_of in B1. injection B1 as E1 E2. rewrite E1, E2. exact Fn.
    - intros Dm. unfold cfind_right in Fr. rewrite <- drawn_truthy, Dm in Fr. unfold cond_dict in Fr. apply bind_ok in Fr as (o & Eo & Fr). apply bind_ok in Eo as (o' & Eo & X). inv X.
      apply bind_ok in Fr as (u & Fu & Fr). apply bind_ok in Fr as (n & Fn & X). inv X. cbn [option_map] in B2. destruct cr2 as [n2|]; [|discriminate]. exists n2, o'. split; [reflexivity|]. split; [exact Eo|].
      unfold update_model in Fu. destruct o' as [d|]; [|discriminate]. cbn [option_map] in *. rewrite crit_for in Fu. destruct (criteria_for cr (middle_node p)) as [c|] eqn:Ec; [|discriminate].
      exists c. split; [reflexivity|]. inv Fu. apply node_conds in Fn; [|exact Dk]. rewrite Ec in Fn. cbn [option_map] in B2. unfold cond_of in B2. injection B2 as E1 E2. rewrite E1, E2. exact Fn.
    - intros x [<-|[<-|[]]] Dx.
      + destruct (A5 Dx) as (n & rel & [Hn|Hn] & Hr & C).
        * inv Hn. exists n, rel. split; [left; reflexivity|]. split; [exact Hr|exact C].
        * destruct (B3 _ _ Hn Hr) as (n' & -> & Hr'). exists n', rel. split; [right; left; reflexivity|]. split; [exact Hr'|exact C].
      + destruct (B5 Dx) as (n & rel & [Hn|Hn] & Hr & C); subst.
        * exists n, rel. split; [right; left; reflexivity|]. split; [exact Hr|exact C].
        * exists n, rel. split; [right; apply in_or_app; right; left; reflexivity|]. split; [exact Hr|exact C].
  Qed.
End CriteriaFacts.
