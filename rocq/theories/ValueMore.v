(** * ValueMore: whole property lists (C13-C16) *)
From Verif Require Import PyBase BaseFacts Regex RegexSpec RegexFacts RegexMore Patterns Json JsonFacts Literal Props RtLaws PropsFacts
  SpecText SpecPattern SpecValue ValueFacts ListFacts.
From Coq Require Import ZifyBool ZifyN ZifyNat.

Section ValueMore.
  Context {rt : PyRt}.

  (** ** C13: one type *)
  Lemma value_one_tag w more : Lang value_alts w more -> exists g, In g type_groups /\ more = [(g, w)].
  Proof.
    unfold value_alts. intros H. apply Lang_alts in H as (r & Hr & H).
    cbn [In] in Hr. destruct Hr as [<-|[<-|[<-|[<-|[<-|[<-|[]]]]]]]; apply Lang_grp in H as (c & -> & H).
    - apply Lang_lit_ci in H as [_ ->]. exists GNone. cbn; auto 12.
    - apply Lang_alt in H as [H|H]; apply Lang_lit_ci in H as [H ->]; exists GBool; cbn; auto 12.
    - apply Lang_cat in H as (? & ? & c1 & c2 & -> & -> & H1 & H2).
      apply Lang_cat in H2 as (? & ? & c3 & c4 & -> & -> & H2 & H3).
      apply Lang_Plus in H1 as (_ & H1 & ->). apply Lang_ch in H2 as [-> ->]. apply Lang_Plus in H3 as (_ & H3 & ->). exists GFloat. cbn; auto 12.
    - apply Lang_Plus in H as (_ & _ & ->). exists GInt. cbn; auto 12.
    - apply Lang_cat in H as (? & ? & c1 & c2 & -> & -> & H1 & H2).
      apply Lang_cat in H2 as (? & ? & c3 & c4 & -> & -> & H2 & H3).
      apply Lang_ch in H1 as [-> ->]. apply Lang_Plus in H2 as (_ & H2 & ->). apply Lang_ch in H3 as [-> ->]. exists GList. cbn; auto 12.
    - apply Lang_Plus in H as (_ & _ & ->). exists GString. cbn; auto 12.
  Qed.
  Lemma match_caps t c : Lang all_properties t c -> exists name value g, In g type_groups /\
    c = [(GPropValue, value); (g, value); (GPropName, name)] /\ name <> [] /\ Word name /\ value <> [].
  Proof.
    intros H. apply Lang_all_properties in H as (name & value & more & E1 & Nn & W & E2 & L & ->).
    assert (Nv : value <> []).
    { intros ->. clear - L. unfold value_alts in L. apply Lang_alts in L as (r & Hr & H).
      cbn [In] in Hr. destruct Hr as [<-|[<-|[<-|[<-|[<-|[<-|[]]]]]]]; apply Lang_grp in H as (c & -> & H).
      - apply Lang_lit_ci in H as [H _]. inv H.
      - apply Lang_alt in H as [H|H]; apply Lang_lit_ci in H as [H _]; inv H.
      - apply Lang_cat in H as (u & ? & c1 & c2 & E & -> & H1 & H2). apply Lang_Plus in H1 as (N & _ & _). destruct u; [congruence|discriminate].
      - apply Lang_Plus in H as (N & _ & _). congruence.
      - apply Lang_cat in H as (u & ? & c1 & c2 & E & -> & H1 & H2). apply Lang_ch in H1 as [-> _]. discriminate.
      - apply Lang_Plus in H as (N & _ & _). congruence. }
    apply value_one_tag in L as (g & Hg & ->). exists name, value, g. split; [exact Hg|]. split; [reflexivity|]. auto.
  Qed.
  Lemma one_tag s t c : In (t, c) (finditer all_properties s) -> exists! g, In g type_groups /\ cap g c <> None.
  Proof.
    intros H. apply finditer_Lang, match_caps in H as (name & value & g & Hg & -> & _).
    exists g. split.
    - split; [exact Hg|]. cbn in Hg. repeat destruct Hg as [<- |Hg]; try contradiction; cbn; discriminate.
    - intros g' [Hg' N]. cbn in Hg, Hg'.
      repeat destruct Hg as [<- |Hg]; try contradiction; repeat destruct Hg' as [<- |Hg']; try contradiction; try reflexivity; cbn in N; congruence.
  Qed.
  Lemma one_tag_type t c : Lang all_properties t c -> exists ty, yield_type c = Ok ty.
  Proof.
    intros H. apply match_caps in H as (name & value & g & Hg & -> & _). cbn in Hg.
    repeat destruct Hg as [<- |Hg]; try contradiction; eexists; reflexivity.
  Qed.
  Lemma no_assignment_error s : (forall x, lit_ext x <> Err PropertyTypeAssignmentError) -> parse_properties s <> Err PropertyTypeAssignmentError.
  Proof.
    intros LX. unfold parse_properties.
    assert (G : forall t c, In (t, c) (finditer all_properties s) -> Lang all_properties t c) by (intros t c; apply finditer_Lang).
    revert G. generalize (finditer all_properties s) (@nil (pystr * pyval)). induction l as [|[t c] l IH]; intros d G; cbn [props_loop]; [discriminate|].
    intros E. apply bind_err in E as [E|(kv & _ & E)]; [|eapply IH; [|exact E]; intros; apply G; right; auto].
    specialize (G t c (or_introl eq_refl)). destruct (one_tag_type t c G) as [ty Ety]. unfold one_property in E.
    destruct (cap GPropName c); [|discriminate]. destruct (cap GPropValue c); [|discriminate]. destruct (strip is_space p0); [discriminate|].
    apply bind_err in E as [E|(v & _ & E)]; [|discriminate]. unfold handle_extracted in E. rewrite Ety in E. cbn [bind] in E.
    destruct ty.
    - unfold handle_null in E. destruct (str_eqb _ _); discriminate.
    - unfold handle_bool in E. destruct (str_eqb _ _); [discriminate|]. destruct (str_eqb _ _); discriminate.
    - unfold handle_float in E. destruct (contains _ _); [|discriminate]. destruct (f_repr _); discriminate.
    - unfold handle_int in E. destruct (contains _ _); [discriminate|]. destruct (clean p0); [discriminate|]. destruct (forallb _ _ && _); discriminate.
    - unfold handle_list in E. set (x := pythonise (clean p0)) in *.
      assert (N : literal_eval x <> Err PropertyTypeAssignmentError).
      { unfold literal_eval. destruct x as [|y x']; [apply LX|]. destruct (_ && _); [|apply LX].
        destruct (lex _ _); [|discriminate|apply LX]. destruct (elems _ _); [|discriminate|apply LX]. destruct (all_some _); discriminate. }
      destruct (literal_eval x) as [v|[]]; try discriminate. congruence.
    - unfold handle_string in E. destruct (existsb _ _); discriminate.
  Qed.

  Context (D : rt_data rt).

  (** ** one item *)
  Lemma strip_ne p x s : p x = false -> strip p (x :: s) <> [].
  Proof.
    intros H E. destruct (strip_spec p (x :: s)) as (a & b & E2 & Fa & Fb & _). rewrite E in E2. cbn [app] in E2.
    destruct a as [|y a]; cbn [app] in E2.
    - subst b. inv Fb. congruence.
    - injection E2 as <- _. inv Fa. congruence.
  Qed.
  Lemma one_item i : item_written i ->
    one_property (item_caps i) = let? v := handle_extracted (item_caps i) (show_value (wi_val i)) in Ok (wi_key i, v).
  Proof.
    intros [_ _ _ V _]. destruct (show_value_head D _ V) as (x & s & E & Hx). unfold one_property.
    assert (E1 : cap GPropName (item_caps i) = Some (wi_key i)) by (unfold item_caps; destruct (wi_val i) as [[]|]; reflexivity).
    rewrite E1. change (cap GPropValue (item_caps i)) with (Some (show_value (wi_val i))). cbv iota.
    destruct (strip is_space (show_value (wi_val i))) eqn:Es; [|reflexivity]. rewrite E in Es. apply strip_ne in Es; auto. contradiction.
  Qed.
  Definition ptype_of (v : wvalue) : ptype :=
    match v with
    | Scalar SNull => PNone | Scalar (SBool _) => PBool | Scalar (SInt _) => PInt | Scalar (SFrac _ _) => PFloat
    | Scalar (SStr _ _ _) => PString | List_ _ => PList
    end.
  Lemma item_type i : yield_type (item_caps i) = Ok (ptype_of (wi_val i)).
  Proof. unfold item_caps. destruct (wi_val i) as [[]|]; reflexivity. Qed.

  Lemma digit_not_edge x : is_digit0 x = true -> ~ edge x.
  Proof.
    intros H [E|E]; [unfold blank_ch in E; apply digit0_is_digit, (digit_word D), (word_not_space D) in H; congruence|].
    destruct E; subst; discriminate.
  Qed.
  Lemma last_not_edge s t x s' : s ++ t = s' ++ [x] -> t <> [] -> Forall (fun c => ~ edge c) t -> ~ edge x.
  Proof.
    intros E N F. destruct (exists_last N) as (t' & y & ->). rewrite app_assoc in E. apply app_inj_tail in E as [_ ->].
    apply Forall_app in F as [_ F]. inv F. auto.
  Qed.
  Lemma clean_digits ds : Digits ds -> clean ds = ds.
  Proof.
    intros H. apply Digits_0 in H as [N F]. apply clean_id.
    - intros x s' ->. inv F. apply digit_not_edge; auto.
    - intros x s' E. apply (last_not_edge [] ds x s'); auto. eapply Forall_impl; [|exact F]. apply digit_not_edge.
  Qed.
  Lemma not_dot ds : Forall (fun c => is_digit0 c = true) ds -> contains (py ".") ds = false.
  Proof.
    intros F. apply not_true_is_false. intros H. apply (contains_ch 46) in H. rewrite Forall_forall in F. apply F in H. discriminate.
  Qed.
  Lemma scalar_ok i s : wi_val i = Scalar s -> item_written i ->
    (forall q c w x, s = SStr q c w -> Trimmed (show_scalar s) x -> ~ In x reserved) ->
    (forall ds, s = SInt ds -> short_enough ds) ->
    exists v, one_property (item_caps i) = Ok (wi_key i, v) /\ scalar_value s v.
  Proof.
    intros Ev W R Sh. rewrite one_item by auto. destruct W as [_ _ _ V _]. rewrite Ev in V. cbn [value_written] in V.
    unfold handle_extracted. rewrite item_type, Ev. cbn [bind show_value]. destruct s as [|b|ds|a b|q c w]; cbn [ptype_of scalar_written scalar_value show_scalar] in *.
    - eexists. split; [reflexivity|reflexivity].
    - exists (VBool b). split; [|reflexivity]. destruct b; reflexivity.
    - exists (VInt (decimal ds)). split; [|reflexivity]. rewrite clean_digits by auto. apply Digits_0 in V as [N F].
      unfold handle_int. rewrite not_dot by auto. rewrite <- decimal_digits by auto. destruct ds as [|x ds]; [congruence|].
      replace (forallb is_digit0 (x :: ds)) with true by (symmetry; apply forallb_forall, Forall_forall; auto).
      specialize (Sh _ eq_refl). unfold short_enough in Sh. rewrite Sh. reflexivity.
    - destruct V as [Va Vb]. apply Digits_0 in Va as [Na Fa]. apply Digits_0 in Vb as [Nb Fb].
      destruct (rt_frac _ D a b) as [t Et]; auto. { apply forallb_forall, Forall_forall; auto. } { apply forallb_forall, Forall_forall; auto. }
      exists (VFloat t). split; [|exists t; auto].
      rewrite clean_id.
      + unfold handle_float. replace (contains (py ".") (a ++ py "." ++ b)) with true by (symmetry; apply contains_app; eauto).
        change (a ++ py "." ++ b) with (a ++ 46%N :: b). rewrite Et. reflexivity.
      + intros x s' E. destruct Fa as [|y a Hy Fa]; [congruence|]. cbn [app] in E. injection E as <- _. apply digit_not_edge; auto.
      + intros x s' E. rewrite app_assoc in E. apply (last_not_edge _ _ _ _ E Nb). eapply Forall_impl; [|exact Fb]. apply digit_not_edge.
    - set (t := [q] ++ c ++ [q] ++ w) in *. assert (T : Trimmed t (clean t)) by (apply Trimmed_clean; reflexivity).
      exists (VStr (clean t)). split; [|exists (clean t); split; [exact T|split; [eapply R; eauto|reflexivity]]].
      unfold handle_string. replace (existsb (str_eqb (clean t)) reserved_strings) with false; [reflexivity|].
      symmetry. apply not_true_is_false. intros H. apply existsb_exists in H as (k & Hk & Ek). apply str_eqb_eq in Ek. subst k.
      eapply R; eauto.
  Qed.
  Lemma clean_list t : clean (py "[" ++ t ++ py "]") = py "[" ++ t ++ py "]".
  Proof.
    assert (E1 : ~ edge 91%N) by (intros [H|[H|H]]; discriminate).
    assert (E2 : ~ edge 93%N) by (intros [H|[H|H]]; discriminate).
    apply clean_id.
    - intros x s' E. cbn in E. injection E as <- _. exact E1.
    - intros x s' E. rewrite app_assoc in E. apply app_inj_tail in E as [_ <-]. exact E2.
  Qed.
  Lemma list_ok i l : wi_val i = List_ l -> item_written i -> Forall (fun x => elem_legal (snd (fst x))) l ->
    exists vs, one_property (item_caps i) = Ok (wi_key i, VList vs) /\ Forall2 (fun x v => elem_value (snd (fst x)) v) l vs.
  Proof.
    intros Ev W NB. rewrite one_item by auto. destruct W as [_ _ _ V _]. rewrite Ev in V. cbn [value_written] in V.
    unfold handle_extracted. rewrite item_type, Ev. cbn [bind show_value ptype_of]. rewrite clean_list.
    destruct (list_values D l V NB) as (vs & E & F). exists vs. split; [|exact F].
    unfold handle_list. change (pythonise (py "[" ++ show_elems l ++ py "]")) with (respelt (py "[" ++ show_elems l ++ py "]")). rewrite E. reflexivity.
  Qed.
  Lemma list_bare_item i l : wi_val i = List_ l -> item_written i -> Forall (fun x => elem_fits (snd (fst x))) l -> Exists (fun x => is_bare (snd (fst x))) l ->
    one_property (item_caps i) = Err ValueError.
  Proof.
    intros Ev W Fi B. rewrite one_item by auto. destruct W as [_ _ _ V _]. rewrite Ev in V. cbn [value_written] in V.
    unfold handle_extracted. rewrite item_type, Ev. cbn [bind show_value ptype_of]. rewrite clean_list.
    unfold handle_list. change (pythonise (py "[" ++ show_elems l ++ py "]")) with (respelt (py "[" ++ show_elems l ++ py "]")).
    rewrite (list_bare D l V Fi B). reflexivity.
  Qed.
  Lemma list_long_item i l : wi_val i = List_ l -> item_written i -> Exists (fun x => ~ elem_fits (snd (fst x))) l ->
    one_property (item_caps i) = Err WiggleGraphIllegalPropertyValue.
  Proof.
    intros Ev W X. rewrite one_item by auto. destruct W as [_ _ _ V _]. rewrite Ev in V. cbn [value_written] in V.
    unfold handle_extracted. rewrite item_type, Ev. cbn [bind show_value ptype_of]. rewrite clean_list.
    unfold handle_list. change (pythonise (py "[" ++ show_elems l ++ py "]")) with (respelt (py "[" ++ show_elems l ++ py "]")).
    rewrite (list_long D l V X). reflexivity.
  Qed.
  Lemma reserved_item i q c w x : wi_val i = Scalar (SStr q c w) -> item_written i -> Trimmed ([q] ++ c ++ [q] ++ w) x -> In x reserved ->
    one_property (item_caps i) = Err WiggleGraphIllegalPropertyValue.
  Proof.
    intros Ev W T R. rewrite one_item by auto. unfold handle_extracted. rewrite item_type, Ev. cbn [bind show_value show_scalar ptype_of].
    apply Trimmed_clean in T. rewrite <- T. unfold handle_string.
    replace (existsb (str_eqb x) reserved_strings) with true; [reflexivity|]. symmetry. apply existsb_exists. exists x. split; [exact R|apply str_eqb_refl].
  Qed.

  (** ** the loop *)
  Lemma item_ok i : item_written i -> item_legal i -> exists v, one_property (item_caps i) = Ok (wi_key i, v) /\ item_value i v.
  Proof.
    intros W L. unfold item_legal, item_value in *. destruct (wi_val i) as [s|l] eqn:E.
    - destruct (scalar_ok i s E W) as (v & E1 & V); [| |eauto]; [intros q c w x -> T; eapply L; exact T|intros ds ->; exact L].
    - destruct (list_ok i l E W L) as (vs & E1 & V). exists (VList vs). split; [exact E1|]. eauto.
  Qed.
  Definition sets (kvs d : list (pystr * pyval)) : list (pystr * pyval) := fold_left (fun d kv => d_set (fst kv) (snd kv) d) kvs d.
  Lemma props_loop_items l : Forall item_written l -> Forall item_legal l -> exists kvs,
    Forall2 (fun i kv => fst kv = wi_key i /\ item_value i (snd kv)) l kvs /\
    forall ms d, props_loop (map (fun i => (item_match i, item_caps i)) l ++ ms) d = props_loop ms (sets kvs d).
  Proof.
    induction 1 as [|i l Wi Wl IH]; intros L; [exists []; split; [constructor|reflexivity]|]. inv L.
    destruct (IH H2) as (kvs & F & E). destruct (item_ok i Wi H1) as (v & E1 & V). exists ((wi_key i, v) :: kvs).
    split; [constructor; auto|]. intros ms d. cbn [map app props_loop]. rewrite E1. cbn [bind fst snd]. rewrite E. reflexivity.
  Qed.
  Lemma d_set_new {A} k (v : A) d : ~ In k (map fst d) -> d_set k v d = d ++ [(k, v)].
  Proof.
    induction d as [|[k' v'] d IH]; intros N; cbn [d_set app]; [reflexivity|]. cbn [map fst In] in N.
    replace (str_eqb k k') with false by (symmetry; apply str_eqb_neq; intros ->; apply N; auto). rewrite IH by tauto. reflexivity.
  Qed.
  Lemma sets_new kvs d : NoDup (map fst d ++ map fst kvs) -> sets kvs d = d ++ kvs.
  Proof.
    revert d. induction kvs as [|[k v] kvs IH]; intros d N; cbn [sets fold_left]; [rewrite app_nil_r; reflexivity|].
    cbn [map fst snd] in N. change (sets kvs (d_set k v d) = d ++ (k, v) :: kvs).
    rewrite d_set_new by (apply NoDup_remove_2 in N; rewrite in_app_iff in N; tauto).
    rewrite IH; [rewrite <- app_assoc; reflexivity|]. rewrite map_app, <- app_assoc. exact N.
  Qed.
  Lemma items_keys l kvs : Forall2 (fun i kv => fst kv = wi_key i /\ item_value i (snd kv)) l kvs -> map fst kvs = map wi_key l.
  Proof. induction 1 as [|i kv l kvs [H _] F IH]; cbn; congruence. Qed.

  (** every key has the value of its last item *)
  Lemma d_set_get_other {A} k k' (v v' : A) d : k <> k' -> In (k, v) (d_set k' v' d) <-> In (k, v) d.
  Proof.
    intros N. induction d as [|[q w] d IH]; cbn [d_set In]; [split; [intros [H|[]]; inv H; congruence|tauto]|].
    str_case k' q; cbn [In]; [|rewrite IH; tauto]. subst. split; (intros [H|H]; [inv H; congruence|auto]).
  Qed.
  Lemma d_set_get_same {A} k (v v' : A) d : NoDup (map fst d) -> In (k, v) (d_set k v' d) <-> v = v'.
  Proof.
    induction d as [|[q w] d IH]; intros N; cbn [d_set In]; [split; [intros [H|[]]; inv H; auto|intros ->; auto]|].
    cbn [map fst] in N. inv N. str_case k q; cbn [In].
    - subst q. split; [intros [H|H]; [inv H; auto|exfalso; apply H1; change k with (fst (k, v)); apply in_map; auto]|intros ->; auto].
    - rewrite IH by auto. split; [intros [H|H]; [inv H; congruence|auto]|auto].
  Qed.
  Lemma sets_dictionary kvs : dictionary_of kvs (sets kvs []).
  Proof.
    assert (G : forall kvs d, NoDup (map fst d) -> NoDup (map fst (sets kvs d)) /\
      forall k v, In (k, v) (sets kvs d) <-> last_value kvs k v \/ (In (k, v) d /\ ~ In k (map fst kvs))).
    { clear. induction kvs as [|[k0 v0] kvs IH]; intros d N; cbn [sets fold_left].
      - split; [exact N|]. intros k v. split; [intros H; right; auto|]. intros [(a & b & E & _)|[H _]]; [destruct a; discriminate|exact H].
      - assert (N' : NoDup (map fst (d_set k0 v0 d))) by (apply d_set_NoDup; exact N).
        destruct (IH _ N') as [G1 G2]. split; [exact G1|]. intros k v. change (In (k, v) (sets kvs (d_set k0 v0 d)) <-> last_value ((k0, v0) :: kvs) k v \/ In (k, v) d /\ ~ In k (map fst ((k0, v0) :: kvs))).
        rewrite G2. cbn [map fst In snd]. split.
        + intros [(a & b & E & H)|[H1 H2]].
          * left. exists ((k0, v0) :: a), b. rewrite E. auto.
          * destruct (str_eq_dec k k0) as [->|Nk].
            -- apply d_set_get_same in H1; [|exact N]. subst. left. exists [], kvs. auto.
            -- apply d_set_get_other in H1; [|exact Nk]. right. split; [exact H1|]. intros [H|H]; [congruence|contradiction].
        + intros [(a & b & E & H)|[H1 H2]].
          * destruct a as [|y a]; cbn [app] in E; inv E; [|left; exists a, b; auto].
            right. split; [apply d_set_get_same; auto|exact H].
          * right. split; [|tauto]. apply d_set_get_other; [|exact H1]. intros ->. apply H2. auto. }
    destruct (G kvs [] (NoDup_nil _)) as [G1 G2]. split; [exact G1|]. intros k v. rewrite G2. cbn [In]. tauto.
  Qed.

  Lemma parse_written l sp : Forall item_written l -> Forall item_legal l -> all_space sp -> exists kvs,
    Forall2 (fun i kv => fst kv = wi_key i /\ item_value i (snd kv)) l kvs /\ parse_properties (show_props l ++ sp) = Ok (sets kvs []).
  Proof.
    intros W L B. unfold parse_properties. rewrite (finditer_props D) by auto. destruct (props_loop_items l W L) as (kvs & F & E).
    exists kvs. split; [exact F|]. specialize (E [] []). rewrite app_nil_r in E. exact E.
  Qed.
  Theorem parse_distinct l sp : Forall item_written l -> Forall item_legal l -> all_space sp -> NoDup (map wi_key l) -> exists d,
    parse_properties (show_props l ++ sp) = Ok d /\ Forall2 (fun i kv => fst kv = wi_key i /\ item_value i (snd kv)) l d.
  Proof.
    intros W L B N. destruct (parse_written l sp W L B) as (kvs & F & E). exists kvs. split; [|exact F].
    rewrite sets_new in E; [exact E|]. cbn [map app]. rewrite (items_keys _ _ F). exact N.
  Qed.
  Theorem parse_repeated l sp : Forall item_written l -> Forall item_legal l -> all_space sp -> exists kvs d,
    parse_properties (show_props l ++ sp) = Ok d /\ Forall2 (fun i kv => fst kv = wi_key i /\ item_value i (snd kv)) l kvs /\ dictionary_of kvs d.
  Proof.
    intros W L B. destruct (parse_written l sp W L B) as (kvs & F & E). exists kvs, (sets kvs []). split; [exact E|]. split; [exact F|apply sets_dictionary].
  Qed.
  Lemma parse_fails l i l' sp e : Forall item_written (l ++ i :: l') -> Forall item_legal l -> all_space sp ->
    one_property (item_caps i) = Err e -> parse_properties (show_props (l ++ i :: l') ++ sp) = Err e.
  Proof.
    intros W L B E. unfold parse_properties. rewrite (finditer_props D) by auto. rewrite map_app. apply Forall_app in W as [W1 W2].
    destruct (props_loop_items l W1 L) as (kvs & F & E2). rewrite E2. cbn [map props_loop]. rewrite E. reflexivity.
  Qed.

  (** ** values as written *)
  Lemma Trimmed_bare q c : quote_mark q -> bare_content c -> Trimmed ([q] ++ c ++ [q] ++ []) c.
  Proof.
    intros Q (H1 & H2 & _). rewrite app_nil_r.
    assert (E34 : forall x, edge x <-> blank_ch x \/ x = 39%N \/ x = 34%N) by (intros x; unfold edge, quote_mark; tauto).
    assert (CI : forall P : N -> Prop, (forall x, P x -> edge x) -> cut P c c).
    { intros P HP. exists [], []. rewrite app_nil_r. split; [reflexivity|]. do 2 (split; [constructor|]).
      split; intros x t' E; [specialize (H1 x t' E)|specialize (H2 x t' E)]; auto. }
    assert (CO : forall P : N -> Prop, P q -> (forall x, P x -> edge x) -> cut P ([q] ++ c ++ [q]) c).
    { intros P Pq HP. exists [q], [q]. split; [reflexivity|]. do 2 (split; [constructor; auto|]).
      split; intros x t' E; [specialize (H1 x t' E)|specialize (H2 x t' E)]; auto. }
    destruct Q as [-> | ->].
    - exists ([39%N] ++ c ++ [39%N]), c. split; [|split].
      + exists [], []. rewrite app_nil_r. split; [reflexivity|]. do 2 (split; [constructor|]). split.
        * intros x t' E. cbn in E. injection E as <- _. discriminate.
        * intros x t' E. rewrite app_assoc in E. apply app_inj_tail in E as [_ <-]. discriminate.
      + apply CO; [reflexivity|]. intros x <-. right. left. reflexivity.
      + apply CI. intros x Hx. left. exact Hx.
    - exists c, c. split; [|split].
      + apply CO; [reflexivity|]. intros x <-. right. right. reflexivity.
      + apply CI. intros x <-. right. left. reflexivity.
      + apply CI. intros x Hx. left. exact Hx.
  Qed.
  Lemma Trimmed_fun s x y : Trimmed s x -> Trimmed s y -> x = y.
  Proof. rewrite !Trimmed_clean. congruence. Qed.
  Lemma plain_elem_legal e : elem_plain e -> elem_legal e.
  Proof. unfold elem_legal. destruct e as [[|b|ds|a b|q c w]|w]; cbn [elem_plain is_bare elem_fits]; tauto. Qed.
  Lemma plain_legal i : item_written i -> item_plain i -> item_legal i.
  Proof.
    intros [_ _ _ V _] P. unfold item_plain, item_legal in *. destruct (wi_val i) as [[|b|ds|a b|q c w]|l]; try exact I.
    - exact P.
    - cbn in P, V. destruct P as [-> P]. intros x T. rewrite (Trimmed_fun _ x c T) by (apply Trimmed_bare; tauto). apply P.
    - eapply Forall_impl; [|exact P]. intros [[a e] b]. apply plain_elem_legal.
  Qed.
  Lemma plain_values i v : item_written i -> item_plain i -> item_value i v -> item_plain_value i v.
  Proof.
    intros [_ _ _ V _] P. unfold item_plain, item_value, item_plain_value in *. destruct (wi_val i) as [s|l].
    - destruct s as [|b|ds|a b|q c w]; auto. cbn in *. destruct P as [-> P]. intros (x & T & _ & ->).
      rewrite (Trimmed_fun _ x c T) by (apply Trimmed_bare; tauto). reflexivity.
    - intros (vs & -> & F). exists vs. split; [reflexivity|]. destruct V as [_ V]. clear -P V F. induction F as [|[[a e] b] v l vs Hv F IH]; [constructor|].
      inv P. inv V. constructor; [|auto]. cbn [fst snd] in *. destruct e as [s|]; [|contradiction]. destruct s; auto.
      cbn in *. rewrite Hv, respelt_same; auto.
  Qed.
  Theorem parse_plain l sp : Forall item_written l -> Forall item_plain l -> all_space sp -> NoDup (map wi_key l) -> exists d,
    parse_properties (show_props l ++ sp) = Ok d /\ Forall2 (fun i kv => fst kv = wi_key i /\ item_plain_value i (snd kv)) l d.
  Proof.
    intros W P B N. destruct (parse_distinct l sp) as (d & E & F); auto.
    { clear -W P D. induction W; inv P; constructor; auto. apply plain_legal; auto. }
    exists d. split; [exact E|]. clear -W P F D. induction F as [|i kv l d [H1 H2] F IH]; [constructor|]. inv W. inv P. constructor; [|auto].
    split; [exact H1|apply plain_values; auto].
  Qed.

  (** ** C15: the closing quote stays *)
  Lemma Trimmed_kept q c w : quote_mark q -> c <> [] -> (forall x c', c = x :: c' -> ~ edge x) -> w <> [] -> all_space w ->
    Trimmed ([q] ++ c ++ [q] ++ w) (c ++ [q]).
  Proof.
    intros Q Nc H1 Nw B. destruct (exists_last Nw) as (w' & z & Ew).
    assert (Hz : is_space z = true) by (subst w; apply Forall_app in B as [_ B]; inv B; auto).
    assert (Bq : forall x, quote_mark x -> is_space x = false) by (intros x [-> | ->]; reflexivity).
    destruct c as [|y c]; [congruence|]. specialize (H1 y c eq_refl).
    assert (last_w : forall P : N -> Prop, (forall x, P x -> quote_mark x) -> forall s x t', s ++ w = t' ++ [x] -> ~ P x).
    { intros P HP s x t' E. rewrite Ew, app_assoc in E. apply app_inj_tail in E as [_ <-]. intros X. apply HP, Bq in X. congruence. }
    assert (S : forall P : N -> Prop, (forall x, P x -> quote_mark x) -> cut P ((y :: c) ++ [q] ++ w) ((y :: c) ++ [q] ++ w)).
    { intros P HP. exists [], []. rewrite app_nil_r. split; [reflexivity|]. do 2 (split; [constructor|]). split.
      - intros x t' E. cbn in E. injection E as <- _. intros X. apply H1. right. apply HP, X.
      - intros x t' E. rewrite app_assoc in E. eapply last_w; eauto. }
    assert (T : forall P : N -> Prop, P q -> (forall x, P x -> quote_mark x) -> cut P ([q] ++ (y :: c) ++ [q] ++ w) ((y :: c) ++ [q] ++ w)).
    { intros P Pq HP. exists [q], []. rewrite app_nil_r. split; [reflexivity|]. split; [constructor; auto|]. split; [constructor|]. split.
      - intros x t' E. cbn in E. injection E as <- _. intros X. apply H1. right. apply HP, X.
      - intros x t' E. rewrite app_assoc in E. eapply last_w; eauto. }
    assert (U : cut blank_ch ((y :: c) ++ [q] ++ w) ((y :: c) ++ [q])).
    { exists [], w. rewrite <- app_assoc. split; [reflexivity|]. split; [constructor|]. split; [exact B|]. split.
      - intros x t' E. cbn in E. injection E as <- _. intros X. apply H1. left. exact X.
      - intros x t' E. apply app_inj_tail in E as [_ <-]. unfold blank_ch. rewrite Bq by exact Q. discriminate. }
    destruct Q as [-> | ->].
    - exists ([39%N] ++ (y :: c) ++ [39%N] ++ w), ((y :: c) ++ [39%N] ++ w). split; [|split; [|exact U]].
      + exists [], []. rewrite app_nil_r. split; [reflexivity|]. do 2 (split; [constructor|]). split.
        * intros x t' E. cbn in E. injection E as <- _. discriminate.
        * intros x t' E. rewrite !app_assoc in E. eapply last_w; [|exact E]. intros z' <-. right. reflexivity.
      + apply T; [reflexivity|]. intros x <-. left. reflexivity.
    - exists ((y :: c) ++ [34%N] ++ w), ((y :: c) ++ [34%N] ++ w). split; [|split; [|exact U]].
      + apply T; [reflexivity|]. intros x <-. right. reflexivity.
      + apply S. intros x <-. left. reflexivity.
  Qed.
  (** blanks and quotes around the content *)
  Lemma Trimmed_around (a1 a2 a3 c b3 b2 b1 : pystr) : Forall (eq 34%N) a1 -> Forall (eq 39%N) a2 -> all_space a3 ->
    Forall (eq 34%N) b1 -> Forall (eq 39%N) b2 -> all_space b3 ->
    c <> [] -> (forall x c', c = x :: c' -> ~ edge x) -> (forall x c', c = c' ++ [x] -> ~ edge x) ->
    Trimmed (a1 ++ a2 ++ a3 ++ c ++ b3 ++ b2 ++ b1) c.
  Proof.
    intros A1 A2 A3 B1 B2 B3 Nc H1 H2. destruct c as [|y c0] eqn:Ec; [congruence|]. rewrite <- Ec in *. clear Nc.
    destruct (exists_last (l := c)) as (c1 & z & Ez); [subst; discriminate|].
    pose proof (H1 _ _ Ec) as Hy. pose proof (H2 _ _ Ez) as Hz.
    assert (Bq : forall x, is_space x = true -> x <> 39%N /\ x <> 34%N) by (intros x Hx; split; intros ->; discriminate).
    (* first and last character of blanks around c *)
    assert (HF : forall (P : N -> Prop) a t x t', (forall x, P x -> ~ In x a) -> ~ P y -> a ++ c ++ t = x :: t' -> ~ P x).
    { intros P a t x t' Na Ny E X. destruct a as [|a0 a]; cbn [app] in E.
      - rewrite Ec in E. cbn [app] in E. injection E as <- _. contradiction.
      - injection E as <- _. eapply Na; [exact X|left; reflexivity]. }
    assert (HL : forall (P : N -> Prop) b t x t', (forall x, P x -> ~ In x b) -> ~ P z -> t ++ c ++ b = t' ++ [x] -> ~ P x).
    { intros P b t x t' Nb Nz E X. assert (Cb : b = [] \/ exists b' b0, b = b' ++ [b0]).
      { destruct b as [|e1 e2]; [left; reflexivity|right]. destruct (exists_last (l := e1 :: e2)) as (b' & b0 & ->); [discriminate|eauto]. }
      destruct Cb as [-> |(b' & b0 & ->)].
      - rewrite app_nil_r, Ez, app_assoc in E. apply app_inj_tail in E as [_ <-]. contradiction.
      - rewrite !app_assoc in E. apply app_inj_tail in E as [_ <-]. eapply Nb; [exact X|apply in_or_app; right; left; reflexivity]. }
    assert (I2 : forall l x, Forall (eq 39%N) l -> 34%N = x -> ~ In x l).
    { intros l x F <- X. rewrite Forall_forall in F. apply F in X. discriminate. }
    assert (I3 : forall l x, all_space l -> (39%N = x \/ 34%N = x) -> ~ In x l).
    { intros l x F X Y. unfold all_space in F. rewrite Forall_forall in F. apply F, Bq in Y. intuition. }
    exists (a2 ++ a3 ++ c ++ b3 ++ b2), (a3 ++ c ++ b3). split; [|split].
    - exists a1, b1. split; [rewrite <- !app_assoc; reflexivity|]. split; [auto|]. split; [auto|]. split.
      + intros x t' E. rewrite app_assoc in E. apply (HF (eq 34%N) _ _ _ _) in E; auto.
        * intros u <- X. apply in_app_or in X as [X|X]; [exact (I2 _ _ A2 eq_refl X)|exact (I3 _ _ A3 (or_intror eq_refl) X)].
        * intros <-. apply Hy. right. right. reflexivity.
      + intros x t' E. rewrite (app_assoc a2) in E. apply (HL (eq 34%N)) in E; auto.
        * intros u <- X. apply in_app_or in X as [X|X]; [exact (I3 _ _ B3 (or_intror eq_refl) X)|exact (I2 _ _ B2 eq_refl X)].
        * intros <-. apply Hz. right. right. reflexivity.
    - exists a2, b2. split; [rewrite <- !app_assoc; reflexivity|]. split; [auto|]. split; [auto|]. split.
      + intros x t' E. apply (HF (eq 39%N)) in E; auto.
        intros <-. apply Hy. right. left. reflexivity.
      + intros x t' E. apply (HL (eq 39%N)) in E; auto.
        intros <-. apply Hz. right. left. reflexivity.
    - exists a3, b3. split; [reflexivity|]. split; [exact A3|]. split; [exact B3|]. split.
      + intros x t' E X. eapply H1; [exact E|]. left. exact X.
      + intros x t' E X. eapply H2; [exact E|]. left. exact X.
  Qed.

  (** ** as called by MAKE and FIND *)
  Lemma get_parse l sp : get_property_dict (Some (show_props l ++ sp)) = let? d := parse_properties (show_props l ++ sp) in Ok (Some d).
  Proof. reflexivity. Qed.
  Lemma Forall2_In_l {A B} (R : A -> B -> Prop) l l' a : Forall2 R l l' -> In a l -> exists b, In b l' /\ R a b.
  Proof. induction 1 as [|x y l l' H F IH]; [intros []|]. intros [E|E]; [subst; exists y; cbn; auto|]. destruct (IH E) as (b & Hb & Rb). exists b. cbn; auto. Qed.

  Theorem get_distinct l sp : Forall item_written l -> Forall item_legal l -> all_space sp -> NoDup (map wi_key l) -> exists d,
    get_property_dict (Some (show_props l ++ sp)) = Ok (Some d) /\ Forall2 (fun i kv => fst kv = wi_key i /\ item_value i (snd kv)) l d.
  Proof. intros W L B N. destruct (parse_distinct l sp W L B N) as (d & E & F). exists d. rewrite get_parse, E. auto. Qed.
  Theorem get_plain l sp : Forall item_written l -> Forall item_plain l -> all_space sp -> NoDup (map wi_key l) -> exists d,
    get_property_dict (Some (show_props l ++ sp)) = Ok (Some d) /\ Forall2 (fun i kv => fst kv = wi_key i /\ item_plain_value i (snd kv)) l d.
  Proof. intros W L B N. destruct (parse_plain l sp W L B N) as (d & E & F). exists d. rewrite get_parse, E. auto. Qed.
  Theorem get_repeated l sp : Forall item_written l -> Forall item_legal l -> all_space sp -> exists kvs d,
    get_property_dict (Some (show_props l ++ sp)) = Ok (Some d) /\ Forall2 (fun i kv => fst kv = wi_key i /\ item_value i (snd kv)) l kvs /\ dictionary_of kvs d.
  Proof. intros W L B. destruct (parse_repeated l sp W L B) as (kvs & d & E & F). exists kvs, d. rewrite get_parse, E. auto. Qed.
  Theorem get_reserved l i l' sp q c w x : Forall item_written (l ++ i :: l') -> Forall item_legal l -> all_space sp ->
    wi_val i = Scalar (SStr q c w) -> Trimmed ([q] ++ c ++ [q] ++ w) x -> In x reserved ->
    get_property_dict (Some (show_props (l ++ i :: l') ++ sp)) = Err WiggleGraphIllegalPropertyValue.
  Proof.
    intros W L B E T R. rewrite get_parse. rewrite (parse_fails l i l' sp WiggleGraphIllegalPropertyValue); auto.
    apply (reserved_item i q c w x); auto. apply Forall_app in W as [_ W]. inv W. auto.
  Qed.
  Lemma long_item i ds : item_written i -> wi_val i = Scalar (SInt ds) -> ~ short_enough ds -> one_property (item_caps i) = Err WiggleGraphIllegalPropertyValue.
  Proof.
    intros W Ev Sh. rewrite one_item by auto. destruct W as [_ _ _ V _]. rewrite Ev in V. cbn [value_written scalar_written] in V.
    unfold handle_extracted. rewrite item_type, Ev. cbn [bind show_value ptype_of show_scalar]. rewrite clean_digits by auto. apply Digits_0 in V as [N F].
    unfold handle_int. rewrite not_dot by auto. destruct ds as [|x ds]; [congruence|]. unfold short_enough in Sh.
    apply not_true_is_false in Sh. rewrite Sh, andb_false_r. reflexivity.
  Qed.
  Theorem get_long l i l' sp ds : Forall item_written (l ++ i :: l') -> Forall item_legal l -> all_space sp ->
    wi_val i = Scalar (SInt ds) -> ~ short_enough ds ->
    get_property_dict (Some (show_props (l ++ i :: l') ++ sp)) = Err WiggleGraphIllegalPropertyValue.
  Proof.
    intros W L B E Sh. rewrite get_parse. rewrite (parse_fails l i l' sp WiggleGraphIllegalPropertyValue); auto.
    apply (long_item i ds); auto. apply Forall_app in W as [_ W]. inv W. auto.
  Qed.
  Theorem get_bare l i l' sp els : Forall item_written (l ++ i :: l') -> Forall item_legal l -> all_space sp ->
    wi_val i = List_ els -> Forall (fun x => elem_fits (snd (fst x))) els -> Exists (fun x => is_bare (snd (fst x))) els ->
    get_property_dict (Some (show_props (l ++ i :: l') ++ sp)) = Err ValueError.
  Proof.
    intros W L B E Fi X. rewrite get_parse. rewrite (parse_fails l i l' sp ValueError); auto.
    apply (list_bare_item i els); auto. apply Forall_app in W as [_ W]. inv W. auto.
  Qed.
  Theorem get_list_long l i l' sp els : Forall item_written (l ++ i :: l') -> Forall item_legal l -> all_space sp ->
    wi_val i = List_ els -> Exists (fun x => ~ elem_fits (snd (fst x))) els ->
    get_property_dict (Some (show_props (l ++ i :: l') ++ sp)) = Err WiggleGraphIllegalPropertyValue.
  Proof.
    intros W L B E X. rewrite get_parse. rewrite (parse_fails l i l' sp WiggleGraphIllegalPropertyValue); auto.
    apply (list_long_item i els); auto. apply Forall_app in W as [_ W]. inv W. auto.
  Qed.
  (** the value of one string among the properties *)
  Lemma string_legal i q c w x : wi_val i = Scalar (SStr q c w) -> Trimmed ([q] ++ c ++ [q] ++ w) x -> ~ In x reserved -> item_legal i.
  Proof. unfold item_legal. intros -> T R y Ty. rewrite (Trimmed_fun _ y x Ty T). exact R. Qed.
  Lemma get_string l i l' sp q c w x : Forall item_written (l ++ i :: l') -> Forall item_legal (l ++ l') -> all_space sp ->
    NoDup (map wi_key (l ++ i :: l')) -> wi_val i = Scalar (SStr q c w) -> Trimmed ([q] ++ c ++ [q] ++ w) x -> ~ In x reserved ->
    exists d, get_property_dict (Some (show_props (l ++ i :: l') ++ sp)) = Ok (Some d) /\ In (wi_key i, VStr x) d.
  Proof.
    intros W L B N E T R. destruct (get_distinct (l ++ i :: l') sp W) as (d & E2 & F); auto.
    { apply Forall_app in L as [L1 L2]. apply Forall_app. split; [auto|]. constructor; [|auto]. eapply string_legal; eauto. }
    exists d. split; [exact E2|]. destruct (Forall2_In_l _ _ _ i F) as ([k v] & Hk & E3 & V); [apply in_elt|]. cbn [fst snd] in *. subst k.
    unfold item_value in V. rewrite E in V. cbn in V. destruct V as (y & Ty & _ & ->). rewrite (Trimmed_fun _ x y T Ty). exact Hk.
  Qed.
  Theorem get_kept_quote l i l' sp q c w : Forall item_written (l ++ i :: l') -> Forall item_legal (l ++ l') -> all_space sp ->
    NoDup (map wi_key (l ++ i :: l')) -> wi_val i = Scalar (SStr q c w) -> w <> [] -> c <> [] -> (forall x c', c = x :: c' -> ~ edge x) ->
    exists d, get_property_dict (Some (show_props (l ++ i :: l') ++ sp)) = Ok (Some d) /\ In (wi_key i, VStr (c ++ [q])) d.
  Proof.
    intros W L B N E Nw Nc H. assert (Wi : item_written i) by (apply Forall_app in W as [_ W]; inv W; auto).
    destruct Wi as [_ _ _ V _]. rewrite E in V. destruct V as (Q & _ & Bw).
    apply (get_string l i l' sp q c w (c ++ [q])); auto.
    - apply Trimmed_kept; auto.
    - clear -Q. intros R.
      assert (X : forall s, In s reserved -> forall a, s <> a ++ [q]).
      { intros s Hs a Ea. apply (f_equal (fun l => List.last l 0%N)) in Ea. rewrite last_last in Ea.
        cbn [In reserved] in Hs. repeat destruct Hs as [<- |Hs]; try contradiction; vm_compute in Ea; destruct Q; subst; discriminate. }
      eapply X; [exact R|reflexivity].
  Qed.
  Theorem get_trimmed l i l' sp q c w (a1 a2 a3 t b3 b2 b1 : pystr) : Forall item_written (l ++ i :: l') -> Forall item_legal (l ++ l') -> all_space sp ->
    NoDup (map wi_key (l ++ i :: l')) -> wi_val i = Scalar (SStr q c w) ->
    [q] ++ c ++ [q] ++ w = a1 ++ a2 ++ a3 ++ t ++ b3 ++ b2 ++ b1 ->
    Forall (eq 34%N) a1 -> Forall (eq 39%N) a2 -> all_space a3 -> Forall (eq 34%N) b1 -> Forall (eq 39%N) b2 -> all_space b3 ->
    t <> [] -> bare_content t ->
    exists d, get_property_dict (Some (show_props (l ++ i :: l') ++ sp)) = Ok (Some d) /\ In (wi_key i, VStr t) d.
  Proof.
    intros W L B N E Et A1 A2 A3 B1 B2 B3 Nt (H1 & H2 & R). apply (get_string l i l' sp q c w t); auto.
    rewrite Et. apply Trimmed_around; auto.
  Qed.
  (** the value of one list among the properties *)
  Lemma get_list l i l' sp els : Forall item_written (l ++ i :: l') -> Forall item_legal (l ++ l') -> all_space sp ->
    NoDup (map wi_key (l ++ i :: l')) -> wi_val i = List_ els -> Forall (fun x => elem_legal (snd (fst x))) els ->
    exists d vs, get_property_dict (Some (show_props (l ++ i :: l') ++ sp)) = Ok (Some d) /\ In (wi_key i, VList vs) d /\
      Forall2 (fun x v => elem_value (snd (fst x)) v) els vs.
  Proof.
    intros W L B N E NB. destruct (get_distinct (l ++ i :: l') sp W) as (d & E2 & F); auto.
    { apply Forall_app in L as [L1 L2]. apply Forall_app. split; [auto|]. constructor; [|auto]. unfold item_legal. rewrite E. exact NB. }
    destruct (Forall2_In_l _ _ _ i F) as ([k v] & Hk & E3 & V); [apply in_elt|]. cbn [fst snd] in *. subst k.
    unfold item_value in V. rewrite E in V. destruct V as (vs & -> & FV). exists d, vs. auto.
  Qed.
  Theorem get_list_plain l i l' sp els : Forall item_written (l ++ i :: l') -> Forall item_legal (l ++ l') -> all_space sp ->
    NoDup (map wi_key (l ++ i :: l')) -> wi_val i = List_ els -> Forall (fun x => elem_plain (snd (fst x))) els ->
    exists d vs, get_property_dict (Some (show_props (l ++ i :: l') ++ sp)) = Ok (Some d) /\ In (wi_key i, VList vs) d /\
      Forall2 (fun x v => elem_plain_value (snd (fst x)) v) els vs.
  Proof.
    intros W L B N E P. destruct (get_list l i l' sp els W L B N E) as (d & vs & E1 & I1 & F).
    { eapply Forall_impl; [|exact P]. intros [[a e] b]. apply plain_elem_legal. }
    exists d, vs. split; [exact E1|]. split; [exact I1|]. clear -P F. induction F as [|[[a e] b] v els vs Hv F IH]; [constructor|].
    inv P. constructor; [|auto]. cbn [fst snd] in *. destruct e as [s|]; [|contradiction]. destruct s; auto. cbn in *. rewrite Hv, respelt_same; auto.
  Qed.
  Theorem get_list_altered l i l' sp e1 a q c w b e2 : Forall item_written (l ++ i :: l') -> Forall item_legal (l ++ l') -> all_space sp ->
    NoDup (map wi_key (l ++ i :: l')) -> wi_val i = List_ (e1 ++ (a, Elem (SStr q c w), b) :: e2) ->
    Forall (fun x => elem_legal (snd (fst x))) (e1 ++ e2) -> has_literal c ->
    exists d v1 c' v2, get_property_dict (Some (show_props (l ++ i :: l') ++ sp)) = Ok (Some d) /\
      In (wi_key i, VList (v1 ++ VStr c' :: v2)) d /\ List.length v1 = List.length e1 /\ c' = respelt c /\ c' <> c.
  Proof.
    intros W L B N E NB H. destruct (get_list l i l' sp _ W L B N E) as (d & vs & E1 & I1 & F).
    { apply Forall_app in NB as [N1 N2]. apply Forall_app. split; [exact N1|]. constructor; [split; [intros X; exact X|exact I]|exact N2]. }
    apply Forall2_app_inv_l in F as (v1 & v2 & F1 & F2 & ->). inversion F2 as [|x y e2' v2' Hy F2' Ea Eb]. subst. cbn in Hy. subst y.
    exists d, v1, (respelt c), v2'. split; [exact E1|]. split; [exact I1|]. split; [|split; [reflexivity|apply respelt_changes; exact H]].
    clear -F1. induction F1; cbn; congruence.
  Qed.
End ValueMore.
