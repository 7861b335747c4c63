(** * PropsFacts: parsed property values can be written and read back *)
From Verif Require Import PyBase BaseFacts Regex RegexSpec RegexFacts Patterns SpecText RegexMore Json JsonFacts Literal Props RtLaws.
From Coq Require Import ZifyBool ZifyN ZifyNat.

Section PropsFacts.
  Context {rt : PyRt} (D : rt_data rt).

  Lemma ascii_ok c : is_ascii c = true -> ch_ok c.
  Proof. unfold is_ascii, ch_ok, is_high, between. lia. Qed.
  Lemma word_ok c : is_word c = true -> ch_ok c.
  Proof. unfold is_word. destruct (is_ascii c) eqn:E; [intros _; apply ascii_ok; auto|apply (rt_word_ch _ D)]. Qed.
  Lemma space_ok c : is_space c = true -> ch_ok c.
  Proof. unfold is_space. destruct (is_ascii c) eqn:E; [intros _; apply ascii_ok; auto|apply (rt_space_ch _ D)]. Qed.
  Lemma punct_ok s c : forallb is_ascii s = true -> existsb (N.eqb c) s = true -> ch_ok c.
  Proof.
    rewrite forallb_forall, existsb_exists. intros H (x & Hx & E). apply N.eqb_eq in E. subst. apply ascii_ok; auto.
  Qed.
  Lemma list_ch_ok c : is_list_ch c = true -> ch_ok c.
  Proof.
    unfold is_list_ch. intros H. apply orb_prop in H as [H|H]; [apply orb_prop in H as [H|H]|].
    - apply word_ok; auto. - apply space_ok; auto. - eapply punct_ok; [|exact H]. reflexivity.
  Qed.
  Lemma string_ch_ok c : is_string_ch c = true -> ch_ok c.
  Proof.
    unfold is_string_ch. intros H. apply orb_prop in H as [H|H]; [apply orb_prop in H as [H|H]|].
    - apply word_ok; auto. - apply space_ok; auto. - eapply punct_ok; [|exact H]. reflexivity.
  Qed.

  Lemma Forall_imp_str (p : N -> bool) s : (forall c, p c = true -> ch_ok c) -> Forall (fun c => p c = true) s -> str_ok s.
  Proof. intros H. unfold str_ok. apply Forall_impl. auto. Qed.

  Lemma str_ok_app a b : str_ok (a ++ b) <-> str_ok a /\ str_ok b.
  Proof. apply Forall_app. Qed.

  Lemma py_ok s : forallb is_ascii s = true -> str_ok s.
  Proof. rewrite forallb_forall. intros H. apply Forall_forall. intros c Hc. apply ascii_ok; auto. Qed.

  Lemma replace_from_ok old new k s : str_ok new -> str_ok s -> str_ok (replace_from old new k s).
  Proof.
    intros Hn. revert k; induction s as [|x s IH]; intros k Hs; [constructor|].
    inv Hs. cbn [replace_from]. destruct k; [|auto]. destruct (starts_with old (x :: s)).
    - apply str_ok_app; split; [auto|apply IH; auto].
    - constructor; auto. apply IH; auto.
  Qed.
  Lemma pythonise_ok s : str_ok s -> str_ok (pythonise s).
  Proof.
    intros H. unfold pythonise, replace.
    apply replace_from_ok; [apply py_ok; reflexivity|].
    apply replace_from_ok; [apply py_ok; reflexivity|].
    apply replace_from_ok; [apply py_ok; reflexivity|auto].
  Qed.

  (** ** the lexer *)
  Definition atom_ok (a : atom) : Prop :=
    match a with AVal v => val_ok v | AStr s => str_ok s | _ => True end.
  Definition lexed_ok (l : lexed) : Prop := match l with LexOk l => Forall atom_ok l | _ => True end.

  Lemma quoted_ok q s t r : str_ok s -> quoted q s = Some (Some (t, r)) -> str_ok t /\ str_ok r.
  Proof.
    revert t r; induction s as [|c s IH]; intros t r H; cbn [quoted]; [discriminate|].
    inv H. destruct (N.eqb c q). { intros E; inv E. split; [constructor|auto]. }
    destruct (N.eqb c 92); [discriminate|]. destruct (N.eqb c 10); [discriminate|].
    destruct (N.eqb c 13 || N.eqb c 0); [discriminate|].
    destruct (quoted q s) as [[[t' r']|]|]; try discriminate.
    intros E. inv E. destruct (IH _ _ H3 eq_refl). split; auto. constructor; auto.
  Qed.
  Lemma span_ok p s a b : str_ok s -> span p s = (a, b) -> str_ok a /\ str_ok b.
  Proof.
    revert a b; induction s as [|c s IH]; intros a b H; cbn [span].
    - intros E; inv E. auto.
    - inv H. destruct (p c).
      + destruct (span p s) as [a' b'] eqn:E. intros X; inv X. destruct (IH _ _ H3 eq_refl). split; auto. constructor; auto.
      + intros X; inv X. split; constructor; auto.
  Qed.
  Lemma lex_cons_ok a l : atom_ok a -> lexed_ok l -> lexed_ok (lex_cons a l).
  Proof. destruct l; simpl; auto. Qed.
  Lemma lex_app_ok a b : lexed_ok a -> lexed_ok b -> lexed_ok (lex_app a b).
  Proof. destruct a, b; simpl; auto. intros. apply Forall_app; auto. Qed.
  Lemma number_atom_ok run : lexed_ok (number_atom run).
  Proof.
    unfold number_atom. destruct (forallb is_digit0 run).
    - destruct run as [|c [|c2 r]]; [repeat constructor..|].
      destruct (N.eqb c 48 && negb (forallb (N.eqb 48) (c :: c2 :: r))); [exact I|].
      destruct (negb (N.eqb c 48) && _); repeat constructor.
    - destruct (span is_digit0 run) as [ip [|c fr]]; [exact I|].
      destruct (_ && _ && _); [|exact I]. destruct (f_repr run) eqn:E; [|exact I].
      constructor; [|constructor]. simpl. apply vo_float. eapply rt_float; eauto.
  Qed.
  Lemma name_atom_ok run : lexed_ok (name_atom run).
  Proof.
    unfold name_atom. repeat (match goal with |- context [if ?b then _ else _] => destruct b end; [repeat constructor|]).
    repeat constructor.
  Qed.

  Lemma lex_ok f s : str_ok s -> lexed_ok (lex f s).
  Proof.
    revert s; induction f as [|f IH]; intros s H; [exact I|].
    destruct s as [|c s]; [constructor|]. pose proof H as H0. inv H0.
    cbn [lex]. destruct (is_blank c); [auto|].
    destruct (N.eqb c 44); [apply lex_cons_ok; simpl; auto|].
    destruct (is_quote c).
    { destruct (quoted c s) as [[[t r]|]|] eqn:E; try exact I.
      destruct (quoted_ok _ _ _ _ H4 E) as [Ht Hr].
      destruct t as [|t0 t]; [destruct r as [|c2 r]; [apply lex_cons_ok; auto|destruct (N.eqb c2 c); [exact I|apply lex_cons_ok; auto]]|].
      apply lex_cons_ok; auto. }
    destruct (is_digit0 c).
    { destruct (span (fun x : N => is_word0 x || N.eqb x 46) (c :: s)) as [run r] eqn:E.
      destruct (span_ok _ _ _ _ H E) as [_ Hr].
      destruct r as [|c2 r]; [|destruct (is_ascii c2); [|exact I]]; apply lex_app_ok; auto using number_atom_ok. }
    destruct (is_name_start c); [|exact I].
    destruct (span is_word0 (c :: s)) as [run r] eqn:E. destruct (span_ok _ _ _ _ H E) as [_ Hr].
    destruct r as [|c2 r2]; [apply lex_app_ok; auto using name_atom_ok|].
    destruct (is_quote c2).
    - destruct (str_eqb run (py "b")); [|exact I]. inv Hr.
      destruct (quoted c2 r2) as [[[t r3]|]|] eqn:E2; try exact I.
      destruct (forallb is_ascii t && negb (Nat.eqb (List.length t) 0)); [|exact I].
      apply lex_cons_ok; [constructor|]. apply IH. eapply quoted_ok; eauto.
    - destruct (is_ascii c2); [|exact I]. apply lex_app_ok; auto using name_atom_ok.
  Qed.

  Definition oval_ok (o : option pyval) : Prop := match o with Some v => val_ok v | None => True end.
  Definition parsed_ok (p : parsed) : Prop := match p with PVals l => Forall oval_ok l | _ => True end.
  Lemma pcons_ok o p : oval_ok o -> parsed_ok p -> parsed_ok (pcons o p).
  Proof. destruct p; simpl; auto. Qed.

  Definition glue := fix glue (s : pystr) (l : list atom) : parsed :=
           match l with
           | AStr s2 :: l2 => glue (s ++ s2) l2
           | _ => pcons (Some (VStr s)) (elems false l)
           end.
  Lemma elems_ok n l : List.length l <= n -> forall b, Forall atom_ok l -> parsed_ok (elems b l).
  Proof.
    revert l; induction n as [|n IH]; intros l L b H.
    - destruct l; simpl in L; [constructor|lia].
    - destruct l as [|a l]; [constructor|]. simpl in L. inv H.
      assert (G : forall l, List.length l <= n -> Forall atom_ok l -> forall s, str_ok s -> parsed_ok (glue s l)).
      { clear - IH. induction l as [|a l IHl]; intros L H s Hs.
        - apply pcons_ok; [constructor; auto|constructor].
        - simpl in L. inv H. destruct a; try (apply pcons_ok; [constructor; auto|apply IH; simpl; auto]; fail).
          cbn [glue]. fold glue. apply IHl; [lia|auto|]. apply str_ok_app; auto. }
      destruct a as [v|s| |].
      + assert (X : parsed_ok (if b then pcons (Some v) (elems false l) else PSyntax)).
        { destruct b; [|exact I]. apply pcons_ok; auto. apply IH; auto. lia. }
        destruct v; try exact X. destruct l as [|[[]| | |] l']; try exact X; exact I.
      + assert (X : parsed_ok (if b then glue s l else PSyntax)).
        { destruct b; [|exact I]. apply G; auto. lia. }
        destruct l as [|[[]| | |] l']; try exact X; exact I.
      + cbn [elems]. destruct b; [|exact I]. apply pcons_ok; [exact I|]. apply IH; auto. lia.
      + cbn [elems]. destruct b; [exact I|]. apply IH; auto. lia.
  Qed.

  Lemma all_some_ok l r : Forall oval_ok l -> all_some l = Some r -> Forall val_ok r.
  Proof.
    revert r; induction l as [|[v|] l IH]; intros r H; cbn [all_some]; [intros E; inv E; constructor| |discriminate].
    inv H. destruct (all_some l); [|discriminate]. intros E; inv E. constructor; auto.
  Qed.

  Lemma str_ok_removelast s : str_ok s -> str_ok (removelast s).
  Proof. induction s as [|c s IH]; intros H; [constructor|]. inv H. destruct s; [constructor|]. constructor; [auto|apply IH; auto]. Qed.

  Lemma literal_eval_ok s v : str_ok s -> literal_eval s = Ok v -> val_ok v.
  Proof.
    intros H. unfold literal_eval. destruct s as [|c s]; [apply (rt_lit _ D)|].
    destruct (_ && _); [|apply (rt_lit _ D)].
    pose proof (lex_ok (S (List.length (c :: s))) (removelast s)) as L.
    destruct (lex (S (List.length (c :: s))) (removelast s)) as [l| |]; [|discriminate|apply (rt_lit _ D)].
    specialize (L ltac:(apply str_ok_removelast; inv H; auto)). simpl in L.
    pose proof (elems_ok _ l (le_n _) true L) as P.
    destruct (elems true l) as [vs| |]; [|discriminate|apply (rt_lit _ D)].
    destruct (all_some vs) eqn:E; [|discriminate]. intros X; inv X. constructor. eapply all_some_ok; eauto.
  Qed.

  (** ** one property *)
  Lemma strip_Forall (P : N -> Prop) p s : Forall P s -> Forall P (strip p s).
  Proof.
    intros H. unfold strip, rstrip. apply Forall_rev.
    assert (G : forall s, Forall P s -> Forall P (lstrip p s)).
    { clear. induction s as [|c s IH]; intros H; [constructor|]. inv H. simpl. destruct (p c); [auto|constructor; auto]. }
    apply G, Forall_rev, G; auto.
  Qed.
  Lemma clean_ok s : str_ok s -> str_ok (clean s).
  Proof. intros H. unfold clean. apply strip_Forall, strip_Forall, strip_Forall; auto. Qed.

  Lemma Lang_single_cap r w d : Lang (Grp GNone r) w d -> True.
  Proof. auto. Qed.

  (** every character that can occur in a value *)
  Lemma ci_ok t w : forallb is_alpha0 t = true -> Ci t w -> str_ok w.
  Proof.
    intros Ha H. induction H as [|p c t w E H IH]; [constructor|].
    simpl in Ha. apply andb_prop in Ha as [Hp Ha]. constructor; [|apply IH; auto].
    unfold ci_eqb in E. destruct (is_ascii c) eqn:Ea; [apply ascii_ok; auto|].
    destruct (u_ci c) as [l|] eqn:Eu; [|discriminate].
    apply word_ok. unfold is_word. rewrite Ea. eapply rt_ci_word; [apply rt_base; eauto|eauto].
  Qed.
  Lemma digit_ok c : is_digit c = true -> ch_ok c.
  Proof.
    unfold is_digit. destruct (is_ascii c) eqn:E; [intros _; apply ascii_ok; auto|]. intros H.
    apply word_ok. unfold is_word. rewrite E. eapply rt_digit_word; [apply rt_base; eauto|auto].
  Qed.
  Lemma digit0_ok c : is_digit0 c = true -> ch_ok c.
  Proof. intros H. apply ascii_ok. unfold is_digit0, between, is_ascii in *. lia. Qed.

  Lemma value_ok w d : Lang value_alts w d -> str_ok w.
  Proof.
    unfold value_alts. rewrite Lang_alts. intros (r & Hr & H).
    simpl in Hr. destruct Hr as [<-|[<-|[<-|[<-|[<-|[<-|[]]]]]]]; apply Lang_grp in H as (c & -> & H).
    - apply Lang_lit_ci in H as [H ->]. eapply ci_ok; [|exact H]; reflexivity.
    - apply Lang_alt in H as [H|H]; apply Lang_lit_ci in H as [H ->]; (eapply ci_ok; [|exact H]; reflexivity).
    - apply Lang_cat in H as (u & v & c1 & c2 & -> & -> & H1 & H2).
      apply Lang_cat in H2 as (u2 & v2 & c3 & c4 & -> & -> & H2 & H3).
      apply Lang_Plus in H1 as (_ & H1 & ->). apply Lang_ch in H2 as [-> ->]. apply Lang_Plus in H3 as (_ & H3 & ->).
      rewrite !str_ok_app. split; [|split].
      + eapply Forall_imp_str; [|exact H1]. apply digit_ok.
      + apply py_ok. reflexivity.
      + eapply Forall_imp_str; [|exact H3]. apply digit_ok.
    - apply Lang_Plus in H as (_ & H & ->). eapply Forall_imp_str; [|exact H]. apply digit0_ok.
    - apply Lang_cat in H as (u & v & c1 & c2 & -> & -> & H1 & H2).
      apply Lang_cat in H2 as (u2 & v2 & c3 & c4 & -> & -> & H2 & H3).
      apply Lang_ch in H1 as [-> ->]. apply Lang_Plus in H2 as (_ & H2 & ->). apply Lang_ch in H3 as [-> ->].
      rewrite !str_ok_app. split; [|split]; try (apply py_ok; reflexivity).
      eapply Forall_imp_str; [|exact H2]. apply list_ch_ok.
    - apply Lang_Plus in H as (_ & H & ->). eapply Forall_imp_str; [|exact H]. apply string_ch_ok.
  Qed.

  Lemma handle_ok c v x : str_ok v -> handle_extracted c v = Ok x -> val_ok x.
  Proof.
    intros H. unfold handle_extracted. intros E. apply bind_ok in E as (t & _ & E).
    pose proof (clean_ok _ H) as Hc. set (cv := clean v) in *. destruct t.
    - unfold handle_null in E. destruct (str_eqb _ _); inv E. constructor.
    - unfold handle_bool in E. destruct (str_eqb _ _); [inv E; constructor|]. destruct (str_eqb _ _); inv E. constructor.
    - unfold handle_float in E. destruct (contains _ _); [|discriminate]. destruct (f_repr cv) eqn:F; inv E.
      constructor. eapply rt_float; eauto.
    - unfold handle_int in E. destruct (contains _ _); [discriminate|]. destruct cv; [discriminate|].
      destruct (forallb _ _ && _); inv E. constructor.
    - unfold handle_list in E. destruct (literal_eval (pythonise cv)) as [y|[]] eqn:L; try discriminate.
      inv E. eapply literal_eval_ok; [|exact L]. apply pythonise_ok; auto.
    - unfold handle_string in E. destruct (existsb _ _); inv E. constructor; auto.
  Qed.

  Lemma Lang_all_properties t c : Lang all_properties t c ->
    exists name value more, cap GPropName c = Some name /\ name <> [] /\ Forall (fun x => is_word x = true) name /\
      cap GPropValue c = Some value /\ Lang value_alts value more /\ c = (GPropValue, value) :: more ++ [(GPropName, name)].
  Proof.
    unfold all_properties. intros H.
    apply Lang_cats_cons in H as (u & v & c1 & c2 & -> & -> & H1 & H2).
    apply Lang_cats_cons in H2 as (u2 & v2 & c3 & c4 & -> & -> & H2 & H3).
    apply Lang_cats_cons in H3 as (u3 & v3 & c5 & c6 & -> & -> & H3 & H4).
    apply Lang_cats_cons in H4 as (u4 & v4 & c7 & c8 & -> & -> & H4 & H5).
    apply Lang_grp in H1 as (e1 & -> & H1). apply Lang_Plus in H1 as (N1 & F1 & ->).
    apply Lang_star in H2 as [_ ->]. apply Lang_ch in H3 as [-> ->]. apply Lang_star in H4 as [_ ->].
    apply Lang_grp in H5 as (e2 & -> & H5).
    exists u, v4, e2. rewrite !app_nil_r. cbn [app]. split.
    - assert (G : forall m, cap GPropName m = None -> cap GPropName ((GPropValue, v4) :: m ++ [(GPropName, u)]) = Some u).
      { clear. intros m. cbn [cap gname_eqb]. induction m as [|[g t] m IH]; [reflexivity|].
        cbn [cap app]. destruct (gname_eqb GPropName g); [discriminate|auto]. }
      apply G. clear - H5. unfold value_alts in H5. apply Lang_alts in H5 as (r & Hr & H).
      simpl in Hr. destruct Hr as [<-|[<-|[<-|[<-|[<-|[<-|[]]]]]]]; apply Lang_grp in H as (c & -> & H); cbn [cap gname_eqb].
      + apply Lang_lit_ci in H as [_ ->]. reflexivity.
      + apply Lang_alt in H as [H|H]; apply Lang_lit_ci in H as [H ->]; reflexivity.
      + apply Lang_cat in H as (? & ? & c1 & c2 & -> & -> & H1 & H2).
        apply Lang_cat in H2 as (? & ? & c3 & c4 & -> & -> & H2 & H3).
        apply Lang_Plus in H1 as (_ & H1 & ->). apply Lang_ch in H2 as [-> ->]. apply Lang_Plus in H3 as (_ & H3 & ->). reflexivity.
      + apply Lang_Plus in H as (_ & _ & ->). reflexivity.
      + apply Lang_cat in H as (? & ? & c1 & c2 & -> & -> & H1 & H2).
        apply Lang_cat in H2 as (? & ? & c3 & c4 & -> & -> & H2 & H3).
        apply Lang_ch in H1 as [-> ->]. apply Lang_Plus in H2 as (_ & H2 & ->). apply Lang_ch in H3 as [-> ->]. reflexivity.
      + apply Lang_Plus in H as (_ & _ & ->). reflexivity.
    - auto.
  Qed.

  Lemma one_property_ok t c kv : Lang all_properties t c -> one_property c = Ok kv -> str_ok (fst kv) /\ val_ok (snd kv).
  Proof.
    intros H. apply Lang_all_properties in H as (name & value & more & E1 & _ & F & E2 & HV & _).
    unfold one_property. rewrite E1, E2. destruct (strip is_space value); [discriminate|].
    intros E. apply bind_ok in E as (x & Hx & E). inv E. cbn [fst snd]. split.
    - eapply Forall_imp_str; [|exact F]. apply word_ok.
    - eapply handle_ok; [|exact Hx]. eapply value_ok; eauto.
  Qed.

  Lemma Forall_d_set {A} (P : pystr * A -> Prop) k v d : P (k, v) -> Forall P d -> Forall P (d_set k v d).
  Proof.
    intros Hk. induction d as [|[q w] d IH]; intros H; cbn [d_set]; [repeat constructor; auto|]. inv H.
    destruct (str_eqb k q) eqn:E; [apply str_eqb_eq in E; subst|]; constructor; auto.
  Qed.
  Lemma dict_ok_set k v d : str_ok k -> val_ok v -> dict_ok d -> dict_ok (d_set k v d).
  Proof.
    intros Hk Hv H. inv H. constructor; [|apply d_set_NoDup; auto].
    apply (Forall_d_set (fun kv => str_ok (fst kv) /\ val_ok (snd kv))); auto.
  Qed.

  Lemma props_loop_ok ms d d' : (forall t c, In (t, c) ms -> Lang all_properties t c) -> dict_ok d ->
    props_loop ms d = Ok d' -> dict_ok d'.
  Proof.
    revert d; induction ms as [|[t c] ms IH]; intros d HL Hd; cbn [props_loop].
    - intros E; inv E. auto.
    - intros E. apply bind_ok in E as (kv & H1 & H2).
      destruct (one_property_ok t c kv (HL t c (or_introl eq_refl)) H1) as [Hk Hv].
      eapply IH; [|apply dict_ok_set|exact H2]; auto. intros; apply HL; right; auto.
  Qed.
  Lemma dict_ok_nil : dict_ok [].
  Proof. constructor; constructor. Qed.
  Theorem parse_properties_ok s d : parse_properties s = Ok d -> dict_ok d.
  Proof.
    apply props_loop_ok; [|apply dict_ok_nil]. intros t c. apply finditer_Lang.
  Qed.
  Theorem get_property_dict_ok s d : get_property_dict s = Ok (Some d) -> dict_ok d.
  Proof.
    unfold get_property_dict. destruct s as [[|c s]|]; try discriminate. intros E. apply bind_ok in E as (x & H & E).
    inv E. eapply parse_properties_ok; eauto.
  Qed.
End PropsFacts.
