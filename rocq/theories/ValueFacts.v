(** * ValueFacts: written property values are parsed to what they stand for (C13-C16) *)
From Verif Require Import PyBase BaseFacts Regex RegexSpec RegexFacts RegexMore Patterns SpecText SpecPattern Json JsonFacts Literal Props RtLaws PropsFacts
  StoreFacts ChecksFacts SpecValue.
From Coq Require Import ZifyBool ZifyN ZifyNat.

(** ** the preferred match, piece by piece *)
Lemma hd_cat a b s c s1 c1 m : hd_error (allm a s c) = Some (s1, c1) -> hd_error (allm b s1 c1) = Some m -> hd_error (allm (Cat a b) s c) = Some m.
Proof.
  cbn [allm]. destruct (allm a s c) as [|x l]; [discriminate|]. cbn [hd_error flat_map]. intros E. inv E. cbn [fst snd].
  destruct (allm b s1 c1); [discriminate|]. auto.
Qed.
Lemma hd_cats a b l s c s1 c1 m : hd_error (allm a s c) = Some (s1, c1) -> hd_error (allm (cats (b :: l)) s1 c1) = Some m ->
  hd_error (allm (cats (a :: b :: l)) s c) = Some m.
Proof. apply (hd_cat a (cats (b :: l))). Qed.
Lemma hd_alt_l a b s c m : hd_error (allm a s c) = Some m -> hd_error (allm (Alt a b) s c) = Some m.
Proof. cbn [allm]. destruct (allm a s c); [discriminate|auto]. Qed.
Lemma hd_alt_r a b s c m : allm a s c = [] -> hd_error (allm b s c) = Some m -> hd_error (allm (Alt a b) s c) = Some m.
Proof. cbn [allm]. intros ->. auto. Qed.
Lemma hd_set p x s c : p x = true -> hd_error (allm (Set_ p) (x :: s) c) = Some (s, c).
Proof. cbn [allm]. intros ->. auto. Qed.
Definition stops (p : N -> bool) (s : pystr) : Prop := match s with [] => True | x :: _ => p x = false end.
Lemma lstrip_run p w s : Forall (fun x => p x = true) w -> stops p s -> lstrip p (w ++ s) = s.
Proof.
  induction 1 as [|x w Hx Hw IH]; intros St; cbn [app lstrip].
  - apply lstrip_head; auto. - rewrite Hx. auto.
Qed.
Lemma hd_star p w s c : Forall (fun x => p x = true) w -> stops p s -> hd_error (allm (Star p) (w ++ s) c) = Some (s, c).
Proof.
  intros Hw St. cbn [allm]. pose proof (all_star_hd p (w ++ s)) as H. rewrite lstrip_run in H by auto.
  destruct (all_star p (w ++ s)); [discriminate|]. cbn in *. congruence.
Qed.
Lemma hd_plus p w s c : w <> [] -> Forall (fun x => p x = true) w -> stops p s -> hd_error (allm (Plus p) (w ++ s) c) = Some (s, c).
Proof.
  intros Ne Hw St. destruct w as [|x w]; [congruence|]. inv Hw. eapply hd_cat; [apply hd_set; auto|]. apply hd_star; auto.
Qed.
Lemma hd_grp n a w s c d : hd_error (allm a (w ++ s) c) = Some (s, d) -> hd_error (allm (Grp n a) (w ++ s) c) = Some (s, (n, w) :: d).
Proof.
  cbn [allm]. destruct (allm a (w ++ s) c) as [|x l]; [discriminate|]. cbn. intros E. inv E. cbn [fst snd]. rewrite consumed_app. reflexivity.
Qed.
Lemma allm_nil_caps r s c : allm r s [] = [] -> allm r s c = [].
Proof. intros E. rewrite allm_caps, E. reflexivity. Qed.
Lemma no_cat a b s c : allm a s c = [] -> allm (Cat a b) s c = [].
Proof. cbn [allm]. intros ->. reflexivity. Qed.
Lemma no_grp n a s c : allm a s c = [] -> allm (Grp n a) s c = [].
Proof. cbn [allm]. intros ->. reflexivity. Qed.
Lemma no_alt a b s c : allm a s c = [] -> allm b s c = [] -> allm (Alt a b) s c = [].
Proof. cbn [allm]. intros -> ->. reflexivity. Qed.
Lemma no_set p x s c : p x = false -> allm (Set_ p) (x :: s) c = [].
Proof. cbn [allm]. intros ->. reflexivity. Qed.

Section ValueFacts.
  Context {rt : PyRt} (D : rt_data rt).
  Local Notation okrt := (rt_base rt D).

  (** ** character classes *)
  Lemma word_not_space c : is_word c = true -> is_space c = false.
  Proof.
    unfold is_word, is_space. destruct (is_ascii c); [|apply (rt_word_space _ okrt)].
    unfold is_word0, is_alpha0, is_upper0, is_lower0, is_digit0, is_space0, between. lia.
  Qed.
  Lemma space_not_word c : is_space c = true -> is_word c = false.
  Proof. intros H. destruct (is_word c) eqn:E; auto. apply word_not_space in E. congruence. Qed.
  Lemma digit_word c : is_digit c = true -> is_word c = true.
  Proof.
    unfold is_digit, is_word. destruct (is_ascii c); [unfold is_word0; intros ->; rewrite orb_true_r; auto|apply (rt_digit_word _ okrt)].
  Qed.
  Lemma space_not_digit c : is_space c = true -> is_digit c = false.
  Proof. intros H. destruct (is_digit c) eqn:E; auto. apply digit_word, word_not_space in E. congruence. Qed.
  Lemma digit0_is_digit c : is_digit0 c = true -> is_digit c = true.
  Proof. unfold is_digit, is_digit0, is_ascii, between. intros H. replace (N.ltb c 128) with true by lia. auto. Qed.
  Lemma Digits_0 ds : Digits ds -> ds <> [] /\ Forall (fun c => is_digit0 c = true) ds.
  Proof. intros [H F]. split; auto. eapply Forall_impl; [|exact F]. intros c. unfold is_digit0, between. lia. Qed.

  (** what can follow a value *)
  Definition delimited (rest : pystr) : Prop :=
    match rest with [] => True | x :: _ => is_space x = true \/ x = 44%N \/ x = 125%N end.
  Definition delimited_str (rest : pystr) : Prop :=
    match rest with [] => True | x :: _ => x = 44%N \/ x = 125%N end.

  (** the groups of a value *)
  Definition tag_of (v : wvalue) : gname :=
    match v with
    | Scalar SNull => GNone | Scalar (SBool _) => GBool | Scalar (SInt _) => GInt | Scalar (SFrac _ _) => GFloat
    | Scalar (SStr _ _ _) => GString | List_ _ => GList
    end.

  Lemma hd_lit_ci_self t s c : forallb is_ascii t = true -> hd_error (allm (lit_ci t) (t ++ s) c) = Some (s, c).
  Proof.
    assert (X : forall x, is_ascii x = true -> ci_eqb x x = true). { intros x H. unfold ci_eqb. rewrite H. apply N.eqb_refl. }
    unfold lit_ci. revert c; induction t as [|x t IH]; intros c H; [reflexivity|]. cbn [forallb] in H. apply andb_prop in H as [Hx H].
    destruct t as [|y t].
    - cbn [map cats app]. apply hd_set; auto.
    - cbn [map app]. eapply hd_cats; [apply hd_set; auto|]. apply (IH c H).
  Qed.
  Lemma no_lit_ci p t x s c : ci_eqb p x = false -> allm (lit_ci (p :: t)) (x :: s) c = [].
  Proof. intros H. unfold lit_ci. destruct t as [|y t]; [apply no_set; auto|apply no_cat, no_set; auto]. Qed.
  Lemma ci_ascii p x : is_ascii x = true -> lower0 p <> lower0 x -> ci_eqb p x = false.
  Proof. intros H N. unfold ci_eqb. rewrite H. apply N.eqb_neq; auto. Qed.
  Lemma not_letter p x : is_ascii x = true -> is_lower0 p = true -> is_alpha0 x = false -> ci_eqb p x = false.
  Proof.
    intros H Hp Hx. apply ci_ascii; auto. unfold lower0, is_lower0, is_upper0, is_alpha0, is_lower0, is_upper0, between in *.
    destruct ((65 <=? p)%N && (p <=? 90)%N) eqn:E1; destruct ((65 <=? x)%N && (x <=? 90)%N) eqn:E2; lia.
  Qed.

  Definition words3 : list re := [Grp GNone (lit_ci (py "null")); Grp GBool (Alt (lit_ci (py "true")) (lit_ci (py "false")))].
  Lemma no_words x s c : is_ascii x = true -> is_alpha0 x = false ->
    allm (Grp GNone (lit_ci (py "null"))) (x :: s) c = [] /\
    allm (Grp GBool (Alt (lit_ci (py "true")) (lit_ci (py "false")))) (x :: s) c = [].
  Proof.
    intros A L. split; apply no_grp; [|apply no_alt]; apply no_lit_ci; apply not_letter; auto.
  Qed.

  (** ** the text of a list *)
  Lemma list_ch_word x : is_word x = true -> is_list_ch x = true.
  Proof. unfold is_list_ch. intros ->. reflexivity. Qed.
  Lemma list_ch_space x : is_space x = true -> is_list_ch x = true.
  Proof. unfold is_list_ch. intros ->. rewrite orb_true_r. reflexivity. Qed.
  Lemma list_ch_in x : In x (py ",'"".@+") -> is_list_ch x = true.
  Proof.
    intros H. unfold is_list_ch. apply orb_true_iff. right. apply existsb_exists. exists x. split; [exact H|apply N.eqb_refl].
  Qed.
  Lemma word0_word x : is_word0 x = true -> is_word x = true.
  Proof.
    intros H. unfold is_word. replace (is_ascii x) with true; auto.
    unfold is_word0, is_alpha0, is_upper0, is_lower0, is_digit0, between, is_ascii in *. lia.
  Qed.
  Lemma digit0_list x : is_digit0 x = true -> is_list_ch x = true.
  Proof. intros H. apply list_ch_word, word0_word. unfold is_word0. rewrite H, orb_true_r. reflexivity. Qed.
  Lemma inner_blank_space a : inner_blank a -> all_space a.
  Proof. apply Forall_impl. intros c [-> |[-> | ->]]; reflexivity. Qed.
  Lemma inner_blank_list a : inner_blank a -> Forall (fun x => is_list_ch x = true) a.
  Proof. intros H. apply inner_blank_space in H. eapply Forall_impl; [|exact H]. intros c. apply list_ch_space. Qed.
  Lemma quote_list q : quote_mark q -> is_list_ch q = true.
  Proof. intros [-> | ->]; reflexivity. Qed.
  Lemma elem_chars e : elem_written e -> show_elem e <> [] /\ Forall (fun x => is_list_ch x = true) (show_elem e).
  Proof.
    destruct e as [[|[]|ds|a b|q c w]|w]; cbn [elem_written show_elem show_scalar].
    - intros _. split; [discriminate|]. repeat constructor.
    - intros _. split; [discriminate|]. repeat constructor.
    - intros _. split; [discriminate|]. repeat constructor.
    - intros [H _]. apply Digits_0 in H as [N F]. split; auto. eapply Forall_impl; [|exact F]. apply digit0_list.
    - intros [Ha Hb]. apply Digits_0 in Ha as [Na Fa]. apply Digits_0 in Hb as [Nb Fb]. split; [destruct a; discriminate|].
      apply Forall_app. split; [eapply Forall_impl; [apply digit0_list|auto]|].
      constructor; [reflexivity|]. eapply Forall_impl; [apply digit0_list|auto].
    - intros (Q & T & B). split; [discriminate|]. constructor; [apply quote_list; auto|].
      apply Forall_app. split.
      + eapply Forall_impl; [|exact T]. intros x ([H|[H|H]] & _); auto using list_ch_word, list_ch_space, list_ch_in.
      + constructor; [apply quote_list; auto|]. apply inner_blank_list; auto.
    - intros ((c & w' & -> & Hc & F) & _). split; [discriminate|]. constructor.
      + apply list_ch_word, word0_word. unfold is_word0. destruct Hc as [-> | ->]; reflexivity.
      + eapply Forall_impl; [|exact F]. intros x Hx. apply list_ch_word, word0_word, Hx.
  Qed.
  Definition elem3_written (x : pystr * welem * pystr) : Prop :=
    inner_blank (fst (fst x)) /\ inner_blank (snd x) /\ elem_written (snd (fst x)).
  Lemma elems_chars l : Forall elem3_written l -> Forall (fun x => is_list_ch x = true) (show_elems l).
  Proof.
    induction 1 as [|[[a e] b] l (Ha & Hb & He) Hl IH]; [constructor|]. cbn [fst snd] in *.
    pose proof (elem_chars e He) as [_ Fe].
    assert (X : Forall (fun x => is_list_ch x = true) (a ++ show_elem e ++ b)).
    { repeat (apply Forall_app; split); auto using inner_blank_list. }
    cbn [show_elems]. destruct l as [|y l]; [exact X|].
    rewrite !Forall_app in X. repeat (apply Forall_app; split); try tauto. constructor; [reflexivity|constructor].
  Qed.
  Lemma elems_ne l : list_written l -> show_elems l <> [].
  Proof.
    intros [N F]. destruct F as [|[[a e] b] l (Ha & Hb & He) Hl]; [congruence|]. cbn [fst snd] in *.
    pose proof (elem_chars e He) as [Ne _]. cbn [show_elems]. destruct l as [|y l]; destruct a; try discriminate; destruct (show_elem e); try discriminate; congruence.
  Qed.

  Lemma hd_value v rest c : value_written v -> (if match v with Scalar (SStr _ _ _) => true | _ => false end then delimited_str rest else delimited rest) ->
    hd_error (allm value_alts (show_value v ++ rest) c) = Some (rest, (tag_of v, show_value v) :: c).
  Proof.
    intros W St. unfold value_alts. cbn [alts]. destruct v as [[|b|ds|a b|q t w]|l]; cbn [show_value show_scalar tag_of] in *.
    - apply hd_alt_l. apply hd_grp. apply hd_lit_ci_self. reflexivity.
    - apply hd_alt_r.
      { apply no_grp. destruct b; apply no_lit_ci, ci_ascii; try reflexivity; vm_compute; discriminate. }
      apply hd_alt_l, hd_grp. destruct b.
      + apply hd_alt_l, hd_lit_ci_self. reflexivity.
      + apply hd_alt_r; [apply no_lit_ci, ci_ascii; [reflexivity|vm_compute; discriminate]|]. apply hd_lit_ci_self. reflexivity.
    - apply Digits_0 in W as [Ne F].
      assert (H0 : exists x ds', ds = x :: ds' /\ is_ascii x = true /\ is_alpha0 x = false).
      { destruct ds as [|x ds']; [congruence|]. inv F. exists x, ds'. split; auto.
        unfold is_ascii, is_alpha0, is_upper0, is_lower0, is_digit0, between in *. lia. }
      destruct H0 as (x & ds' & E & A & L).
      destruct (no_words x (ds' ++ rest) c A L) as [N1 N2].
      rewrite E. cbn [app]. apply hd_alt_r; [exact N1|]. apply hd_alt_r; [exact N2|].
      change (x :: ds' ++ rest) with ((x :: ds') ++ rest). rewrite <- E. clear N1 N2 E A L x ds'.
      apply hd_alt_r.
      { apply no_grp. apply allm_nil_caps, allm_nil_NoMatch. intros u r d Eu HL.
        cbn [cats] in HL. apply Lang_cat in HL as (u1 & u2 & c1 & c2 & -> & -> & H1 & H2).
        apply Lang_cat in H2 as (u3 & u4 & c3 & c4 & -> & -> & H2 & H3). apply Lang_ch in H2 as [-> ->].
        apply Lang_Plus in H1 as (_ & F1 & _). rewrite <- !app_assoc in Eu. cbn [app] in Eu.
        clear - D F F1 Eu St. revert ds F Eu. induction F1 as [|y u1 Hy F1 IH]; intros ds F Eu.
        - cbn [app] in Eu. destruct F as [|z ds Hz F]; cbn [app] in Eu.
          + destruct rest as [|z rest]; [discriminate|]. inv Eu. cbn in St. destruct St as [St|[St|St]]; discriminate.
          + inv Eu. discriminate.
        - cbn [app] in Eu. destruct F as [|z ds Hz F]; cbn [app] in Eu.
          + destruct rest as [|z rest]; [discriminate|]. inv Eu. cbn in St. destruct St as [St|[St|St]]; [apply space_not_digit in St; congruence| |]; subst; discriminate.
          + inv Eu. eapply IH; eauto. }
      apply hd_alt_l, hd_grp, hd_plus; auto. destruct rest as [|z rest]; [exact I|]. cbn in *.
      destruct (is_digit0 z) eqn:E; auto. apply digit0_is_digit in E.
      destruct St as [St|[St|St]]; [apply space_not_digit in St; congruence| |]; subst; discriminate.
    - destruct W as [Wa Wb]. apply Digits_0 in Wa as [Na Fa]. apply Digits_0 in Wb as [Nb Fb].
      assert (H0 : exists x a', a = x :: a' /\ is_ascii x = true /\ is_alpha0 x = false).
      { destruct a as [|x a']; [congruence|]. inv Fa. exists x, a'. split; auto.
        unfold is_ascii, is_alpha0, is_upper0, is_lower0, is_digit0, between in *. lia. }
      destruct H0 as (x & a' & E & A & L). destruct (no_words x ((a' ++ py "." ++ b) ++ rest) c A L) as [N1 N2].
      rewrite E. cbn [app] in *. apply hd_alt_r; [exact N1|]. apply hd_alt_r; [exact N2|].
      change (x :: (a' ++ py "." ++ b) ++ rest) with ((((x :: a') ++ py "." ++ b)) ++ rest).
      change (x :: a' ++ py "." ++ b) with ((x :: a') ++ py "." ++ b). rewrite <- E. clear N1 N2 E A L x a'.
      apply hd_alt_l, hd_grp. rewrite <- !app_assoc. cbn [cats].
      assert (DG : forall l, Forall (fun c => is_digit0 c = true) l -> Forall (fun c => is_digit c = true) l)
        by (intros l; apply Forall_impl; intros; apply digit0_is_digit; auto).
      eapply hd_cat; [apply hd_plus; [auto|apply DG; auto|reflexivity]|].
      eapply hd_cat; [apply hd_set; reflexivity|]. apply hd_plus; auto. destruct rest as [|z rest]; [exact I|]. cbn in *.
      destruct (is_digit z) eqn:E; auto.
      destruct St as [St|[St|St]]; [apply space_not_digit in St; congruence| |]; subst; discriminate.
    - destruct W as (Q & T & B).
      assert (AQ : is_ascii q = true /\ is_alpha0 q = false /\ is_digit q = false /\ is_digit0 q = false /\ q <> 91%N).
      { destruct Q; subst; repeat split; discriminate. }
      destruct AQ as (A & L & Dq & D0 & N91).
      destruct (no_words q ((t ++ [q] ++ w) ++ rest) c A L) as [N1 N2]. cbn [app] in *.
      do 2 (apply hd_alt_r; [assumption|]).
      apply hd_alt_r; [apply no_grp, no_cat, no_cat, no_set; auto|].
      apply hd_alt_r; [apply no_grp, no_cat, no_set; auto|].
      apply hd_alt_r; [apply no_grp, no_cat, no_set; apply N.eqb_neq; congruence|].
      change (q :: (t ++ q :: w) ++ rest) with ((q :: t ++ q :: w) ++ rest). apply hd_grp, hd_plus; [discriminate| |].
      + assert (IQ : is_string_ch q = true) by (destruct Q; subst; vm_compute; reflexivity).
        constructor; [auto|]. apply Forall_app. split; [|constructor; auto].
        * eapply Forall_impl; [|exact T]. intros x. cbn. unfold is_string_ch. intros [H|[H|H]].
          -- rewrite H. reflexivity.
          -- rewrite H, orb_true_r. reflexivity.
          -- apply orb_true_iff. right. apply existsb_exists. exists x. split; [exact H|apply N.eqb_refl].
        * eapply Forall_impl; [|exact B]. intros x. cbn. unfold is_string_ch. intros H. rewrite H, orb_true_r. reflexivity.
      + destruct rest as [|z rest]; [exact I|]. cbn in *. destruct St; subst; reflexivity.
    - destruct (no_words 91 ((show_elems l ++ py "]") ++ rest) c eq_refl eq_refl) as [N1 N2].
      change ((py "[" ++ show_elems l ++ py "]") ++ rest) with (91%N :: (show_elems l ++ py "]") ++ rest).
      do 2 (apply hd_alt_r; [assumption|]).
      apply hd_alt_r; [apply no_grp, no_cat, no_cat, no_set; reflexivity|].
      apply hd_alt_r; [apply no_grp, no_cat, no_set; reflexivity|].
      apply hd_alt_l. change (91%N :: (show_elems l ++ py "]") ++ rest) with ((py "[" ++ show_elems l ++ py "]") ++ rest).
      apply hd_grp. cbn [cats]. rewrite <- !app_assoc. eapply hd_cat; [apply hd_set; reflexivity|].
      apply (hd_cat _ _ _ _ (93%N :: rest) c); [|apply hd_set; reflexivity].
      change (show_elems l ++ py "]" ++ rest) with (show_elems l ++ 93%N :: rest). apply hd_plus; [| |reflexivity].
      + apply elems_ne; auto.
      + apply elems_chars. apply W.
  Qed.

  (** ** the scan of a property list *)
  Definition item_caps (i : witem) : caps :=
    [(GPropValue, show_value (wi_val i)); (tag_of (wi_val i), show_value (wi_val i)); (GPropName, wi_key i)].
  Definition item_match (i : witem) : pystr := wi_key i ++ wi_s2 i ++ py ":" ++ wi_s3 i ++ show_value (wi_val i).

  Lemma show_value_head v : value_written v -> exists x s, show_value v = x :: s /\ is_space x = false.
  Proof.
    destruct v as [[|[]|ds|a b|q c w]|l]; cbn [value_written scalar_written show_value show_scalar]; intros W; try (eexists _, _; split; reflexivity).
    - apply Digits_0 in W as [N F]. destruct F as [|x ds Hx F]; [congruence|]. exists x, ds. split; auto.
      apply word_not_space, digit_word, digit0_is_digit, Hx.
    - destruct W as [W _]. apply Digits_0 in W as [N F]. destruct F as [|x ds Hx F]; [congruence|]. eexists x, _. split; [reflexivity|].
      apply word_not_space, digit_word, digit0_is_digit, Hx.
    - destruct W as ([-> | ->] & _); eexists _, _; split; reflexivity.
  Qed.
  Definition ends_well (i : witem) (rest : pystr) : Prop :=
    if match wi_val i with Scalar (SStr _ _ _) => true | _ => false end then delimited_str rest else delimited rest.

  Lemma colon_stop p s2 s : all_space s2 -> (forall c, is_space c = true -> p c = false) -> p 58%N = false -> stops p (s2 ++ py ":" ++ s).
  Proof. intros B H1 H2. destruct B as [|x s2 Hx B]; cbn; auto. Qed.
  Lemma match_item i rest : item_written i -> ends_well i rest ->
    match_here all_properties (item_match i ++ rest) = Some (rest, item_caps i).
  Proof.
    intros [B K KN V _] St. inv B. inv H2. inv H4. inv H5.
    rewrite match_here_hd. unfold all_properties, item_match. rewrite <- !app_assoc.
    eapply hd_cats; [apply hd_grp, hd_plus; [exact KN|exact K|]|].
    { apply colon_stop; auto. apply space_not_word. }
    eapply hd_cats; [apply hd_star; [exact H3|reflexivity]|].
    eapply hd_cats; [apply hd_set; reflexivity|].
    eapply hd_cats; [apply hd_star; [exact H2|]|].
    { destruct (show_value_head _ V) as (x & s & -> & Hx). exact Hx. }
    cbn [cats]. apply hd_grp. apply hd_value; auto.
  Qed.

  Lemma no_match_head x s : is_word x = false -> match_here all_properties (x :: s) = None.
  Proof.
    intros H. rewrite match_here_hd. replace (allm all_properties (x :: s) []) with (@nil (pystr * caps)); [reflexivity|].
    symmetry. unfold all_properties. cbn [cats]. apply no_cat, no_grp, no_cat, no_set. exact H.
  Qed.
  Lemma finditer_skip x s : is_word x = false -> finditer all_properties (x :: s) = finditer all_properties s.
  Proof. intros H. unfold finditer. rewrite scan_none_cons by (apply no_match_head; auto). reflexivity. Qed.
  Lemma finditer_spaces sp s : all_space sp -> finditer all_properties (sp ++ s) = finditer all_properties s.
  Proof. induction 1 as [|x sp Hx H IH]; auto. cbn [app]. rewrite finditer_skip by (apply space_not_word; auto). auto. Qed.
  Lemma finditer_nil : finditer all_properties [] = [].
  Proof. reflexivity. Qed.

  Lemma finditer_item i rest : item_written i -> delimited_str rest ->
    finditer all_properties (show_item i ++ rest) = (item_match i, item_caps i) :: finditer all_properties rest.
  Proof.
    intros W St. pose proof W as [B K KN V S4]. inv B. inv H2. inv H4. inv H5.
    unfold show_item. rewrite <- !app_assoc. rewrite finditer_spaces by auto.
    replace (wi_key i ++ wi_s2 i ++ py ":" ++ wi_s3 i ++ show_value (wi_val i) ++ wi_s4 i ++ rest)
      with (item_match i ++ (wi_s4 i ++ rest)) by (unfold item_match; rewrite <- !app_assoc; reflexivity).
    unfold finditer at 1. rewrite (scan_some _ _ _ (item_caps i)).
    - cbn [mats]. f_equal. change (mats (scan all_properties 0 (wi_s4 i ++ rest))) with (finditer all_properties (wi_s4 i ++ rest)).
      apply finditer_spaces; auto.
    - apply match_item; auto. unfold ends_well. destruct (wi_val i) as [[]|] eqn:E; cbn in S4; try (rewrite S4 by auto; exact St).
      all: destruct H4 as [|x s4 Hx H4]; [destruct rest; cbn in *; tauto|cbn; auto].
    - unfold item_match. destruct (wi_key i); [congruence|discriminate].
  Qed.
  Lemma finditer_items l rest : Forall item_written l -> delimited_str rest ->
    finditer all_properties (show_items l ++ rest) = map (fun i => (item_match i, item_caps i)) l ++ finditer all_properties rest.
  Proof.
    intros W St. induction W as [|i l Wi Wl IH]; [reflexivity|]. cbn [show_items map app]. destruct l as [|j l].
    - rewrite finditer_item by auto. reflexivity.
    - rewrite <- !app_assoc. rewrite finditer_item by (auto; left; reflexivity). f_equal.
      cbn [py app]. change (py "," ++ show_items (j :: l) ++ rest) with (44%N :: show_items (j :: l) ++ rest).
      rewrite finditer_skip by reflexivity. exact IH.
  Qed.
  Lemma finditer_props l sp : Forall item_written l -> all_space sp ->
    finditer all_properties (show_props l ++ sp) = map (fun i => (item_match i, item_caps i)) l.
  Proof.
    intros W B. unfold show_props. rewrite <- !app_assoc. change (py "{" ++ show_items l ++ py "}" ++ sp) with (123%N :: show_items l ++ 125%N :: sp).
    rewrite finditer_skip by reflexivity. rewrite finditer_items by (auto; right; reflexivity).
    rewrite finditer_skip by reflexivity. rewrite <- (app_nil_r sp), finditer_spaces, finditer_nil, app_nil_r by auto. reflexivity.
  Qed.

  (** ** strip *)
  Lemma lstrip_cut p s : exists a, s = a ++ lstrip p s /\ Forall (fun x => p x = true) a /\ (forall c t', lstrip p s = c :: t' -> p c = false).
  Proof.
    destruct (lstrip_split p s) as (a & E & F & H). exists a. split; [auto|]. split; [auto|]. intros c t' E'. rewrite E' in H. exact H.
  Qed.
  Lemma strip_spec p s : exists a b, s = a ++ strip p s ++ b /\ Forall (fun x => p x = true) a /\ Forall (fun x => p x = true) b /\
    (forall c t', strip p s = c :: t' -> p c = false) /\ (forall c t', strip p s = t' ++ [c] -> p c = false).
  Proof.
    unfold strip, rstrip. destruct (lstrip_cut p s) as (a & E1 & F1 & H1). destruct (lstrip_cut p (rev (lstrip p s))) as (b & E2 & F2 & H2).
    set (m := lstrip p (rev (lstrip p s))) in *. apply (f_equal (@rev N)) in E2. rewrite rev_involutive, rev_app_distr in E2.
    exists a, (rev b). split; [rewrite <- E2; exact E1|]. split; [auto|]. split; [apply Forall_rev; auto|]. split.
    - intros c t' E. rewrite E in E2. cbn [app] in E2. eapply H1. exact E2.
    - intros c t' E. apply (f_equal (@rev N)) in E. rewrite rev_involutive, rev_app_distr in E. cbn [rev app] in E. eapply H2. exact E.
  Qed.
  Lemma lstrip_run_eq p a t : Forall (fun x => p x = true) a -> (forall c t', t = c :: t' -> p c = false) -> lstrip p (a ++ t) = t.
  Proof. intros F H. apply lstrip_run; auto. destruct t; cbn; eauto. Qed.
  Lemma strip_unique p s t a b : s = a ++ t ++ b -> Forall (fun x => p x = true) a -> Forall (fun x => p x = true) b ->
    (forall c t', t = c :: t' -> p c = false) -> (forall c t', t = t' ++ [c] -> p c = false) -> strip p s = t.
  Proof.
    intros -> Fa Fb H1 H2. unfold strip, rstrip. destruct t as [|x t].
    - cbn [app]. rewrite <- (app_nil_r (a ++ b)). rewrite lstrip_run; [reflexivity|apply Forall_app; auto|exact I].
    - rewrite lstrip_run; [|auto|cbn; eapply H1; reflexivity].
      rewrite rev_app_distr. rewrite lstrip_run; [apply rev_involutive|apply Forall_rev; auto|].
      destruct (rev (x :: t)) as [|y r] eqn:E; [exact I|]. cbn. apply (H2 y (rev r)).
      apply (f_equal (@rev N)) in E. rewrite rev_involutive in E. exact E.
  Qed.
  Lemma cut_strip (P : N -> Prop) p s t : (forall c, P c <-> p c = true) -> (cut P s t <-> t = strip p s).
  Proof.
    intros EQ. assert (EF : forall l, Forall P l <-> Forall (fun x => p x = true) l).
    { intros l. split; apply Forall_impl; intros c; apply EQ. }
    assert (EN : forall c, ~ P c <-> p c = false). { intros c. rewrite EQ. destruct (p c); split; congruence. }
    split.
    - intros (a & b & E & Fa & Fb & H1 & H2). symmetry. apply (strip_unique p s t a b); auto; try (apply EF; auto).
      + intros c t' E'. apply EN. eapply H1; eauto.
      + intros c t' E'. apply EN. eapply H2; eauto.
    - intros ->. destruct (strip_spec p s) as (a & b & E & Fa & Fb & H1 & H2). exists a, b. rewrite !EF.
      split; [auto|]. split; [auto|]. split; [auto|]. split; intros c t' E'; apply EN; eauto.
  Qed.
  Lemma Trimmed_clean s t : Trimmed s t <-> t = clean s.
  Proof.
    assert (E : forall n c, n = c <-> N.eqb n c = true) by (intros; rewrite N.eqb_eq; tauto).
    unfold Trimmed, clean. split.
    - intros (u & v & H1 & H2 & H3). apply (cut_strip _ (N.eqb 34)) in H1; [|auto]. apply (cut_strip _ (N.eqb 39)) in H2; [|auto].
      apply (cut_strip _ is_space) in H3; [|reflexivity]. subst. reflexivity.
    - intros ->. eexists _, _. split; [apply (cut_strip _ (N.eqb 34)); [auto|reflexivity]|].
      split; [apply (cut_strip _ (N.eqb 39)); [auto|reflexivity]|]. apply (cut_strip _ is_space); reflexivity.
  Qed.
  (** texts that are left alone *)
  Lemma clean_id s : (forall x s', s = x :: s' -> ~ edge x) -> (forall x s', s = s' ++ [x] -> ~ edge x) -> clean s = s.
  Proof.
    intros H1 H2.
    assert (G : forall p : N -> bool, (forall x, p x = true -> edge x) -> strip p s = s).
    { intros p Hp. apply (strip_unique p s s [] []); auto; [rewrite app_nil_r; reflexivity|..].
      - intros c t' E. destruct (p c) eqn:Ec; auto. exfalso. eapply H1; eauto.
      - intros c t' E. destruct (p c) eqn:Ec; auto. exfalso. eapply H2; eauto. }
    unfold clean. rewrite (G (N.eqb 34)), (G (N.eqb 39)), (G is_space); auto.
    - intros x Hx. left. exact Hx.
    - intros x Hx. apply N.eqb_eq in Hx. subst. right. left. reflexivity.
    - intros x Hx. apply N.eqb_eq in Hx. subst. right. right. reflexivity.
  Qed.
End ValueFacts.
