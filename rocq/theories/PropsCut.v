(** * PropsCut: property texts that are stored differently from how they read (C60) *)
From Verif Require Import PyBase BaseFacts Regex Patterns Json Literal Props RtLaws PropsFacts
  SpecText SpecPattern SpecValue SpecChecks SpecProps ValueFacts ListFacts ValueMore CheckMore PropsAny.
From Coq Require Import ZifyBool ZifyN ZifyNat.

Section PropsCut.
  Context {rt : PyRt} (D : rt_data rt).
  Local Notation okrt := (rt_base rt D).

  Lemma in_lstrip p c s : In c (lstrip p s) -> In c s.
  Proof. rewrite (while_lstrip p s) at 2. intros H. apply in_or_app. auto. Qed.
  Lemma no_colon_at s : ~ In 58%N s -> prop_at s = None.
  Proof.
    intros H. unfold prop_at. destruct (run_at is_word s); [|reflexivity].
    destruct (behind 58 (lstrip is_space (lstrip is_word s))) as [u|] eqn:E; [|reflexivity]. exfalso. apply behind_some in E.
    apply H. apply (in_lstrip is_word), (in_lstrip is_space). rewrite E. left. reflexivity.
  Qed.
  Lemma no_colon s : ~ In 58%N s -> PropsOf s [].
  Proof.
    induction s as [|x s IH]; intros H; [constructor|]. apply PO_skip; [apply no_colon_at; exact H|]. apply IH. intros X. apply H. right. exact X.
  Qed.
  Lemma lstrip_mid p a s : (exists x, In x a /\ p x = false) -> exists y a', lstrip p a = y :: a' /\ p y = false /\ lstrip p (a ++ s) = y :: a' ++ s.
  Proof.
    intros (x & Hx & Px). induction a as [|y a IH]; [contradiction|]. cbn [lstrip app]. destruct (p y) eqn:E.
    - destruct Hx as [->|Hx]; [congruence|]. apply IH. exact Hx.
    - exists y, a. auto.
  Qed.
  Lemma before_skip a k s l : before_key a -> k <> [] -> Word k -> PropsOf (k ++ s) l -> PropsOf (a ++ k ++ s) l.
  Proof.
    intros B NE W P. induction a as [|x a IH]; [exact P|]. destruct B as [B1 B2]. cbn [app]. apply PO_skip.
    - change (x :: a ++ k ++ s) with ((x :: a) ++ k ++ s). remember (x :: a) as a0 eqn:Ea. unfold prop_at. destruct (run_at is_word (a0 ++ k ++ s)); [|reflexivity].
      destruct (lstrip_mid is_word a0 (k ++ s)) as (y & a' & E1 & E2 & ->).
      { destruct (@exists_last _ a0 ltac:(subst; discriminate)) as (a1 & z & E). exists z. split; [rewrite E; apply in_or_app; right; left; reflexivity|]. eapply B2. exact E. }
      assert (Sub : forall c, In c (y :: a') -> In c a0) by (intros c Hc; apply (in_lstrip is_word); rewrite E1; exact Hc).
      change (y :: a' ++ k ++ s) with ((y :: a') ++ k ++ s). destruct (forallb is_space (y :: a')) eqn:Es.
      + rewrite lstrip_app by (apply Forall_forall, forallb_forall; exact Es). destruct k as [|z k]; [congruence|]. inv W. cbn [app lstrip].
        rewrite (word_not_space D z) by assumption. cbn [behind]. destruct (N.eqb_spec z 58); [subst; discriminate|reflexivity].
      + destruct (lstrip_mid is_space (y :: a') (k ++ s)) as (z & a2 & E3 & E4 & ->).
        { apply not_true_iff_false in Es. clear - Es. induction (y :: a') as [|z l IH]; [contradiction Es; reflexivity|]. cbn [forallb] in Es.
          destruct (is_space z) eqn:Ez; [|exists z; split; [left; reflexivity|exact Ez]]. destruct IH as (w & Hw & Pw); [intros H; apply Es; exact H|]. exists w. split; [right; exact Hw|exact Pw]. }
        cbn [behind]. destruct (N.eqb_spec z 58); [|reflexivity]. exfalso. subst z. apply B1. apply Sub. apply (in_lstrip is_space). rewrite E3. left. reflexivity.
    - apply IH. split.
      + intros H. apply B1. right. exact H.
      + intros y a' E. apply (B2 y (x :: a')). rewrite E. reflexivity.
  Qed.
  Lemma at_key k b b' r : k <> [] -> Word k -> all_space b -> all_space b' -> stops is_space r ->
    prop_at (k ++ b ++ py ":" ++ b' ++ r) = match value_at r with
      | Some (t, v) => Some (k, t, v, skipn (List.length v) r)
      | None => match rev b' with x :: _ => Some (k, PString, [x], r) | [] => None end
      end.
  Proof.
    intros NE W B B' St. unfold prop_at, run_at. change (py ":" ++ b' ++ r) with (58%N :: b' ++ r).
    destruct (while_stops is_word _ (words_stop D b 58 (b' ++ r) B eq_refl)) as [E1 E2].
    rewrite while_app, lstrip_app by exact W. rewrite E1, E2. rewrite lstrip_app by exact B. cbn [lstrip]. change (is_space 58) with false. cbv iota. cbn [behind]. rewrite N.eqb_refl.
    destruct (while_stops is_space r St) as [E3 E4].
    rewrite while_app, lstrip_app by exact B'. rewrite E3, E4, !app_nil_r. destruct k; [congruence|]. reflexivity.
  Qed.
  Lemma get_one a k b b' v t ty x : before_key a -> k <> [] -> Word k -> all_space b -> all_space b' -> stops is_space (v ++ t) ->
    value_at (v ++ t) = Some (ty, v) -> ~ In 58%N t -> reads ty v x ->
    get_property_dict (Some (a ++ k ++ b ++ py ":" ++ b' ++ v ++ t)) = let? y := x in Ok (Some [(k, y)]).
  Proof.
    intros Ba NE W B B' St Ev Nc R.
    assert (P : PropsOf (a ++ k ++ b ++ py ":" ++ b' ++ v ++ t) [(k, ty, v)]).
    { apply before_skip; auto. eapply PO_take; [rewrite at_key by auto; rewrite Ev; reflexivity|]. rewrite skipn_app, Nat.sub_diag, skipn_all. apply no_colon. exact Nc. }
    assert (G : read_all [(k, ty, v)] (let? y := x in Ok [(k, y)])).
    { destruct x as [y|e]; cbn [bind].
      - apply RA_ok with [(k, y)]; [constructor; [split; [reflexivity|exact R]|constructor]| |reflexivity].
        split; [constructor; [intros []|constructor]|]. intros k' v'. split.
        + intros [E|[]]. inv E. exists [], []. split; [reflexivity|intros []].
        + intros (p & q & E & _). destruct p as [|? p]; [inv E; left; reflexivity|]. destruct p; discriminate.
      - apply (RA_err [] (k, ty, v) [] e); [constructor|exact R]. }
    assert (E : parse_properties (a ++ k ++ b ++ py ":" ++ b' ++ v ++ t) = let? y := x in Ok [(k, y)]) by (apply (parse_any_iff D); exists [(k, ty, v)]; auto).
    unfold get_property_dict. destruct (a ++ k ++ b ++ py ":" ++ b' ++ v ++ t) eqn:Et; [destruct a; [destruct k; [congruence|discriminate Et]|discriminate Et]|].
    rewrite E. destruct x; reflexivity.
  Qed.
  Lemma stops_app v t : v <> [] -> stops is_space v -> stops is_space (v ++ t).
  Proof. destruct v; [congruence|auto]. Qed.
  Lemma word_at_self w t : forallb is_ascii w = true -> word_at w (w ++ t) = Some w.
  Proof.
    induction w as [|x w IH]; [reflexivity|]. cbn [forallb word_at app]. intros H. apply andb_prop in H as [H1 H2].
    unfold ci_eqb. rewrite H1, N.eqb_refl, IH by exact H2. reflexivity.
  Qed.
  Lemma word_at_head p w x s : ci_eqb p x = false -> word_at (p :: w) (x :: s) = None.
  Proof. intros H. cbn [word_at]. rewrite H. reflexivity. Qed.
  Lemma no_words_at x s : is_ascii x = true -> is_alpha0 x = false ->
    word_at (py "null") (x :: s) = None /\ word_at (py "true") (x :: s) = None /\ word_at (py "false") (x :: s) = None.
  Proof. intros A L. repeat split; apply word_at_head; apply not_letter; auto. Qed.

  (** ** the four cases *)
  Lemma get_no_colon s : s <> [] -> ~ In 58%N s -> get_property_dict (Some s) = Ok (Some []).
  Proof.
    intros NE H. unfold get_property_dict. destruct s as [|x s]; [congruence|].
    replace (parse_properties (x :: s)) with (@Ok (list (pystr * pyval)) []); [reflexivity|]. symmetry. apply (parse_any_iff D). exists []. split; [apply no_colon; exact H|].
    apply RA_ok with []; [constructor| |reflexivity]. split; [constructor|]. intros k v. split; [intros []|]. intros ([|] & ? & E & _); discriminate.
  Qed.
  Lemma get_number_cut a k b b' ds t : before_key a -> k <> [] -> Word k -> all_space b -> all_space b' -> Digits ds -> short_enough ds -> ~ In 58%N t ->
    (forall x t', t = x :: t' -> is_digit x = false /\ x <> 46%N) ->
    get_property_dict (Some (a ++ k ++ b ++ py ":" ++ b' ++ ds ++ t)) = Ok (Some [(k, VInt (decimal ds))]).
  Proof.
    intros Ba NE W B B' Dg Sh Nc St. pose proof Dg as Dg'. apply Digits_0 in Dg' as [Nd Fd].
    assert (Fd' : Forall (fun c => is_digit c = true) ds) by (eapply Forall_impl; [|exact Fd]; intros x Hx; apply digit0_is_digit; exact Hx).
    assert (S1 : stops is_digit t) by (destruct t; [exact I|apply (St _ _ eq_refl)]).
    assert (S0 : stops is_digit0 t) by (destruct t as [|y t]; [exact I|]; destruct (St y t eq_refl) as [H _]; cbn; destruct (is_digit0 y) eqn:E; [apply digit0_is_digit in E; congruence|reflexivity]).
    eapply (get_one a k b b' ds t PInt (Ok _)); auto; [| |constructor; exact Sh].
    - apply stops_app; [exact Nd|]. destruct ds as [|x ds]; [congruence|]. apply (word_not_space D), (digit_word D). apply (Forall_inv Fd').
    - destruct (while_stops is_digit t S1) as [W1 L1]. destruct (while_stops is_digit0 t S0) as [W0 _].
      assert (X : exists x ds', ds = x :: ds' /\ is_ascii x = true /\ is_alpha0 x = false).
      { destruct ds as [|x ds]; [congruence|]. exists x, ds. split; [reflexivity|]. apply Forall_inv in Fd. unfold is_digit0, is_ascii, is_alpha0, is_upper0, is_lower0, between in *. lia. }
      destruct X as (x & ds' & E & A & L). destruct (no_words_at x (ds' ++ t) A L) as (N1 & N2 & N3).
      unfold value_at. rewrite E in *. cbn [app]. rewrite N1, N2, N3. change (x :: ds' ++ t) with ((x :: ds') ++ t). rewrite <- E in *. cbn [or_else tagged option_map].
      unfold frac_at, run_at. rewrite lstrip_app by exact Fd'. rewrite while_app by exact Fd'. rewrite while_app by exact Fd. rewrite W1, W0, L1, !app_nil_r.
      destruct ds; [congruence|]. replace (behind 46 t) with (@None pystr); [reflexivity|]. destruct t as [|y t]; [reflexivity|]. cbn [behind].
      destruct (St y t eq_refl) as [_ H]. destruct (N.eqb_spec y 46); [congruence|reflexivity].
  Qed.
  Lemma get_null_cut a k b b' t : before_key a -> k <> [] -> Word k -> all_space b -> all_space b' -> ~ In 58%N t ->
    get_property_dict (Some (a ++ k ++ b ++ py ":" ++ b' ++ py "null" ++ t)) = Ok (Some [(k, VNone)]).
  Proof.
    intros Ba NE W B B' Nc. apply (get_one a k b b' (py "null") t PNone (Ok VNone)); auto; [reflexivity|constructor].
  Qed.
  Lemma get_bool_cut a k b b' t (v : bool) : before_key a -> k <> [] -> Word k -> all_space b -> all_space b' -> ~ In 58%N t ->
    get_property_dict (Some (a ++ k ++ b ++ py ":" ++ b' ++ py (if v then "true" else "false") ++ t)) = Ok (Some [(k, VBool v)]).
  Proof.
    intros Ba NE W B B' Nc. apply (get_one a k b b' (py (if v then "true" else "false")) t PBool (Ok (VBool v))); auto; [destruct v; reflexivity| |destruct v; constructor].
    unfold value_at. destruct v.
    - rewrite (word_at_self (py "true") t eq_refl). reflexivity.
    - rewrite (word_at_self (py "false") t eq_refl). reflexivity.
  Qed.
  Lemma value_at_bracket c t : is_list_ch c = false -> value_at (91%N :: c :: t) = None.
  Proof.
    intros H. destruct (no_words_at 91 (c :: t) eq_refl eq_refl) as (N1 & N2 & N3). unfold value_at. rewrite N1, N2, N3. cbn [or_else tagged option_map].
    unfold frac_at, list_at, run_at. cbn [while behind]. rewrite N.eqb_refl. change (is_digit 91) with false. change (is_digit0 91) with false. change (string_char 91) with false. cbv iota.
    assert (H' : list_char c = false) by exact H. cbn [while]. rewrite H'. reflexivity.
  Qed.
  Lemma get_empty_list a k b b' t : before_key a -> k <> [] -> Word k -> all_space b -> all_space b' -> ~ In 58%N t ->
    get_property_dict (Some (a ++ k ++ b ++ py ":" ++ b' ++ py "[]" ++ t)) =
    match b' with [] => Ok (Some []) | _ => Err WiggleGraphIllegalPropertyValue end.
  Proof.
    intros Ba NE W B B' Nc. assert (Ev : value_at (py "[]" ++ t) = None) by (apply value_at_bracket; reflexivity).
    assert (Nc2 : ~ In 58%N (py "[]" ++ t)) by (intros [H|[H|H]]; [discriminate|discriminate|auto]).
    assert (St : stops is_space (py "[]" ++ t)) by reflexivity.
    assert (Ne : a ++ k ++ b ++ py ":" ++ b' ++ py "[]" ++ t <> []) by (destruct a; [destruct k; [congruence|discriminate]|discriminate]).
    assert (G : forall l r, PropsOf (a ++ k ++ b ++ py ":" ++ b' ++ py "[]" ++ t) l -> read_all l r ->
      get_property_dict (Some (a ++ k ++ b ++ py ":" ++ b' ++ py "[]" ++ t)) = let? d := r in Ok (Some d)).
    { intros l r P R. assert (E : parse_properties (a ++ k ++ b ++ py ":" ++ b' ++ py "[]" ++ t) = r) by (apply (parse_any_iff D); eauto).
      unfold get_property_dict. destruct (a ++ _); [congruence|]. rewrite E. reflexivity. }
    destruct b' as [|x b'].
    - apply (G [] (Ok [])).
      + apply before_skip; auto. assert (Ek : prop_at (k ++ b ++ py ":" ++ [] ++ py "[]" ++ t) = None) by (rewrite at_key by auto; rewrite Ev; reflexivity).
        assert (Sk : forall w s l, w <> [] -> Word w -> prop_at (w ++ b ++ py ":" ++ py "[]" ++ t) = None -> s = b ++ py ":" ++ py "[]" ++ t -> PropsOf s l -> PropsOf (w ++ s) l).
        { clear - D B Ev St Nc. intros w s l Nw Ww E -> P. induction w as [|y w IH]; [congruence|]. inv Ww. cbn [app]. apply PO_skip; [exact E|].
          destruct w as [|z w]; [exact P|]. apply IH; [discriminate|assumption|].
          pose proof (at_key (z :: w) b [] (py "[]" ++ t) ltac:(discriminate) ltac:(assumption) B ltac:(constructor) St) as X. rewrite Ev in X. exact X. }
        apply (Sk k _ [] NE W Ek eq_refl).
        assert (Sp : forall b0 s, all_space b0 -> PropsOf s [] -> PropsOf (b0 ++ s) []).
        { clear - D. induction b0 as [|y b0 IH]; intros s F P; [exact P|]. inv F. cbn [app]. apply PO_skip; [|auto]. unfold prop_at, run_at. cbn [while]. rewrite (space_not_word D y) by assumption. reflexivity. }
        apply Sp; [exact B|]. change (py ":" ++ py "[]" ++ t) with (58%N :: py "[]" ++ t). apply PO_skip; [reflexivity|]. apply no_colon. exact Nc2.
      + apply RA_ok with []; [constructor| |reflexivity]. split; [constructor|]. intros k0 v. split; [intros []|]. intros ([|] & ? & E & _); discriminate.
    - destruct (@exists_last _ (x :: b') ltac:(discriminate)) as (w & y & Ew).
      apply (G [(k, PString, [y])] (Err WiggleGraphIllegalPropertyValue)).
      + apply before_skip; auto. eapply PO_take; [rewrite at_key by auto; rewrite Ev, Ew, rev_app_distr; reflexivity|]. apply no_colon. exact Nc2.
      + apply (RA_err [] (k, PString, [y]) []); [constructor|]. constructor. rewrite Ew in B'. apply Forall_app in B'. apply B'.
  Qed.
End PropsCut.
