(** * PropsAny: the properties of any text (C60) *)
From Verif Require Import PyBase BaseFacts Regex RegexSpec RegexFacts RegexMore Patterns Json JsonFacts Literal Props RtLaws PropsFacts
  SpecText SpecPattern SpecValue SpecChecks SpecProps ValueFacts ListFacts ValueMore CheckMore.
From Coq Require Import ZifyBool ZifyN ZifyNat.

Lemma filter_filter_and {A} (f g : A -> bool) l : filter f (filter g l) = filter (fun x => g x && f x) l.
Proof. induction l as [|x l IH]; [reflexivity|]. cbn. destruct (g x); cbn; [destruct (f x); congruence|exact IH]. Qed.
Lemma filter_filter_sub {A} (f g : A -> bool) l : (forall x, f x = true -> g x = true) -> filter f (filter g l) = filter f l.
Proof.
  intros H. rewrite filter_filter_and. apply filter_ext. intros x. destruct (f x) eqn:E; [rewrite (H x E); reflexivity|apply andb_false_r].
Qed.

Section PropsAny.
  Context {rt : PyRt} (D : rt_data rt).
  Local Notation okrt := (rt_base rt D).

  (** ** [f] computes the preferred match of [r] *)
  Definition Finds (r : re) (f : pystr -> option pystr) : Prop := forall s c,
    match f s with
    | Some v => exists s', s = v ++ s' /\ hd_error (allm r s c) = Some (s', c)
    | None => allm r s c = []
    end.
  Lemma no_cats a b l s c : allm a s c = [] -> allm (cats (a :: b :: l)) s c = [].
  Proof. apply no_cat. Qed.
  Lemma no_cat2 a b s c : (forall s1 c1, In (s1, c1) (allm a s c) -> allm b s1 c1 = []) -> allm (Cat a b) s c = [].
  Proof.
    intros H. cbn [allm]. induction (allm a s c) as [|[s1 c1] l IH]; [reflexivity|]. cbn [flat_map fst snd].
    rewrite H by (left; reflexivity). apply IH. intros; apply H. right; auto.
  Qed.
  Lemma finds_lit_ci w : w <> [] -> Finds (lit_ci w) (word_at w).
  Proof.
    unfold lit_ci. induction w as [|a w IH]; intros NE s c; [congruence|]. cbn [word_at map].
    destruct s as [|b s].
    { destruct w as [|a2 w]; [reflexivity|apply no_cats; reflexivity]. }
    destruct (ci_eqb a b) eqn:E.
    - destruct w as [|a2 w].
      + cbn. exists s. rewrite E. auto.
      + specialize (IH ltac:(discriminate) s c). cbn [map] in *. destruct (word_at (a2 :: w) s) as [v|]; cbn [option_map].
        * destruct IH as (s' & -> & H). exists s'. split; [reflexivity|]. eapply hd_cats; [apply hd_set; exact E|exact H].
        * apply (no_cat2 (Set_ (ci_eqb a))). intros s1 c1 H. cbn [allm] in H. rewrite E in H. destruct H as [H|[]]. inv H. exact IH.
    - destruct w as [|a2 w]; [apply no_set; exact E|apply no_cats, no_set; exact E].
  Qed.
  Lemma finds_alt a b f g : Finds a f -> Finds b g -> Finds (Alt a b) (fun s => or_else (f s) (g s)).
  Proof.
    intros F G s c. specialize (F s c). specialize (G s c). destruct (f s) as [v|]; cbn [or_else].
    - destruct F as (s' & -> & H). exists s'. split; [reflexivity|]. apply hd_alt_l. exact H.
    - destruct (g s) as [v|]; [|apply no_alt; auto]. destruct G as (s' & -> & H). exists s'. split; [reflexivity|]. apply hd_alt_r; auto.
  Qed.
  Lemma lstrip_stops' p s : stops p (lstrip p s).
  Proof. induction s as [|x s IH]; cbn [lstrip]; [exact I|]. destruct (p x) eqn:E; [exact IH|exact E]. Qed.
  Lemma hd_run p s c : while p s <> [] -> hd_error (allm (Plus p) s c) = Some (lstrip p s, c).
  Proof.
    intros NE. rewrite (while_lstrip p s) at 1. apply hd_plus; [exact NE|apply while_all|apply lstrip_stops'].
  Qed.
  Lemma no_plus p s c : while p s = [] -> allm (Plus p) s c = [].
  Proof.
    intros E. destruct s as [|x s]; [reflexivity|]. cbn [while] in E. destruct (p x) eqn:Ex; [discriminate|]. apply no_cat, no_set. exact Ex.
  Qed.
  Lemma finds_run p : Finds (Plus p) (run_at p).
  Proof.
    intros s c. unfold run_at. destruct (while p s) as [|x w] eqn:E; [apply no_plus; exact E|].
    exists (lstrip p s). split; [rewrite <- E; apply while_lstrip|]. apply hd_run. congruence.
  Qed.
  Lemma in_plus p s c s1 c1 : In (s1, c1) (allm (Plus p) s c) -> exists w, s = w ++ s1 /\ w <> [] /\ Forall (fun x => p x = true) w /\ c1 = c.
  Proof.
    intros H. apply allm_Lang in H as (w & d & -> & -> & L). apply Lang_Plus in L as (N & F & ->). exists w. auto.
  Qed.
  Lemma while_app p w s : Forall (fun x => p x = true) w -> while p (w ++ s) = w ++ while p s.
  Proof. induction 1 as [|x w H F IH]; [reflexivity|]. cbn [app while]. rewrite H, IH. reflexivity. Qed.
  Lemma lstrip_app p w s : Forall (fun x => p x = true) w -> lstrip p (w ++ s) = lstrip p s.
  Proof. induction 1 as [|x w H F IH]; [reflexivity|]. cbn [app lstrip]. rewrite H, IH. reflexivity. Qed.
  Lemma while_stops p s : stops p s -> while p s = [] /\ lstrip p s = s.
  Proof. destruct s as [|x s]; intros H; [auto|]. cbn [while lstrip]. cbn in H. rewrite H. auto. Qed.
  (** a run, then the character [y], which the run does not contain *)
  Lemma run_behind p y s c s1 c1 : p y = false -> In (s1, c1) (allm (Plus p) s c) -> forall s2 c2, In (s2, c2) (allm (ch y) s1 c1) ->
    run_at p s <> None /\ behind y (lstrip p s) = Some s2 /\ c2 = c.
  Proof.
    intros Py Hin s2 c2 H2. apply in_plus in Hin as (w & -> & NE & F & ->). unfold ch in H2. cbn [allm] in H2.
    destruct s1 as [|z s1]; [contradiction|]. destruct (N.eqb y z) eqn:Ez; [|contradiction]. apply N.eqb_eq in Ez. subst z.
    destruct H2 as [H2|[]]. inv H2. rewrite lstrip_app by auto. cbn [lstrip]. rewrite Py. cbn [behind]. rewrite N.eqb_refl.
    unfold run_at. rewrite while_app by auto. destruct w; [congruence|]. split; [discriminate|auto].
  Qed.
  Lemma run_then p y s c : p y = false -> (behind y (lstrip p s) = None \/ run_at p s = None) ->
    forall s1 c1, In (s1, c1) (allm (Plus p) s c) -> allm (ch y) s1 c1 = [].
  Proof.
    intros Py H s1 c1 Hin. destruct (allm (ch y) s1 c1) as [|[s2 c2] l] eqn:E; [reflexivity|].
    destruct (run_behind p y s c s1 c1 Py Hin s2 c2) as (A & B & _); [rewrite E; left; reflexivity|]. destruct H; congruence.
  Qed.
  Lemma behind_some y s s' : behind y s = Some s' -> s = y :: s'.
  Proof. destruct s as [|x s]; cbn; [discriminate|]. destruct (N.eqb_spec x y); [|discriminate]. intros E. inv E. reflexivity. Qed.
  Lemma run_some p s a : run_at p s = Some a -> while p s = a /\ a <> [].
  Proof. unfold run_at. destruct (while p s) eqn:E; [discriminate|]. intros H. inv H. split; [reflexivity|discriminate]. Qed.
  Lemma finds_frac : Finds (cats [Plus is_digit; ch 46; Plus is_digit]) frac_at.
  Proof.
    intros s c. unfold frac_at. cbn [cats].
    assert (No : behind 46 (lstrip is_digit s) = None \/ run_at is_digit s = None -> allm (Cat (Plus is_digit) (Cat (ch 46) (Plus is_digit))) s c = []).
    { intros H. apply no_cat2. intros s1 c1 Hin. apply no_cat. eapply run_then; eauto. reflexivity. }
    destruct (run_at is_digit s) as [a|] eqn:Ea; [|apply No; auto].
    destruct (behind 46 (lstrip is_digit s)) as [s'|] eqn:Eb; [|apply No; auto].
    pose proof (finds_run is_digit s' c) as R. destruct (run_at is_digit s') as [b|] eqn:E2; cbn [option_map].
    - destruct R as (r & -> & H). exists r. apply behind_some in Eb. apply run_some in Ea as [Ea NE]. split.
      + rewrite (while_lstrip is_digit s), Ea, Eb. rewrite <- !app_assoc. reflexivity.
      + eapply hd_cat; [apply hd_run; congruence|]. rewrite Eb. eapply hd_cat; [apply hd_set; reflexivity|exact H].
    - apply no_cat2. intros s1 c1 Hin. apply no_cat2. intros s2 c2 H2. destruct (run_behind is_digit 46 s c s1 c1 eq_refl Hin s2 c2 H2) as (_ & B & ->).
      rewrite Eb in B. inv B. exact R.
  Qed.
  Lemma finds_list : Finds (cats [ch 91; Plus is_list_ch; ch 93]) list_at.
  Proof.
    intros s c. unfold list_at. cbn [cats]. change list_char with is_list_ch. destruct (behind 91 s) as [s'|] eqn:E1.
    - apply behind_some in E1 as ->.
      assert (No : behind 93 (lstrip is_list_ch s') = None \/ run_at is_list_ch s' = None -> allm (Cat (ch 91) (Cat (Plus is_list_ch) (ch 93))) (91%N :: s') c = []).
      { intros H. apply no_cat2. intros s1 c1 Hin. cbn in Hin. destruct Hin as [X|[]]. inv X. apply no_cat2. intros s2 c2 H2. eapply run_then; eauto. reflexivity. }
      destruct (run_at is_list_ch s') as [b|] eqn:Eb; [|apply No; auto].
      destruct (behind 93 (lstrip is_list_ch s')) as [r|] eqn:Er; [|apply No; auto].
      exists r. apply behind_some in Er. apply run_some in Eb as [Eb NE]. split.
      + rewrite (while_lstrip is_list_ch s'), Eb, Er. cbn [app py]. rewrite <- !app_assoc. reflexivity.
      + eapply hd_cat; [apply hd_set; reflexivity|]. eapply hd_cat; [apply hd_run; congruence|]. rewrite Er. reflexivity.
    - apply no_cat. destruct s as [|x s]; [reflexivity|]. cbn [behind] in E1. apply no_set. destruct (N.eqb x 91) eqn:E; [discriminate|]. rewrite N.eqb_sym. exact E.
  Qed.

  (** ** a value *)
  Definition group_of (t : ptype) : gname :=
    match t with PNone => GNone | PBool => GBool | PFloat => GFloat | PInt => GInt | PList => GList | PString => GString end.
  Definition FindsT (r : re) (f : pystr -> option (ptype * pystr)) : Prop := forall s c,
    match f s with
    | Some (t, v) => exists s', s = v ++ s' /\ hd_error (allm r s c) = Some (s', (group_of t, v) :: c)
    | None => allm r s c = []
    end.
  Lemma finds_grp t r f : Finds r f -> FindsT (Grp (group_of t) r) (fun s => tagged t (f s)).
  Proof.
    intros F s c. specialize (F s c). unfold tagged. destruct (f s) as [v|]; cbn [option_map]; [|apply no_grp; exact F].
    destruct F as (s' & -> & H). exists s'. split; [reflexivity|]. apply hd_grp. exact H.
  Qed.
  Lemma findsT_alt a b f g : FindsT a f -> FindsT b g -> FindsT (Alt a b) (fun s => or_else (f s) (g s)).
  Proof.
    intros F G s c. specialize (F s c). specialize (G s c). destruct (f s) as [[t v]|]; cbn [or_else].
    - destruct F as (s' & -> & H). exists s'. split; [reflexivity|]. apply hd_alt_l. exact H.
    - destruct (g s) as [[t v]|]; [|apply no_alt; auto]. destruct G as (s' & -> & H). exists s'. split; [reflexivity|]. apply hd_alt_r; auto.
  Qed.
  Lemma finds_value : FindsT value_alts value_at.
  Proof.
    unfold value_alts, value_at. cbn [alts].
    apply (findsT_alt _ _ (fun s => tagged PNone (word_at (py "null") s))).
    { apply (finds_grp PNone), finds_lit_ci. discriminate. }
    apply (findsT_alt _ _ (fun s => tagged PBool (or_else (word_at (py "true") s) (word_at (py "false") s)))).
    { apply (finds_grp PBool (Alt (lit_ci (py "true")) (lit_ci (py "false"))) (fun s => or_else (word_at (py "true") s) (word_at (py "false") s))).
      apply finds_alt; apply finds_lit_ci; discriminate. }
    apply (findsT_alt _ _ (fun s => tagged PFloat (frac_at s))). { apply (finds_grp PFloat), finds_frac. }
    apply (findsT_alt _ _ (fun s => tagged PInt (run_at is_digit0 s))). { apply (finds_grp PInt), finds_run. }
    apply (findsT_alt _ _ (fun s => tagged PList (list_at s))). { apply (finds_grp PList), finds_list. }
    apply (finds_grp PString), finds_run.
  Qed.
  Lemma value_text r t v : value_at r = Some (t, v) -> exists r', r = v ++ r' /\ skipn (List.length v) r = r'.
  Proof.
    intros E. pose proof (finds_value r []) as F. rewrite E in F. destruct F as (s' & -> & _). exists s'. split; [reflexivity|].
    rewrite skipn_app, Nat.sub_diag, skipn_all. reflexivity.
  Qed.

  (** ** a property *)
  Lemma hd_star_back p w b r tl c m : Forall (fun x => p x = true) w -> p b = true -> stops p r ->
    allm tl r c = [] -> hd_error (allm tl (b :: r) c) = Some m -> hd_error (allm (Cat (Star p) tl) (w ++ b :: r) c) = Some m.
  Proof.
    intros F Pb St No Hd. assert (Er : all_star p r = [r]) by (destruct r as [|x r]; [reflexivity|]; cbn in *; rewrite St; reflexivity).
    cbn [allm]. rewrite flat_map_concat_map, map_map, <- flat_map_concat_map. cbn [fst snd].
    induction F as [|x w Hx F IH]; cbn [app all_star].
    - rewrite Pb, Er. cbn [app flat_map]. rewrite No. cbn [app]. destruct (allm tl (b :: r) c); [discriminate|exact Hd].
    - rewrite Hx, flat_map_app. destruct (flat_map _ (all_star p (w ++ b :: r))); [discriminate|exact IH].
  Qed.
  Definition prop_caps (k : pystr) (t : ptype) (v : pystr) : caps := [(GPropValue, v); (group_of t, v); (GPropName, k)].
  Lemma space_string b : is_space b = true -> is_string_ch b = true.
  Proof. unfold is_string_ch. intros ->. rewrite orb_true_r. reflexivity. Qed.
  Lemma ci_word p c : is_lower0 p = true -> ci_eqb p c = true -> is_word c = true.
  Proof.
    unfold ci_eqb, is_word. intros Hp. destruct (is_ascii c) eqn:A.
    - intros E. apply N.eqb_eq in E. unfold is_word0, is_alpha0. destruct (is_upper0 c) eqn:U; [reflexivity|].
      unfold lower0 in E. rewrite U in E. destruct (is_upper0 p) eqn:Up; unfold is_lower0, is_upper0, between in *; lia.
    - destruct (u_ci c) eqn:U; [|discriminate]. intros _. apply (rt_ci_word _ okrt _ _ U).
  Qed.
  Lemma value_at_blank b r : is_space b = true -> value_at r = None -> value_at (b :: r) = Some (PString, [b]).
  Proof.
    intros B N.
    assert (NW : forall p w, is_lower0 p = true -> word_at (p :: w) (b :: r) = None).
    { intros p w Hp. cbn [word_at]. destruct (ci_eqb p b) eqn:E; [|reflexivity]. apply ci_word in E; auto. rewrite (word_not_space D b E) in B. discriminate. }
    unfold value_at. change (py "null") with (110%N :: py "ull"). change (py "true") with (116%N :: py "rue"). change (py "false") with (102%N :: py "alse").
    rewrite !NW by reflexivity. cbn [or_else tagged option_map].
    assert (Nd : is_digit b = false) by (apply (space_not_digit D); auto).
    assert (Nd0 : is_digit0 b = false) by (destruct (is_digit0 b) eqn:E; [apply digit0_is_digit in E; congruence|reflexivity]).
    unfold frac_at, run_at at 1. cbn [while]. rewrite Nd. cbn [or_else tagged option_map]. unfold run_at at 1. cbn [while]. rewrite Nd0.
    cbn [or_else tagged option_map]. unfold list_at, behind at 1. destruct (N.eqb b 91) eqn:E91; [apply N.eqb_eq in E91; subst; discriminate|].
    cbn [or_else tagged option_map]. unfold run_at. cbn [while]. change (string_char b) with (is_string_ch b). rewrite (space_string b B).
    destruct (while string_char r) as [|x w] eqn:E; [reflexivity|]. exfalso. clear - N E. unfold value_at in N.
    unfold run_at at 2 in N. rewrite E in N. cbn [tagged option_map] in N.
    repeat match type of N with or_else ?a _ = None => destruct a; cbn [or_else] in N; [discriminate|] end. discriminate.
  Qed.
  Lemma in_star p s c s1 c1 : In (s1, c1) (allm (Star p) s c) -> exists w, s = w ++ s1 /\ Forall (fun x => p x = true) w /\ c1 = c.
  Proof.
    intros H. apply allm_Lang in H as (w & d & -> & -> & L). inv L. exists w. auto.
  Qed.
  Lemma in_ch y s c s1 c1 : In (s1, c1) (allm (ch y) s c) -> s = y :: s1 /\ c1 = c.
  Proof.
    intros H. apply allm_Lang in H as (w & d & -> & -> & L). apply Lang_ch in L as [-> ->]. auto.
  Qed.
  Lemma words_stop b x s : all_space b -> is_word x = false -> stops is_word (b ++ x :: s).
  Proof. intros H Hx. destruct H as [|y b Hy H]; [exact Hx|]. apply (space_not_word D). exact Hy. Qed.
  Lemma hd_grp_eq n a w s s' c d : s = w ++ s' -> hd_error (allm a s c) = Some (s', d) -> hd_error (allm (Grp n a) s c) = Some (s', (n, w) :: d).
  Proof. intros ->. apply hd_grp. Qed.
  Lemma no_prop s : prop_at s = None -> allm all_properties s [] = [].
  Proof.
    intros E. unfold all_properties. cbn [cats].
    apply no_cat2. intros s1 c1 H1. apply allm_Lang in H1 as (k & d & -> & -> & L). apply Lang_grp in L as (d' & -> & L). apply Lang_Plus in L as (NE & Fk & ->).
    apply no_cat2. intros s2 c2 H2. apply in_star in H2 as (b & -> & Fb & ->).
    apply no_cat2. intros u c3 H3. apply in_ch in H3 as [-> ->].
    apply no_cat2. intros r c4 H4. apply in_star in H4 as (b' & -> & Fb' & ->).
    apply no_grp. unfold prop_at in E.
    assert (E1 : run_at is_word (k ++ b ++ 58%N :: b' ++ r) = Some k).
    { unfold run_at. rewrite while_app by exact Fk. destruct (while_stops is_word _ (words_stop b 58 (b' ++ r) Fb eq_refl)) as [-> _]. rewrite app_nil_r. destruct k; congruence. }
    assert (E2 : lstrip is_space (lstrip is_word (k ++ b ++ 58%N :: b' ++ r)) = 58%N :: b' ++ r).
    { rewrite lstrip_app by exact Fk. destruct (while_stops is_word _ (words_stop b 58 (b' ++ r) Fb eq_refl)) as [_ ->]. rewrite lstrip_app by exact Fb. reflexivity. }
    rewrite E1, E2 in E. cbn [behind] in E. rewrite N.eqb_refl in E. rewrite lstrip_app in E by exact Fb'. rewrite while_app in E by exact Fb'.
    destruct (value_at (lstrip is_space r)) as [[t v]|] eqn:Ev; [discriminate|].
    destruct (rev (b' ++ while is_space r)) eqn:Er; [|discriminate].
    assert (Ez : b' ++ while is_space r = []) by (rewrite <- (rev_involutive (b' ++ _)), Er; reflexivity). apply app_eq_nil in Ez as [-> Ew].
    pose proof (while_lstrip is_space r) as X. rewrite Ew in X. cbn [app] in X. rewrite <- X in Ev. pose proof (finds_value r ([(GPropName, k)] ++ [])) as F.
    rewrite Ev in F. apply F.
  Qed.
  Lemma match_prop s : match prop_at s with
    | Some (k, t, v, r) => exists w, s = w ++ r /\ w <> [] /\ match_here all_properties s = Some (r, prop_caps k t v)
    | None => match_here all_properties s = None
    end.
  Proof.
    destruct (prop_at s) as [[[[k t] v] r]|] eqn:E; [|rewrite match_here_hd, no_prop by exact E; reflexivity].
    unfold prop_at in E. destruct (run_at is_word s) as [k'|] eqn:Ek; [|discriminate].
    destruct (behind 58 (lstrip is_space (lstrip is_word s))) as [u|] eqn:Eu; [|discriminate]. apply behind_some in Eu. apply run_some in Ek as [Ek NE].
    pose proof (while_lstrip is_word s) as E1. pose proof (while_lstrip is_space (lstrip is_word s)) as E2. pose proof (while_lstrip is_space u) as E3.
    rewrite Eu in E2. rewrite Ek in E1. rewrite match_here_hd. unfold all_properties.
    assert (Go : forall m, hd_error (allm (Cat Sp (Grp GPropValue value_alts)) u [(GPropName, k')]) = Some m ->
      hd_error (allm (cats [Grp GPropName (Plus is_word); Sp; ch 58; Sp; Grp GPropValue value_alts]) s []) = Some m).
    { intros m H. cbn [cats]. eapply hd_cat.
      - apply hd_grp_eq with (w := k') (s' := lstrip is_word s); [exact E1|]. apply hd_run. congruence.
      - rewrite E2. eapply hd_cat; [apply hd_star; [apply while_all|reflexivity]|]. eapply hd_cat; [apply hd_set; reflexivity|]. exact H. }
    destruct (value_at (lstrip is_space u)) as [[t' v']|] eqn:Ev.
    - inv E. destruct (value_text _ _ _ Ev) as (r' & Er & ->). exists (while is_word s ++ while is_space (lstrip is_word s) ++ 58%N :: while is_space u ++ v). repeat split.
      + rewrite E1 at 1. rewrite E2 at 1. rewrite E3 at 1. rewrite Er. rewrite <- !app_assoc. cbn [app]. rewrite <- !app_assoc. reflexivity.
      + destruct (while is_word s); [congruence|discriminate].
      + apply Go. eapply hd_cat. { rewrite E3 at 1. apply hd_star; [apply while_all|apply lstrip_stops']. }
        rewrite Er. apply hd_grp. pose proof (finds_value (v ++ r') [(GPropName, while is_word s)]) as F. rewrite <- Er, Ev in F. destruct F as (s' & F1 & F2).
        rewrite Er in *. apply app_inv_head in F1. subst s'. exact F2.
    - destruct (rev (while is_space u)) as [|b w] eqn:Ew; [discriminate|]. inv E.
      assert (Es : while is_space u = rev w ++ [b]) by (rewrite <- (rev_involutive (while is_space u)), Ew; reflexivity).
      pose proof (while_all is_space u) as WA. rewrite Es in WA. apply Forall_app in WA as [WA WB]. apply Forall_inv in WB.
      exists (while is_word s ++ while is_space (lstrip is_word s) ++ 58%N :: while is_space u). repeat split.
      + rewrite E1 at 1. rewrite E2 at 1. rewrite E3 at 1. rewrite <- !app_assoc. cbn [app]. reflexivity.
      + destruct (while is_word s); [congruence|discriminate].
      + apply Go. rewrite E3 at 1. rewrite Es, <- app_assoc. cbn [app]. apply hd_star_back; [exact WA|exact WB|apply lstrip_stops'| |].
        * apply no_grp. pose proof (finds_value (lstrip is_space u) [(GPropName, while is_word s)]) as F. rewrite Ev in F. exact F.
        * change (b :: lstrip is_space u) with ([b] ++ lstrip is_space u). apply hd_grp.
          pose proof (finds_value ([b] ++ lstrip is_space u) [(GPropName, while is_word s)]) as F.
          rewrite (value_at_blank b _ WB Ev : value_at ([b] ++ lstrip is_space u) = _) in F. destruct F as (s' & F1 & F2). apply app_inv_head in F1. subst s'. exact F2.
  Qed.

  (** ** the whole text *)
  Definition caps_of (p : pystr * ptype * pystr) : caps := prop_caps (fst (fst p)) (snd (fst p)) (snd p).
  Lemma PropsOf_unique s l : PropsOf s l -> forall l', PropsOf s l' -> l' = l.
  Proof.
    induction 1 as [|x s l E H IH|s k t v r l E H IH]; intros l' H'.
    - inv H'; [reflexivity|]. discriminate.
    - inv H'; [auto|congruence].
    - inv H'; [discriminate|congruence|]. rewrite E in H0. inv H0. f_equal. auto.
  Qed.
  Lemma Scanned_props s toks : Scanned all_properties s toks -> exists l, PropsOf s l /\ map snd (mats toks) = map caps_of l.
  Proof.
    assert (NE : forall d, ~ Lang all_properties [] d).
    { intros d L. assert (X : match_here all_properties [] = None) by reflexivity.
      assert (Y : In ([], d) (allm all_properties [] [])) by (apply allm_Lang_nil; exists []; auto). rewrite no_prop in Y by reflexivity. contradiction. }
    induction 1 as [H|x s l H S IH|w s d l B N S IH|d B|x s d l B N S IH|w s d d' l B N S IH].
    - exists []. split; [constructor|reflexivity].
    - destruct IH as (l' & P & E). exists l'. split; [|exact E]. apply PO_skip; [|exact P].
      pose proof (match_prop (x :: s)) as M. destruct (prop_at (x :: s)) as [[[[k t] v] r]|]; [|reflexivity]. exfalso.
      destruct M as (w & E1 & _ & M). rewrite E1 in M. apply match_here_iff_Best, Best_Lang in M. eapply H; [exact E1|exact M].
    - destruct IH as (l' & P & E). apply match_here_iff_Best in B. pose proof (match_prop (w ++ s)) as M.
      destruct (prop_at (w ++ s)) as [[[[k t] v] r]|] eqn:Ep; [|congruence]. destruct M as (w' & E1 & _ & M). rewrite B in M. inv M.
      exists ((k, t, v) :: l'). split; [eapply PO_take; eauto|]. cbn [mats map snd]. rewrite E. reflexivity.
    - apply Best_Lang in B. destruct (NE _ B).
    - apply Best_Lang in B. destruct (NE _ B).
    - apply Best_Lang in B. destruct (NE _ B).
  Qed.

  (** ** what a value stands for *)
  Lemma words_clean v : Forall (fun x => is_word x = true \/ x = 46%N) v -> clean v = v.
  Proof.
    intros F. assert (X : forall x, In x v -> ~ edge x).
    { intros x Hx [E|E]; eapply Forall_forall in F; eauto; cbn in F.
      - destruct F as [F| ->]; [apply (word_not_space D) in F; unfold blank_ch in E; congruence|discriminate E].
      - destruct E as [-> | ->]; destruct F; discriminate. }
    apply clean_id; intros x s' ->; apply X; [left; reflexivity|apply in_or_app; right; left; reflexivity].
  Qed.
  Lemma words_strip v : v <> [] -> Forall (fun x => is_word x = true \/ x = 46%N) v -> strip is_space v <> [].
  Proof.
    intros N F. destruct v as [|x v]; [congruence|]. apply strip_ne. inv F. destruct H1 as [H| ->]; [apply (word_not_space D); exact H|reflexivity].
  Qed.
  Lemma strip_all_space v : strip is_space v = [] <-> all_space v.
  Proof.
    split.
    - intros E. destruct (strip_spec is_space v) as (a & b & E2 & Fa & Fb & _). rewrite E in E2. rewrite E2. apply Forall_app. auto.
    - intros F. apply (strip_unique is_space v [] v []); auto; [rewrite !app_nil_r; reflexivity| |]; intros ? [] H; discriminate.
  Qed.
  Lemma reserved_eq v : existsb (str_eqb v) reserved_strings = true <-> In v reserved.
  Proof.
    rewrite existsb_exists. split.
    - intros (x & Hx & E). apply str_eqb_eq in E. subst. exact Hx.
    - intros H. exists v. split; [exact H|apply str_eqb_eq; reflexivity].
  Qed.
  Lemma ci_words w v d : Forall (fun x => is_lower0 x = true) w -> Lang (lit_ci w) v d -> Forall (fun x => is_word x = true) v.
  Proof.
    intros F L. apply Lang_lit_ci in L as [L _]. revert F. induction L as [|a b w v H L IH]; intros F; constructor; inv F; auto. eapply ci_word; eauto.
  Qed.
  Lemma one_read k t v w : Lang all_properties w (prop_caps k t v) -> exists r, reads t v r /\ one_property (prop_caps k t v) = let? x := r in Ok (k, x).
  Proof.
    intros L. apply Lang_all_properties in L as (name & value & more & E1 & _ & _ & E2 & L & E).
    assert (Em : more = [(group_of t, v)] /\ value = v).
    { unfold prop_caps in E. injection E as -> E. change [(group_of t, value); (GPropName, k)] with ([(group_of t, value)] ++ [(GPropName, k)]) in E.
      apply app_inj_tail in E as [-> _]. auto. }
    destruct Em as [-> ->]. clear E E1 E2 name w.
    assert (Y : yield_type (prop_caps k t v) = Ok t) by (destruct t; reflexivity).
    unfold one_property. change (cap GPropValue (prop_caps k t v)) with (Some v).
    replace (cap GPropName (prop_caps k t v)) with (Some k) by (destruct t; reflexivity). cbv iota. unfold handle_extracted. rewrite Y. cbn [bind].
    unfold value_alts in L. apply Lang_alts in L as (re & Hre & L).
    assert (Go : forall h r, v <> [] -> Forall (fun x => is_word x = true \/ x = 46%N) v -> reads t v r -> h v = r ->
      exists r0, reads t v r0 /\ match strip is_space v with [] => Err WiggleGraphIllegalPropertyValue | _ :: _ => let? x := h (clean v) in Ok (k, x) end = (let? x := r0 in Ok (k, x))).
    { intros h r NE F R Eh. exists r. split; [exact R|]. rewrite words_clean by exact F. rewrite Eh. pose proof (words_strip v NE F). destruct (strip is_space v); [congruence|reflexivity]. }
    assert (WD : forall v, Forall (fun x => is_word x = true) v -> Forall (fun x => is_word x = true \/ x = 46%N) v) by (intros ? H; eapply Forall_impl; [|exact H]; auto).
    cbn [In] in Hre. destruct Hre as [<-|[<-|[<-|[<-|[<-|[<-|[]]]]]]]; apply Lang_grp in L as (c & Ec & L); destruct t; try discriminate Ec; cbv iota.
    - assert (F : Forall (fun x => is_word x = true) v) by (eapply ci_words; [|exact L]; repeat constructor).
      assert (NE : v <> []) by (intros ->; apply Lang_lit_ci in L as [L _]; inv L).
      destruct (str_eq_dec v (py "null")) as [->|N].
      + apply (Go handle_null (Ok VNone)); auto; constructor.
      + apply (Go handle_null (Err WiggleGraphIllegalPropertyValue)); auto; [constructor; exact N|]. unfold handle_null. rewrite (proj2 (str_eqb_neq _ _) N). reflexivity.
    - assert (F : Forall (fun x => is_word x = true) v).
      { apply Lang_alt in L as [L|L]; (eapply ci_words; [|exact L]; repeat constructor). }
      assert (NE : v <> []) by (intros ->; apply Lang_alt in L as [L|L]; apply Lang_lit_ci in L as [L _]; inv L).
      destruct (str_eq_dec v (py "true")) as [->|N]; [apply (Go handle_bool (Ok (VBool true))); auto; constructor|].
      destruct (str_eq_dec v (py "false")) as [->|N2]; [apply (Go handle_bool (Ok (VBool false))); auto; constructor|].
      apply (Go handle_bool (Err WiggleGraphIllegalPropertyValue)); auto; [constructor; auto|].
      unfold handle_bool. rewrite (proj2 (str_eqb_neq _ _) N), (proj2 (str_eqb_neq _ _) N2). reflexivity.
    - apply Lang_cat in L as (a & ? & c1 & c2 & -> & -> & L1 & L2). apply Lang_cat in L2 as (d & b & c3 & c4 & -> & -> & L2 & L3).
      apply Lang_Plus in L1 as (Na & Fa & ->). apply Lang_ch in L2 as [-> ->]. apply Lang_Plus in L3 as (Nb & Fb & ->).
      assert (Dg : forall v, Forall (fun x => is_digit x = true) v -> Forall (fun x => is_word x = true \/ x = 46%N) v).
      { intros v H. eapply Forall_impl; [|exact H]. intros x Hx. left. apply (digit_word D). exact Hx. }
      assert (F : Forall (fun x => is_word x = true \/ x = 46%N) (a ++ [46%N] ++ b)) by (apply Forall_app; split; [auto|]; apply Forall_app; split; auto).
      assert (NE : a ++ [46%N] ++ b <> []) by (destruct a; [congruence|discriminate]).
      assert (Ct : contains (py ".") (a ++ [46%N] ++ b) = true) by (apply contains_app; exists a, b; reflexivity).
      destruct (f_repr (a ++ [46%N] ++ b)) as [x|] eqn:Ef.
      + apply (Go handle_float (Ok (VFloat x))); auto; [constructor; exact Ef|]. unfold handle_float. rewrite Ct, Ef. reflexivity.
      + apply (Go handle_float (Err WiggleGraphIllegalPropertyValue)); auto; [constructor; exact Ef|]. unfold handle_float. rewrite Ct, Ef. reflexivity.
    - apply Lang_Plus in L as (NE & F & _).
      assert (F' : Forall (fun x => is_word x = true \/ x = 46%N) v).
      { eapply Forall_impl; [|exact F]. intros x Hx. left. apply (digit_word D), digit0_is_digit. exact Hx. }
      destruct (int_fits (N.of_nat (List.length v))) eqn:Ei.
      + apply (Go handle_int (Ok (VInt (decimal v)))); auto; [constructor; exact Ei|]. unfold handle_int. rewrite not_dot by auto. rewrite <- decimal_digits by auto.
        destruct v as [|x v]; [congruence|]. rewrite (proj2 (forallb_forall _ _)), Ei; [reflexivity|]. apply Forall_forall. exact F.
      + apply (Go handle_int (Err WiggleGraphIllegalPropertyValue)); auto; [apply RD_int_long; unfold short_enough; rewrite Ei; discriminate|].
        unfold handle_int. rewrite not_dot by auto. destruct v as [|x v]; [congruence|]. rewrite Ei, andb_false_r. reflexivity.
    - apply Lang_cat in L as (a & ? & c1 & c2 & -> & -> & L1 & L2). apply Lang_cat in L2 as (d & b & c3 & c4 & -> & -> & L2 & L3).
      apply Lang_ch in L1 as [-> ->]. apply Lang_Plus in L2 as (Nd & Fd & ->). apply Lang_ch in L3 as [-> ->].
      assert (Es : strip is_space ([91%N] ++ d ++ [93%N]) <> []) by (apply strip_ne; reflexivity).
      change ([91%N] ++ d ++ [93%N]) with (py "[" ++ d ++ py "]") in *. rewrite clean_list. unfold handle_list.
      change (pythonise (py "[" ++ d ++ py "]")) with (respelt (py "[" ++ d ++ py "]")).
      destruct (literal_eval (respelt (py "[" ++ d ++ py "]"))) as [x|e] eqn:El.
      + exists (Ok x). split; [constructor; exact El|]. destruct (strip is_space _); [congruence|reflexivity].
      + assert (De : e = SyntaxError \/ e <> SyntaxError) by (destruct e; auto; right; discriminate). destruct De as [->|Ne].
        * exists (Err WiggleGraphIllegalPropertyValue). split; [constructor; exact El|]. destruct (strip is_space _); [congruence|reflexivity].
        * exists (Err e). split; [apply RD_list_err; auto|]. destruct (strip is_space _); [congruence|]. destruct e; try reflexivity. congruence.
    - destruct (strip is_space v) as [|y z] eqn:Es.
      + exists (Err WiggleGraphIllegalPropertyValue). split; [apply RD_blank, strip_all_space; exact Es|reflexivity].
      + assert (Na : ~ all_space v) by (intros H; apply strip_all_space in H; congruence).
        assert (T : Trimmed v (clean v)) by (apply Trimmed_clean; reflexivity). unfold handle_string.
        destruct (existsb (str_eqb (clean v)) reserved_strings) eqn:Er.
        * exists (Err WiggleGraphIllegalPropertyValue). split; [|reflexivity]. apply RD_reserved with (clean v); auto. apply reserved_eq. exact Er.
        * exists (Ok (VStr (clean v))). split; [|reflexivity]. apply RD_str; auto. rewrite <- reserved_eq. congruence.
  Qed.

  (** ** the dictionary *)
  Lemma d_set_keys {A} k (v : A) d : map fst (d_set k v d) = if existsb (str_eqb k) (map fst d) then map fst d else map fst d ++ [k].
  Proof.
    induction d as [|[k' v'] d IH]; [reflexivity|]. cbn [d_set map fst existsb]. destruct (str_eqb k k') eqn:E; cbn [orb map fst].
    - apply str_eqb_eq in E. subst. reflexivity.
    - rewrite IH. destruct (existsb (str_eqb k) (map fst d)); reflexivity.
  Qed.
  Lemma sets_keys kvs d : NoDup (map fst d) ->
    map fst (sets kvs d) = map fst d ++ filter (fun k => negb (existsb (str_eqb k) (map fst d))) (firsts (map fst kvs)).
  Proof.
    revert d. induction kvs as [|[k v] kvs IH]; intros d ND.
    - cbn. rewrite app_nil_r. reflexivity.
    - change (sets ((k, v) :: kvs) d) with (sets kvs (d_set k v d)). rewrite IH by (apply d_set_NoDup; exact ND). rewrite d_set_keys.
      cbn [map fst firsts filter]. destruct (existsb (str_eqb k) (map fst d)) eqn:E; cbn [negb].
      + f_equal. rewrite filter_filter_sub; [reflexivity|]. intros x Hx. apply negb_true_iff in Hx. apply negb_true_iff.
        destruct (str_eqb k x) eqn:Ek; [|reflexivity]. apply str_eqb_eq in Ek. subst. congruence.
      + rewrite <- app_assoc. f_equal. cbn [app]. f_equal. rewrite filter_filter_and. apply filter_ext. intros x. rewrite existsb_app. cbn [existsb].
        rewrite orb_false_r, negb_orb. rewrite (str_eqb_sym x k). apply andb_comm.
  Qed.
  Lemma loop_reads l : forall ms d, map snd ms = map caps_of l -> Forall (fun p => exists w, Lang all_properties w (caps_of p)) l ->
    (exists kvs, Forall2 (fun p kv => fst kv = fst (fst p) /\ reads (snd (fst p)) (snd p) (Ok (snd kv))) l kvs /\ props_loop ms d = Ok (sets kvs d)) \/
    (exists l1 p l2 e, l = l1 ++ p :: l2 /\ Forall (fun p => exists x, reads (snd (fst p)) (snd p) (Ok x)) l1 /\
      reads (snd (fst p)) (snd p) (Err e) /\ props_loop ms d = Err e).
  Proof.
    induction l as [|[[k t] v] l IH]; intros ms d E F; destruct ms as [|[w c] ms]; try discriminate E.
    - left. exists []. split; [constructor|reflexivity].
    - cbn [map snd] in E. injection E as -> E. inv F. destruct H1 as (w' & L). change (caps_of (k, t, v)) with (prop_caps k t v) in *.
      destruct (one_read k t v w' L) as (r & R & Eo). cbn [props_loop]. rewrite Eo. destruct r as [x|e]; cbn [bind fst snd].
      + destruct (IH ms (d_set k x d) E H2) as [(kvs & G & El)|(l1 & p & l2 & e & -> & G & R' & El)].
        * left. exists ((k, x) :: kvs). split; [constructor; [split; [reflexivity|exact R]|exact G]|exact El].
        * right. exists ((k, t, v) :: l1), p, l2, e. split; [reflexivity|]. split; [constructor; [exists x; exact R|exact G]|auto].
      + right. exists [], (k, t, v), l, e. split; [reflexivity|]. split; [constructor|auto].
  Qed.
  Lemma Trimmed_clean_eq v x : Trimmed v x -> x = clean v.
  Proof. apply Trimmed_clean. Qed.
  Lemma reads_fun t v r1 r2 : reads t v r1 -> reads t v r2 -> r1 = r2.
  Proof.
    intros H1 H2. destruct H1; inv H2; try congruence; try reflexivity; try contradiction;
      repeat match goal with H : Trimmed _ _ |- _ => apply Trimmed_clean_eq in H; subst end; try contradiction; reflexivity.
  Qed.
  Lemma dict_unique kvs d1 d2 : dictionary_of kvs d1 -> dictionary_of kvs d2 -> map fst d1 = map fst d2 -> d1 = d2.
  Proof.
    intros [N1 I1] [N2 I2] E.
    assert (S : forall k v, In (k, v) d1 -> In (k, v) d2) by (intros k v H; apply I2, I1, H). clear I1 I2.
    revert d2 N2 E S. induction d1 as [|[k v] d1 IH]; intros [|[k2 v2] d2] N2 E S; try discriminate E; [reflexivity|].
    cbn [map fst] in *. injection E as <- E. inv N1. inv N2.
    assert (v2 = v).
    { destruct (S k v (or_introl eq_refl)) as [X|X]; [congruence|]. exfalso. apply H3. apply (in_map fst) in X. exact X. }
    subst v2. f_equal. apply IH; auto. intros k0 v0 H. destruct (S k0 v0 (or_intror H)) as [X|X]; [|exact X].
    inv X. exfalso. apply H1. apply (in_map fst) in H. exact H.
  Qed.
  Lemma read_all_fun l r1 r2 : read_all l r1 -> read_all l r2 -> r1 = r2.
  Proof.
    assert (X : forall (l : list (pystr * ptype * pystr)) kvs l1 p l2 e, Forall2 (fun p kv => fst kv = fst (fst p) /\ reads (snd (fst p)) (snd p) (Ok (snd kv))) l kvs ->
      l = l1 ++ p :: l2 -> reads (snd (fst p)) (snd p) (Err e) -> False).
    { clear. intros l kvs l1 p l2 e F -> R. apply Forall2_app_inv_l in F as (k1 & k2 & _ & F & _). inv F. destruct H1 as [_ H].
      pose proof (reads_fun _ _ _ _ R H). discriminate. }
    assert (Y : forall (l1 : list (pystr * ptype * pystr)) p l2 e l1' p' l2' e', l1 ++ p :: l2 = l1' ++ p' :: l2' -> Forall (fun p => exists x, reads (snd (fst p)) (snd p) (Ok x)) l1 ->
      reads (snd (fst p)) (snd p) (Err e) -> Forall (fun p => exists x, reads (snd (fst p)) (snd p) (Ok x)) l1' -> reads (snd (fst p')) (snd p') (Err e') -> e = e').
    { clear. induction l1 as [|q l1 IH]; intros p l2 e l1' p' l2' e' E F R F' R'; destruct l1' as [|q' l1']; cbn [app] in E; injection E as -> E.
      - pose proof (reads_fun _ _ _ _ R R'). congruence.
      - inv F'. destruct H1 as [x H]. pose proof (reads_fun _ _ _ _ R H). discriminate.
      - inv F. destruct H1 as [x H]. pose proof (reads_fun _ _ _ _ R' H). discriminate.
      - inv F. inv F'. eapply IH; eauto. }
    intros H1 H2. destruct H1 as [l kvs d F Dd Dk|l1 p l2 e F R]; inversion H2 as [l' kvs' d' F' Dd' Dk' El Er|l1' p' l2' e' F' R' El Er].
    - subst. assert (kvs' = kvs).
      { clear - F F'. revert kvs' F'. induction F as [|p kv l kvs [H1 H2] F IH]; intros kvs' F'; inv F'; [reflexivity|]. destruct H3 as [H3 H4].
        f_equal; [|auto]. pose proof (reads_fun _ _ _ _ H2 H4) as E. destruct kv, y. cbn [fst snd] in *. congruence. }
      subst. f_equal. eapply dict_unique; eauto. congruence.
    - exfalso. apply (X _ _ l1' p' l2' e' F); auto.
    - exfalso. apply (X _ _ l1 p l2 e F'); auto.
    - f_equal. apply (Y l1 p l2 e l1' p' l2' e'); auto.
  Qed.
  Theorem parse_any s : exists l, PropsOf s l /\ read_all l (parse_properties s).
  Proof.
    destruct (Scanned_props s _ (scan_Scanned all_properties s)) as (l & P & E). exists l. split; [exact P|].
    assert (F : Forall (fun p => exists w, Lang all_properties w (caps_of p)) l).
    { apply Forall_forall. intros p Hp. apply (in_map caps_of) in Hp. rewrite <- E in Hp. apply in_map_iff in Hp as ([w c] & Ec & Hin). cbn [snd] in Ec.
      exists w. rewrite <- Ec. eapply finditer_Lang. exact Hin. }
    unfold parse_properties. destruct (loop_reads l _ [] E F) as [(kvs & G & El)|(l1 & p & l2 & e & -> & G & R & El)].
    - unfold finditer. rewrite El. apply RA_ok with kvs; [exact G|apply sets_dictionary|]. rewrite sets_keys by constructor. cbn [map app].
      induction (firsts (map fst kvs)) as [|x z IH]; [reflexivity|]. cbn. f_equal. exact IH.
    - unfold finditer. rewrite El. apply RA_err; auto.
  Qed.
  Theorem one_reading s : exists! l, PropsOf s l.
  Proof. destruct (parse_any s) as (l & P & _). exists l. split; [exact P|]. intros l' P'. symmetry. eapply PropsOf_unique; eauto. Qed.
  Theorem parse_any_iff s r : parse_properties s = r <-> exists l, PropsOf s l /\ read_all l r.
  Proof.
    destruct (parse_any s) as (l & P & R). split.
    - intros <-. exists l. auto.
    - intros (l' & P' & R'). rewrite (PropsOf_unique _ _ P _ P') in R'. eapply read_all_fun; eauto.
  Qed.
End PropsAny.
