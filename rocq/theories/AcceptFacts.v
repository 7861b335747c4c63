(** * AcceptFacts: written statements and the checks (C09) *)
From Verif Require Import PyBase BaseFacts Regex RegexSpec RegexFacts RegexMore Patterns SpecText SpecPattern SpecGrammar PatternFacts GrammarFacts Checks ChecksFacts Statements StatementFacts.
From Coq Require Import ZifyBool ZifyN ZifyNat.

Definition avoid (cs : list N) (u : pystr) : Prop := Forall (fun x => ~ In x cs) u.
Lemma avoid_app cs u v : avoid cs (u ++ v) <-> avoid cs u /\ avoid cs v.
Proof. apply Forall_app. Qed.
Lemma skip_heads r cs u s : (forall w d, Lang r w d -> exists x w', w = x :: w' /\ In x cs) -> avoid cs u -> finditer r (u ++ s) = finditer r s.
Proof.
  intros HL. unfold finditer. induction 1 as [|x u Hx F IH]; [reflexivity|]. cbn [app]. rewrite scan_none_cons; [exact IH|].
  apply match_here_none. intros w rest d E L. destruct (HL w d L) as (y & w' & -> & Hy). cbn in E. injection E as <- _. contradiction.
Qed.
Lemma take_match r w s d : Greedy r w s d -> w <> [] -> finditer r (w ++ s) = (w, d) :: finditer r s.
Proof. intros G N. unfold finditer. rewrite (scan_some r w s d (greedy_match _ _ _ _ G) N). reflexivity. Qed.

Section Accept.
  Context {rt : PyRt} (R : rt_ok rt).

  Lemma avoid_class (q : N -> bool) cs u : (forall c, In c cs -> q c = false) -> Forall (fun c => q c = true) u -> avoid cs u.
  Proof. intros H F. eapply Forall_impl; [|exact F]. cbn. intros c Hc Hi. rewrite (H c Hi) in Hc. discriminate. Qed.
  Ltac classes := let c := fresh "c" in intros c; cbn [In]; intros; repeat match goal with H : _ \/ _ |- _ => destruct H as [<- | H] end; try contradiction; reflexivity.
  Definition marks : list N := [60; 62; 45; 123; 125; 40; 41]%N.
  Lemma avoid_sub cs cs' u : incl cs' cs -> avoid cs u -> avoid cs' u.
  Proof. intros I F. eapply Forall_impl; [|exact F]. cbn. auto. Qed.
  Lemma avoid_space u : all_space u -> avoid (91 :: 93 :: 58 :: marks)%N u.
  Proof. apply avoid_class. unfold marks. classes. Qed.
  Lemma avoid_word u : Word u -> avoid (91 :: 93 :: 58 :: marks)%N u.
  Proof. apply avoid_class. unfold marks. classes. Qed.
  Lemma avoid_param u : Forall (fun c => is_param_ch c = true) u -> avoid [60; 62; 45; 40; 41]%N u.
  Proof. apply avoid_class. classes. Qed.
  Lemma avoid_dashes n cs : ~ In 45%N cs -> avoid cs (dashes n).
  Proof. intros H. unfold dashes. apply Forall_forall. intros x Hx. apply repeat_spec in Hx. subst. exact H. Qed.
  Lemma avoid_opt_props o : props_written o -> avoid [60; 62; 45; 40; 41]%N (opt_text o).
  Proof. intros P. destruct o as [t|]; [|constructor]. apply avoid_param. destruct (P t eq_refl) as [PT _]. apply param_text in PT as [_ F]. exact F. Qed.

  (** ** relationships *)
  Lemma Lang_rel_head w d : Lang rel_dir_check w d -> exists x w', w = x :: w' /\ In x [60; 45]%N.
  Proof.
    unfold rel_dir_check. intros L. apply Lang_grp in L as (c & -> & L). apply Lang_cats_cons in L as (u & v & c1 & d1 & -> & -> & L1 & L).
    apply Lang_opt in L1 as [L1|[-> ->]].
    - apply Lang_ch in L1 as [-> _]. eexists _, _. split; [reflexivity|]. left. reflexivity.
    - apply Lang_cats_cons in L as (u & v' & c2 & d2 & -> & -> & L1 & _). apply Lang_Plus in L1 as (N & F & _).
      destruct F as [|x u Hx F]; [congruence|]. apply N.eqb_eq in Hx. subst x. eexists _, _. split; [reflexivity|]. right. left. reflexivity.
  Qed.
  Lemma node_avoids n : node_written n -> avoid [60; 45]%N (show_node n).
  Proof.
    intros [B W1 W2 O N2 P]. unfold show_node. rewrite !avoid_app.
    repeat split; try (apply Forall_cons; [cbn; intuition discriminate|constructor]);
      try (eapply avoid_sub; [|apply avoid_word; assumption]; unfold marks; intros x; cbn; tauto);
      try (eapply avoid_sub; [|apply avoid_space; eapply Forall_forall in B; [exact B|cbn; tauto]]; unfold marks; intros x; cbn; tauto).
    eapply avoid_sub; [|apply avoid_opt_props; exact P]. intros x; cbn; tauto.
  Qed.

  Lemma greedy_check_rel r s : rel_written r -> stops (N.eqb 45) s -> stops (N.eqb 62) s ->
    Greedy rel_dir_check (arrow_text r) s [(GRelWhole, arrow_text r); (GRelName, wr_name r)].
  Proof.
    intros [B W1 W2 O CO NL P] SD SG. inversion B as [|? ? B1 T1]; subst. inversion T1 as [|? ? B2 T2]; subst.
    inversion T2 as [|? ? B3 T3]; subst. inversion T3 as [|? ? B4 T4]; subst. inversion T4 as [|? ? B6 T5]; subst. clear B T1 T2 T3 T4 T5.
    unfold rel_dir_check. apply greedy_grp. unfold arrow_text.
    apply (greedy_opt_ch (wr_lt r) 60). { intros _. rewrite <- app_assoc. reflexivity. }
    apply greedy_dashes; [reflexivity|]. apply greedy_chs.
    set (tl := opt_text (wr_props r) ++ _).
    assert (TW : forall p, p 93%N = false -> p 123%N = false -> stops p (tl ++ s)).
    { intros p H1 H2. unfold tl. rewrite <- app_assoc. apply stops_props; [exact H2|exact P|exact H1]. }
    apply greedy_sp; [exact B1| |].
    { rewrite <- !app_assoc. apply stops_space_word'; [exact R|exact W1|]. intros E. rewrite (O E). cbn [app].
      destruct (wr_colon r) eqn:Ec; [reflexivity|]. destruct (CO eq_refl) as [En Es]. rewrite En, Es, (NL En). apply TW; reflexivity. }
    change [(GRelName, wr_name r)] with ([(GRelName, wr_name r)] ++ []). apply greedy_cats.
    { apply greedy_star; [exact W1|]. rewrite <- !app_assoc. apply stops_word; [exact R|exact B2|].
      destruct (wr_colon r) eqn:Ec; [reflexivity|]. destruct (CO eq_refl) as [En Es]. rewrite En, Es, (NL En). apply TW; reflexivity. }
    apply greedy_sp; [exact B2| |].
    { destruct (wr_colon r) eqn:Ec; [reflexivity|]. destruct (CO eq_refl) as [En Es]. rewrite En, Es, (NL En). apply TW; reflexivity. }
    apply (greedy_opt_ch (wr_colon r) 58).
    { intros Ec. destruct (CO Ec) as [En Es]. rewrite En, Es, (NL En). apply TW; reflexivity. }
    apply greedy_sp; [exact B3| |].
    { rewrite <- !app_assoc. apply stops_space_word'; [exact R|exact W2|]. intros En. rewrite (NL En). apply TW; reflexivity. }
    change [(GRelName, wr_name r)] with ([] ++ [(GRelName, wr_name r)]). apply greedy_cats.
    { apply greedy_grp, greedy_star; [exact W2|]. rewrite <- !app_assoc. apply stops_word; [exact R|exact B4|]. apply TW; reflexivity. }
    apply greedy_sp; [exact B4|apply TW; reflexivity|].
    unfold tl. replace (opt_text (wr_props r) ++ py "]" ++ dashes (wr_d2 r) ++ (if wr_gt r then py ">" else []))
      with ((opt_text (wr_props r) ++ py "]") ++ dashes (wr_d2 r) ++ (if wr_gt r then py ">" else [])) by (rewrite <- app_assoc; reflexivity).
    apply (greedy_cats _ _ _ _ _ [] []).
    { apply greedy_plus; [destruct (opt_text (wr_props r)); discriminate| |reflexivity]. apply Forall_app. split.
      - destruct (wr_props r) as [t|]; [|constructor]. destruct (P t eq_refl) as [PT _]. apply param_text in PT as [_ F]. exact F.
      - constructor; [reflexivity|constructor]. }
    apply greedy_dashes. { destruct (wr_gt r); [reflexivity|exact SD]. }
    rewrite <- (app_nil_r (if wr_gt r then _ else _)). apply (greedy_opt_ch (wr_gt r) 62); [intros _; exact SG|]. apply greedy_cats_end.
  Qed.
  Lemma show_rel_arrow r : show_rel r = arrow_text r ++ wr_s6 r.
  Proof. unfold show_rel, arrow_text. rewrite <- !app_assoc. reflexivity. Qed.

  Lemma rel_matches_avoid u s : avoid [60; 45]%N u -> rel_matches (u ++ s) = rel_matches s.
  Proof. intros A. unfold rel_matches. rewrite (skip_heads _ [60; 45]%N u s Lang_rel_head A). reflexivity. Qed.
  Lemma rel_matches_rel r s : rel_written r -> (exists v, s = 40%N :: v) -> rel_matches (show_rel r ++ s) = rel_pair r :: rel_matches s.
  Proof.
    intros W [v ->]. rewrite show_rel_arrow, <- app_assoc.
    assert (B6 : all_space (wr_s6 r)) by (pose proof (rw_blanks _ W) as B; eapply Forall_forall in B; [exact B|cbn; tauto]).
    assert (G : Greedy rel_dir_check (arrow_text r) (wr_s6 r ++ 40%N :: v) [(GRelWhole, arrow_text r); (GRelName, wr_name r)]).
    { apply greedy_check_rel; [exact W| |]; (apply stops_blank_then; [|exact B6|reflexivity]); intros c Hc.
      - destruct (N.eqb_spec 45 c) as [<-|]; [discriminate|reflexivity].
      - destruct (N.eqb_spec 62 c) as [<-|]; [discriminate|reflexivity]. }
    unfold rel_matches at 1. rewrite (take_match _ _ _ _ G).
    - cbn [map snd cap gname_eqb]. f_equal. rewrite (skip_heads _ [60; 45]%N (wr_s6 r) _ Lang_rel_head); [reflexivity|].
      eapply avoid_sub; [|apply avoid_space; exact B6]. unfold marks. intros x; cbn; tauto.
    - unfold arrow_text. destruct (wr_lt r); discriminate.
  Qed.
  Lemma rel_matches_pattern p s : pattern_written p -> rel_matches (show_pattern p ++ s) = map rel_pair (rels_of p) ++ rel_matches s.
  Proof.
    assert (HN : forall n s, exists v, show_node n ++ s = 40%N :: v) by (intros; eexists; reflexivity).
    destruct p as [a|a r m|a r m r' c]; cbn [pattern_written show_pattern rels_of map app]; rewrite <- ?app_assoc.
    - intros W. apply rel_matches_avoid, node_avoids. exact W.
    - intros (WA & WR & WM). rewrite rel_matches_avoid by (apply node_avoids; exact WA). rewrite rel_matches_rel by auto.
      rewrite rel_matches_avoid by (apply node_avoids; exact WM). reflexivity.
    - intros (WA & WR & WM & WR' & WC). rewrite rel_matches_avoid by (apply node_avoids; exact WA). rewrite rel_matches_rel by auto.
      rewrite rel_matches_avoid by (apply node_avoids; exact WM). rewrite rel_matches_rel by auto.
      rewrite rel_matches_avoid by (apply node_avoids; exact WC). reflexivity.
  Qed.

  (** ** property texts *)
  Lemma Lang_props_head w d : Lang check_properties w d -> exists x w', w = x :: w' /\ In x [123]%N.
  Proof.
    unfold check_properties. intros L. apply Lang_cats_cons in L as (u & v & c1 & d1 & -> & -> & L1 & L). apply Lang_ch in L1 as [-> _].
    eexists _, _. split; [reflexivity|]. left. reflexivity.
  Qed.
  Definition check_props (s : pystr) : res unit := forM check_param_match (map fst (finditer check_properties s)).
  Lemma check_props_avoid u s : avoid [123]%N u -> check_props (u ++ s) = check_props s.
  Proof. intros A. unfold check_props. rewrite (skip_heads _ [123]%N u s Lang_props_head A). reflexivity. Qed.
  Lemma check_ch c : is_word c = true \/ is_space c = true \/ In c (py ":,'"".[]@") -> is_check_ch c = true.
  Proof.
    unfold is_check_ch. intros [-> | [-> | H]]; [reflexivity|rewrite orb_true_r; reflexivity|]. rewrite orb_true_iff. right.
    apply existsb_exists. exists c. split; [exact H|apply N.eqb_refl].
  Qed.
  Lemma check_props_props o s : (forall t, o = Some t -> prop_good t) -> check_props (opt_text o ++ s) = check_props s.
  Proof.
    intros H. destruct o as [t|]; [|reflexivity]. cbn [opt_text]. destruct (H t eq_refl) as (core & (body & sp & -> & EC & BS & NB & FB & _) & CK).
    assert (G : Greedy check_properties core (sp ++ s) []).
    { rewrite EC. unfold check_properties. apply greedy_chs. change (@nil (gname * pystr)) with (@nil (gname * pystr) ++ []). apply greedy_cats.
      - apply greedy_plus; [exact NB| |reflexivity]. eapply Forall_impl; [|exact FB]. intros c. apply check_ch.
      - apply greedy_chs. apply greedy_cats_end. }
    rewrite <- app_assoc. unfold check_props at 1. rewrite (take_match _ _ _ _ G) by (rewrite EC; discriminate). cbn [map fst forM]. rewrite CK. cbn [bind].
    fold (check_props (sp ++ s)). apply check_props_avoid. eapply avoid_sub; [|apply avoid_space; exact BS]. unfold marks. intros x; cbn; tauto.
  Qed.
  Ltac sp_avoid := rewrite check_props_avoid by (eapply avoid_sub; [|apply avoid_space; assumption]; unfold marks; let x := fresh in intros x; cbn; tauto).
  Ltac wd_avoid := rewrite check_props_avoid by (eapply avoid_sub; [|apply avoid_word; assumption]; unfold marks; let x := fresh in intros x; cbn; tauto).
  Ltac ch_avoid := rewrite check_props_avoid by (first [apply avoid_dashes; cbn; intuition discriminate | apply Forall_cons; [cbn; intuition discriminate|constructor]]).
  Lemma check_props_node n s : node_written n -> (forall t, wn_props n = Some t -> prop_good t) -> check_props (show_node n ++ s) = check_props s.
  Proof.
    intros [B W1 W2 O N2 P] G. inversion B as [|? ? B1 T1]; subst. inversion T1 as [|? ? B2 T2]; subst.
    inversion T2 as [|? ? B3 T3]; subst. inversion T3 as [|? ? B4 T4]; subst. inversion T4 as [|? ? B6 T5]; subst. clear B T1 T2 T3 T4 T5.
    unfold show_node. rewrite <- !app_assoc. ch_avoid. sp_avoid. wd_avoid. sp_avoid. ch_avoid. sp_avoid. wd_avoid. sp_avoid.
    rewrite check_props_props by exact G. ch_avoid. sp_avoid. reflexivity.
  Qed.
  Lemma check_props_rel r s : rel_written r -> (forall t, wr_props r = Some t -> prop_good t) -> check_props (show_rel r ++ s) = check_props s.
  Proof.
    intros [B W1 W2 O CO NL P] G. inversion B as [|? ? B1 T1]; subst. inversion T1 as [|? ? B2 T2]; subst.
    inversion T2 as [|? ? B3 T3]; subst. inversion T3 as [|? ? B4 T4]; subst. inversion T4 as [|? ? B6 T5]; subst. clear B T1 T2 T3 T4 T5.
    unfold show_rel. rewrite <- !app_assoc.
    rewrite check_props_avoid by (destruct (wr_lt r); [apply Forall_cons; [cbn; intuition discriminate|constructor]|constructor]).
    ch_avoid. ch_avoid. sp_avoid. wd_avoid. sp_avoid.
    rewrite check_props_avoid by (destruct (wr_colon r); [apply Forall_cons; [cbn; intuition discriminate|constructor]|constructor]).
    sp_avoid. wd_avoid. sp_avoid. rewrite check_props_props by exact G. ch_avoid. ch_avoid.
    rewrite check_props_avoid by (destruct (wr_gt r); [apply Forall_cons; [cbn; intuition discriminate|constructor]|constructor]).
    sp_avoid. reflexivity.
  Qed.
  Lemma props_in o (l1 l2 : list pystr) : Forall prop_good (l1 ++ opt_list o ++ l2) -> forall t, o = Some t -> prop_good t.
  Proof. intros F t ->. apply Forall_app in F as [_ F]. inv F. assumption. Qed.
  Lemma check_props_pattern p s : pattern_written p -> Forall prop_good (props_of p) -> check_props (show_pattern p ++ s) = check_props s.
  Proof.
    destruct p as [a|a r m|a r m r' c]; cbn [pattern_written show_pattern props_of]; rewrite <- ?app_assoc.
    - intros W F. apply check_props_node; [exact W|]. apply (props_in _ [] []). rewrite app_nil_r. exact F.
    - intros (WA & WR & WM) F. apply Forall_app in F as [F1 F]. apply Forall_app in F as [F2 F3].
      rewrite check_props_node, check_props_rel, check_props_node; auto;
        apply (props_in _ [] []); rewrite app_nil_r; assumption.
    - intros (WA & WR & WM & WR' & WC) F. apply Forall_app in F as [F1 F]. apply Forall_app in F as [F2 F]. apply Forall_app in F as [F3 F]. apply Forall_app in F as [F4 F5].
      rewrite check_props_node, check_props_rel, check_props_node, check_props_rel, check_props_node; auto;
        apply (props_in _ [] []); rewrite app_nil_r; assumption.
  Qed.
End Accept.

(** ** brackets between arrow heads *)
Inductive Chunky : pystr -> Prop :=
| Ch_nil : Chunky []
| Ch_text : forall u s, avoid [60; 62]%N u -> even_brackets u -> Chunky s -> Chunky (u ++ s)
| Ch_arrow : forall c s, is_arrow c -> Chunky s -> Chunky (c :: s).
Lemma even_app u v : even_brackets u -> even_brackets v -> even_brackets (u ++ v).
Proof.
  unfold even_brackets, occ. rewrite !count_occ_app. intros (A1 & A2 & A3) (B1 & B2 & B3).
  split; [|split].
  - destruct A1 as [a Ha], B1 as [b Hb]. exists (a + b). lia.
  - destruct A2 as [a Ha], B2 as [b Hb]. exists (a + b). lia.
  - destruct A3 as [a Ha], B3 as [b Hb]. exists (a + b). lia.
Qed.
Lemma even_app_inv u v : even_brackets u -> even_brackets (u ++ v) -> even_brackets v.
Proof.
  unfold even_brackets, occ. rewrite !count_occ_app. intros (A1 & A2 & A3) (B1 & B2 & B3).
  split; [|split].
  - destruct A1 as [a Ha], B1 as [b Hb]. exists (b - a). lia.
  - destruct A2 as [a Ha], B2 as [b Hb]. exists (b - a). lia.
  - destruct A3 as [a Ha], B3 as [b Hb]. exists (b - a). lia.
Qed.
(** the text up to every arrow head is even *)
Lemma Chunky_prefix s : Chunky s -> forall u b, s = u ++ b -> (forall c, In c u -> ~ is_arrow c) -> (b = [] \/ exists c b', b = c :: b' /\ is_arrow c) -> even_brackets u.
Proof.
  induction 1 as [|t s A E C IH|c s A C IH]; intros u b Eq NA HB.
  - symmetry in Eq. apply app_eq_nil in Eq as [-> _]. repeat split; exists 0; reflexivity.
  - assert (HU : exists u', u = t ++ u' /\ s = u' ++ b).
    { clear IH E C. revert u Eq NA. induction A as [|x t Hx A IHA]; intros u Eq NA; [exists u; auto|].
      cbn [app] in Eq. destruct u as [|y u].
      - cbn [app] in Eq. destruct HB as [-> |(c & b' & -> & HC)]; [discriminate|]. injection Eq as <- _. exfalso. apply Hx. cbn. destruct HC; auto.
      - cbn [app] in Eq. injection Eq as <- Eq. destruct (IHA u Eq) as (u' & -> & Es); [intros c Hc; apply NA; right; exact Hc|].
        exists u'. split; [reflexivity|exact Es]. }
    destruct HU as (u' & -> & Es). apply even_app; [exact E|]. apply (IH u' b); auto. intros c Hc. apply NA, in_or_app. auto.
  - destruct u as [|y u]; [repeat split; exists 0; reflexivity|]. cbn in Eq. injection Eq as <- _. exfalso. apply (NA c); [left; reflexivity|exact A].
Qed.
Lemma Chunky_after a c s : Chunky (a ++ c :: s) -> is_arrow c -> Chunky s.
Proof.
  intros H HC. remember (a ++ c :: s) as t eqn:E. revert a E. induction H as [|u t A Ev C IH|x t A C IH]; intros a E.
  - destruct a; discriminate.
  - assert (HU : exists a', t = a' ++ c :: s).
    { clear IH Ev C. revert a E. induction A as [|x u Hx A IHA]; intros a E; [exists a; exact E|]. destruct a as [|y a].
      - cbn in E. injection E as -> _. exfalso. apply Hx. cbn. destruct HC; auto.
      - cbn in E. injection E as <- E. eapply IHA. exact E. }
    destruct HU as [a' E']. eapply IH. exact E'.
  - destruct a as [|y a]; cbn in E; injection E as -> E; [subst; exact C|]. eapply IH. exact E.
Qed.
Lemma Chunky_segments s seg : Chunky s -> Segment s seg -> even_brackets seg.
Proof.
  intros C (a & b & E & NA & [-> |(a' & c & -> & HC)] & HB).
  - eapply Chunky_prefix; [exact C|exact E|exact NA|exact HB].
  - rewrite <- app_assoc in E. cbn [app] in E. subst s. apply Chunky_after in C; [|exact HC].
    eapply Chunky_prefix; [exact C|reflexivity|exact NA|exact HB].
Qed.

Section Brackets.
  Context {rt : PyRt}.
  Lemma occ_avoid c u : avoid [c] u -> occ c u = 0.
  Proof. intros A. apply count_occ_not_In. intros H. eapply Forall_forall in A; [|exact H]. apply A. left. reflexivity. Qed.
  Lemma even_avoid u : avoid [40; 41; 123; 125; 91; 93]%N u -> even_brackets u.
  Proof.
    intros A. unfold even_brackets. rewrite !occ_avoid by (eapply avoid_sub; [|exact A]; intros x; cbn; tauto).
    repeat split; exists 0; reflexivity.
  Qed.
  Lemma Chunky_avoid u s : avoid [60; 62; 40; 41; 123; 125; 91; 93]%N u -> Chunky s -> Chunky (u ++ s).
  Proof.
    intros A C. apply Ch_text; [|apply even_avoid|exact C]; (eapply avoid_sub; [|exact A]; intros x; cbn; tauto).
  Qed.
  Lemma Braced_even core t : Braced core t -> even_brackets t /\ avoid [60; 62]%N t.
  Proof.
    intros (body & sp & -> & -> & BS & _ & FB & EV).
    assert (A : avoid [60; 62; 40; 41; 123; 125]%N body).
    { eapply Forall_impl; [|exact FB]. cbn. intros c Hc Hi.
      repeat match goal with H : _ \/ _ |- _ => destruct H as [H | H] end; subst; try contradiction; try discriminate. }
    assert (AS : avoid [60; 62; 40; 41; 123; 125; 91; 93]%N sp).
    { eapply avoid_sub; [|apply avoid_space; exact BS]. unfold marks. intros x; cbn; tauto. }
    split.
    - apply even_app; [|apply even_avoid; eapply avoid_sub; [|exact AS]; intros x; cbn; tauto].
      unfold even_brackets, occ. rewrite !count_occ_app. fold (occ 40 body) (occ 41 body) (occ 123 body) (occ 125 body) (occ 91 body) (occ 93 body).
      rewrite !(occ_avoid 40), !(occ_avoid 41), !(occ_avoid 123), !(occ_avoid 125) by (eapply avoid_sub; [|exact A]; intros x; cbn; tauto).
      split; [|split]; [exists 0; reflexivity|exists 1; reflexivity|]. cbn. rewrite !Nat.add_0_r. exact EV.
    - rewrite !avoid_app. repeat split; try (apply Forall_cons; [cbn; intuition discriminate|constructor]);
        (eapply avoid_sub; [|first [exact A|exact AS]]; intros x; cbn; tauto).
  Qed.
End Brackets.
