(** * AcceptMore: written statements are accepted (C09) *)
From Verif Require Import PyBase BaseFacts Regex RegexSpec RegexFacts RegexMore Patterns SpecText SpecPattern SpecGrammar PatternFacts GrammarFacts Checks ChecksFacts Statements StatementFacts AcceptFacts.
From Coq Require Import ZifyBool ZifyN ZifyNat.

Section AcceptMore.
  Context {rt : PyRt} (R : rt_ok rt).

  Lemma even_paren v : even_brackets v -> even_brackets (py "(" ++ v ++ py ")").
  Proof.
    unfold even_brackets, occ. rewrite !count_occ_app. cbn [count_occ py].
    intros ([a A] & [b B] & [c C]). split; [|split]; [exists (S a)|exists b|exists c]; cbn; lia.
  Qed.
  Lemma even_square v : even_brackets v -> even_brackets (py "[" ++ v ++ py "]").
  Proof.
    unfold even_brackets, occ. rewrite !count_occ_app. cbn [count_occ py].
    intros ([a A] & [b B] & [c C]). split; [|split]; [exists a|exists b|exists (S c)]; cbn; lia.
  Qed.
  Definition mild (u : pystr) : Prop := avoid [60; 62]%N u /\ even_brackets u.
  Lemma mild_app u v : mild u -> mild v -> mild (u ++ v).
  Proof. intros [A E] [A' E']. split; [apply avoid_app; auto|apply even_app; assumption]. Qed.
  Lemma mild_avoid u : avoid [60; 62; 40; 41; 123; 125; 91; 93]%N u -> mild u.
  Proof. intros A. split; [|apply even_avoid]; (eapply avoid_sub; [|exact A]; intros x; cbn; tauto). Qed.
  Lemma mild_space u : all_space u -> mild u.
  Proof. intros B. apply mild_avoid. eapply avoid_sub; [|apply avoid_space; exact B]. unfold marks. intros x; cbn; tauto. Qed.
  Lemma mild_word u : Word u -> mild u.
  Proof. intros B. apply mild_avoid. eapply avoid_sub; [|apply avoid_word; exact B]. unfold marks. intros x; cbn; tauto. Qed.
  Lemma mild_props o : (forall t, o = Some t -> prop_good t) -> mild (opt_text o).
  Proof.
    intros H. destruct o as [t|]; [|apply mild_avoid; constructor]. destruct (H t eq_refl) as (core & HB & _).
    apply Braced_even in HB as [E A]. split; assumption.
  Qed.
  Lemma mild_paren v : mild v -> mild (py "(" ++ v ++ py ")").
  Proof.
    intros [A E]. split; [|apply even_paren; exact E]. rewrite !avoid_app.
    repeat split; try exact A; (apply Forall_cons; [cbn; intuition discriminate|constructor]).
  Qed.
  Lemma mild_square v : mild v -> mild (py "[" ++ v ++ py "]").
  Proof.
    intros [A E]. split; [|apply even_square; exact E]. rewrite !avoid_app.
    repeat split; try exact A; (apply Forall_cons; [cbn; intuition discriminate|constructor]).
  Qed.
  Lemma mild_colon (b : bool) : mild (if b then py ":" else []).
  Proof. apply mild_avoid. destruct b; [apply Forall_cons; [cbn; intuition discriminate|constructor]|constructor]. Qed.
  Lemma mild_dashes n : mild (dashes n).
  Proof. apply mild_avoid, avoid_dashes. cbn. intuition discriminate. Qed.

  Lemma mild_node n : node_written n -> (forall t, wn_props n = Some t -> prop_good t) -> mild (show_node n).
  Proof.
    intros [B W1 W2 O N2 P] G. inversion B as [|? ? B1 T1]; subst. inversion T1 as [|? ? B2 T2]; subst.
    inversion T2 as [|? ? B3 T3]; subst. inversion T3 as [|? ? B4 T4]; subst. inversion T4 as [|? ? B6 T5]; subst. clear B T1 T2 T3 T4 T5.
    replace (show_node n) with ((py "(" ++ (wn_s1 n ++ wn_handle n ++ wn_s2 n ++ py ":" ++ wn_s3 n ++ wn_label n ++ wn_s4 n ++ opt_text (wn_props n)) ++ py ")") ++ wn_s6 n)
      by (unfold show_node; rewrite <- !app_assoc; reflexivity).
    apply mild_app; [apply mild_paren|apply mild_space; exact B6].
    repeat apply mild_app; auto using mild_space, mild_word, mild_props. exact (mild_colon true).
  Qed.
  Lemma Chunky_mild u s : mild u -> Chunky s -> Chunky (u ++ s).
  Proof. intros [A E]. apply Ch_text; assumption. Qed.
  Lemma Chunky_node n s : node_written n -> (forall t, wn_props n = Some t -> prop_good t) -> Chunky s -> Chunky (show_node n ++ s).
  Proof. intros W G. apply Chunky_mild, mild_node; assumption. Qed.
  Lemma Chunky_rel r s : rel_written r -> (forall t, wr_props r = Some t -> prop_good t) -> Chunky s -> Chunky (show_rel r ++ s).
  Proof.
    intros [B W1 W2 O CO NL P] G C. inversion B as [|? ? B1 T1]; subst. inversion T1 as [|? ? B2 T2]; subst.
    inversion T2 as [|? ? B3 T3]; subst. inversion T3 as [|? ? B4 T4]; subst. inversion T4 as [|? ? B6 T5]; subst. clear B T1 T2 T3 T4 T5.
    replace (show_rel r ++ s) with ((if wr_lt r then py "<" else []) ++ dashes (wr_d1 r) ++
      (py "[" ++ (wr_s1 r ++ wr_handle r ++ wr_s2 r ++ (if wr_colon r then py ":" else []) ++ wr_s3 r ++ wr_name r ++ wr_s4 r ++ opt_text (wr_props r)) ++ py "]") ++
      dashes (wr_d2 r) ++ (if wr_gt r then py ">" else []) ++ wr_s6 r ++ s) by (unfold show_rel; rewrite <- !app_assoc; reflexivity).
    assert (HL : forall s0, Chunky s0 -> Chunky ((if wr_lt r then py "<" else []) ++ s0)).
    { intros s0 H0. destruct (wr_lt r); [|exact H0]. apply Ch_arrow; [left; reflexivity|exact H0]. }
    assert (HG : forall s0, Chunky s0 -> Chunky ((if wr_gt r then py ">" else []) ++ s0)).
    { intros s0 H0. destruct (wr_gt r); [|exact H0]. apply Ch_arrow; [right; reflexivity|exact H0]. }
    apply HL. apply Chunky_mild; [apply mild_dashes|]. apply Chunky_mild.
    - apply mild_square. repeat apply mild_app; auto using mild_space, mild_word, mild_props, mild_colon.
    - apply Chunky_mild; [apply mild_dashes|]. apply HG. apply Chunky_mild; [apply mild_space; exact B6|exact C].
  Qed.
  Lemma Chunky_pattern p s : pattern_written p -> Forall prop_good (props_of p) -> Chunky s -> Chunky (show_pattern p ++ s).
  Proof.
    destruct p as [a|a r m|a r m r' c]; cbn [pattern_written show_pattern props_of]; rewrite <- ?app_assoc.
    - intros W F. apply Chunky_node; [exact W|]. apply (props_in _ [] []). rewrite app_nil_r. exact F.
    - intros (WA & WR & WM) F C. apply Forall_app in F as [F1 F]. apply Forall_app in F as [F2 F3].
      apply Chunky_node; [exact WA| |apply Chunky_rel; [exact WR| |apply Chunky_node; [exact WM| |exact C]]];
        apply (props_in _ [] []); rewrite app_nil_r; assumption.
    - intros (WA & WR & WM & WR' & WC) F C. apply Forall_app in F as [F1 F]. apply Forall_app in F as [F2 F]. apply Forall_app in F as [F3 F]. apply Forall_app in F as [F4 F5].
      apply Chunky_node; [exact WA| |apply Chunky_rel; [exact WR| |apply Chunky_node; [exact WM| |apply Chunky_rel; [exact WR'| |apply Chunky_node; [exact WC| |exact C]]]]];
        apply (props_in _ [] []); rewrite app_nil_r; assumption.
  Qed.

  (** ** characters *)
  Definition clean (u : pystr) : Prop := avoid [35; 37; 38; 42; 36]%N u.
  Ltac classes := let c := fresh "c" in intros c; cbn [In py]; intros; repeat match goal with H : _ \/ _ |- _ => destruct H as [<- | H] end; try contradiction; reflexivity.
  Lemma clean_space u : all_space u -> clean u.
  Proof. apply avoid_class. classes. Qed.
  Lemma clean_word u : Word u -> clean u.
  Proof. apply avoid_class. classes. Qed.
  Lemma clean_props o : props_written o -> clean (opt_text o).
  Proof.
    intros P. destruct o as [t|]; [|constructor]. destruct (P t eq_refl) as [PT _]. apply param_text in PT as [_ F].
    revert F. apply avoid_class. classes.
  Qed.
  Lemma clean_dashes n : clean (dashes n).
  Proof. apply avoid_dashes. cbn. intuition discriminate. Qed.
  Lemma clean_if (b : bool) x : ~ In x [35; 37; 38; 42; 36]%N -> clean (if b then [x] else []).
  Proof. intros H. destruct b; [constructor; [exact H|constructor]|constructor]. Qed.
  Lemma clean_app u v : clean u -> clean v -> clean (u ++ v).
  Proof. intros A B. apply avoid_app. auto. Qed.
  Lemma clean_one x : ~ In x [35; 37; 38; 42; 36]%N -> clean [x].
  Proof. exact (clean_if true x). Qed.
  Lemma clean_node n : node_written n -> clean (show_node n).
  Proof.
    intros [B W1 W2 O N2 P]. inversion B as [|? ? B1 T1]; subst. inversion T1 as [|? ? B2 T2]; subst.
    inversion T2 as [|? ? B3 T3]; subst. inversion T3 as [|? ? B4 T4]; subst. inversion T4 as [|? ? B6 T5]; subst.
    unfold show_node. repeat apply clean_app; auto using clean_space, clean_word, clean_props; apply clean_one; cbn; intuition discriminate.
  Qed.
  Lemma clean_rel r : rel_written r -> clean (show_rel r).
  Proof.
    intros [B W1 W2 O CO NL P]. inversion B as [|? ? B1 T1]; subst. inversion T1 as [|? ? B2 T2]; subst.
    inversion T2 as [|? ? B3 T3]; subst. inversion T3 as [|? ? B4 T4]; subst. inversion T4 as [|? ? B6 T5]; subst.
    unfold show_rel. repeat apply clean_app; auto using clean_space, clean_word, clean_props, clean_dashes;
      first [apply clean_if|apply clean_one]; cbn; intuition discriminate.
  Qed.
  Lemma clean_pattern p : pattern_written p -> clean (show_pattern p).
  Proof.
    destruct p as [a|a r m|a r m r' c]; cbn [pattern_written show_pattern].
    - apply clean_node.
    - intros (WA & WR & WM). auto using clean_app, clean_node, clean_rel.
    - intros (WA & WR & WM & WR' & WC). auto 10 using clean_app, clean_node, clean_rel.
  Qed.

  (** ** whole statements *)
  Lemma show_patterns_cons b p l : show_patterns ((b, p) :: l) = b ++ show_pattern p ++ match l with [] => [] | _ => py "," ++ show_patterns l end.
  Proof. destruct l as [|[b' p'] l]; cbn [show_patterns]; [rewrite app_nil_r|]; reflexivity. Qed.
  Lemma stmt_ind (f : pystr -> Prop) l s : good_list l -> f s ->
    (forall v, f v -> f (py "," ++ v)) ->
    (forall b p v, all_space b -> pattern_written p -> In (b, p) l -> f v -> f (b ++ show_pattern p ++ v)) -> f (show_patterns l ++ s).
  Proof.
    intros G H0 HC HP. induction G as [|[b p] l [B W] G IH]; [exact H0|]. rewrite show_patterns_cons, <- !app_assoc. cbn [fst snd] in *.
    apply HP; [exact B|exact W|left; reflexivity|]. destruct l as [|bp l]; [exact H0|]. rewrite <- app_assoc. apply HC. apply IH.
    intros b0 p0 v B0 W0 I0. apply HP; auto. right. exact I0.
  Qed.

  Lemma word_not_start kw : Word kw -> Forall (fun c => pat_start c = false) kw.
  Proof.
    apply Forall_impl. intros c Hc. unfold pat_start. destruct (is_space c) eqn:E; [rewrite (space_not_word R c E) in Hc; discriminate|].
    destruct (N.eqb_spec 40 c) as [<-|]; [discriminate|]. destruct (N.eqb_spec 60 c) as [<-|]; [discriminate|].
    destruct (N.eqb_spec 45 c) as [<-|]; [discriminate|]. reflexivity.
  Qed.
  Lemma skip_stops kw s : Forall (fun c => pat_start c = false) kw -> pattern_matches (kw ++ s) = pattern_matches s.
  Proof. induction 1 as [|x kw Hx F IH]; [reflexivity|]. cbn [app]. rewrite stop_cons; assumption. Qed.

  Theorem patterns_read kw l : Word kw -> good_list l ->
    pattern_matches (show_statement kw l) = map (fun bp => read_pattern (snd bp)) l.
  Proof.
    intros K G. unfold show_statement. rewrite skip_stops by (apply word_not_start; exact K).
    induction G as [|[b p] l [B W] G IH]; [cbn [show_patterns app map]; change (py ";") with [59%N]; rewrite stop_cons; reflexivity|].
    rewrite show_patterns_cons, <- !app_assoc. cbn [fst snd map] in *. destruct l as [|bp l].
    - change ([] ++ py ";") with (py ";"). rewrite (take_pattern R b p (py ";") B W) by reflexivity. change (py ";") with [59%N]. rewrite stop_cons; reflexivity.
    - rewrite <- app_assoc. rewrite (take_pattern R b p _ B W) by reflexivity. f_equal. change (py ",") with [44%N]. cbn [app]. rewrite stop_cons by reflexivity. exact IH.
  Qed.

  Theorem rels_read kw l : Word kw -> good_list l ->
    rel_matches (show_statement kw l) = flat_map (fun bp => map rel_pair (rels_of (snd bp))) l.
  Proof.
    intros K G. unfold show_statement. rewrite rel_matches_avoid by (eapply avoid_sub; [|apply avoid_word; exact K]; unfold marks; intros x; cbn; tauto).
    induction G as [|[b p] l [B W] G IH].
    - cbn [show_patterns app flat_map]. rewrite <- (app_nil_r (py ";")), rel_matches_avoid; [reflexivity|apply Forall_cons; [cbn; intuition discriminate|constructor]].
    - rewrite show_patterns_cons, <- !app_assoc. cbn [fst snd flat_map] in *.
      rewrite rel_matches_avoid by (eapply avoid_sub; [|apply avoid_space; exact B]; unfold marks; intros x; cbn; tauto).
      rewrite (rel_matches_pattern R) by exact W. f_equal. destruct l as [|bp l]; [exact IH|].
      rewrite <- app_assoc, rel_matches_avoid; [exact IH|apply Forall_cons; [cbn; intuition discriminate|constructor]].
  Qed.

  Lemma arrow_heads_text r : rel_written r -> (In 60%N (arrow_text r) <-> wr_lt r = true) /\ (In 62%N (arrow_text r) <-> wr_gt r = true).
  Proof.
    intros [B W1 W2 O CO NL P]. inversion B as [|? ? B1 T1]; subst. inversion T1 as [|? ? B2 T2]; subst.
    inversion T2 as [|? ? B3 T3]; subst. inversion T3 as [|? ? B4 T4]; subst. inversion T4 as [|? ? B6 T5]; subst. clear B T1 T2 T3 T4 T5.
    unfold arrow_text. set (mid := dashes (wr_d1 r) ++ py "[" ++ wr_s1 r ++ wr_handle r ++ wr_s2 r ++ (if wr_colon r then py ":" else []) ++
      wr_s3 r ++ wr_name r ++ wr_s4 r ++ opt_text (wr_props r) ++ py "]" ++ dashes (wr_d2 r)).
    assert (A : avoid [60; 62]%N mid).
    { unfold mid. rewrite !avoid_app. repeat split;
        try (apply avoid_dashes; cbn; intuition discriminate);
        try (destruct (wr_colon r));
        try (apply Forall_cons; [cbn; intuition discriminate|constructor]); try (constructor);
        try (eapply avoid_sub; [|apply avoid_space; assumption]; unfold marks; intros x; cbn; tauto);
        try (eapply avoid_sub; [|apply avoid_word; assumption]; unfold marks; intros x; cbn; tauto);
        try (eapply avoid_sub; [|apply avoid_opt_props; assumption]; intros x; cbn; tauto). }
    match goal with |- (In _ ?t <-> _) /\ _ => replace t with ((if wr_lt r then py "<" else []) ++ mid ++ (if wr_gt r then py ">" else []))
      by (unfold mid; rewrite <- !app_assoc; reflexivity) end.
    assert (H1 : ~ In 60%N mid) by (intros H; eapply Forall_forall in A; [|exact H]; apply A; left; reflexivity).
    assert (H2 : ~ In 62%N mid) by (intros H; eapply Forall_forall in A; [|exact H]; apply A; right; left; reflexivity).
    clearbody mid. rewrite !in_app_iff. destruct (wr_lt r), (wr_gt r); cbn; intuition (auto; discriminate).
  Qed.
  Lemma rel_good r : rel_written r -> one_way r -> upper_name r -> rel_acceptable (arrow_text r) (wr_name r).
  Proof.
    intros W O U. destruct (arrow_heads_text r W) as [H1 H2]. split; [|exact U]. unfold one_way in O. rewrite H1, H2, O.
    destruct (wr_gt r); cbn; intuition discriminate.
  Qed.
  Lemma rels_written p r : pattern_written p -> In r (rels_of p) -> rel_written r.
  Proof.
    destruct p as [a|a r1 m|a r1 m r2 c]; cbn [pattern_written rels_of In].
    - tauto.
    - intros (_ & W & _) [<-|[]]. exact W.
    - intros (_ & W & _ & W' & _) [<-|[<-|[]]]; assumption.
  Qed.

  Theorem written_passes kw l : Word kw -> good_list l -> passes l -> validate_statement [show_statement kw l] = Ok tt.
  Proof.
    intros K G PS. unfold validate_statement.
    assert (E1 : check_statement_syntax [show_statement kw l] = Ok tt).
    { apply brackets_spec. intros s seg [<-|[]] SG. eapply Chunky_segments; [|exact SG]. unfold show_statement.
      apply Chunky_mild; [apply mild_word; exact K|]. apply stmt_ind; [exact G| | |].
      - apply (Chunky_mild (py ";") []); [|constructor]. apply mild_avoid. apply Forall_cons; [cbn; intuition discriminate|constructor].
      - intros v. apply Chunky_mild. apply mild_avoid. apply Forall_cons; [cbn; intuition discriminate|constructor].
      - intros b p v B W I C. apply Chunky_mild; [apply mild_space; exact B|]. apply Chunky_pattern; [exact W| |exact C].
        eapply Forall_forall in PS; [|exact I]. apply PS. }
    assert (E2 : check_illegal_characters [show_statement kw l] = Ok tt).
    { apply illegal_spec. intros s [<-|[]] (c & Hc & Hi). assert (A : clean (show_statement kw l)).
      - unfold show_statement. apply clean_app; [apply clean_word; exact K|]. apply stmt_ind; [exact G| | |].
        + apply clean_one. cbn; intuition discriminate.
        + intros v. apply clean_app, clean_one. cbn; intuition discriminate.
        + intros b p v B W I C. apply clean_app; [apply clean_space; exact B|]. apply clean_app; [apply clean_pattern; exact W|exact C].
      - eapply Forall_forall in A; [|exact Hc]. apply A. exact Hi. }
    assert (E3 : check_node_rel_properties [show_statement kw l] = Ok tt).
    { unfold check_node_rel_properties. cbn [forM]. fold (check_props (show_statement kw l)). unfold show_statement.
      rewrite check_props_avoid by (eapply avoid_sub; [|apply avoid_word; exact K]; unfold marks; intros x; cbn; tauto).
      assert (E : check_props (show_patterns l ++ py ";") = Ok tt); [|rewrite E; reflexivity].
      apply (stmt_ind (fun s => check_props s = Ok tt)); [exact G|reflexivity| |].
      - intros v Hv. rewrite check_props_avoid; [exact Hv|apply Forall_cons; [cbn; intuition discriminate|constructor]].
      - intros b p v B W I C. rewrite check_props_avoid by (eapply avoid_sub; [|apply avoid_space; exact B]; unfold marks; intros x; cbn; tauto).
        rewrite check_props_pattern; [exact C|exact W|]. eapply Forall_forall in PS; [|exact I]. apply PS. }
    rewrite E1, E2, E3. cbn [bind]. apply one_statement_rels. rewrite (rels_read kw l K G). intros t name H.
    apply in_flat_map in H as ([b p] & I & H). apply in_map_iff in H as (r & E & I'). injection E as <- <-. cbn [snd] in *.
    eapply Forall_forall in G; [|exact I]. eapply Forall_forall in PS; [|exact I]. cbn [fst snd] in *. destruct G as [_ W]. destruct PS as [_ F].
    eapply Forall_forall in F; [|exact I']. destruct F as [O U]. apply rel_good; [eapply rels_written; eassumption|exact O|exact U].
  Qed.

  (** ** a written statement is a statement *)
  Lemma pattern_closed p : wn_s6 (last_node p) = [] -> exists u, show_pattern p = u ++ py ")".
  Proof.
    intros H. assert (N : forall n, wn_s6 n = [] -> exists u, show_node n = u ++ py ")").
    { intros n E. unfold show_node. rewrite E. eexists. rewrite app_nil_r, !app_assoc. reflexivity. }
    destruct p as [a|a r m|a r m r' c]; cbn [show_pattern last_node] in *; destruct (N _ H) as [u ->]; [eauto| |].
    - eexists. rewrite !app_assoc. reflexivity.
    - eexists. rewrite !app_assoc. reflexivity.
  Qed.
  Lemma patterns_closed l : l <> [] -> (forall l' b p, l = l' ++ [(b, p)] -> wn_s6 (last_node p) = []) -> exists u, show_patterns l = u ++ py ")".
  Proof.
    induction l as [|[b p] l IH]; [congruence|]. intros _ H. rewrite show_patterns_cons. destruct l as [|bp l].
    - destruct (pattern_closed p (H [] b p eq_refl)) as [u ->]. exists (b ++ u). rewrite app_nil_r, app_assoc. reflexivity.
    - destruct IH as [u ->]; [discriminate| |].
      + intros l' b' p' E. apply (H ((b, p) :: l') b' p'). rewrite E. reflexivity.
      + eexists. rewrite !app_assoc. reflexivity.
  Qed.
  Lemma pattern_opened p s : exists u v, show_pattern p ++ s = py "(" ++ u ++ py ":" ++ v.
  Proof.
    assert (N : forall n s, exists u v, show_node n ++ s = py "(" ++ u ++ py ":" ++ v).
    { intros n s0. unfold show_node. rewrite <- !app_assoc.
      exists (wn_s1 n ++ wn_handle n ++ wn_s2 n). eexists. rewrite <- !app_assoc. reflexivity. }
    destruct p; cbn [show_pattern]; rewrite <- ?app_assoc; apply N.
  Qed.
  Lemma written_shape l : statement_written l -> exists b body, show_patterns l ++ py ";" = b ++ py "(" ++ body ++ py ");" /\
    all_space b /\ body <> [] /\ no_newline body.
  Proof.
    intros [N G NL C]. destruct (patterns_closed l N C) as [u E]. destruct l as [|[b p] l]; [congruence|]. inv G. cbn [fst snd] in *. destruct H1 as [B W].
    rewrite show_patterns_cons in *. set (tl := match l with [] => [] | _ => _ end) in *.
    destruct (pattern_opened p tl) as (x & y & E'). rewrite E' in *. exists b.
    assert (HB : exists body, x ++ py ":" ++ y = body ++ py ")" /\ body <> []).
    { rewrite app_assoc in E. change (py "(" ++ x ++ py ":" ++ y) with (40%N :: x ++ py ":" ++ y) in *.
      destruct (exists_last (l := x ++ py ":" ++ y)) as (body & z & Ez); [destruct x; discriminate|]. exists body.
      rewrite Ez in E. change (40%N :: body ++ [z]) with ((40%N :: body) ++ [z]) in E. rewrite app_assoc in E. apply app_inj_tail in E as [_ ->].
      split; [exact Ez|]. intros ->. cbn in Ez. destruct x as [|? [|? ?]]; discriminate. }
    destruct HB as (body & Eb & Nb). exists body. rewrite Eb. split; [rewrite <- !app_assoc; reflexivity|]. split; [exact B|]. split; [exact Nb|].
    intros HI. apply NL. rewrite Eb, !in_app_iff. tauto.
  Qed.
  Lemma written_statement kw0 kw l : Ci kw0 kw -> statement_written l -> Statement kw0 (show_statement kw l).
  Proof.
    intros K W. destruct (written_shape l W) as (b & body & E & B & NB & NN). unfold show_statement. rewrite E. exists kw, b, body. auto.
  Qed.
  Lemma extracted_whole kw0 kw l : Ci kw0 kw -> statement_written l -> Extracted (Statement kw0) (show_statement kw l) [show_statement kw l].
  Proof.
    intros K W. rewrite <- (app_nil_r (show_statement kw l)) at 1. apply Ex_take.
    - apply written_statement; assumption.
    - destruct (written_shape l W) as (b & body & E & _). unfold show_statement. rewrite E. destruct kw, b; discriminate.
    - intros m' rest E _. rewrite app_nil_r in E. rewrite E, app_length. lia.
    - constructor.
  Qed.

  Lemma ci_refl_ascii : Ci (py "MAKE") (py "MAKE") /\ Ci (py "MAKE") (py "make") /\ Ci (py "FIND") (py "FIND") /\ Ci (py "FIND") (py "find").
  Proof. repeat split; repeat constructor. Qed.
  Lemma word_kw : Word (py "MAKE") /\ Word (py "make") /\ Word (py "FIND") /\ Word (py "find").
  Proof. repeat split; repeat constructor. Qed.

  Theorem make_round_trip kw l : kw = py "MAKE" \/ kw = py "make" -> statement_written l -> passes l -> distinct_handles l ->
    parse_make (show_statement kw l) = Ok (Some [{| pm_raw := show_statement kw l; pm_patterns := map (fun bp => read_pattern (snd bp)) l |}]).
  Proof.
    intros K W P D. assert (KC : Ci (py "MAKE") kw) by (destruct K as [-> | ->]; apply ci_refl_ascii).
    assert (KW : Word kw) by (destruct K as [-> | ->]; apply word_kw).
    pose proof (patterns_read kw l KW (sw_patterns _ W)) as EP.
    destruct (make_keyword_case (show_statement kw l) [show_statement kw l]) as [[F E]|[F E]].
    - discriminate.
    - apply extracted_whole; assumption.
    - apply written_passes; [exact KW|apply W|exact P].
    - intros m p [<-|[]] Hp. rewrite EP in Hp. apply in_map_iff in Hp as (bp & <- & I). eapply Forall_forall in D; [|exact I]. exact D.
    - rewrite E. cbn [map plain]. unfold plain. rewrite EP. reflexivity.
    - exfalso. inv F; [|inv H0]. apply H0. destruct K as [-> | ->]; [left|right]; eexists; reflexivity.
  Qed.
  Theorem find_round_trip kw b p l : kw = py "FIND" \/ kw = py "find" -> statement_written ((b, p) :: l) -> passes ((b, p) :: l) ->
    NoDup (given_handles (read_pattern p)) ->
    parse_find (show_statement kw ((b, p) :: l)) =
      Ok (Some {| pf_raw := show_statement kw ((b, p) :: l); pf_pattern := read_pattern p; pf_handles := given_handles (read_pattern p) |}).
  Proof.
    intros K W P D. assert (KC : Ci (py "FIND") kw) by (destruct K as [-> | ->]; apply ci_refl_ascii).
    assert (KW : Word kw) by (destruct K as [-> | ->]; apply word_kw).
    pose proof (patterns_read kw _ KW (sw_patterns _ W)) as EP. unfold parse_find.
    rewrite (extraction_exact _ FIND [show_statement kw ((b, p) :: l)]); [|discriminate|discriminate|apply extracted_whole; assumption].
    cbn [bind List.length Nat.ltb Nat.leb]. rewrite written_passes; [|exact KW|apply W|exact P]. cbn [bind].
    pose proof (build_find_cases _ (written_statement _ kw _ KC W)) as HB. rewrite EP in HB. cbn [map snd] in HB.
    destruct HB as [[X _]|[_ [[_ E]|[X _]]]]; [contradiction| |].
    - rewrite E. reflexivity.
    - exfalso. apply X. destruct K as [-> | ->]; [left|right]; eexists; reflexivity.
  Qed.
End AcceptMore.
