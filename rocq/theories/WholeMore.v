(** * WholeMore: what a written MAKE stores (C56) *)
From Verif Require Import PyBase BaseFacts Json JsonFacts SpecJson Props RtLaws PropsFacts
  SpecText SpecPattern SpecGrammar PatternFacts GrammarFacts Checks ChecksFacts Statements StatementFacts AcceptFacts AcceptMore
  SpecValue ValueFacts ListFacts ValueMore FS FSFacts Store SpecStore StoreFacts Make SpecMake MakeFacts MakeRun MakeFinal SpecWhole WholeFacts.
From Coq Require Import ZifyBool ZifyN ZifyNat.

Section WholeMore.
  Context {rt : PyRt} (D : rt_data rt).
  Let R := rt_base _ D.

  Lemma some_written o : some_drawn o -> props_written (option_map props_text o).
  Proof. intros H t E. destruct o as [q|]; [|discriminate]. injection E as <-. apply drawn_written, H. reflexivity. Qed.
  Lemma some_good o t : some_drawn o -> option_map props_text o = Some t -> prop_good t.
  Proof. intros H E. destruct o as [q|]; [|discriminate]. injection E as <-. apply (drawn_good D), H. reflexivity. Qed.
  Lemma node_text_written n : node_drawn n -> node_written (node_text n).
  Proof. intros [B H L O E P]. constructor; cbn; auto. apply some_written, P. Qed.
  Lemma rel_text_written r : rel_drawn r -> rel_written (rel_text r).
  Proof.
    intros [B H L O N U P]. constructor; cbn; auto.
    - rewrite Forall_forall in *. intros x Hx. cbn in *. destruct Hx as [<-|[<-|[<-|[<-|[<-|[]]]]]]; try (apply B; tauto). constructor.
    - discriminate.
    - apply some_written, P.
  Qed.
  Lemma pattern_text_written p : Forall node_drawn (nodes_in p) -> Forall rel_drawn (rels_in p) -> pattern_written (pattern_text p).
  Proof.
    destruct p; cbn [nodes_in rels_in pattern_text pattern_written]; intros N L; repeat match goal with H : Forall _ (_ :: _) |- _ => inv H end;
      repeat match goal with |- _ /\ _ => split end; auto using node_text_written, rel_text_written.
  Qed.
  Lemma last_text p : wn_s6 (last_node (pattern_text p)) = dn_s6 (last_drawn p).
  Proof. destruct p; reflexivity. Qed.
  Lemma list_written_ l : drawn_list l -> statement_written (texts l).
  Proof.
    intros [S B N L H E Z]. constructor.
    - destruct l; [congruence|discriminate].
    - unfold texts. apply Forall_map. rewrite Forall_forall in *. intros bp I. split; [apply B, I|apply pattern_text_written; [apply N, I|apply L, I]].
    - exact E.
    - intros l' b p EQ. unfold texts in EQ. apply map_eq_app in EQ as (l1 & l2 & -> & E1 & E2). destruct l2 as [|[b2 p2] [|]]; try discriminate.
      cbn in E2. injection E2 as <- <-. rewrite last_text. eapply Z. reflexivity.
  Qed.
  Lemma list_passes l : drawn_list l -> passes (texts l).
  Proof.
    intros [S B N L H E Z]. unfold passes, texts. apply Forall_map. rewrite Forall_forall in *. intros bp I. specialize (N bp I). specialize (L bp I). cbn [snd].
    assert (GN : forall n t, node_drawn n -> In t (opt_list (wn_props (node_text n))) -> prop_good t).
    { intros n t [_ _ _ _ _ P] Ht. eapply (some_good (dn_props n)); [exact P|]. cbn in Ht. destruct (dn_props n); cbn in *; [|contradiction]. destruct Ht; [congruence|contradiction]. }
    assert (GR : forall n t, rel_drawn n -> In t (opt_list (wr_props (rel_text n))) -> prop_good t).
    { intros n t [_ _ _ _ _ _ P] Ht. eapply (some_good (dr_props n)); [exact P|]. cbn in Ht. destruct (dr_props n); cbn in *; [|contradiction]. destruct Ht; [congruence|contradiction]. }
    assert (GO : forall r, rel_drawn r -> one_way (rel_text r) /\ upper_name (rel_text r)).
    { intros r [_ _ _ _ _ U _]. split; [reflexivity|exact U]. }
    destruct (snd bp); cbn [nodes_in rels_in pattern_text props_of rels_of] in *; repeat match goal with H : Forall _ (_ :: _) |- _ => inv H end; split;
      try (apply Forall_forall; intros t Ht; rewrite ?in_app_iff in Ht; repeat destruct Ht as [Ht|Ht]; eauto; fail);
      repeat (apply Forall_cons; [apply GO; assumption|]); apply Forall_nil.
  Qed.
  Lemma handles_text p : given_handles (read_pattern (pattern_text p)) = handles_in p.
  Proof.
    destruct p; cbn [pattern_text read_pattern given_handles handles_in left_node left_middle_rel middle_node middle_right_rel right_node flat_map read_node read_rel no_piece p_handle node_text rel_text wn_handle wr_handle filter];
    repeat match goal with |- context [match ?h with [] => _ | _ :: _ => _ end] => destruct h end; reflexivity.
  Qed.
  Lemma list_distinct l : drawn_list l -> distinct_handles (texts l).
  Proof.
    intros [S B N L H E Z]. unfold distinct_handles, texts. apply Forall_map. eapply Forall_impl; [|exact H]. intros bp Hb. cbn [snd]. rewrite handles_text. exact Hb.
  Qed.

  (** ** the pieces *)
  Lemma node_text_drawn n : drawn (read_node n) = true.
  Proof. reflexivity. Qed.
  Lemma rel_text_drawn r : drawn (read_rel r) = true.
  Proof. unfold drawn, read_rel, show_rel. cbn [p_text]. destruct (wr_lt r); reflexivity. Qed.
  Lemma last_repeat (c : N) n d : List.last (repeat c (S n)) d = c.
  Proof. induction n; [reflexivity|]. cbn [repeat] in *. exact IHn. Qed.
  Lemma last_app_ne {A} (a b : list A) d : b <> [] -> List.last (a ++ b) d = List.last b d.
  Proof.
    intros N. induction a as [|x a IH]; [reflexivity|]. cbn [app]. destruct (a ++ b) eqn:E; [apply app_eq_nil in E as [_ E]; contradiction|].
    cbn [List.last]. exact IH.
  Qed.
  Lemma rel_text_right r : points_right (read_rel (rel_text r)) = dr_right r.
  Proof.
    unfold points_right, text_of, read_rel, show_rel. cbn [p_text rel_text wr_lt wr_d1 wr_s1 wr_handle wr_s2 wr_colon wr_s3 wr_name wr_s4 wr_props wr_d2 wr_gt wr_s6].
    rewrite !app_assoc, app_nil_r. destruct (dr_right r).
    - rewrite last_app_ne by discriminate. reflexivity.
    - rewrite app_nil_r. rewrite last_app_ne by discriminate. unfold dashes. rewrite last_repeat. reflexivity.
  Qed.
  Lemma rel_text_heads r : rel_drawn r -> ~ two_heads (read_rel (rel_text r)).
  Proof.
    intros [B H L O N U P] [I1 I2]. rewrite Forall_forall in B.
    assert (A : forall u, avoid [60; 62]%N u -> forall c, c = 60%N \/ c = 62%N -> ~ In c u).
    { intros u Hu c Hc Hi. unfold avoid in Hu. rewrite Forall_forall in Hu. apply (Hu c Hi). cbn. intuition. }
    assert (AS : forall u, In u [dr_s1 r; dr_s2 r; dr_s3 r; dr_s4 r] -> avoid [60; 62]%N u).
    { intros u Hu. eapply avoid_sub; [|apply avoid_space, B, Hu]. intros x; cbn; tauto. }
    assert (AW : forall u, Word u -> avoid [60; 62]%N u).
    { intros u Hu. eapply avoid_sub; [|apply avoid_word, Hu]. intros x; cbn; tauto. }
    assert (AP : avoid [60; 62]%N (opt_text (option_map props_text (dr_props r)))).
    { eapply avoid_sub; [|apply avoid_opt_props, some_written, P]. intros x; cbn; tauto. }
    assert (AD : forall n, avoid [60; 62]%N (dashes n)) by (intros n; apply avoid_dashes; cbn; intuition discriminate).
    assert (A1 : forall c, ~ In c [60; 62]%N -> avoid [60; 62]%N [c]) by (intros c Hc; constructor; [exact Hc|constructor]).
    assert (AB : avoid [60; 62]%N (dashes (dr_d1 r) ++ py "[" ++ dr_s1 r ++ dr_handle r ++ dr_s2 r ++ py ":" ++ dr_s3 r ++ dr_name r ++ dr_s4 r ++
        opt_text (option_map props_text (dr_props r)) ++ py "]" ++ dashes (dr_d2 r))).
    { rewrite !avoid_app. repeat split; auto; try (apply AS; cbn; tauto); apply A1; cbn; intuition discriminate. }
    unfold text_of, read_rel, show_rel in I1, I2. cbn [p_text rel_text wr_lt wr_d1 wr_s1 wr_handle wr_s2 wr_colon wr_s3 wr_name wr_s4 wr_props wr_d2 wr_gt wr_s6] in I1, I2.
    set (body := dashes (dr_d1 r) ++ py "[" ++ dr_s1 r ++ dr_handle r ++ dr_s2 r ++ py ":" ++ dr_s3 r ++ dr_name r ++ dr_s4 r ++
        opt_text (option_map props_text (dr_props r)) ++ py "]" ++ dashes (dr_d2 r)) in *.
    destruct (dr_right r); cbn [negb] in *.
    - apply (A body AB 60%N); [auto|]. cbn [app] in I1. unfold body. rewrite app_nil_r, !app_assoc in I1. apply in_app_iff in I1 as [I1|I1].
      + rewrite !app_assoc. exact I1.
      + cbn in I1. destruct I1 as [I1|[]]; discriminate.
    - apply (A body AB 62%N); [auto|]. rewrite !app_nil_r in I2. destruct I2 as [I2|I2]; [discriminate|exact I2].
  Qed.
  Lemma well_drawn_text p : Forall rel_drawn (rels_in p) -> well_drawn (read_pattern (pattern_text p)).
  Proof.
    destruct p; cbn [rels_in pattern_text read_pattern]; intros L; repeat match goal with H : Forall _ (_ :: _) |- _ => inv H end;
      constructor; cbn [left_node left_middle_rel middle_node middle_right_rel right_node]; try discriminate; intros _;
      repeat split; try reflexivity; try discriminate; apply rel_text_heads; assumption.
  Qed.
  Lemma word_str u : Word u -> str_ok u.
  Proof. apply Forall_imp_str. intros c. apply (word_ok D). Qed.
  Lemma names_ok_text p : Forall node_drawn (nodes_in p) -> Forall rel_drawn (rels_in p) -> names_ok (read_pattern (pattern_text p)).
  Proof.
    intros N L x s I E.
    assert (GN : forall n, node_drawn n -> str_ok (dn_label n)) by (intros n Hn; apply word_str, Hn).
    assert (GR : forall n, rel_drawn n -> str_ok (dr_name n)) by (intros n Hn; apply word_str, Hn).
    destruct p; cbn [nodes_in rels_in pattern_text read_pattern left_node left_middle_rel middle_node middle_right_rel right_node In] in *;
      repeat match goal with H : Forall _ (_ :: _) |- _ => inv H end; repeat destruct I as [<-|I]; try contradiction; cbn in E; try discriminate; injection E as <-; auto.
  Qed.

  Lemma some_value o x : some_drawn o -> p_props x = option_map props_text o -> exists v, props_value x v /\ props_obj o v.
  Proof.
    intros S E. unfold props_value. rewrite E. destruct o as [q|]; cbn [option_map props_obj].
    - destruct (drawn_value D q (S q eq_refl)) as (d & -> & F). exists (VDict d). split; [reflexivity|]. exists d. auto.
    - exists VNone. split; reflexivity.
  Qed.
  Lemma scalar_ser s v : scalar_value s v -> ser v = true.
  Proof.
    destruct s; cbn [scalar_value]; intros H; try (subst; reflexivity).
    - destruct H as (t & _ & ->). reflexivity.
    - destruct H as (x & _ & _ & ->). reflexivity.
  Qed.
  Lemma item_ser i v : item_value i v -> ser v = true.
  Proof.
    unfold item_value. destruct (wi_val i) as [s|els]; [apply scalar_ser|]. intros (vs & -> & F). cbn [ser].
    induction F as [|[[a e] b] v els vs Hv F IH]; [reflexivity|]. cbn [forallb fst snd] in *. rewrite IH, andb_true_r. destruct e as [s|]; [|contradiction]. destruct s; try (eapply scalar_ser, Hv). cbn in Hv. subst. reflexivity.
  Qed.
  Lemma some_ser o d : some_drawn o -> get_property_dict (option_map props_text o) = Ok (Some d) -> dict_ser d = true.
  Proof.
    intros S E. destruct o as [q|]; [|discriminate]. cbn [option_map] in E. destruct (drawn_value D q (S q eq_refl)) as (d' & E' & F).
    rewrite E' in E. injection E as <-. unfold dict_ser. apply forallb_forall. intros kv I. clear -F I. induction F as [|i kv' l d (_ & V & _) F IH]; [contradiction|].
    destruct I as [<-|I]; [eapply item_ser, V|auto].
  Qed.
  Lemma writable_text p : Forall node_drawn (nodes_in p) -> Forall rel_drawn (rels_in p) -> writable (read_pattern (pattern_text p)).
  Proof.
    intros N L x d I E.
    assert (GN : forall n d, node_drawn n -> get_property_dict (option_map props_text (dn_props n)) = Ok (Some d) -> dict_ser d = true)
      by (intros n d0 [_ _ _ _ _ P]; apply some_ser, P).
    assert (GR : forall n d, rel_drawn n -> get_property_dict (option_map props_text (dr_props n)) = Ok (Some d) -> dict_ser d = true)
      by (intros n d0 [_ _ _ _ _ _ P]; apply some_ser, P).
    destruct p; cbn [nodes_in rels_in pattern_text read_pattern left_node left_middle_rel middle_node middle_right_rel right_node In] in *;
      repeat match goal with H : Forall _ (_ :: _) |- _ => inv H end; repeat destruct I as [<-|I]; try contradiction; try discriminate E;
      first [eapply GN; [|exact E]; assumption|eapply GR; [|exact E]; assumption].
  Qed.
  Lemma count_text p : size (read_pattern (pattern_text p)) = count p.
  Proof.
    unfold size. destruct p; cbn [pattern_text read_pattern left_node left_middle_rel middle_node middle_right_rel right_node];
    rewrite ?rel_text_drawn, ?node_text_drawn; reflexivity.
  Qed.

  (** ** the entries of one pattern *)
  Lemma link_obj n r a b : rel_drawn r -> exists v, link_value (between_nodes n (read_rel (rel_text r)) a b) v /\ rel_obj n r a b v.
  Proof.
    intros [_ _ _ _ _ _ P]. destruct (some_value (dr_props r) (read_rel (rel_text r)) P eq_refl) as (pv & V & O).
    unfold link_value, rel_obj, between_nodes. rewrite rel_text_right. destruct (dr_right r); (eexists; split; exists pv; split; [eassumption| |eassumption|]; reflexivity).
  Qed.
  Lemma node_obj_value p w n x rels : node_drawn x -> Forall2 link_value (owned p w n) rels ->
    exists v, node_value p w n (read_node (node_text x)) v /\ node_obj n x rels (str_of_Z n, v).
  Proof.
    intros [_ _ _ _ _ P] F. destruct (some_value (dn_props x) (read_node (node_text x)) P eq_refl) as (pv & V & O).
    eexists. split; [exists pv, rels; split; [exact V|split; [exact F|reflexivity]]|]. exists pv. split; [exact O|]. split; reflexivity.
  Qed.
  Lemma from_between n x a b : lk_from (between_nodes n x a b) = if points_right x then a else b.
  Proof. unfold between_nodes. destruct (points_right x); reflexivity. Qed.

  Lemma pattern_entries p w : Forall node_drawn (nodes_in p) -> Forall rel_drawn (rels_in p) ->
    exists items, entries (read_pattern (pattern_text p)) w items /\ pattern_stored p w items.
  Proof.
    intros N L. destruct p as [a|a r b|a r b r' c]; cbn [nodes_in rels_in] in *; repeat match goal with H : Forall _ (_ :: _) |- _ => inv H end.
    - set (p := read_pattern (pattern_text (One a))).
      destruct (node_obj_value p w w a [] ltac:(assumption)) as (v & V & O). { constructor. }
      exists [(str_of_Z w, v)]. split; [constructor; [split; [reflexivity|exact V]|constructor]|]. exists (str_of_Z w, v). auto.
    - set (p := read_pattern (pattern_text (Two a r b))).
      assert (EL : links p w = [between_nodes (w + 2) (read_rel (rel_text r)) w (w + 1)]).
      { unfold links, p. cbn [pattern_text read_pattern left_middle_rel middle_right_rel]. rewrite rel_text_drawn.
        unfold num_rel1, num_left, num_middle. cbn [pattern_text read_pattern middle_node right_node]. rewrite node_text_drawn. cbn [drawn no_piece p_text one app].
        replace (w + 1 + 1 + 0)%Z with (w + 2)%Z by lia. reflexivity. }
      destruct (link_obj (w + 2) r w (w + 1)) as (o & LV & RO); [assumption|].
      destruct (node_obj_value p w w a (if_ (dr_right r) o)) as (va & Va & Oa); [assumption| |].
      { unfold owned. rewrite EL. cbn [filter]. rewrite from_between, rel_text_right. destruct (dr_right r); cbn [if_].
        - rewrite Z.eqb_refl. constructor; [exact LV|constructor].
        - replace (w + 1 =? w)%Z with false by lia. constructor. }
      destruct (node_obj_value p w (w + 1) b (if_ (negb (dr_right r)) o)) as (vb & Vb & Ob); [assumption| |].
      { unfold owned. rewrite EL. cbn [filter]. rewrite from_between, rel_text_right. destruct (dr_right r); cbn [if_ negb].
        - replace (w =? w + 1)%Z with false by lia. constructor.
        - rewrite Z.eqb_refl. constructor; [exact LV|constructor]. }
      exists [(str_of_Z w, va); (str_of_Z (w + 1), vb)]. split.
      + constructor; [split; [reflexivity|exact Va]|]. constructor; [split; [reflexivity|exact Vb]|constructor].
      + exists o, (str_of_Z w, va), (str_of_Z (w + 1), vb). auto.
    - set (p := read_pattern (pattern_text (Three a r b r' c))).
      assert (EL : links p w = [between_nodes (w + 3) (read_rel (rel_text r)) w (w + 1); between_nodes (w + 4) (read_rel (rel_text r')) (w + 1) (w + 2)]).
      { unfold links, p. cbn [pattern_text read_pattern left_middle_rel middle_right_rel]. rewrite !rel_text_drawn.
        unfold num_rel2, num_right, num_rel1, num_left, num_middle. cbn [pattern_text read_pattern middle_node right_node left_middle_rel]. rewrite !node_text_drawn, rel_text_drawn. cbn [one app].
        replace (w + 1 + 1 + 1)%Z with (w + 3)%Z by lia. replace (w + 3 + 1)%Z with (w + 4)%Z by lia. replace (w + 1 + 1)%Z with (w + 2)%Z by lia. reflexivity. }
      destruct (link_obj (w + 3) r w (w + 1)) as (o & LV & RO); [assumption|].
      destruct (link_obj (w + 4) r' (w + 1) (w + 2)) as (o' & LV' & RO'); [assumption|].
      destruct (node_obj_value p w w a (if_ (dr_right r) o)) as (va & Va & Oa); [assumption| |].
      { unfold owned. rewrite EL. cbn [filter]. rewrite !from_between, !rel_text_right.
        replace ((if dr_right r' then w + 1 else w + 2) =? w)%Z with false by (destruct (dr_right r'); lia). destruct (dr_right r); cbn [if_].
        - rewrite Z.eqb_refl. constructor; [exact LV|constructor].
        - replace (w + 1 =? w)%Z with false by lia. constructor. }
      destruct (node_obj_value p w (w + 1) b (if_ (negb (dr_right r)) o ++ if_ (dr_right r') o')) as (vb & Vb & Ob); [assumption| |].
      { unfold owned. rewrite EL. cbn [filter]. rewrite !from_between, !rel_text_right. destruct (dr_right r), (dr_right r'); cbn [if_ negb app];
        rewrite ?Z.eqb_refl; replace (w =? w + 1)%Z with false by lia; replace (w + 2 =? w + 1)%Z with false by lia; repeat constructor; assumption. }
      exists [(str_of_Z w, va); (str_of_Z (w + 1), vb)]. split.
      + constructor; [split; [reflexivity|exact Va]|]. constructor; [split; [reflexivity|exact Vb]|constructor].
      + exists o, o', (str_of_Z w, va), (str_of_Z (w + 1), vb). auto.
  Qed.
  Lemma list_entries l w : Forall (fun bp : pystr * dpattern => Forall node_drawn (nodes_in (snd bp))) l ->
    Forall (fun bp : pystr * dpattern => Forall rel_drawn (rels_in (snd bp))) l ->
    exists items, entries_all (map (fun bp => read_pattern (snd bp)) (texts l)) w items /\ all_stored (map snd l) w items.
  Proof.
    intros N L. revert w. induction l as [|[b p] l IH]; intros w; [exists []; split; reflexivity|]. inv N. inv L. cbn [snd] in *.
    destruct (pattern_entries p w) as (x & X1 & X2); [assumption|assumption|]. destruct (IH H2 H4 (w + count p)%Z) as (y & Y1 & Y2).
    exists (x ++ y). cbn [texts map snd fst entries_all all_stored]. rewrite count_text. split; exists x, y; auto.
  Qed.

  Lemma size_texts l : size_all (map (fun bp => read_pattern (snd bp)) (texts l)) = count_all (map snd l).
  Proof. induction l as [|[b p] l IH]; [reflexivity|]. cbn [texts map fst snd size_all count_all]. rewrite count_text. unfold texts in IH. rewrite IH. reflexivity. Qed.
  Lemma nodes_text p : map snd (drawn_nodes (read_pattern (pattern_text p)) 0) = map (fun n => read_node (node_text n)) (nodes_in p).
  Proof. destruct p; reflexivity. Qed.
  Lemma rels_text p : map lk_piece (links (read_pattern (pattern_text p)) 0) = map (fun r => read_rel (rel_text r)) (rels_in p).
  Proof.
    assert (E : forall n x a b, lk_piece (between_nodes n x a b) = x) by (intros n x a b; unfold between_nodes; destruct (points_right x); reflexivity).
    destruct p; unfold links; cbn [pattern_text read_pattern left_middle_rel middle_right_rel]; rewrite ?rel_text_drawn; cbn [drawn no_piece p_text map app rels_in]; rewrite ?E; reflexivity.
  Qed.
  Lemma in_texts l p : In p (map (fun bp => read_pattern (snd bp)) (texts l)) <-> exists bp, In bp l /\ p = read_pattern (pattern_text (snd bp)).
  Proof.
    unfold texts. rewrite map_map, in_map_iff. cbn [snd]. split; intros (bp & A & B); exists bp; auto.
  Qed.
  Lemma labels_text l s : label_drawn (map (fun bp => read_pattern (snd bp)) (texts l)) s <-> exists bp n, In bp l /\ In n (nodes_in (snd bp)) /\ dn_label n = s.
  Proof.
    split.
    - intros (p & x & Hp & Hx & E). apply in_texts in Hp as (bp & I & ->). rewrite nodes_text in Hx. apply in_map_iff in Hx as (n & <- & Hn). injection E as <-. eauto.
    - intros (bp & n & I & Hn & <-). exists (read_pattern (pattern_text (snd bp))), (read_node (node_text n)). split; [apply in_texts; eauto|]. split; [|reflexivity].
      rewrite nodes_text. apply in_map_iff. eauto.
  Qed.
  Lemma names_text l s : name_drawn (map (fun bp => read_pattern (snd bp)) (texts l)) s <-> s <> [] /\ exists bp r, In bp l /\ In r (rels_in (snd bp)) /\ dr_name r = s.
  Proof.
    split.
    - intros (p & k & Hp & Hx & E & N). split; [exact N|]. apply in_texts in Hp as (bp & I & ->). apply (in_map lk_piece) in Hx. rewrite rels_text in Hx. apply in_map_iff in Hx as (r & Er & Hr).
      rewrite <- Er in E. injection E as <-. eauto.
    - intros (N & bp & r & I & Hr & E). assert (H : In (read_rel (rel_text r)) (map lk_piece (links (read_pattern (pattern_text (snd bp))) 0))) by (rewrite rels_text; apply in_map_iff; eauto).
      apply in_map_iff in H as (k & Ek & Hk). exists (read_pattern (pattern_text (snd bp))), k. split; [apply in_texts; eauto|]. split; [exact Hk|]. split; [rewrite Ek; cbn; congruence|exact N].
  Qed.
  Lemma owns_here p w : rels_in p <> [] -> exists n x k, In (n, x) (stored_nodes (read_pattern (pattern_text p)) w) /\ In k (owned (read_pattern (pattern_text p)) w n).
  Proof.
    intros N. destruct p as [a|a r b|a r b r' c]; [cbn in N; congruence| |].
    all: exists (if dr_right r then w else w + 1)%Z, (read_node (node_text (if dr_right r then a else b))); eexists; split;
      [unfold stored_nodes; cbn [pattern_text read_pattern middle_node left_node]; rewrite node_text_drawn; unfold num_left, num_middle; cbn [In app];
       destruct (dr_right r); auto|];
      unfold owned; rewrite filter_In; unfold links; cbn [pattern_text read_pattern left_middle_rel middle_right_rel]; rewrite ?rel_text_drawn; cbn [drawn no_piece p_text app In];
      (split; [left; reflexivity|]); rewrite from_between, rel_text_right; unfold num_left, num_middle; apply Z.eqb_refl.
  Qed.
  Lemma owns_some l w : (exists bp, In bp l /\ rels_in (snd bp) <> []) -> exists k z, owns (map (fun bp => read_pattern (snd bp)) (texts l)) w k z.
  Proof.
    intros (bp & I & N). revert w. induction l as [|[b p] l IH]; [contradiction|]. intros w. cbn [texts map fst snd owns]. destruct I as [<-|I].
    - cbn [snd] in N. destruct (owns_here p w N) as (n & x & k & A & B). exists (str_of_Z n), (lk_num k). left. exists n, x, k. auto.
    - destruct (IH I (w + size (read_pattern (pattern_text p)))%Z) as (k & z & O). exists k, z. right. exact O.
  Qed.

  Definition parsed_as (kw : pystr) (l : list (pystr * dpattern)) : parsed_make :=
    {| pm_raw := statement_text kw l; pm_patterns := map (fun bp => read_pattern (snd bp)) (texts l) |}.
  (** only the nodes and the relationships of the list matter, not how the patterns are spread over statements *)
  Lemma made_as_read g G w ms l : stored g G w ->
    Forall (fun bp : pystr * dpattern => Forall node_drawn (nodes_in (snd bp))) l ->
    Forall (fun bp : pystr * dpattern => Forall rel_drawn (rels_in (snd bp))) l ->
    patterns_of ms = map (fun bp => read_pattern (snd bp)) (texts l) ->
    (exists bp, In bp l /\ rels_in (snd bp) <> []) ->
    exists w' G', run (make ms g) w = (Ok true, w') /\ stored g G' w' /\ now_contains l G G' /\
      unchanged_but [database_fp g; indexes_fp g; wiggle_number_fp g] w w'.
  Proof.
    intros S DN DR EP HR. destruct (list_entries l (g_next G) DN DR) as (items & EN & ST).
    set (ps := map (fun bp => read_pattern (snd bp)) (texts l)) in *.
    assert (FA : forall P : pattern -> Prop, (forall p, Forall node_drawn (nodes_in p) -> Forall rel_drawn (rels_in p) -> P (read_pattern (pattern_text p))) -> Forall P ps).
    { intros P H. apply Forall_forall. intros p Hp. apply in_texts in Hp as (bp & I & ->).
      rewrite Forall_forall in DN, DR. apply H; auto. }
    assert (WR : Forall writable ps) by (apply FA; intros; apply writable_text; assumption).
    assert (NM : Forall names_ok ps) by (apply FA; intros; apply names_ok_text; assumption).
    assert (WD : Forall well_drawn ps) by (apply FA; intros; apply well_drawn_text; assumption).
    destruct (make_succeeds D g G w S ms items) as (G' & w' & RUN & MD & S' & _ & EDB); rewrite ?EP; auto.
    { split; assumption. } { eapply entries_all_ser; eassumption. } { apply owns_some, HR. }
    exists w', G'. split; [exact RUN|]. split; [exact S'|]. split.
    - rewrite EP in MD. constructor.
      + exists items. auto.
      + rewrite (md_next _ _ _ MD). unfold ps. rewrite size_texts. reflexivity.
      + intros s. rewrite (md_labels _ _ _ MD). unfold ps. rewrite labels_text. reflexivity.
      + intros s. rewrite (md_names _ _ _ MD). unfold ps. rewrite names_text. reflexivity.
    - destruct (make_ok_effect rt g G w ms true w' D S) as (_ & U & _); [rewrite EP; exact NM|exact RUN|exact U].
  Qed.
  Lemma made_as_written g G w kw l : stored g G w -> drawn_list l -> (exists bp, In bp l /\ rels_in (snd bp) <> []) ->
    exists w' G', run (make [parsed_as kw l] g) w = (Ok true, w') /\ stored g G' w' /\ now_contains l G G' /\
      unchanged_but [database_fp g; indexes_fp g; wiggle_number_fp g] w w'.
  Proof.
    intros S DL. apply made_as_read; [exact S|apply DL|apply DL|]. unfold patterns_of. cbn. apply app_nil_r.
  Qed.
  Theorem written_make g G w kw l : kw = py "MAKE" \/ kw = py "make" -> stored g G w -> drawn_list l -> (exists bp, In bp l /\ rels_in (snd bp) <> []) ->
    exists ms w' G', parse_make (statement_text kw l) = Ok (Some ms) /\ run (make ms g) w = (Ok true, w') /\ stored g G' w' /\ now_contains l G G' /\
      unchanged_but [database_fp g; indexes_fp g; wiggle_number_fp g] w w'.
  Proof.
    intros K S DL HR. destruct (made_as_written g G w kw l S DL HR) as (w' & G' & A & B & C & E). exists [parsed_as kw l], w', G'. split; [|auto].
    apply (make_round_trip R); [exact K|apply list_written_, DL|apply list_passes, DL|apply list_distinct, DL].
  Qed.
End WholeMore.
