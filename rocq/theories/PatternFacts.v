(** * PatternFacts: what a parsed pattern can be (C10) *)
From Verif Require Import PyBase BaseFacts Regex RegexSpec RegexFacts RegexMore Patterns Json RtLaws JsonFacts Props PropsFacts SpecText SpecPattern Checks Statements
  Store SpecStore Make SpecMake.
From Coq Require Import ZifyBool ZifyN ZifyNat.

Lemma cap_app n a b : cap n (a ++ b) = match cap n a with Some t => Some t | None => cap n b end.
Proof. induction a as [|[m t] a IH]; cbn [app cap]; [reflexivity|]. destruct (gname_eqb n m); auto. Qed.

Section PatternFacts.
  Context {rt : PyRt}.

  Lemma param_ch c : is_param_ch c = true <-> is_word c = true \/ is_space c = true \/ In c (py "{}:,'"".[]@").
  Proof.
    unfold is_param_ch. rewrite !orb_true_iff, existsb_exists. split.
    - intros [[H|H]|(x & Hx & E)]; auto. apply N.eqb_eq in E. subst. auto.
    - intros [H|[H|H]]; auto. right. exists c. rewrite N.eqb_refl. auto.
  Qed.
  Lemma params_ok s : s <> [] -> Forall (fun c => is_param_ch c = true) s -> ParamText s.
  Proof. intros N F. split; [assumption|]. eapply Forall_impl; [|exact F]. intros c. apply param_ch. Qed.

  Lemma plus_dash s : s <> [] -> Forall (fun c => N.eqb 45 c = true) s -> Dashes s.
  Proof. intros N F. split; [assumption|]. eapply Forall_impl; [|exact F]. intros c H. apply N.eqb_eq in H. auto. Qed.

  Definition set_of (q : place) (d : caps) (x : piece) : Prop :=
    (forall r k, place_eqb r q = false -> cap (GP r k) d = None) /\ piece_of d q = x.

  Ltac cats_inv H :=
    repeat (let u := fresh "u" in let v := fresh "v" in let c := fresh "c" in let d := fresh "d" in let H1 := fresh "H" in
            apply Lang_cats_cons in H as (u & v & c & d & -> & -> & H1 & H));
    apply Lang_cats_nil in H as [-> ->].

  Lemma Lang_opt_props q w d : Lang (Opt (Grp (GP q Props) all_params)) w d ->
    exists pr, w = opt_text pr /\ d = match pr with Some t => [(GP q Props, t)] | None => [] end /\ forall t, pr = Some t -> ParamText t.
  Proof.
    intros H. apply Lang_opt in H as [H|[-> ->]].
    - apply Lang_grp in H as (c & -> & H). apply Lang_Plus in H as (N & F & ->). exists (Some w). repeat split; intros; inv H; [apply params_ok; auto..].
    - exists None. repeat split; discriminate.
  Qed.

  Lemma place_neq q r : place_eqb r q = false -> forall k k', gname_eqb (GP r k) (GP q k') = false.
  Proof. intros H k k'. cbn. rewrite H. reflexivity. Qed.
  Lemma place_refl q : place_eqb q q = true.
  Proof. destruct q; reflexivity. Qed.

  Lemma Lang_node q w d : Lang (node_group q) w d -> exists x, NodePiece x w /\ set_of q d x.
  Proof.
    unfold node_group. intros H. apply Lang_grp in H as (c & -> & H). cbn [app handle_label_req] in H. cats_inv H.
    apply Lang_ch in H0 as [-> ->]. apply Lang_star in H1 as [B1 ->]. apply Lang_grp in H2 as (e1 & -> & H2).
    apply Lang_star in H2 as [W1 ->]. apply Lang_star in H3 as [B2 ->]. apply Lang_ch in H4 as [-> ->].
    apply Lang_star in H5 as [B3 ->]. apply Lang_grp in H6 as (e2 & -> & H6). apply Lang_Plus in H6 as (N2 & W2 & ->).
    apply Lang_star in H7 as [B4 ->]. apply Lang_opt_props in H8 as (pr & -> & -> & P). apply Lang_star in H9 as [B5 ->].
    apply Lang_ch in H10 as [-> ->]. apply Lang_star in H11 as [B6 ->].
    set (W := [40%N] ++ _).
    exists {| p_text := Some W; p_handle := Some u1; p_label := Some u5; p_props := pr |}. split.
    - exists u0, u1, u2, u4, u5, u6, u8, u10. cbn [p_text p_handle p_label p_props]. repeat (split; [first [reflexivity|assumption]|]).
      split; [unfold W; rewrite app_nil_r; reflexivity|]. repeat (split; [first [reflexivity|assumption]|]). repeat constructor; assumption.
    - split.
      + intros r k E. cbn [app cap]. rewrite (place_neq q r E). destruct pr; cbn [app cap]; rewrite ?(place_neq q r E); reflexivity.
      + unfold piece_of. cbn [app cap gname_eqb part_eqb]. rewrite place_refl. cbn [andb].
        destruct pr; cbn [app cap gname_eqb part_eqb andb]; rewrite ?place_refl; reflexivity.
  Qed.

  Lemma Lang_opt_ch c w d : Lang (Opt (ch c)) w d -> (w = [] \/ w = [c]) /\ d = [].
  Proof. intros H. apply Lang_opt in H as [H|[-> ->]]; [apply Lang_ch in H as [-> ->]|]; auto. Qed.

  Lemma Lang_rel q w d : Lang (rel_group q) w d -> exists x, RelPiece x w /\ set_of q d x.
  Proof.
    unfold rel_group. intros H. apply Lang_grp in H as (c & -> & H). cbn [app handle_label_opt] in H. cats_inv H.
    apply Lang_opt_ch in H0 as [L ->]. apply Lang_Plus in H1 as (N1 & F1 & ->). apply Lang_ch in H2 as [-> ->].
    apply Lang_star in H3 as [B1 ->]. apply Lang_grp in H4 as (e1 & -> & H4). apply Lang_star in H4 as [W1 ->].
    apply Lang_star in H5 as [B2 ->]. apply Lang_opt_ch in H6 as [CO ->]. apply Lang_star in H7 as [B3 ->].
    apply Lang_grp in H8 as (e2 & -> & H8). apply Lang_star in H8 as (W2 & ->).
    apply Lang_star in H9 as [B4 ->]. apply Lang_opt_props in H10 as (pr & -> & -> & P). apply Lang_star in H11 as [B5 ->].
    apply Lang_ch in H12 as [-> ->]. apply Lang_Plus in H13 as (N2 & F2 & ->). apply Lang_opt_ch in H14 as [G ->]. apply Lang_star in H15 as [B6 ->].
    match goal with |- context [set_of q ((GP q Whole, ?W) :: _)] =>
      exists {| p_text := Some W; p_handle := Some u3; p_label := Some u7; p_props := pr |} end. split.
    - exists u, u0, u2, u3, u4, u5, u6, u7, u8, u10, u12, u13, u14. cbn [p_text p_handle p_label p_props].
      split; [rewrite app_nil_r; reflexivity|]. repeat (split; [first [reflexivity|assumption|apply plus_dash; assumption]|]).
      repeat constructor; assumption.
    - split.
      + intros r k E. cbn [app cap]. rewrite (place_neq q r E). destruct pr; cbn [app cap]; rewrite ?(place_neq q r E); reflexivity.
      + unfold piece_of. cbn [app cap gname_eqb part_eqb]. rewrite place_refl. cbn [andb].
        destruct pr; cbn [app cap gname_eqb part_eqb andb]; rewrite ?place_refl; reflexivity.
  Qed.

  Lemma Lang_opt_piece (P : piece -> pystr -> Prop) r q w d : (forall w d, Lang r w d -> exists x, P x w /\ set_of q d x) ->
    Lang (Opt r) w d -> exists x, maybe P x w /\ set_of q d x.
  Proof.
    intros HR H. apply Lang_opt in H as [H|[-> ->]].
    - destruct (HR w d H) as (x & HP & HS). exists x. split; [left; assumption|assumption].
    - exists {| p_text := None; p_handle := None; p_label := None; p_props := None |}. split; [right; repeat split|split; reflexivity].
  Qed.

  Lemma cap_skip q r k d x : set_of q d x -> place_eqb r q = false -> cap (GP r k) d = None.
  Proof. intros [H _]. auto. Qed.

  Theorem Lang_pattern w d : Lang nodes_rels w d -> PatternText (pattern_of d) w.
  Proof.
    unfold nodes_rels. intros H. cats_inv H.
    apply Lang_star in H0 as [B1 ->]. apply (Lang_opt_piece _ _ PLeft _ _ (Lang_node PLeft)) in H1 as (x1 & P1 & S1).
    apply Lang_star in H2 as [B2 ->]. apply (Lang_opt_piece _ _ PLeftMiddle _ _ (Lang_rel PLeftMiddle)) in H3 as (x2 & P2 & S2).
    apply Lang_star in H4 as [B3 ->]. apply (Lang_opt_piece _ _ PMiddle _ _ (Lang_node PMiddle)) in H5 as (x3 & P3 & S3).
    apply Lang_star in H6 as [B4 ->]. apply (Lang_opt_piece _ _ PMiddleRight _ _ (Lang_rel PMiddleRight)) in H7 as (x4 & P4 & S4).
    apply Lang_star in H8 as [B5 ->]. apply (Lang_opt_piece _ _ PRight _ _ (Lang_node PRight)) in H9 as (x5 & P5 & S5).
    rewrite !app_nil_r. cbn [app].
    exists u, u0, u1, u2, u3, u4, u5, u6, u7, u8. split; [reflexivity|]. split; [repeat constructor; assumption|].
    unfold pattern_of. cbn [left_node left_middle_rel middle_node middle_right_rel right_node].
    assert (Z : forall o : option pystr, match o with Some t => Some t | None => None end = o) by (intros [?|]; reflexivity).
    assert (E1 : piece_of ((((c8 ++ c6) ++ c4) ++ c2) ++ c0) PLeft = x1 /\ piece_of ((((c8 ++ c6) ++ c4) ++ c2) ++ c0) PLeftMiddle = x2 /\
      piece_of ((((c8 ++ c6) ++ c4) ++ c2) ++ c0) PMiddle = x3 /\ piece_of ((((c8 ++ c6) ++ c4) ++ c2) ++ c0) PMiddleRight = x4 /\
      piece_of ((((c8 ++ c6) ++ c4) ++ c2) ++ c0) PRight = x5).
    { destruct S1 as [N1 E1], S2 as [N2 E2], S3 as [N3 E3], S4 as [N4 E4], S5 as [N5 E5].
      unfold piece_of in *. rewrite !cap_app.
      rewrite !(N5 PLeft), !(N5 PLeftMiddle), !(N5 PMiddle), !(N5 PMiddleRight) by reflexivity.
      rewrite !(N4 PLeft), !(N4 PLeftMiddle), !(N4 PMiddle), !(N4 PRight) by reflexivity.
      rewrite !(N3 PLeft), !(N3 PLeftMiddle), !(N3 PMiddleRight), !(N3 PRight) by reflexivity.
      rewrite !(N2 PLeft), !(N2 PMiddle), !(N2 PMiddleRight), !(N2 PRight) by reflexivity.
      rewrite !(N1 PLeftMiddle), !(N1 PMiddle), !(N1 PMiddleRight), !(N1 PRight) by reflexivity.
      rewrite !Z. subst. repeat split. }
    destruct E1 as (E1 & E2 & E3 & E4 & E5).
    repeat match goal with |- context [piece_of ?c PLeft] => progress (change c with ((((c8 ++ c6) ++ c4) ++ c2) ++ c0)) end.
    rewrite ?app_assoc in *. rewrite E1, E2, E3, E4, E5. auto.
  Qed.

  (** the matches of a scan in the text *)
  Definition nonempty (m : pystr * caps) : bool := match fst m with [] => false | _ => true end.
  Lemma toks_weave l : exists gaps, List.length gaps = S (List.length (filter nonempty (mats l))) /\
    toks_text l = weave gaps (map fst (filter nonempty (mats l))).
  Proof.
    induction l as [|[x|t c] l (gaps & L & E)]; cbn [toks_text mats].
    - exists [[]]. split; reflexivity.
    - rewrite E. destruct gaps as [|g gaps]; [discriminate|]. exists ((x :: g) :: gaps). split; [exact L|].
      destruct (map fst _) as [|m ms]; reflexivity.
    - rewrite E. cbn [filter]; unfold nonempty at 1 3; cbn [fst]. destruct t as [|y t]; cbn [app]; [exists gaps; auto|].
      exists ([] :: gaps). split; [cbn [List.length]; rewrite L; reflexivity|]. reflexivity.
  Qed.

  Lemma pattern_matches_map stmt : pattern_matches stmt =
    map (fun m => pattern_of (snd m)) (filter nonempty (finditer nodes_rels stmt)).
  Proof.
    unfold pattern_matches. induction (finditer nodes_rels stmt) as [|[t c] l IH]; [reflexivity|].
    cbn [flat_map filter]. rewrite IH. unfold nonempty at 2. cbn [fst snd]. destruct t; reflexivity.
  Qed.

  Theorem patterns_in_text stmt : exists gaps ts, stmt = weave gaps ts /\ List.length gaps = S (List.length ts) /\
    Forall (fun t => t <> []) ts /\ Forall2 PatternText (pattern_matches stmt) ts.
  Proof.
    destruct (toks_weave (scan nodes_rels 0 stmt)) as (gaps & L & E). rewrite scan_text in E.
    fold (finditer nodes_rels stmt) in L, E. rewrite pattern_matches_map.
    assert (HL : forall t c, In (t, c) (finditer nodes_rels stmt) -> Lang nodes_rels t c) by (intros; eapply finditer_Lang; eauto).
    set (ms := filter nonempty (finditer nodes_rels stmt)) in *. exists gaps, (map fst ms). split; [exact E|].
    split; [rewrite map_length; exact L|].
    assert (HF : Forall (fun m => fst m <> [] /\ Lang nodes_rels (fst m) (snd m)) ms).
    { apply Forall_forall. intros [t c] H. apply filter_In in H as [H H']. unfold nonempty in H'. cbn [fst snd] in *. split; [destruct t; discriminate|auto]. }
    clear E L. clearbody ms. split.
    - apply Forall_map. eapply Forall_impl; [|exact HF]. intros m [Hm _]; exact Hm.
    - induction HF as [|m ms [_ H] HF IH]; cbn [map]; constructor; [apply Lang_pattern; exact H|exact IH].
  Qed.

  Lemma Forall2_In_l {A B} (R : A -> B -> Prop) l l' a : Forall2 R l l' -> In a l -> exists b, R a b.
  Proof. induction 1; cbn [In]; [tauto|]. intros [<-|H']; eauto. Qed.

  (** ** consequences for single patterns *)
  Definition is_pattern (p : pattern) : Prop := exists t, PatternText p t.
  Lemma parsed_is_pattern stmt p : In p (pattern_matches stmt) -> is_pattern p.
  Proof. intros H. destruct (patterns_in_text stmt) as (gaps & ts & _ & _ & _ & F). eapply Forall2_In_l in F as (t & Ht); eauto. exists t. exact Ht. Qed.

  Lemma node_drawn x t : NodePiece x t -> drawn x = true.
  Proof. intros (s1 & h & s2 & s3 & l & s4 & s5 & s6 & -> & E & _). unfold drawn. rewrite E. reflexivity. Qed.
  Lemma rel_drawn x t : RelPiece x t -> drawn x = true.
  Proof.
    intros (lt & d1 & s1 & h & s2 & co & s3 & l & s4 & s5 & d2 & gt & s6 & -> & E & _ & _ & _ & _ & _ & [D1 _] & _). unfold drawn. rewrite E.
    destruct lt; [|reflexivity]. destruct d1; [congruence|reflexivity].
  Qed.
  Lemma absent_drawn x : absent x -> drawn x = false.
  Proof. intros (E & _). unfold drawn. rewrite E. reflexivity. Qed.

  Lemma maybe_node x t : maybe NodePiece x t -> (drawn x = true /\ NodePiece x t) \/ (drawn x = false /\ absent x).
  Proof. intros [H|[H _]]; [left; split; [eapply node_drawn; eauto|assumption]|right; split; [apply absent_drawn|]; assumption]. Qed.
  Lemma maybe_rel x t : maybe RelPiece x t -> (drawn x = true /\ RelPiece x t) \/ (drawn x = false /\ absent x).
  Proof. intros [H|[H _]]; [left; split; [eapply rel_drawn; eauto|assumption]|right; split; [apply absent_drawn|]; assumption]. Qed.

  (** a drawn node has a label, an undrawn piece has nothing *)
  Lemma node_label p x : is_pattern p -> In x [left_node p; middle_node p; right_node p] ->
    if drawn x then exists l, p_label x = Some l /\ l <> [] /\ Word l else absent x.
  Proof.
    intros (t & b1 & t1 & b2 & t2 & b3 & t3 & b4 & t4 & b5 & t5 & _ & _ & P1 & P2 & P3 & P4 & P5) H.
    assert (Q : exists u, maybe NodePiece x u) by (cbn [In] in H; destruct H as [<-|[<-|[<-|[]]]]; eauto).
    destruct Q as (u & Q). apply maybe_node in Q as [[-> Q]|[-> Q]]; [|exact Q].
    destruct Q as (s1 & h & s2 & s3 & l & s4 & s5 & s6 & _ & _ & _ & E & _ & W & N & _). eauto.
  Qed.
  Lemma piece_words p x : is_pattern p -> In x [left_node p; left_middle_rel p; middle_node p; middle_right_rel p; right_node p] ->
    (forall s, p_label x = Some s -> Word s) /\ (forall s, p_handle x = Some s -> Word s) /\ (forall s, p_props x = Some s -> ParamText s).
  Proof.
    intros (t & b1 & t1 & b2 & t2 & b3 & t3 & b4 & t4 & b5 & t5 & _ & _ & P1 & P2 & P3 & P4 & P5) H.
    assert (Q : exists u, maybe NodePiece x u \/ maybe RelPiece x u) by (cbn [In] in H; destruct H as [<-|[<-|[<-|[<-|[<-|[]]]]]]; eauto).
    destruct Q as (u & [[Q|[Q _]]|[Q|[Q _]]]).
    - destruct Q as (s1 & h & s2 & s3 & l & s4 & s5 & s6 & _ & _ & E1 & E2 & W1 & W2 & _ & P & _). rewrite E1, E2.
      (split; [|split]); intros s Hs; [inv Hs; assumption|inv Hs; assumption|apply (P s Hs)].
    - destruct Q as (_ & -> & -> & ->). repeat split; discriminate.
    - destruct Q as (lt & d1 & s1 & h & s2 & co & s3 & l & s4 & s5 & d2 & gt & s6 & _ & _ & E1 & E2 & _ & _ & _ & _ & _ & W1 & W2 & P & _).
      rewrite E1, E2. (split; [|split]); intros s Hs; [inv Hs; assumption|inv Hs; assumption|apply (P s Hs)].
    - destruct Q as (_ & -> & -> & ->). repeat split; discriminate.
  Qed.

  Lemma pattern_names_ok (D : rt_data rt) p : is_pattern p -> names_ok p.
  Proof.
    intros H x s Hx Hs. destruct (piece_words p x H Hx) as (W & _). specialize (W s Hs).
    unfold str_ok. eapply Forall_impl; [|exact W]. intros c. apply (word_ok D).
  Qed.
End PatternFacts.

Section Parsed.
  Context {rt : PyRt}.
  Lemma build_make_patterns stmt m : build_parsed_make stmt = Ok m -> pm_patterns m = pattern_matches stmt /\ pm_raw m = stmt.
  Proof.
    unfold build_parsed_make. intros H. apply bind_ok in H as (u & _ & H). destruct (re_match _ _); inv H. auto.
  Qed.
  Lemma parse_make_is_pattern q l p : parse_make q = Ok (Some l) -> In p (patterns_of l) -> is_pattern p.
  Proof.
    unfold parse_make. intros H. apply bind_ok in H as ([ms|] & _ & H); [|discriminate].
    apply bind_ok in H as (u & _ & H). apply bind_ok in H as (l' & H & E). inv E.
    unfold patterns_of. rewrite in_flat_map. intros (m & Hm & Hp). apply mapM_Forall2 in H.
    assert (Q : exists stmt, build_parsed_make stmt = Ok m).
    { clear - H Hm. induction H; [destruct Hm|]. destruct Hm as [<-|Hm]; eauto. }
    destruct Q as (stmt & Q). apply build_make_patterns in Q as [Q _]. rewrite Q in Hp. eapply parsed_is_pattern; eauto.
  Qed.
  Theorem parsed_names_ok (D : rt_data rt) q l : parse_make q = Ok (Some l) -> Forall names_ok (patterns_of l).
  Proof. intros H. apply Forall_forall. intros p Hp. apply pattern_names_ok; [exact D|]. eapply parse_make_is_pattern; eauto. Qed.

  Lemma build_find_pattern stmt f : build_parsed_find stmt = Ok f -> exists more, pattern_matches stmt = pf_pattern f :: more.
  Proof.
    unfold build_parsed_find. destruct (pattern_matches stmt) as [|p ps]; [discriminate|]. intros H.
    apply bind_ok in H as (u & _ & H). destruct (re_match _ _); inv H. eexists; reflexivity.
  Qed.
  Lemma parse_find_is_pattern q f : parse_find q = Ok (Some f) -> is_pattern (pf_pattern f).
  Proof.
    unfold parse_find. intros H. apply bind_ok in H as ([ms|] & _ & H); [|discriminate].
    destruct (Nat.ltb _ _); [discriminate|]. apply bind_ok in H as (u & _ & H). destruct ms as [|stmt ms]; [discriminate|].
    apply bind_ok in H as (f' & H & E). inv E. apply build_find_pattern in H as (more & H).
    eapply parsed_is_pattern with (stmt := stmt). rewrite H. left. reflexivity.
  Qed.
End Parsed.
