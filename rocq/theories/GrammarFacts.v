(** * GrammarFacts: written patterns are parsed to what was written (C09) *)
From Verif Require Import PyBase BaseFacts Regex RegexSpec RegexFacts RegexMore Patterns SpecText SpecPattern SpecGrammar PatternFacts Statements.
From Coq Require Import ZifyBool ZifyN ZifyNat.

(** ** success along the greedy path *)
Definition Greedy (r : re) (w s : pystr) (d : caps) : Prop :=
  forall (A : Type) (c : caps) (k : pystr -> caps -> option A) (res : A), k s (d ++ c) = Some res -> mt r (w ++ s) c k = Some res.
Definition stops (p : N -> bool) (s : pystr) : Prop := match s with x :: _ => p x = false | [] => True end.

Lemma greedy_match r w s d : Greedy r w s d -> match_here r (w ++ s) = Some (s, d).
Proof. intros H. unfold match_here. apply H. rewrite app_nil_r. reflexivity. Qed.
Lemma greedy_eps s : Greedy Eps [] s [].
Proof. intros A c k res H. exact H. Qed.
Lemma greedy_set p x s : p x = true -> Greedy (Set_ p) [x] s [].
Proof. intros Hp A c k res H. cbn [mt app]. rewrite Hp. exact H. Qed.
Lemma greedy_ch x s : Greedy (ch x) [x] s [].
Proof. apply greedy_set. apply N.eqb_refl. Qed.
Lemma mt_star_stop {A} p s (k : pystr -> option A) : stops p s -> mt_star p s k = k s.
Proof. destruct s as [|x s]; cbn [mt_star stops]; [reflexivity|]. intros ->. reflexivity. Qed.
Lemma greedy_star p u s : Forall (fun x => p x = true) u -> stops p s -> Greedy (Star p) u s [].
Proof.
  intros F S A c k res H. cbn [mt]. cbn [app] in H. induction F as [|x u Hx F IH]; cbn [app].
  - rewrite mt_star_stop; assumption.
  - cbn [mt_star]. rewrite Hx, IH. reflexivity.
Qed.
Lemma mt_star_back {A} p u x s (k : pystr -> option A) res : Forall (fun x => p x = true) (u ++ [x]) -> stops p s ->
  k s = None -> k (x :: s) = Some res -> mt_star p (u ++ x :: s) k = Some res.
Proof.
  intros F S H1 H2. induction u as [|y u IH]; cbn [app] in *; inv F; cbn [mt_star].
  - rewrite H3, mt_star_stop, H1; assumption.
  - rewrite H3, IH; auto.
Qed.
Lemma greedy_cat a b u v s d1 d2 : Greedy a u (v ++ s) d1 -> Greedy b v s d2 -> Greedy (Cat a b) (u ++ v) s (d2 ++ d1).
Proof. intros H1 H2 A c k res H. cbn [mt]. rewrite <- app_assoc. apply H1. apply H2. rewrite app_assoc. exact H. Qed.
Lemma greedy_cats a l u v s d1 d2 : Greedy a u (v ++ s) d1 -> Greedy (cats l) v s d2 -> Greedy (cats (a :: l)) (u ++ v) s (d2 ++ d1).
Proof.
  destruct l as [|b l]; [|apply greedy_cat]. intros H1 H2 A c k res H. cbn [cats] in *. rewrite <- app_assoc. apply H1.
  specialize (H2 A (d1 ++ c) k res). cbn [mt] in H2. apply H2. rewrite app_assoc. exact H.
Qed.
Lemma greedy_cats_end : forall s, Greedy (cats []) [] s [].
Proof. exact greedy_eps. Qed.
Lemma greedy_chs x l v s d : Greedy (cats l) v s d -> Greedy (cats (ch x :: l)) (x :: v) s d.
Proof. intros H. rewrite <- (app_nil_r d). apply (greedy_cats (ch x) l [x] v); [apply greedy_ch|exact H]. Qed.
Lemma greedy_skip a l v s d : Greedy a [] (v ++ s) [] -> Greedy (cats l) v s d -> Greedy (cats (a :: l)) v s d.
Proof. intros H1 H. rewrite <- (app_nil_r d). apply (greedy_cats a l [] v); assumption. Qed.
Lemma greedy_plus p u s : u <> [] -> Forall (fun x => p x = true) u -> stops p s -> Greedy (Plus p) u s [].
Proof.
  intros N F S. destruct F as [|x u Hx F]; [congruence|]. change (x :: u) with ([x] ++ u).
  change (@nil (gname * pystr)) with (@nil (gname * pystr) ++ []). apply greedy_cat; [apply greedy_set; assumption|apply greedy_star; assumption].
Qed.
Lemma greedy_grp n a w s d : Greedy a w s d -> Greedy (Grp n a) w s ((n, w) :: d).
Proof. intros H A c k res E. cbn [mt]. apply H. rewrite consumed_app. exact E. Qed.
Lemma greedy_opt_some a w s d : Greedy a w s d -> Greedy (Opt a) w s d.
Proof. intros H A c k res E. cbn [mt]. rewrite (H A c k res E). reflexivity. Qed.
Lemma mt_none {A} r s c (k : pystr -> caps -> option A) : NoMatch r s -> mt r s c k = None.
Proof. intros H. rewrite mt_all, allm_caps. apply allm_nil_NoMatch in H. rewrite H. reflexivity. Qed.
Lemma greedy_opt_none a s : NoMatch a s -> Greedy (Opt a) [] s [].
Proof. intros H A c k res E. cbn [mt app]. rewrite mt_none; assumption. Qed.

Section Grammar.
  Context {rt : PyRt} (R : rt_ok rt).

  Lemma space_not_word c : is_space c = true -> is_word c = false.
  Proof.
    unfold is_space, is_word. destruct (is_ascii c) eqn:E.
    - unfold is_space0, is_word0, is_alpha0, is_upper0, is_lower0, is_digit0, between. lia.
    - intros H. destruct (u_word c) eqn:U; [|reflexivity]. rewrite (rt_word_space _ R _ U) in H. discriminate.
  Qed.
  Lemma stops_blank_then (p : N -> bool) u s : (forall c, is_space c = true -> p c = false) -> all_space u -> stops p s -> stops p (u ++ s).
  Proof. intros H F S. destruct F; [exact S|]. cbn. auto. Qed.
  Lemma stops_word u s : all_space u -> stops is_word s -> stops is_word (u ++ s).
  Proof. apply stops_blank_then. exact space_not_word. Qed.
  Lemma stops_space_word u s : Word u -> u <> [] -> stops is_space (u ++ s).
  Proof.
    intros F N. destruct F as [|x u Hx F]; [congruence|]. cbn. destruct (is_space x) eqn:E; [|reflexivity].
    rewrite (space_not_word x E) in Hx. discriminate.
  Qed.
  Lemma stops_space_word' u s : Word u -> (u = [] -> stops is_space s) -> stops is_space (u ++ s).
  Proof. intros F N. destruct u; [auto|]. apply stops_space_word; [assumption|discriminate]. Qed.

  Lemma param_text t : ParamText t -> t <> [] /\ Forall (fun c => is_param_ch c = true) t.
  Proof. intros [N F]. split; [assumption|]. eapply Forall_impl; [|exact F]. intros c. apply param_ch. Qed.


  Lemma stops_dashes_b n s : stops is_param_ch (dashes n ++ s).
  Proof. reflexivity. Qed.

  (** the optional property text in front of something that is no parameter character *)
  Definition props_caps (q : place) (o : option pystr) : caps := match o with Some t => [(GP q Props, t)] | None => [] end.
  Lemma greedy_props q o s : props_written o -> stops is_param_ch s -> Greedy (Opt (Grp (GP q Props) all_params)) (opt_text o) s (props_caps q o).
  Proof.
    intros P S. destruct o as [t|]; cbn [opt_text props_caps].
    - destruct (P t eq_refl) as [PT _]. apply param_text in PT as [N F]. apply greedy_opt_some, greedy_grp. apply greedy_plus; assumption.
    - apply greedy_opt_none. apply allm_nil_NoMatch. unfold all_params, Plus. cbn [allm]. destruct s as [|x s]; [reflexivity|].
      cbn [stops] in S. cbn [allm flat_map map]. rewrite S. reflexivity.
  Qed.
  Lemma stops_props (p : N -> bool) o s : p 123%N = false -> props_written o -> stops p s -> stops p (opt_text o ++ s).
  Proof.
    intros H P S. destruct o as [t|]; [|exact S]. destruct (P t eq_refl) as [_ [body ->]]. exact H.
  Qed.

  Lemma greedy_node q n s : node_written n -> stops is_space s ->
    exists d, Greedy (node_group q) (show_node n) s d /\ set_of q d (read_node n).
  Proof.
    intros [B W1 W2 O N2 P] S. inversion B as [|? ? B1 T1]; subst. inversion T1 as [|? ? B2 T2]; subst.
    inversion T2 as [|? ? B3 T3]; subst. inversion T3 as [|? ? B4 T4]; subst. inversion T4 as [|? ? B6 T5]; subst. clear B T1 T2 T3 T4 T5.
    eexists. split.
    - unfold node_group. apply greedy_grp. cbn [app handle_label_req]. unfold show_node.
      apply greedy_chs.
      eapply greedy_cats.
      { apply greedy_star; [exact B1|]. rewrite <- !app_assoc. apply stops_space_word'; [exact W1|]. intros E. rewrite (O E). reflexivity. }
      eapply greedy_cats.
      { apply greedy_grp, greedy_star; [exact W1|]. rewrite <- !app_assoc. apply stops_word; [exact B2|reflexivity]. }
      eapply greedy_cats; [apply greedy_star; [exact B2|reflexivity]|].
      apply greedy_chs.
      eapply greedy_cats.
      { apply greedy_star; [exact B3|]. rewrite <- !app_assoc. apply stops_space_word; assumption. }
      eapply greedy_cats.
      { apply greedy_grp, greedy_plus; [exact N2|exact W2|]. rewrite <- !app_assoc. apply stops_word; [exact B4|].
        apply stops_props; [reflexivity|exact P|reflexivity]. }
      eapply greedy_cats.
      { apply greedy_star; [exact B4|]. rewrite <- !app_assoc. apply stops_props; [reflexivity|exact P|reflexivity]. }
      eapply greedy_cats; [apply (greedy_props q); [exact P|reflexivity]|].
      apply greedy_skip; [apply greedy_star; [constructor|reflexivity]|].
      apply greedy_chs.
      rewrite <- (app_nil_r (wn_s6 n)). eapply greedy_cats; [apply greedy_star; [exact B6|exact S]|]. apply greedy_cats_end.
    - unfold read_node. cbn [app]. split.
      + intros r k E. cbn [app cap]. rewrite (place_neq q r E). destruct (wn_props n); cbn [props_caps app cap]; rewrite ?(place_neq q r E); reflexivity.
      + unfold piece_of. cbn [app cap gname_eqb part_eqb]. rewrite place_refl. cbn [andb].
        destruct (wn_props n); cbn [props_caps app cap gname_eqb part_eqb andb]; rewrite ?place_refl; cbn [andb]; unfold show_node; rewrite ?app_nil_r; reflexivity.
  Qed.

  Lemma mt_sp_fail {A} x v c (k : pystr -> caps -> option A) l y : is_space y = false -> N.eqb x y = false ->
    mt (cats (Sp :: ch x :: l)) (y :: v) c k = None.
  Proof.
    intros HS HX. unfold Sp.
    change (cats (Star is_space :: ch x :: l)) with (Cat (Star is_space) (cats (ch x :: l))). cbn [mt mt_star]. rewrite HS.
    destruct l; cbn [cats ch mt]; rewrite HX; reflexivity.
  Qed.

  (** the property text of a relationship: the parameter characters swallow the ']' and give it back *)
  Lemma greedy_rel_props q o l v s d : props_written o -> stops is_param_ch (v ++ s) -> v <> [] ->
    stops is_space v -> stops (N.eqb 93) v ->
    Greedy (cats (Sp :: ch 93 :: l)) (93%N :: v) s d ->
    Greedy (cats (Opt (Grp (GP q Props) all_params) :: Sp :: ch 93 :: l)) (opt_text o ++ 93%N :: v) s (d ++ props_caps q o).
  Proof.
    intros P S N S1 S2 G A c k res H. destruct v as [|y v]; [congruence|]. cbn [stops app] in S, S1, S2.
    assert (PB : is_param_ch 93 = true) by reflexivity.
    change (cats (Opt (Grp (GP q Props) all_params) :: Sp :: ch 93 :: l)) with (Cat (Opt (Grp (GP q Props) all_params)) (cats (Sp :: ch 93 :: l))).
    set (tl := cats (Sp :: ch 93 :: l)) in *. cbn [mt]. rewrite <- app_assoc. cbn [app].
    assert (F : forall c', mt tl (y :: v ++ s) c' k = None) by (intros c'; apply mt_sp_fail; [exact S1|exact S2]).
    assert (KK : mt tl (93%N :: y :: v ++ s) (props_caps q o ++ c) k = Some res).
    { apply (G A (props_caps q o ++ c) k res). rewrite app_assoc. exact H. }
    unfold all_params, Plus. destruct o as [t|]; cbn [opt_text props_caps app] in *.
    - destruct (P t eq_refl) as [PT [body Eb]]. apply param_text in PT as [_ Fp]. destruct t as [|z t]; [discriminate|]. inv Fp.
      cbn [app]. cbn [mt]. rewrite H2.
      rewrite (mt_star_back is_param_ch t 93 (y :: v ++ s) _ res); [reflexivity| | | |].
      + apply Forall_app. split; [assumption|]. constructor; [exact PB|constructor].
      + exact S.
      + apply F.
      + change (z :: t ++ 93%N :: y :: v ++ s) with ((z :: t) ++ 93%N :: y :: v ++ s). rewrite consumed_app. exact KK.
    - cbn [mt]. rewrite PB. rewrite mt_star_stop by exact S. rewrite F. exact KK.
  Qed.

  Lemma stops_lt_dash n s : stops (N.eqb 60) (dashes n ++ s). Proof. reflexivity. Qed.
  Lemma NoMatch_ch x s : stops (N.eqb x) s -> NoMatch (ch x) s.
  Proof. intros S. apply allm_nil_NoMatch. destruct s as [|y s]; [reflexivity|]. cbn [stops] in S. unfold ch. cbn [allm]. rewrite S. reflexivity. Qed.
  Lemma greedy_opt_ch (b : bool) x l v s d : (b = false -> stops (N.eqb x) (v ++ s)) ->
    Greedy (cats l) v s d -> Greedy (cats (Opt (ch x) :: l)) ((if b then [x] else []) ++ v) s d.
  Proof.
    intros HS G. destruct b; cbn [app].
    - rewrite <- (app_nil_r d). apply (greedy_cats _ _ [x] v); [apply greedy_opt_some, greedy_ch|exact G].
    - apply greedy_skip; [apply greedy_opt_none, NoMatch_ch; auto|exact G].
  Qed.
  Lemma dashes_all n : Forall (fun x => N.eqb 45 x = true) (dashes n).
  Proof. unfold dashes. apply Forall_forall. intros x H. apply repeat_spec in H. subst. reflexivity. Qed.
  Lemma greedy_dashes n l v s d : stops (N.eqb 45) (v ++ s) -> Greedy (cats l) v s d -> Greedy (cats (Plus (N.eqb 45) :: l)) (dashes n ++ v) s d.
  Proof.
    intros S G. rewrite <- (app_nil_r d). apply greedy_cats; [apply greedy_plus|exact G]; [discriminate|apply dashes_all|exact S].
  Qed.
  Lemma greedy_sp u l v s d : all_space u -> stops is_space (v ++ s) -> Greedy (cats l) v s d -> Greedy (cats (Sp :: l)) (u ++ v) s d.
  Proof. intros B S G. rewrite <- (app_nil_r d). apply greedy_cats; [apply greedy_star; assumption|exact G]. Qed.

  Definition not_rel_end (c : N) : bool := is_space c || N.eqb 45 c || N.eqb 62 c.
  Lemma greedy_rel q r s : rel_written r -> stops not_rel_end s ->
    exists d, Greedy (rel_group q) (show_rel r) s d /\ set_of q d (read_rel r).
  Proof.
    intros [B W1 W2 O CO NL P] S0. inversion B as [|? ? B1 T1]; subst. inversion T1 as [|? ? B2 T2]; subst.
    inversion T2 as [|? ? B3 T3]; subst. inversion T3 as [|? ? B4 T4]; subst. inversion T4 as [|? ? B6 T5]; subst. clear B T1 T2 T3 T4 T5.
    assert (S : stops is_space s). { destruct s; [exact I|]. cbn in *. unfold not_rel_end in S0. destruct (is_space n); [discriminate|reflexivity]. }
    assert (SG : stops (N.eqb 62) (wr_s6 r ++ s)).
    { destruct (wr_s6 r) as [|y v] eqn:E; cbn [app].
      - destruct s; [exact I|]. cbn [stops] in *. unfold not_rel_end in S0. apply orb_false_iff in S0 as [_ S0]. exact S0.
      - inv B6. cbn [stops]. destruct (N.eqb_spec 62 y) as [<-|]; [|reflexivity]. discriminate. }
    assert (SD : stops (N.eqb 45) (((if wr_gt r then py ">" else []) ++ wr_s6 r) ++ s)).
    { destruct (wr_gt r); [reflexivity|]. cbn [app]. destruct (wr_s6 r) as [|y v] eqn:E; cbn [app].
      - destruct s; [exact I|]. cbn [stops] in *. unfold not_rel_end in S0. apply orb_false_iff in S0 as [S0 _]. apply orb_false_iff in S0 as [_ S0]. exact S0.
      - inv B6. cbn [stops]. destruct (N.eqb_spec 45 y) as [<-|]; [|reflexivity]. discriminate. }
    eexists. split.
    - unfold rel_group. apply greedy_grp. cbn [app handle_label_opt]. unfold show_rel.
      apply (greedy_opt_ch (wr_lt r) 60). { intros _. rewrite <- app_assoc. reflexivity. }
      apply greedy_dashes; [reflexivity|]. apply greedy_chs.
      set (tl := opt_text (wr_props r) ++ _).
      assert (TW : forall p, p 93%N = false -> p 123%N = false -> stops p (tl ++ s)).
      { intros p H1 H2. unfold tl. rewrite <- app_assoc. apply stops_props; [exact H2|exact P|exact H1]. }
      apply greedy_sp; [exact B1| |].
      { rewrite <- !app_assoc. apply stops_space_word'; [exact W1|]. intros E. rewrite (O E). cbn [app].
        destruct (wr_colon r) eqn:Ec; [reflexivity|]. destruct (CO eq_refl) as [En Es]. rewrite En, Es, (NL En). apply TW; reflexivity. }
      eapply greedy_cats.
      { apply greedy_grp, greedy_star; [exact W1|]. rewrite <- !app_assoc. apply stops_word; [exact B2|].
        destruct (wr_colon r) eqn:Ec; [reflexivity|]. destruct (CO eq_refl) as [En Es]. rewrite En, Es, (NL En). apply TW; reflexivity. }
      apply greedy_sp; [exact B2| |].
      { destruct (wr_colon r) eqn:Ec; [reflexivity|]. destruct (CO eq_refl) as [En Es]. rewrite En, Es, (NL En). apply TW; reflexivity. }
      apply (greedy_opt_ch (wr_colon r) 58).
      { intros Ec. destruct (CO Ec) as [En Es]. rewrite En, Es, (NL En). apply TW; reflexivity. }
      apply greedy_sp; [exact B3| |].
      { rewrite <- !app_assoc. apply stops_space_word'; [exact W2|]. intros En. rewrite (NL En). apply TW; reflexivity. }
      eapply greedy_cats.
      { apply greedy_grp, greedy_star; [exact W2|]. rewrite <- !app_assoc. apply stops_word; [exact B4|]. apply TW; reflexivity. }
      apply greedy_sp; [exact B4|apply TW; reflexivity|].
      unfold tl. apply (greedy_rel_props q (wr_props r)); [exact P|reflexivity|discriminate|reflexivity|reflexivity|].
      apply greedy_skip; [apply greedy_star; [constructor|reflexivity]|]. apply greedy_chs.
      apply greedy_dashes; [exact SD|]. apply (greedy_opt_ch (wr_gt r) 62); [intros _; exact SG|].
      rewrite <- (app_nil_r (wr_s6 r)). apply greedy_sp; [exact B6|exact S|]. apply greedy_cats_end.
    - unfold read_rel. cbn [app]. split.
      + intros p k E. cbn [app cap]. rewrite (place_neq q p E). destruct (wr_props r); cbn [props_caps app cap]; rewrite ?(place_neq q p E); reflexivity.
      + unfold piece_of. cbn [app cap gname_eqb part_eqb]. rewrite place_refl. cbn [andb].
        destruct (wr_props r); cbn [props_caps app cap gname_eqb part_eqb andb]; rewrite ?place_refl; cbn [andb]; unfold show_rel; rewrite ?app_nil_r; reflexivity.
  Qed.

  (** ** whole patterns *)
  Definition pat_start (c : N) : bool := is_space c || N.eqb 40 c || N.eqb 60 c || N.eqb 45 c.
  Lemma pat_start_stops s : stops pat_start s -> stops is_space s /\ stops (N.eqb 40) s /\ stops (N.eqb 60) s /\ stops (N.eqb 45) s.
  Proof.
    destruct s as [|c s]; cbn [stops]; [auto|]. unfold pat_start. intros H. apply orb_false_iff in H as [H H4].
    apply orb_false_iff in H as [H H3]. apply orb_false_iff in H as [H1 H2]. auto.
  Qed.
  Lemma NoMatch_head r p s : (forall w d, Lang r w d -> exists x w', w = x :: w' /\ p x = true) -> stops p s -> NoMatch r s.
  Proof.
    intros H S w rest d E L. destruct (H w d L) as (x & w' & -> & Hp). subst s. cbn in S. congruence.
  Qed.
  Lemma NoMatch_node q s : stops (N.eqb 40) s -> NoMatch (node_group q) s.
  Proof.
    apply NoMatch_head. intros w d L. apply (Lang_node q) in L as (x & (s1 & h & s2 & s3 & l & s4 & s5 & s6 & -> & _) & _).
    eexists _, _. split; reflexivity.
  Qed.
  Lemma NoMatch_rel q s : stops (N.eqb 60) s -> stops (N.eqb 45) s -> NoMatch (rel_group q) s.
  Proof.
    intros S1 S2. apply (NoMatch_head _ (fun c => N.eqb 60 c || N.eqb 45 c)).
    - intros w d L. apply (Lang_rel q) in L as (x & (lt & d1 & s1 & h & s2 & co & s3 & l & s4 & s5 & d2 & gt & s6 & -> & _ & _ & _ & HL & _ & _ & [N F] & _) & _).
      destruct HL as [-> | ->]; cbn [app]; [|eexists _, _; split; reflexivity]. destruct d1 as [|y d1]; [congruence|]. inv F.
      eexists _, _. split; reflexivity.
    - destruct s; cbn [stops] in *; [exact I|]. rewrite S1, S2. reflexivity.
  Qed.

  Lemma set_of_none q : set_of q [] no_piece.
  Proof. split; reflexivity. Qed.
  Lemma show_node_head n s : exists v, show_node n ++ s = 40%N :: v.
  Proof. eexists. reflexivity. Qed.
  Lemma show_rel_head r s : exists x v, show_rel r ++ s = x :: v /\ (x = 60%N \/ x = 45%N).
  Proof. unfold show_rel. destruct (wr_lt r); eexists _, _; (split; [reflexivity|auto]). Qed.
  Lemma stops_node (p : N -> bool) n s : p 40%N = false -> stops p (show_node n ++ s).
  Proof. intros H. destruct (show_node_head n s) as [v ->]. exact H. Qed.
  Lemma stops_rel (p : N -> bool) r s : p 60%N = false -> p 45%N = false -> stops p (show_rel r ++ s).
  Proof. intros H1 H2. destruct (show_rel_head r s) as (x & v & -> & [-> | ->]); assumption. Qed.

  Lemma greedy_node_then q n l v s d : node_written n -> Greedy (cats l) v s d -> stops is_space (v ++ s) ->
    exists d0, Greedy (cats (Opt (node_group q) :: l)) (show_node n ++ v) s (d ++ d0) /\ set_of q d0 (read_node n).
  Proof.
    intros W G S. destruct (greedy_node q n (v ++ s) W S) as (d0 & G0 & S0). exists d0. split; [|exact S0].
    apply greedy_cats; [apply greedy_opt_some; exact G0|exact G].
  Qed.
  Lemma greedy_rel_then q r l v s d : rel_written r -> Greedy (cats l) v s d -> stops not_rel_end (v ++ s) ->
    exists d0, Greedy (cats (Opt (rel_group q) :: l)) (show_rel r ++ v) s (d ++ d0) /\ set_of q d0 (read_rel r).
  Proof.
    intros W G S. destruct (greedy_rel q r (v ++ s) W S) as (d0 & G0 & S0). exists d0. split; [|exact S0].
    apply greedy_cats; [apply greedy_opt_some; exact G0|exact G].
  Qed.
  Lemma greedy_no_node q l v s d : stops (N.eqb 40) (v ++ s) -> Greedy (cats l) v s d -> Greedy (cats (Opt (node_group q) :: l)) v s d.
  Proof. intros S. apply greedy_skip. apply greedy_opt_none, NoMatch_node. exact S. Qed.
  Lemma greedy_no_rel q l v s d : stops (N.eqb 60) (v ++ s) -> stops (N.eqb 45) (v ++ s) ->
    Greedy (cats l) v s d -> Greedy (cats (Opt (rel_group q) :: l)) v s d.
  Proof. intros S S'. apply greedy_skip. apply greedy_opt_none, NoMatch_rel; assumption. Qed.
  Lemma greedy_no_sp l v s d : stops is_space (v ++ s) -> Greedy (cats l) v s d -> Greedy (cats (Sp :: l)) v s d.
  Proof. intros S. apply (greedy_sp []); [constructor|exact S]. Qed.

  Definition tail3 := [Sp; Opt (rel_group PLeftMiddle); Sp; Opt (node_group PMiddle); Sp; Opt (rel_group PMiddleRight); Sp; Opt (node_group PRight)].
  Definition tail1 := [Sp; Opt (rel_group PMiddleRight); Sp; Opt (node_group PRight)].
  Lemma greedy_tail1 s : stops pat_start s -> Greedy (cats tail1) [] s [].
  Proof.
    intros S. apply pat_start_stops in S as (S1 & S2 & S3 & S4). unfold tail1.
    apply greedy_no_sp; [exact S1|]. apply greedy_no_rel; [exact S3|exact S4|]. apply greedy_no_sp; [exact S1|].
    apply greedy_no_node; [exact S2|]. apply greedy_cats_end.
  Qed.
  Lemma greedy_tail3 s : stops pat_start s -> Greedy (cats tail3) [] s [].
  Proof.
    intros S. pose proof S as S0. apply pat_start_stops in S0 as (S1 & S2 & S3 & S4). unfold tail3.
    apply greedy_no_sp; [exact S1|]. apply greedy_no_rel; [exact S3|exact S4|]. apply greedy_no_sp; [exact S1|].
    apply greedy_no_node; [exact S2|]. apply greedy_tail1. exact S.
  Qed.
  Lemma greedy_empty s : stops pat_start s -> Greedy nodes_rels [] s [].
  Proof.
    intros S. pose proof S as S0. apply pat_start_stops in S0 as (S1 & S2 & S3 & S4). unfold nodes_rels.
    apply greedy_no_sp; [exact S1|]. apply greedy_no_node; [exact S2|]. apply greedy_tail3. exact S.
  Qed.

  Lemma pattern_of_pieces d x1 x2 x3 x4 x5 d1 d2 d3 d4 d5 : d = (((d5 ++ d4) ++ d3) ++ d2) ++ d1 ->
    set_of PLeft d1 x1 -> set_of PLeftMiddle d2 x2 -> set_of PMiddle d3 x3 -> set_of PMiddleRight d4 x4 -> set_of PRight d5 x5 ->
    pattern_of d = {| left_node := x1; left_middle_rel := x2; middle_node := x3; middle_right_rel := x4; right_node := x5 |}.
  Proof.
    intros -> [N1 E1] [N2 E2] [N3 E3] [N4 E4] [N5 E5]. unfold pattern_of, piece_of in *. rewrite <- E1, <- E2, <- E3, <- E4, <- E5.
    f_equal; f_equal; rewrite ?cap_app; rewrite ?N1, ?N2, ?N3, ?N4, ?N5 by reflexivity; try reflexivity;
      repeat match goal with |- context [match cap ?a ?b with _ => _ end] => destruct (cap a b); try reflexivity end.
  Qed.

  Theorem greedy_pattern b p s : all_space b -> pattern_written p -> stops pat_start s ->
    exists d, Greedy nodes_rels (b ++ show_pattern p) s d /\ pattern_of d = read_pattern p.
  Proof.
    intros B W S. pose proof S as S0. apply pat_start_stops in S0 as (S1 & S2 & S3 & S4). unfold nodes_rels.
    destruct p as [a|a r m|a r m r' c]; cbn [show_pattern read_pattern pattern_written] in *.
    - destruct (greedy_node_then PLeft a tail3 [] s [] W (greedy_tail3 s S) S1) as (d0 & G & E). rewrite app_nil_r in G.
      exists d0. split; [apply greedy_sp; [exact B|apply stops_node; reflexivity|exact G]|].
      eapply (pattern_of_pieces _ _ _ _ _ _ d0 [] [] [] []); [reflexivity|exact E| | | |]; apply set_of_none.
    - destruct W as (WA & WR & WM).
      destruct (greedy_node_then PMiddle m tail1 [] s [] WM (greedy_tail1 s S) S1) as (d3 & G3 & E3). rewrite app_nil_r in G3. cbn [app] in G3.
      assert (G3' : Greedy (cats (Sp :: Opt (node_group PMiddle) :: tail1)) (show_node m) s d3) by (apply greedy_no_sp; [apply stops_node; reflexivity|exact G3]).
      destruct (greedy_rel_then PLeftMiddle r _ _ _ _ WR G3' (stops_node _ _ _ eq_refl)) as (d2 & G2 & E2).
      assert (G2' : Greedy (cats tail3) (show_rel r ++ show_node m) s (d3 ++ d2)).
      { apply greedy_no_sp; [|exact G2]. rewrite <- app_assoc. apply stops_rel; reflexivity. }
      destruct (greedy_node_then PLeft a _ _ _ _ WA G2' ltac:(rewrite <- app_assoc; apply stops_rel; reflexivity)) as (d1 & G1 & E1).
      eexists. split; [apply greedy_sp; [exact B| |exact G1]; rewrite <- app_assoc; apply stops_node; reflexivity|].
      eapply (pattern_of_pieces _ _ _ _ _ _ d1 d2 d3 [] []); [reflexivity|assumption|assumption|assumption| |]; apply set_of_none.
    - destruct W as (WA & WR & WM & WR' & WC).
      destruct (greedy_node_then PRight c [] [] s [] WC (greedy_cats_end s) S1) as (d5 & G5 & E5). rewrite app_nil_r in G5. cbn [app] in G5.
      assert (G5' : Greedy (cats [Sp; Opt (node_group PRight)]) (show_node c) s d5) by (apply greedy_no_sp; [apply stops_node; reflexivity|exact G5]).
      destruct (greedy_rel_then PMiddleRight r' _ _ _ _ WR' G5' (stops_node _ _ _ eq_refl)) as (d4 & G4 & E4).
      assert (G4' : Greedy (cats tail1) (show_rel r' ++ show_node c) s (d5 ++ d4)).
      { apply greedy_no_sp; [|exact G4]. rewrite <- app_assoc. apply stops_rel; reflexivity. }
      destruct (greedy_node_then PMiddle m _ _ _ _ WM G4' ltac:(rewrite <- app_assoc; apply stops_rel; reflexivity)) as (d3 & G3 & E3).
      assert (G3' : Greedy (cats (Sp :: Opt (node_group PMiddle) :: tail1)) (show_node m ++ show_rel r' ++ show_node c) s ((d5 ++ d4) ++ d3))
        by (apply greedy_no_sp; [rewrite <- app_assoc; apply stops_node; reflexivity|exact G3]).
      destruct (greedy_rel_then PLeftMiddle r _ _ _ _ WR G3' ltac:(rewrite <- app_assoc; apply stops_node; reflexivity)) as (d2 & G2 & E2).
      assert (G2' : Greedy (cats tail3) (show_rel r ++ show_node m ++ show_rel r' ++ show_node c) s (((d5 ++ d4) ++ d3) ++ d2)).
      { apply greedy_no_sp; [|exact G2]. rewrite <- app_assoc. apply stops_rel; reflexivity. }
      destruct (greedy_node_then PLeft a _ _ _ _ WA G2' ltac:(rewrite <- app_assoc; apply stops_rel; reflexivity)) as (d1 & G1 & E1).
      eexists. split; [apply greedy_sp; [exact B| |exact G1]; rewrite <- app_assoc; apply stops_node; reflexivity|].
      eapply (pattern_of_pieces _ _ _ _ _ _ d1 d2 d3 d4 d5); [reflexivity|assumption..].
  Qed.

  (** ** scanning *)
  Definition heads (p : N -> bool) (t : pystr) : Prop := match t with [] => True | x :: _ => p x = true end.
  Lemma heads_app p u v : heads p u -> heads p v -> heads p (u ++ v).
  Proof. destruct u; [auto|]. intros H _. exact H. Qed.
  Lemma heads_space u : all_space u -> heads pat_start u.
  Proof. intros F. destruct F; [exact I|]. cbn. unfold pat_start. rewrite H. reflexivity. Qed.
  Lemma heads_maybe_node x t : maybe NodePiece x t -> heads pat_start t.
  Proof.
    intros [(s1 & h & s2 & s3 & l & s4 & s5 & s6 & -> & _)|[_ ->]]; [|exact I]. reflexivity.
  Qed.
  Lemma heads_maybe_rel x t : maybe RelPiece x t -> heads pat_start t.
  Proof.
    intros [(lt & d1 & s1 & h & s2 & co & s3 & l & s4 & s5 & d2 & gt & s6 & -> & _ & _ & _ & HL & _ & _ & [N F] & _)|[_ ->]]; [|exact I].
    destruct HL as [-> | ->]; cbn [app heads py]; [|reflexivity]. destruct F as [|y d1 ? F]; [congruence|]. subst y. reflexivity.
  Qed.
  Lemma heads_pattern p t : PatternText p t -> heads pat_start t.
  Proof.
    intros (b1 & t1 & b2 & t2 & b3 & t3 & b4 & t4 & b5 & t5 & -> & B & M1 & M2 & M3 & M4 & M5).
    inversion B as [|? ? B1 T1]; subst. inversion T1 as [|? ? B2 T2]; subst. inversion T2 as [|? ? B3 T3]; subst.
    inversion T3 as [|? ? B4 T4]; subst. inversion T4 as [|? ? B5 T5]; subst.
    repeat apply heads_app; try (apply heads_space; assumption); try (eapply heads_maybe_node; eassumption); eapply heads_maybe_rel; eassumption.
  Qed.
  Lemma stop_cons x s : pat_start x = false -> pattern_matches (x :: s) = pattern_matches s.
  Proof.
    intros H. unfold pattern_matches, finditer. pose proof (greedy_match _ [] (x :: s) [] (greedy_empty (x :: s) H)) as E. cbn [app] in E.
    rewrite (scan_unfold _ (x :: s)), E, Nat.eqb_refl. cbn [mats flat_map fst app].
    rewrite NoMatchNE_match; [reflexivity|]. intros w rest d EW L. destruct w as [|y w]; [reflexivity|].
    cbn [app] in EW. injection EW as <- ->. apply Lang_pattern, heads_pattern in L. cbn in L. congruence.
  Qed.
  Lemma pattern_matches_nil : pattern_matches [] = [].
  Proof. reflexivity. Qed.
  Lemma take_pattern b p s : all_space b -> pattern_written p -> stops pat_start s ->
    pattern_matches (b ++ show_pattern p ++ s) = read_pattern p :: pattern_matches s.
  Proof.
    intros B W S. destruct (greedy_pattern b p s B W S) as (d & G & E). apply greedy_match in G. rewrite app_assoc.
    assert (NE : b ++ show_pattern p <> []).
    { intros X. apply app_eq_nil in X as [_ X]. destruct p; discriminate. }
    unfold pattern_matches at 1, finditer. rewrite (scan_some _ _ _ _ G NE). cbn [mats flat_map fst snd]. rewrite E.
    destruct (b ++ show_pattern p); [congruence|]. reflexivity.
  Qed.
End Grammar.
