(** * SchemaMore: values that can be stored (proofs for C69) *)
From Verif Require Import PyBase BaseFacts Json SpecJson JsonFacts Literal SpecText SpecPattern SpecGrammar SpecValue RtLaws ListFacts ValueFacts ValueMore Statements FS Store SpecStore
  Make SpecMake SpecWhole WholeFacts WholeMore WholeQuery SpecSchema SchemaFacts.
From Coq Require Import ZifyBool ZifyNat ZifyN.

Section SchemaMore.
  Context {rt : PyRt} (D : rt_data rt).

  Definition one_line (s : pystr) : Prop := Forall (fun c => c <> 43%N /\ c <> 10%N) s.
  Lemma line_app a b : one_line a -> one_line b -> one_line (a ++ b).
  Proof. intros. apply Forall_app. auto. Qed.
  Lemma line_word s : Word s -> one_line s.
  Proof. intros H. eapply Forall_impl; [|exact H]. intros c Hc. split; intros ->; discriminate. Qed.
  Lemma line_digits ds : Digits ds -> one_line ds.
  Proof. intros [_ H]. eapply Forall_impl; [|exact H]. intros c Hc. cbn beta in Hc. lia. Qed.
  Lemma text_no_plus c : text_char c -> c <> 43%N /\ c <> 10%N.
  Proof. intros [[H|[H|H]] N]; (split; [|exact N]); intros ->; try discriminate. cbn in H. intuition discriminate. Qed.

  (** the digits of a number *)
  Lemma digits_of z : (0 <= z)%Z -> Digits (str_of_Z z) /\ decimal (str_of_Z z) = z /\ (forall r, str_of_Z z = 48%N :: r -> Forall (eq 48%N) r).
  Proof.
    intros H. destruct z as [|p|p]; [| |lia].
    - split; [split; [discriminate|]; repeat constructor; lia|]. split; [reflexivity|]. cbn [str_of_Z]. intros r E. inv E. constructor.
    - cbn [str_of_Z]. destruct (str_of_N_spec (N.pos p)) as (Hne & HF & HN & [[? _]|(_ & c & r & Ec & Hc)]); [discriminate|]. split; [|split].
      + split; [exact Hne|]. eapply Forall_impl; [|exact HF]. intros x Hx. unfold is_digit0, between in Hx. cbn beta. lia.
      + rewrite <- decimal_digits by exact HF. rewrite HN. reflexivity.
      + intros r' E. rewrite Ec in E. inv E. discriminate.
  Qed.

  (** a string between blanks and quotes *)
  Lemma Trimmed_spaced x : (forall c t, x = c :: t -> ~ blank_ch c) -> (forall c t, x = t ++ [c] -> ~ blank_ch c) ->
    Trimmed ([39%N] ++ (py " " ++ x ++ py " ") ++ [39%N] ++ []) x.
  Proof.
    intros H1 H2. exists ([39%N] ++ (py " " ++ x ++ py " ") ++ [39%N]), (py " " ++ x ++ py " "). split; [|split].
    - exists [], []. repeat split; try constructor.
      + rewrite !app_nil_r. reflexivity.
      + intros c t E. cbn [app] in E. injection E as <- _. discriminate.
      + intros c t E. rewrite app_assoc in E. apply app_inj_tail in E as [_ <-]. discriminate.
    - exists [39%N], [39%N]. repeat split; try (repeat constructor).
      + intros c t E. injection E as <- _. discriminate.
      + intros c t E. rewrite app_assoc in E. apply app_inj_tail in E as [_ <-]. discriminate.
    - exists (py " "), (py " "). repeat split; try assumption; repeat constructor.
  Qed.

  (** ** elements of lists *)
  Lemma elem_for v : in_list v -> exists e, elem_written e /\ elem_legal e /\ one_line (show_elem e) /\ forall u, elem_value e u -> u = v.
  Proof.
    intros [ |b|z H Sh|a b t A B F|x H N].
    - exists (Elem SNull). cbn. split; [exact I|]. split; [split; [intros X; exact X|exact I]|]. split; [|auto]. repeat constructor; discriminate.
    - exists (Elem (SBool b)). cbn. split; [exact I|]. split; [split; [intros X; exact X|exact I]|]. split; [|auto]. destruct b; repeat constructor; discriminate.
    - destruct (digits_of z H) as (D1 & D2 & D3). exists (Elem (SInt (str_of_Z z))). cbn [elem_written is_bare show_elem show_scalar elem_value scalar_value].
      split; [split; assumption|]. split; [split; [intros X; exact X|left; exact Sh]|]. split; [apply line_digits, D1|]. intros u ->. rewrite D2. reflexivity.
    - exists (Elem (SFrac a b)). cbn [elem_written is_bare show_elem show_scalar elem_value scalar_value].
      split; [split; assumption|]. split; [split; [intros X; exact X|exact I]|]. split.
      + apply line_app; [apply line_digits, A|]. apply line_app; [|apply line_digits, B]. repeat constructor; discriminate.
      + intros u (t' & F' & ->). congruence.
    - exists (Elem (SStr 39%N x [])). cbn [elem_written is_bare show_elem show_scalar elem_value]. split; [|split; [split; [intros X; exact X|exact I]|split]].
      + split; [left; reflexivity|]. split; [|constructor]. unfold list_text. apply Forall_forall. intros c Hc. rewrite Forall_forall in H. destruct (H c Hc) as (T & Q & R).
        destruct T as [[T T'] | ->]; [|repeat split; try discriminate; right; right; cbn; tauto].
        repeat split; auto. destruct T as [T|[T|T]]; auto. right. right. cbn in T |- *. tauto.
      + apply line_app; [repeat constructor; discriminate|]. apply line_app; [|repeat constructor; discriminate].
        apply Forall_forall. intros c Hc. rewrite Forall_forall in H. destruct (H c Hc) as ([T | ->] & _ & _); [apply text_no_plus, T|split; discriminate].
      + intros u ->. rewrite respelt_same by exact N. reflexivity.
  Qed.
  Lemma elems_for vs : Forall in_list vs -> exists es, Forall (fun e => elem_written e /\ elem_legal e /\ one_line (show_elem e)) es /\
    List.length es = List.length vs /\ forall us, Forall2 elem_value es us -> us = vs.
  Proof.
    induction 1 as [|v vs V VS (es & F & L & U)].
    - exists []. split; [constructor|]. split; [reflexivity|]. intros us H. inv H. reflexivity.
    - destruct (elem_for v V) as (e & W & B & O & E). exists (e :: es). split; [constructor; auto|]. split; [cbn; congruence|].
      intros us H. inversion H as [|e' u es' us' H1 H2]; subst. f_equal; auto.
  Qed.
  Definition spread (es : list welem) : wlist := map (fun e => ([], e, [])) es.
  Lemma spread_line es : Forall (fun e => one_line (show_elem e)) es -> one_line (show_elems (spread es)).
  Proof.
    induction 1 as [|e es E ES IH]; cbn [spread map show_elems]; [constructor|]. fold (spread es). destruct (spread es) as [|x l] eqn:X.
    - cbn [app]. apply line_app; [exact E|constructor].
    - rewrite <- X in *. clear X. cbn [app]. apply line_app; [exact E|]. constructor; [split; discriminate|exact IH].
  Qed.

  (** ** values *)
  Lemma value_for v : can_be_written v -> exists wv, value_written wv /\ one_line (show_value wv) /\
    forall i, wi_val i = wv -> item_legal i /\ forall u, item_value i u -> u = v.
  Proof.
    intros [ |b|z H Sh|a b t A B F|x (F & H1 & H2 & N)|l N F].
    - exists (Scalar SNull). split; [exact I|]. split; [repeat constructor; discriminate|]. intros i E. unfold item_legal, item_value. rewrite E. cbn. auto.
    - exists (Scalar (SBool b)). split; [exact I|]. split; [destruct b; repeat constructor; discriminate|]. intros i E. unfold item_legal, item_value. rewrite E. cbn. auto.
    - destruct (digits_of z H) as (D1 & D2 & D3). exists (Scalar (SInt (str_of_Z z))). split; [exact D1|]. split; [apply line_digits, D1|].
      intros i E. unfold item_legal, item_value. rewrite E. split; [exact Sh|]. intros u Hu. cbn [scalar_value] in Hu. congruence.
    - exists (Scalar (SFrac a b)). split; [split; assumption|]. split.
      + apply line_app; [apply line_digits, A|]. apply line_app; [|apply line_digits, B]. repeat constructor; discriminate.
      + intros i E. unfold item_legal, item_value. rewrite E. split; [exact I|]. intros u (t' & F' & ->). congruence.
    - pose proof (Trimmed_spaced x H1 H2) as T. exists (Scalar (SStr 39%N (py " " ++ x ++ py " ") [])). split; [|split].
      + split; [left; reflexivity|]. split; [|constructor]. unfold string_text. apply Forall_app. split; [repeat constructor; right; left; reflexivity|].
        apply Forall_app. split; [|repeat constructor; right; left; reflexivity].
        eapply Forall_impl; [|exact F]. intros c [[T'|[T'|T']] _]; auto. right. right. cbn in T' |- *. tauto.
      + cbn [show_value show_scalar]. apply line_app; [repeat constructor; discriminate|]. apply line_app; [|repeat constructor; discriminate].
        apply line_app; [repeat constructor; discriminate|]. apply line_app; [|repeat constructor; discriminate].
        eapply Forall_impl; [|exact F]. apply text_no_plus.
      + intros i E. unfold item_legal, item_value. rewrite E. split.
        * intros y Hy. rewrite <- (Trimmed_fun _ _ _ T Hy). exact N.
        * intros u (y & Hy & _ & ->). rewrite (Trimmed_fun _ _ _ T Hy). reflexivity.
    - destruct (elems_for l F) as (es & W & L & U). exists (List_ (spread es)). split; [|split].
      + split; [destruct es; [destruct l; [congruence|discriminate]|discriminate]|]. unfold spread. apply Forall_map. eapply Forall_impl; [|exact W].
        intros e (W1 & _). cbn [fst snd]. repeat split; try constructor. exact W1.
      + cbn [show_value]. apply line_app; [repeat constructor; discriminate|]. apply line_app; [|repeat constructor; discriminate].
        apply spread_line. eapply Forall_impl; [|exact W]. cbn beta. tauto.
      + intros i E. unfold item_legal, item_value. rewrite E. split.
        * unfold spread. apply Forall_map. eapply Forall_impl; [|exact W]. cbn. tauto.
        * intros u (vs & -> & F2). f_equal. apply U. clear - F2. unfold spread in F2. revert vs F2.
          induction es as [|e es IH]; intros vs F2; cbn [map] in F2; inv F2; constructor; auto.
  Qed.
  Lemma item_for kv : a_word (fst kv) -> can_be_written (snd kv) -> exists i, item_written i /\ item_legal i /\ wi_key i = fst kv /\
    one_line (show_item i) /\ forall u, item_value i u -> u = snd kv.
  Proof.
    intros [K1 K2] V. destruct (value_for _ V) as (wv & W & O & H).
    exists {| wi_s1 := []; wi_key := fst kv; wi_s2 := []; wi_s3 := []; wi_val := wv; wi_s4 := [] |}.
    destruct (H _ (eq_refl : wi_val {| wi_s1 := []; wi_key := fst kv; wi_s2 := []; wi_s3 := []; wi_val := wv; wi_s4 := [] |} = wv)) as [H1 H2].
    split; [|split; [exact H1|split; [reflexivity|split; [|exact H2]]]].
    - constructor; cbn [wi_s1 wi_s2 wi_s3 wi_s4 wi_key wi_val]; auto. repeat (constructor; [constructor|]). constructor.
    - unfold show_item. cbn [wi_s1 wi_s2 wi_s3 wi_s4 wi_key wi_val app]. apply line_app; [apply line_word, K2|].
      constructor; [split; discriminate|]. apply line_app; [exact O|constructor].
  Qed.
  Lemma items_for d : Forall (fun kv => a_word (fst kv) /\ can_be_written (snd kv)) d -> exists l,
    Forall item_written l /\ Forall item_legal l /\ map wi_key l = map fst d /\ Forall (fun i => one_line (show_item i)) l /\
    forall d', Forall2 (fun i kv => fst kv = wi_key i /\ item_value i (snd kv)) l d' -> d' = d.
  Proof.
    induction 1 as [|kv d [K V] F (l & A & B & C & O & U)].
    - exists []. repeat (split; [constructor|]). intros d' H. inv H. reflexivity.
    - destruct (item_for kv K V) as (i & A1 & B1 & C1 & O1 & U1). exists (i :: l). repeat (split; [first [constructor; assumption|cbn [map]; congruence]|]).
      intros d' H. inversion H as [|i' kv' l' d'' [H1 H2] H3]; subst. f_equal; [|auto]. destruct kv' as [k v], kv as [k0 v0]. cbn [fst snd] in *. rewrite (U1 _ H2). congruence.
  Qed.
  Lemma items_line l : Forall (fun i => one_line (show_item i)) l -> one_line (show_props l).
  Proof.
    intros H. unfold show_props. apply line_app; [repeat constructor; discriminate|]. apply line_app; [|repeat constructor; discriminate].
    induction H as [|i l I L IH]; cbn [show_items]; [constructor|]. destruct l as [|i' l]; [exact I|]. apply line_app; [exact I|]. constructor; [split; discriminate|exact IH].
  Qed.

  (** ** the statement *)
  Definition node_with (label : pystr) (o : option wprops) : dnode :=
    {| dn_s1 := []; dn_handle := []; dn_s2 := []; dn_s3 := []; dn_label := label; dn_s4 := []; dn_props := o; dn_s6 := [] |}.
  Definition plain_rel : drel :=
    {| dr_right := true; dr_d1 := 0; dr_s1 := []; dr_handle := []; dr_s2 := []; dr_s3 := []; dr_name := py "R"; dr_s4 := []; dr_props := None; dr_d2 := 0 |}.
  Definition pair_of (label : pystr) (q : wprops) : list (pystr * dpattern) :=
    [(py " ", Two (node_with label (Some q)) plain_rel (node_with (py "B") None))].
  Lemma node_with_drawn label o : a_word label -> some_drawn o -> node_drawn (node_with label o).
  Proof. intros [H1 H2] H. constructor; cbn [node_with dn_s1 dn_s2 dn_s3 dn_s4 dn_s6 dn_handle dn_label dn_props]; auto; [|constructor]. repeat (constructor; [constructor|]). constructor. Qed.
  Lemma pair_drawn label q : a_word label -> props_drawn q -> one_line (props_text q) -> drawn_list (pair_of label q).
  Proof.
    intros WL PD O. assert (NO : some_drawn None) by (intros x E; discriminate). constructor.
    - discriminate.
    - repeat constructor.
    - constructor; [|constructor]. cbn [pair_of snd nodes_in]. constructor; [|constructor; [|constructor]].
      + apply node_with_drawn; [exact WL|]. intros x E. inv E. exact PD.
      + apply node_with_drawn; [|exact NO]. split; [discriminate|]. repeat constructor.
    - constructor; [|constructor]. cbn [pair_of snd rels_in]. constructor; [|constructor]. constructor; cbn [plain_rel dr_s1 dr_s2 dr_s3 dr_s4 dr_handle dr_name dr_props]; auto.
      + repeat (constructor; [constructor|]). constructor.
      + constructor.
      + repeat constructor.
    - constructor; [|constructor]. vm_compute. constructor.
    - cbn [pair_of texts map fst snd pattern_text show_patterns]. intros I. revert I. unfold show_pattern, show_node, show_rel. cbn.
      change (123%N :: ((show_items (wp_items q) ++ [125%N]) ++ wp_blank q) ++ [41%N]) with (props_text q ++ [41%N]).
      assert (L : one_line ((label ++ props_text q ++ [41%N]) ++ [45%N; 91%N; 58%N; 82%N; 93%N; 45%N; 62%N; 40%N; 58%N; 66%N; 41%N])).
      { apply line_app; [|repeat constructor; discriminate]. apply line_app; [apply line_word, WL|]. apply line_app; [exact O|repeat constructor; discriminate]. }
      intros [X|[X|[X|X]]]; try discriminate. unfold one_line in L. rewrite Forall_forall in L. apply (L _ X). reflexivity.
    - intros l' b p E. destruct l' as [|x l']; [|destruct l'; discriminate]. inv E. reflexivity.
  Qed.

  Theorem can_store g G w label d : stored g G w -> a_word label -> d <> [] -> NoDup (map fst d) ->
    Forall (fun kv => a_word (fst kv) /\ can_be_written (snd kv)) d ->
    exists q ms w' G' rels, parse_make q = Ok (Some ms) /\ run (make ms g) w = (Ok true, w') /\ stored g G' w' /\
      In (str_of_Z (g_next G), VDict [(py "node_metadata", meta (g_next G)); (py "node_label", VStr label); (py "properties", VDict d);
                                      (py "relations", VList rels)]) (g_db G').
  Proof.
    intros ST WL Nd ND F. destruct (items_for d F) as (l & A & B & C & O & U).
    set (q := {| wp_items := l; wp_blank := [] |}).
    assert (OP : one_line (show_props l)) by (apply items_line, O).
    assert (PD : props_drawn q).
    { constructor; cbn [q wp_items wp_blank]; auto.
      - intros ->. destruct d; [congruence|discriminate].
      - rewrite C. exact ND.
      - constructor.
      - intros X. unfold one_line in OP. rewrite Forall_forall in OP. destruct (OP _ X) as [Y _]. apply Y. reflexivity. }
    assert (OQ : one_line (props_text q)) by (unfold props_text; cbn [q wp_items wp_blank]; apply line_app; [exact OP|constructor]).
    pose proof (pair_drawn label q WL PD OQ) as DL.
    destruct (written_make D g G w (py "MAKE") (pair_of label q)) as (ms & w' & G' & E1 & E2 & E3 & E4 & _); auto.
    { eexists. split; [left; reflexivity|discriminate]. }
    destruct E4 as [(items & E4 & E5) _ _ _]. cbn [pair_of map snd all_stored] in E5. destruct E5 as (a & b & -> & E5 & _).
    cbn [pattern_stored] in E5. destruct E5 as (o & ea & eb & -> & _ & (pv & P & K & V) & _).
    cbn [node_with dn_props props_obj q wp_items] in P. destruct P as (d' & -> & F2).
    assert (d' = d) as -> by (apply U; clear - F2; induction F2; constructor; tauto).
    exists (statement_text (py "MAKE") (pair_of label q)), ms, w', G', [o]. split; [exact E1|]. split; [exact E2|]. split; [exact E3|].
    rewrite E4. apply in_app_iff. right. left. destruct ea as [k v]. cbn [fst snd] in *. subst. reflexivity.
  Qed.
End SchemaMore.
