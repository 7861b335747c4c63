(** * JsonMore: no proper prefix of a saved document is a document *)
From Verif Require Import PyBase BaseFacts Json JsonFacts.
From Coq Require Import ZifyBool ZifyN ZifyNat.

Lemma read_hex4_ext s u r x : read_hex4 s = Some (u, r) -> read_hex4 (s ++ x) = Some (u, r ++ x).
Proof.
  destruct s as [|a [|b [|c [|d s]]]]; cbn [read_hex4 app]; try discriminate.
  destruct (hex_val a), (hex_val b), (hex_val c), (hex_val d); try discriminate. intros H. inv H. reflexivity.
Qed.
Lemma read_hex4_none s x : read_hex4 s = None -> read_hex4 (s ++ x) = None \/ List.length s < 4.
Proof.
  destruct s as [|a [|b [|c [|d s]]]]; cbn [read_hex4 app]; try (right; simpl; lia).
  destruct (hex_val a), (hex_val b), (hex_val c), (hex_val d); try discriminate; auto.
Qed.

Lemma scan_str_ext f : forall s t r x f', scan_str f s = Some (t, r) -> f <= f' -> scan_str f' (s ++ x) = Some (t, r ++ x).
Proof.
  induction f as [|f IH]; [discriminate|]. intros s t r x [|f'] H Hf; [lia|].
  assert (Hf' : f <= f') by lia. destruct s as [|c s1]; [discriminate|].
  cbn [scan_str app] in *.
  assert (P : forall c s2 t r, match scan_str f s2 with Some (t, rest) => Some (c :: t, rest) | None => None end = Some (t, r) ->
              match scan_str f' (s2 ++ x) with Some (t, rest) => Some (c :: t, rest) | None => None end = Some (t, r ++ x)).
  { intros c0 s2 t0 r0 E. destruct (scan_str f s2) as [[t2 r2]|] eqn:E2; [|discriminate]. inv E.
    rewrite (IH _ _ _ x f' E2 Hf'). reflexivity. }
  destruct (c =? 34)%N; [inv H; reflexivity|].
  destruct (c =? 92)%N; [|destruct (c <? 32)%N; [discriminate|apply P; auto]].
  destruct s1 as [|e s2]; [discriminate|]. cbn [app].
  destruct (e =? 117)%N.
  - destruct (read_hex4 s2) as [[u s3]|] eqn:E; [|discriminate]. rewrite (read_hex4_ext _ _ _ x E).
    destruct (is_high u); [|apply P; auto].
    destruct s3 as [|b1 [|b2 s4]].
    + exfalso. destruct f; cbn in H; discriminate.
    + destruct f as [|f]; [discriminate|]. cbn [scan_str] in H.
      destruct (N.eqb_spec b1 34).
      * inv H. cbn [app]. destruct x as [|x0 x]; cbn [andb N.eqb].
        { destruct f'; [lia|]. reflexivity. }
        { destruct f'; [lia|]. reflexivity. }
      * exfalso. destruct (b1 =? 92)%N; [discriminate|]. destruct (b1 <? 32)%N; [discriminate|].
        destruct f; discriminate.
    + cbn [app]. destruct ((b1 =? 92)%N && (b2 =? 117)%N) eqn:B.
      * destruct (read_hex4 s4) as [[u2 s5]|] eqn:E4.
        { rewrite (read_hex4_ext _ _ _ x E4). destruct (is_low u2); [apply P; auto|].
          apply (P _ (b1 :: b2 :: s4)); auto. }
        { exfalso. apply andb_true_iff in B as [B1 B2]. apply N.eqb_eq in B1, B2. subst.
          destruct f as [|f]; [discriminate|]. cbn [scan_str] in H. cbn [N.eqb] in H.
          change (92 =? 34)%N with false in H. change (92 =? 92)%N with true in H. change (117 =? 117)%N with true in H.
          cbv beta iota in H. rewrite E4 in H. discriminate. }
      * apply (P _ (b1 :: b2 :: s4)); auto.
  - repeat (destruct (e =? _)%N; [apply P; auto|]). discriminate.
Qed.

Lemma span_ext p s a b x : span p s = (a, b) -> b <> [] -> span p (s ++ x) = (a, b ++ x).
Proof.
  revert a b; induction s as [|c s IH]; intros a b H Hb; cbn [span app] in *; [inv H; congruence|].
  destruct (p c); [|inv H; reflexivity]. destruct (span p s) as [a' b'] eqn:E. inv H.
  rewrite (IH _ _ eq_refl Hb). reflexivity.
Qed.

Definition delim (r : pystr) : Prop := match r with [] => False | c :: _ => is_ws c = true \/ In c [44; 93; 125]%N end.
Lemma delim_char c r : delim (c :: r) -> c <> 46%N /\ c <> 101%N /\ c <> 69%N /\ is_digit0 c = false.
Proof.
  cbn. unfold is_ws. cbn [existsb]. intros [H|[<-|[<-|[<-|[]]]]]; [|repeat split; auto; discriminate..].
  unfold is_digit0, between. lia.
Qed.

Section JsonMore.
  Context {rt : PyRt}.

  Lemma scan_exp_ext s ex r x : scan_exp s = (ex, r) -> delim r -> scan_exp (s ++ x) = (ex, r ++ x).
  Proof.
    destruct s as [|c s]; cbn [scan_exp app]; [intros H D; inv H; destruct D|].
    destruct ((c =? 101)%N || (c =? 69)%N) eqn:E; [|intros H D; inv H; reflexivity].
    destruct s as [|y s].
    - cbn [span]. intros H D. inv H. apply delim_char in D. lia.
    - cbn [app]. destruct ((y =? 45)%N || (y =? 43)%N) eqn:Y.
      + destruct (span is_digit0 s) as [ds s3] eqn:S. destruct ds as [|d ds].
        * intros H D. inv H. apply delim_char in D. lia.
        * intros H D. inv H. rewrite (span_ext _ _ _ _ x S); [reflexivity|]. intros ->. destruct D.
      + destruct (span is_digit0 (y :: s)) as [ds s3] eqn:S. destruct ds as [|d ds].
        * intros H D. inv H. apply delim_char in D. lia.
        * intros H D. inv H. change (y :: s ++ x) with ((y :: s) ++ x). rewrite (span_ext _ _ _ _ x S); [reflexivity|]. intros ->. destruct D.
  Qed.
  Lemma scan_frac_ext s fr s2 ex r x : scan_frac s = (fr, s2) -> scan_exp s2 = (ex, r) -> delim r -> scan_frac (s ++ x) = (fr, s2 ++ x).
  Proof.
    destruct s as [|c s]; cbn [scan_frac app].
    - intros H H2 D. inv H. cbn in H2. inv H2. destruct D.
    - destruct (N.eqb_spec c 46).
      + subst. destruct (span is_digit0 s) as [ds s3] eqn:S. destruct ds as [|d ds].
        * intros H H2 D. inv H. cbn in H2. inv H2. apply delim_char in D. lia.
        * intros H H2 D. inv H. rewrite (span_ext _ _ _ _ x S); [reflexivity|]. intros ->. cbn in H2. inv H2. destruct D.
      + intros H _ _. inv H. reflexivity.
  Qed.
  Lemma scan_int_ext s i s1 x : scan_int s = Some (i, s1) -> s1 <> [] -> scan_int (s ++ x) = Some (i, s1 ++ x).
  Proof.
    destruct s as [|c s]; cbn [scan_int app]; [discriminate|]. destruct (c =? 48)%N; [intros H _; inv H; reflexivity|].
    destruct (between 49 57 c); [|discriminate]. destruct (span is_digit0 s) as [ds s2] eqn:S.
    intros H Hne. inv H. rewrite (span_ext _ _ _ _ x S Hne). reflexivity.
  Qed.
  Lemma scan_number_ext neg s v r x : scan_number neg s = Some (v, r) -> delim r -> scan_number neg (s ++ x) = Some (v, r ++ x).
  Proof.
    unfold scan_number. destruct (scan_int s) as [[i s1]|] eqn:E1; [|discriminate].
    destruct (scan_frac s1) as [fr s2] eqn:E2. destruct (scan_exp s2) as [ex s3] eqn:E3. intros H D.
    assert (r = s3) as ->.
    { destruct (fr ++ ex); [inv H; reflexivity|]. destruct (f_repr _); inv H; reflexivity. }
    rewrite (scan_int_ext _ _ _ x E1), (scan_frac_ext _ _ _ _ _ x E2 E3 D), (scan_exp_ext _ _ _ x E3 D).
    - destruct (fr ++ ex); [inv H; reflexivity|]. destruct (f_repr _); inv H; reflexivity.
    - intros ->. cbn in E2. inv E2. cbn in E3. inv E3. destruct D.
  Qed.

  Lemma starts_with_ext p s x : starts_with p s = true -> starts_with p (s ++ x) = true.
  Proof.
    revert s; induction p as [|c p IH]; intros [|d s]; cbn [starts_with app]; auto; try discriminate.
    intros H. apply andb_true_iff in H as [-> H]. apply IH; auto.
  Qed.
  Lemma starts_with_len p s : starts_with p s = true -> List.length p <= List.length s.
  Proof.
    revert s; induction p as [|c p IH]; intros [|d s]; cbn [starts_with List.length]; try lia; try discriminate.
    intros H. apply andb_true_iff in H as [_ H]. apply IH in H. lia.
  Qed.
  Lemma eat_ext p s r x : eat p s = Some r -> eat p (s ++ x) = Some (r ++ x).
  Proof.
    unfold eat. destruct (starts_with p s) eqn:E; [|discriminate]. intros H. inv H.
    rewrite starts_with_ext by auto. apply starts_with_len in E. f_equal. rewrite skipn_app.
    replace (List.length p - List.length s) with 0 by lia. reflexivity.
  Qed.
  Lemma starts_with_false p s x : starts_with p (s ++ x) = true -> starts_with p s = true \/ List.length s < List.length p.
  Proof.
    revert s; induction p as [|c p IH]; intros [|d s]; cbn [starts_with app List.length]; auto; try (right; lia).
    intros H. apply andb_true_iff in H as [-> H]. apply IH in H as [H|H]; [auto|right; lia].
  Qed.

  Lemma skip_ws_ext s c r x : skip_ws s = c :: r -> skip_ws (s ++ x) = c :: r ++ x.
  Proof.
    unfold skip_ws. induction s as [|d s IH]; cbn [lstrip app]; [discriminate|].
    destruct (is_ws d); auto. intros H. inv H. reflexivity.
  Qed.
  Lemma skip_ws_delim s c r : skip_ws s = c :: r -> In c [44; 93; 125]%N -> delim s.
  Proof.
    unfold skip_ws. destruct s as [|d s]; cbn [lstrip]; [discriminate|].
    destruct (is_ws d) eqn:E; [left; auto|]. intros H. inv H. right. auto.
  Qed.

  Definition is_num (v : pyval) : Prop := match v with VInt _ | VFloat _ => True | _ => False end.
  Lemma parse_ext f :
    (forall s v r x f', parse_value f s = Some (v, r) -> (is_num v -> delim r) -> f <= f' -> parse_value f' (s ++ x) = Some (v, r ++ x)) /\
    (forall s acc v r x f', parse_elems f s acc = Some (v, r) -> f <= f' -> parse_elems f' (s ++ x) acc = Some (v, r ++ x)) /\
    (forall s acc v r x f', parse_members f s acc = Some (v, r) -> f <= f' -> parse_members f' (s ++ x) acc = Some (v, r ++ x)).
  Proof.
    induction f as [|f (IHv & IHe & IHm)]; [repeat split; intros; discriminate|].
    split; [|split].
    - intros s v r x [|f'] H D Hf; [lia|]. assert (Hf' : f <= f') by lia.
      destruct s as [|c s1]; [discriminate|]. cbn [parse_value app] in *.
      destruct (c =? 34)%N.
      { destruct (scan_str (S (List.length s1)) s1) as [[t s2]|] eqn:E; [|discriminate]. inv H.
        rewrite (scan_str_ext _ _ _ _ x (S (List.length (s1 ++ x))) E); [reflexivity|]. rewrite app_length. lia. }
      destruct (c =? 123)%N.
      { destruct (skip_ws s1) as [|c2 s2] eqn:E; [discriminate|]. rewrite (skip_ws_ext _ _ _ x E).
        destruct (c2 =? 125)%N; [inv H; reflexivity|]. apply (IHm (c2 :: s2)); auto. }
      destruct (c =? 91)%N.
      { destruct (skip_ws s1) as [|c2 s2] eqn:E; [discriminate|]. rewrite (skip_ws_ext _ _ _ x E).
        destruct (c2 =? 93)%N; [inv H; reflexivity|]. apply (IHe (c2 :: s2)); auto. }
      do 5 (match goal with |- context [if (c =? ?k)%N then match eat ?p (c :: s1 ++ x) with _ => _ end else _] =>
        destruct (c =? k)%N;
        [destruct (eat p (c :: s1)) as [s2|] eqn:E; [|discriminate]; inv H;
         change (c :: s1 ++ x) with ((c :: s1) ++ x); rewrite (eat_ext _ _ _ x E); reflexivity|] end).
      destruct (N.eqb_spec c 45).
      { destruct (eat (py "Infinity") s1) as [s2|] eqn:E.
        - inv H. rewrite (eat_ext _ _ _ x E). reflexivity.
        - assert (Dr : delim r).
          { apply D. unfold scan_number in H. destruct (scan_int s1) as [[i q]|]; [|discriminate].
            destruct (scan_frac q) as [fr q2], (scan_exp q2) as [ex q3]. destruct (fr ++ ex); [inv H; exact I|].
            destruct (f_repr _); inv H. exact I. }
          replace (eat (py "Infinity") (s1 ++ x)) with (@None pystr); [apply scan_number_ext; auto|].
          symmetry. unfold scan_number in H. destruct s1 as [|d s1]; [discriminate|]. cbn [scan_int] in H.
          unfold eat. cbn [py list_ascii_of_string List.map starts_with app].
          destruct (N.eqb_spec (N_of_ascii "I") d); [|reflexivity].
          subst d. discriminate. }
      apply (scan_number_ext false (c :: s1)); auto. apply D.
      unfold scan_number in H. destruct (scan_int (c :: s1)) as [[i q]|]; [|discriminate].
      destruct (scan_frac q) as [fr q2], (scan_exp q2) as [ex q3]. destruct (fr ++ ex); [inv H; exact I|].
      destruct (f_repr _); inv H. exact I.
    - intros s acc v r x [|f'] H Hf; [lia|]. assert (Hf' : f <= f') by lia. cbn [parse_elems] in *.
      destruct (parse_value f s) as [[v1 s1]|] eqn:E; [|discriminate].
      destruct (skip_ws s1) as [|c s2] eqn:E2; [discriminate|].
      destruct (N.eqb_spec c 93).
      + inv H. rewrite (IHv _ _ _ x f' E); auto.
        * rewrite (skip_ws_ext _ _ _ x E2). reflexivity.
        * intros _. eapply skip_ws_delim; eauto. cbn. auto.
      + destruct (N.eqb_spec c 44); [|discriminate]. subst.
        rewrite (IHv _ _ _ x f' E); auto.
        * rewrite (skip_ws_ext _ _ _ x E2). cbn [N.eqb]. change (44 =? 93)%N with false. change (44 =? 44)%N with true. cbv iota.
          destruct f as [|f]; [discriminate|]. destruct (skip_ws s2) as [|c3 s3] eqn:E3; [destruct f; discriminate|].
          rewrite (skip_ws_ext _ _ _ x E3). apply (IHe (c3 :: s3)); auto.
        * intros _. eapply skip_ws_delim; eauto. cbn. auto.
    - intros s acc v r x [|f'] H Hf; [lia|]. assert (Hf' : f <= f') by lia.
      destruct s as [|c s1]; [discriminate|]. cbn [parse_members app] in *.
      destruct (c =? 34)%N; [|discriminate].
      destruct (scan_str (S (List.length s1)) s1) as [[k s2]|] eqn:E; [|discriminate].
      rewrite (scan_str_ext _ _ _ _ x (S (List.length (s1 ++ x))) E) by (rewrite app_length; lia).
      destruct (skip_ws s2) as [|c2 s3] eqn:E2; [discriminate|]. rewrite (skip_ws_ext _ _ _ x E2).
      destruct (c2 =? 58)%N; [|discriminate].
      destruct (parse_value f (skip_ws s3)) as [[v1 s4]|] eqn:E4; [|discriminate].
      destruct (skip_ws s4) as [|c3 s5] eqn:E5; [discriminate|].
      assert (E3 : exists c4 s6, skip_ws s3 = c4 :: s6).
      { destruct (skip_ws s3); [destruct f; discriminate|eauto]. }
      destruct E3 as (c4 & s6 & E3). rewrite E3 in E4. rewrite (skip_ws_ext _ _ _ x E3).
      change (c4 :: s6 ++ x) with ((c4 :: s6) ++ x).
      destruct (N.eqb_spec c3 125).
      + inv H. rewrite (IHv _ _ _ x f' E4); auto.
        * rewrite (skip_ws_ext _ _ _ x E5). reflexivity.
        * intros _. eapply skip_ws_delim; eauto. cbn. auto.
      + destruct (N.eqb_spec c3 44); [|discriminate]. subst.
        rewrite (IHv _ _ _ x f' E4); auto.
        * rewrite (skip_ws_ext _ _ _ x E5). change (44 =? 125)%N with false. change (44 =? 44)%N with true. cbv iota.
          destruct f as [|f]; [discriminate|]. destruct (skip_ws s5) as [|c5 s7] eqn:E7; [destruct f; discriminate|].
          rewrite (skip_ws_ext _ _ _ x E7). apply (IHm (c5 :: s7)); auto.
        * intros _. eapply skip_ws_delim; eauto. cbn. auto.
  Qed.

  Definition container (v : pyval) : Prop := match v with VList _ | VDict _ => True | _ => False end.
  Lemma parse_head_container f c s v r : c = 91%N \/ c = 123%N -> parse_value f (c :: s) = Some (v, r) -> container v.
  Proof.
    assert (He : forall f s acc v r, parse_elems f s acc = Some (v, r) -> container v).
    { clear. induction f as [|f IH]; [discriminate|]. intros s acc v r. cbn [parse_elems].
      destruct (parse_value f s) as [[v1 s1]|]; [|discriminate]. destruct (skip_ws s1) as [|c s2]; [discriminate|].
      destruct (c =? 93)%N; [intros H; inv H; exact I|]. destruct (c =? 44)%N; [apply IH|discriminate]. }
    assert (Hm : forall f s acc v r, parse_members f s acc = Some (v, r) -> container v).
    { clear. induction f as [|f IH]; [discriminate|]. intros s acc v r. cbn [parse_members].
      destruct s as [|c s]; [discriminate|]. destruct (c =? 34)%N; [|discriminate].
      destruct (scan_str _ _) as [[k s2]|]; [|discriminate]. destruct (skip_ws s2) as [|c2 s3]; [discriminate|].
      destruct (c2 =? 58)%N; [|discriminate]. destruct (parse_value f _) as [[v1 s4]|]; [|discriminate].
      destruct (skip_ws s4) as [|c3 s5]; [discriminate|].
      destruct (c3 =? 125)%N; [intros H; inv H; exact I|]. destruct (c3 =? 44)%N; [apply IH|discriminate]. }
    destruct f as [|f]; [discriminate|]. cbn [parse_value]. intros [-> | ->].
    - change (91 =? 34)%N with false. change (91 =? 123)%N with false. change (91 =? 91)%N with true. cbv iota.
      destruct (skip_ws s) as [|c2 s2]; [discriminate|]. destruct (c2 =? 93)%N; [intros H; inv H; exact I|apply He].
    - change (123 =? 34)%N with false. change (123 =? 123)%N with true. cbv iota.
      destruct (skip_ws s) as [|c2 s2]; [discriminate|]. destruct (c2 =? 125)%N; [intros H; inv H; exact I|apply Hm].
  Qed.
  Lemma dump_head_container st lvl v : container v -> exists c t, fst (dump st lvl v) = c :: t /\ (c = 91%N \/ c = 123%N).
  Proof.
    destruct v as [| | | | |[|x l]|[|[k x] d]|]; cbn [container]; try tauto; intros _.
    - eexists. eexists. split; [reflexivity|auto].
    - rewrite dump_list, fst_seq_text. eexists. eexists. split; [reflexivity|auto].
    - eexists. eexists. split; [reflexivity|auto].
    - rewrite dump_dict, fst_seq_text. eexists. eexists. split; [reflexivity|auto].
  Qed.

  (** a saved list or object cut anywhere before its end cannot be read *)
  Theorem loads_cut st v t1 t2 : val_ok v -> ser v = true -> container v ->
    dump_text st v = t1 ++ t2 -> t2 <> [] -> loads t1 = None.
  Proof.
    intros V S C E Hne. destruct t1 as [|c t1]; [reflexivity|].
    unfold dump_text, dump_top in E.
    destruct (dump_head_container st 0 v C) as (c' & t' & E' & Hc). rewrite E' in E. inv E.
    rewrite loads_head.
    2:{ destruct Hc as [-> | ->]; split; (reflexivity || discriminate). }
    destruct (parse_value _ (c :: t1)) as [[v1 rest]|] eqn:P; [|reflexivity].
    destruct (skip_ws rest) eqn:W; [|reflexivity]. exfalso.
    pose proof (parse_head_container _ _ _ _ _ Hc P) as C1.
    set (f := 2 * List.length (c :: t1 ++ t2) + 2).
    assert (Q : parse_value f (c :: t1 ++ t2) = Some (v1, rest ++ t2)).
    { refine (proj1 (parse_ext _) _ _ _ t2 f P _ _).
      - clear - C1. destruct v1; cbn in C1 |- *; tauto.
      - unfold f. cbn [List.length]. rewrite app_length. lia. }
    assert (R : parse_value f (c :: t1 ++ t2) = Some (v, [])).
    { destruct (proj1 (reads_all _ V) S st 0) as [_ R]. specialize (R [] f). rewrite app_nil_r, E' in R. apply R.
      - clear - C. destruct v; exact I || exact C.
      - unfold f. cbn [List.length]. lia. }
    rewrite R in Q. clear - Q Hne. inversion Q as [[Qa Qb]]. destruct rest; cbn [app] in Qb; congruence.
  Qed.
End JsonMore.

(** ** the statements of Prop_Json *)
Section JsonStatements.
  Context {rt : PyRt}.
  Theorem save_load st v : val_ok v -> ser v = true -> snd (dump_top st v) = true /\ load_json (dump_text st v) = Ok v.
  Proof. intros V S. rewrite dump_ser by auto. split; auto. unfold load_json. rewrite loads_dump; auto. Qed.
  Theorem save_cut st v t1 t2 : val_ok v -> ser v = true -> (match v with VList _ | VDict _ => True | _ => False end) ->
    dump_text st v = t1 ++ t2 -> t2 <> [] -> load_json t1 = Err JSONDecodeError.
  Proof. intros V S C E H. unfold load_json. rewrite (loads_cut st v t1 t2); auto. Qed.
  Theorem save_more st d more : val_ok (VDict d) -> ser (VDict d) = true -> (exists c, In c more /\ is_ws c = false) ->
    load_json (dump_text st (VDict d) ++ more) = Err JSONDecodeError.
  Proof.
    intros V S (c & Hc & Hw). unfold load_json. rewrite loads_dump_more; auto. clear - Hc Hw.
    unfold skip_ws. induction more as [|x more IH]; [destruct Hc|]. cbn [lstrip]. destruct (is_ws x) eqn:E; [|discriminate].
    destruct Hc as [->|Hc]; [congruence|auto].
  Qed.
  Theorem save_injective st st' v v' : val_ok v -> ser v = true -> val_ok v' -> ser v' = true ->
    dump_text st v = dump_text st' v' -> v = v'.
  Proof.
    intros V S V' S' E. pose proof (loads_dump st v V S) as L. rewrite E, (loads_dump st' v' V' S') in L. congruence.
  Qed.
End JsonStatements.
