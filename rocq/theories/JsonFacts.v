(** * JsonFacts: what the JSON printer writes is what the parser reads *)
From Verif Require Import PyBase BaseFacts Json.
From Verif Require Export SpecJson.
From Coq Require Import ZifyBool ZifyN ZifyNat.

(** ** Decimal numbers *)
Section Decimal.
  Ltac Zify.zify_post_hook ::= Z.to_euclidean_division_equations.

  Lemma is_digit0_digit d : (d < 10)%N -> is_digit0 (digit_ch d) = true.
  Proof. unfold is_digit0, between, digit_ch. lia. Qed.

  Lemma N_of_digits_app a b : N_of_digits (a ++ b) = fold_left (fun n c => (n * 10 + (c - 48))%N) b (N_of_digits a).
  Proof. unfold N_of_digits. apply fold_left_app. Qed.

  Lemma dec_pos_acc f n acc : dec_pos f n acc = dec_pos f n [] ++ acc.
  Proof.
    revert n acc; induction f as [|f IH]; intros n acc; simpl; auto.
    destruct (N.eqb (n / 10) 0); auto. rewrite IH, (IH _ [_]), <- app_assoc. reflexivity.
  Qed.

  Lemma size_div10 n f : (n / 10 <> 0)%N -> N.size_nat n <= S f -> N.size_nat (n / 10) <= f.
  Proof.
    intros Hn H.
    assert (Hs : forall m, m <> 0%N -> N.size_nat m = S (N.to_nat (N.log2 m))).
    { intros [|p] Hm; [congruence|]. simpl. clear.
      assert (G : forall p, Pos.size_nat p = S (N.to_nat (N.log2 (N.pos p)))); [|apply G].
      clear. induction p as [p IH|p IH|]; simpl Pos.size_nat; [| |reflexivity]; rewrite IH.
      - change (N.pos p~1) with (2 * N.pos p + 1)%N. rewrite N.log2_succ_double by lia. lia.
      - change (N.pos p~0) with (2 * N.pos p)%N. rewrite N.log2_double by lia. lia. }
    assert (n <> 0)%N by (intros ->; apply Hn; reflexivity).
    rewrite Hs in * by auto.
    assert (N.log2 (n / 10) < N.log2 n)%N; [|lia].
    apply N.log2_lt_pow2; [lia|].
    pose proof (N.log2_spec n ltac:(lia)) as [_ Hlt]. rewrite N.pow_succ_r' in Hlt. lia.
  Qed.

  Lemma dec_pos_spec f n : N.size_nat n <= f ->
    dec_pos (S f) n [] <> [] /\
    Forall (fun c => is_digit0 c = true) (dec_pos (S f) n []) /\
    N_of_digits (dec_pos (S f) n []) = n /\
    ((n = 0%N /\ dec_pos (S f) n [] = [48%N]) \/
     (n <> 0%N /\ exists c r, dec_pos (S f) n [] = c :: r /\ between 49 57 c = true)).
  Proof.
    revert n; induction f as [|f IH]; intros n H.
    - assert (n = 0%N) by (destruct n as [|p]; auto; destruct p; simpl in H; lia). subst.
      simpl. split; [discriminate|]. split; [repeat constructor|]. split; [reflexivity|]. left. auto.
    - cbn [dec_pos]. destruct (N.eqb_spec (n / 10) 0) as [E|E].
      + assert (Hm : (n mod 10 = n)%N) by lia.
        split; [discriminate|]. split; [constructor; [apply is_digit0_digit; lia|constructor]|].
        split; [unfold N_of_digits, digit_ch; cbn [fold_left]; lia|].
        destruct (N.eqb_spec n 0) as [->|Hn]; [left; auto|right]. split; auto.
        exists (digit_ch (n mod 10)), []. split; auto. unfold between, digit_ch. lia.
      + destruct (IH (n / 10)%N (size_div10 _ _ E H)) as (Hne & HF & HN & Hc).
        cbn [dec_pos] in Hne, HF, HN, Hc |- *.
        destruct (N.eqb (n / 10 / 10) 0) eqn:E2.
        * split; [discriminate|]. split.
          { inv HF. repeat constructor; auto. apply is_digit0_digit; lia. }
          split. { unfold N_of_digits in *. cbn [fold_left] in *. rewrite HN. unfold digit_ch. lia. }
          right. split; [lia|]. destruct Hc as [[? _]|(_ & c & r & Hr & Hb)]; [lia|]. inversion Hr; subst. eauto.
        * rewrite dec_pos_acc in Hne, HF, HN, Hc. rewrite dec_pos_acc.
          set (D := dec_pos f (n / 10 / 10) []) in *.
          change [digit_ch ((n / 10) mod 10); digit_ch (n mod 10)] with ([digit_ch ((n / 10) mod 10)] ++ [digit_ch (n mod 10)]).
          rewrite app_assoc. set (E3 := D ++ [digit_ch ((n / 10) mod 10)]) in *.
          split; [destruct E3; [congruence|discriminate]|].
          split. { apply Forall_app. split; auto. constructor; auto. apply is_digit0_digit; lia. }
          split. { rewrite N_of_digits_app, HN. cbn [fold_left]. unfold digit_ch. lia. }
          right. split; [lia|]. destruct Hc as [[? _]|(_ & c & r & Hr & Hb)]; [lia|]. rewrite Hr. simpl. eauto.
  Qed.

  Lemma str_of_N_spec n :
    str_of_N n <> [] /\ Forall (fun c => is_digit0 c = true) (str_of_N n) /\ N_of_digits (str_of_N n) = n /\
    ((n = 0%N /\ str_of_N n = [48%N]) \/ (n <> 0%N /\ exists c r, str_of_N n = c :: r /\ between 49 57 c = true)).
  Proof. apply dec_pos_spec. auto. Qed.
End Decimal.

(** ** Strings *)
Section Strings.
  Ltac Zify.zify_post_hook ::= Z.to_euclidean_division_equations.

  Lemma hex_val_digit d : (d < 16)%N -> hex_val (hex_digit d) = Some d.
  Proof.
    intros H. unfold hex_val, hex_digit. destruct (N.ltb_spec d 10).
    - replace (between 48 57 (48 + d)) with true by (unfold between; lia). f_equal. lia.
    - replace (between 48 57 (87 + d)) with false by (unfold between; lia).
      replace (between 97 102 (87 + d)) with true by (unfold between; lia). f_equal. lia.
  Qed.
  Lemma read_hex4_hex4 c s : (c < 65536)%N -> read_hex4 (hex4 c ++ s) = Some (c, s).
  Proof.
    intros H. unfold hex4, read_hex4. cbn [app].
    rewrite !hex_val_digit by (apply N.mod_lt; discriminate). f_equal. f_equal.
    replace (c / 4096)%N with (c / 16 / 16 / 16)%N by (rewrite !N.div_div by discriminate; reflexivity).
    replace (c / 256)%N with (c / 16 / 16)%N by (rewrite !N.div_div by discriminate; reflexivity).
    lia.
  Qed.

  Lemma scan_str_esc f c s :
    ch_ok c -> scan_str (S f) (esc_ch c ++ s) =
               match scan_str f s with Some (t, rest) => Some (c :: t, rest) | None => None end.
  Proof.
    intros [Hc Hh]. unfold esc_ch.
    destruct (N.eqb_spec c 34) as [->|H1]; [reflexivity|].
    destruct (N.eqb_spec c 92) as [->|H2]; [reflexivity|].
    destruct (N.eqb_spec c 10) as [->|H3]; [reflexivity|].
    destruct (N.eqb_spec c 13) as [->|H4]; [reflexivity|].
    destruct (N.eqb_spec c 9) as [->|H5]; [reflexivity|].
    destruct (N.eqb_spec c 12) as [->|H6]; [reflexivity|].
    destruct (N.eqb_spec c 8) as [->|H7]; [reflexivity|].
    destruct (between 32 126 c) eqn:HB.
    - cbn [app scan_str]. rewrite (proj2 (N.eqb_neq c 34) H1), (proj2 (N.eqb_neq c 92) H2).
      replace (N.ltb c 32) with false by (unfold between in HB; lia). reflexivity.
    - destruct (N.ltb_spec c 65536) as [Hlt|Hge].
      + unfold u_escape. cbn [app scan_str]. cbn [N.eqb Pos.eqb].
        rewrite read_hex4_hex4 by lia. rewrite Hh. reflexivity.
      + unfold u_escape at 1. cbn [app scan_str]. cbn [N.eqb Pos.eqb].
        rewrite <- app_assoc. rewrite read_hex4_hex4 by lia.
        replace (is_high (55296 + (c - 65536) / 1024 mod 1024)) with true by (unfold is_high, between; lia).
        unfold u_escape. cbn [app]. cbn [N.eqb Pos.eqb andb].
        rewrite read_hex4_hex4 by lia.
        replace (is_low (56320 + (c - 65536) mod 1024)) with true by (unfold is_low, between; lia).
        replace (65536 + (55296 + (c - 65536) / 1024 mod 1024 - 55296) * 1024 + (56320 + (c - 65536) mod 1024 - 56320))%N
          with c by lia. reflexivity.
  Qed.
End Strings.

Lemma esc_ch_length c : 1 <= List.length (esc_ch c).
Proof.
  unfold esc_ch. repeat match goal with |- context [if ?b then _ else _] => destruct b end; simpl; lia.
Qed.
Lemma flat_esc_length s : List.length s <= List.length (flat_map esc_ch s).
Proof.
  induction s as [|c s IH]; simpl; auto. rewrite app_length. pose proof (esc_ch_length c). lia.
Qed.

Lemma scan_str_json s rest f : str_ok s -> List.length s < f ->
  scan_str f (flat_map esc_ch s ++ 34%N :: rest) = Some (s, rest).
Proof.
  intros H. revert f. induction H as [|c s Hc H IH]; intros f Hf; simpl in Hf.
  - destruct f as [|f]; [lia|]. reflexivity.
  - destruct f as [|f]; [lia|]. cbn [flat_map]. rewrite <- app_assoc, scan_str_esc by auto.
    rewrite IH by lia. reflexivity.
Qed.
Lemma scan_str_json' s rest : str_ok s ->
  let t := flat_map esc_ch s ++ 34%N :: rest in scan_str (S (List.length t)) t = Some (s, rest).
Proof.
  intros H t. apply scan_str_json; auto. unfold t. rewrite app_length. pose proof (flat_esc_length s). simpl. lia.
Qed.
(** ** Numbers *)
Definition num_stop (rest : pystr) : Prop :=
  match rest with [] => True | c :: _ => In c [44; 10; 93; 125]%N end.

Lemma span_all p a b : Forall (fun c => p c = true) a -> match b with [] => True | c :: _ => p c = false end ->
  span p (a ++ b) = (a, b).
Proof.
  induction 1 as [|c a Hc H IH]; intros Hb; simpl.
  - destruct b as [|c b]; auto. simpl. rewrite Hb. reflexivity.
  - rewrite Hc, IH; auto.
Qed.

Definition not_digit_head (b : pystr) : Prop := match b with [] => True | c :: _ => is_digit0 c = false end.
Lemma num_stop_digit rest : num_stop rest -> not_digit_head rest.
Proof.
  destruct rest as [|c r]; simpl; auto. intros [<-|[<-|[<-|[<-|[]]]]]; reflexivity.
Qed.

Lemma scan_int_json i b : json_int i -> not_digit_head b -> scan_int (i ++ b) = Some (i, b).
Proof.
  intros [->|(c & ds & -> & Hc & HF)] Hb; [reflexivity|].
  cbn [app scan_int]. replace (N.eqb c 48) with false by (unfold between in Hc; lia).
  rewrite Hc, span_all; auto.
Qed.
Lemma scan_frac_json fr b : json_frac fr -> not_digit_head b ->
  (fr = [] -> match b with [] => True | c :: _ => c <> 46%N end) -> scan_frac (fr ++ b) = (fr, b).
Proof.
  intros [->|(ds & -> & Hne & HF)] Hb Hd.
  - specialize (Hd eq_refl). destruct b as [|c b]; auto. simpl. rewrite (proj2 (N.eqb_neq c 46) Hd). reflexivity.
  - cbn [app scan_frac N.eqb Pos.eqb]. rewrite span_all; auto. destruct ds; [congruence|reflexivity].
Qed.
Lemma scan_exp_json ex b : json_exp ex -> num_stop b -> scan_exp (ex ++ b) = (ex, b).
Proof.
  intros [->|(e & sg & ds & -> & He & Hsg & Hne & HF)] Hb.
  - destruct b as [|c b]; auto. simpl in *. destruct Hb as [<-|[<-|[<-|[<-|[]]]]]; reflexivity.
  - destruct ds as [|d ds]; [congruence|].
    assert (E : match (sg ++ d :: ds) ++ b with
                | x :: s2 => if N.eqb x 45 || N.eqb x 43 then ([x], s2) else ([], (sg ++ d :: ds) ++ b)
                | [] => ([], (sg ++ d :: ds) ++ b)
                end = (sg, (d :: ds) ++ b)).
    { destruct Hsg as [->|[->| ->]]; try reflexivity. cbn [app].
      inv HF. unfold is_digit0, between in *. replace (N.eqb d 45) with false by lia. replace (N.eqb d 43) with false by lia. reflexivity. }
    cbn [app scan_exp].
    replace (N.eqb e 101 || N.eqb e 69) with true by lia. rewrite E.
    rewrite span_all; auto.
    apply num_stop_digit in Hb. destruct b; auto.
Qed.

Section Values.
  Context {rt : PyRt}.

  Lemma pyval_ind' (P : pyval -> Prop) :
    P VNone -> (forall b, P (VBool b)) -> (forall z, P (VInt z)) -> (forall t, P (VFloat t)) ->
    (forall s, P (VStr s)) -> (forall l, Forall P l -> P (VList l)) ->
    (forall d, Forall (fun kv => P (snd kv)) d -> P (VDict d)) -> P VOpaque -> forall v, P v.
  Proof.
    intros H1 H2 H3 H4 H5 H6 H7 H8.
    fix IH 1. intros [ |b|z|t|s|l|d| ].
    - exact H1.
    - apply H2.
    - apply H3.
    - apply H4.
    - apply H5.
    - apply H6. induction l as [|x l IHl]; constructor; [apply IH|exact IHl].
    - apply H7. induction d as [|[k x] d IHd]; constructor; [apply IH|exact IHd].
    - exact H8.
  Qed.

  (** the loops of [dump] by name *)
  Fixpoint dump_items (st : style) (lvl : nat) (l : list pyval) : out :=
    match l with
    | [] => text []
    | y :: l' => seq (text (item_sep st lvl)) (seq (dump st lvl y) (dump_items st lvl l'))
    end.
  Fixpoint dump_members (st : style) (lvl : nat) (d : list (pystr * pyval)) : out :=
    match d with
    | [] => text []
    | (k', y) :: d' =>
        seq (text (item_sep st lvl)) (seq (text (json_str k' ++ key_sep)) (seq (dump st lvl y) (dump_members st lvl d')))
    end.
  Lemma dump_list st lvl x l : dump st lvl (VList (x :: l)) =
    seq (text ([91%N] ++ newline st (S lvl)))
      (seq (dump st (S lvl) x) (seq (dump_items st (S lvl) l) (text (newline st lvl ++ [93%N])))).
  Proof.
    cbn [dump].
    match goal with |- seq _ (seq _ (seq (?F l) _)) = _ => assert (E : F l = dump_items st (S lvl) l) end.
    { induction l as [|y l IH]; [reflexivity|]. cbn [dump_items]. rewrite <- IH. reflexivity. }
    rewrite E. reflexivity.
  Qed.
  Lemma dump_dict st lvl k x d : dump st lvl (VDict ((k, x) :: d)) =
    seq (text ([123%N] ++ newline st (S lvl)))
      (seq (text (json_str k ++ key_sep))
        (seq (dump st (S lvl) x) (seq (dump_members st (S lvl) d) (text (newline st lvl ++ [125%N]))))).
  Proof.
    cbn [dump].
    match goal with |- seq _ (seq _ (seq _ (seq (?F d) _))) = _ => assert (E : F d = dump_members st (S lvl) d) end.
    { induction d as [|[k' y] d IH]; [reflexivity|]. cbn [dump_members]. rewrite <- IH. reflexivity. }
    rewrite E. reflexivity.
  Qed.

  (** ** white space *)
  Lemma skip_ws_spaces n s : skip_ws (repeat 32%N n ++ s) = skip_ws s.
  Proof. induction n; simpl; auto. Qed.
  Lemma skip_ws_newline st lvl s : skip_ws (newline st lvl ++ s) = skip_ws s.
  Proof. destruct st; simpl; auto. apply skip_ws_spaces. Qed.
  (** first characters of values *)
  Definition value_head (s : pystr) : Prop :=
    match s with [] => False | c :: _ => is_ws c = false /\ c <> 93%N /\ c <> 125%N end.
  Lemma skip_ws_head s : value_head s -> skip_ws s = s.
  Proof. destruct s as [|c s]; simpl; auto. intros [H _]. unfold skip_ws. simpl. rewrite H. reflexivity. Qed.

  Lemma str_of_Z_head z : value_head (str_of_Z z).
  Proof.
    destruct z as [|p|p]; simpl; try (repeat split; discriminate).
    destruct (str_of_N_spec (N.pos p)) as (_ & _ & _ & [[? _]|(_ & c & r & -> & Hc)]); [discriminate|].
    unfold between in Hc. unfold value_head, is_ws. cbn [existsb].
    repeat split; try lia.
  Qed.
  Lemma json_number_head t : json_number t -> value_head t.
  Proof.
    intros (neg & i & fr & ex & -> & Hn & Hi & _). destruct Hn as [->| ->]; [|simpl; repeat split; discriminate].
    destruct Hi as [->|(c & ds & -> & Hc & _)]; simpl; [repeat split; discriminate|].
    unfold between in Hc. unfold is_ws. cbn [existsb]. repeat split; lia.
  Qed.
  Lemma float_ok_head t : float_ok t -> value_head t.
  Proof.
    intros [[H _]|[->|[->| ->]]]; [apply json_number_head; auto|..]; simpl; repeat split; discriminate.
  Qed.
  Lemma value_head_app s t : value_head s -> value_head (s ++ t).
  Proof. destruct s; simpl; auto. tauto. Qed.
  Lemma fst_seq_text t o : fst (seq (text t) o) = t ++ fst o.
  Proof. destruct o; reflexivity. Qed.
  Lemma fst_seq_head a b : value_head (fst a) -> value_head (fst (seq a b)).
  Proof.
    destruct a as [t []], b as [t' ok']; simpl; auto. apply value_head_app.
  Qed.
  Lemma dump_head st lvl v : val_ok v -> v <> VOpaque -> value_head (fst (dump st lvl v)).
  Proof.
    intros H Hv. destruct H.
    - simpl. repeat split; discriminate.
    - destruct b; simpl; repeat split; discriminate.
    - simpl. apply str_of_Z_head.
    - apply float_ok_head. auto.
    - simpl. repeat split; discriminate.
    - destruct l as [|x l]; [simpl; repeat split; discriminate|]. rewrite dump_list.
      apply fst_seq_head. simpl. repeat split; discriminate.
    - destruct d as [|[k x] d]; [simpl; repeat split; discriminate|]. rewrite dump_dict.
      apply fst_seq_head. simpl. repeat split; discriminate.
    - congruence.
  Qed.
  Lemma value_head_pos s : value_head s -> 1 <= List.length s.
  Proof. destruct s; simpl; [tauto|lia]. Qed.

  (** ** reading back *)
  Definition rest_ok (v : pyval) (rest : pystr) : Prop :=
    match v with VInt _ | VFloat _ => num_stop rest | _ => True end.

  Lemma parse_number neg i fr ex rest f :
    neg = [] \/ neg = [45%N] -> json_int i -> json_frac fr -> json_exp ex -> num_stop rest ->
    parse_value (S f) (neg ++ i ++ fr ++ ex ++ rest) =
      match fr ++ ex with
      | [] => Some (VInt (let z := Z.of_N (N_of_digits i) in if neg then z else (- z)%Z), rest)
      | _ => match f_repr (neg ++ i ++ fr ++ ex) with Some t => Some (VFloat t, rest) | None => None end
      end.
  Proof.
    intros Hneg Hi Hfr Hex Hrest.
    assert (Hnd : not_digit_head (ex ++ rest)).
    { destruct Hex as [->|(e & sg & ds & -> & He & _)]; [apply num_stop_digit; auto|].
      simpl. destruct He as [->| ->]; reflexivity. }
    assert (Hnd2 : not_digit_head (fr ++ ex ++ rest)).
    { destruct Hfr as [->|(ds & -> & _)]; auto. reflexivity. }
    assert (S1 : scan_int (i ++ fr ++ ex ++ rest) = Some (i, fr ++ ex ++ rest)) by (apply scan_int_json; auto).
    assert (S2 : scan_frac (fr ++ ex ++ rest) = (fr, ex ++ rest)).
    { apply scan_frac_json; auto. intros ->.
      destruct Hex as [->|(e & sg & ds & -> & He & _)]; simpl.
      - destruct rest as [|c r]; auto. intros ->. simpl in Hrest. destruct Hrest as [?|[?|[?|[?|[]]]]]; discriminate.
      - destruct He as [->| ->]; discriminate. }
    assert (S3 : scan_exp (ex ++ rest) = (ex, rest)) by (apply scan_exp_json; auto).
    assert (Hd : exists c r, i = c :: r /\ between 48 57 c = true).
    { destruct Hi as [->|(c & ds & -> & Hc & _)]; [eexists _, _; split; reflexivity|].
      eexists _, _; split; [reflexivity|]. unfold between in *; lia. }
    destruct Hd as (c & r & Ei & Hc).
    destruct Hneg as [->| ->].
    - cbn [app].
      assert (G : parse_value (S f) (i ++ fr ++ ex ++ rest) = scan_number false (i ++ fr ++ ex ++ rest)).
      { rewrite Ei. cbn [app parse_value]. unfold between in Hc.
        replace (N.eqb c 34) with false by lia. replace (N.eqb c 123) with false by lia.
        replace (N.eqb c 91) with false by lia. replace (N.eqb c 110) with false by lia.
        replace (N.eqb c 116) with false by lia. replace (N.eqb c 102) with false by lia.
        replace (N.eqb c 78) with false by lia. replace (N.eqb c 73) with false by lia.
        replace (N.eqb c 45) with false by lia. reflexivity. }
      rewrite G. unfold scan_number. rewrite S1, S2, S3. destruct (fr ++ ex); reflexivity.
    - assert (G : parse_value (S f) ([45%N] ++ i ++ fr ++ ex ++ rest) = scan_number true (i ++ fr ++ ex ++ rest)).
      { rewrite Ei. cbn [app parse_value]. cbn [N.eqb Pos.eqb].
        unfold eat. change (py "Infinity") with (73%N :: py "nfinity"). cbn [starts_with].
        replace (N.eqb 73 c) with false by (unfold between in Hc; lia). reflexivity. }
      rewrite G. unfold scan_number. rewrite S1, S2, S3. destruct (fr ++ ex); reflexivity.
  Qed.

  Lemma json_int_str_of_N n : json_int (str_of_N n).
  Proof.
    destruct (str_of_N_spec n) as (_ & HF & _ & [[_ ->]|(_ & c & r & E & Hc)]); [left; auto|right].
    rewrite E in *. inv HF. eauto.
  Qed.
  Lemma parse_int z rest f : num_stop rest -> parse_value (S f) (str_of_Z z ++ rest) = Some (VInt z, rest).
  Proof.
    intros Hr. assert (He : json_exp []) by (left; auto). assert (Hf : json_frac []) by (left; auto).
    destruct z as [|p|p]; cbn [str_of_Z].
    - exact (parse_number [] [48%N] [] [] rest f (or_introl eq_refl) (or_introl eq_refl) Hf He Hr).
    - etransitivity; [exact (parse_number [] (str_of_N (N.pos p)) [] [] rest f (or_introl eq_refl) (json_int_str_of_N _) Hf He Hr)|].
      cbn [app]. destruct (str_of_N_spec (N.pos p)) as (_ & _ & -> & _). reflexivity.
    - etransitivity; [exact (parse_number [45%N] (str_of_N (N.pos p)) [] [] rest f (or_intror eq_refl) (json_int_str_of_N _) Hf He Hr)|].
      cbn [app]. destruct (str_of_N_spec (N.pos p)) as (_ & _ & -> & _). reflexivity.
  Qed.
  Lemma parse_float t rest f : float_ok t -> num_stop rest -> parse_value (S f) (t ++ rest) = Some (VFloat t, rest).
  Proof.
    intros [[(neg & i & fr & ex & E & Hn & Hi & Hf & He & Hne) Hr]|[->|[->| ->]]] Hs; try reflexivity.
    rewrite E. rewrite <- !app_assoc. rewrite parse_number by auto. rewrite <- E, Hr.
    destruct (fr ++ ex); [congruence|reflexivity].
  Qed.

  Lemma newline_stop st lvl c s : In c [44; 93; 125]%N -> num_stop (newline st lvl ++ c :: s).
  Proof. destruct st; simpl; auto. intros [<-|[<-|[<-|[]]]]; auto. Qed.
  Lemma item_sep_stop st lvl s : num_stop (item_sep st lvl ++ s).
  Proof. destruct st; simpl; auto. Qed.
  Lemma skip_item_sep st lvl s : exists s', item_sep st lvl ++ s = 44%N :: s' /\ skip_ws s' = skip_ws s /\ List.length s <= List.length s'.
  Proof.
    destruct st; simpl.
    - eexists. split; [reflexivity|]. split; [apply (skip_ws_newline Indent4)|]. simpl. rewrite !app_length. lia.
    - eexists. split; [reflexivity|]. split; [reflexivity|]. simpl. lia.
  Qed.

  (** what reading back means for one value *)
  Definition reads (v : pyval) : Prop :=
    val_ok v ->
    (ser v = true -> forall st lvl, snd (dump st lvl v) = true /\
       forall rest f, rest_ok v rest -> List.length (fst (dump st lvl v)) <= f ->
         parse_value f (fst (dump st lvl v) ++ rest) = Some (v, rest)) /\
    (ser v = false -> forall st lvl, snd (dump st lvl v) = false /\
       forall f, 2 * List.length (fst (dump st lvl v)) < f -> parse_value f (fst (dump st lvl v)) = None).

  Lemma rest_ok_stop v rest : num_stop rest -> rest_ok v rest.
  Proof. destruct v; simpl; auto. Qed.

  (** the remaining elements of a list, after a complete element *)
  Lemma seq_true a b : snd a = true -> seq a b = (fst a ++ fst b, snd b).
  Proof. destruct a as [t []], b; simpl; congruence. Qed.
  Lemma seq_false a b : snd a = false -> seq a b = a.
  Proof. destruct a as [t []], b; simpl; congruence. Qed.

  Definition close_list st lvl : pystr := newline st lvl ++ [93%N].
  Definition close_dict st lvl : pystr := newline st lvl ++ [125%N].

  Lemma after_elem_close st lvl rest : skip_ws (close_list st lvl ++ rest) = 93%N :: rest.
  Proof. unfold close_list. rewrite <- app_assoc, skip_ws_newline. reflexivity. Qed.
  Lemma after_member_close st lvl rest : skip_ws (close_dict st lvl ++ rest) = 125%N :: rest.
  Proof. unfold close_dict. rewrite <- app_assoc, skip_ws_newline. reflexivity. Qed.

  Lemma items_ok st lvl l : Forall reads l -> Forall val_ok l -> forallb ser l = true ->
    snd (dump_items st (S lvl) l) = true /\
    forall x acc tx rest f, reads x -> val_ok x -> ser x = true -> tx = fst (dump st (S lvl) x) ->
      let t := tx ++ fst (dump_items st (S lvl) l) ++ close_list st lvl in
      List.length t <= f ->
      parse_elems f (t ++ rest) acc = Some (VList (acc ++ x :: l), rest).
  Proof.
    intros HR HV HS. induction HR as [|y l Hy HR IH].
    - split; [reflexivity|]. intros x acc tx rest f Hx Vx Sx -> t Hf.
      destruct f as [|f]; [unfold t in Hf; rewrite !app_length in Hf; unfold close_list in Hf; rewrite app_length in Hf; simpl in Hf; lia|].
      cbn [parse_elems]. unfold t in *. cbn [dump_items text fst app] in *. rewrite <- app_assoc.
      destruct (proj1 (Hx Vx) Sx st (S lvl)) as [_ Hp]. rewrite Hp.
      + rewrite after_elem_close. reflexivity.
      + apply rest_ok_stop. unfold close_list. rewrite <- app_assoc. apply newline_stop. simpl; auto.
      + rewrite app_length in Hf. unfold close_list in Hf. rewrite app_length in Hf. simpl in Hf. lia.
    - inv HV. simpl in HS. apply andb_prop in HS as [Sy HS].
      destruct (IH H2 HS) as [IH1 IH2]. clear IH.
      destruct (proj1 (Hy H1) Sy st (S lvl)) as [Hys Hyp].
      assert (E : fst (dump_items st (S lvl) (y :: l)) =
                  item_sep st (S lvl) ++ fst (dump st (S lvl) y) ++ fst (dump_items st (S lvl) l)).
      { cbn [dump_items]. rewrite fst_seq_text, seq_true by auto. reflexivity. }
      split. { cbn [dump_items]. rewrite seq_true by reflexivity. cbn [snd]. rewrite seq_true by auto. auto. }
      intros x acc tx rest f Hx Vx Sx -> t Hf. unfold t in *. rewrite E in *.
      rewrite <- !app_assoc.
      destruct (proj1 (Hx Vx) Sx st (S lvl)) as [_ Hp].
      assert (Hlen : exists f', f = S f' /\ List.length (fst (dump st (S lvl) x)) <= f' /\
               List.length (fst (dump st (S lvl) y) ++ fst (dump_items st (S lvl) l) ++ close_list st lvl) <= f').
      { rewrite !app_length in Hf. rewrite !app_length.
        assert (1 <= List.length (item_sep st (S lvl))) by (destruct st; simpl; lia).
        destruct f as [|f']; [lia|]. exists f'. repeat split; lia. }
      destruct Hlen as (f' & -> & Hl1 & Hl2). cbn [parse_elems]. rewrite Hp; auto.
      2:{ apply rest_ok_stop, item_sep_stop. }
      destruct (skip_item_sep st (S lvl) (fst (dump st (S lvl) y) ++ fst (dump_items st (S lvl) l) ++ close_list st lvl ++ rest))
        as (s' & Es & Hws & _).
      rewrite Es. cbn [skip_ws lstrip is_ws existsb N.eqb Pos.eqb orb]. unfold skip_ws. cbn [lstrip is_ws existsb N.eqb Pos.eqb orb].
      change (lstrip is_ws s') with (skip_ws s'). rewrite Hws, skip_ws_head.
      2:{ apply value_head_app, dump_head; auto. intros ->. discriminate. }
      specialize (IH2 y (acc ++ [x]) _ rest f' Hy H1 Sy eq_refl Hl2).
      rewrite <- !app_assoc in IH2. rewrite IH2. reflexivity.
  Qed.

  Lemma bad_value y st lvl f : reads y -> val_ok y -> ser y = false -> 2 * List.length (fst (dump st lvl y)) < f ->
    parse_value f (skip_ws (fst (dump st lvl y))) = None /\
    match skip_ws (fst (dump st lvl y)) with [] => True | c :: _ => c <> 93%N /\ c <> 125%N end.
  Proof.
    intros R V S Hf. destruct (proj2 (R V) S st lvl) as [_ Hp].
    assert (D : y = VOpaque \/ y <> VOpaque) by (destruct y; auto; right; discriminate).
    destruct D as [->|D].
    - cbn [dump fst]. split; [|exact I]. cbn [skip_ws lstrip]. destruct f; reflexivity.
    - pose proof (dump_head st lvl y V D) as H. rewrite skip_ws_head by auto. split; auto.
      destruct (fst (dump st lvl y)); simpl in H; tauto.
  Qed.

  Lemma items_bad st lvl l : Forall reads l -> Forall val_ok l -> forallb ser l = false ->
    snd (dump_items st (S lvl) l) = false /\
    forall x acc tx f, reads x -> val_ok x -> ser x = true -> tx = fst (dump st (S lvl) x) ->
      let t := tx ++ fst (dump_items st (S lvl) l) in
      2 * List.length t < f -> parse_elems f t acc = None.
  Proof.
    intros HR HV HS. induction HR as [|y l Hy HR IH]; [discriminate|].
    inv HV. simpl in HS. destruct (ser y) eqn:Sy.
    - simpl in HS. destruct (IH H2 HS) as [IH1 IH2]. clear IH.
      destruct (proj1 (Hy H1) Sy st (S lvl)) as [Hys Hyp].
      assert (E : fst (dump_items st (S lvl) (y :: l)) =
                  item_sep st (S lvl) ++ fst (dump st (S lvl) y) ++ fst (dump_items st (S lvl) l)).
      { cbn [dump_items]. rewrite fst_seq_text, seq_true by auto. reflexivity. }
      split. { cbn [dump_items]. rewrite seq_true by reflexivity. cbn [snd]. rewrite seq_true by auto. auto. }
      intros x acc tx f Hx Vx Sx -> t Hf. unfold t in *. rewrite E in *.
      destruct (proj1 (Hx Vx) Sx st (S lvl)) as [_ Hp].
      assert (Hlen : exists f', f = S f' /\ List.length (fst (dump st (S lvl) x)) <= f' /\
               2 * List.length (fst (dump st (S lvl) y) ++ fst (dump_items st (S lvl) l)) < f').
      { rewrite !app_length in Hf. rewrite !app_length.
        assert (1 <= List.length (item_sep st (S lvl))) by (destruct st; simpl; lia).
        destruct f as [|f']; [lia|]. exists f'. repeat split; lia. }
      destruct Hlen as (f' & -> & Hl1 & Hl2). cbn [parse_elems]. rewrite Hp; auto.
      2:{ apply rest_ok_stop, item_sep_stop. }
      destruct (skip_item_sep st (S lvl) (fst (dump st (S lvl) y) ++ fst (dump_items st (S lvl) l)))
        as (s' & Es & Hws & _).
      rewrite Es. unfold skip_ws at 1. cbn [lstrip is_ws existsb N.eqb Pos.eqb orb].
      rewrite Hws, skip_ws_head.
      2:{ apply value_head_app, dump_head; auto. intros ->. discriminate. }
      apply (IH2 y (acc ++ [x]) _ f' Hy H1 Sy eq_refl Hl2).
    - destruct (proj2 (Hy H1) Sy st (S lvl)) as [Hys Hyp].
      assert (E : dump_items st (S lvl) (y :: l) = (item_sep st (S lvl) ++ fst (dump st (S lvl) y), false)).
      { cbn [dump_items]. rewrite (seq_false (dump st (S lvl) y)) by auto.
        rewrite seq_true by reflexivity. rewrite Hys. reflexivity. }
      rewrite E. split; [reflexivity|]. intros x acc tx f Hx Vx Sx -> t Hf. unfold t in *. cbn [fst] in *.
      destruct (proj1 (Hx Vx) Sx st (S lvl)) as [_ Hp].
      rewrite !app_length in Hf.
      assert (1 <= List.length (item_sep st (S lvl))) by (destruct st; simpl; lia).
      pose proof (value_head_pos _ (dump_head st (S lvl) x Vx ltac:(intros ->; discriminate))) as Hpos.
      destruct f as [|[|f']]; try lia. cbn [parse_elems]. rewrite Hp; [| |lia].
      2:{ apply rest_ok_stop, item_sep_stop. }
      destruct (skip_item_sep st (S lvl) (fst (dump st (S lvl) y))) as (s' & Es & Hws & _).
      rewrite Es. unfold skip_ws at 1. cbn [lstrip is_ws existsb N.eqb Pos.eqb orb].
      rewrite Hws.
      destruct (bad_value y st (S lvl) f' Hy H1 Sy) as [Hb _]; [lia|].
      cbn [parse_elems]. rewrite Hb. reflexivity.
  Qed.

  (** ** objects *)
  Definition member (st : style) (lvl : nat) (k : pystr) (v : pyval) : pystr :=
    json_str k ++ key_sep ++ fst (dump st lvl v).

  (** reading one key and the start of its value *)
  Lemma members_step f k s acc : str_ok k ->
    parse_members (S f) (json_str k ++ key_sep ++ s) acc =
      match parse_value f (skip_ws s) with
      | None => None
      | Some (v, s4) =>
          match skip_ws s4 with
          | c3 :: s5 => if N.eqb c3 125 then Some (VDict (d_set k v acc), s5)
                        else if N.eqb c3 44 then parse_members f (skip_ws s5) (d_set k v acc)
                        else None
          | [] => None
          end
      end.
  Proof.
    intros Hk. unfold json_str. cbn [app]. rewrite <- app_assoc. cbn [app parse_members].
    cbn [N.eqb Pos.eqb].
    rewrite (scan_str_json' k (key_sep ++ s) Hk). reflexivity.
  Qed.

  Lemma json_str_length k : 2 <= List.length (json_str k).
  Proof. unfold json_str. simpl. rewrite app_length. simpl. lia. Qed.
  Lemma json_str_head k s : value_head (json_str k ++ s).
  Proof. unfold json_str. simpl. repeat split; discriminate. Qed.

  Lemma members_ok st lvl d : Forall (fun kv => reads (snd kv)) d ->
    Forall (fun kv => str_ok (fst kv) /\ val_ok (snd kv)) d -> forallb (fun kv => ser (snd kv)) d = true ->
    snd (dump_members st (S lvl) d) = true /\
    forall k x acc rest f, reads x -> str_ok k -> val_ok x -> ser x = true ->
      NoDup (keys (acc ++ (k, x) :: d)) ->
      let t := member st (S lvl) k x ++ fst (dump_members st (S lvl) d) ++ close_dict st lvl in
      List.length t <= f ->
      parse_members f (t ++ rest) acc = Some (VDict (acc ++ (k, x) :: d), rest).
  Proof.
    intros HR HV HS. induction HR as [|[k2 y] d Hy HR IH].
    - split; [reflexivity|]. intros k x acc rest f Hx Kx Vx Sx ND t Hf.
      unfold t, member in *. cbn [dump_members text fst app] in *.
      rewrite !app_length in Hf. pose proof (json_str_length k).
      destruct f as [|f]; [lia|].
      rewrite <- !app_assoc. rewrite members_step by auto.
      destruct (proj1 (Hx Vx) Sx st (S lvl)) as [_ Hp].
      rewrite skip_ws_head by (apply value_head_app, dump_head; auto; intros ->; discriminate).
      rewrite Hp; [| |lia].
      2:{ apply rest_ok_stop. unfold close_dict. rewrite <- app_assoc. apply newline_stop. simpl; auto. }
      rewrite after_member_close. cbn [N.eqb Pos.eqb]. rewrite d_set_new; auto.
      rewrite keys_app in ND. apply NoDup_remove_2 in ND. rewrite app_nil_r in ND. auto.
    - inv HV. simpl in H1, Hy. destruct H1 as [K2 V2]. simpl in HS. apply andb_prop in HS as [Sy HS].
      destruct (IH H2 HS) as [IH1 IH2]. clear IH.
      destruct (proj1 (Hy V2) Sy st (S lvl)) as [Hys Hyp].
      assert (E : fst (dump_members st (S lvl) ((k2, y) :: d)) =
                  item_sep st (S lvl) ++ member st (S lvl) k2 y ++ fst (dump_members st (S lvl) d)).
      { cbn [dump_members]. rewrite !fst_seq_text, seq_true by auto. unfold member. rewrite <- !app_assoc. reflexivity. }
      split. { cbn [dump_members]. rewrite seq_true by reflexivity. cbn [snd]. rewrite seq_true by reflexivity.
               cbn [snd]. rewrite seq_true by auto. auto. }
      intros k x acc rest f Hx Kx Vx Sx ND t Hf. unfold t in *. rewrite E in *.
      destruct (proj1 (Hx Vx) Sx st (S lvl)) as [_ Hp].
      pose proof (json_str_length k). rewrite !app_length in Hf.
      assert (Hlm : List.length (member st (S lvl) k x) = List.length (json_str k) + 2 + List.length (fst (dump st (S lvl) x))).
      { unfold member. rewrite !app_length. simpl. lia. }
      destruct f as [|f']; [lia|].
      unfold member at 1. rewrite <- !app_assoc. rewrite members_step by auto.
      rewrite skip_ws_head by (apply value_head_app, dump_head; auto; intros ->; discriminate).
      rewrite Hp; [| |lia].
      2:{ apply rest_ok_stop, item_sep_stop. }
      destruct (skip_item_sep st (S lvl) (member st (S lvl) k2 y ++ fst (dump_members st (S lvl) d) ++ close_dict st lvl ++ rest))
        as (s' & Es & Hws & _).
      rewrite Es. unfold skip_ws at 1. cbn [lstrip is_ws existsb N.eqb Pos.eqb orb].
      rewrite Hws, skip_ws_head.
      2:{ unfold member. rewrite <- !app_assoc. apply json_str_head. }
      assert (Hk : ~ In k (keys acc)).
      { rewrite keys_app in ND. apply NoDup_remove_2 in ND. rewrite in_app_iff in ND. tauto. }
      rewrite d_set_new by auto.
      specialize (IH2 k2 y (acc ++ [(k, x)]) rest f' Hy K2 V2 Sy).
      rewrite <- !app_assoc in IH2. cbn [app] in IH2. rewrite IH2; auto.
      rewrite !app_length. lia.
  Qed.

  Lemma members_bad st lvl d : Forall (fun kv => reads (snd kv)) d ->
    Forall (fun kv => str_ok (fst kv) /\ val_ok (snd kv)) d -> forallb (fun kv => ser (snd kv)) d = false ->
    snd (dump_members st (S lvl) d) = false /\
    forall k x acc f, reads x -> str_ok k -> val_ok x -> ser x = true ->
      let t := member st (S lvl) k x ++ fst (dump_members st (S lvl) d) in
      2 * List.length t < f -> parse_members f t acc = None.
  Proof.
    intros HR HV HS. induction HR as [|[k2 y] d Hy HR IH]; [discriminate|].
    inv HV. simpl in H1, Hy. destruct H1 as [K2 V2]. simpl in HS. destruct (ser y) eqn:Sy.
    - simpl in HS.
      destruct (IH H2 HS) as [IH1 IH2]. clear IH.
      destruct (proj1 (Hy V2) Sy st (S lvl)) as [Hys Hyp].
      assert (E : fst (dump_members st (S lvl) ((k2, y) :: d)) =
                  item_sep st (S lvl) ++ member st (S lvl) k2 y ++ fst (dump_members st (S lvl) d)).
      { cbn [dump_members]. rewrite !fst_seq_text, seq_true by auto. unfold member. rewrite <- !app_assoc. reflexivity. }
      split. { cbn [dump_members]. rewrite seq_true by reflexivity. cbn [snd]. rewrite seq_true by reflexivity.
               cbn [snd]. rewrite seq_true by auto. auto. }
      intros k x acc f Hx Kx Vx Sx t Hf. unfold t in *. rewrite E in *.
      destruct (proj1 (Hx Vx) Sx st (S lvl)) as [_ Hp].
      pose proof (json_str_length k). rewrite !app_length in Hf.
      assert (Hlm : List.length (member st (S lvl) k x) = List.length (json_str k) + 2 + List.length (fst (dump st (S lvl) x))).
      { unfold member. rewrite !app_length. simpl. lia. }
      destruct f as [|f']; [lia|].
      unfold member at 1. rewrite <- !app_assoc. rewrite members_step by auto.
      rewrite skip_ws_head by (apply value_head_app, dump_head; auto; intros ->; discriminate).
      rewrite Hp; [| |lia].
      2:{ apply rest_ok_stop, item_sep_stop. }
      destruct (skip_item_sep st (S lvl) (member st (S lvl) k2 y ++ fst (dump_members st (S lvl) d)))
        as (s' & Es & Hws & _).
      rewrite Es. unfold skip_ws at 1. cbn [lstrip is_ws existsb N.eqb Pos.eqb orb].
      rewrite Hws, skip_ws_head.
      2:{ unfold member. rewrite <- !app_assoc. apply json_str_head. }
      cbn [N.eqb Pos.eqb]. apply IH2; auto. rewrite !app_length. lia.
    - destruct (proj2 (Hy V2) Sy st (S lvl)) as [Hys Hyp].
      assert (E : dump_members st (S lvl) ((k2, y) :: d) = (item_sep st (S lvl) ++ member st (S lvl) k2 y, false)).
      { cbn [dump_members]. rewrite (seq_false (dump st (S lvl) y)) by auto.
        rewrite !seq_true by reflexivity. cbn [fst snd text]. rewrite Hys. unfold member. rewrite <- !app_assoc. reflexivity. }
      rewrite E. split; [reflexivity|]. intros k x acc f Hx Kx Vx Sx t Hf. unfold t in *. cbn [fst] in *.
      destruct (proj1 (Hx Vx) Sx st (S lvl)) as [_ Hp].
      pose proof (json_str_length k). pose proof (json_str_length k2). rewrite !app_length in Hf.
      assert (Hlm : forall k x, List.length (member st (S lvl) k x) = List.length (json_str k) + 2 + List.length (fst (dump st (S lvl) x))).
      { intros. unfold member. rewrite !app_length. simpl. lia. }
      rewrite !Hlm in Hf.
      destruct f as [|[|f']]; try lia.
      unfold member at 1. rewrite <- !app_assoc. rewrite members_step by auto.
      rewrite skip_ws_head by (apply value_head_app, dump_head; auto; intros ->; discriminate).
      rewrite Hp; [| |lia].
      2:{ apply rest_ok_stop, item_sep_stop. }
      destruct (skip_item_sep st (S lvl) (member st (S lvl) k2 y)) as (s' & Es & Hws & _).
      rewrite Es. unfold skip_ws at 1. cbn [lstrip is_ws existsb N.eqb Pos.eqb orb].
      rewrite Hws, skip_ws_head.
      2:{ unfold member. apply json_str_head. }
      cbn [N.eqb Pos.eqb]. unfold member. rewrite members_step by auto.
      destruct (bad_value y st (S lvl) f' Hy V2 Sy) as [Hb _]; [lia|]. rewrite Hb. reflexivity.
  Qed.

  Lemma Forall_dict_vals d : Forall (fun kv : pystr * pyval => str_ok (fst kv) /\ val_ok (snd kv)) d ->
    Forall (fun kv => val_ok (snd kv)) d.
  Proof. intros H. eapply Forall_impl; [|exact H]. simpl. tauto. Qed.

  Theorem reads_all v : reads v.
  Proof.
    induction v as [|b|z|t|s|l HR|d HR|] using pyval_ind'; intros V.
    - split; [|discriminate]. intros _ st lvl. split; [reflexivity|]. intros rest [|f] _ Hf; [simpl in Hf; lia|reflexivity].
    - split; [|discriminate]. intros _ st lvl. split; [reflexivity|]. intros rest [|f] _ Hf; destruct b; simpl in Hf; try lia; reflexivity.
    - split; [|discriminate]. intros _ st lvl. split; [reflexivity|]. intros rest [|f] Hr Hf.
      + simpl in Hf. pose proof (value_head_pos _ (str_of_Z_head z)). lia.
      + apply parse_int. auto.
    - inv V. split; [|discriminate]. intros _ st lvl. split; [reflexivity|]. intros rest [|f] Hr Hf.
      + simpl in Hf. pose proof (value_head_pos _ (float_ok_head _ H0)). lia.
      + apply parse_float; auto.
    - inv V. split; [|discriminate]. intros _ st lvl. split; [reflexivity|]. intros rest [|f] _ Hf; [simpl in Hf; lia|].
      cbn [dump text fst]. unfold json_str. cbn [app parse_value]. cbn [N.eqb Pos.eqb]. rewrite <- app_assoc. cbn [app].
      rewrite (scan_str_json' s rest) by auto. reflexivity.
    - inv V. destruct l as [|x l].
      { split; [|discriminate]. intros _ st lvl. split; [reflexivity|]. intros rest [|f] _ Hf; [simpl in Hf; lia|reflexivity]. }
      apply Forall_cons_iff in HR as [Rx Rl]. apply Forall_cons_iff in H0 as [Vx Vl]. cbn [ser forallb].
      split; intros HS st lvl.
      + apply andb_prop in HS as [Sx Sl].
        destruct (items_ok st lvl l Rl Vl Sl) as [D P].
        destruct (proj1 (Rx Vx) Sx st (S lvl)) as [Dx Px].
        rewrite dump_list. rewrite seq_true by reflexivity. rewrite (seq_true (dump st (S lvl) x)) by auto.
        rewrite (seq_true (dump_items _ _ _)) by auto. cbn [fst snd text]. split; [reflexivity|].
        intros rest f _ Hf. rewrite !app_length in Hf. simpl in Hf. destruct f as [|f]; [lia|].
        rewrite <- !app_assoc. cbn [app parse_value]. cbn [N.eqb Pos.eqb].
        rewrite skip_ws_newline.
        rewrite skip_ws_head by (apply value_head_app, dump_head; auto; intros ->; discriminate).
        specialize (P x [] _ rest f Rx Vx Sx eq_refl). unfold close_list in P.
        rewrite <- !app_assoc in P. cbn [app] in P.
        pose proof (dump_head st (S lvl) x Vx ltac:(intros ->; discriminate)) as Hh.
        rewrite !app_length in P. simpl in P.
        destruct (fst (dump st (S lvl) x)) as [|c tx] eqn:Et; [destruct Hh|]. cbn [app] in *.
        destruct Hh as (_ & H93 & _). rewrite (proj2 (N.eqb_neq c 93) H93). apply P. simpl. simpl in Hf. lia.
      + destruct (ser x) eqn:Sx.
        * simpl in HS. destruct (items_bad st lvl l Rl Vl HS) as [D P].
          destruct (proj1 (Rx Vx) Sx st (S lvl)) as [Dx Px].
          rewrite dump_list. rewrite (seq_false (dump_items _ _ _)) by auto.
          rewrite (seq_true (dump st (S lvl) x)) by auto. rewrite seq_true by reflexivity.
          cbn [fst snd text]. split; [auto|]. intros f Hf.
          rewrite !app_length in Hf. simpl in Hf. destruct f as [|f]; [lia|].
          rewrite <- !app_assoc. cbn [app parse_value]. cbn [N.eqb Pos.eqb]. rewrite skip_ws_newline.
          rewrite skip_ws_head by (apply value_head_app, dump_head; auto; intros ->; discriminate).
          specialize (P x [] _ f Rx Vx Sx eq_refl). cbv zeta in P. rewrite !app_length in P.
          pose proof (dump_head st (S lvl) x Vx ltac:(intros ->; discriminate)) as Hh.
          destruct (fst (dump st (S lvl) x)) as [|c tx] eqn:Et; [destruct Hh|]. cbn [app] in *.
          destruct Hh as (_ & H93 & _). rewrite (proj2 (N.eqb_neq c 93) H93). apply P. simpl. simpl in Hf. lia.
        * destruct (proj2 (Rx Vx) Sx st (S lvl)) as [Dx Px].
          rewrite dump_list. rewrite (seq_false (dump st (S lvl) x)) by auto. rewrite seq_true by reflexivity.
          cbn [fst snd text]. split; [auto|]. intros f Hf.
          rewrite !app_length in Hf. simpl in Hf. destruct f as [|[|f]]; try lia.
          rewrite <- !app_assoc. cbn [app parse_value]. cbn [N.eqb Pos.eqb]. rewrite skip_ws_newline.
          destruct (bad_value x st (S lvl) f Rx Vx Sx) as [Hb Hc]; [lia|].
          destruct (skip_ws (fst (dump st (S lvl) x))) as [|c tx] eqn:Et; [reflexivity|].
          destruct Hc as [H93 _]. rewrite (proj2 (N.eqb_neq c 93) H93). cbn [parse_elems]. rewrite Hb. reflexivity.
    - inv V. destruct d as [|[k x] d].
      { split; [|discriminate]. intros _ st lvl. split; [reflexivity|]. intros rest [|f] _ Hf; [simpl in Hf; lia|reflexivity]. }
      apply Forall_cons_iff in HR as [Rx Rd]. apply Forall_cons_iff in H0 as [[Kx Vx] Vd]. rename H1 into ND. simpl in Rx, Kx, Vx. cbn [ser forallb snd].
      assert (Hm : forall st lvl s, json_str k ++ key_sep ++ fst (dump st (S lvl) x) ++ s = member st (S lvl) k x ++ s).
      { intros. unfold member. rewrite <- !app_assoc. reflexivity. }
      assert (Hlm : forall st lvl, List.length (member st (S lvl) k x) = List.length (json_str k) + 2 + List.length (fst (dump st (S lvl) x))).
      { intros. unfold member. rewrite !app_length. simpl. lia. }
      assert (Hpv : forall st lvl s f, parse_value (S f) (123%N :: newline st lvl ++ json_str k ++ s) = parse_members f (json_str k ++ s) []).
      { intros. cbn [parse_value]. cbn [N.eqb Pos.eqb]. rewrite skip_ws_newline, skip_ws_head by apply json_str_head. reflexivity. }
      split; intros HS st lvl.
      + apply andb_prop in HS as [Sx Sd].
        destruct (members_ok st lvl d Rd Vd Sd) as [D P].
        destruct (proj1 (Rx Vx) Sx st (S lvl)) as [Dx Px].
        rewrite dump_dict. rewrite !(seq_true (text _)) by reflexivity. rewrite (seq_true (dump st (S lvl) x)) by auto.
        rewrite (seq_true (dump_members _ _ _)) by auto. cbn [fst snd text]. split; [reflexivity|].
        intros rest f _ Hf. rewrite !app_length in Hf. cbn [List.length app key_sep] in Hf. destruct f as [|f]; [lia|].
        rewrite <- !app_assoc. cbn [app].
        rewrite Hpv, Hm. specialize (P k x [] rest f Rx Kx Vx Sx ND). unfold close_dict in P.
        rewrite <- !app_assoc in P. apply P. cbv zeta. rewrite !app_length, Hlm. cbn [List.length app]. lia.
      + destruct (ser x) eqn:Sx.
        * simpl in HS. destruct (members_bad st lvl d Rd Vd HS) as [D P].
          destruct (proj1 (Rx Vx) Sx st (S lvl)) as [Dx Px].
          rewrite dump_dict. rewrite (seq_false (dump_members _ _ _)) by auto.
          rewrite (seq_true (dump st (S lvl) x)) by auto. rewrite !seq_true by reflexivity.
          cbn [fst snd text]. split; [auto|]. intros f Hf.
          rewrite !app_length in Hf. cbn [List.length app key_sep] in Hf. destruct f as [|f]; [lia|].
          rewrite <- !app_assoc. cbn [app]. rewrite Hpv, Hm. apply P; auto. rewrite !app_length, Hlm. lia.
        * destruct (proj2 (Rx Vx) Sx st (S lvl)) as [Dx Px].
          rewrite dump_dict. rewrite (seq_false (dump st (S lvl) x)) by auto. rewrite !seq_true by reflexivity.
          cbn [fst snd text]. split; [auto|]. intros f Hf.
          rewrite !app_length in Hf. cbn [List.length app key_sep] in Hf. pose proof (json_str_length k). destruct f as [|[|f]]; try lia.
          rewrite <- !app_assoc. cbn [app]. rewrite Hpv. rewrite members_step by auto.
          destruct (bad_value x st (S lvl) f Rx Vx Sx) as [Hb Hc]; [lia|]. rewrite Hb. reflexivity.
    - split; [discriminate|]. intros _ st lvl. split; [reflexivity|]. intros [|f] _; reflexivity.
  Qed.

  (** ** whole documents *)
  Definition head_char (c : N) : Prop := is_ws c = false /\ c <> 65279%N.
  Definition head_ok (s : pystr) : Prop := match s with [] => False | c :: _ => head_char c end.
  Lemma digit_head c : between 48 57 c = true -> head_char c.
  Proof. unfold between, head_char, is_ws. cbn [existsb]. intros H. split; lia. Qed.
  Lemma json_number_head_ok t : json_number t -> head_ok t.
  Proof.
    intros (neg & i & fr & ex & -> & Hn & Hi & _). destruct Hn as [->| ->]; [|split; [reflexivity|discriminate]].
    destruct Hi as [->|(c & ds & -> & Hc & _)]; [split; [reflexivity|discriminate]|].
    apply digit_head. unfold between in *. lia.
  Qed.
  Lemma head_ok_seq a b : head_ok (fst a) -> head_ok (fst (seq a b)).
  Proof. destruct a as [[|c t] []], b; simpl; auto; tauto. Qed.
  Lemma dump_head_ok st lvl v : val_ok v -> v <> VOpaque -> head_ok (fst (dump st lvl v)).
  Proof.
    intros H Hv. destruct H.
    - split; [reflexivity|discriminate].
    - destruct b; (split; [reflexivity|discriminate]).
    - cbn [dump text fst]. destruct z as [|p|p]; cbn [str_of_Z]; try (split; [reflexivity|discriminate]).
      destruct (str_of_N_spec (N.pos p)) as (_ & _ & _ & [[? _]|(_ & c & r & -> & Hc)]); [discriminate|].
      apply digit_head. unfold between in *. lia.
    - cbn [dump text fst]. destruct H as [[H _]|[->|[->| ->]]]; [apply json_number_head_ok; auto|..]; (split; [reflexivity|discriminate]).
    - split; [reflexivity|discriminate].
    - destruct l as [|x l]; [split; [reflexivity|discriminate]|]. rewrite dump_list. apply head_ok_seq. split; [reflexivity|discriminate].
    - destruct d as [|[k x] d]; [split; [reflexivity|discriminate]|]. rewrite dump_dict. apply head_ok_seq. split; [reflexivity|discriminate].
    - congruence.
  Qed.
  Lemma loads_head s : head_ok s ->
    loads s = match parse_value (2 * List.length s + 2) s with
              | Some (v, rest) => match skip_ws rest with [] => Some v | _ => None end
              | None => None
              end.
  Proof.
    destruct s as [|c s]; [intros []|]. intros [H1 H2]. unfold loads.
    rewrite (proj2 (N.eqb_neq c 65279) H2). unfold skip_ws at 1. cbn [lstrip]. rewrite H1. reflexivity.
  Qed.

  Lemma ser_not_opaque v : ser v = true -> v <> VOpaque.
  Proof. intros H ->. discriminate. Qed.

  Theorem loads_dump st v : val_ok v -> ser v = true -> loads (dump_text st v) = Some v.
  Proof.
    intros V S. unfold dump_text, dump_top.
    rewrite loads_head by (apply dump_head_ok; auto using ser_not_opaque).
    destruct (proj1 (reads_all v V) S st 0) as [_ P].
    specialize (P [] (2 * List.length (fst (dump st 0 v)) + 2)). rewrite app_nil_r in P.
    rewrite P; [reflexivity| |lia]. apply rest_ok_stop. exact I.
  Qed.

  (** a document followed by something *)
  Theorem loads_dump_more st d more : val_ok (VDict d) -> ser (VDict d) = true -> skip_ws more <> [] ->
    loads (dump_text st (VDict d) ++ more) = None.
  Proof.
    intros V S H. unfold dump_text, dump_top.
    pose proof (dump_head_ok st 0 _ V (ser_not_opaque _ S)) as Hh.
    rewrite loads_head.
    2:{ destruct (fst (dump st 0 (VDict d))); [destruct Hh|exact Hh]. }
    destruct (proj1 (reads_all _ V) S st 0) as [_ P].
    rewrite P; [|exact I|rewrite app_length; lia].
    destruct (skip_ws more); [congruence|reflexivity].
  Qed.

  Lemma dump_ser st v : val_ok v -> snd (dump_top st v) = ser v.
  Proof.
    intros V. unfold dump_top. destruct (ser v) eqn:S.
    - apply (proj1 (reads_all v V) S st 0).
    - apply (proj2 (reads_all v V) S st 0).
  Qed.
  (** an interrupted document *)
  Theorem loads_bad st v : val_ok v -> ser v = false -> loads (dump_text st v) = None.
  Proof.
    intros V S. unfold dump_text, dump_top.
    destruct v; try discriminate.
    3: reflexivity.
    - rewrite loads_head by (apply dump_head_ok; auto; discriminate).
      rewrite (proj2 (proj2 (reads_all _ V) S st 0)) by lia. reflexivity.
    - rewrite loads_head by (apply dump_head_ok; auto; discriminate).
      rewrite (proj2 (proj2 (reads_all _ V) S st 0)) by lia. reflexivity.
  Qed.

  (** ** the text of an object *)
  Definition entry_text (st : style) (kv : pystr * pyval) : pystr := member st 1 (fst kv) (snd kv).
  Fixpoint more_entries (st : style) (d : list (pystr * pyval)) : pystr :=
    match d with
    | [] => []
    | kv :: d' => item_sep st 1 ++ entry_text st kv ++ more_entries st d'
    end.
  Lemma more_entries_app st a b : more_entries st (a ++ b) = more_entries st a ++ more_entries st b.
  Proof. induction a as [|kv a IH]; [reflexivity|]. cbn [app more_entries]. rewrite IH, <- !app_assoc. reflexivity. Qed.

  Lemma dict_ok_app a b : dict_ok (a ++ b) -> dict_ok a /\ dict_ok b.
  Proof.
    intros H. inv H. apply Forall_app in H1 as [Ha Hb]. rewrite keys_app in H2. apply NoDup_app_inv in H2 as (Na & Nb & _).
    split; constructor; auto.
  Qed.
  Lemma dict_ok_In d k v : dict_ok d -> In (k, v) d -> str_ok k /\ val_ok v.
  Proof. intros H. inv H. rewrite Forall_forall in H1. intros Hin. apply (H1 (k, v) Hin). Qed.
  Lemma dict_ok_keys d : dict_ok d -> NoDup (keys d).
  Proof. intros H. inv H. auto. Qed.

  Lemma dump_members_more st d : dict_ok d -> dict_ser d = true -> dump_members st 1 d = (more_entries st d, true).
  Proof.
    induction d as [|[k x] d IH]; intros V S; [reflexivity|].
    pose proof V as V'. change ((k, x) :: d) with ([(k, x)] ++ d) in V'. apply dict_ok_app in V' as [V1 V2].
    simpl in S. apply andb_prop in S as [S1 S2].
    destruct (dict_ok_In [(k, x)] k x V1 (or_introl eq_refl)) as [_ Vx].
    destruct (proj1 (reads_all x Vx) S1 st 1) as [Dx _].
    cbn [dump_members more_entries]. rewrite IH by auto.
    rewrite (seq_true (dump st 1 x)) by auto. rewrite !seq_true by reflexivity.
    unfold entry_text, member. cbn [fst snd text]. rewrite <- !app_assoc. reflexivity.
  Qed.
  Lemma dump_dict_text st kv d : dict_ok (kv :: d) -> dict_ser (kv :: d) = true ->
    dump_text st (VDict (kv :: d)) = [123%N] ++ newline st 1 ++ entry_text st kv ++ more_entries st d ++ newline st 0 ++ [125%N].
  Proof.
    destruct kv as [k x]. intros V S. pose proof V as V'. change ((k, x) :: d) with ([(k, x)] ++ d) in V'. apply dict_ok_app in V' as [V1 V2].
    simpl in S. apply andb_prop in S as [S1 S2].
    destruct (dict_ok_In [(k, x)] k x V1 (or_introl eq_refl)) as [_ Vx].
    destruct (proj1 (reads_all x Vx) S1 st 1) as [Dx _].
    unfold dump_text, dump_top. rewrite dump_dict, dump_members_more by auto.
    rewrite (seq_true (dump st 1 x)) by auto. rewrite !seq_true by reflexivity. cbn [fst snd text].
    unfold entry_text, member. cbn [fst snd]. rewrite <- !app_assoc. reflexivity.
  Qed.

  (** adding entries does not make the text shorter, even when the encoding of an added entry fails *)
  Lemma dump_members_prefix st a b : dict_ok a -> dict_ser a = true ->
    exists t ok, dump_members st 1 (a ++ b) = (more_entries st a ++ t, ok) /\ dump_members st 1 b = (t, ok).
  Proof.
    induction a as [|[k x] a IH]; intros V S.
    - simpl. destruct (dump_members st 1 b) as [t ok]. eauto.
    - pose proof V as V'. change ((k, x) :: a) with ([(k, x)] ++ a) in V'. apply dict_ok_app in V' as [V1 V2].
      simpl in S. apply andb_prop in S as [S1 S2].
      destruct (dict_ok_In [(k, x)] k x V1 (or_introl eq_refl)) as [_ Vx].
      destruct (proj1 (reads_all x Vx) S1 st 1) as [Dx _].
      destruct (IH V2 S2) as (t & ok & E & E2). exists t, ok. split; auto.
      cbn [app dump_members more_entries]. rewrite E. rewrite (seq_true (dump st 1 x)) by auto. rewrite !seq_true by reflexivity.
      unfold entry_text, member. cbn [fst snd text]. rewrite <- !app_assoc. reflexivity.
  Qed.

  Lemma dump_length_mono st a b : dict_ok a -> dict_ser a = true ->
    (b = [] \/ snd (dump_top st (VDict (a ++ b))) = true \/ st = Indent4) ->
    List.length (dump_text st (VDict a)) <= List.length (dump_text st (VDict (a ++ b))).
  Proof.
    intros V S Hb. destruct b as [|[k2 y] b]; [rewrite app_nil_r; auto|].
    destruct a as [|[k x] a].
    - cbn [app]. unfold dump_text, dump_top. change (List.length (fst (dump st 0 (VDict [])))) with 2. rewrite dump_dict.
      rewrite !fst_seq_text, !app_length. pose proof (json_str_length k2). simpl. lia.
    - rewrite dump_dict_text by auto. cbn [app]. unfold dump_text, dump_top in *. rewrite dump_dict in *.
      pose proof V as V'. change ((k, x) :: a) with ([(k, x)] ++ a) in V'. apply dict_ok_app in V' as [V1 V2].
      simpl in S. apply andb_prop in S as [S1 S2].
      destruct (dict_ok_In [(k, x)] k x V1 (or_introl eq_refl)) as [_ Vx].
      destruct (proj1 (reads_all x Vx) S1 st 1) as [Dx _].
      destruct (dump_members_prefix st a ((k2, y) :: b) V2 S2) as (t & ok & E & E2).
      rewrite E in *. rewrite (seq_true (dump st 1 x)) by auto. rewrite !fst_seq_text. cbn [fst].
      assert (Ht : List.length (item_sep st 1) + 2 <= List.length t).
      { cbn [dump_members] in E2. apply (f_equal fst) in E2. rewrite !fst_seq_text in E2. cbn [fst] in E2. subst t.
        rewrite !app_length. pose proof (json_str_length k2). lia. }
      unfold entry_text, member. cbn [fst snd].
      destruct ok.
      + rewrite seq_true by reflexivity. cbn [fst snd text]. rewrite !app_length. cbn [List.length]. rewrite ?app_length. cbn [List.length]. rewrite ?app_length. cbn [List.length]. lia.
      + rewrite seq_false by reflexivity. cbn [fst snd text].
        assert (Hn : List.length (newline st 0) + 1 <= List.length t).
        { destruct st; simpl in *; lia. }
        rewrite !app_length. cbn [List.length]. rewrite ?app_length. cbn [List.length]. rewrite ?app_length. cbn [List.length]. lia.
  Qed.
End Values.
