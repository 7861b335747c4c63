(** * AsciiFacts: the concrete runtime of AsciiRt meets the laws [rt_ok] and [rt_data] *)
From Verif Require Import PyBase BaseFacts Json JsonFacts RtLaws AsciiRt.
From Coq Require Import ZifyBool ZifyN ZifyNat.

Lemma ascii_ok' : rt_ok ascii_rt.
Proof. constructor; cbn; try discriminate; intros l H; split; auto; tauto. Qed.

Lemma span_spec p s : fst (span p s) ++ snd (span p s) = s /\ Forall (fun c => p c = true) (fst (span p s)).
Proof.
  induction s as [|c s [IH1 IH2]]; cbn [span]; [split; [reflexivity|constructor]|].
  destruct (p c) eqn:E; [|split; [reflexivity|constructor]].
  destruct (span p s) as [a b]. cbn [fst snd app] in *. split; [congruence|constructor; auto].
Qed.

Lemma scan_int_inv s i r : scan_int s = Some (i, r) -> s = i ++ r /\ json_int i.
Proof.
  destruct s as [|c s]; cbn [scan_int]; [discriminate|]. destruct (N.eqb_spec c 48).
  - intros H. inv H. split; [reflexivity|left; reflexivity].
  - destruct (between 49 57 c) eqn:B; [|discriminate]. pose proof (span_spec is_digit0 s) as [A F].
    destruct (span is_digit0 s) as [ds s2]. cbn [fst snd] in *. intros H. inv H.
    split; [reflexivity|]. right. exists c, ds. auto.
Qed.
Lemma scan_frac_inv s fr r : scan_frac s = (fr, r) -> s = fr ++ r /\ json_frac fr.
Proof.
  destruct s as [|c s]; cbn [scan_frac]; [intros H; inv H; split; [reflexivity|left; reflexivity]|].
  destruct (N.eqb_spec c 46); [|intros H; inv H; split; [reflexivity|left; reflexivity]]. subst c.
  pose proof (span_spec is_digit0 s) as [A F]. destruct (span is_digit0 s) as [[|d ds] s2]; cbn [fst snd] in *.
  - intros H; inv H; split; [reflexivity|left; reflexivity].
  - intros H; inv H; split; [reflexivity|]. right. exists (d :: ds). split; [reflexivity|]. split; [discriminate|auto].
Qed.
Lemma scan_exp_inv s ex r : scan_exp s = (ex, r) -> s = ex ++ r /\ json_exp ex.
Proof.
  destruct s as [|c s]; cbn [scan_exp]; [intros H; inv H; split; [reflexivity|left; reflexivity]|].
  destruct ((c =? 101)%N || (c =? 69)%N) eqn:E; [|intros H; inv H; split; [reflexivity|left; reflexivity]].
  set (q := match s with [] => ([], s) | x :: s2 => if ((x =? 45)%N || (x =? 43)%N)%bool then ([x], s2) else ([], s) end).
  assert (Q : s = fst q ++ snd q /\ (fst q = [] \/ fst q = [45%N] \/ fst q = [43%N])).
  { unfold q. destruct s as [|x s2]; [auto|]. destruct ((x =? 45)%N || (x =? 43)%N) eqn:X; [|auto].
    split; [reflexivity|]. cbn [fst]. destruct (N.eqb_spec x 45); [subst; auto|]. destruct (N.eqb_spec x 43); [subst; auto|discriminate]. }
  destruct q as [sg s2]. cbn [fst snd] in Q. destruct Q as [-> Q].
  pose proof (span_spec is_digit0 s2) as [A F]. destruct (span is_digit0 s2) as [[|d ds] s3]; cbn [fst snd] in *.
  - intros H; inv H; split; [reflexivity|left; reflexivity].
  - intros H; inv H. split; [cbn [app]; rewrite <- app_assoc; reflexivity|]. right. exists c, sg, (d :: ds).
    split; [reflexivity|]. split; [|split; [auto|split; [discriminate|auto]]].
    destruct (N.eqb_spec c 101); [auto|]. destruct (N.eqb_spec c 69); [auto|discriminate].
Qed.

Lemma is_json_number_ok s : is_json_number s = true -> json_number s.
Proof.
  unfold is_json_number. set (s' := match s with [] => s | c :: r => if (c =? 45)%N then r else s end).
  assert (Q : exists neg, s = neg ++ s' /\ (neg = [] \/ neg = [45%N])).
  { unfold s'. destruct s as [|c r]; [exists []; auto|]. destruct (N.eqb_spec c 45); [|exists []; auto].
    subst. exists [45%N]. auto. }
  destruct Q as (neg & Hs & Hn). rewrite Hs. clearbody s'. clear Hs.
  destruct (scan_int s') as [[i s1]|] eqn:E1; [|discriminate]. apply scan_int_inv in E1 as [-> Hi].
  destruct (scan_frac s1) as [fr s2] eqn:E2. apply scan_frac_inv in E2 as [-> Hf].
  destruct (scan_exp s2) as [ex s3] eqn:E3. apply scan_exp_inv in E3 as [-> He].
  destruct s3; [|discriminate]. destruct (fr ++ ex) eqn:E4; [discriminate|]. intros _.
  exists neg, i, fr, ex. rewrite app_nil_r, E4. repeat (split; auto). discriminate.
Qed.

Lemma cut_tail_idem s : cut_tail (cut_tail s) = cut_tail s.
Proof.
  induction s as [|c s IH]; [reflexivity|]. cbn [cut_tail]. destruct (cut_tail s) as [|d t] eqn:E.
  - destruct (N.eqb c 48) eqn:C; [reflexivity|]. cbn [cut_tail]. rewrite C. reflexivity.
  - change (match cut_tail (d :: t) with [] => if N.eqb c 48 then [] else [c] | t0 => c :: t0 end = c :: d :: t). rewrite IH. reflexivity.
Qed.
Lemma cut_tail_digits s : forallb is_digit0 s = true -> forallb is_digit0 (cut_tail s) = true.
Proof.
  induction s as [|c s IH]; [reflexivity|]. cbn [forallb]. intros H. apply andb_true_iff in H as [Hc Hs]. specialize (IH Hs). cbn [cut_tail].
  destruct (cut_tail s) as [|d t]; [destruct (N.eqb c 48); [reflexivity|cbn [forallb]; rewrite Hc; reflexivity]|].
  change (is_digit0 c && forallb is_digit0 (d :: t) = true). rewrite Hc, IH. reflexivity.
Qed.
Lemma cut_zeros_frac i d r : forallb is_digit0 i = true -> forallb is_digit0 r = true -> cut_zeros (i ++ 46%N :: d :: r) = i ++ 46%N :: d :: cut_tail r.
Proof.
  intros Hi Hr. induction i as [|c i IH]; [cbn [app cut_zeros]; rewrite Hr; reflexivity|]. cbn [forallb] in Hi. apply andb_true_iff in Hi as [Hc Hi].
  cbn [app cut_zeros]. destruct (N.eqb_spec c 46); [subst; discriminate|]. rewrite IH by exact Hi. reflexivity.
Qed.
Lemma json_int_digits i : json_int i -> forallb is_digit0 i = true.
Proof.
  intros [->|(c & ds & -> & Hc & F)]; [reflexivity|]. cbn [forallb]. apply andb_true_iff. split; [unfold is_digit0, between in *; lia|].
  apply forallb_forall. rewrite Forall_forall in F. exact F.
Qed.
Lemma drop_zeros_kept i r : json_int i -> drop_zeros (i ++ 46%N :: r) = i ++ 46%N :: r.
Proof.
  intros [->|(c & ds & -> & Hc & F)]; [reflexivity|]. cbn [app]. destruct (ds ++ 46%N :: r) as [|d t]; [reflexivity|]. cbn [drop_zeros].
  destruct (N.eqb_spec c 48); [subst; discriminate|reflexivity].
Qed.

(** dropping zeros from a fraction leaves a fraction with a JSON integer part *)
Lemma drop_zeros_frac a r : a <> [] -> forallb is_digit0 a = true ->
  match r with c :: _ => is_digit0 c = false | [] => True end ->
  exists i, drop_zeros (a ++ r) = i ++ r /\ json_int i.
Proof.
  intros Hne Ha Hr. induction a as [|c a IH]; [congruence|]. cbn [forallb] in Ha. apply andb_true_iff in Ha as [Hc Ha].
  destruct a as [|d a].
  - exists [c]. split.
    + destruct r as [|e r]; [reflexivity|]. cbn [app drop_zeros]. rewrite Hr, andb_false_r. reflexivity.
    + destruct (N.eqb_spec c 48); [subst; left; reflexivity|right]. exists c, []. repeat split; auto.
      unfold is_digit0, between in *. lia.
  - pose proof Ha as Ha'. cbn [forallb] in Ha'. apply andb_true_iff in Ha' as [Hd _].
    cbn [app drop_zeros]. destruct (N.eqb_spec c 48).
    + rewrite Hd. cbn [andb]. apply IH; [discriminate|auto].
    + cbn [andb]. exists (c :: d :: a). split; [reflexivity|]. right. exists c, (d :: a). split; [reflexivity|]. split.
      * unfold is_digit0, between in *. lia.
      * apply Forall_forall. rewrite forallb_forall in Ha. auto.
Qed.

Lemma is_json_number_frac i b : json_int i -> b <> [] -> Forall (fun c => is_digit0 c = true) b ->
  is_json_number (i ++ 46%N :: b) = true.
Proof.
  intros Hi Hb Fb. unfold is_json_number.
  match goal with |- context [scan_int ?x] => assert (X : x = i ++ 46%N :: b) end.
  { destruct Hi as [->|(c & ds & -> & Hc & _)]; [reflexivity|]. cbn [app]. destruct (N.eqb_spec c 45); [|reflexivity].
    subst. discriminate. }
  rewrite X, (scan_int_json i (46%N :: b) Hi eq_refl).
  pose proof (scan_frac_json (46%N :: b) []) as Q. rewrite app_nil_r in Q. rewrite Q; [reflexivity| |exact I|discriminate].
  right. exists b. auto.
Qed.

Theorem ascii_data : rt_data ascii_rt.
Proof.
  constructor.
  - exact ascii_ok'.
  - cbn. discriminate.
  - cbn. discriminate.
  - cbn [f_repr ascii_rt]. intros s t H. left. unfold ascii_f_repr in H. cbv zeta in H.
    destruct (is_json_number _ && _ && _) eqn:E in H; [|discriminate]. inv H. set (t := cut_zeros (drop_zeros s)) in *.
    apply andb_true_iff in E as [E E3]. apply andb_true_iff in E as [E1 E2]. split; [apply is_json_number_ok; auto|].
    apply str_eqb_eq in E2, E3. cbn [f_repr ascii_rt]. unfold ascii_f_repr. cbv zeta. rewrite E2, E3, E1, E2, E3, (proj2 (str_eqb_eq t t) eq_refl). reflexivity.
  - cbn [f_repr ascii_rt]. intros a b Ha Hb Da Db. unfold ascii_f_repr. cbv zeta.
    destruct (drop_zeros_frac a (46%N :: b) Ha Da eq_refl) as (i & -> & Hi). pose proof (json_int_digits i Hi) as Di.
    destruct b as [|d b]; [congruence|]. cbn [forallb] in Db. apply andb_true_iff in Db as [Dd Db]. pose proof (cut_tail_digits b Db) as Dt.
    rewrite (cut_zeros_frac i d b Di Db), (drop_zeros_kept i _ Hi), (cut_zeros_frac i d _ Di Dt), cut_tail_idem.
    exists (i ++ 46%N :: d :: cut_tail b).
    rewrite (is_json_number_frac i (d :: cut_tail b) Hi); [rewrite (proj2 (str_eqb_eq _ _) eq_refl); reflexivity|discriminate|].
    constructor; [exact Dd|]. apply Forall_forall. rewrite forallb_forall in Dt. exact Dt.
  - cbn. discriminate.
  - left. split; [apply is_json_number_ok; reflexivity|reflexivity].
Qed.
