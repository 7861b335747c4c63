(** * ShownFacts: proofs about texts shown in quotes *)
From Verif Require Import PyBase Json Data FS Store Messages MessagesRun SpecShown.
From Coq Require Import Lia.

Lemma hex_digit_ok n : (n < 16)%N -> hex_digit_is (hex_digit n) n.
Proof. intros H. unfold hex_digit, hex_digit_is. destruct (N.ltb_spec n 10); [left|right]; lia. Qed.

Lemma hex_ok k : forall c, (c < 16 ^ N.of_nat k)%N -> hex_number (hex k c) c /\ List.length (hex k c) = k.
Proof.
  induction k as [|k IH]; intros c H.
  - cbn in H. assert (c = 0%N) by lia. subst. split; [constructor|reflexivity].
  - cbn [hex]. rewrite Nat2N.inj_succ, N.pow_succ_r' in H.
    destruct (IH (c / 16)%N) as (A & B); [apply N.div_lt_upper_bound; lia|]. split.
    + assert (DM : c = (16 * (c / 16) + c mod 16)%N) by (apply N.div_mod; lia).
      set (d := (c / 16)%N) in *. set (m := (c mod 16)%N) in *. rewrite DM. apply hex_more; [exact A|]. apply hex_digit_ok. apply N.mod_lt. discriminate.
    + rewrite app_length, B. cbn. lia.
Qed.

Section Shown.
  Context (u : N -> bool).

  Theorem char_shown q c : (q = 39 \/ q = 34)%N -> (c < 4294967296)%N -> shows u q c (repr_char u q c).
  Proof.
    intros Q L. unfold repr_char.
    destruct (N.eqb_spec c q) as [->|Nq]; [constructor|]. destruct (N.eqb_spec c 92) as [->|Nb]; [constructor|]. cbn [orb].
    destruct (N.eqb_spec c 9) as [->|N9]; [constructor|]. destruct (N.eqb_spec c 10) as [->|N10]; [constructor|].
    destruct (N.eqb_spec c 13) as [->|N13]; [constructor|].
    assert (NN : ~ has_name c) by (intros [E|[E|E]]; auto).
    destruct (N.ltb_spec c 32) as [L32|G32]; cbn [orb].
    { apply shows_2; [intros [X|(X & _)]; lia|exact NN|lia|apply hex_ok; cbn; lia|apply hex_ok; cbn; lia]. }
    destruct (N.eqb_spec c 127) as [->|N127].
    { apply shows_2; [intros [X|(X & _)]; lia|exact NN|lia|apply hex_ok; cbn; lia|apply hex_ok; cbn; lia]. }
    destruct (N.ltb_spec c 127) as [L127|G127].
    { apply shows_itself; [left; lia|exact Nq|exact Nb]. }
    destruct (u c) eqn:U.
    { apply shows_itself; [right; split; [lia|exact U]|exact Nq|exact Nb]. }
    assert (NA : ~ shown_as_is u c) by (intros [X|(_ & X)]; [lia|congruence]).
    destruct (N.ltb_spec c 256); [apply shows_2; auto; apply hex_ok; cbn; lia|].
    destruct (N.ltb_spec c 65536); [apply shows_4; auto; apply hex_ok; cbn; lia|].
    apply shows_8; auto; apply hex_ok; cbn; lia.
  Qed.

  Definition quote_of (s : pystr) : N := if existsb (N.eqb 39) s && negb (existsb (N.eqb 34) s) then 34%N else 39%N.
  Lemma quote_cases s : (quote_of s = 39 \/ quote_of s = 34)%N.
  Proof. unfold quote_of. destruct (_ && _); auto. Qed.
  Lemma existsb_in c s : existsb (N.eqb c) s = true <-> In c s.
  Proof.
    rewrite existsb_exists. split; [intros (x & I & E); apply N.eqb_eq in E; now subst|intros I; exists c; split; [exact I|apply N.eqb_refl]].
  Qed.

  Lemma chars_shown q s : (q = 39 \/ q = 34)%N -> unicode s -> Forall2 (shows u q) s (map (repr_char u q) s).
  Proof. intros Q. induction 1 as [|c s Hc F IH]; cbn [map]; constructor; [apply char_shown; [exact Q|lia]|exact IH]. Qed.

  Theorem text_shown s : unicode s -> shows_text u s (repr u s).
  Proof.
    intros F. exists (quote_of s), (map (repr_char u (quote_of s)) s). split; [|split].
    - unfold repr. fold (quote_of s). now rewrite flat_map_concat_map.
    - apply chars_shown; [apply quote_cases|exact F].
    - unfold quote_of. destruct (existsb (N.eqb 39) s) eqn:A; destruct (existsb (N.eqb 34) s) eqn:B; cbn [andb negb].
      + right. split; [|reflexivity]. intros (_ & X). apply X. now apply existsb_in.
      + left. split; [now apply existsb_in|]. split; [|reflexivity]. intros X. apply existsb_in in X. congruence.
      + right. split; [|reflexivity]. intros (X & _). apply existsb_in in X. congruence.
      + right. split; [|reflexivity]. intros (X & _). apply existsb_in in X. congruence.
  Qed.

  (** ** reading back *)
  Definition hval (d : N) : N := if N.ltb d 58 then (d - 48)%N else (d - 87)%N.
  Definition hread (ds : pystr) : N := fold_left (fun a d => 16 * a + hval d)%N ds 0%N.
  Lemma hread_ok ds n : hex_number ds n -> hread ds = n.
  Proof.
    induction 1 as [|ds n d v H IH D]; [reflexivity|]. unfold hread in *. rewrite fold_left_app, IH. cbn [fold_left]. f_equal.
    unfold hval. destruct D as [(A & ->)|(A & ->)]; destruct (N.ltb_spec d 58); lia.
  Qed.
  Definition hnum (k : nat) (s : pystr) : option (N * pystr) := Some (hread (firstn k s), skipn k s).
  Definition dec (s : pystr) : option (N * pystr) :=
    match s with
    | [] => None
    | a :: s1 =>
        if N.eqb a 92 then
          match s1 with
          | [] => None
          | b :: s2 =>
              if N.eqb b 116 then Some (9%N, s2) else if N.eqb b 110 then Some (10%N, s2) else if N.eqb b 114 then Some (13%N, s2)
              else if N.eqb b 120 then hnum 2 s2 else if N.eqb b 117 then hnum 4 s2 else if N.eqb b 85 then hnum 8 s2
              else Some (b, s2)
          end
        else Some (a, s1)
    end.
  Lemma hnum_ok k ds n r : List.length ds = k -> hex_number ds n -> hnum k (ds ++ r) = Some (n, r).
  Proof.
    intros <- H. unfold hnum. rewrite firstn_app, Nat.sub_diag, firstn_all, skipn_app, Nat.sub_diag, skipn_all. cbn [firstn skipn app].
    rewrite app_nil_r. now rewrite (hread_ok _ _ H).
  Qed.
  Lemma dec_ok q c t r : (q = 39 \/ q = 34)%N -> shows u q c t -> dec (t ++ r) = Some (c, r).
  Proof.
    intros Q H. destruct H as [c A Nq Nb| | | | | |c ds A B L Le H|c ds A L Le H|c ds A L Le H]; try reflexivity.
    - cbn [app dec]. destruct (N.eqb_spec c 92); [contradiction|reflexivity].
    - destruct Q as [-> | ->]; reflexivity.
    - apply (hnum_ok 2 ds c r Le H).
    - apply (hnum_ok 4 ds c r Le H).
    - apply (hnum_ok 8 ds c r Le H).
  Qed.
  Lemma shows_head q c t : (q = 39 \/ q = 34)%N -> shows u q c t -> exists a t', t = a :: t' /\ a <> q.
  Proof.
    intros Q H. destruct H as [c A Nq Nb| | | | | |c ds A B L Le H|c ds A L Le H|c ds A L Le H];
      try (exists 92%N; eexists; split; [reflexivity|destruct Q as [-> | ->]; discriminate]).
    exists c, []. auto.
  Qed.

  Lemma body_inj q s : (q = 39 \/ q = 34)%N -> forall s' ts ts' r r', Forall2 (shows u q) s ts -> Forall2 (shows u q) s' ts' ->
    concat ts ++ q :: r = concat ts' ++ q :: r' -> s = s' /\ r = r'.
  Proof.
    intros Q. induction s as [|c s IH]; intros s' ts ts' r r' F F' E.
    - inversion F; subst. cbn [concat app] in E. destruct F' as [|c' t' s' ts' H F'].
      + cbn [concat app] in E. injection E as ->. auto.
      + exfalso. destruct (shows_head q c' t' Q H) as (a & t2 & -> & NE). cbn [concat app] in E. injection E as E _. now apply NE.
    - inversion F as [|? t ? ts0 H F0]; subst. destruct F' as [|c' t' s' ts' H' F'].
      + exfalso. destruct (shows_head q c t Q H) as (a & t2 & -> & NE). cbn [concat app] in E. injection E as E _. now apply NE.
      + cbn [concat] in E. rewrite <- !app_assoc in E. pose proof (dec_ok q c t (concat ts0 ++ q :: r) Q H) as D.
        rewrite E, (dec_ok q c' t' (concat ts' ++ q :: r') Q H') in D. injection D as -> D.
        destruct (IH s' ts0 ts' r r' F0 F' (eq_sym D)) as (-> & ->). auto.
  Qed.

  Lemma repr_prefix s s' r r' : unicode s -> unicode s' -> repr u s ++ r = repr u s' ++ r' -> s = s' /\ r = r'.
  Proof.
    intros U U' E. destruct (text_shown s U) as (q & ts & R & F & Q). destruct (text_shown s' U') as (q' & ts' & R' & F' & Q').
    rewrite R, R' in E. cbn [app] in E. rewrite <- !app_assoc in E. cbn [app] in E. injection E as <- E.
    apply (body_inj q s) with (ts := ts) (ts' := ts'); auto. destruct Q as [(_ & _ & ->)|(_ & ->)]; auto.
  Qed.
  Lemma repr_head s : exists q t, repr u s = q :: t /\ (q = 39 \/ q = 34)%N.
  Proof. unfold repr. fold (quote_of s). eexists _, _. split; [reflexivity|apply quote_cases]. Qed.

  Definition rest_text (l : list pystr) : pystr := match l with [] => [] | _ => py ", " ++ join (py ", ") (map (repr u) l) end.
  Lemma join_cons s l : join (py ", ") (map (repr u) (s :: l)) = repr u s ++ rest_text l.
  Proof. destruct l; cbn [map join rest_text]; [now rewrite app_nil_r|reflexivity]. Qed.

  Lemma lists_inj e l : (e = 93 \/ e = 41)%N -> forall l', Forall unicode l -> Forall unicode l' ->
    join (py ", ") (map (repr u) l) ++ [e] = join (py ", ") (map (repr u) l') ++ [e] -> l = l'.
  Proof.
    intros Ee. induction l as [|s l IH]; intros l' F F' E.
    - destruct l' as [|s' l']; [reflexivity|]. exfalso. rewrite join_cons in E. destruct (repr_head s') as (q & t & R & Q). rewrite R in E.
      cbn [map join app] in E. injection E as E _. destruct Ee as [-> | ->], Q as [-> | ->]; discriminate.
    - destruct l' as [|s' l'].
      { exfalso. rewrite join_cons in E. destruct (repr_head s) as (q & t & R & Q). rewrite R in E.
        cbn [map join app] in E. injection E as E _. destruct Ee as [-> | ->], Q as [-> | ->]; discriminate. }
      inversion F as [|? ? Us Fl]; inversion F' as [|? ? Us' Fl']; subst. rewrite !join_cons, <- !app_assoc in E.
      destruct (repr_prefix s s' _ _ Us Us' E) as (-> & E'). f_equal.
      destruct l as [|a l], l' as [|a' l']; [reflexivity| | |].
      + exfalso. cbn [rest_text app] in E'. injection E' as E' _. destruct Ee as [-> | ->]; discriminate.
      + exfalso. cbn [rest_text app] in E'. injection E' as E' _. destruct Ee as [-> | ->]; discriminate.
      + apply IH; auto. unfold rest_text in E'. rewrite <- !app_assoc in E'. now apply app_inv_head in E'.
  Qed.

  Theorem shown_lists_differ l l' : Forall unicode l -> Forall unicode l' ->
    quoted_text u (AList l) = quoted_text u (AList l') \/ quoted_text u (ATuple l) = quoted_text u (ATuple l') -> l = l'.
  Proof.
    intros F F' [E|E]; cbn [quoted_text] in E; apply app_inv_head in E.
    - apply (lists_inj 93); auto.
    - apply (lists_inj 41); auto.
  Qed.
End Shown.
