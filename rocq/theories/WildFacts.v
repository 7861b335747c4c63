(** * WildFacts: names with wild cards (C81) *)
From Verif Require Import PyBase BaseFacts FS Store Gdbms SpecGdbms SpecWild.

Lemma class_some s : forall t r, glob_class s = Some (t, r) <-> s = t ++ 93%N :: r /\ ~ In 93%N t.
Proof.
  induction s as [|c s IH]; intros t r; cbn [glob_class].
  - split; [discriminate|]. intros [E _]. destruct t; discriminate E.
  - destruct (N.eqb c 93) eqn:C.
    + apply N.eqb_eq in C. subst c. split.
      * intros E. injection E as <- <-. split; [reflexivity|intros []].
      * intros [E N]. destruct t as [|x t]; cbn [app] in E; injection E; intros; subst; [reflexivity|]. exfalso. apply N. left. reflexivity.
    + apply N.eqb_neq in C. destruct (glob_class s) as [[t0 r0]|] eqn:G.
      * split.
        -- intros E. injection E as <- <-. destruct (proj1 (IH t0 r0) eq_refl) as [-> N]. split; [reflexivity|]. intros [X|X]; [congruence|contradiction].
        -- intros [E N]. destruct t as [|x t]; cbn [app] in E; injection E; intros; subst; [congruence|].
           assert (X : Some (t0, r0) = Some (t, r)) by (apply IH; split; [first [assumption|reflexivity]|intros X; apply N; right; exact X]). injection X as -> ->. reflexivity.
      * split; [discriminate|]. intros [E N]. destruct t as [|x t]; cbn [app] in E; injection E; intros; subst; [congruence|].
        assert (X : None = Some (t, r)) by (apply IH; split; [reflexivity|intros X; apply N; right; exact X]). discriminate X.
Qed.
(** the text after the exclamation mark, if there is one *)
Definition body_of (s1 : pystr) : option (pystr * pystr) :=
  match s1 with
  | c :: r => if N.eqb c 93 then match glob_class r with Some (t, r') => Some (c :: t, r') | None => None end else glob_class s1
  | [] => None
  end.
Lemma body_some s t r : body_of s = Some (t, r) <-> s = t ++ 93%N :: r /\ t <> [] /\ ~ In 93%N (tl t).
Proof.
  destruct s as [|c s]; cbn [body_of].
  - split; [discriminate|]. intros [E _]. destruct t; discriminate E.
  - destruct (N.eqb c 93) eqn:C.
    + apply N.eqb_eq in C. subst c. destruct (glob_class s) as [[t0 r0]|] eqn:G.
      * apply class_some in G as G'. destruct G' as [-> N]. split.
        -- intros E. injection E as <- <-. repeat split; [discriminate|exact N].
        -- intros (E & NE & NI). destruct t as [|x t]; [congruence|]. cbn [app tl] in *. injection E as <- E.
           assert (X : glob_class (t0 ++ 93%N :: r0) = Some (t, r)) by (apply class_some; split; assumption). pose proof (eq_trans (eq_sym G) X) as Y. injection Y as -> ->. reflexivity.
      * split; [discriminate|]. intros (E & NE & NI). destruct t as [|x t]; [congruence|]. cbn [app tl] in *. injection E as <- E.
        assert (X : glob_class s = Some (t, r)) by (apply class_some; split; assumption). pose proof (eq_trans (eq_sym G) X) as Y. discriminate Y.
    + apply N.eqb_neq in C. rewrite class_some. split.
      * intros [E N]. split; [exact E|]. destruct t as [|x t]; cbn [app] in E; [injection E; congruence|]. split; [discriminate|]. intros X. apply N. right. exact X.
      * intros (E & NE & NI). split; [exact E|]. destruct t as [|x t]; [congruence|]. cbn [app tl] in *. injection E as <- E. intros [X|X]; [congruence|contradiction].
Qed.
Lemma bracket_eq s : glob_bracket s =
  let (neg, s1) := match s with c :: r => if N.eqb c 33 then (true, r) else (false, s) | [] => (false, s) end in
  match body_of s1 with Some (t, r) => Some (glob_set neg (glob_ranges (S (List.length t)) t), r) | None => None end.
Proof. reflexivity. Qed.
Lemma bracket_some s g r : glob_bracket s = Some (g, r) <-> exists neg t, brackets s neg t r /\ g = glob_set neg (glob_ranges (S (List.length t)) t).
Proof.
  rewrite bracket_eq. unfold brackets. destruct s as [|c s].
  - cbn [body_of]. split; [discriminate|]. intros (neg & t & (E & _) & _). destruct neg, t; discriminate E.
  - destruct (N.eqb c 33) eqn:C.
    + apply N.eqb_eq in C. subst c. split.
      * destruct (body_of s) as [[t r0]|] eqn:B; [|discriminate]. intros E. injection E as <- <-. apply body_some in B as (-> & NE & NI).
        exists true, t. repeat split; auto. discriminate.
      * intros (neg & t & (E & NE & NI & NB) & ->). destruct neg.
        -- cbn [app] in E. injection E as E. rewrite (proj2 (body_some s t r)) by auto. reflexivity.
        -- exfalso. destruct t as [|x t]; [congruence|]. cbn [app] in E. injection E as E _. apply (NB eq_refl). cbn [hd]. congruence.
    + apply N.eqb_neq in C. split.
      * destruct (body_of (c :: s)) as [[t r0]|] eqn:B; [|discriminate]. intros E. injection E as <- <-. apply body_some in B as (E & NE & NI).
        exists false, t. split; [|reflexivity]. split; [exact E|]. split; [exact NE|]. split; [exact NI|]. intros _. destruct t as [|x t]; [congruence|].
        cbn [app] in E. injection E as <- _. exact C.
      * intros (neg & t & (E & NE & NI & NB) & ->). destruct neg; [cbn [app] in E; injection E; congruence|].
        rewrite (proj2 (body_some (c :: s) t r)) by auto. reflexivity.
Qed.
Definition item_of (r : N * option N) : item := match snd r with Some b => Span (fst r) b | None => One (fst r) end.
Lemma ranges_items : forall f s, (List.length s < f)%nat -> items s (map item_of (glob_ranges f s)).
Proof.
  induction f as [|f IH]; intros s L; [lia|]. destruct s as [|a s]; [constructor|].
  assert (ONE : (forall b r', s <> 45%N :: b :: r') -> glob_ranges (S f) (a :: s) = (a, None) :: glob_ranges f s).
  { intros H. destruct s as [|d [|b s]]; [reflexivity..|]. cbn [glob_ranges]. destruct (N.eqb d 45) eqn:D; [|reflexivity].
    apply N.eqb_eq in D. subst d. destruct (H b s eq_refl). }
  assert (CASES : (exists b r, s = 45%N :: b :: r) \/ forall b r', s <> 45%N :: b :: r').
  { destruct s as [|d [|b s]]; [right; discriminate..|]. destruct (N.eq_dec d 45) as [-> |D]; [left; eauto|right; congruence]. }
  cbn [List.length] in L. destruct CASES as [(b & r & ->)|H].
  - cbn [glob_ranges N.eqb Pos.eqb map]. unfold item_of at 1. cbn [fst snd]. constructor. apply IH. cbn [List.length] in L. lia.
  - rewrite ONE by exact H. cbn [map]. unfold item_of at 1. cbn [fst snd]. constructor; [exact H|]. apply IH. lia.
Qed.
Lemma items_unique s : forall l m, items s l -> items s m -> l = m.
Proof.
  intros l m H. revert m. induction H as [|a b r l H IH|a r l N H IH]; intros m M.
  - inversion M. reflexivity.
  - inversion M as [|a' b' r' l' H'|a' r' l' N' H']; subst; [f_equal; apply IH; assumption|destruct (N' b r eq_refl)].
  - inversion M as [|a' b' r' l' H'|a' r' l' N' H']; subst; [destruct (N b' r' eq_refl)|f_equal; apply IH; assumption].
Qed.
Lemma in_ranges_lists x l : in_ranges x l = true <-> lists (map item_of l) x.
Proof.
  unfold in_ranges, lists. rewrite existsb_exists. split.
  - intros ([a [b|]] & I & E); cbn [fst snd] in E.
    + right. exists a, b. unfold between in E. apply andb_true_iff in E as [E1 E2]. apply N.leb_le in E1, E2. split; [|lia].
      apply in_map_iff. exists (a, Some b). split; [reflexivity|exact I].
    + left. apply N.eqb_eq in E. subst a. apply in_map_iff. exists (x, None). split; [reflexivity|exact I].
  - intros [H|(a & b & H & B)]; apply in_map_iff in H as ([c [d|]] & E & I); try discriminate E; injection E as ->.
    + exists (x, None). split; [exact I|]. apply N.eqb_refl.
    + subst d. exists (a, Some b). split; [exact I|]. cbn [fst snd]. unfold between. apply andb_true_iff. rewrite !N.leb_le. lia.
Qed.
Lemma in_ranges_forward x l : in_ranges x (List.filter glob_forward l) = in_ranges x l.
Proof.
  unfold in_ranges. induction l as [|[a [b|]] l IH]; [reflexivity| |]; cbn [List.filter]; unfold glob_forward at 1; cbn [fst snd existsb].
  - destruct (N.leb a b) eqn:E; cbn [existsb fst snd]; rewrite IH; [reflexivity|]. apply N.leb_gt in E.
    replace (between a b x) with false; [reflexivity|]. unfold between. symmetry. apply andb_false_iff.
    destruct (N.leb a x) eqn:F; [right|left; reflexivity]. apply N.leb_le in F. apply N.leb_gt. lia.
  - cbn [existsb fst snd]. rewrite IH. reflexivity.
Qed.
Lemma forward_backward r : glob_forward r = false <-> backward (item_of r).
Proof.
  destruct r as [a [b|]]; unfold glob_forward, item_of; cbn [fst snd backward]; [apply N.leb_gt|]. split; [discriminate|intros []].
Qed.
(** the first that does not run backward *)
Lemma first_forward l : (Forall backward (map item_of l) /\ List.filter glob_forward l = []) \/
  exists l0 r l1, l = l0 ++ r :: l1 /\ Forall backward (map item_of l0) /\ ~ backward (item_of r) /\ List.filter glob_forward l = r :: List.filter glob_forward l1.
Proof.
  induction l as [|r l IH]; [left; split; [constructor|reflexivity]|]. cbn [List.filter]. destruct (glob_forward r) eqn:E.
  - right. exists [], r, l. split; [reflexivity|]. split; [constructor|]. split; [|reflexivity]. rewrite <- forward_backward. congruence.
  - apply forward_backward in E. destruct IH as [(F & Z)|(l0 & r' & l1 & -> & F & B & Z)].
    + left. split; [constructor; assumption|exact Z].
    + right. exists (r :: l0), r', l1. split; [reflexivity|]. split; [constructor; assumption|]. split; assumption.
Qed.
Lemma split_unique (l0 : list item) : forall i l1 m0 j m1, l0 ++ i :: l1 = m0 ++ j :: m1 -> Forall backward l0 -> ~ backward i -> Forall backward m0 -> ~ backward j ->
  l0 = m0 /\ i = j /\ l1 = m1.
Proof.
  induction l0 as [|a l0 IH]; intros i l1 m0 j m1 E F B G C; destruct m0 as [|b m0]; cbn [app] in E; injection E; intros E1 E2.
  - auto.
  - subst. inversion G. contradiction.
  - subst. inversion F. contradiction.
  - subst b. inversion F. inversion G. subst. destruct (IH _ _ _ _ _ E1) as (-> & -> & ->); auto.
Qed.
Lemma backward_lists l x : Forall backward l -> ~ lists l x.
Proof.
  intros F [H|(a & b & H & B)]; rewrite Forall_forall in F; apply F in H; cbn [backward] in H; [exact H|lia].
Qed.
(** what a set of the model means *)
Definition set_has (g : gitem) (x : N) : Prop := match g with GSet neg r => xorb neg (in_ranges x r) = true | _ => False end.
Lemma not_in_ranges x l : xorb true (in_ranges x l) = true <-> ~ lists (map item_of l) x.
Proof. rewrite <- in_ranges_lists. destruct (in_ranges x l); cbn; split; congruence. Qed.
Lemma is_in_ranges x l : xorb false (in_ranges x l) = true <-> lists (map item_of l) x.
Proof. rewrite <- in_ranges_lists. destruct (in_ranges x l); cbn; split; congruence. Qed.
Lemma lists_forward x l : lists (map item_of (List.filter glob_forward l)) x <-> lists (map item_of l) x.
Proof. rewrite <- !in_ranges_lists, in_ranges_forward. reflexivity. Qed.
Lemma lists_cons i l x : lists (i :: l) x <-> lists [i] x \/ lists l x.
Proof.
  unfold lists. cbn [In]. split.
  - intros [[H|H]|(a & b & [H|H] & B)]; [left; left; auto|right; left; exact H|left; right; exists a, b; auto|right; right; eauto].
  - intros [[[H|[]]|(a & b & [H|[]] & B)]|[H|(a & b & H & B)]]; [left; auto|right; exists a, b; auto|left; auto|right; exists a, b; auto].
Qed.
Lemma lists_app l m x : lists (l ++ m) x <-> lists l x \/ lists m x.
Proof.
  induction l as [|i l IH]; cbn [app].
  - split; [auto|]. intros [[[]|(a & b & [] & _)]|H]. exact H.
  - rewrite lists_cons, IH, (lists_cons i l). tauto.
Qed.
Lemma item_one r c : item_of r = One c <-> r = (c, None).
Proof. destruct r as [a [b|]]; unfold item_of; cbn [fst snd]; split; intros E; try discriminate E; injection E as ->; reflexivity. Qed.
Lemma item_span r c d : item_of r = Span c d <-> r = (c, Some d).
Proof. destruct r as [a [b|]]; unfold item_of; cbn [fst snd]; split; intros E; try discriminate E; injection E; intros; subst; reflexivity. Qed.
Lemma set_stands neg l x : set_has (glob_set neg l) x <-> stands neg (map item_of l) x.
Proof.
  unfold glob_set. destruct neg.
  - cbn [set_has]. rewrite not_in_ranges, lists_forward. split; [apply stands_not|]. inversion 1; subst; assumption.
  - destruct (first_forward l) as [(F & ->)|(l0 & r & l1 & -> & F & B & ->)].
    + cbn [set_has]. split; [discriminate|]. pose proof (backward_lists _ x F) as NL. intros H.
      inversion H as [|l' x' L _|m0 m1 x' G L E0 EQ|m0 b m1 x' G LE L E0 EQ]; subst; [contradiction| |].
      * rewrite <- EQ in F. apply Forall_app in F as [_ F]. inversion F as [|i m BB]. destruct BB.
      * rewrite <- EQ in F. apply Forall_app in F as [_ F]. inversion F as [|i m BB]. cbn [backward] in BB. lia.
    + rewrite map_app. cbn [map]. destruct r as [c o]. destruct (N.eqb c 33) eqn:C.
      * apply N.eqb_eq in C. subst c. cbn [set_has]. rewrite not_in_ranges. destruct o as [b|].
        -- cbn [map]. change (item_of (45%N, None)) with (One 45%N). change (item_of (b, None)) with (One b). change (item_of (33%N, Some b)) with (Span 33%N b) in *. cbn [backward] in B.
           rewrite (lists_cons (One 45%N)), (lists_cons (One b)), lists_forward, <- (lists_cons (One b)), <- (lists_cons (One 45%N)). split.
           ++ intros H. apply stands_span; [exact F|lia|exact H].
           ++ intros H. inversion H as [|l' x' L NO|m0 m1 x' G L E0 EQ|m0 b' m1 x' G LE L E0 EQ]; subst.
              ** exfalso. destruct (NO _ _ _ eq_refl F) as [_ Y]; [cbn [backward]; lia|]. exact (Y b eq_refl).
              ** apply split_unique in EQ as (_ & E & _); auto; first [discriminate E|cbn [backward]; lia].
              ** apply split_unique in EQ as (_ & E & ->); auto; first [injection E as ->; exact L|cbn [backward]; lia].
        -- change (item_of (33%N, None)) with (One 33%N) in *. rewrite lists_forward. split.
           ++ intros H. apply stands_late; assumption.
           ++ intros H. inversion H as [|l' x' L NO|m0 m1 x' G L E0 EQ|m0 b' m1 x' G LE L E0 EQ]; subst.
              ** exfalso. destruct (NO _ _ _ eq_refl F) as [Y _]; [intros []|]. exact (Y eq_refl).
              ** apply split_unique in EQ as (_ & _ & ->); auto.
              ** apply split_unique in EQ as (_ & E & _); auto; first [discriminate E|cbn [backward]; lia].
      * apply N.eqb_neq in C. cbn [set_has]. rewrite is_in_ranges. cbn [map]. split.
        -- intros H. apply stands_for.
           ++ apply lists_app. right. rewrite lists_cons, lists_forward in H. apply lists_cons. exact H.
           ++ intros m0 m1 i EQ G NB. apply split_unique in EQ as (_ & <- & _); auto.
              split; [rewrite item_one; congruence|intros b; rewrite item_span; congruence].
        -- intros H. inversion H as [|l' x' L NO|m0 m1 x' G L E0 EQ|m0 b' m1 x' G LE L E0 EQ]; subst.
           ++ apply lists_app in L as [L|L]; [destruct (backward_lists _ _ F L)|]. rewrite lists_cons in L. rewrite lists_cons, lists_forward. exact L.
           ++ exfalso. apply split_unique in EQ as (_ & E & _); auto. symmetry in E. apply item_one in E. congruence.
           ++ exfalso. apply split_unique in EQ as (_ & E & _); auto; first [symmetry in E; apply item_span in E; congruence|cbn [backward]; lia].
Qed.
Lemma set_is neg l : exists n r, glob_set neg l = GSet n r.
Proof.
  unfold glob_set. destruct neg; [eauto|]. destruct (List.filter glob_forward l) as [|[c o] l']; [eauto|]. destruct (N.eqb c 33); eauto.
Qed.
Lemma any_items l : forall t, glob_items (GAny :: l) t = true <-> exists t1 t2, t = t1 ++ t2 /\ glob_items l t2 = true.
Proof.
  induction t as [|c t IH].
  - change (glob_items (GAny :: l) []) with (glob_items l [] || false). rewrite orb_false_r. split; [intros H; exists [], []; auto|].
    intros (t1 & t2 & E & H). destruct t1, t2; try discriminate E. exact H.
  - change (glob_items (GAny :: l) (c :: t)) with (glob_items l (c :: t) || glob_items (GAny :: l) t). rewrite orb_true_iff, IH. split.
    + intros [H|(t1 & t2 & -> & H)]; [exists [], (c :: t); auto|exists (c :: t1), t2; auto].
    + intros ([|x t1] & t2 & E & H); cbn [app] in E; [subst; left; exact H|]. injection E as -> ->. right. eauto.
Qed.
Lemma brackets_shorter s neg t r : brackets s neg t r -> (List.length r < List.length s)%nat.
Proof. intros (-> & _). rewrite !app_length. cbn [List.length]. lia. Qed.
Lemma brackets_unique s neg t r neg' t' r' : brackets s neg t r -> brackets s neg' t' r' -> neg = neg' /\ t = t' /\ r = r'.
Proof.
  intros (E & NE & NI & NB) (E' & NE' & NI' & NB').
  assert (U : forall s1, s1 = t ++ 93%N :: r -> s1 = t' ++ 93%N :: r' -> t = t' /\ r = r').
  { intros s1 H H'. assert (X : body_of s1 = Some (t, r)) by (apply body_some; auto). assert (Y : body_of s1 = Some (t', r')) by (apply body_some; auto).
    pose proof (eq_trans (eq_sym X) Y) as Z. injection Z. auto. }
  destruct t as [|c t]; [congruence|]. destruct t' as [|c' t']; [congruence|].
  destruct neg, neg'; cbn [app] in E, E'.
  - rewrite E in E'. injection E' as E1 E2. destruct (U _ eq_refl (f_equal2 cons E1 E2)) as [A B]. auto.
  - exfalso. rewrite E in E'. injection E' as E1 _. apply (NB' eq_refl). cbn [hd]. congruence.
  - exfalso. rewrite E in E'. injection E' as E1 _. apply (NB eq_refl). cbn [hd]. congruence.
  - rewrite E in E'. destruct (U _ eq_refl E') as [A B]. auto.
Qed.
Lemma some_inj (g h : gitem) (r s : pystr) : Some (g, r) = Some (h, s) -> g = h /\ r = s.
Proof. intros E. injection E. auto. Qed.
Lemma set_items g l x t : (exists n r, g = GSet n r) -> glob_items (g :: l) (x :: t) = true <-> set_has g x /\ glob_items l t = true.
Proof. intros (n & r & ->). cbn [glob_items set_has]. apply andb_true_iff. Qed.
Lemma set_items_nil g l : (exists n r, g = GSet n r) -> glob_items (g :: l) [] = false.
Proof. intros (n & r & ->). reflexivity. Qed.
Lemma parse_fits : forall f s t, (List.length s < f)%nat -> glob_items (glob_parse f s) t = true <-> fits s t.
Proof.
  induction f as [|f IH]; intros s t L; [lia|]. destruct s as [|c s].
  - cbn [glob_parse glob_items]. destruct t; split; intros H; [constructor|reflexivity|discriminate|inversion H].
  - cbn [List.length] in L. cbn [glob_parse]. destruct (N.eqb c 42) eqn:C1; [|destruct (N.eqb c 63) eqn:C2; [|destruct (N.eqb c 91) eqn:C3]].
    + apply N.eqb_eq in C1. subst c. rewrite any_items. split.
      * intros (t1 & t2 & -> & H). constructor. apply IH; [lia|exact H].
      * inversion 1; subst; try congruence. exists t1, t2. split; [reflexivity|]. apply IH; [lia|assumption].
    + apply N.eqb_eq in C2. subst c. destruct t as [|x t]; cbn [glob_items].
      * split; [discriminate|]. inversion 1; subst; try congruence.
      * rewrite IH by lia. split; [constructor; assumption|]. inversion 1; subst; try congruence.
    + apply N.eqb_eq in C3. subst c. destruct (glob_bracket s) as [[g r]|] eqn:B.
      * apply bracket_some in B as B'. destruct B' as (neg & body & HB & ->). pose proof (brackets_shorter _ _ _ _ HB) as LR.
        destruct t as [|x t]; [rewrite set_items_nil by apply set_is; split; [discriminate|inversion 1; congruence]|].
        rewrite set_items by apply set_is. rewrite IH by lia. rewrite set_stands. pose proof (ranges_items (S (List.length body)) body ltac:(lia)) as R. split.
        -- intros [X F]. exact (fits_brackets s neg body r _ x t HB R X F).
        -- inversion 1 as [| | |s0 neg' body' r' l' x0 t0 HB' HI HL HF|s0 t0 NB HF|]; subst; [|destruct (NB _ _ _ HB)|congruence].
           destruct (brackets_unique _ _ _ _ _ _ _ HB HB') as (<- & <- & <-). rewrite (items_unique _ _ _ R HI). auto.
      * assert (NB : forall neg body rest, ~ brackets s neg body rest).
        { intros neg body rest HB. assert (E : glob_bracket s = Some (glob_set neg (glob_ranges (S (List.length body)) body), rest)) by (apply bracket_some; eauto). congruence. }
        destruct t as [|x t]; cbn [glob_items]; [split; [discriminate|inversion 1; congruence]|].
        rewrite andb_true_iff, IH by lia. rewrite N.eqb_eq. split; [intros [<- F]; apply fits_open; assumption|].
        inversion 1 as [| | |s0 neg' body' r' l' x0 t0 HB' HI HL HF|s0 t0 NB' HF|]; subst; [destruct (NB _ _ _ HB')|auto|congruence].
    + apply N.eqb_neq in C1, C2, C3. destruct t as [|x t]; cbn [glob_items]; [split; [discriminate|inversion 1; congruence]|].
      rewrite andb_true_iff, IH by lia. rewrite N.eqb_eq. split; [intros [<- F]; apply fits_itself; assumption|]. inversion 1; subst; try congruence. auto.
Qed.
Theorem fnmatch_fits s t : fnmatch s t = true <-> fits s t.
Proof. unfold fnmatch. apply parse_fits. lia. Qed.
