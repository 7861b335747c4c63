(** * ListFacts: list literals (C16) *)
From Verif Require Import PyBase BaseFacts Json JsonFacts Literal Props RtLaws PropsFacts SpecText SpecPattern SpecValue ValueFacts.
From Coq Require Import ZifyBool ZifyN ZifyNat.

(** ** str.replace *)
Lemma starts_with_sep old a c b : ~ In c old -> starts_with old (a ++ c :: b) = true -> starts_with old a = true /\ List.length old <= List.length a.
Proof.
  revert a; induction old as [|x old IH]; intros a N H; [split; [destruct a; reflexivity|cbn; lia]|].
  destruct a as [|y a]; cbn [app starts_with] in H; apply andb_prop in H as [E H]; apply N.eqb_eq in E; subst.
  - exfalso. apply N. left. reflexivity.
  - destruct (IH a) as [E L]; auto. { intros X. apply N. right. exact X. }
    cbn [starts_with List.length]. rewrite N.eqb_refl, E. split; [reflexivity|lia].
Qed.
Lemma starts_with_ext old a b : starts_with old a = true -> starts_with old (a ++ b) = true.
Proof. rewrite !starts_with_app. intros [t ->]. exists (t ++ b). rewrite app_assoc. reflexivity. Qed.
Lemma replace_from_sep old new c b : old <> [] -> ~ In c old -> forall a k, k <= List.length a ->
  replace_from old new k (a ++ c :: b) = replace_from old new k a ++ c :: replace_from old new 0 b.
Proof.
  intros Ne Nc. induction a as [|x a IH]; intros k L.
  - cbn [List.length] in L. replace k with 0 by lia. cbn [app replace_from].
    destruct (starts_with old (c :: b)) eqn:E; [|reflexivity].
    apply (starts_with_sep old [] c b Nc) in E as [_ E]. destruct old; [congruence|cbn in E; lia].
  - cbn [List.length] in L. cbn [app replace_from]. destruct k as [|k]; [|apply IH; lia].
    destruct (starts_with old (x :: a ++ c :: b)) eqn:E.
    + apply (starts_with_sep old (x :: a) c b Nc) in E as [E E']. rewrite E. cbn [List.length] in E'.
      rewrite IH by lia. rewrite <- app_assoc. reflexivity.
    + destruct (starts_with old (x :: a)) eqn:E2.
      * apply (starts_with_ext _ _ (c :: b)) in E2. cbn [app] in E2. congruence.
      * cbn [app]. f_equal. apply IH. lia.
Qed.
Lemma replace_sep old new c a b : old <> [] -> ~ In c old -> replace old new (a ++ c :: b) = replace old new a ++ c :: replace old new b.
Proof. intros. apply replace_from_sep; auto. lia. Qed.
Lemma replace_none old new s : contains old s = false -> replace old new s = s.
Proof.
  unfold replace. induction s as [|x s IH]; [reflexivity|]. cbn [contains replace_from]. intros H. apply orb_false_elim in H as [H1 H2].
  rewrite H1. f_equal. auto.
Qed.
Lemma replace_from_Forall (P : N -> Prop) old new : Forall P new -> forall s k, Forall P s -> Forall P (replace_from old new k s).
Proof.
  intros Hn. induction s as [|x s IH]; intros k H; [constructor|]. inv H. cbn [replace_from]. destruct k; [|auto].
  destruct (starts_with old (x :: s)); [apply Forall_app; auto|constructor; auto].
Qed.
Lemma replace_Forall (P : N -> Prop) old new s : Forall P new -> Forall P s -> Forall P (replace old new s).
Proof. intros. apply replace_from_Forall; auto. Qed.

Lemma respelt_sep c a b : is_lower0 c = false -> respelt (a ++ c :: b) = respelt a ++ c :: respelt b.
Proof.
  intros H. assert (N : forall l, forallb is_lower0 l = true -> ~ In c l).
  { intros l Hl Hc. rewrite forallb_forall in Hl. apply Hl in Hc. congruence. }
  unfold respelt. rewrite !replace_sep; auto; try discriminate; apply N; reflexivity.
Qed.
Lemma respelt_cons c b : is_lower0 c = false -> respelt (c :: b) = c :: respelt b.
Proof. intros H. apply (respelt_sep c [] b H). Qed.
Definition no_lower_head (s : pystr) : Prop := match s with [] => True | c :: _ => is_lower0 c = false end.
Lemma respelt_app a b : no_lower_head b -> respelt (a ++ b) = respelt a ++ respelt b.
Proof.
  destruct b as [|c b]; cbn [no_lower_head]; intros H; [change (respelt []) with (@nil N); rewrite !app_nil_r; reflexivity|].
  rewrite respelt_sep by auto. rewrite respelt_cons by auto. reflexivity.
Qed.
Lemma respelt_id a : Forall (fun c => is_lower0 c = false) a -> respelt a = a.
Proof. induction 1 as [|c a Hc H IH]; [reflexivity|]. rewrite respelt_cons, IH; auto. Qed.
Lemma respelt_app_id a b : Forall (fun c => is_lower0 c = false) a -> respelt (a ++ b) = a ++ respelt b.
Proof. induction 1 as [|c a Hc H IH]; [reflexivity|]. cbn [app]. rewrite respelt_cons, IH; auto. Qed.
Lemma respelt_Forall (P : N -> Prop) c : (forall x, In x (py "TrueFalseNone") -> P x) -> Forall P c -> Forall P (respelt c).
Proof.
  intros H F. assert (G : forall l, (forall x, In x l -> In x (py "TrueFalseNone")) -> Forall P l).
  { intros l Hl. apply Forall_forall. intros x Hx. apply H, Hl, Hx. }
  unfold respelt. repeat apply replace_Forall; auto; apply G; vm_compute; tauto.
Qed.
Lemma has_literal_contains c : has_literal c <-> contains (py "true") c = true \/ contains (py "false") c = true \/ contains (py "null") c = true.
Proof.
  rewrite !contains_app. unfold has_literal. split.
  - intros (a & w & b & E & [<-|[<-|[<-|[]]]]); [left|right; left|right; right]; eauto.
  - intros [(a & b & E)|[(a & b & E)|(a & b & E)]]; exists a; eexists _, b; (split; [exact E|cbn; auto]).
Qed.
Lemma respelt_same c : ~ has_literal c -> respelt c = c.
Proof.
  rewrite has_literal_contains. intros H. unfold respelt.
  rewrite (replace_none (py "true")) by (destruct (contains (py "true") c); tauto).
  rewrite (replace_none (py "false")) by (destruct (contains (py "false") c); tauto).
  apply replace_none. destruct (contains (py "null") c); tauto.
Qed.

(** a string with one of the words is changed: the number of capitals T, F, N grows *)
Definition cap_ch (c : N) : bool := existsb (N.eqb c) (py "TFN").
Fixpoint caps_in (s : pystr) : nat := match s with [] => 0 | c :: s' => (if cap_ch c then 1 else 0) + caps_in s' end.
Lemma caps_in_app a b : caps_in (a ++ b) = caps_in a + caps_in b.
Proof. induction a as [|c a IH]; cbn; [reflexivity|rewrite IH; lia]. Qed.
Lemma caps_skip old : forallb is_lower0 old = true -> caps_in old = 0.
Proof.
  induction old as [|c old IH]; [reflexivity|]. cbn [forallb caps_in]. intros H. apply andb_prop in H as [Hc H]. rewrite IH by auto.
  replace (cap_ch c) with false; auto. symmetry. unfold cap_ch. cbn. unfold is_lower0, between in Hc. lia.
Qed.
Lemma caps_replace_from old new : old <> [] -> forallb is_lower0 old = true -> 0 < caps_in new -> forall s k,
  caps_in (skipn k s) <= caps_in (replace_from old new k s) /\
  (contains old (skipn k s) = true -> caps_in (skipn k s) < caps_in (replace_from old new k s)).
Proof.
  intros Ne Lo Ca. induction s as [|x s IH]; intros k.
  - rewrite skipn_nil. cbn [replace_from]. split; [lia|]. cbn [contains]. destruct old; [congruence|discriminate].
  - destruct k as [|k]; [|cbn [skipn replace_from]; apply IH]. cbn [skipn replace_from]. destruct (starts_with old (x :: s)) eqn:E.
    + apply starts_with_app in E as [t E]. destruct old as [|y old]; [congruence|]. cbn [app] in E. inv E.
      cbn [List.length]. replace (S (List.length old) - 1) with (List.length old) by lia.
      destruct (IH (List.length old)) as [IH1 _]. rewrite skipn_app, Nat.sub_diag, skipn_all in IH1. cbn [app skipn] in IH1.
      rewrite caps_in_app. pose proof (caps_skip _ Lo) as Z. cbn [caps_in] in Z. cbn [caps_in]. rewrite caps_in_app. lia.
    + destruct (IH 0) as [IH1 IH2]. cbn [skipn] in *. cbn [caps_in contains]. rewrite E. cbn [orb]. split; [lia|]. intros H. specialize (IH2 H). lia.
Qed.
Lemma caps_replace old new s : old <> [] -> forallb is_lower0 old = true -> 0 < caps_in new ->
  caps_in s <= caps_in (replace old new s) /\ (contains old s = true -> caps_in s < caps_in (replace old new s)).
Proof. intros. apply (caps_replace_from old new H H0 H1 s 0). Qed.
Lemma respelt_changes c : has_literal c -> respelt c <> c.
Proof.
  rewrite has_literal_contains. intros H E.
  assert (L : caps_in c < caps_in (respelt c)); [|rewrite E in L; lia].
  unfold respelt.
  destruct (caps_replace (py "true") (py "True") c) as [A1 B1]; [discriminate|reflexivity|vm_compute; lia|].
  set (c1 := replace (py "true") (py "True") c) in *.
  destruct (caps_replace (py "false") (py "False") c1) as [A2 B2]; [discriminate|reflexivity|vm_compute; lia|].
  set (c2 := replace (py "false") (py "False") c1) in *.
  destruct (caps_replace (py "null") (py "None") c2) as [A3 B3]; [discriminate|reflexivity|vm_compute; lia|].
  destruct (contains (py "true") c) eqn:Et; [specialize (B1 eq_refl); lia|].
  assert (E1 : c1 = c) by (apply replace_none; auto). rewrite E1 in *.
  destruct (contains (py "false") c) eqn:Ef; [specialize (B2 eq_refl); lia|].
  assert (E2 : c2 = c) by (unfold c2; rewrite E1; apply replace_none; auto). rewrite E2 in *.
  destruct H as [H|[H|H]]; try discriminate. specialize (B3 H). lia.
Qed.

Section ListFacts.
  Context {rt : PyRt} (D : rt_data rt).

  (** ** the respelt text of a list *)
  Definition relem (e : welem) : pystr :=
    match e with
    | Elem SNull => py "None"
    | Elem (SBool true) => py "True"
    | Elem (SBool false) => py "False"
    | Elem (SInt ds) => ds
    | Elem (SFrac a b) => a ++ py "." ++ b
    | Elem (SStr q c w) => [q] ++ respelt c ++ [q] ++ w
    | Bare w => w
    end.
  Fixpoint relems (l : wlist) : pystr :=
    match l with
    | [] => []
    | [(a, e, b)] => a ++ relem e ++ b
    | (a, e, b) :: l' => a ++ relem e ++ b ++ py "," ++ relems l'
    end.
  Lemma digits_no_lower ds : Forall (fun c => is_digit0 c = true) ds -> Forall (fun c => is_lower0 c = false) ds.
  Proof. apply Forall_impl. intros c. unfold is_digit0, is_lower0, between. lia. Qed.
  Lemma blank_no_lower a : inner_blank a -> Forall (fun c => is_lower0 c = false) a.
  Proof. apply Forall_impl. intros c [-> |[-> | ->]]; reflexivity. Qed.
  Lemma respelt_elem e : elem_written e -> respelt (show_elem e) = relem e.
  Proof.
    destruct e as [[|[]|ds|a b|q c w]|w]; cbn [elem_written show_elem show_scalar relem]; try reflexivity.
    - intros [H _]. apply Digits_0 in H as [_ H]. apply respelt_id, digits_no_lower; auto.
    - intros [H1 H2]. apply Digits_0 in H1 as [_ H1]. apply Digits_0 in H2 as [_ H2]. apply respelt_id.
      apply Forall_app. split; [apply digits_no_lower; auto|]. constructor; [reflexivity|]. apply digits_no_lower; auto.
    - intros (Q & T & B). assert (Lq : is_lower0 q = false) by (destruct Q; subst; reflexivity).
      cbn [app]. rewrite respelt_cons by auto. f_equal. rewrite respelt_sep by auto. f_equal. f_equal.
      apply respelt_id, blank_no_lower; auto.
    - intros (_ & _ & H). apply respelt_same; auto.
  Qed.
  Lemma no_lower_app a b : inner_blank a -> no_lower_head b -> no_lower_head (a ++ b).
  Proof. intros Ha Hb. apply blank_no_lower in Ha. destruct Ha; auto. Qed.
  Lemma respelt_elems l : Forall elem3_written l -> respelt (show_elems l) = relems l.
  Proof.
    induction 1 as [|[[a e] b] l (Ha & Hb & He) Hl IH]; [reflexivity|]. cbn [fst snd] in *.
    cbn [show_elems relems]. destruct l as [|x l].
    - rewrite respelt_app_id by (apply blank_no_lower; auto). f_equal.
      rewrite respelt_app by (rewrite <- (app_nil_r b); apply no_lower_app; [auto|exact I]).
      rewrite respelt_elem by auto. f_equal. apply respelt_id, blank_no_lower; auto.
    - rewrite respelt_app_id by (apply blank_no_lower; auto). f_equal.
      rewrite respelt_app by (apply no_lower_app; [auto|reflexivity]). rewrite respelt_elem by auto. f_equal.
      rewrite respelt_app_id by (apply blank_no_lower; auto). f_equal.
      change (py "," ++ show_elems (x :: l)) with (44%N :: show_elems (x :: l)). rewrite respelt_cons by reflexivity. rewrite IH. reflexivity.
  Qed.

  (** ** the lexer *)
  Definition delim (rest : pystr) : Prop := match rest with [] => True | c :: _ => c = 44%N \/ c = 32%N \/ c = 9%N \/ c = 10%N end.
  Definition float_text (a b : pystr) : pystr := match f_repr (a ++ py "." ++ b) with Some t => t | None => [] end.
  Definition atom_of (e : welem) : atom :=
    match e with
    | Elem SNull => AVal VNone
    | Elem (SBool b) => AVal (VBool b)
    | Elem (SInt ds) => AVal (VInt (decimal ds))
    | Elem (SFrac a b) => AVal (VFloat (float_text a b))
    | Elem (SStr q c w) => AStr (respelt c)
    | Bare w => AName
    end.
  Fixpoint atoms (l : wlist) : list atom :=
    match l with
    | [] => []
    | [(a, e, b)] => [atom_of e]
    | (a, e, b) :: l' => atom_of e :: AComma :: atoms l'
    end.
  Lemma decimal_digits ds : Forall (fun c => is_digit0 c = true) ds -> Z.of_N (N_of_digits ds) = decimal ds.
  Proof.
    unfold N_of_digits, decimal. change 0%Z with (Z.of_N 0). generalize 0%N. intros n H. revert n.
    induction H as [|c ds Hc H IH]; intros n; [reflexivity|]. cbn [fold_left]. rewrite IH. f_equal.
    unfold is_digit0, between in Hc. lia.
  Qed.
  Lemma lex_blanks a s : inner_blank a -> forall f, List.length a <= f -> lex f (a ++ s) = lex (f - List.length a) s.
  Proof.
    induction 1 as [|c a Hc H IH]; intros f L; [cbn [app List.length]; f_equal; lia|].
    cbn [List.length] in *. destruct f as [|f]; [lia|]. cbn [app lex].
    replace (is_blank c) with true by (destruct Hc as [-> |[-> | ->]]; reflexivity). rewrite IH by lia. f_equal.
  Qed.
  Lemma quoted_text q c s : list_text q c -> quoted q (c ++ q :: s) = Some (Some (c, s)).
  Proof.
    induction 1 as [|x c (Hx & N1 & N2 & N3) H IH]; cbn [app quoted].
    - rewrite N.eqb_refl. reflexivity.
    - replace (N.eqb x q) with false by lia. rewrite IH.
      assert (x <> 92%N /\ x <> 0%N).
      { split; intros ->; destruct Hx as [Hx|[Hx|Hx]]; try discriminate; vm_compute in Hx; repeat destruct Hx as [Hx|Hx]; discriminate || contradiction. }
      replace (N.eqb x 92) with false by lia. replace (N.eqb x 10) with false by lia. replace (N.eqb x 13 || N.eqb x 0) with false by lia. reflexivity.
  Qed.
  Lemma list_text_respelt q c : quote_mark q -> list_text q c -> list_text q (respelt c).
  Proof.
    intros Q. apply respelt_Forall. intros x Hx.
    assert (is_alpha0 x = true) by (vm_compute in Hx; repeat destruct Hx as [<- |Hx]; try reflexivity; contradiction).
    split; [left; apply word0_word; unfold is_word0; rewrite H; reflexivity|].
    unfold is_alpha0, is_upper0, is_lower0, between in H. destruct Q; subst; lia.
  Qed.
  Lemma delim_blank b rest : inner_blank b -> delim rest -> delim (b ++ rest).
  Proof. intros Hb Hr. destruct Hb as [|c b Hc Hb]; auto. cbn. tauto. Qed.
  Lemma delim_head rest : delim rest -> match rest with [] => True | c :: _ => is_word0 c = false /\ is_ascii c = true /\ is_quote c = false /\ N.eqb c 46 = false end.
  Proof. destruct rest as [|c r]; auto. intros [-> |[-> |[-> | ->]]]; auto. Qed.

  (** one element; [n] is the length of the blanks that belong to a string *)
  Lemma lex_number run rest f : run <> [] -> (exists c r, run = c :: r /\ is_digit0 c = true) ->
    Forall (fun c => is_word0 c || N.eqb c 46 = true) run -> delim rest ->
    lex (S f) (run ++ rest) = lex_app (number_atom run) (lex f rest).
  Proof.
    intros _ (c & r & -> & Hc) F Hr. pose proof (delim_head _ Hr) as Hh. cbn [app lex].
    assert (B : is_blank c = false /\ N.eqb c 44 = false /\ is_quote c = false) by (unfold is_digit0, between, is_blank, is_quote in *; lia).
    destruct B as (-> & -> & ->). rewrite Hc.
    change (c :: r ++ rest) with ((c :: r) ++ rest).
    rewrite (span_all (fun x => is_word0 x || N.eqb x 46)); [|exact F|destruct rest; auto; destruct Hh as (-> & _ & _ & ->); reflexivity].
    destruct rest as [|c2 rest]; [reflexivity|]. destruct Hh as (_ & -> & _). reflexivity.
  Qed.
  Lemma lex_name run rest f : (exists c r, run = c :: r /\ is_name_start c = true) ->
    Forall (fun c => is_word0 c = true) run -> delim rest ->
    lex (S f) (run ++ rest) = lex_app (name_atom run) (lex f rest).
  Proof.
    intros (c & r & -> & Hc) F Hr. pose proof (delim_head _ Hr) as Hh. cbn [app lex].
    assert (B : is_blank c = false /\ N.eqb c 44 = false /\ is_quote c = false /\ is_digit0 c = false)
      by (unfold is_name_start, is_alpha0, is_upper0, is_lower0, is_digit0, between, is_blank, is_quote in *; lia).
    destruct B as (-> & -> & -> & ->). rewrite Hc. change (c :: r ++ rest) with ((c :: r) ++ rest).
    rewrite (span_all is_word0); [|exact F|destruct rest; auto; tauto].
    destruct rest as [|c2 rest]; [reflexivity|]. destruct Hh as (_ & -> & -> & _). reflexivity.
  Qed.
  Lemma lex_app_one a l : lex_app (LexOk [a]) l = lex_cons a l.
  Proof. destruct l; reflexivity. Qed.
  (** numbers that are too long are a syntax error *)
  Definition fits_b (e : welem) : bool :=
    match e with
    | Elem (SInt ds) => int_fits (N.of_nat (List.length ds)) || Nat.eqb (List.length ds) 1 || forallb (N.eqb 48) ds
    | _ => true
    end.
  Lemma fits_true e : fits_b e = true <-> elem_fits e.
  Proof.
    destruct e as [[|b|ds|a b|q c w]|w]; cbn [fits_b elem_fits]; try tauto. rewrite !orb_true_iff, Nat.eqb_eq, forallb_forall, Forall_forall.
    unfold short_enough. assert (X : (forall x, In x ds -> N.eqb 48 x = true) <-> (forall x, In x ds -> 48%N = x)).
    { split; intros H x Hx; [apply N.eqb_eq|apply N.eqb_eq]; auto. }
    tauto.
  Qed.
  Definition elem_lex (e : welem) : lexed := if fits_b e then LexOk [atom_of e] else LexSyntax.
  Lemma lex_elem e b rest : elem_written e -> inner_blank b -> delim rest ->
    forall f, List.length (relem e ++ b) <= f -> exists f', f - List.length (relem e ++ b) <= f' /\
      lex f (relem e ++ b ++ rest) = lex_app (elem_lex e) (lex f' rest).
  Proof.
    intros W Hb Hr f L. pose proof (delim_blank b rest Hb Hr) as Hd. rewrite app_length in L.
    assert (G : forall f, List.length b <= f -> lex f (b ++ rest) = lex (f - List.length b) rest).
    { intros. apply lex_blanks; auto. }
    assert (Lrun : forall run : pystr, run <> [] -> List.length run + List.length b <= f -> exists f', f = S f' /\ List.length b <= f').
    { intros run N Lr. destruct run; [congruence|]. cbn in Lr. destruct f as [|f']; [lia|]. exists f'. split; [auto|lia]. }
    assert (Name : forall (run : pystr) (a : lexed), (exists c r, run = c :: r /\ is_name_start c = true) -> Forall (fun c => is_word0 c = true) run ->
              name_atom run = a -> List.length run + List.length b <= f ->
              exists f', f - List.length (run ++ b) <= f' /\ lex f (run ++ b ++ rest) = lex_app a (lex f' rest)).
    { intros run a (c & r & Er & Hc) F E Lr. destruct (Lrun run) as (f' & -> & Lf); [rewrite Er; discriminate|auto|].
      rewrite lex_name by eauto. rewrite E, G by auto. eexists. split; [|reflexivity].
      rewrite app_length, Er. cbn [List.length]. lia. }
    assert (Num : forall (run : pystr) (a : lexed), (exists c r, run = c :: r /\ is_digit0 c = true) -> Forall (fun c => is_word0 c || N.eqb c 46 = true) run ->
              number_atom run = a -> List.length run + List.length b <= f ->
              exists f', f - List.length (run ++ b) <= f' /\ lex f (run ++ b ++ rest) = lex_app a (lex f' rest)).
    { intros run a (c & r & Er & Hc) F E Lr. destruct (Lrun run) as (f' & -> & Lf); [rewrite Er; discriminate|auto|].
      rewrite lex_number by (eauto; rewrite Er; discriminate). rewrite E, G by auto. eexists. split; [|reflexivity].
      rewrite app_length, Er. cbn [List.length]. lia. }
    assert (DW : forall l, Forall (fun c => is_digit0 c = true) l -> Forall (fun c => is_word0 c || N.eqb c 46 = true) l).
    { intros l. apply Forall_impl. intros c Hc. unfold is_word0. rewrite Hc, orb_true_r. reflexivity. }
    destruct e as [[|[]|ds|a0 b0|q c w]|w]; cbn [elem_written relem atom_of elem_lex fits_b] in *.
    - apply Name; auto; [eexists _, _; split; reflexivity|repeat constructor].
    - apply Name; auto; [eexists _, _; split; reflexivity|repeat constructor].
    - apply Name; auto; [eexists _, _; split; reflexivity|repeat constructor].
    - destruct W as (W & Z). apply Digits_0 in W as [N F]. apply Num; auto.
      + destruct F as [|x ds Hx F]; [congruence|]. eexists _, _. split; [reflexivity|exact Hx].
      + unfold number_atom. replace (forallb is_digit0 ds) with true by (symmetry; apply forallb_forall; apply Forall_forall; exact F).
        unfold elem_lex. cbn [fits_b atom_of]. rewrite <- decimal_digits by auto. destruct ds as [|x [|y ds]].
        { congruence. } { rewrite orb_true_r. reflexivity. }
        destruct (N.eqb_spec x 48) as [->|Nx].
        2: { replace (forallb (N.eqb 48) (x :: y :: ds)) with false by (symmetry; cbn [forallb]; replace (N.eqb 48 x) with false by lia; reflexivity).
             cbn [negb andb]. rewrite orb_false_r. change (Nat.eqb (List.length (x :: y :: ds)) 1) with false. rewrite orb_false_r. destruct (int_fits _); reflexivity. }
        specialize (Z _ eq_refl).
        replace (forallb (N.eqb 48) (48%N :: y :: ds)) with true; [rewrite !orb_true_r; reflexivity|]. symmetry. apply forallb_forall. apply Forall_forall.
        constructor; [reflexivity|]. eapply Forall_impl; [|exact Z]. intros x <-. reflexivity.
    - destruct W as [Wa Wb]. apply Digits_0 in Wa as [Na Fa]. apply Digits_0 in Wb as [Nb Fb]. apply Num; auto.
      + destruct Fa as [|x ds Hx F]; [congruence|]. eexists _, _. split; [reflexivity|exact Hx].
      + apply Forall_app. split; [apply DW; auto|]. constructor; [reflexivity|apply DW; auto].
      + unfold number_atom, float_text. destruct (rt_frac _ D a0 b0) as [t Et]; auto.
        { apply forallb_forall, Forall_forall; auto. } { apply forallb_forall, Forall_forall; auto. }
        change (a0 ++ py "." ++ b0) with (a0 ++ 46%N :: b0). rewrite Et.
        replace (forallb is_digit0 (a0 ++ 46%N :: b0)) with false
          by (symmetry; rewrite forallb_app; cbn [forallb]; apply andb_false_iff; right; reflexivity).
        rewrite (span_all is_digit0) by (auto; reflexivity).
        replace (forallb is_digit0 b0) with true by (symmetry; apply forallb_forall, Forall_forall; auto).
        destruct b0; [congruence|]. reflexivity.
    - destruct W as (Q & T & B). assert (Qc : is_quote q = true /\ is_blank q = false /\ N.eqb q 44 = false) by (destruct Q; subst; auto).
      destruct Qc as (Q1 & Q2 & Q3). cbn [app] in L. cbn [List.length] in L. rewrite !app_length in L. cbn [List.length] in L. rewrite <- !app_assoc.
      destruct f as [|f]; [lia|]. cbn [app lex]. rewrite Q2, Q3, Q1. rewrite quoted_text by (apply list_text_respelt; auto).
      assert (Hw : delim (w ++ b ++ rest)) by (apply delim_blank; auto). pose proof (delim_head _ Hw) as Hh.
      assert (E : match respelt c, w ++ b ++ rest with
                  | [], c2 :: _ => if N.eqb c2 q then LexExt else lex_cons (AStr (respelt c)) (lex f (w ++ b ++ rest))
                  | _, _ => lex_cons (AStr (respelt c)) (lex f (w ++ b ++ rest))
                  end = lex_cons (AStr (respelt c)) (lex f (w ++ b ++ rest))).
      { destruct (respelt c); [|reflexivity]. destruct (w ++ b ++ rest) as [|c2 r]; [reflexivity|].
        destruct (N.eqb_spec c2 q); [|reflexivity]. subst. destruct Hh as (_ & _ & Hh & _). congruence. }
      rewrite E. rewrite (lex_blanks w) by (auto; lia). rewrite G by lia. eexists. split; [|symmetry; apply lex_app_one].
      cbn [List.length]. rewrite !app_length. cbn [List.length]. rewrite !app_length. lia.
    - destruct W as ((c & w' & E & Hc & F) & K & H). apply Name; auto.
      + exists c, w'. split; auto. unfold is_name_start. destruct Hc as [-> | ->]; reflexivity.
      + rewrite E. constructor; auto. unfold is_word0. destruct Hc as [-> | ->]; reflexivity.
      + unfold name_atom. assert (X : forall k, In k python_keywords -> str_eqb w k = false).
        { intros k Hk. apply str_eqb_neq. intros ->. contradiction. }
        rewrite (X (py "True")), (X (py "False")), (X (py "None")) by (vm_compute; auto 40).
        replace (existsb (str_eqb w) keywords) with false; [reflexivity|]. symmetry. apply not_true_is_false. intros Hx.
        apply existsb_exists in Hx as (k & Hk & Ek). apply str_eqb_eq in Ek. subst k. apply K. unfold python_keywords, keywords in *.
        apply in_map_iff in Hk as (z & <- & Hz). apply in_map. cbn [In] in *. tauto.
  Qed.
  Lemma lex_relems l : Forall elem3_written l -> forall f, List.length (relems l) < f -> lex f (relems l) = if forallb (fun x => fits_b (snd (fst x))) l then LexOk (atoms l) else LexSyntax.
  Proof.
    induction 1 as [|[[a e] b] l (Ha & Hb & He) Hl IH]; intros f L; cbn [fst snd] in *.
    - destruct f; [cbn in L; lia|reflexivity].
    - cbn [relems atoms] in *. destruct l as [|x l].
      + rewrite !app_length in L. rewrite lex_blanks by (auto; lia).
        destruct (lex_elem e b [] He Hb I (f - List.length a)) as (f' & Lf & E); [rewrite app_length; lia|]. rewrite app_nil_r in E.
        rewrite E. rewrite app_length in Lf. destruct f' as [|f']; [lia|]. unfold elem_lex. cbn [forallb fst snd]. destruct (fits_b e); reflexivity.
      + rewrite !app_length in L. rewrite lex_blanks by (auto; lia).
        destruct (lex_elem e b (py "," ++ relems (x :: l)) He Hb (or_introl eq_refl) (f - List.length a)) as (f' & Lf & E); [rewrite app_length; lia|].
        rewrite E. rewrite app_length in Lf. change (List.length (py ",")) with 1 in L. destruct f' as [|f']; [lia|].
        change (py "," ++ relems (x :: l)) with (44%N :: relems (x :: l)). cbn [lex]. change (is_blank 44) with false. change (N.eqb 44 44) with true. cbv iota.
        rewrite IH by lia. unfold elem_lex. cbn [forallb fst snd]. destruct (fits_b e); cbn [andb].
        * destruct (_ && _); reflexivity.
        * destruct (_ && _); reflexivity.
  Qed.

  (** ** the elements *)
  Definition value_of_elem (e : welem) : option pyval :=
    match e with
    | Elem SNull => Some VNone
    | Elem (SBool b) => Some (VBool b)
    | Elem (SInt ds) => Some (VInt (decimal ds))
    | Elem (SFrac a b) => Some (VFloat (float_text a b))
    | Elem (SStr q c w) => Some (VStr (respelt c))
    | Bare w => None
    end.
  Lemma elems_atoms l : elems true (atoms l) = PVals (map (fun x => value_of_elem (snd (fst x))) l).
  Proof.
    induction l as [|[[a e] b] l IH]; [reflexivity|]. cbn [atoms map fst snd]. destruct l as [|x l].
    - destruct e as [[]|]; reflexivity.
    - destruct e as [[]|]; cbn [atom_of value_of_elem elems]; rewrite IH; reflexivity.
  Qed.
  Lemma literal_list l : list_written l ->
    literal_eval (respelt (py "[" ++ show_elems l ++ py "]")) =
    if forallb (fun x => fits_b (snd (fst x))) l then
      match all_some (map (fun x => value_of_elem (snd (fst x))) l) with Some vs => Ok (VList vs) | None => Err ValueError end
    else Err SyntaxError.
  Proof.
    intros [N W]. change (py "[" ++ show_elems l ++ py "]") with (91%N :: (show_elems l ++ [93%N])).
    rewrite respelt_cons by reflexivity. rewrite respelt_app by reflexivity. rewrite respelt_elems by exact W.
    change (respelt [93%N]) with [93%N]. unfold literal_eval.
    assert (L : List.last (91%N :: relems l ++ [93%N]) 0%N = 93%N).
    { change (91%N :: relems l ++ [93%N]) with ((91%N :: relems l) ++ [93%N]). apply last_last. }
    rewrite L. change (N.eqb 91 91) with true. change (N.eqb 93 93) with true. cbn [andb].
    replace (Nat.leb 2 (List.length (91%N :: relems l ++ [93%N]))) with true
      by (cbn [List.length]; rewrite app_length; cbn [List.length]; symmetry; apply Nat.leb_le; lia).
    rewrite removelast_last. rewrite lex_relems; [|exact W|cbn [List.length]; rewrite app_length; cbn [List.length]; lia].
    destruct (forallb _ l); [|reflexivity]. rewrite elems_atoms. reflexivity.
  Qed.
  Lemma all_fit l : Forall (fun x : pystr * welem * pystr => elem_fits (snd (fst x))) l -> forallb (fun x => fits_b (snd (fst x))) l = true.
  Proof. intros H. apply forallb_forall, Forall_forall. eapply Forall_impl; [|exact H]. intros x. apply fits_true. Qed.
  Lemma list_long l : list_written l -> Exists (fun x => ~ elem_fits (snd (fst x))) l ->
    literal_eval (respelt (py "[" ++ show_elems l ++ py "]")) = Err SyntaxError.
  Proof.
    intros W X. rewrite literal_list by auto. replace (forallb _ l) with false; [reflexivity|]. symmetry. apply not_true_is_false. intros H.
    rewrite forallb_forall in H. apply Exists_exists in X as (x & Hx & N). apply N, fits_true, H, Hx.
  Qed.
  Lemma elem_value_of e : elem_written e -> ~ is_bare e -> exists v, value_of_elem e = Some v /\ elem_value e v.
  Proof.
    destruct e as [[|b|ds|a b|q c w]|w]; cbn [elem_written is_bare value_of_elem elem_value scalar_value]; intros W N; try (eexists; split; reflexivity).
    - destruct W as [Wa Wb]. apply Digits_0 in Wa as [Na Fa]. apply Digits_0 in Wb as [Nb Fb].
      destruct (rt_frac _ D a b) as [t Et]; auto. { apply forallb_forall, Forall_forall; auto. } { apply forallb_forall, Forall_forall; auto. }
      eexists. split; [reflexivity|]. exists t. split; [exact Et|]. unfold float_text.
      change (a ++ py "." ++ b) with (a ++ 46%N :: b). rewrite Et. reflexivity.
    - tauto.
  Qed.
  Lemma list_values l : list_written l -> Forall (fun x => elem_legal (snd (fst x))) l -> exists vs,
    literal_eval (respelt (py "[" ++ show_elems l ++ py "]")) = Ok (VList vs) /\ Forall2 (fun x v => elem_value (snd (fst x)) v) l vs.
  Proof.
    intros W NB. rewrite literal_list by auto. rewrite all_fit by (eapply Forall_impl; [|exact NB]; intros x [_ H]; exact H). destruct W as [_ W].
    assert (H : exists vs, all_some (map (fun x : pystr * welem * pystr => value_of_elem (snd (fst x))) l) = Some vs /\
                           Forall2 (fun x v => elem_value (snd (fst x)) v) l vs).
    { revert NB. induction W as [|x l (_ & _ & Wx) W IH]; intros NB; [exists []; split; [reflexivity|constructor]|]. inv NB.
      destruct (elem_value_of _ Wx (proj1 H1)) as (v & E & V). destruct (IH H2) as (vs & E2 & V2). exists (v :: vs).
      cbn [map all_some]. rewrite E, E2. auto. }
    destruct H as (vs & -> & V). eauto.
  Qed.
  Lemma list_bare l : list_written l -> Forall (fun x => elem_fits (snd (fst x))) l -> Exists (fun x => is_bare (snd (fst x))) l ->
    literal_eval (respelt (py "[" ++ show_elems l ++ py "]")) = Err ValueError.
  Proof.
    intros W Fi B. rewrite literal_list by auto. rewrite all_fit by exact Fi. clear Fi.
    replace (all_some (map (fun x : pystr * welem * pystr => value_of_elem (snd (fst x))) l)) with (@None (list pyval)); [reflexivity|].
    symmetry. induction B as [[[a e] b] l H|[[a e] b] l H IH]; cbn [map fst snd all_some] in *.
    - destruct e; [contradiction|reflexivity].
    - destruct W as [_ W]. inv W. destruct l as [|y l]; [inv H|]. rewrite IH by (split; [discriminate|auto]). destruct (value_of_elem e); reflexivity.
  Qed.
End ListFacts.
