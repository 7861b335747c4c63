(** * SchemaFacts: what the database of a graph can hold (proofs for C69) *)
From Verif Require Import PyBase BaseFacts Regex Patterns Json SpecJson Literal Props SpecText SpecPattern SpecValue SpecChecks SpecProps RtLaws
  PropsFacts ListFacts ValueFacts ValueMore PropsAny PropsCut GrammarFacts PatternFacts Checks Statements ChecksFacts SpecGrammar StatementFacts
  FS FSFacts Store SpecStore StoreFacts Make SpecMake MakeFacts MakeRun MakeMore Query HistoryFacts Torn Confine QueryFacts CrashFacts SpecShell SpecDurable DurableFacts SpecWhole SpecSchema.
From Coq Require Import ZifyBool ZifyNat ZifyN.

Section SchemaFacts.
  Context {rt : PyRt} (D : rt_data rt) (RL : rt_lists).

  (** ** characters of the values of a property text *)
  Lemma while_incl p s : incl (while p s) s.
  Proof. induction s as [|x s IH]; cbn [while]; [intros y []|]. destruct (p x); [|intros y []]. intros y [->|H]; [left; reflexivity|right; apply IH, H]. Qed.
  Lemma lstrip_incl p s : incl (lstrip p s) s.
  Proof. induction s as [|x s IH]; cbn [lstrip]; [intros y []|]. destruct (p x); [|apply incl_refl]. intros y H. right. apply IH, H. Qed.
  Lemma while_all p s : Forall (fun c => p c = true) (while p s).
  Proof. induction s as [|x s IH]; cbn [while]; [constructor|]. destruct (p x) eqn:E; constructor; assumption. Qed.
  Lemma run_at_all p s a : run_at p s = Some a -> a <> [] /\ Forall (fun c => p c = true) a.
  Proof. intros H. apply run_some in H as [<- N]. split; [exact N|apply while_all]. Qed.

  Definition value_shape (t : ptype) (v : pystr) : Prop :=
    match t with
    | PNone | PBool => True
    | PFloat => exists a b, v = a ++ py "." ++ b /\ unicode_digits a /\ unicode_digits b
    | PInt => v <> [] /\ Forall (fun c => is_digit0 c = true) v
    | PList => exists b, v = py "[" ++ b ++ py "]" /\ b <> [] /\ Forall (fun c => list_char c = true) b
    | PString => Forall (fun c => string_char c = true) v
    end.
  Lemma or_else_some {A} (a b : option A) x : or_else a b = Some x -> a = Some x \/ b = Some x.
  Proof. destruct a; auto. Qed.
  Lemma tagged_some t o t' v : tagged t o = Some (t', v) -> t' = t /\ o = Some v.
  Proof. destruct o; cbn; intros H; inv H. auto. Qed.
  Lemma value_at_shape r t v : value_at r = Some (t, v) -> value_shape t v.
  Proof.
    unfold value_at. intros H. apply or_else_some in H as [H|H]; [apply tagged_some in H as [-> _]; exact I|].
    apply or_else_some in H as [H|H]; [apply tagged_some in H as [-> _]; exact I|].
    apply or_else_some in H as [H|H].
    { apply tagged_some in H as [-> H]. unfold frac_at in H. destruct (run_at is_digit r) as [a|] eqn:E; [|discriminate].
      destruct (behind 46 (lstrip is_digit r)) as [s'|]; [|discriminate]. destruct (run_at is_digit s') as [b|] eqn:E'; [|discriminate].
      cbn [option_map] in H. inv H. apply run_at_all in E, E'. exists a, b. auto. }
    apply or_else_some in H as [H|H]; [apply tagged_some in H as [-> H]; apply run_at_all in H; exact H|].
    apply or_else_some in H as [H|H].
    { apply tagged_some in H as [-> H]. unfold list_at in H. destruct (behind 91 r) as [s'|]; [|discriminate].
      destruct (run_at list_char s') as [b|] eqn:E; [|discriminate]. destruct (behind 93 (lstrip list_char s')); [|discriminate].
      inv H. apply run_at_all in E. exists b. tauto. }
    apply tagged_some in H as [-> H]. apply run_at_all in H. apply H.
  Qed.
  Lemma value_at_incl r t v : value_at r = Some (t, v) -> incl v r.
  Proof. intros H. apply value_text in H as (r' & -> & _). apply incl_appl, incl_refl. Qed.

  Lemma behind_incl y s s' : behind y s = Some s' -> incl s' s.
  Proof. intros H. apply behind_some in H as ->. apply incl_tl, incl_refl. Qed.
  Lemma skipn_incl {A} n (s : list A) : incl (skipn n s) s.
  Proof. intros x H. rewrite <- (firstn_skipn n s). apply in_app_iff. auto. Qed.
  Definition prop_shape (s : pystr) (k : pystr) (t : ptype) (v : pystr) : Prop := a_word k /\ incl v s /\ value_shape t v.
  Lemma prop_at_shape s k t v r : prop_at s = Some (k, t, v, r) -> prop_shape s k t v /\ incl r s.
  Proof.
    unfold prop_at. destruct (run_at is_word s) as [k'|] eqn:E; [|discriminate].
    destruct (behind 58 (lstrip is_space (lstrip is_word s))) as [u|] eqn:B; [|discriminate].
    assert (U : incl u s) by (eapply incl_tran; [eapply behind_incl; exact B|]; eapply incl_tran; apply lstrip_incl).
    assert (L : incl (lstrip is_space u) s) by (eapply incl_tran; [apply lstrip_incl|exact U]).
    apply run_at_all in E. destruct (value_at (lstrip is_space u)) as [[t' v']|] eqn:V.
    - intros H. injection H as -> -> -> <-. split; [|eapply incl_tran; [apply skipn_incl|exact L]]. split; [exact E|]. split.
      + eapply incl_tran; [eapply value_at_incl; exact V|exact L].
      + eapply value_at_shape; exact V.
    - destruct (rev (while is_space u)) as [|b l] eqn:R; [discriminate|]. intros H. injection H as -> <- <- <-. split; [|exact L].
      assert (Hb : In b (while is_space u)) by (apply in_rev; rewrite R; left; reflexivity).
      split; [exact E|]. split.
      + intros x [<-|[]]. apply U, (while_incl is_space u), Hb.
      + constructor; [|constructor]. unfold string_char. pose proof (while_all is_space u) as W. rewrite Forall_forall in W. rewrite (W b Hb), orb_true_r. reflexivity.
  Qed.
  Lemma PropsOf_shape s l : PropsOf s l -> Forall (fun p => prop_shape s (fst (fst p)) (snd (fst p)) (snd p)) l.
  Proof.
    assert (W : forall s s' (l : list (pystr * ptype * pystr)), incl s' s -> Forall (fun p => prop_shape s' (fst (fst p)) (snd (fst p)) (snd p)) l ->
      Forall (fun p => prop_shape s (fst (fst p)) (snd (fst p)) (snd p)) l).
    { intros s0 s' l0 I F. eapply Forall_impl; [|exact F]. intros p (A & B & C). split; [exact A|]. split; [eapply incl_tran; eassumption|exact C]. }
    induction 1 as [|x s l N P IH|s k t v r l E P IH].
    - constructor.
    - eapply W; [apply incl_tl, incl_refl|exact IH].
    - apply prop_at_shape in E as [E I]. constructor; [exact E|]. eapply W; eassumption.
  Qed.

  (** ** values *)
  Lemma decimal_pos ds : Forall (fun c => is_digit0 c = true) ds -> (0 <= decimal ds)%Z.
  Proof. intros H. rewrite <- decimal_digits by exact H. lia. Qed.
  (** characters that a property text of a statement may contain *)
  Definition prop_char (c : N) : Prop := (is_word c = true \/ is_space c = true \/ In c (py "{}:,'"".[]@")) /\ c <> 10%N.
  Lemma string_text_char c : string_char c = true -> prop_char c -> text_char c.
  Proof.
    unfold string_char, prop_char, text_char. intros H (P & N). split; [|exact N]. rewrite !orb_true_iff in H.
    destruct H as [[H|H]|H]; auto. apply existsb_exists in H as (x & I & E). apply N.eqb_eq in E. subst x.
    destruct P as [P|[P|P]]; auto. right. right. cbn in I, P |- *. intuition (subst; discriminate).
  Qed.
  Lemma list_text_char c : list_char c = true -> prop_char c -> text_char c \/ c = 44%N.
  Proof.
    unfold list_char, prop_char, text_char. intros H (P & N). rewrite !orb_true_iff in H.
    destruct H as [[H|H]|H]; auto. apply existsb_exists in H as (x & I & E). apply N.eqb_eq in E. subst x.
    destruct P as [P|[P|P]]; auto. cbn in I. destruct I as [<-|[<-|[<-|[<-|[<-|[<-|[]]]]]]]; [right; reflexivity|left..|].
    1-4: split; [right; right; cbn; tauto|exact N].
    exfalso. cbn in P. intuition discriminate.
  Qed.
  Lemma cut_sub p s t : cut p s t -> incl t s.
  Proof. intros (a & b & -> & _) x H. apply in_app_iff. right. apply in_app_iff. left. exact H. Qed.
  Lemma Trimmed_storable v x : Forall text_char v -> Trimmed v x -> ~ In x reserved -> string_storable x.
  Proof.
    intros F (u1 & u2 & C1 & C2 & C3) N. split; [|split; [|split; [|exact N]]].
    - apply Forall_forall. intros c Hc. rewrite Forall_forall in F. apply F. apply (cut_sub _ _ _ C1), (cut_sub _ _ _ C2), (cut_sub _ _ _ C3), Hc.
    - destruct C3 as (a & b & _ & _ & _ & H & _). exact H.
    - destruct C3 as (a & b & _ & _ & _ & _ & H). exact H.
  Qed.
  (** ** lists are flat *)
  Definition flattish (v : pyval) : Prop := flat v \/ v = VOpaque.
  Definition atom_flat (a : atom) : Prop := match a with AVal v => flattish v | _ => True end.
  Definition lexed_flat (x : lexed) : Prop := match x with LexOk l => Forall atom_flat l | _ => True end.
  Lemma lex_cons_flat a x : atom_flat a -> lexed_flat x -> lexed_flat (lex_cons a x).
  Proof. destruct x; cbn; auto. Qed.
  Lemma lex_app_flat x y : lexed_flat x -> lexed_flat y -> lexed_flat (lex_app x y).
  Proof. destruct x, y; cbn; auto. intros. apply Forall_app. auto. Qed.
  Lemma number_flat r : lexed_flat (number_atom r).
  Proof.
    assert (I : forall n, lexed_flat (LexOk [AVal (VInt (Z.of_N n))])) by (intros n; constructor; [left; cbn; lia|constructor]).
    unfold number_atom. destruct (forallb is_digit0 r).
    - destruct r as [|c [|c' r]]; try apply I. destruct (N.eqb c 48 && _); [exact Logic.I|]. destruct (negb _ && _); [exact Logic.I|apply I].
    - destruct (span is_digit0 r) as [ip r']. destruct r' as [|c fr]; [exact Logic.I|].
      destruct (N.eqb c 46 && _ && _); [|exact Logic.I]. destruct (f_repr r); [|exact Logic.I]. constructor; [left; exact Logic.I|constructor].
  Qed.
  Lemma name_flat r : lexed_flat (name_atom r).
  Proof.
    unfold name_atom. repeat (destruct (str_eqb r _); [constructor; [left; exact I|constructor]|]). destruct (existsb _ _); [exact I|]. constructor; [exact I|constructor].
  Qed.
  Lemma lex_flat f : forall s, lexed_flat (lex f s).
  Proof.
    induction f as [|f IH]; intros s; [exact I|]. cbn [lex]. destruct s as [|c s1]; [constructor|].
    destruct (is_blank c); [apply IH|]. destruct (N.eqb c 44); [apply lex_cons_flat; [exact I|apply IH]|].
    destruct (is_quote c).
    { destruct (quoted c s1) as [[[t r]|]|]; [|exact I|exact I]. destruct t as [|t0 t], r as [|c2 r]; try (apply lex_cons_flat; [exact I|apply IH]).
      destruct (N.eqb c2 c); [exact I|]. apply lex_cons_flat; [exact I|apply IH]. }
    destruct (is_digit0 c).
    { destruct (span (fun x => is_word0 x || N.eqb x 46) (c :: s1)) as [run r]. destruct r as [|c2 r]; [apply lex_app_flat; [apply number_flat|apply IH]|].
      destruct (is_ascii c2); [|exact I]. apply lex_app_flat; [apply number_flat|apply IH]. }
    destruct (is_name_start c); [|exact I].
    destruct (span is_word0 (c :: s1)) as [run r]. destruct r as [|c2 r2]; [apply lex_app_flat; [apply name_flat|apply IH]|].
    destruct (is_quote c2).
    - destruct (str_eqb run (py "b")); [|exact I]. destruct (quoted c2 r2) as [[[t r3]|]|]; [|exact I|exact I].
      destruct (_ && _); [|exact I]. apply lex_cons_flat; [right; reflexivity|apply IH].
    - destruct (is_ascii c2); [|exact I]. apply lex_app_flat; [apply name_flat|apply IH].
  Qed.
  Definition oflat (o : option pyval) : Prop := match o with Some v => flattish v | None => True end.
  Definition parsed_flat (p : parsed) : Prop := match p with PVals l => Forall oflat l | _ => True end.
  Lemma pcons_flat o p : oflat o -> parsed_flat p -> parsed_flat (pcons o p).
  Proof. destruct p; cbn; auto. Qed.
  Lemma elems_flat n l : List.length l <= n -> forall b, Forall atom_flat l -> parsed_flat (elems b l).
  Proof.
    revert l; induction n as [|n IH]; intros l L b H.
    - destruct l; cbn [List.length] in L; [constructor|lia].
    - destruct l as [|a l]; [constructor|]. cbn [List.length] in L. inv H.
      assert (G : forall l, List.length l <= n -> Forall atom_flat l -> forall s, parsed_flat (glue s l)).
      { clear - IH. induction l as [|a l IHl]; intros L H s.
        - apply pcons_flat; [left; exact I|constructor].
        - cbn [List.length] in L. inv H. destruct a; try (apply pcons_flat; [left; exact I|apply IH; cbn [List.length]; auto]; fail).
          cbn [glue]. fold glue. apply IHl; [lia|auto]. }
      destruct a as [v|s| |].
      + assert (X : parsed_flat (if b then pcons (Some v) (elems false l) else PSyntax)).
        { destruct b; [|exact I]. apply pcons_flat; auto. apply IH; auto. lia. }
        destruct v; try exact X. destruct l as [|[[]| | |] l']; try exact X; exact I.
      + assert (X : parsed_flat (if b then glue s l else PSyntax)).
        { destruct b; [|exact I]. apply G; auto. lia. }
        destruct l as [|[[]| | |] l']; try exact X; exact I.
      + cbn [elems]. destruct b; [|exact I]. apply pcons_flat; [exact I|]. apply IH; auto. lia.
      + cbn [elems]. destruct b; [exact I|]. apply IH; auto. lia.
  Qed.
  Lemma all_some_flat l r : Forall oflat l -> all_some l = Some r -> Forall flattish r.
  Proof.
    revert r; induction l as [|[v|] l IH]; intros r H; cbn [all_some]; [intros E; inv E; constructor| |discriminate].
    inv H. destruct (all_some l); [|discriminate]. intros E; inv E. constructor; auto.
  Qed.
  Lemma list_flat t v : Forall (fun c => text_char c \/ c = 44%N) t -> literal_eval (respelt (py "[" ++ t ++ py "]")) = Ok v -> ser v = true ->
    exists l, v = VList l /\ Forall flat l.
  Proof.
    intros F. assert (E : respelt (py "[" ++ t ++ py "]") = py "[" ++ respelt t ++ py "]").
    { change (py "[" ++ t ++ py "]") with (91%N :: t ++ 93%N :: []). rewrite respelt_cons by reflexivity. rewrite respelt_sep by reflexivity. reflexivity. }
    rewrite E. set (u := respelt t).
    assert (X : Forall (fun c => ~ In c (py "[](){}-")) u).
    { apply respelt_Forall.
      - intros x Hx. cbn in Hx |- *. intros Hy. repeat destruct Hx as [<-|Hx]; try destruct Hx; repeat (destruct Hy as [Hy|Hy]; [discriminate|]); destruct Hy.
      - eapply Forall_impl; [|exact F]. intros c Hc Hy. cbn in Hy. destruct Hc as [[Hc _]|Hc]; [|subst; intuition discriminate].
        destruct Hc as [Hc|[Hc|Hc]]; repeat (destruct Hy as [Hy|Hy]; [subst; try discriminate|]); try destruct Hy; cbn in Hc; intuition discriminate. }
    assert (Y : forall l, Forall flattish l -> forallb ser l = true -> Forall flat l).
    { induction 1 as [|x l [Hx|Hx] Hl IH]; cbn [forallb]; intros S; [constructor| |subst; discriminate].
      apply andb_true_iff in S as [_ S]. constructor; auto. }
    assert (Z : lit_ext (py "[" ++ u ++ py "]") = Ok v -> ser v = true -> exists l, v = VList l /\ Forall flat l).
    { intros H S. destruct (RL u v X H) as (l & -> & Fl). exists l. split; [reflexivity|]. apply Y; [exact Fl|exact S]. }
    change (py "[" ++ u ++ py "]") with (91%N :: u ++ [93%N]) in *. unfold literal_eval. cbv iota beta.
    match goal with |- (if ?b then _ else _) = _ -> _ => destruct b end; [|exact Z].
    pose proof (lex_flat (S (List.length (91%N :: u ++ [93%N]))) (removelast (u ++ [93%N]))) as L.
    destruct (lex _ (removelast (u ++ [93%N]))) as [l| |]; [|discriminate|exact Z]. cbn [lexed_flat] in L.
    pose proof (elems_flat _ l (le_n _) true L) as P.
    destruct (elems true l) as [vs| |]; [|discriminate|exact Z]. destruct (all_some vs) as [r|] eqn:A; [|discriminate].
    intros H S. inv H. exists r. split; [reflexivity|]. apply Y; [eapply all_some_flat; eassumption|exact S].
  Qed.
  Lemma reads_storable t v x : value_shape t v -> Forall prop_char v -> SpecProps.reads t v (Ok x) -> ser x = true -> storable x.
  Proof.
    intros S P R SE. inversion R; subst; cbn [value_shape] in S.
    - apply st_null.
    - apply st_bool.
    - apply st_bool.
    - destruct S as (a & b & -> & A & B). exact (st_float a b _ A B H2).
    - apply st_int, decimal_pos, S.
    - destruct S as (b & -> & N & F).
      assert (T : Forall (fun c => text_char c \/ c = 44%N) b).
      { apply Forall_forall. intros c Hc. rewrite Forall_forall in F, P. apply list_text_char; [apply F, Hc|].
        apply P. apply in_app_iff. right. apply in_app_iff. left. exact Hc. }
      destruct (list_flat b x T H2 SE) as (l & -> & Fl). exact (st_list b l N T H2 Fl).
    - apply st_str. eapply Trimmed_storable; [|eassumption|assumption]. apply Forall_forall. intros c Hc. rewrite Forall_forall in S, P. apply string_text_char; auto.
  Qed.

  Lemma props_storable x v : (forall pr, p_props x = Some pr -> Forall prop_char pr) -> props_value x v -> ser v = true -> properties_obj v.
  Proof.
    unfold props_value, get_property_dict. intros P V S. destruct (p_props x) as [[|c s]|] eqn:E; [left; exact V| |left; exact V].
    specialize (P _ eq_refl). set (s0 := c :: s) in *.
    destruct (parse_properties s0) as [d|] eqn:PP; cbn [bind] in V; [|destruct V]. subst v. right. exists d. split; [reflexivity|].
    apply (parse_any_iff D) in PP as (l & PO & RA). inversion RA as [l' kvs d' F DO K|]; subst. split; [apply DO|].
    apply PropsOf_shape in PO. apply Forall_forall. intros [k v] Hkv. cbn [fst snd].
    pose proof Hkv as Hk. apply DO in Hk as (a & b & -> & _). apply Forall2_app_inv_r in F as (l1 & l2 & F1 & F2 & ->).
    inversion F2 as [|p kv l2' kvs2 [E1 E2] F2' EL EK]; subst. cbn [fst snd] in *.
    rewrite Forall_forall in PO. destruct (PO p) as (A & B & C); [apply in_app_iff; right; left; reflexivity|].
    rewrite <- E1 in A. split; [exact A|]. eapply reads_storable; [exact C| |exact E2|].
    - apply Forall_forall. intros y Hy. rewrite Forall_forall in P. apply P, B, Hy.
    - cbn [ser] in S. rewrite forallb_forall in S. apply (S (k, v) Hkv).
  Qed.

  (** ** property texts of statements *)
  Lemma piece_bracket P x t pr : (P = NodePiece \/ P = RelPiece) -> P x t -> p_props x = Some pr ->
    exists a c b, t = a ++ c :: b /\ (c = 40%N \/ c = 91%N) /\ incl pr b.
  Proof.
    intros [-> | ->].
    - intros (s1 & h & s2 & s3 & l & s4 & s5 & s6 & -> & _) E. rewrite E. exists [], 40%N. eexists. split; [reflexivity|]. split; [auto|].
      intros y Hy. cbn [opt_text]. rewrite !in_app_iff. tauto.
    - intros (lt & d1 & s1 & h & s2 & co & s3 & l & s4 & s5 & d2 & gt & s6 & -> & _) E. rewrite E. exists (lt ++ d1), 91%N. eexists.
      split; [rewrite <- app_assoc; reflexivity|]. split; [auto|]. intros y Hy. cbn [opt_text]. rewrite !in_app_iff. tauto.
  Qed.
  Lemma inside a c b u v (s : pystr) : s = u ++ (a ++ c :: b) ++ v -> exists a' b', s = a' ++ c :: b' /\ incl b b'.
  Proof.
    intros ->. exists (u ++ a), (b ++ v). split; [rewrite <- !app_assoc; reflexivity|apply incl_appl, incl_refl].
  Qed.
  Lemma pattern_bracket p t x pr : PatternText p t -> In x [left_node p; left_middle_rel p; middle_node p; middle_right_rel p; right_node p] ->
    p_props x = Some pr -> exists a c b, t = a ++ c :: b /\ (c = 40%N \/ c = 91%N) /\ incl pr b.
  Proof.
    intros (b1 & t1 & b2 & t2 & b3 & t3 & b4 & t4 & b5 & t5 & -> & _ & P1 & P2 & P3 & P4 & P5) H E.
    assert (Q : exists (P : piece -> pystr -> Prop) y u v, (P = NodePiece \/ P = RelPiece) /\ maybe P x y /\
       b1 ++ t1 ++ b2 ++ t2 ++ b3 ++ t3 ++ b4 ++ t4 ++ b5 ++ t5 = u ++ y ++ v).
    { cbn [In] in H. destruct H as [<-|[<-|[<-|[<-|[<-|[]]]]]].
      - exists NodePiece, t1, b1. eexists. split; [auto|]. split; [exact P1|reflexivity].
      - exists RelPiece, t2, (b1 ++ t1 ++ b2). eexists. split; [auto|]. split; [exact P2|]. rewrite <- !app_assoc. reflexivity.
      - exists NodePiece, t3, (b1 ++ t1 ++ b2 ++ t2 ++ b3). eexists. split; [auto|]. split; [exact P3|]. rewrite <- !app_assoc. reflexivity.
      - exists RelPiece, t4, (b1 ++ t1 ++ b2 ++ t2 ++ b3 ++ t3 ++ b4). eexists. split; [auto|]. split; [exact P4|]. rewrite <- !app_assoc. reflexivity.
      - exists NodePiece, t5, (b1 ++ t1 ++ b2 ++ t2 ++ b3 ++ t3 ++ b4 ++ t4 ++ b5), []. split; [auto|]. split; [exact P5|]. rewrite <- !app_assoc, app_nil_r. reflexivity. }
    destruct Q as (P & y & u & v & PC & [M|[(_ & _ & _ & M) _]] & EQ); [|congruence]. rewrite EQ.
    destruct (piece_bracket P x y pr PC M E) as (a & c & b & -> & C & I).
    destruct (inside a c b u v _ eq_refl) as (a' & b' & E' & I'). exists a', c, b'. split; [exact E'|]. split; [exact C|]. eapply incl_tran; eassumption.
  Qed.
  Lemma weave_piece gaps ts : List.length gaps = S (List.length ts) -> forall t, In t ts -> exists u v, weave gaps ts = u ++ t ++ v.
  Proof.
    revert gaps; induction ts as [|t ts IH]; intros gaps L y []; destruct gaps as [|g gaps]; cbn [List.length] in L; try lia; cbn [weave].
    - subst. eauto.
    - destruct (IH gaps ltac:(lia) y H) as (u & v & ->). exists (g ++ t ++ u), v. rewrite <- !app_assoc. reflexivity.
  Qed.
  Lemma Forall2_In_both {A B} (R : A -> B -> Prop) l l' a : Forall2 R l l' -> In a l -> exists b, In b l' /\ R a b.
  Proof. induction 1; cbn [In]; [tauto|]. intros [<-|H']; [eauto|]. destruct (IHForall2 H') as (b & I & r). eauto. Qed.

  Lemma statement_bracket stmt a c b : Statement (py "MAKE") stmt -> stmt = a ++ c :: b -> c = 40%N \/ c = 91%N -> ~ In 10%N b.
  Proof.
    intros (k & sp & body & E & K & SP & _ & NN) Es C. rewrite Es in E. clear Es stmt.
    assert (NC : forall x, In x (k ++ sp) -> x <> c).
    { intros x Hx ->. apply in_app_iff in Hx as [Hx|Hx].
      - clear - K Hx C. assert (W : exists y, In y (py "MAKE") /\ ci_eqb y c = true).
        { induction K as [|y z l l' R K IH]; [destruct Hx|]. destruct Hx as [->|Hx]; [exists y; split; [left; reflexivity|exact R]|].
          destruct (IH Hx) as (y' & I & R'). exists y'. split; [right; exact I|exact R']. }
        destruct W as (y & I & R). cbn in I. destruct C as [-> | ->]; destruct I as [<-|[<-|[<-|[<-|[]]]]]; discriminate.
      - unfold all_space in SP. rewrite Forall_forall in SP. specialize (SP _ Hx). destruct C as [-> | ->]; discriminate. }
    rewrite (app_assoc k sp) in E. clear K SP. intros I10. apply NN.
    revert a E; induction (k ++ sp) as [|y l IH]; intros a E.
    - cbn [app] in E. change (py "(" ++ body ++ py ");") with (40%N :: body ++ py ");") in E.
      assert (X : In 10%N (body ++ py ");")).
      { destruct a as [|a0 a]; cbn [app] in E; injection E as E1 E2; rewrite <- E2; [exact I10|]. apply in_app_iff. right. right. exact I10. }
      apply in_app_iff in X as [X|X]; [exact X|]. cbn in X. intuition discriminate.
    - destruct a as [|a0 a]; cbn [app] in E.
      + injection E as E1 E2. exfalso. apply (NC y); [left; reflexivity|congruence].
      + injection E as E1 E2. apply (IH ltac:(intros x Hx; apply NC; right; exact Hx) a E2).
  Qed.
  Lemma parsed_props q l p x pr : parse_make q = Ok (Some l) -> In p (patterns_of l) ->
    In x [left_node p; left_middle_rel p; middle_node p; middle_right_rel p; right_node p] -> p_props x = Some pr -> Forall prop_char pr.
  Proof.
    intros PM Hp Hx E. pose proof (parse_make_is_pattern q l p PM Hp) as IP. destruct (piece_words p x IP Hx) as (_ & _ & W). destruct (W pr E) as [_ F].
    apply parsed_make_sound in PM as [PM _]. unfold patterns_of in Hp. apply in_flat_map in Hp as (m & Hm & Hp). rewrite Forall_forall in PM.
    destruct (PM m Hm) as (_ & S & EP & _). rewrite EP in Hp. destruct (patterns_in_text (pm_raw m)) as (gaps & ts & EW & L & _ & F2).
    destruct (Forall2_In_both _ _ _ _ F2 Hp) as (t & Ht & PT). destruct (weave_piece gaps ts L t Ht) as (u & v & EV).
    destruct (pattern_bracket p t x pr PT Hx E) as (a & c & b & -> & C & I).
    destruct (inside a c b u v _ (eq_trans EW EV)) as (a' & b' & E' & I').
    pose proof (statement_bracket _ a' c b' S E' C) as NN. apply Forall_forall. intros y Hy. rewrite Forall_forall in F. split; [apply F, Hy|].
    intros ->. apply NN, I', I, Hy.
  Qed.

  (** ** entries *)
  Definition pieces_of (p : pattern) : list piece := [left_node p; left_middle_rel p; middle_node p; middle_right_rel p; right_node p].
  Definition clean_pattern (p : pattern) : Prop :=
    is_pattern p /\ forall x pr, In x (pieces_of p) -> p_props x = Some pr -> Forall prop_char pr.
  Lemma link_shape p w l v : clean_pattern p -> well_drawn p -> In l (links p w) -> link_value l v -> ser v = true ->
    (lk_from l = w \/ lk_from l = w + 1 \/ lk_from l = w + 2)%Z -> (lk_from l < w + 2)%Z -> link_obj (lk_from l) v.
  Proof.
    intros [IP PC] WD I (pv & PV & ->) S _ B. cbn [ser forallb snd] in S. rewrite !andb_true_iff in S.
    assert (SP : ser pv = true) by tauto.
    pose proof (links_pieces p w l I) as HX. pose proof (props_storable (lk_piece l) pv (fun pr => PC _ pr HX) PV SP) as PO.
    assert (N : exists name, p_label (lk_piece l) = Some name /\ Word name).
    { destruct IP as (t & b1 & t1 & b2 & t2 & b3 & t3 & b4 & t4 & b5 & t5 & _ & _ & P1 & P2 & P3 & P4 & P5).
      unfold links in I. apply in_app_iff in I as [I|I].
      - destruct (drawn (left_middle_rel p)) eqn:DR; [|destruct I]. destruct I as [<-|[]]. rewrite lk_piece_between.
        apply maybe_rel in P2 as [[_ Q]|[Q _]]; [|congruence].
        destruct Q as (lt & d1 & s1 & h & s2 & co & s3 & l0 & s4 & s5 & d2 & gt & s6 & _ & _ & _ & E2 & _ & _ & _ & _ & _ & _ & W2 & _). eauto.
      - destruct (drawn (middle_right_rel p)) eqn:DR; [|destruct I]. destruct I as [<-|[]]. rewrite lk_piece_between.
        apply maybe_rel in P4 as [[_ Q]|[Q _]]; [|congruence].
        destruct Q as (lt & d1 & s1 & h & s2 & co & s3 & l0 & s4 & s5 & d2 & gt & s6 & _ & _ & _ & E2 & _ & _ & _ & _ & _ & _ & W2 & _). eauto. }
    destruct N as (name & EN & WN). exists (lk_num l), name, (lk_to l), pv. split; [exact WN|]. split; [exact PO|].
    assert (NB : (lk_to l = lk_from l + 1 \/ lk_to l = lk_from l - 1)%Z /\ (lk_from l < lk_num l)%Z).
    { destruct WD as [_ _ _ W1 W2]. clear - I W1 W2 B. unfold links, between_nodes in I. apply in_app_iff in I as [I|I].
      - destruct (drawn (left_middle_rel p)); [|destruct I]. destruct (W1 eq_refl) as [M _].
        unfold num_rel1, num_left, num_middle in I. rewrite M in I. unfold one in I.
        destruct (drawn (right_node p)), (points_right (left_middle_rel p)); destruct I as [<-|[]]; cbn [lk_from lk_to lk_num]; lia.
      - destruct (drawn (middle_right_rel p)); [|destruct I]. destruct (W2 eq_refl) as (M & R & _).
        unfold num_rel2, num_rel1, num_right, num_middle in I. rewrite M, R in I. unfold one in I.
        destruct (drawn (left_middle_rel p)), (points_right (middle_right_rel p)); destruct I as [<-|[]]; cbn [lk_from lk_to lk_num] in *; lia. }
    split; [apply NB|]. split; [apply NB|]. unfold name_value. rewrite EN. reflexivity.
  Qed.
  Lemma node_entry p w n x v : clean_pattern p -> well_drawn p -> In (n, x) (stored_nodes p w) -> node_value p w n x v -> ser v = true ->
    entry (str_of_Z n, v).
  Proof.
    intros CP WD I (pv & rels & PV & RV & ->) S. cbn [ser forallb snd] in S. rewrite !andb_true_iff in S.
    assert (SP : ser pv = true) by tauto.
    assert (B : (n < w + 2)%Z /\ In x [left_node p; middle_node p; right_node p] /\ p_label x <> None).
    { unfold stored_nodes, num_left, num_middle in I. destruct I as [I|I]; [inv I; split; [lia|]; split; [left; reflexivity|apply WD]|].
      destruct (drawn (middle_node p)) eqn:M; [|destruct I]. destruct I as [I|[]]. inv I. split; [lia|]. split; [right; left; reflexivity|]. apply WD, M. }
    destruct B as (B & HX & HL). destruct CP as [IP PC].
    assert (HX' : In x (pieces_of p)) by (unfold pieces_of; cbn [In] in *; tauto).
    destruct (piece_words p x IP HX') as (WL & _ & _).
    pose proof (node_label p x IP HX) as NL.
    assert (LB : exists lb, p_label x = Some lb /\ a_word lb).
    { destruct (drawn x); [destruct NL as (lb & E1 & E2 & E3); exists lb; repeat split; assumption|]. destruct NL as (_ & _ & NL & _). congruence. }
    destruct LB as (lb & EL & WLb).
    exists n, lb, pv, rels. split; [exact WLb|]. split; [apply (props_storable x); [intros pr; apply (PC x pr HX')|exact PV|exact SP]|]. split; [|split].
    - assert (SR : Forall (fun r => ser r = true) rels).
      { destruct rels as [|r0 rs]; [constructor|]. apply Forall_forall. intros r Hr.
        assert (SR : ser (VList (r0 :: rs)) = true) by tauto. cbn [ser] in SR. rewrite forallb_forall in SR. apply SR, Hr. }
      assert (OW : forall l, In l (owned p w n) -> In l (links p w) /\ lk_from l = n) by (intros l; apply owned_In).
      clear HX HL HX' WL NL EL WLb PV SP S I. induction RV as [|l v ls rels V RV IH]; constructor.
      + destruct (OW l) as [I E]; [left; reflexivity|]. inv SR. eapply link_shape; eauto. split; assumption.
        unfold links, between_nodes, num_left, num_middle, num_right in I. destruct WD as [_ _ _ _ W2]. clear - I W2. apply in_app_iff in I as [I|I].
        * destruct (drawn (left_middle_rel p)); [|destruct I]. destruct (points_right (left_middle_rel p)); destruct I as [<-|[]]; cbn [lk_from]; lia.
        * destruct (drawn (middle_right_rel p)); [|destruct I]. destruct (W2 eq_refl) as (M & _). rewrite M in I. unfold one in I. destruct (points_right (middle_right_rel p)); destruct I as [<-|[]]; cbn [lk_from]; lia.
      + inv SR. apply IH; [assumption|]. intros l' Hl'. apply OW. right. exact Hl'.
    - assert (LE : (List.length (owned p w n) <= List.length (links p w))%nat) by (unfold owned; clear; induction (links p w) as [|y l IH]; cbn [filter List.length]; [lia|]; destruct (Z.eqb (lk_from y) n); cbn [List.length]; lia).
      assert (EL' : List.length rels = List.length (owned p w n)) by (clear - RV; induction RV; cbn [List.length]; congruence). rewrite EL'. unfold links in *. rewrite app_length in LE. destruct (drawn (left_middle_rel p)), (drawn (middle_right_rel p)); cbn [List.length] in LE; lia.
    - unfold name_value. rewrite EL. reflexivity.
  Qed.
  Lemma entries_entry ps w items : Forall clean_pattern ps -> Forall well_drawn ps -> entries_all ps w items -> dict_ser items = true -> Forall entry items.
  Proof.
    intros CP; revert w items; induction CP as [|p ps Cp CP IH]; intros w items WD E S; cbn [entries_all] in E; [subst; constructor|].
    destruct E as (a & b & -> & E1 & E2). inv WD. unfold dict_ser in S. rewrite forallb_app, andb_true_iff in S. destruct S as [S1 S2].
    apply Forall_app. split; [|eapply IH; eassumption]. unfold entries in E1.
    assert (HI : forall nx, In nx (stored_nodes p w) -> In nx (stored_nodes p w)) by auto. revert HI E1. generalize (stored_nodes p w) at 1 3.
    intros l HI E1. revert HI S1. induction E1 as [|nx kv l a [K V] E1 IH1]; intros HI S1; constructor.
    - cbn [forallb] in S1. apply andb_true_iff in S1 as [S1 _]. destruct nx as [n x], kv as [k v]. cbn [fst snd] in *. subst k.
      eapply node_entry; eauto. apply HI. left. reflexivity.
    - cbn [forallb] in S1. apply andb_true_iff in S1 as [_ S1]. apply IH1; [|exact S1]. intros y Hy. apply HI. right. exact Hy.
  Qed.

  Lemma parsed_clean q l : parse_make q = Ok (Some l) -> Forall clean_pattern (patterns_of l).
  Proof.
    intros PM. apply Forall_forall. intros p Hp. split; [eapply parse_make_is_pattern; eauto|]. intros x pr Hx E. eapply parsed_props; eauto.
  Qed.
  Theorem schema g h w w' d v : history g h w w' -> distinct_files g -> db_file (database_fp g) d w ->
    run (read_json (database_fp g)) w' = (Ok v, w') -> exists more, v = VDict (d ++ more) /\ Forall entry more.
  Proof.
    intros H DI DF R. destruct (all_or_nothing D g h w w' H d DI DF) as [(parts & F & DF')|(U & _)].
    - rewrite run_read_json, (db_file_parse _ _ _ DF') in R. apply pair_inv in R as [R _]. inv R. exists (concat parts). split; [reflexivity|].
      destruct DF' as (_ & _ & S). unfold dict_ser in S. rewrite forallb_app, andb_true_iff in S. destruct S as [_ S].
      clear DF DI H. induction F as [|qo items h parts LB F IH]; cbn [concat] in *; [constructor|].
      rewrite forallb_app, andb_true_iff in S. destruct S as [S1 S2]. apply Forall_app. split; [|apply IH, S2].
      unfold left_behind in LB. destruct (parse_make (fst qo)) as [[l|]|] eqn:PM; [|subst; constructor|subst; constructor].
      destruct LB as [(z & WD & E)|[-> _]]; [|constructor]. exact (entries_entry _ _ _ (parsed_clean _ _ PM) WD E S1).
    - destruct U as (t & Ft & L). rewrite run_read_json, (parse_res_bad _ t w' _ Ft L) in R. discriminate.
  Qed.
End SchemaFacts.
