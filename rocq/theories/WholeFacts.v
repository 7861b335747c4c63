(** * WholeFacts: written property lists pass the checks (C56) *)
From Verif Require Import PyBase BaseFacts Regex RegexSpec RegexFacts RegexMore Patterns Json JsonFacts Literal Props RtLaws PropsFacts
  SpecText SpecPattern SpecGrammar PatternFacts GrammarFacts Checks ChecksFacts Statements StatementFacts AcceptFacts AcceptMore
  SpecValue ValueFacts ListFacts ValueMore Store SpecStore SpecWhole.
From Coq Require Import ZifyBool ZifyN ZifyNat.

Section WholeFacts.
  Context {rt : PyRt} (D : rt_data rt).

  Ltac classes := let c := fresh "c" in intros c; cbn [In]; intros; repeat match goal with H : _ \/ _ |- _ => destruct H as [<- | H] end; try contradiction; reflexivity.
  Definition seps : list N := [91; 93; 58; 44]%N.
  Lemma space_seps u : all_space u -> avoid seps u.
  Proof. apply avoid_class. unfold seps. classes. Qed.
  Lemma word_seps u : Word u -> avoid seps u.
  Proof. apply avoid_class. unfold seps. classes. Qed.
  Lemma respelt_avoid u : avoid seps u -> avoid seps (respelt u).
  Proof. apply respelt_Forall. intros x. cbn. intuition (subst; discriminate). Qed.

  (** ** taking lists out *)
  Lemma skip_taken a s out ms : avoid [91%N] a -> TakenOut ListLiteral s out ms -> TakenOut ListLiteral (a ++ s) (a ++ out) ms.
  Proof.
    intros A T. induction A as [|x a Hx A IH]; [exact T|]. cbn [app]. apply TO_skip; [|exact IH].
    intros m rest E (body & -> & _). cbn in E. injection E as E _. apply Hx. cbn. auto.
  Qed.
  Lemma no_close body : Forall (fun c => is_word c = true \/ is_space c = true \/ In c (py ",'"".@")) body -> ~ In 93%N body.
  Proof. intros F I. eapply Forall_forall in F; [|exact I]. cbn in F. intuition discriminate. Qed.
  Lemma first_sep (c : N) a s a' s' : ~ In c a -> ~ In c a' -> a ++ c :: s = a' ++ c :: s' -> a = a'.
  Proof.
    revert a'. induction a as [|x a IH]; intros [|y a'] N1 N2 E; cbn in *; try reflexivity.
    - injection E as -> _. tauto.
    - injection E as -> _. tauto.
    - injection E as -> E. f_equal. apply IH; auto.
  Qed.
  Lemma take_list m s out ms : ListLiteral m -> TakenOut ListLiteral s out ms -> TakenOut ListLiteral (m ++ s) out (m :: ms).
  Proof.
    intros L T. apply TO_take; [exact L| | |exact T].
    - destruct L as (b & -> & _). discriminate.
    - intros m' rest E L'. destruct L as (b & -> & _ & F). destruct L' as (b' & -> & _ & F').
      cbn [app py] in E. injection E as E. rewrite <- !app_assoc in E. cbn [app] in E.
      apply first_sep in E; [subst; lia| |]; apply no_close; assumption.
  Qed.

  (** ** one item *)
  Definition head_of (i : witem) : pystr := wi_s1 i ++ wi_key i ++ wi_s2 i.
  Definition tail_of (i : witem) : pystr := wi_s3 i ++ show_value (wi_val i) ++ wi_s4 i.
  Lemma item_split i : show_item i = head_of i ++ 58%N :: tail_of i.
  Proof. unfold show_item, head_of, tail_of. rewrite <- !app_assoc. reflexivity. Qed.
  Lemma head_seps i : item_written i -> avoid seps (head_of i).
  Proof.
    intros [B K _ _ _]. inv B. inv H2. unfold head_of. rewrite !avoid_app. repeat split; [apply space_seps|apply word_seps|apply space_seps]; assumption.
  Qed.
  Lemma digits_word ds : Digits ds -> Word ds.
  Proof. intros [_ F]. eapply Forall_impl; [|exact F]. cbn. intros c H. unfold is_word, is_ascii. replace (c <? 128)%N with true by lia. unfold is_word0, is_alpha0, is_upper0, is_lower0, is_digit0, between. lia. Qed.
  Lemma scalar_seps s : scalar_written s -> avoid seps (show_scalar s).
  Proof.
    destruct s as [|[]|ds|a b|q c w]; cbn [scalar_written show_scalar]; intros W.
    - apply word_seps. repeat constructor.
    - apply word_seps. repeat constructor.
    - apply word_seps. repeat constructor.
    - apply word_seps, digits_word, W.
    - destruct W as [A B]. rewrite !avoid_app. repeat split; [apply word_seps, digits_word, A| |apply word_seps, digits_word, B].
      constructor; [cbn; intuition discriminate|constructor].
    - destruct W as (Q & C & S). assert (HQ : avoid seps [q]) by (constructor; [destruct Q; subst; cbn; intuition discriminate|constructor]).
      rewrite !avoid_app. split; [exact HQ|]. split; [|split; [exact HQ|apply space_seps, S]].
      eapply Forall_impl; [|exact C]. cbn. intros x Hx Hi. unfold seps in Hi. cbn in Hi.
      repeat match goal with H : _ \/ _ |- _ => destruct H as [H | H] end; subst; try contradiction; discriminate.
  Qed.
  Lemma elems_body els : list_written els -> ~ In 43%N (show_elems els) -> ListLiteral (respelt (py "[" ++ show_elems els ++ py "]")).
  Proof.
    intros [N W] P. change (py "[" ++ show_elems els ++ py "]") with (91%N :: (show_elems els ++ 93%N :: [])).
    rewrite respelt_cons by reflexivity. rewrite respelt_sep by reflexivity. exists (respelt (show_elems els)). split; [reflexivity|]. split.
    - rewrite respelt_elems by exact W. destruct els as [|[[a e] b] els]; [congruence|]. inv W. destruct H1 as (_ & _ & We). cbn [fst snd] in We.
      assert (relem e <> []).
      { destruct e as [[|[]|ds|x y|q c w]|w]; cbn in *; try discriminate.
        - destruct We as [[Hd _] _]. exact Hd.
        - destruct We as [[Hd _] _]. destruct x; [congruence|discriminate].
        - destruct We as ((c & w' & -> & _) & _). discriminate. }
      cbn [relems]. intros E. destruct els; apply app_eq_nil in E as [_ E]; apply app_eq_nil in E as [E _]; contradiction.
    - apply respelt_Forall.
      + intros x Hx. left. cbn in Hx. repeat match goal with H : _ \/ _ |- _ => destruct H as [H | H] end; subst; try contradiction; reflexivity.
      + pose proof (elems_chars _ W) as F. rewrite Forall_forall in *. intros c Hc. specialize (F c Hc).
        assert (c <> 43%N) by (intros ->; contradiction).
        unfold is_list_ch in F. revert F. cbn. rewrite ?orb_true_iff, ?N.eqb_eq. intros; intuition.
  Qed.

  (** the lists among the values *)
  Definition lists_of (l : list witem) : list pystr :=
    flat_map (fun i => match wi_val i with List_ els => [respelt (py "[" ++ show_elems els ++ py "]")] | _ => [] end) l.
  Lemma avoid_in cs cs' u : avoid cs u -> incl cs' cs -> avoid cs' u.
  Proof. intros A I. eapply avoid_sub; eauto. Qed.
  Lemma occ_0 c u : avoid seps u -> In c seps -> occ c u = 0.
  Proof. intros A I. apply occ_avoid. eapply avoid_in; [exact A|]. intros x [<-|[]]. exact I. Qed.
  Lemma occ_app c a b : occ c (a ++ b) = occ c a + occ c b.
  Proof. apply count_occ_app. Qed.
  Lemma occ_cons c x a : occ c (x :: a) = (if N.eq_dec x c then 1 else 0) + occ c a.
  Proof. unfold occ. cbn. destruct (N.eq_dec x c); reflexivity. Qed.

  Lemma item_taken i : item_written i -> ~ In 43%N (show_item i) -> exists o, avoid [91%N] o /\ occ 58 o = 1 /\ occ 44 o = 0 /\
    forall s out ms, TakenOut ListLiteral s out ms ->
      TakenOut ListLiteral (respelt (show_item i) ++ s) (o ++ out) (lists_of [i] ++ ms).
  Proof.
    intros W P. pose proof (head_seps i W) as HS. rewrite item_split in *. rewrite respelt_sep by reflexivity.
    destruct W as [B K _ V S]. rewrite Forall_forall in B.
    assert (B3 : all_space (wi_s3 i)) by (apply B; cbn; auto). assert (B4 : all_space (wi_s4 i)) by (apply B; cbn; auto 6). clear B.
    pose proof (respelt_avoid _ HS) as HR. unfold tail_of, lists_of. cbn [flat_map]. rewrite app_nil_r. unfold tail_of in P.
    destruct (wi_val i) as [s|els]; cbn [show_value value_written app] in *.
    - set (t := wi_s3 i ++ show_scalar s ++ wi_s4 i) in *.
      assert (A : avoid seps (respelt t)).
      { apply respelt_avoid. unfold t. rewrite !avoid_app. repeat split; [apply space_seps|apply scalar_seps|apply space_seps]; assumption. }
      exists (respelt (head_of i) ++ 58%N :: respelt t). rewrite !occ_app, !occ_cons, !(occ_0 58), !(occ_0 44); try assumption; try (cbn; tauto).
      split; [|split; [reflexivity|split; [reflexivity|]]].
      + apply Forall_app. split; [eapply avoid_in; [exact HR|intros x; cbn; tauto]|]. constructor; [cbn; intuition discriminate|]. eapply avoid_in; [exact A|intros x; cbn; tauto].
      + intros s' out ms T. apply skip_taken; [|exact T]. apply Forall_app. split; [eapply avoid_in; [exact HR|intros x; cbn; tauto]|]. constructor; [cbn; intuition discriminate|]. eapply avoid_in; [exact A|intros x; cbn; tauto].
    - change (py "[" ++ show_elems els ++ py "]") with (91%N :: (show_elems els ++ [93%N])) in *. cbn [app] in *.
      assert (E : respelt (wi_s3 i ++ 91%N :: (show_elems els ++ [93%N]) ++ wi_s4 i) =
                  respelt (wi_s3 i) ++ respelt (91%N :: show_elems els ++ [93%N]) ++ respelt (wi_s4 i)).
      { rewrite respelt_app by reflexivity. f_equal. rewrite app_comm_cons.
        change (91%N :: show_elems els ++ [93%N]) with ((91%N :: show_elems els) ++ [93%N]).
        rewrite <- app_assoc. cbn [app]. rewrite app_comm_cons, respelt_sep by reflexivity. rewrite (app_comm_cons (show_elems els)), respelt_sep by reflexivity.
        rewrite <- app_assoc. reflexivity. }
      rewrite E. assert (A3 : avoid seps (respelt (wi_s3 i))) by (apply respelt_avoid, space_seps; assumption).
      assert (A4 : avoid seps (respelt (wi_s4 i))) by (apply respelt_avoid, space_seps; assumption).
      exists (respelt (head_of i) ++ 58%N :: respelt (wi_s3 i) ++ respelt (wi_s4 i)).
      rewrite !occ_app, !occ_cons, !occ_app, !(occ_0 58), !(occ_0 44); try assumption; try (cbn; tauto).
      assert (AA : forall u, avoid seps u -> avoid [91%N] u) by (intros u Hu; eapply avoid_in; [exact Hu|intros x; cbn; tauto]).
      split; [|split; [reflexivity|split; [reflexivity|]]].
      + apply Forall_app. split; [apply AA; assumption|]. constructor; [cbn; intuition discriminate|]. apply Forall_app. split; apply AA; assumption.
      + intros s' out ms T. rewrite <- !app_assoc. apply skip_taken; [auto|]. cbn [app]. rewrite <- !app_assoc.
        change (58%N :: respelt (wi_s3 i) ++ respelt (91%N :: show_elems els ++ [93%N]) ++ respelt (wi_s4 i) ++ s')
          with ([58%N] ++ respelt (wi_s3 i) ++ respelt (91%N :: show_elems els ++ [93%N]) ++ respelt (wi_s4 i) ++ s').
        change (58%N :: respelt (wi_s3 i) ++ respelt (wi_s4 i) ++ out) with ([58%N] ++ respelt (wi_s3 i) ++ respelt (wi_s4 i) ++ out).
        apply skip_taken; [constructor; [cbn; intuition discriminate|constructor]|]. apply skip_taken; [auto|].
        apply take_list; [|apply skip_taken; auto]. apply elems_body; [assumption|]. intros I. apply P. rewrite in_app_iff; cbn [In]. rewrite in_app_iff; cbn [In]. rewrite !in_app_iff. tauto.
  Qed.

  Lemma items_taken l : Forall item_written l -> ~ In 43%N (show_items l) -> l <> [] -> exists o, avoid [91%N] o /\ occ 58 o = List.length l /\ occ 44 o + 1 = List.length l /\
    forall s out ms, TakenOut ListLiteral s out ms ->
      TakenOut ListLiteral (respelt (show_items l) ++ s) (o ++ out) (lists_of l ++ ms).
  Proof.
    induction 1 as [|i l W F IH]; intros P N; [congruence|]. clear N. destruct l as [|j l].
    - cbn [show_items] in *. destruct (item_taken i W P) as (o & A & O1 & O2 & T). exists o. cbn [List.length]. repeat split; auto; lia.
    - change (show_items (i :: j :: l)) with (show_item i ++ 44%N :: show_items (j :: l)) in *.
      rewrite respelt_sep by reflexivity. destruct (item_taken i W) as (o & A & O1 & O2 & T). { intros I. apply P, in_app_iff. auto. }
      destruct IH as (o' & A' & O1' & O2' & T'). { intros I. apply P, in_app_iff. cbn. auto. } { discriminate. }
      exists (o ++ 44%N :: o'). rewrite !occ_app, !occ_cons. cbn [N.eq_dec]. change (if N.eq_dec 44 58 then 1 else 0) with 0. change (if N.eq_dec 44 44 then 1 else 0) with 1.
      cbn [List.length] in *. split; [|split; [lia|split; [lia|]]].
      + apply Forall_app. split; [exact A|]. constructor; [cbn; intuition discriminate|exact A'].
      + intros s out ms TT. rewrite <- !app_assoc. change (lists_of (i :: j :: l)) with (lists_of ([i] ++ j :: l)). unfold lists_of. rewrite flat_map_app. fold (lists_of [i]) (lists_of (j :: l)).
        rewrite <- app_assoc. apply T. cbn [app]. change (44%N :: respelt (show_items (j :: l)) ++ s) with ([44%N] ++ respelt (show_items (j :: l)) ++ s).
        change (44%N :: o' ++ out) with ([44%N] ++ o' ++ out). apply skip_taken; [constructor; [cbn; intuition discriminate|constructor]|]. apply T', TT.
  Qed.
  Lemma pythonise_respelt s : pythonise s = respelt s. Proof. reflexivity. Qed.
  Lemma props_taken l : Forall item_written l -> ~ In 43%N (show_props l) -> l <> [] -> exists out, occ 58 out = occ 44 out + 1 /\
    TakenOut ListLiteral (pythonise (show_props l)) out (lists_of l).
  Proof.
    intros W P N. rewrite pythonise_respelt. unfold show_props in *. change (py "{" ++ show_items l ++ py "}") with (123%N :: (show_items l ++ 125%N :: [])) in *.
    destruct (items_taken l W) as (o & A & O1 & O2 & T); auto. { intros I. apply P. right. apply in_app_iff. auto. }
    exists ([123%N] ++ o ++ [125%N]). split.
    - rewrite !occ_app. cbn. lia.
    - rewrite respelt_cons, respelt_sep by reflexivity. change (123%N :: respelt (show_items l) ++ 125%N :: respelt []) with ([123%N] ++ respelt (show_items l) ++ [125%N] ++ []).
      apply skip_taken; [constructor; [cbn; intuition discriminate|constructor]|].
      rewrite <- (app_nil_r (lists_of l)). apply T. change [125%N] with ([125%N] ++ []) at 2. apply skip_taken; [constructor; [cbn; intuition discriminate|constructor]|constructor].
  Qed.
  Lemma written_param l : Forall item_written l -> ~ In 43%N (show_props l) -> l <> [] ->
    (forall i els, In i l -> wi_val i = List_ els -> Forall (fun x => elem_legal (snd (fst x))) els) -> check_param_match (show_props l) = Ok tt.
  Proof.
    intros W P N B. destruct (props_taken l W P N) as (out & O & T). apply (param_match_spec _ _ _ T). split; [exact O|].
    apply Forall_forall. intros m Hm. unfold lists_of in Hm. apply in_flat_map in Hm as (i & Hi & Hm).
    destruct (wi_val i) as [s|els] eqn:E; [contradiction|]. destruct Hm as [<-|[]].
    rewrite Forall_forall in W. destruct (W i Hi) as [_ _ _ V _]. rewrite E in V.
    destruct (list_values D els V (B i els Hi E)) as (vs & -> & _). eauto.
  Qed.

  (** ** the characters of a property list *)
  Definition ok_ch (c : N) : Prop := is_word c = true \/ is_space c = true \/ In c (py ":,'"".[]@+").
  Lemma ok_space u : all_space u -> Forall ok_ch u.
  Proof. apply Forall_impl. unfold ok_ch. auto. Qed.
  Lemma ok_word u : Word u -> Forall ok_ch u.
  Proof. apply Forall_impl. unfold ok_ch. auto. Qed.
  Lemma ok_lit c : In c (py ":,'"".[]@+") -> ok_ch c. Proof. unfold ok_ch. auto. Qed.
  Lemma ok_value v : value_written v -> Forall ok_ch (show_value v).
  Proof.
    destruct v as [s|els]; cbn [value_written show_value].
    - destruct s as [|[]|ds|a b|q c w]; cbn [scalar_written show_scalar]; intros W; try (apply ok_word; repeat constructor; fail).
      + apply ok_word, digits_word, W.
      + destruct W as [A B]. apply Forall_app. split; [apply ok_word, digits_word, A|]. constructor; [apply ok_lit; cbn; tauto|]. apply ok_word, digits_word, B.
      + destruct W as (Q & C & S). assert (HQ : ok_ch q) by (apply ok_lit; destruct Q; subst; cbn; tauto).
        constructor; [exact HQ|]. cbn [app]. apply Forall_app. split; [|constructor; [exact HQ|apply ok_space, S]].
        eapply Forall_impl; [|exact C]. unfold ok_ch. cbn. tauto.
    - intros [_ W]. constructor; [apply ok_lit; cbn; tauto|]. cbn [app]. apply Forall_app. split; [|constructor; [apply ok_lit; cbn; tauto|constructor]].
      eapply Forall_impl; [|exact (elems_chars _ W)]. intros c. unfold is_list_ch, ok_ch. cbn. rewrite ?orb_true_iff, ?N.eqb_eq. intros; intuition.
  Qed.
  Lemma ok_item i : item_written i -> Forall ok_ch (show_item i).
  Proof.
    intros [B K _ V _]. rewrite Forall_forall in B. unfold show_item. rewrite !Forall_app.
    repeat split; try (apply ok_space, B; cbn; tauto); [apply ok_word, K| |apply ok_value, V]. constructor; [apply ok_lit; cbn; tauto|constructor].
  Qed.
  Lemma ok_items l : Forall item_written l -> Forall ok_ch (show_items l).
  Proof.
    induction 1 as [|i l W F IH]; [constructor|]. destruct l as [|j l]; [apply ok_item, W|].
    change (show_items (i :: j :: l)) with (show_item i ++ 44%N :: show_items (j :: l)). apply Forall_app. split; [apply ok_item, W|].
    constructor; [apply ok_lit; cbn; tauto|exact IH].
  Qed.
  Lemma elems_no_brackets els : list_written els -> avoid [91; 93]%N (show_elems els).
  Proof.
    intros [_ W]. eapply Forall_impl; [|exact (elems_chars _ W)]. intros c H I. cbn in I. destruct I as [<-|[<-|[]]]; discriminate.
  Qed.
  Lemma item_brackets i : item_written i -> occ 91 (show_item i) = occ 93 (show_item i).
  Proof.
    intros W. pose proof (head_seps i W) as H. rewrite item_split, !occ_app, !occ_cons, !(occ_0 91 (head_of i)), !(occ_0 93 (head_of i)) by (try assumption; cbn; tauto).
    destruct W as [B _ _ V _]. rewrite Forall_forall in B. unfold tail_of. rewrite !occ_app.
    assert (B3 : avoid seps (wi_s3 i)) by (apply space_seps, B; cbn; tauto). assert (B4 : avoid seps (wi_s4 i)) by (apply space_seps, B; cbn; tauto).
    rewrite !(occ_0 91 (wi_s3 i)), !(occ_0 93 (wi_s3 i)), !(occ_0 91 (wi_s4 i)), !(occ_0 93 (wi_s4 i)) by (try assumption; cbn; tauto).
    destruct (wi_val i) as [s|els]; cbn [value_written show_value] in *.
    - rewrite (occ_0 91 _ (scalar_seps s V)), (occ_0 93 _ (scalar_seps s V)) by (cbn; tauto). reflexivity.
    - change (py "[" ++ show_elems els ++ py "]") with ([91%N] ++ show_elems els ++ [93%N]). rewrite !occ_app.
      pose proof (elems_no_brackets els V) as A.
      rewrite !(occ_avoid _ (show_elems els)) by (eapply avoid_sub; [|exact A]; intros x; cbn; tauto). reflexivity.
  Qed.
  Lemma items_brackets l : Forall item_written l -> occ 91 (show_items l) = occ 93 (show_items l).
  Proof.
    induction 1 as [|i l W F IH]; [reflexivity|]. destruct l as [|j l]; [apply item_brackets, W|].
    change (show_items (i :: j :: l)) with (show_item i ++ 44%N :: show_items (j :: l)). rewrite !occ_app, !occ_cons, (item_brackets i W), IH. reflexivity.
  Qed.
  Lemma items_ne l : Forall item_written l -> l <> [] -> show_items l <> [].
  Proof.
    intros W N E. destruct l as [|i l]; [congruence|]. assert (In 58%N (show_items (i :: l))); [|rewrite E in H; contradiction].
    destruct l as [|j l].
    - change (In 58%N (show_item i)). rewrite item_split. apply in_app_iff. right. left. reflexivity.
    - change (show_items (i :: j :: l)) with (show_item i ++ 44%N :: show_items (j :: l)). apply in_app_iff. left. rewrite item_split. apply in_app_iff. right. left. reflexivity.
  Qed.
  Lemma written_braced l sp : Forall item_written l -> ~ In 43%N (show_props l) -> l <> [] -> all_space sp -> Braced (show_props l) (show_props l ++ sp).
  Proof.
    intros W P N S. exists (show_items l), sp. split; [reflexivity|]. split; [reflexivity|]. split; [exact S|]. split; [apply items_ne; auto|]. split.
    - pose proof (ok_items l W) as F. rewrite Forall_forall in *. intros c Hc. specialize (F c Hc).
      assert (c <> 43%N) by (intros ->; apply P; unfold show_props; rewrite !in_app_iff; auto).
      unfold ok_ch in F. cbn in *. intuition.
    - rewrite items_brackets by auto. exists (occ 93 (show_items l)). lia.
  Qed.
  Lemma legal_no_bare l i els : Forall item_legal l -> In i l -> wi_val i = List_ els -> Forall (fun x => elem_legal (snd (fst x))) els.
  Proof. intros P I E. rewrite Forall_forall in P. specialize (P i I). unfold item_legal in P. rewrite E in P. exact P. Qed.
  Lemma drawn_good q : props_drawn q -> prop_good (props_text q).
  Proof.
    intros [N W P K B S]. exists (show_props (wp_items q)). split; [apply written_braced; auto|].
    apply written_param; auto. intros i els I E. eapply legal_no_bare; eauto.
  Qed.
  Lemma drawn_written q : props_drawn q -> ParamText (props_text q) /\ exists body, props_text q = py "{" ++ body.
  Proof.
    intros [N W P K B S]. unfold props_text, show_props. split.
    - split; [discriminate|]. pose proof (ok_items _ W) as F. apply Forall_app. split.
      + constructor; [cbn; tauto|]. cbn [app]. apply Forall_app. split; [|constructor; [cbn; tauto|constructor]].
        rewrite Forall_forall in *. intros c Hc. specialize (F c Hc).
        assert (c <> 43%N) by (intros ->; apply S; unfold show_props; rewrite !in_app_iff; auto).
        unfold ok_ch in F. cbn in *. intuition.
      + eapply Forall_impl; [|exact B]. cbn. auto.
    - eexists. rewrite <- app_assoc. reflexivity.
  Qed.
  Lemma drawn_value q : props_drawn q -> exists d, get_property_dict (Some (props_text q)) = Ok (Some d) /\
    Forall2 (fun i kv => fst kv = wi_key i /\ item_value i (snd kv) /\ (item_plain i -> item_plain_value i (snd kv))) (wp_items q) d.
  Proof.
    intros [N W P K B S]. destruct (get_distinct D (wp_items q) (wp_blank q)) as (d & E & F); auto. exists d. split; [exact E|]. clear -W F D.
    induction F as [|i kv l d [H1 H2] F IH]; inv W; constructor; auto. repeat split; auto. intros PL. apply plain_values; auto.
  Qed.
End WholeFacts.
