(** * WholeQuery: a MAKE line and a FIND line (C57) *)
From Verif Require Import PyBase BaseFacts Json JsonFacts SpecJson Props RtLaws PropsFacts
  SpecText SpecPattern SpecGrammar PatternFacts GrammarFacts Checks ChecksFacts Statements StatementFacts AcceptFacts AcceptMore
  SpecValue FS FSFacts Store SpecStore StoreFacts Make SpecMake MakeFacts Find SpecFind FindFacts Query QueryFacts SpecWhole WholeFacts WholeMore.
From Coq Require Import ZifyBool ZifyN ZifyNat Permutation.

Section WholeQuery.
  Context {rt : PyRt} (D : rt_data rt).
  Let R := rt_base _ D.

  Lemma parse_make_same q q' : extract_all_statements q MAKE = extract_all_statements q' MAKE -> parse_make q = parse_make q'.
  Proof. intros E. unfold parse_make. rewrite E. reflexivity. Qed.
  Lemma parse_find_same q q' : extract_all_statements q FIND = extract_all_statements q' FIND -> parse_find q = parse_find q'.
  Proof. intros E. unfold parse_find. rewrite E. reflexivity. Qed.
  Lemma no_report q h : ~ AnagramLine (py "REPORT") q -> parse_report q h = Ok None.
  Proof.
    intros N. unfold parse_report. destruct (extract_cases q REPORT) as [(ms & M & X & _)|(_ & [[X _]|[_ ->]])]; [discriminate| |contradiction|reflexivity].
    exfalso. apply N. clear -M X. destruct ms as [|m ms]; [congruence|]. clear M.
    assert (exists a b, q = a ++ m ++ b /\ ReportStatement (py "REPORT") m).
    { remember (m :: ms) as l eqn:E. induction X as [|x q l H X IH|m0 q l P NE L X IH]; [discriminate| |].
      - destruct (IH E) as (a & b & -> & HS). exists (x :: a), b. auto.
      - injection E as <- <-. exists [], q. auto. }
    destruct H as (a & b & -> & k & body & -> & C & NB & NN). exists a, k, body, b. rewrite <- !app_assoc. split; [reflexivity|]. split; [exists (py "REPORT"); auto|]. auto.
  Qed.
  Lemma stored_output g G w o : stored g G w -> stored g G {| w_fs := w_fs w; w_in := w_in w; w_out := o |}.
  Proof. intros [A B C E F]. constructor; assumption. Qed.

  Lemma no_nl_statement kw l : kw = py "MAKE" \/ kw = py "make" \/ kw = py "FIND" \/ kw = py "find" -> drawn_list l -> no_newline (statement_text kw l).
  Proof.
    intros K DL I. unfold statement_text, show_statement in I. rewrite !in_app_iff in I. destruct I as [I|[I|I]].
    - destruct K as [-> |[-> |[-> | ->]]]; cbn in I; intuition discriminate.
    - exact (dl_line _ DL I).
    - cbn in I. intuition discriminate.
  Qed.

  Theorem written_query g G w kw l kw' b a l' :
    kw = py "MAKE" \/ kw = py "make" -> kw' = py "FIND" \/ kw' = py "find" ->
    stored g G w -> drawn_list l -> (exists bp, In bp l /\ rels_in (snd bp) <> []) -> drawn_list ((b, One a) :: l') ->
    ~ Occurs (py "FIND") (statement_text kw l) -> ~ Occurs (py "MAKE") (statement_text kw' ((b, One a) :: l')) ->
    let q := join_lines [statement_text kw l; statement_text kw' ((b, One a) :: l')] in
    ~ AnagramLine (py "REPORT") q ->
    exists w' G', run (query q g) w = (Ok true, w') /\ stored g G' w' /\ now_contains l G G' /\
      (In (dn_label a) (ix_labels (g_ix G')) /\ w_out w' = w_out w \/
       ~ In (dn_label a) (ix_labels (g_ix G')) /\ w_out w' = w_out w ++ [NO_RESULTS]).
  Proof.
    intros K K' S DL HR DF NF NM q NR.
    destruct (made_as_written D g G w kw l S DL HR) as (w1 & G' & RUN & S' & NC & U).
    assert (KM : Ci (py "MAKE") kw) by (destruct K as [-> | ->]; apply ci_refl_ascii).
    assert (KF : Ci (py "FIND") kw') by (destruct K' as [-> | ->]; apply ci_refl_ascii).
    set (lf := (b, One a) :: l') in *.
    pose proof (written_statement _ kw (texts l) KM (list_written_ _ DL)) as SM. fold (statement_text kw l) in SM.
    pose proof (written_statement _ kw' (texts lf) KF (list_written_ _ DF)) as SF. fold (statement_text kw' lf) in SF.
    assert (NLM : no_newline (statement_text kw l)) by (apply no_nl_statement; tauto).
    assert (NLF : no_newline (statement_text kw' lf)) by (apply no_nl_statement; tauto).
    assert (EM : extract_all_statements q MAKE = Ok (Some [statement_text kw l])).
    { apply (lines_extracted_ok MAKE [(true, statement_text kw l); (false, statement_text kw' lf)]); [discriminate| |discriminate].
      constructor; [split; [exact NLM|exact SM]|]. constructor; [split; [exact NLF|exact NM]|constructor]. }
    assert (EF : extract_all_statements q FIND = Ok (Some [statement_text kw' lf])).
    { apply (lines_extracted_ok FIND [(false, statement_text kw l); (true, statement_text kw' lf)]); [discriminate| |discriminate].
      constructor; [split; [exact NLM|exact NF]|]. constructor; [split; [exact NLF|exact SF]|constructor]. }
    assert (EM' : extract_all_statements (statement_text kw l) MAKE = Ok (Some [statement_text kw l])).
    { apply (lines_extracted_ok MAKE [(true, statement_text kw l)]); [discriminate| |discriminate]. constructor; [split; [exact NLM|exact SM]|constructor]. }
    assert (EF' : extract_all_statements (statement_text kw' lf) FIND = Ok (Some [statement_text kw' lf])).
    { apply (lines_extracted_ok FIND [(true, statement_text kw' lf)]); [discriminate| |discriminate]. constructor; [split; [exact NLF|exact SF]|constructor]. }
    assert (PM : parse_make q = Ok (Some [parsed_as kw l])).
    { rewrite (parse_make_same q (statement_text kw l)) by congruence.
      apply (make_round_trip R); [exact K|apply list_written_, DL|apply (list_passes D), DL|apply list_distinct, DL]. }
    set (f := {| pf_raw := show_statement kw' (texts lf); pf_pattern := read_pattern (pattern_text (One a)); pf_handles := given_handles (read_pattern (pattern_text (One a))) |}).
    assert (PF : parse_find q = Ok (Some f)).
    { rewrite (parse_find_same q (statement_text kw' lf)) by congruence. unfold statement_text, lf. cbn [texts map fst snd].
      apply (find_round_trip R); [exact K'|apply (list_written_ _ DF)|apply (list_passes D _ DF)|].
      pose proof (list_distinct _ DF) as H. inv H. assumption. }
    assert (AN : node_drawn a) by (pose proof (dl_nodes _ DF) as H; inv H; cbn [snd nodes_in] in *; match goal with H : Forall node_drawn [a] |- _ => inv H; assumption end).
    destruct (make_then_find q g w [parsed_as kw l] f None PM PF (no_report q _ NR)) as (_ & _ & _ & OK).
    assert (FB : findable (pf_pattern f)).
    { constructor; cbn; try discriminate.
      - reflexivity.
      - destruct AN as [_ _ _ _ _ P]. unfold meaning. cbn. destruct (dn_props a) as [pr|]; [|eexists; reflexivity].
        destruct (drawn_value D pr (P pr eq_refl)) as (d & E & _). cbn [option_map]. rewrite E. eauto.
      - intros x [<-|[<-|[<-|[]]]]; cbn; discriminate. }
    assert (IP : is_pattern (pf_pattern f)) by (eapply parse_find_is_pattern; exact PF).
    assert (AL : forall s, asked_label (pf_pattern f) s <-> s = dn_label a).
    { intros s. split.
      - intros (x & [<-|[]] & E). injection E as E. congruence.
      - intros ->. exists (read_node (node_text a)). split; [left; reflexivity|reflexivity]. }
    assert (NN : forall s, ~ asked_name (pf_pattern f) s).
    { intros s (x & [<-|[<-|[]]] & H & _); discriminate. }
    destruct (find_outcome f g (g_ix G') w1 IP (stored_index g G' w1 S')) as [(_ & ((s & A1 & A2) & _) & E)|[(_ & X & E)|(X & _)]]; [| |contradiction].
    - apply AL in A1. subst s. exists w1, G'. split; [eapply OK; [exact RUN|exact E]|]. split; [exact S'|]. split; [exact NC|]. left. split; [exact A2|].
      destruct U as (_ & _ & U). exact U.
    - assert (NI : ~ In (dn_label a) (ix_labels (g_ix G'))).
      { intros I. apply X. split; [exists (dn_label a); split; [apply AL; reflexivity|exact I]|]. intros (s & H & _). exact (NN s H). }
      eexists _, G'. split; [eapply OK; [exact RUN|exact E]|]. split; [apply stored_output, S'|]. split; [exact NC|]. right. split; [exact NI|].
      cbn [w_out]. destruct U as (_ & _ & U). rewrite U. reflexivity.
  Qed.

  (** ** deciding the side conditions, for examples *)
  Fixpoint ci_prefix (kw s : pystr) : bool :=
    match kw, s with
    | [], _ => true
    | a :: kw', b :: s' => ci_eqb a b && ci_prefix kw' s'
    | _ :: _, [] => false
    end.
  Fixpoint occurs_b (kw s : pystr) : bool := ci_prefix kw s || match s with [] => false | _ :: s' => occurs_b kw s' end.
  Lemma occurs_no kw s : occurs_b kw s = false -> ~ Occurs kw s.
  Proof.
    intros H (a & w & b & -> & C). assert (P : ci_prefix kw (w ++ b) = true).
    { clear H. induction C as [|x y kw w E C IH]; [reflexivity|]. cbn [app ci_prefix]. rewrite E, IH. reflexivity. }
    induction a as [|x a IH]; cbn [app] in H.
    - destruct (w ++ b); cbn [occurs_b] in H; rewrite P in H; discriminate.
    - cbn [occurs_b] in H. apply orb_false_iff in H as [_ H]. auto.
  Qed.
  Lemma anagram_no kw q c : In c kw -> existsb (ci_eqb c) q = false -> ~ AnagramLine kw q.
  Proof.
    intros I H (a & w & t & b & -> & (p & P & C) & _). rewrite <- not_true_iff_false, existsb_exists in H. apply H.
    assert (IP : In c p) by (eapply Permutation_in; eassumption).
    assert (exists y, In y w /\ ci_eqb c y = true) as (y & Hy & E).
    { clear -C IP. induction C as [|x y p w E C IH]; [contradiction|]. destruct IP as [->|IP]; [exists y; cbn; auto|]. destruct (IH IP) as (z & Hz & Ez). exists z. cbn. auto. }
    exists y. split; [|exact E]. rewrite !in_app_iff. auto.
  Qed.
End WholeQuery.
