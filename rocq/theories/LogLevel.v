(** * LogLevel: proofs about the records that a level lets through *)
From Verif Require Import PyBase BaseFacts Json SpecJson RtLaws Statements FS Store SpecStore Make SpecMake Query SpecShell SpecDurable Log SpecLog LogFacts LogMore.
From Coq Require Import Lia.

Theorem all_written l : written (level_no DEBUG) l = l.
Proof. unfold written. induction l as [|[[] t] l IH]; [reflexivity|exact (f_equal (cons _) IH)..]. Qed.
Lemma written_app th a b : written th (a ++ b) = written th a ++ written th b.
Proof. apply filter_app. Qed.
Lemma written_none l : (forall t, ~ In (ERROR, t) l) -> written WARNING l = [].
Proof.
  induction l as [|[v t] l IH]; intros H; [reflexivity|]. unfold written. cbn [List.filter fst].
  destruct v; cbn [level_no]; try (apply IH; intros t' X; apply (H t'); right; exact X).
  destruct (H t). left. reflexivity.
Qed.
Lemma written_values l : Forall on_value l -> written WARNING l = [].
Proof.
  intros F. apply written_none. intros t I. rewrite Forall_forall in F. destruct (F _ I) as (a & b & E). discriminate.
Qed.
Lemma written_make z vals n : Forall on_value vals -> written WARNING (make_log z vals n) = [].
Proof. intros F. unfold make_log. rewrite !written_app, (written_values vals F). reflexivity. Qed.
Lemma written_find vals readable : Forall on_value vals -> written WARNING (find_log vals readable) = if readable then [] else both_empty.
Proof. intros F. unfold find_log. rewrite !written_app, (written_values vals F). destruct readable; reflexivity. Qed.

(** what has been logged at some moment is the beginning of what the whole run logs *)
Lemma lcrash_prefix {A} (m : lio A) w l w' : lcrash m w l w' -> exists more, fst (fst (lrun m w)) = l ++ more.
Proof.
  induction 1 as [m w|p off t t1 t2 k w E|c k w l w' H (more & IH)|r m w l w' H (more & IH)].
  - eexists. reflexivity.
  - eexists. reflexivity.
  - exists more. cbn [lrun]. destruct (exec c w) as [r w1]. exact IH.
  - exists more. cbn [lrun]. destruct (lrun m w) as [[l1 x] w1]. cbn [fst] in *. rewrite IH. reflexivity.
Qed.

Section Shipped.
  Context {rt : PyRt} (list_text : pyval -> pystr).
  Theorem shipped_log : rt_data rt -> forall q g w log r w', lrun (query_l list_text q g) w = (log, r, w') ->
    ((exists b, r = Ok b) /\ damaged (indexes_fp g) w' /\ written WARNING log = both_empty) \/
    (~ ((exists b, r = Ok b) /\ damaged (indexes_fp g) w') /\ written WARNING log = []).
  Proof.
    intros D q g w log r w' R. destruct r as [b|e].
    - destruct (answered_log list_text D q g w log b w' R) as (mlog & vals & readable & -> & F & Hd & M).
      assert (EM : written WARNING mlog = []).
      { destruct M as [[-> _]|(t & z & mvals & n & _ & _ & Fm & -> & _)]; [reflexivity|apply written_make, Fm]. }
      rewrite written_app, EM, written_find by exact F. cbn [app]. destruct readable.
      + right. split; [|reflexivity]. intros [_ X]. apply Hd in X. discriminate.
      + left. split; [eauto|]. split; [apply Hd; reflexivity|reflexivity].
    - right. split; [intros [[b X] _]; discriminate|]. apply written_none. intros t I.
      apply (log_errors list_text q g w log (Err e) w' R) in I as [[b X] _]. discriminate.
  Qed.
  Theorem shipped_history : rt_data rt -> forall g h w w', history_l list_text g h w w' ->
    Forall (fun x => (exists more, written WARNING (h_log x) ++ more = both_empty) /\
                     (forall e, h_fate x = Failed e -> written WARNING (h_log x) = [])) h.
  Proof.
    intros D g h w w' H. induction H as [w|x h w w1 w2 w3 S K H IH]; constructor; [|exact IH].
    assert (W : forall log r w', lrun (query_l list_text (h_query x) g) w = (log, r, w') -> exists more, written WARNING log ++ more = both_empty).
    { intros log r v R. destruct (shipped_log D _ _ _ _ _ _ R) as [(_ & _ & ->)|(_ & ->)]; [exists []; apply app_nil_r|exists both_empty; reflexivity]. }
    unfold sent_l in S. split.
    - destruct (h_fate x) as [|e|].
      + destruct S as (b & S). eapply W; exact S.
      + eapply W; exact S.
      + destruct (lcrash_prefix _ _ _ _ S) as (more & E). destruct (lrun (query_l list_text (h_query x) g) w) as [[log r] v] eqn:R. cbn [fst] in E.
        destruct (W _ _ _ eq_refl) as (more' & E'). subst log. rewrite written_app, <- app_assoc in E'. eauto.
    - intros e E. rewrite E in S. destruct (shipped_log D _ _ _ _ _ _ S) as [((b & X) & _)|(_ & ->)]; [discriminate|reflexivity].
  Qed.
End Shipped.
