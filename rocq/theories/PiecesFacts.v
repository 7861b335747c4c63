(** * PiecesFacts: a FIND while a MAKE writes its files in pieces *)
From Verif Require Import PyBase BaseFacts Json JsonFacts JsonMore SpecJson RtLaws Props PropsFacts Checks Statements SpecPattern Data FS FSFacts Store
  SpecStore StoreFacts IndexText Make SpecMake MakeFacts MakeRun MakeMore MakeFinal SpecShell Confine SpecCrash HistoryFacts CrashFacts SpecConc ConcFacts
  Find Query SpecFind PatternFacts FindFacts SpecBeside BesideFacts SpecPieces.
From Coq Require Import ZifyBool ZifyN ZifyNat.

(** ** joining the pieces *)
Lemma skip_skip {A} a : forall b (l : list A), skipn a (skipn b l) = skipn (b + a) l.
Proof. induction b as [|b IH]; intros l; [reflexivity|]. destruct l; cbn [Nat.add skipn]; [apply skipn_nil|apply IH]. Qed.
Lemma write_at_join old off t1 t2 : write_at (write_at old off t1) (off + List.length t1) t2 = write_at old off (t1 ++ t2).
Proof.
  unfold write_at. set (h := firstn off old ++ repeat 0%N (off - List.length old)).
  assert (L : List.length h = off) by (unfold h; rewrite app_length, firstn_length, repeat_length; lia).
  replace (firstn off old ++ repeat 0%N (off - List.length old) ++ t1 ++ skipn (off + List.length t1) old)
    with ((h ++ t1) ++ skipn (off + List.length t1) old) by (unfold h; rewrite <- !app_assoc; reflexivity).
  replace (firstn off old ++ repeat 0%N (off - List.length old) ++ (t1 ++ t2) ++ skipn (off + List.length (t1 ++ t2)) old)
    with ((h ++ t1) ++ t2 ++ skipn (off + List.length (t1 ++ t2)) old) by (unfold h; rewrite <- !app_assoc; reflexivity).
  assert (L2 : List.length (h ++ t1) = off + List.length t1) by (rewrite app_length; lia).
  rewrite <- L2 at 1. rewrite firstn_app, Nat.sub_diag, firstn_O, app_nil_r, firstn_all. f_equal.
  replace (off + List.length t1 - List.length ((h ++ t1) ++ skipn (off + List.length t1) old)) with 0
    by (rewrite app_length; lia).
  cbn [repeat app]. f_equal.
  replace (off + List.length t1 + List.length t2) with (List.length (h ++ t1) + List.length t2) by lia.
  rewrite skipn_app. rewrite skipn_all2 by lia. cbn [app].
  replace (List.length (h ++ t1) + List.length t2 - List.length (h ++ t1)) with (List.length t2) by lia.
  rewrite skip_skip. f_equal. rewrite app_length. lia.
Qed.

Lemma exec_join p off t1 t2 w :
  exec (CWrite p (off + List.length t1) t2) (snd (exec (CWrite p off t1) w)) = exec (CWrite p off (t1 ++ t2)) w.
Proof.
  cbn [exec]. destruct (fs_get p (w_fs w)) as [[|old]|] eqn:E; cbn [snd]; rewrite ?E; [reflexivity| |reflexivity].
  change (with_fs w (fs_set p (EFile ?t) (w_fs w))) with (put p t w). pose proof (put_has p (write_at old off t1) w) as H.
  unfold has_file, get in H. rewrite H.
  change (with_fs ?a (fs_set p (EFile ?t) (w_fs ?a))) with (put p t a). rewrite put_put, write_at_join. reflexivity.
Qed.

Lemma in_pieces_refl {A} (m : io A) : in_pieces m m.
Proof. induction m; constructor; auto. Qed.
Lemma pieces_run {A} (m m' : io A) : in_pieces m m' -> forall w, run m' w = run m w.
Proof.
  induction 1 as [a|e|c k k' H IH|p off t1 t2 k m' H IH]; intros w; [reflexivity|reflexivity| |].
  - cbn [run]. destruct (exec c w). apply IH.
  - cbn [run] in *. rewrite <- (exec_join p off t1 t2 w). destruct (exec (CWrite p off t1) w) as [r1 w1]. cbn [snd]. apply IH.
Qed.
Lemma pieces_only {A} ps (m m' : io A) : in_pieces m m' -> only (on_files ps) m -> only (on_files ps) m'.
Proof.
  induction 1 as [a|e|c k k' H IH|p off t1 t2 k m' H IH]; intros O; [exact O|exact O| |].
  - inversion O; subst. constructor; auto.
  - inversion O; subst. constructor; [assumption|]. intros _. apply IH. constructor; assumption.
Qed.
Lemma crash_join {A} p off t1 t2 (k : resp -> io A) w v :
  crash (Do (CWrite p (off + List.length t1) t2) k) (snd (exec (CWrite p off t1) w)) v -> crash (Do (CWrite p off (t1 ++ t2)) k) w v.
Proof.
  intros H. remember (Do (CWrite p (off + List.length t1) t2) k) as m eqn:Em. remember (snd (exec (CWrite p off t1) w)) as w1 eqn:Ew.
  destruct H as [m w1|p' off' t u1 u2 k' w1 E|c k' w1 w' H]; subst.
  - eapply crash_write. reflexivity.
  - inversion Em; subst. rewrite exec_join. eapply crash_write. rewrite app_assoc. reflexivity.
  - inversion Em; subst. rewrite exec_join in H. apply crash_later. exact H.
Qed.
Lemma pieces_crash {A} (m m' : io A) : in_pieces m m' -> forall w v, at_step m' w v -> crash m w v.
Proof.
  induction 1 as [a|e|c k k' H IH|p off t1 t2 k m' H IH]; intros w v (m1 & P).
  - inversion P; subst. constructor.
  - inversion P; subst. constructor.
  - inversion P; subst; [constructor|]. apply crash_later. apply IH. eexists; eauto.
  - inversion P; subst; [constructor|]. apply crash_join. apply IH. eexists; eauto.
Qed.

(** every state a crash can leave is passed by some cutting *)
Lemma exn_dec (a b : exn) : {a = b} + {a <> b}.
Proof. repeat decide equality. Qed.
Lemma resp_dec (a b : resp) : {a = b} + {a <> b}.
Proof. decide equality; try apply str_eq_dec; try (apply list_eq_dec; apply str_eq_dec); try apply exn_dec. apply Bool.bool_dec. Qed.
Lemma crash_pieces {A} (m : io A) w v : crash m w v -> exists m' m1, in_pieces m m' /\ passes m' w m1 v.
Proof.
  induction 1 as [m w|p off t t1 t2 k w E|c k w w' H (m' & m1 & IP & P)].
  - exists m, m. split; [apply in_pieces_refl|constructor].
  - subst. exists (Do (CWrite p off t1) (fun _ => Do (CWrite p (off + List.length t1) t2) k)), (Do (CWrite p (off + List.length t1) t2) k).
    split; [apply ip_cut; apply in_pieces_refl|]. apply pass_step. constructor.
  - set (r0 := fst (exec c w)) in *.
    exists (Do c (fun r => if resp_dec r r0 then m' else k r)), m1. split.
    + constructor. intros r. destruct (resp_dec r r0) as [-> |]; [exact IP|apply in_pieces_refl].
    + apply pass_step. fold r0. destruct (resp_dec r0 r0); [exact P|congruence].
Qed.
Lemma passes_schedule {A B} (a : io A) (b b1 : io B) w v tr ra rb w' : passes b w b1 v -> schedule a b1 v tr ra rb w' -> exists tr', schedule a b w tr' ra rb w'.
Proof. induction 1 as [|c k w m' v P IH]; intros S; [eauto|]. destruct (IH S) as (tr' & S'). eexists. apply sc_right. exact S'. Qed.
Lemma run_right {B} (b : io B) : forall {A} (a : io A) ra w, (match a with Ret x => ra = Ok x | Throw e => ra = Err e | Do _ _ => False end) ->
  exists tr rb w', schedule a b w tr ra rb w'.
Proof.
  induction b as [x|e|c k IH]; intros A a ra w H.
  - eexists _, (Ok x), w. apply sc_done; [exact H|reflexivity].
  - eexists _, (Err e), w. apply sc_done; [exact H|reflexivity].
  - destruct (IH (fst (exec c w)) A a ra (snd (exec c w)) H) as (tr & rb & w' & S). eexists _, rb, w'. apply sc_right. exact S.
Qed.
Lemma run_left {A B} (a : io A) (b : io B) : forall w, exists tr rb w', schedule a b w tr (fst (run a w)) rb w'.
Proof.
  induction a as [x|e|c k IH]; intros w; [apply run_right; reflexivity|apply run_right; reflexivity|].
  cbn [run]. destruct (IH (fst (exec c w)) (snd (exec c w))) as (tr & rb & w' & S). destruct (exec c w) as [r w1] eqn:E. cbn [fst snd] in S.
  eexists _, rb, w'. apply sc_left. rewrite E. exact S.
Qed.
(** whatever a crash of [b] can leave behind, a process beside [b] can find *)
Theorem meets {A B} (a : io A) (b : io B) w v : crash b w v -> exists b' tr ra rb w',
  in_pieces b b' /\ schedule a b' w tr ra rb w' /\ ra = fst (run a v).
Proof.
  intros H. destruct (crash_pieces b w v H) as (b' & b1 & IP & P). destruct (run_left a b1 v) as (tr & rb & w' & S).
  destruct (passes_schedule a b' b1 w v tr _ rb w' P S) as (tr' & S'). exists b', tr', (fst (run a v)), rb, w'. auto.
Qed.

(** the [n]-th operation, a write, cut behind [k] characters *)
Fixpoint cut_at {A} (n k : nat) (m : io A) : io A :=
  match m with
  | Do c f =>
      match n with
      | O => match c with CWrite p off t => Do (CWrite p off (firstn k t)) (fun _ => Do (CWrite p (off + List.length (firstn k t)) (skipn k t)) f) | _ => m end
      | S n' => Do c (fun r => cut_at n' k (f r))
      end
  | _ => m
  end.
Lemma cut_at_pieces {A} n k (m : io A) : in_pieces m (cut_at n k m).
Proof.
  revert m; induction n as [|n IH]; intros [a|e|c f]; cbn [cut_at]; try apply in_pieces_refl; [|constructor; auto].
  destruct c as [|p off t| | | | | | | | | | |]; try apply in_pieces_refl. rewrite <- (firstn_skipn k t) at 1. apply ip_cut. apply in_pieces_refl.
Qed.

Section Pieces.
  Context {rt : PyRt}.

  Theorem pieces_undisturbed f l g w b tr rf rm w' : in_pieces (make l g) b -> schedule (find f g) b w tr rf rm w' ->
    rm = fst (run (make l g) w) /\ w_fs w' = w_fs (snd (run (make l g) w)).
  Proof.
    intros IP H. rewrite <- (pieces_run _ _ IP w). eapply undisturbed; [exact H|apply quiet_find| |reflexivity].
    eapply pieces_only; [exact IP|apply only_make].
  Qed.

  (** ** what a text is taken for *)
  Lemma str_members l s : In s (flat_map (fun x => match x with VStr s => [s] | _ => [] end) l) <-> In (VStr s) l.
  Proof.
    rewrite in_flat_map. split.
    - intros (x & I & J). destruct x; cbn [In] in J; try tauto. destruct J as [->|[]]. exact I.
    - intros I. exists (VStr s). split; [exact I|left; reflexivity].
  Qed.
  Lemma load_taken p key t w : file_is p t w -> exists r ss, run (load_index_set p key) w = (r, w) /\ taken key t ss /\
    match ss with Ok l => exists l', r = Ok l' /\ forall s, In s l' <-> In s l | Err e => r = Err e end.
  Proof.
    intros F. unfold load_index_set. rewrite run_catch, run_bind, run_read_json.
    unfold parse_res. unfold file_is in F. unfold get. rewrite F. cbn [read_res bind].
    destruct (load_json t) as [v|e] eqn:E.
    2:{ assert (X : e = JSONDecodeError) by (unfold load_json in E; destruct (loads t); inversion E; reflexivity). subst e.
        exists (Ok []), (Ok []). split; [reflexivity|]. split; [apply tk_not_json; exact E|]. exists []. split; [reflexivity|tauto]. }
    rewrite run_lift.
    assert (ND : (forall d, v <> VDict d) -> index_get key v = Err TypeError) by (destruct v; try reflexivity; intros H; exfalso; eapply H; reflexivity).
    destruct v as [| | | | | |d|]; try (rewrite ND by discriminate; exists (Err TypeError), (Err TypeError); split; [reflexivity|]; split; [eapply tk_no_dict; [exact E|discriminate]|reflexivity]).
    cbn [index_get]. destruct (d_get key d) as [x|] eqn:Ed; cbn [bind].
    2:{ exists (Err KeyError), (Err KeyError). split; [reflexivity|]. split; [eapply tk_no_key; eauto|reflexivity]. }
    assert (SV : forall l', iter_val x = Ok l' -> forallb hashable l' = true -> exists r', str_set x = Ok r' /\ forall s, In s r' <-> In (VStr s) l').
    { intros l' I H. unfold str_set, set_val. rewrite I. cbn [bind]. rewrite H. cbn [bind]. eexists. split; [reflexivity|].
      intros s. rewrite s_of_list_In. apply str_members. }
    assert (TE : str_set x = Err TypeError -> taken key t (Err TypeError) -> exists r ss, (str_set x, w) = (r, w) /\ taken key t ss /\
      match ss with Ok l => exists l', r = Ok l' /\ forall s, In s l' <-> In s l | Err e => r = Err e end) by eauto.
    assert (TO : forall r', str_set x = Ok r' -> taken key t (Ok r') -> exists r ss, (str_set x, w) = (r, w) /\ taken key t ss /\
      match ss with Ok l => exists l', r = Ok l' /\ forall s, In s l' <-> In s l | Err e => r = Err e end).
    { intros r' E' T. exists (Ok r'), (Ok r'). rewrite E'. split; [reflexivity|]. split; [exact T|]. exists r'. split; [reflexivity|tauto]. }
    assert (Go : exists r ss, (str_set x, w) = (r, w) /\ taken key t ss /\
      match ss with Ok l => exists l', r = Ok l' /\ forall s, In s l' <-> In s l | Err e => r = Err e end).
    { destruct x as [| | | |y|l|y|]; try (apply TE; [reflexivity|]; eapply tk_single; [exact E|exact Ed|discriminate|discriminate|discriminate]).
      - destruct (SV (map (fun c => VStr [c]) y)) as (r' & E' & M); [reflexivity| |].
        { apply forallb_forall. intros v I. apply in_map_iff in I as (c & <- & _). reflexivity. }
        apply (TO r' E'). eapply tk_text; [exact E|exact Ed|]. intros s. rewrite M, in_map_iff. split.
        + intros (c & X & I). inversion X. eauto.
        + intros (c & I & ->). eauto.
      - destruct (forallb hashable l) eqn:H.
        + destruct (SV l) as (r' & E' & M); [reflexivity|exact H|]. apply (TO r' E'). eapply tk_list; [exact E|exact Ed| |exact M].
          intros v I. rewrite forallb_forall in H. specialize (H v I). split; intros ? ->; discriminate.
        + apply TE; [unfold str_set, set_val; cbn [iter_val bind]; rewrite H; reflexivity|].
          assert (X : exists v, In v l /\ hashable v = false).
          { clear -H. induction l as [|v l IH]; [discriminate|]. cbn [forallb] in H. destruct (hashable v) eqn:Hv; [|exists v; split; [left; reflexivity|exact Hv]].
            destruct IH as (v' & I & J); [exact H|]. exists v'. split; [right; exact I|exact J]. }
          destruct X as (v & I & Hv). eapply tk_nested; [exact E|exact Ed|exact I|]. destruct v; try discriminate; eauto.
      - destruct (SV (map (fun kv => VStr (fst kv)) y)) as (r' & E' & M); [reflexivity| |].
        { apply forallb_forall. intros v I. apply in_map_iff in I as (c & <- & _). reflexivity. }
        apply (TO r' E'). eapply tk_object; [exact E|exact Ed|]. intros s. rewrite M, in_map_iff. split.
        + intros ((k & v) & X & I). cbn [fst] in X. inversion X; subst. eauto.
        + intros (v & I). exists (s, v). split; [reflexivity|exact I]. }
    destruct Go as (r & ss & E1 & T & M). apply pair_inv in E1 as [E1 _]. exists r, ss. split; [|split; [exact T|exact M]].
    rewrite E1. destruct ss as [l|e]; [destruct M as (l' & -> & _); reflexivity|]. rewrite M.
    assert (NJ : e <> JSONDecodeError) by (intros ->; inversion T). destruct e; try reflexivity. exfalso. apply NJ. reflexivity.
  Qed.

  Lemma answer_of (p : pattern) fp t1 t2 w1 w2 g rf (O : find_ok p fp) : file_is (indexes_fp g) t1 w1 -> file_is (indexes_fp g) t2 w2 ->
    (exists rl, run (load_node_labels_index (indexes_fp g)) w1 = (rl, w1) /\
      match rl with
      | Err e => rf = Err e
      | Ok ls => exists rn, run (load_relationship_names_index (indexes_fp g)) w2 = (rn, w2) /\
          match rn with
          | Err e => rf = Err e
          | Ok ns => rf = if node_label_is_in_index (fp_labels fp) ls && negb (relationship_name_is_in_index (fp_names fp) ns) then something else nothing
          end
      end) -> answer_from p t1 t2 rf.
  Proof.
    intros F1 F2 (rl & R1 & X).
    destruct (load_taken _ NODE_LABELS _ _ F1) as (r1 & ss1 & L1 & T1 & Y1). unfold load_node_labels_index in R1. rewrite L1 in R1. injection R1 as <-.
    destruct ss1 as [ls|e]; [|subst r1; subst rf; eapply af_labels_raise; exact T1]. destruct Y1 as (ls' & -> & M1).
    destruct X as (rn & R2 & X).
    destruct (load_taken _ RELATIONSHIP_NAMES _ _ F2) as (r2 & ss2 & L2 & T2 & Y2). unfold load_relationship_names_index in R2. rewrite L2 in R2. injection R2 as <-.
    destruct ss2 as [ns|e]; [|subst r2; subst rf; eapply af_names_raise; eauto]. destruct Y2 as (ns' & -> & M2).
    eapply af_answer; [exact T1|exact T2|].
    assert (HL : node_label_is_in_index (fp_labels fp) ls' = true <-> exists s, asked_label p s /\ In s ls).
    { unfold node_label_is_in_index. rewrite existsb_mem. split; intros (s & A & B); exists s; (split; [apply (fo_labels _ _ O); exact A|apply M1; exact B]). }
    assert (HN : relationship_name_is_in_index (fp_names fp) ns' = true <-> exists s, asked_name p s /\ In s ns).
    { unfold relationship_name_is_in_index. rewrite existsb_mem. split; intros (s & A & B); exists s; (split; [apply (fo_names _ _ O); exact A|apply M2; exact B]). }
    unfold answered. cbv zeta. rewrite <- HL, <- HN. subst rf.
    destruct (node_label_is_in_index (fp_labels fp) ls'), (relationship_name_is_in_index (fp_names fp) ns'); cbn [negb andb];
      [right|left|right|right]; (split; [|reflexivity]); intuition discriminate.
  Qed.

  Context (D : rt_data rt) (g : gdbms) (G : graph) (w : world) (S : stored g G w).

  Lemma index_of_crash l w1 : Forall names_ok (patterns_of l) -> crash (make l g) w w1 ->
    exists i0 i, file_is (indexes_fp g) i0 w /\ file_is (indexes_fp g) i w1 /\ index_met (patterns_of l) G i0 i.
  Proof.
    intros N H. destruct (crash_states D g G w S l w1 N H) as [-> |(items & i0 & d & i & c & A & F0 & C & _ & Fi & _)].
    - destruct (st_ix _ _ _ S) as (st & Fi). eexists _, _. split; [exact Fi|]. split; [exact Fi|]. left. reflexivity.
    - exists i0, i. split; [exact F0|]. split; [exact Fi|]. right. exists items, d, c. auto.
  Qed.
  Lemma file_fun p t1 t2 v : file_is p t1 v -> file_is p t2 v -> t1 = t2.
  Proof. unfold file_is. intros -> E. inversion E. reflexivity. Qed.

  Theorem find_beside_pieces f l b tr rf rm w' : Forall names_ok (patterns_of l) -> is_pattern (pf_pattern f) -> findable (pf_pattern f) ->
    in_pieces (make l g) b -> schedule (find f g) b w tr rf rm w' ->
    exists i0 t1 t2, file_is (indexes_fp g) i0 w /\ index_met (patterns_of l) G i0 t1 /\ index_met (patterns_of l) G i0 t2 /\
      answer_from (pf_pattern f) t1 t2 rf.
  Proof.
    intros N P F IP H.
    destruct (process_find (pf_pattern f) P) as [(_ & fp & E & O)|(NF & _)]; [|contradiction].
    destruct (find_reads f g fp _ w tr rf rm w' E H) as (w1 & w2 & rl & A1 & A2 & R1 & X).
    destruct (index_of_crash l w1 N (pieces_crash _ _ IP _ _ A1)) as (i0 & t1 & F0 & F1 & M1).
    destruct (index_of_crash l w2 N (pieces_crash _ _ IP _ _ A2)) as (i0' & t2 & F0' & F2 & M2).
    pose proof (file_fun _ _ _ _ F0 F0'). subst i0'. exists i0, t1, t2. split; [exact F0|]. split; [exact M1|]. split; [exact M2|].
    eapply answer_of; [exact O|exact F1|exact F2|]. exists rl. split; [exact R1|]. exact X.
  Qed.
  (** after a crash *)
  Lemma find_alone f w1 : exists tr w2, schedule (find f g) (Ret tt) w1 tr (fst (run (find f g) w1)) (Ok tt) w2.
  Proof.
    destruct (run_left (find f g) (Ret tt) w1) as (tr & rb & w2 & H). exists tr, w2.
    destruct (alone_left _ _ _ _ _ _ _ H) as [E _]; [discriminate|]. subst rb. exact H.
  Qed.
  Theorem find_after_crash f l w1 : Forall names_ok (patterns_of l) -> is_pattern (pf_pattern f) -> findable (pf_pattern f) ->
    crash (make l g) w w1 ->
    exists i0 t, file_is (indexes_fp g) i0 w /\ file_is (indexes_fp g) t w1 /\ index_met (patterns_of l) G i0 t /\
      answer_from (pf_pattern f) t t (fst (run (find f g) w1)).
  Proof.
    intros N P F H.
    destruct (process_find (pf_pattern f) P) as [(_ & fp & E & O)|(NF & _)]; [|contradiction].
    destruct (index_of_crash l w1 N H) as (i0 & t & F0 & F1 & M1). exists i0, t. split; [exact F0|]. split; [exact F1|]. split; [exact M1|].
    destruct (find_alone f w1) as (tr & w2 & Sc). destruct (find_reads f g fp _ w1 tr _ _ w2 E Sc) as (u1 & u2 & rl & (m1 & A1) & (m2 & A2) & R1 & X).
    inversion A1; inversion A2; subst. eapply answer_of; [exact O|exact F1|exact F1|]. exists rl. split; [exact R1|]. exact X.
  Qed.
End Pieces.
