(** * ProcFacts: one graph and many processes *)
From Verif Require Import PyBase BaseFacts ListFacts Json JsonFacts JsonMore SpecJson RtLaws Props PropsFacts Checks Statements PatternFacts Data FS FSFacts Store
  SpecStore StoreFacts Make SpecMake MakeFacts MakeRun MakeMore Find Query SpecHistory HistoryFacts SpecCrash Torn SpecShell Confine QueryFacts CrashFacts SpecDurable
  SpecConc ConcFacts DurableFacts SpecMany ManyFacts SpecSound SoundFacts Gdbms SpecGdbms GdbmsFacts SpecRuns RunsFacts SpecWhole SpecSchema SchemaFacts SpecProc SpecStore.

(** ** What two runtimes with the same floats agree on *)
Section JsonSame.
  Context (a b : PyRt) (E : @f_repr a = @f_repr b).
  Lemma number_same n s : @scan_number a n s = @scan_number b n s.
  Proof. unfold scan_number. rewrite E. reflexivity. Qed.
  Lemma parse_same fuel : (forall s, @parse_value a fuel s = @parse_value b fuel s) /\ (forall s acc, @parse_elems a fuel s acc = @parse_elems b fuel s acc) /\ (forall s acc, @parse_members a fuel s acc = @parse_members b fuel s acc).
  Proof.
    induction fuel as [|f (IV & IE & IM)]; [repeat split; reflexivity|]. split; [|split].
    - intros s. cbn [parse_value]. destruct s as [|c s1]; [reflexivity|].
      destruct (N.eqb c 34); [reflexivity|]. destruct (N.eqb c 123); [destruct (skip_ws s1) as [|c2 s2]; [reflexivity|]; rewrite IM; reflexivity|].
      destruct (N.eqb c 91); [destruct (skip_ws s1) as [|c2 s2]; [reflexivity|]; rewrite IE; reflexivity|]. rewrite !number_same. reflexivity.
    - intros s acc. cbn [parse_elems]. rewrite IV. destruct (@parse_value b f s) as [[v s1]|]; [|reflexivity].
      destruct (skip_ws s1) as [|c s2]; [reflexivity|]. rewrite IE. reflexivity.
    - intros s acc. cbn [parse_members]. destruct s as [|c s1]; [reflexivity|]. destruct (N.eqb c 34); [|reflexivity].
      destruct (scan_str _ s1) as [[k s2]|]; [|reflexivity]. destruct (skip_ws s2) as [|c2 s3]; [reflexivity|]. destruct (N.eqb c2 58); [|reflexivity].
      rewrite IV. destruct (@parse_value b f (skip_ws s3)) as [[v s4]|]; [|reflexivity]. destruct (skip_ws s4) as [|c3 s5]; [reflexivity|]. rewrite IM. reflexivity.
  Qed.
End JsonSame.
Section Same.
  Context (a b : PyRt) (E : @f_repr a = @f_repr b).
  Lemma load_json_same t : @load_json a t = @load_json b t.
  Proof. unfold load_json, loads. destruct t as [|c t]; [reflexivity|]. rewrite (proj1 (parse_same a b E _)). reflexivity. Qed.
  Lemma float_same t : @float_ok a t -> @float_ok b t.
  Proof. unfold float_ok. rewrite E. exact (fun H => H). Qed.
  Fixpoint val_same v (H : @val_ok a v) {struct H} : @val_ok b v.
  Proof.
    destruct H as [|x|z|t F|s S|l F|d F N|]; try (constructor; fail).
    - constructor. apply float_same. exact F.
    - constructor. exact S.
    - constructor. induction F as [|v l V F IH]; constructor; [apply val_same; exact V|exact IH].
    - constructor; [|exact N]. clear N. induction F as [|kv d [K V] F IH]; constructor; [split; [exact K|apply val_same; exact V]|exact IH].
  Qed.
  Lemma dict_same d : @dict_ok a d -> @dict_ok b d.
  Proof. apply val_same. Qed.
  Lemma db_file_same p d w : @db_file a p d w -> @db_file b p d w.
  Proof. intros (F & V & S). split; [exact F|]. split; [apply dict_same; exact V|exact S]. Qed.
  Lemma stored_same_floats g G w : @stored a g G w -> @stored b g G w.
  Proof. intros [A [B1 B2 B3 B4] C X Y]. constructor; auto. constructor; auto. apply dict_same. exact B1. Qed.
  Lemma unreadable_same g w : @unreadable a g w -> @unreadable b g w.
  Proof. intros (t & F & L). exists t. split; [exact F|]. rewrite <- load_json_same. exact L. Qed.
  Lemma db_ok_same d : @db_ok a d -> @db_ok b d.
  Proof. intros (V & S). split; [apply dict_same; exact V|exact S]. Qed.
End Same.

(** ** One after the other *)
Section Histories.
  Context (base : PyRt).
  Lemma history_unreadable g h w w' : history_of base g h w w' -> @unreadable base g w ->
    (forall p, In p (the_files g) -> fs_get p (w_fs w') = fs_get p (w_fs w)) /\
    forall s l, In s h -> sb_fate s = Answered -> @parse_make (sb_process s) (sb_query s) = Ok (Some l) -> l = [].
  Proof.
    induction 1 as [w|s h w w1 w2 w3 [D PF] S E H IH]; intros U; [split; [reflexivity|intros s l []]|].
    destruct (@sent_unreadable (sb_process s) g _ _ w w1 (unreadable_same _ _ (eq_sym PF) _ _ U) S) as [E1 NA].
    assert (U2 : @unreadable base g w2) by (eapply unreadable_between; [exact E|]; eapply fs_unreadable; eassumption).
    destruct (IH U2) as [E3 NA3]. split.
    - intros p Hp. rewrite (E3 p Hp), (E p Hp). congruence.
    - intros s' l [X|X] F P; [|eapply NA3; eassumption]. subst s'. eapply NA; [exact F|exact P].
  Qed.

  Theorem history_all_or_nothing g h w w' : history_of base g h w w' -> forall d, distinct_files g -> @db_file base (database_fp g) d w ->
    (exists parts, Forall2 left_by h parts /\ @db_file base (database_fp g) (d ++ concat parts) w') \/
    (@unreadable base g w' /\ exists s, In s h /\ (sb_fate s = Cut \/ sb_fate s = Failed TypeError)).
  Proof.
    induction 1 as [w|s h w w1 w2 w3 [D PF] S E H IH]; intros d DI DF.
    - left. exists []. cbn [concat]. rewrite app_nil_r. auto.
    - destruct (@sent_db (sb_process s) D g d _ _ w w1 DI (db_file_same _ _ (eq_sym PF) _ _ _ DF) S) as [(items & LB & DF1)|(U & O)].
      + apply (db_file_same _ _ PF) in DF1.
        destruct (IH (d ++ items) DI (@db_between base _ _ _ _ E DF1)) as [(parts & F & DF3)|(U & s' & I & O)].
        * left. exists (items :: parts). cbn [concat]. rewrite app_assoc. auto.
        * right. split; [exact U|]. exists s'. split; [right; exact I|exact O].
      + right. apply (unreadable_same _ _ PF) in U. split; [|exists s; split; [left; reflexivity|exact O]].
        pose proof (@unreadable_between base _ _ _ E U) as U2. destruct (history_unreadable g h w2 w3 H U2) as [E3 _].
        exact (@unreadable_between base _ _ _ E3 U2).
  Qed.

  Theorem history_answered g h w w' d v s l : history_of base g h w w' -> distinct_files g -> @db_file base (database_fp g) d w ->
    In s h -> sb_fate s = Answered -> @parse_make (sb_process s) (sb_query s) = Ok (Some l) -> run (@read_json base (database_fp g)) w' = (Ok v, w') ->
    exists z items d', @acceptable (sb_process s) (patterns_of l) z items /\ v = VDict d' /\ (forall kv, In kv d \/ In kv items -> In kv d').
  Proof.
    intros H DI DF I O P R. destruct (history_all_or_nothing g h w w' H d DI DF) as [(parts & F & DF')|(U & _)].
    - destruct (Forall2_in _ _ _ _ F I) as (items & Hi & LB). unfold left_by, left_behind in LB. cbn [fst snd] in LB. rewrite P, O in LB.
      destruct LB as [(z & A)|(_ & X)]; [|congruence]. exists z, items, (d ++ concat parts). split; [exact A|].
      rewrite run_read_json, (db_file_parse _ _ _ DF') in R. apply pair_inv in R as [R _]. inv R. split; [reflexivity|].
      intros kv [K|K]; apply in_app_iff; [left; exact K|right]. apply in_concat. eauto.
    - destruct U as (t & Ft & L). rewrite run_read_json, (parse_res_bad _ t w' _ Ft L) in R. discriminate.
  Qed.

  Theorem history_entries g h w w' d v : history_of base g h w w' -> Forall (fun s => @rt_lists (sb_process s)) h ->
    distinct_files g -> @db_file base (database_fp g) d w ->
    run (@read_json base (database_fp g)) w' = (Ok v, w') ->
    exists more, v = VDict (d ++ more) /\ forall kv, In kv more -> exists s, In s h /\ @entry (sb_process s) kv.
  Proof.
    intros H RL DI DF R. destruct (history_all_or_nothing g h w w' H d DI DF) as [(parts & F & DF')|(U & _)].
    - rewrite run_read_json, (db_file_parse _ _ _ DF') in R. apply pair_inv in R as [R _]. inv R. exists (concat parts). split; [reflexivity|].
      destruct DF' as (_ & _ & S). unfold dict_ser in S. rewrite forallb_app, andb_true_iff in S. destruct S as [_ S].
      assert (PR : Forall (fun s => rt_data (sb_process s)) h) by (clear -H; induction H as [|s h w w1 w2 w3 [D _] _ _ _ IH]; constructor; assumption).
      clear DF DI H. induction F as [|s items h parts LB F IH]; cbn [concat] in *; [intros kv []|].
      rewrite forallb_app, andb_true_iff in S. destruct S as [S1 S2]. inversion RL as [|? ? L1 L2]; subst. inversion PR as [|? ? D1 D2]; subst.
      assert (EN : Forall (@entry (sb_process s)) items).
      { unfold left_by, left_behind in LB. cbn [fst snd] in LB.
        destruct (@parse_make (sb_process s) (sb_query s)) as [[l|]|] eqn:PM; [|subst; constructor|subst; constructor].
        destruct LB as [(z & WD & E)|[-> _]]; [|constructor].
        exact (@entries_entry (sb_process s) D1 L1 _ _ _ (parsed_clean _ _ PM) WD E S1). }
      intros kv K. apply in_app_iff in K as [K|K].
      + exists s. split; [left; reflexivity|]. rewrite Forall_forall in EN. apply EN, K.
      + destruct (IH L2 S2 D2 kv K) as (s' & I & X). exists s'. split; [right; exact I|exact X].
    - destruct U as (t & Ft & L). rewrite run_read_json, (parse_res_bad _ t w' _ Ft L) in R. discriminate.
  Qed.

  Theorem session_of_sound g qs : Forall (fun pq => process base (fst pq)) qs -> forall G w, @stored base g G w -> sound G ->
    (forall r, In r (fst (session_of g qs w)) -> ~ corrupting r) ->
    exists G' more, @stored base g G' (snd (session_of g qs w)) /\ sound G' /\ g_db G' = g_db G ++ more /\ (g_next G <= g_next G')%Z.
  Proof.
    induction 1 as [|[p q] qs [D PF] F IH]; intros G w S So H; cbn [session_of] in *.
    - exists G, []. rewrite app_nil_r. cbn [snd]. auto using Z.le_refl.
    - cbn [fst] in D, PF. pose proof (@query_step p D g G w q (stored_same_floats _ _ (eq_sym PF) _ _ _ S)) as ST. cbv zeta in ST.
      destruct (run (@query p q g) w) as [r w1]. cbn [fst snd] in ST.
      destruct (session_of g qs w1) as [rs w2] eqn:ES. cbn [fst snd] in *.
      assert (H' : forall r', In r' rs -> ~ corrupting r') by (intros r' Hr; apply H; right; exact Hr).
      destruct ST as [C|[S1|(ps & G1 & M & S1)]]; [destruct (H r (or_introl eq_refl) C)| |]; apply (stored_same_floats _ _ PF) in S1.
      + specialize (IH G w1 S1 So). rewrite ES in IH. exact (IH H').
      + specialize (IH G1 w1 S1 (made_sound _ _ _ M So)). rewrite ES in IH. destruct (IH H') as (G' & more & A & B & C & X). cbn [snd] in A.
        destruct M as [(items & _ & Db) _ _ _ Nx]. pose proof (size_all_pos ps). exists G', (items ++ more). rewrite app_assoc, <- Db.
        split; [exact A|]. split; [exact B|]. split; [exact C|lia].
  Qed.

  Theorem runs_of_accumulate folder n rs w w' : plain n -> runs_of base folder n rs w w' ->
    forall G, @stored base (graph_at folder n) G w -> sound G -> (forall r, In r rs -> ~ corrupting r) ->
    exists G' more, @stored base (graph_at folder n) G' w' /\ sound G' /\ g_db G' = g_db G ++ more /\ (g_next G <= g_next G')%Z.
  Proof.
    intros P. induction 1 as [w|p w y s lines qs fuel r w1 w2 w3 rs [D PF] Y O E X L R SF H IH]; intros G S So C.
    - exists G, []. rewrite app_nil_r. auto using Z.le_refl.
    - assert (L0 : 0 < fuel) by lia. pose proof (stored_same_floats _ _ (eq_sym PF) _ _ _ S) as Sp.
      destruct (@chosen_by_letter p fuel folder w y s n lines G Y O P E Sp L0) as (o & RS).
      pose proof (@a_run p fuel folder w L) as A. cbv zeta in A. rewrite RS, R in A. cbn [fst snd w_in] in A. destruct A as (qs' & X' & F & _ & _).
      rewrite (@executed_unique p _ _ X _ X') in F.
      destruct (@session_fs p (graph_at folder n) qs {| w_fs := w_fs w; w_in := lines; w_out := o |} w eq_refl) as [_ F2]. rewrite F2 in F.
      destruct (@session_sound p D (graph_at folder n) qs G w Sp So) as (G1 & m1 & S1 & So1 & D1 & N1).
      { intros r0 Hr. apply C. apply in_or_app. left. exact Hr. }
      assert (S2 : @stored base (graph_at folder n) G1 w2).
      { eapply stored_same; [exact SF|]. apply (stored_same_floats _ _ PF). eapply stored_same; [|exact S1]. intros f _. unfold entry_at. rewrite F. reflexivity. }
      destruct (IH G1 S2 So1) as (G2 & m2 & S3 & So2 & D2 & N2). { intros r0 Hr. apply C. apply in_or_app. right. exact Hr. }
      exists G2, (m1 ++ m2). split; [exact S3|]. split; [exact So2|]. split; [rewrite D2, D1, app_assoc; reflexivity|lia].
  Qed.
End Histories.

(** ** At the same time *)
Section Together.
  Context (base : PyRt) (g : gdbms) (DI : distinct_files g).
  Local Notation db := (database_fp g).
  Local Notation ix := (indexes_fp g).
  Local Notation wn := (wiggle_number_fp g).
  Context (d : list (pystr * pyval)) (qs : list (PyRt * pystr)) (okz : Z -> Prop).
  (** the number that any process reads from this text is allowed *)
  Definition made1 (i : nat) (items : list (pystr * pyval)) : Prop :=
    exists p q l z, nth_error qs i = Some (p, q) /\ @parse_make p q = Ok (Some l) /\ okz z /\ @acceptable p (patterns_of l) z items.
  Definition content1 (W : list nat) (x : list (pystr * pyval)) : Prop :=
    exists who parts, NoDup who /\ incl who W /\ Forall2 made1 who parts /\ x = d ++ concat parts /\ @db_ok base x.
  Definition text_state1 (W : list nat) (t : pystr) : Prop :=
    (exists x, content1 W x /\ t = db_text x) \/ (@load_json base t = Err JSONDecodeError /\ exists u, t = u ++ [125%N]).
  Definition proc_state1 (W : list nat) (i : nat) (m : io bool) : Prop :=
    quiet g m \/
    ~ In i W /\ exists p q l, process base p /\ nth_error qs i = Some (p, q) /\ @parse_make p q = Ok (Some l) /\
      (@starts p g bool l m \/ exists z, okz z /\ (@reads_next p g bool l z m \/ exists x, content1 W x /\ @writes_next p g bool l z x m)).
  Definition inv1 (ps : list (io bool)) (w : world) : Prop :=
    exists W t, has_file db t w /\ text_state1 W t /\ forall i m, nth_error ps i = Some m -> proc_state1 W i m.

  Lemma content1_more W W' x : incl W W' -> content1 W x -> content1 W' x.
  Proof. intros I (who & parts & N & H & R). exists who, parts. split; [exact N|]. split; [eapply incl_tran; eassumption|exact R]. Qed.
  Lemma over1 t x W : @db_ok base x -> content1 W x -> (exists u, t = u ++ [125%N]) -> text_state1 W (write_at t 0 (db_text x)).
  Proof.
    intros O C (u & E). destruct (Nat.le_gt_cases (List.length t) (List.length (db_text x))) as [L|L].
    - left. exists x. split; [exact C|]. apply write_at_0_long. exact L.
    - right. rewrite write_at_0. assert (I : In 125%N (skipn (List.length (db_text x)) t)) by (eapply last_in; eassumption). split.
      + unfold db_text at 1. apply save_more; try apply O. exists 125%N. split; [exact I|reflexivity].
      + assert (X : exists v, skipn (List.length (db_text x)) t = v ++ [125%N]).
        { rewrite E, skipn_app. replace (List.length (db_text x) - List.length u) with 0
            by (rewrite E, app_length in L; cbn [List.length] in L; lia). eexists. reflexivity. }
        destruct X as (v & ->). rewrite app_assoc. eexists. reflexivity.
  Qed.
  Lemma state1_ends W t : text_state1 W t -> exists u, t = u ++ [125%N].
  Proof. intros [(x & (who & parts & _ & _ & _ & _ & O) & ->)|(_ & E)]; [eapply db_text_ends; exact O|exact E]. Qed.

  Lemma step1 ps i c k w : inv1 ps w -> nth_error ps i = Some (Do c k) ->
    (c = CRead wn -> forall p q t z, nth_error qs i = Some (p, q) -> has_file wn t w -> @py_int p t = Ok z -> okz z) ->
    inv1 (replaced i (k (fst (exec c w))) ps) (snd (exec c w)).
  Proof.
    intros (W & t & F & TS & PS) E OK. destruct DI as (N1 & N2 & N3).
    assert (NEXT : forall W' t' m' w', incl W W' -> (forall j, j <> i -> In j W' -> In j W) -> has_file db t' w' -> text_state1 W' t' -> proc_state1 W' i m' -> inv1 (replaced i m' ps) w').
    { intros W' t' m' w' I J F' TS' P'. exists W', t'. split; [exact F'|]. split; [exact TS'|]. intros j m H.
      destruct (Nat.eq_dec j i) as [-> |N].
      - rewrite (replaced_same i m' _ ps E) in H. injection H as <-. exact P'.
      - rewrite (replaced_other i j m' _ ps E N) in H. destruct (PS j m H) as [Q|(NI & p & q & l & Q0 & Q1 & Q2 & S)]; [left; exact Q|right].
        split; [intros X; apply NI; apply J; assumption|]. exists p, q, l. split; [exact Q0|]. split; [exact Q1|]. split; [exact Q2|].
        destruct S as [S|(z & Z & [S|(x & C & S)])]; [left; exact S|right|right]; exists z; (split; [exact Z|]); [left; exact S|].
        right. exists x. split; [eapply content1_more; eassumption|exact S]. }
    assert (SAME : forall m', proc_state1 W i m' -> forall w', has_file db t w' -> inv1 (replaced i m' ps) w').
    { intros m' P' w' F'. apply (NEXT W t m' w'); auto. apply incl_refl. }
    destruct (PS i _ E) as [Q|(NI & p & q & l & Q0 & Q1 & Q2 & S)].
    - inversion Q as [| |? ? Hc Hk]; subst. apply SAME; [left; apply Hk|].
      unfold has_file, get. destruct (exec_frame [ix; wn] c w Hc) as [HE _]. rewrite HE; [exact F|]. cbn. intros [X|[X|[]]]; congruence.
    - pose proof Q0 as [DP PF].
      destruct S as [(k' & X & H1 & H2)|(z & Z & [(k' & X & H1 & H2 & H3)|(x & C & items & k' & A & O & X & HQ)])]; inversion X; subst c k'; clear X.
      + specialize (OK eq_refl). destruct (fs_get wn (w_fs w)) as [[|t']|] eqn:G.
        * cbn [exec]. rewrite G. cbn [fst snd]. apply SAME; [|exact F]. left. destruct (H1 OSError) as (e & ->). constructor.
        * rewrite (exec_read wn t' w G). cbn [fst snd]. apply SAME; [|exact F]. destruct (H2 t') as [(e & ->)|(z & P & R)]; [left; constructor|].
          right. split; [exact NI|]. exists p, q, l. split; [exact Q0|]. split; [exact Q1|]. split; [exact Q2|]. right. exists z. split; [eapply OK; eassumption|left; exact R].
        * cbn [exec]. rewrite G. cbn [fst snd]. apply SAME; [|exact F]. left. destruct (H1 FileNotFoundError) as (e & ->). constructor.
      + rewrite (exec_read db t w F). cbn [fst snd]. apply SAME; [|exact F]. pose proof TS as [(x & C & ->)|(L & _)].
        * destruct C as (who & parts & C1 & C2 & C3 & C4 & O). destruct (H3 x (db_ok_same _ _ (eq_sym PF) _ O)) as [(e & ->)|R]; [left; constructor|].
          right. split; [exact NI|]. exists p, q, l. split; [exact Q0|]. split; [exact Q1|]. split; [exact Q2|]. right. exists z. split; [exact Z|].
          right. exists x. split; [exists who, parts; auto|exact R].
        * left. rewrite <- (load_json_same _ _ PF) in L. destruct (H2 t _ L) as (e & ->). constructor.
      + apply (db_ok_same _ _ PF) in O.
        assert (X : exec (CWrite db 0 (db_text (x ++ items))) w = (RUnit, put db (write_at t 0 (db_text (x ++ items))) w))
          by (unfold has_file, get in F; cbn [exec]; rewrite F; reflexivity).
        rewrite X. cbn [fst snd]. apply (NEXT (i :: W) (write_at t 0 (db_text (x ++ items)))).
        * apply incl_tl, incl_refl.
        * intros j N [H|H]; [congruence|exact H].
        * apply put_has.
        * apply over1; [exact O| |eapply state1_ends; exact TS]. destruct C as (who & parts & C1 & C2 & C3 & C4 & C5).
          exists (who ++ [i]), (parts ++ [items]). split; [|split; [|split; [|split]]].
          -- apply NoDup_app_intro; [exact C1|constructor; [intros []|constructor]|]. intros y Hy [<-|[]]. apply NI. apply C2. exact Hy.
          -- intros y Hy. apply in_app_iff in Hy as [Hy|[<-|[]]]; [right; apply C2; exact Hy|left; reflexivity].
          -- apply Forall2_app; [exact C3|]. constructor; [|constructor]. exists p, q, l, z. auto.
          -- rewrite concat_app. cbn [concat]. rewrite app_nil_r, C4, app_assoc. reflexivity.
          -- exact O.
        * left. apply HQ.
  Qed.

  Lemma inv1_start w : Forall (fun pq => process base (fst pq) /\ @json_query (fst pq) (snd pq)) qs -> @db_file base db d w -> inv1 (programs g qs) w.
  Proof.
    intros WR (F & V & S). exists [], (db_text d). split; [exact F|]. split.
    - left. exists d. split; [|reflexivity]. exists [], []. split; [constructor|]. split; [apply incl_refl|]. split; [constructor|].
      cbn [concat]. rewrite app_nil_r. split; [reflexivity|split; assumption].
    - intros i m H. unfold programs in H. rewrite nth_error_map in H. destruct (nth_error qs i) as [[p q]|] eqn:E; [|discriminate]. injection H as <-.
      rewrite Forall_forall in WR. destruct (WR _ (nth_error_In _ _ E)) as [Q0 JQ]. cbn [fst snd] in *.
      destruct (@query_starts p (proj1 Q0) g q JQ) as [Q|(l & P & S')]; [left; exact Q|right].
      split; [intros []|]. exists p, q, l. auto.
  Qed.
  Lemma inv1_end ps w : inv1 ps w ->
    (exists who parts, NoDup who /\ Forall2 made1 who parts /\ @db_file base db (d ++ concat parts) w) \/ @unreadable base g w.
  Proof.
    intros (W & t & F & [(x & (who & parts & C1 & _ & C3 & -> & O) & ->)|(L & _)] & _).
    - left. exists who, parts. split; [exact C1|]. split; [exact C3|]. split; [exact F|exact O].
    - right. exists t. split; [exact F|exact L].
  Qed.
End Together.

Section TogetherMain.
  Context (base : PyRt) (g : gdbms) (DI : distinct_files g).
  Local Notation wn := (wiggle_number_fp g).
  Lemma inv1_together d qs ps w tr ps' w' : together ps w tr ps' w' -> inv1 base g d qs (fun _ => True) ps w -> inv1 base g d qs (fun _ => True) ps' w'.
  Proof. induction 1 as [ps w|ps i c k w tr ps' w' E H IH]; intros I; [exact I|]. apply IH. eapply step1; auto. Qed.
  Theorem some_of_these d qs w tr ps w' : @db_file base (database_fp g) d w ->
    Forall (fun pq => process base (fst pq) /\ @json_query (fst pq) (snd pq)) qs ->
    together (programs g qs) w tr ps w' ->
    (exists who parts, NoDup who /\ Forall2 (made_by_one qs) who parts /\ @db_file base (database_fp g) (d ++ concat parts) w') \/ @unreadable base g w'.
  Proof.
    intros DF WR H. pose proof (inv1_together _ _ _ _ _ _ _ H (inv1_start base g d qs (fun _ => True) w WR DF)) as I.
    apply inv1_end in I as [(who & parts & N & F & X)|U]; [left|right; exact U]. exists who, parts. split; [exact N|]. split; [|exact X].
    clear -F. induction F as [|i items who parts (p & q & l & z & A & B & _ & C) F IH]; constructor; [|exact IH]. exists p, q, l, z. auto.
  Qed.

  Lemma one_counter1 d qs z0 ps w tr ps' w' : together ps w tr ps' w' -> reads_first wn tr -> Forall (on_ours g) ps ->
    file_is wn (str_of_Z z0) w \/ (forall j, ~ In (j, CRead wn) tr) ->
    inv1 base g d qs (fun z => z = z0) ps w -> inv1 base g d qs (fun z => z = z0) ps' w'.
  Proof.
    induction 1 as [ps w|ps i c k w tr ps' w' E H IH]; intros RF O C I; [exact I|].
    pose proof O as O'. rewrite Forall_forall in O'. pose proof (O' _ (nth_error_In _ _ E)) as OI. inversion OI as [| |? ? Hc Hk]; subst.
    apply IH.
    - intros (t1 & j & c' & t2 & j' & t3 & X & Y). apply RF. exists ((i, c) :: t1), j, c', t2, j', t3. split; [rewrite X; reflexivity|exact Y].
    - apply ours_step; [apply Hk|exact O].
    - destruct (changes_dec g c) as [CH|NC].
      + right. intros j Hj. apply RF. apply in_split in Hj as (a & b & ->). exists [], i, c, a, j, b. split; [reflexivity|exact CH].
      + destruct C as [C|C]; [left|right; intros j Hj; apply (C j); right; exact Hj].
        unfold file_is. rewrite (exec_not_changed g DI) by assumption. exact C.
    - eapply step1; eauto. intros -> p q t z _ F P. destruct C as [C|C]; [|exfalso; apply (C i); left; reflexivity].
      unfold file_is in C. unfold has_file, get in F. rewrite C in F. injection F as <-. rewrite py_int_str_of_Z in P. congruence.
  Qed.
  Theorem one_of_these d z0 qs w tr ps w' : @db_file base (database_fp g) d w -> file_is wn (str_of_Z z0) w ->
    Forall (fun pq => process base (fst pq) /\ @json_query (fst pq) (snd pq)) qs ->
    together (programs g qs) w tr ps w' -> reads_first wn tr ->
    @db_file base (database_fp g) d w' \/ @unreadable base g w' \/
    exists p q l items, In (p, q) qs /\ @parse_make p q = Ok (Some l) /\ @acceptable p (patterns_of l) z0 items /\ @db_file base (database_fp g) (d ++ items) w'.
  Proof.
    intros DF CF WR H RF.
    assert (OU : Forall (on_ours g) (programs g qs)).
    { apply Forall_forall. intros m Hm. apply in_map_iff in Hm as ([p q] & <- & _). apply only_query. }
    pose proof (one_counter1 d qs z0 _ _ _ _ _ H RF OU (or_introl CF) (inv1_start base g d qs (fun z => z = z0) w WR DF)) as I.
    apply inv1_end in I as [(who & parts & N & F & X)|U]; [|right; left; exact U].
    assert (K : forall x, In x parts -> x = [] \/ In (str_of_Z z0) (keys x) /\
      exists p q l, In (p, q) qs /\ @parse_make p q = Ok (Some l) /\ @acceptable p (patterns_of l) z0 x).
    { clear -F. induction F as [|i items who parts (p & q & l & z & A & B & -> & C) F IH]; intros x Hx; [destruct Hx|].
      destruct Hx as [<-|Hx]; [|apply IH; exact Hx]. destruct C as [C1 C2]. destruct (patterns_of l) as [|p1 pp] eqn:EP.
      - left. exact C2.
      - right. split; [eapply entries_first; exact C2|]. exists p, q, l. rewrite EP. split; [eapply nth_error_In; exact A|]. split; [exact B|]. split; assumption. }
    assert (ND : NoDup (keys (concat parts))).
    { destruct X as (_ & V & _). apply dict_ok_keys in V. rewrite keys_app in V. apply NoDup_app_inv in V. tauto. }
    assert (C : concat parts = [] \/ exists x, In x parts /\ x <> [] /\ concat parts = x).
    { clear -K ND. induction parts as [|x parts IH]; [left; reflexivity|]. cbn [concat] in *. rewrite keys_app in ND.
      assert (K' : forall y, In y parts -> y = [] \/ In (str_of_Z z0) (keys y)) by (intros y Hy; destruct (K y (or_intror Hy)) as [E|[E _]]; auto).
      destruct IH as [E|(y & Hy & NE & E)].
      - intros y Hy. apply K. right. exact Hy.
      - apply NoDup_app_inv in ND. tauto.
      - rewrite E, app_nil_r. destruct x as [|kv x]; [left; reflexivity|right]. exists (kv :: x). split; [left; reflexivity|]. split; [discriminate|reflexivity].
      - right. destruct (K x (or_introl eq_refl)) as [-> |[Kx _]].
        + exists y. split; [right; exact Hy|]. split; [exact NE|exact E].
        + destruct (K' y Hy) as [Ey|Ky]; [congruence|]. exfalso. rewrite E in ND. clear -ND Kx Ky.
          revert ND Kx. generalize (keys x) as a, (keys y) as b, Ky. intros a b Kb. induction a as [|u a IH]; intros ND Ka; [destruct Ka|].
          cbn in ND. inversion ND as [|? ? N1 N2]; subst. destruct Ka as [-> |Ka]; [apply N1, in_or_app; auto|auto]. }
    destruct C as [E|(x & Hx & NE & E)]; rewrite E in X.
    - left. rewrite app_nil_r in X. exact X.
    - right. right. destruct (K x Hx) as [->|(_ & p & q & l & A & B & C)]; [congruence|]. exists p, q, l, x. auto.
  Qed.
End TogetherMain.
