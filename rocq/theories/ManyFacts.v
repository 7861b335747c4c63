(** * ManyFacts: any number of queries at the same time *)
From Verif Require Import PyBase BaseFacts ListFacts Json JsonFacts JsonMore SpecJson RtLaws Props PropsFacts Checks Statements PatternFacts Data FS FSFacts Store
  SpecStore StoreFacts Make SpecMake MakeFacts MakeRun MakeMore Find Query SpecHistory HistoryFacts SpecCrash Torn SpecShell Confine QueryFacts CrashFacts SpecDurable
  SpecConc ConcFacts DurableFacts SpecMany.

Section Lists.
  Context {A : Type}.
  Lemma replaced_same i (x y : A) l : nth_error l i = Some y -> nth_error (replaced i x l) i = Some x.
  Proof.
    unfold replaced. intros H. assert (L : i < List.length l) by (apply nth_error_Some; congruence).
    rewrite nth_error_app2 by (rewrite firstn_length; lia). rewrite firstn_length, Nat.min_l by lia. rewrite Nat.sub_diag. reflexivity.
  Qed.
  Lemma replaced_other i j (x y : A) l : nth_error l i = Some y -> j <> i -> nth_error (replaced i x l) j = nth_error l j.
  Proof.
    unfold replaced. intros H N. assert (L : i < List.length l) by (apply nth_error_Some; congruence).
    destruct (Nat.lt_ge_cases j i) as [G|G].
    - rewrite nth_error_app1 by (rewrite firstn_length; lia). revert i l G L H N.
      induction j as [|j IH]; intros [|i] [|z l] G L H N; cbn in *; try lia; try reflexivity. apply IH; auto; lia.
    - rewrite nth_error_app2 by (rewrite firstn_length; lia). rewrite firstn_length, Nat.min_l by lia.
      destruct (j - i) as [|m] eqn:E; [lia|]. cbn [nth_error].
      replace j with (S i + m) by lia. clear. revert l. generalize (S i) as n. clear i. intros n. induction n as [|n IH]; intros l; [reflexivity|].
      destruct l; [destruct m; reflexivity|]. cbn. apply IH.
  Qed.
End Lists.
Lemma turns_together {A} s : forall (ps : list (io A)) w, together ps w (turns_log s ps w) (fst (turns s ps w)) (snd (turns s ps w)).
Proof.
  induction s as [|i s IH]; intros ps w; cbn [turns turns_log]; [constructor|].
  destruct (nth_error ps i) as [[a|e|c k]|] eqn:E; try apply IH. econstructor; [exact E|]. apply IH.
Qed.

Section Many.
  Context {rt : PyRt} (D : rt_data rt) (g : gdbms) (DI : distinct_files g).
  Local Notation db := (database_fp g).
  Local Notation ix := (indexes_fp g).
  Local Notation wn := (wiggle_number_fp g).

  (** *** a query, seen from the database *)
  Definition quiet {A} (m : io A) : Prop := only (on_files [ix; wn]) m.
  Definition db_ok (d : list (pystr * pyval)) : Prop := dict_ok d /\ dict_ser d = true.
  Definition writes_next {A} (l : list parsed_make) (z : Z) (d : list (pystr * pyval)) (m : io A) : Prop :=
    exists items k, acceptable (patterns_of l) z items /\ db_ok (d ++ items) /\
      m = Do (CWrite db 0 (db_text (d ++ items))) k /\ forall r, quiet (k r).
  Definition reads_next {A} (l : list parsed_make) (z : Z) (m : io A) : Prop :=
    exists k, m = Do (CRead db) k /\
      (forall e, exists e', k (RErr e) = Throw e') /\
      (forall t e, load_json t = Err e -> exists e', k (RText t) = Throw e') /\
      (forall d, db_ok d -> (exists e, k (RText (db_text d)) = Throw e) \/ writes_next l z d (k (RText (db_text d)))).
  Definition starts {A} (l : list parsed_make) (m : io A) : Prop :=
    exists k, m = Do (CRead wn) k /\ (forall e, exists e', k (RErr e) = Throw e') /\
      forall t, (exists e, k (RText t) = Throw e) \/ exists z, py_int t = Ok z /\ reads_next l z (k (RText t)).

  Lemma quiet_bind {A B} (m : io A) (f : A -> io B) : quiet m -> (forall a, quiet (f a)) -> quiet (io_bind m f).
  Proof. apply only_bind. Qed.
  Lemma writes_bind {A B} l z d (m : io A) (f : A -> io B) : (forall a, quiet (f a)) -> writes_next l z d m -> writes_next l z d (io_bind m f).
  Proof.
    intros Q (items & k & A1 & O & -> & H). exists items, (fun r => io_bind (k r) f). split; [exact A1|]. split; [exact O|].
    split; [reflexivity|]. intros r. apply quiet_bind; auto.
  Qed.
  Lemma reads_bind {A B} l z (m : io A) (f : A -> io B) : (forall a, quiet (f a)) -> reads_next l z m -> reads_next l z (io_bind m f).
  Proof.
    intros Q (k & -> & H1 & H2 & H3). exists (fun r => io_bind (k r) f). split; [reflexivity|]. split; [|split].
    - intros e. destruct (H1 e) as (e' & ->). eexists. reflexivity.
    - intros t e L. destruct (H2 t e L) as (e' & ->). eexists. reflexivity.
    - intros d O. destruct (H3 d O) as [(e & ->)|W]; [left; eexists; reflexivity|right]. apply writes_bind; auto.
  Qed.
  Lemma starts_bind {A B} l (m : io A) (f : A -> io B) : (forall a, quiet (f a)) -> starts l m -> starts l (io_bind m f).
  Proof.
    intros Q (k & -> & H1 & H2). exists (fun r => io_bind (k r) f). split; [reflexivity|]. split.
    - intros e. destruct (H1 e) as (e' & ->). eexists. reflexivity.
    - intros t. destruct (H2 t) as [(e & ->)|(z & P & R)]; [left; eexists; reflexivity|right]. exists z. split; [exact P|]. apply reads_bind; auto.
  Qed.

  Lemma rest_quiet ns ms z : quiet (let! _ := add_indexes ns ms g in let! _ := update_wiggle_number wn z in Ret true).
  Proof.
    apply only_bind; [|intros _; apply only_bind; [apply only_update_wn; cbn; tauto|intros; constructor]].
    unfold add_indexes. apply only_bind; [apply only_add_rels; cbn; tauto|]. intros _.
    apply only_bind; [apply only_add_set; cbn; tauto|]. intros _. apply only_bind; [apply only_add_set; cbn; tauto|]. intros; constructor.
  Qed.
  Lemma make_starts' l : Forall names_ok (patterns_of l) -> (forall z items, acceptable (patterns_of l) z items -> dict_ser items = true) -> starts l (make l g).
  Proof.
    intros N WR. unfold make, get_current_wiggle_number, do_text. cbn [io_bind]. eexists. split; [reflexivity|]. split.
    { intros e. cbn [io_bind]. eexists. reflexivity. }
    intros t. cbn [io_bind]. destruct t as [|c t]; [left; eexists; reflexivity|].
    destruct (py_int (c :: t)) as [z|e]; cbn [lift io_bind]; [|left; eexists; reflexivity].
    unfold process_parsed_make_list. fold (patterns_of l).
    destruct (prepare_spec (patterns_of l) z) as [(ms & nss & items & E1 & E2 & RD)|(NA & [(e & E)|(ms & e & E1 & E2)])].
    2:{ left. rewrite E. eexists. reflexivity. }
    2:{ left. rewrite E1. cbn [lift io_bind]. rewrite E2. eexists. reflexivity. }
    right. exists z. split; [reflexivity|]. rewrite E1. cbn [lift io_bind]. rewrite E2. cbn [lift io_bind].
    unfold add_nodes_to_graph. rewrite (rd_nodes _ _ _ _ _ RD).
    assert (AC : acceptable (patterns_of l) z items) by (split; apply RD).
    unfold add_item_to_database at 1, read_json, do_text. cbn [io_bind]. eexists. split; [reflexivity|]. split; [|split].
    - intros e. eexists. reflexivity.
    - intros t' e L. cbn [io_bind]. rewrite L. eexists. reflexivity.
    - intros d (V & S). cbn [io_bind]. unfold db_text at 1 2. rewrite load_json_dump by auto. cbn [lift io_bind].
      destruct (existsb (fun k => s_mem k (keys d)) (keys items)) eqn:X.
      + apply existsb_exists in X as (k & Hk & Hk'). apply s_mem_In in Hk'. left.
        rewrite (db_add_all_exists items d k Hk Hk'). eexists. reflexivity.
      + right. assert (V' : dict_ok (d ++ items)).
        { apply dict_ok_join; [exact V|eapply (entries_all_ok D); [exact N|apply AC]|]. intros k Hk Hk'.
          assert (existsb (fun k => s_mem k (keys d)) (keys items) = true); [|congruence].
          apply existsb_exists. exists k. split; [exact Hk|]. apply s_mem_In. exact Hk'. }
        assert (S' : dict_ser (d ++ items) = true).
        { unfold dict_ser. rewrite forallb_app. fold (dict_ser d) (dict_ser items). rewrite S, (WR z items AC). reflexivity. }
        rewrite db_add_all_new by (apply dict_ok_keys; exact V'). cbn [lift io_bind]. unfold write_json.
        pose proof (dump_ser Indent4 (VDict (d ++ items)) V') as HS. change (ser (VDict (d ++ items))) with (dict_ser (d ++ items)) in HS. rewrite S' in HS.
        assert (HT : fst (dump_top Indent4 (VDict (d ++ items))) = db_text (d ++ items)) by reflexivity.
        destruct (dump_top Indent4 (VDict (d ++ items))) as [u ok]. cbn [snd fst] in HS, HT. subst ok u.
        cbn [do_unit io_bind]. exists items. eexists. split; [exact AC|]. split; [split; assumption|]. split; [reflexivity|].
        intros r. destruct r; cbn [io_bind]; try apply rest_quiet. constructor.
  Qed.
  Lemma find_quiet f : quiet (find f g).
  Proof.
    unfold find, find_short_circuit. apply only_bind; [apply only_lift|]. intros fp. apply only_bind.
    - apply only_bind; [apply only_load_set; cbn; tauto|]. intros labels. apply only_bind; [apply only_load_set; cbn; tauto|]. intros names.
      destruct (negb _); [constructor|]. destruct (relationship_name_is_in_index _ _); constructor.
    - intros [|]; [constructor|]. apply only_bind; [apply only_unit; exact I|]. intros; constructor.
  Qed.
  Lemma query_starts q : json_query q -> quiet (query q g) \/ exists l, parse_make q = Ok (Some l) /\ starts l (query q g).
  Proof.
    intros WR. unfold query. destruct (parse_query_string q) as [pq|e] eqn:P; [|left; constructor]. cbn [lift io_bind].
    unfold parse_query_string in P. destruct (parse_make q) as [mk|] eqn:EM; cbn [bind] in P; [|discriminate].
    destruct (parse_find q) as [[f|]|]; cbn [bind] in P; try discriminate.
    destruct (parse_report _ _) as [rp|]; cbn [bind] in P; [|discriminate]. injection P as <-.
    unfold execute_query. cbn [q_make q_find q_report].
    assert (T : quiet (let! found := find f g in let! _ := match rp with Some r => report r found g | None => Ret true end in Ret true)).
    { apply quiet_bind; [apply find_quiet|]. intros fo. destruct rp; cbn [report io_bind]; constructor. }
    destruct mk as [[|m l]|].
    - left. apply quiet_bind; [apply quiet_bind; [constructor|intros _; exact T]|intros; constructor].
    - right. exists (m :: l). split; [reflexivity|]. apply starts_bind; [intros; constructor|]. apply starts_bind; [intros _; exact T|].
      apply make_starts'; [eapply (parsed_names_ok D); eassumption|]. intros z items A. eapply entries_all_ser; [eapply WR; eassumption|apply A].
    - left. apply quiet_bind; [apply quiet_bind; [constructor|intros _; exact T]|intros; constructor].
  Qed.

  (** *** the state of all processes *)
  Context (d : list (pystr * pyval)) (qs : list pystr) (okz : Z -> Prop).
  Definition made (i : nat) (items : list (pystr * pyval)) : Prop :=
    exists q l z, nth_error qs i = Some q /\ parse_make q = Ok (Some l) /\ okz z /\ acceptable (patterns_of l) z items.
  (** [x]: the old nodes and those of some processes that have written *)
  Definition content (W : list nat) (x : list (pystr * pyval)) : Prop :=
    exists who parts, NoDup who /\ incl who W /\ Forall2 made who parts /\ x = d ++ concat parts /\ db_ok x.
  Definition text_state (W : list nat) (t : pystr) : Prop :=
    (exists x, content W x /\ t = db_text x) \/ (load_json t = Err JSONDecodeError /\ exists u, t = u ++ [125%N]).
  Definition proc_state (W : list nat) (i : nat) (m : io bool) : Prop :=
    quiet m \/
    ~ In i W /\ exists q l, nth_error qs i = Some q /\ parse_make q = Ok (Some l) /\
      (starts l m \/ exists z, okz z /\ (reads_next l z m \/ exists x, content W x /\ writes_next l z x m)).
  Definition inv (ps : list (io bool)) (w : world) : Prop :=
    exists W t, has_file db t w /\ text_state W t /\ forall i m, nth_error ps i = Some m -> proc_state W i m.

  Lemma content_more W W' x : incl W W' -> content W x -> content W' x.
  Proof. intros I (who & parts & N & H & R). exists who, parts. split; [exact N|]. split; [eapply incl_tran; eassumption|exact R]. Qed.
  Lemma db_text_ends x : db_ok x -> exists u, db_text x = u ++ [125%N].
  Proof.
    intros (V & S). unfold db_text. destruct x as [|kv x].
    - exists [123%N]. reflexivity.
    - rewrite dump_dict_text by auto. eexists. rewrite !app_assoc. reflexivity.
  Qed.
  Lemma over t x W : db_ok x -> content W x -> (exists u, t = u ++ [125%N]) -> text_state W (write_at t 0 (db_text x)).
  Proof.
    intros O C (u & E). destruct (Nat.le_gt_cases (List.length t) (List.length (db_text x))) as [L|L].
    - left. exists x. split; [exact C|]. apply write_at_0_long. exact L.
    - right. rewrite write_at_0. assert (I : In 125%N (skipn (List.length (db_text x)) t)) by (eapply last_in; eassumption). split.
      + unfold db_text at 1. apply save_more; try apply O. exists 125%N. split; [exact I|reflexivity].
      + assert (X : exists v, skipn (List.length (db_text x)) t = v ++ [125%N]).
        { rewrite E, skipn_app. replace (List.length (db_text x) - List.length u) with 0
            by (rewrite E, app_length in L; cbn [List.length] in L; lia). eexists. reflexivity. }
        destruct X as (v & ->). rewrite app_assoc. eexists. reflexivity.
  Qed.
  Lemma state_ends W t : text_state W t -> exists u, t = u ++ [125%N].
  Proof. intros [(x & (who & parts & _ & _ & _ & _ & O) & ->)|(_ & E)]; [apply db_text_ends; exact O|exact E]. Qed.
  Lemma exec_read p t w : has_file p t w -> exec (CRead p) w = (RText t, w).
  Proof. unfold has_file, get. intros F. cbn [exec]. rewrite F. reflexivity. Qed.

  Lemma step ps i c k w : inv ps w -> nth_error ps i = Some (Do c k) ->
    (c = CRead wn -> forall t z, has_file wn t w -> py_int t = Ok z -> okz z) ->
    inv (replaced i (k (fst (exec c w))) ps) (snd (exec c w)).
  Proof.
    intros (W & t & F & TS & PS) E OK. destruct DI as (N1 & N2 & N3).
    assert (NEXT : forall W' t' m' w', incl W W' -> (forall j, j <> i -> In j W' -> In j W) -> has_file db t' w' -> text_state W' t' -> proc_state W' i m' -> inv (replaced i m' ps) w').
    { intros W' t' m' w' I J F' TS' P'. exists W', t'. split; [exact F'|]. split; [exact TS'|]. intros j m H.
      destruct (Nat.eq_dec j i) as [-> |N].
      - rewrite (replaced_same i m' _ ps E) in H. injection H as <-. exact P'.
      - rewrite (replaced_other i j m' _ ps E N) in H. destruct (PS j m H) as [Q|(NI & q & l & Q1 & Q2 & S)]; [left; exact Q|right].
        split; [intros X; apply NI; apply J; assumption|]. exists q, l. split; [exact Q1|]. split; [exact Q2|].
        destruct S as [S|(z & Z & [S|(x & C & S)])]; [left; exact S|right|right]; exists z; (split; [exact Z|]); [left; exact S|].
        right. exists x. split; [eapply content_more; eassumption|exact S]. }
    assert (SAME : forall m', proc_state W i m' -> forall w', has_file db t w' -> inv (replaced i m' ps) w').
    { intros m' P' w' F'. apply (NEXT W t m' w'); auto. apply incl_refl. }
    destruct (PS i _ E) as [Q|(NI & q & l & Q1 & Q2 & S)].
    - inversion Q as [| |? ? Hc Hk]; subst. apply SAME; [left; apply Hk|].
      unfold has_file, get. destruct (exec_frame [ix; wn] c w Hc) as [HE _]. rewrite HE; [exact F|]. cbn. intros [X|[X|[]]]; congruence.
    - destruct S as [(k' & X & H1 & H2)|(z & Z & [(k' & X & H1 & H2 & H3)|(x & C & items & k' & A & O & X & HQ)])]; inversion X; subst c k'; clear X.
      + specialize (OK eq_refl). destruct (fs_get wn (w_fs w)) as [[|t']|] eqn:G.
        * cbn [exec]. rewrite G. cbn [fst snd]. apply SAME; [|exact F]. left. destruct (H1 OSError) as (e & ->). constructor.
        * rewrite (exec_read wn t' w G). cbn [fst snd]. apply SAME; [|exact F]. destruct (H2 t') as [(e & ->)|(z & P & R)]; [left; constructor|].
          right. split; [exact NI|]. exists q, l. split; [exact Q1|]. split; [exact Q2|]. right. exists z. split; [eapply OK; eassumption|left; exact R].
        * cbn [exec]. rewrite G. cbn [fst snd]. apply SAME; [|exact F]. left. destruct (H1 FileNotFoundError) as (e & ->). constructor.
      + rewrite (exec_read db t w F). cbn [fst snd]. apply SAME; [|exact F]. pose proof TS as [(x & C & ->)|(L & _)].
        * destruct C as (who & parts & C1 & C2 & C3 & C4 & O). destruct (H3 x O) as [(e & ->)|R]; [left; constructor|].
          right. split; [exact NI|]. exists q, l. split; [exact Q1|]. split; [exact Q2|]. right. exists z. split; [exact Z|].
          right. exists x. split; [exists who, parts; auto|exact R].
        * left. destruct (H2 t _ L) as (e & ->). constructor.
      + assert (X : exec (CWrite db 0 (db_text (x ++ items))) w = (RUnit, put db (write_at t 0 (db_text (x ++ items))) w))
          by (unfold has_file, get in F; cbn [exec]; rewrite F; reflexivity).
        rewrite X. cbn [fst snd]. apply (NEXT (i :: W) (write_at t 0 (db_text (x ++ items)))).
        * apply incl_tl, incl_refl.
        * intros j N [H|H]; [congruence|exact H].
        * apply put_has.
        * apply over; [exact O| |eapply state_ends; exact TS]. destruct C as (who & parts & C1 & C2 & C3 & C4 & C5).
          exists (who ++ [i]), (parts ++ [items]). split; [|split; [|split; [|split]]].
          -- apply NoDup_app_intro; [exact C1|constructor; [intros []|constructor]|]. intros y Hy [<-|[]]. apply NI. apply C2. exact Hy.
          -- intros y Hy. apply in_app_iff in Hy as [Hy|[<-|[]]]; [right; apply C2; exact Hy|left; reflexivity].
          -- apply Forall2_app; [exact C3|]. constructor; [|constructor]. exists q, l, z. auto.
          -- rewrite concat_app. cbn [concat]. rewrite app_nil_r, C4, app_assoc. reflexivity.
          -- exact O.
        * left. apply HQ.
  Qed.

  Lemma inv_start w : Forall json_query qs -> db_file db d w -> inv (map (fun q => query q g) qs) w.
  Proof.
    intros WR (F & V & S). exists [], (db_text d). split; [exact F|]. split.
    - left. exists d. split; [|reflexivity]. exists [], []. split; [constructor|]. split; [apply incl_refl|]. split; [constructor|].
      cbn [concat]. rewrite app_nil_r. split; [reflexivity|split; assumption].
    - intros i m H. rewrite nth_error_map in H. destruct (nth_error qs i) as [q|] eqn:E; [|discriminate]. injection H as <-.
      rewrite Forall_forall in WR. destruct (query_starts q (WR q (nth_error_In _ _ E))) as [Q|(l & P & S')]; [left; exact Q|right].
      split; [intros []|]. exists q, l. auto.
  Qed.
  Lemma inv_end ps w : inv ps w ->
    (exists who parts, NoDup who /\ Forall2 made who parts /\ db_file db (d ++ concat parts) w) \/ unreadable g w.
  Proof.
    intros (W & t & F & [(x & (who & parts & C1 & _ & C3 & -> & O) & ->)|(L & _)] & _).
    - left. exists who, parts. split; [exact C1|]. split; [exact C3|]. split; [exact F|exact O].
    - right. exists t. split; [exact F|exact L].
  Qed.
End Many.

Section ManyMain.
  Context {rt : PyRt} (D : rt_data rt) (g : gdbms) (DI : distinct_files g).
  Local Notation wn := (wiggle_number_fp g).

  Lemma inv_together d qs ps w tr ps' w' : together ps w tr ps' w' -> inv g d qs (fun _ => True) ps w -> inv g d qs (fun _ => True) ps' w'.
  Proof. induction 1 as [ps w|ps i c k w tr ps' w' E H IH]; intros I; [exact I|]. apply IH. eapply step; auto. Qed.
  Theorem some_of_them d qs w tr ps w' : db_file (database_fp g) d w -> Forall json_query qs ->
    together (map (fun q => query q g) qs) w tr ps w' ->
    (exists who parts, NoDup who /\ Forall2 (made_by qs) who parts /\ db_file (database_fp g) (d ++ concat parts) w') \/ unreadable g w'.
  Proof.
    intros DF WR H. pose proof (inv_together _ _ _ _ _ _ _ H (inv_start D g d qs (fun _ => True) w WR DF)) as I.
    apply inv_end in I as [(who & parts & N & F & X)|U]; [left|right; exact U]. exists who, parts. split; [exact N|]. split; [|exact X].
    clear -F. induction F as [|i items who parts (q & l & z & A & B & _ & C) F IH]; constructor; [|exact IH]. exists q, l, z. auto.
  Qed.

  (** the counter, as long as nobody changes it *)
  Definition on_ours (m : io bool) : Prop := only (on_files (the_files g)) m.
  Lemma exec_not_changed c w : on_files (the_files g) c -> ~ changes wn c ->
    fs_get wn (w_fs (snd (exec c w))) = fs_get wn (w_fs w).
  Proof.
    intros O N. assert (X : on_files [wn] c \/ on_files [database_fp g; indexes_fp g] c).
    { destruct c; cbn [on_files the_files In] in *; tauto. }
    destruct X as [X|X].
    - destruct c; cbn [on_files In] in X; try contradiction; try (destruct X as [<-|[]]).
      + cbn [exec]. destruct (fs_get wn (w_fs w)) as [[|t]|] eqn:E; cbn [snd]; rewrite E; reflexivity.
      + exfalso. apply N. right. left. eauto.
      + exfalso. apply N. right. right. eauto.
      + exfalso. apply N. left. reflexivity.
      + reflexivity.
    - destruct (exec_frame _ c w X) as [HE _]. apply HE. destruct DI as (N1 & N2 & N3). cbn. intros [E|[E|[]]]; congruence.
  Qed.
  Lemma changes_dec c : {changes wn c} + {~ changes wn c}.
  Proof.
    destruct c; try (right; intros [E|[(o & t' & E)|(n & E)]]; discriminate).
    - destruct (path_eq_dec p wn) as [-> |N]; [left; right; left; eauto|right; intros [E|[(o & t' & E)|(n & E)]]; congruence].
    - destruct (path_eq_dec p wn) as [-> |N]; [left; right; right; eauto|right; intros [E|[(o & t' & E)|(n & E)]]; congruence].
    - destruct (path_eq_dec p wn) as [-> |N]; [left; left; eauto|right; intros [E|[(o & t' & E)|(n & E)]]; congruence].
  Qed.
  Lemma ours_step i m ps : on_ours m -> Forall on_ours ps -> Forall on_ours (replaced i m ps).
  Proof.
    intros M H. unfold replaced. pose proof H as HF. rewrite <- (firstn_skipn i ps) in HF. apply Forall_app in HF as [H1 _].
    apply Forall_app. split; [exact H1|]. constructor; [exact M|]. rewrite <- (firstn_skipn (S i) ps) in H. apply Forall_app in H as [_ H]. exact H.
  Qed.
  Lemma one_counter d qs z0 ps w tr ps' w' : together ps w tr ps' w' -> reads_first wn tr -> Forall on_ours ps ->
    file_is wn (str_of_Z z0) w \/ (forall j, ~ In (j, CRead wn) tr) ->
    inv g d qs (fun z => z = z0) ps w -> inv g d qs (fun z => z = z0) ps' w'.
  Proof.
    induction 1 as [ps w|ps i c k w tr ps' w' E H IH]; intros RF O C I; [exact I|].
    pose proof O as O'. rewrite Forall_forall in O'. pose proof (O' _ (nth_error_In _ _ E)) as OI. inversion OI as [| |? ? Hc Hk]; subst.
    apply IH.
    - intros (t1 & j & c' & t2 & j' & t3 & X & Y). apply RF. exists ((i, c) :: t1), j, c', t2, j', t3. split; [rewrite X; reflexivity|exact Y].
    - apply ours_step; [apply Hk|exact O].
    - destruct (changes_dec c) as [CH|NC].
      + right. intros j Hj. apply RF. apply in_split in Hj as (a & b & ->). exists [], i, c, a, j, b. split; [reflexivity|exact CH].
      + destruct C as [C|C]; [left|right; intros j Hj; apply (C j); right; exact Hj].
        unfold file_is. rewrite exec_not_changed by assumption. exact C.
    - eapply step; eauto. intros -> t z F P. destruct C as [C|C]; [|exfalso; apply (C i); left; reflexivity].
      unfold file_is in C. unfold has_file, get in F. rewrite C in F. injection F as <-. rewrite py_int_str_of_Z in P. congruence.
  Qed.
  Theorem one_at_most d z0 qs w tr ps w' : db_file (database_fp g) d w -> file_is wn (str_of_Z z0) w -> Forall json_query qs ->
    together (map (fun q => query q g) qs) w tr ps w' -> reads_first wn tr ->
    db_file (database_fp g) d w' \/ unreadable g w' \/
    exists q l items, In q qs /\ parse_make q = Ok (Some l) /\ acceptable (patterns_of l) z0 items /\ db_file (database_fp g) (d ++ items) w'.
  Proof.
    intros DF CF WR H RF.
    assert (OU : Forall on_ours (map (fun q => query q g) qs)).
    { apply Forall_forall. intros m Hm. apply in_map_iff in Hm as (q & <- & _). apply only_query. }
    pose proof (one_counter d qs z0 _ _ _ _ _ H RF OU (or_introl CF) (inv_start D g d qs (fun z => z = z0) w WR DF)) as I.
    apply inv_end in I as [(who & parts & N & F & X)|U]; [|right; left; exact U].
    assert (K : forall x, In x parts -> x = [] \/ In (str_of_Z z0) (keys x) /\
      exists q l, In q qs /\ parse_make q = Ok (Some l) /\ acceptable (patterns_of l) z0 x).
    { clear -F. induction F as [|i items who parts (q & l & z & A & B & -> & C) F IH]; intros x Hx; [destruct Hx|].
      destruct Hx as [<-|Hx]; [|apply IH; exact Hx]. destruct C as [C1 C2]. destruct (patterns_of l) as [|p pp] eqn:EP.
      - left. exact C2.
      - right. split; [eapply entries_first; exact C2|]. exists q, l. rewrite EP. split; [eapply nth_error_In; exact A|]. split; [exact B|]. split; assumption. }
    assert (ND : NoDup (keys (concat parts))).
    { destruct X as (_ & V & _). apply dict_ok_keys in V. rewrite keys_app in V. apply NoDup_app_inv in V. tauto. }
    assert (C : concat parts = [] \/ exists x, In x parts /\ x <> [] /\ concat parts = x).
    { clear -K ND. induction parts as [|x parts IH]; [left; reflexivity|]. cbn [concat] in *. rewrite keys_app in ND.
      assert (K' : forall y, In y parts -> y = [] \/ In (str_of_Z z0) (keys y)) by (intros y Hy; destruct (K y (or_intror Hy)) as [E|[E _]]; auto).
      destruct IH as [E|(y & Hy & NE & E)].
      - intros y Hy. apply K. right. exact Hy.
      - apply NoDup_app_inv in ND. tauto.
      - rewrite E, app_nil_r. destruct x as [|kv x]; [left; reflexivity|right]. exists (kv :: x). split; [left; reflexivity|]. split; [discriminate|reflexivity].
      - right. destruct (K x (or_introl eq_refl)) as [-> |[Kx _]].
        + exists y. split; [right; exact Hy|]. split; [exact NE|exact E].
        + destruct (K' y Hy) as [Ey|Ky]; [congruence|]. exfalso. rewrite E in ND. clear -ND Kx Ky.
          revert ND Kx. generalize (keys x) as a, (keys y) as b, Ky. intros a b Kb. induction a as [|u a IH]; intros ND Ka; [destruct Ka|].
          cbn in ND. inversion ND as [|? ? N1 N2]; subst. destruct Ka as [-> |Ka]; [apply N1, in_or_app; auto|auto]. }
    destruct C as [E|(x & Hx & NE & E)]; rewrite E in X.
    - left. rewrite app_nil_r in X. exact X.
    - right. right. destruct (K x Hx) as [->|(_ & q & l & A & B & C)]; [congruence|]. exists q, l, x. auto.
  Qed.
End ManyMain.
