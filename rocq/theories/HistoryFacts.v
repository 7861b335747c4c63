(** * HistoryFacts: sequences of calls *)
From Verif Require Import PyBase BaseFacts Json JsonFacts RtLaws Props PropsFacts Checks Statements Data FS FSFacts Store
  SpecStore StoreFacts Make SpecMake MakeFacts MakeRun MakeMore Find Query SpecHistory.
From Coq Require Import ZifyBool ZifyN ZifyNat.

Section FindRun.
  Context {rt : PyRt}.

  Lemma reads_load_index p name : reads_only (load_index_set p name).
  Proof.
    unfold load_index_set. apply reads_only_catch.
    - apply reads_only_bind; [|intros; apply reads_only_lift]. unfold read_json. apply reads_only_bind; [apply reads_only_text|intros; apply reads_only_lift].
    - intros e m' H. destruct e; inv H. constructor.
  Qed.
  Lemma reads_short_circuit fp g : reads_only (find_short_circuit fp g).
  Proof.
    unfold find_short_circuit. apply reads_only_bind; [apply reads_load_index|]. intros labels.
    apply reads_only_bind; [apply reads_load_index|]. intros names.
    destruct (negb _); [constructor|]. destruct (relationship_name_is_in_index _ _); constructor.
  Qed.
  Lemma run_find f g w : run (find f g) w =
    match process_parsed_find f with
    | Err e => (Err e, w)
    | Ok fp => match fst (run (find_short_circuit fp g) w) with
               | Err e => (Err e, w)
               | Ok true => (Ok (Some [(true, false)]), w)
               | Ok false => (Ok None, {| w_fs := w_fs w; w_in := w_in w; w_out := w_out w ++ [NO_RESULTS] |})
               end
    end.
  Proof.
    unfold find. rewrite run_bind, run_lift. destruct (process_parsed_find f) as [fp|e]; [|reflexivity].
    rewrite run_bind. pose proof (reads_only_run _ w (reads_short_circuit fp g)) as H.
    destruct (run (find_short_circuit fp g) w) as [[[|]|e] w1]; cbn [fst snd] in *; subst w1; reflexivity.
  Qed.
  Theorem find_files f g w : w_fs (snd (run (find f g) w)) = w_fs w.
  Proof.
    rewrite run_find. destruct (process_parsed_find f) as [fp|e]; [|reflexivity].
    destruct (fst (run (find_short_circuit fp g) w)) as [[|]|e]; reflexivity.
  Qed.
  Lemma run_short_circuit fp g w : run (find_short_circuit fp g) w =
    match fst (run (load_node_labels_index (indexes_fp g)) w), fst (run (load_relationship_names_index (indexes_fp g)) w) with
    | Ok labels, Ok names => (Ok (node_label_is_in_index (fp_labels fp) labels && negb (relationship_name_is_in_index (fp_names fp) names)), w)
    | Err e, _ => (Err e, w)
    | _, Err e => (Err e, w)
    end.
  Proof.
    unfold find_short_circuit. rewrite run_bind.
    pose proof (reads_only_run _ w (reads_load_index (indexes_fp g) NODE_LABELS)) as H1. fold (load_node_labels_index (indexes_fp g)) in H1.
    destruct (run (load_node_labels_index (indexes_fp g)) w) as [[labels|e] w1]; cbn [fst snd] in *; subst w1; [|reflexivity].
    rewrite run_bind.
    pose proof (reads_only_run _ w (reads_load_index (indexes_fp g) RELATIONSHIP_NAMES)) as H2. fold (load_relationship_names_index (indexes_fp g)) in H2.
    destruct (run (load_relationship_names_index (indexes_fp g)) w) as [[names|e] w1]; cbn [fst snd] in *; subst w1; [|reflexivity].
    destruct (node_label_is_in_index (fp_labels fp) labels); cbn [negb andb]; [|reflexivity].
    destruct (relationship_name_is_in_index (fp_names fp) names); reflexivity.
  Qed.
  Lemma find_broken_index f g w t : has_file (indexes_fp g) t w -> load_json t = Err JSONDecodeError ->
    run (find f g) w =
    match process_parsed_find f with
    | Err e => (Err e, w)
    | Ok fp => (Ok None, {| w_fs := w_fs w; w_in := w_in w; w_out := w_out w ++ [NO_RESULTS] |})
    end.
  Proof.
    intros F B. rewrite run_find. destruct (process_parsed_find f) as [fp|e]; [|reflexivity].
    rewrite run_short_circuit, (load_labels_bad _ _ _ F B), (load_names_bad _ _ _ F B). cbn [fst].
    replace (node_label_is_in_index (fp_labels fp) []) with false; [reflexivity|].
    symmetry. unfold node_label_is_in_index. induction (fp_labels fp); auto.
  Qed.
End FindRun.

Section History.
  Context {rt : PyRt} (D : rt_data rt) (g : gdbms) (FD : distinct_files g).

  Lemma entries_first p ps z items : entries_all (p :: ps) z items -> In (str_of_Z z) (keys items).
  Proof.
    cbn [entries_all]. intros (a & b & -> & A & _). rewrite keys_app, in_app_iff. left. rewrite (entries_keys _ _ _ A). left. reflexivity.
  Qed.

  (** the index file cannot be read; [d] and [z] are what the other two files say *)
  Record broken (d : list (pystr * pyval)) (z : Z) (t : pystr) (w : world) : Prop := {
    br_db : db_file_is (database_fp g) d w;
    br_wn : has_file (wiggle_number_fp g) (str_of_Z z) w;
    br_ix : has_file (indexes_fp g) t w;
    br_bad : load_json t = Err JSONDecodeError }.

  Lemma broken_fs d z t w w' : w_fs w' = w_fs w -> broken d z t w -> broken d z t w'.
  Proof.
    intros E [A B C E']. unfold db_file_is, has_file, get in *. constructor; unfold db_file_is, has_file, get; rewrite ?E; auto.
  Qed.

  Lemma broken_make d z t w l : broken d z t w ->
    (forall items, acceptable (patterns_of l) z items -> dict_ok (d ++ items) \/ exists k, In k (keys items) /\ In k (keys d)) ->
    (forall items, acceptable (patterns_of l) z items -> dict_ser items = true) ->
    (exists e, run (make l g) w = (Err e, w)) \/
    (exists items e, acceptable (patterns_of l) z items /\ (forall k, In k (keys items) -> ~ In k (keys d)) /\
       run (make l g) w = (Err e, put (database_fp g) (dump_text Indent4 (VDict (d ++ items))) w) /\
       broken (d ++ items) z t (put (database_fp g) (dump_text Indent4 (VDict (d ++ items))) w)).
  Proof.
    intros B V Sr. pose proof (run_get_wn _ _ _ (br_wn _ _ _ _ B)) as Hz.
    destruct (prepare_spec (patterns_of l) z) as [(ms & nss & items & E1 & E2 & R)|(N & _)].
    2:{ left. eapply run_make_not_ready; eauto. }
    assert (A : acceptable (patterns_of l) z items) by (split; apply R).
    rewrite (run_make_ready l g w z ms nss items Hz E1 E2 R). unfold commit. rewrite run_bind.
    assert (HK : (exists k, In k (keys items) /\ In k (keys d)) \/ (forall k, In k (keys items) -> ~ In k (keys d))).
    { generalize (keys items). intros ks. induction ks as [|k ks IH]; [right; intros k []|].
      destruct IH as [(k' & H1 & H2)|IH]; [left; exists k'; split; [right|]; assumption|].
      destruct (in_dec str_eq_dec k (keys d)) as [Hk|Hk]; [left; exists k; split; [left; reflexivity|assumption]|].
      right. intros k' [<-|H]; [assumption|auto]. }
    destruct HK as [(k & H1 & H2)|HK].
    - left. rewrite (add_item_exists _ _ _ _ k (br_db _ _ _ _ B) H1 H2). eauto.
    - right. exists items. destruct (V items A) as [VO|(k & H1 & H2)]; [|exfalso; eapply HK; eauto].
      destruct (add_item_new _ _ _ _ (br_db _ _ _ _ B) VO (Sr items A)) as [EA DA]. rewrite EA.
      assert (B' : broken (d ++ items) z t (put (database_fp g) (dump_text Indent4 (VDict (d ++ items))) w)).
      { destruct FD as (F1 & F2 & F3). constructor; [assumption| | |apply B].
        - apply has_put_other; [congruence|apply B].
        - apply has_put_other; [congruence|apply B]. }
      exists JSONDecodeError. split; [assumption|]. split; [assumption|]. split; [|assumption].
      rewrite run_bind. unfold add_indexes. rewrite run_bind.
      rewrite (run_add_rels_bad _ _ _ _ (br_ix _ _ _ _ B') (br_bad _ _ _ _ B)). reflexivity.
  Qed.

  (** once the counter's number is taken, nothing moves any more *)
  Lemma wedged_make d z t w l : broken d z t w -> In (str_of_Z z) (keys d) -> exists e, run (make l g) w = (Err e, w).
  Proof.
    intros B K. destruct (patterns_of l) as [|p ps] eqn:EP.
    - destruct (broken_make d z t w l B) as [H|(items & e & A & _ & H & _)]; rewrite ?EP in *.
      + intros items [_ H]. cbn [entries_all] in H. subst items. left. rewrite app_nil_r. apply B.
      + intros items [_ H]. cbn [entries_all] in H. subst items. reflexivity.
      + assumption.
      + destruct A as [_ A]. cbn [entries_all] in A. subst items. rewrite app_nil_r in H. rewrite put_same in H; [eauto|apply (br_db _ _ _ _ B)].
    - pose proof (run_get_wn _ _ _ (br_wn _ _ _ _ B)) as Hz.
      destruct (prepare_spec (patterns_of l) z) as [(ms & nss & items & E1 & E2 & R)|(N & _)].
      2:{ eapply run_make_not_ready; eauto. }
      exists NodeExistsError. eapply make_taken; [eassumption| |split; apply R| |exact K].
      + rewrite run_read_json, (db_file_parse _ _ _ (br_db _ _ _ _ B)). reflexivity.
      + eapply entries_first. rewrite <- EP. apply R.
  Qed.
  Lemma wedged_taken d z t w l items : broken d z t w -> In (str_of_Z z) (keys d) -> patterns_of l <> [] ->
    acceptable (patterns_of l) z items -> run (make l g) w = (Err NodeExistsError, w).
  Proof.
    intros B K NE A. pose proof (run_get_wn _ _ _ (br_wn _ _ _ _ B)) as Hz.
    eapply make_taken; [eassumption| |eassumption| |exact K].
    - rewrite run_read_json, (db_file_parse _ _ _ (br_db _ _ _ _ B)). reflexivity.
    - destruct (patterns_of l); [congruence|]. eapply entries_first. apply A.
  Qed.

  Lemma wedged_all d z t w cs : broken d z t w -> In (str_of_Z z) (keys d) ->
    Forall2 refused cs (fst (perform_all g cs w)) /\ w_fs (snd (perform_all g cs w)) = w_fs w.
  Proof.
    intros B K. revert w B. induction cs as [|c cs IH]; intros w B; cbn [perform_all]; [split; [constructor|reflexivity]|].
    assert (H : refused c (fst (perform g c w)) /\ w_fs (snd (perform g c w)) = w_fs w).
    { destruct c as [l|f]; cbn [perform refused].
      - destruct (wedged_make d z t w l B K) as (e & ->). cbn [fst snd]. eauto.
      - pose proof (find_broken_index f g w t (br_ix _ _ _ _ B) (br_bad _ _ _ _ B)) as H.
        destruct (process_parsed_find f) as [fp|e]; rewrite H; cbn [fst snd w_fs]; eauto. }
    destruct (perform g c w) as [o w1]. cbn [fst snd] in H. destruct H as [H1 H2].
    destruct (IH w1 (broken_fs _ _ _ _ _ H2 B)) as [I1 I2]. destruct (perform_all g cs w1) as [os w2]. cbn [fst snd] in *.
    split; [constructor; assumption|congruence].
  Qed.

  (** ** C25: along every history *)
  Definition key_below (b : Z) (d : list (pystr * pyval)) : Prop := forall k, In k (keys d) -> exists z, k = str_of_Z z /\ (z < b)%Z.
  (** the states a graph can be in; [extra] is what a half-finished MAKE took *)
  Definition alive (d : list (pystr * pyval)) (z extra : Z) (w : world) : Prop :=
    (exists G, stored g G w /\ g_db G = d /\ g_next G = z /\ extra = 0%Z) \/
    (exists t, broken d z t w /\ key_below (z + extra) d /\ (extra = 0%Z \/ In (str_of_Z z) (keys d))).

  Lemma alive_fs d z extra w w' : w_fs w' = w_fs w -> alive d z extra w -> alive d z extra w'.
  Proof.
    intros E [(G & [H1 H2 H3 (st & H4) H5] & H)|(t & B & H)].
    - left. exists G. split; [|assumption]. unfold file_is in *. constructor; unfold file_is; rewrite ?E; eauto.
    - right. exists t. split; [eapply broken_fs; eauto|assumption].
  Qed.

  Lemma alive_step c d z extra w : call_ok c -> alive d z extra w ->
    exists more z' extra', alive (d ++ more) z' extra' (snd (perform g c w)) /\
      (z' = z /\ more = [] /\ extra' = extra \/ z' = z /\ extra = 0%Z /\ extra' = size_all (patterns_in c) \/
       (extra = 0%Z /\ extra' = 0%Z /\ z' = z + size_all (patterns_in c)))%Z.
  Proof.
    intros [CN CW] A. assert (CS : forall z items, entries_all (patterns_in c) z items -> dict_ser items = true) by (intros z0 items0; apply entries_all_ser; exact CW). destruct c as [l|f]; cbn [perform patterns_in] in *.
    2:{ exists [], z, extra. rewrite app_nil_r. split; [|auto]. eapply alive_fs; [|exact A].
        pose proof (find_files f g w) as H. destruct (run (find f g) w) as [r w1]. exact H. }
    destruct A as [(G & S & Ed & Ez & E0)|(t & B & KB & EX)].
    - subst d z extra. destruct (make_cases D g G w S l CN) as [(_ & e & H)|[(items & AC & Sr & _)|[(items & st & AC & Sr & O & F & H)|(items & G' & w' & AC & Sr & O & H & M & S' & _ & Edb)]]].
      + exists [], (g_next G), 0%Z. rewrite app_nil_r, H. cbn [snd]. split; [left; exists G; auto|left; auto].
      + rewrite (CS _ _ (proj2 AC)) in Sr. discriminate.
      + exists items, (g_next G), (size_all (patterns_of l)). rewrite H. cbn [snd]. split; [|right; left; auto].
        right. exists (dump_text st (index_val (g_ix G)) ++ dump_text Indent4 (index_val (g_ix G))).
        destruct FD as (F1 & F2 & F3). split; [|split].
        * constructor.
          -- split; [|split].
             ++ apply has_put_other; [congruence|]. apply put_has.
             ++ eapply stored_join; eauto. apply AC.
             ++ unfold dict_ser. rewrite forallb_app. fold (dict_ser (g_db G)) (dict_ser items). rewrite Sr, (g_db_ser _ (st_ok _ _ _ S)). reflexivity.
          -- apply has_put_other; [congruence|]. apply has_put_other; [congruence|]. apply S.
          -- apply put_has.
          -- pose proof (doubled_index st Indent4 (g_ix G) [] (g_ix_ok _ (st_ok _ _ _ S))) as Q. rewrite app_nil_r in Q. exact Q.
        * intros k. rewrite keys_app, in_app_iff. pose proof (size_all_pos (patterns_of l)). intros [K|K].
          -- destruct (g_below _ (st_ok _ _ _ S) k K) as (z & -> & Hz). exists z. split; [reflexivity|lia].
          -- destruct (entries_all_keys _ _ items (proj2 AC)) as [_ K']. destruct (K' k K) as (z & -> & Hz). exists z. split; [reflexivity|lia].
        * destruct (patterns_of l) as [|p ps] eqn:EP; [left; reflexivity|right]. rewrite keys_app, in_app_iff. right. eapply entries_first. apply AC.
      + exists items, (g_next G'), 0%Z. rewrite H. cbn [snd]. split; [left; exists G'; auto|]. right. right.
        rewrite (md_next _ _ _ M). auto.
    - destruct EX as [->|K].
      + destruct (broken_make d z t w l B) as [(e & H)|(items & e & AC & ND & H & B')].
        * intros items [_ E]. destruct (in_dec str_eq_dec (str_of_Z z) (keys d)) as [K|K]; [|].
          -- destruct (patterns_of l) as [|p ps] eqn:EP; [left|right].
             ++ cbn [entries_all] in E. subst items. rewrite app_nil_r. apply (br_db _ _ _ _ B).
             ++ exists (str_of_Z z). split; [eapply entries_first; eauto|assumption].
          -- left. apply dict_ok_join; [apply (br_db _ _ _ _ B)|eapply entries_all_ok; eauto|].
             intros k Hi Hd. destruct (entries_all_keys _ _ items E) as [_ K']. destruct (K' k Hi) as (y & -> & Hy).
             destruct (KB _ Hd) as (y' & E' & Hy'). apply str_of_Z_inj in E'. lia.
        * intros items [_ E]. eapply CS; eauto.
        * exists [], z, 0%Z. rewrite app_nil_r, H. cbn [snd]. split; [right; exists t; auto|left; auto].
        * exists items, z, (size_all (patterns_of l)). rewrite H. cbn [snd]. split; [|right; left; auto].
          right. exists t. split; [exact B'|]. split.
          -- intros k. rewrite keys_app, in_app_iff. pose proof (size_all_pos (patterns_of l)). intros [K|K].
             ++ destruct (KB k K) as (y & -> & Hy). exists y. split; [reflexivity|lia].
             ++ destruct (entries_all_keys _ _ items (proj2 AC)) as [_ K']. destruct (K' k K) as (y & -> & Hy). exists y. split; [reflexivity|lia].
          -- destruct (patterns_of l) as [|p ps] eqn:EP; [left; reflexivity|right]. rewrite keys_app, in_app_iff. right. eapply entries_first. apply AC.
      + exists [], z, extra. destruct (wedged_make d z t w l B K) as (e & ->). rewrite app_nil_r. cbn [snd]. split; [right; exists t; auto|left; auto].
  Qed.

  Theorem alive_all cs d z extra w : Forall call_ok cs -> alive d z extra w ->
    (extra = 0%Z) ->
    exists more z' extra', alive (d ++ more) z' extra' (snd (perform_all g cs w)) /\ (z <= z')%Z /\
      (extra' = 0%Z \/ exists c, In c cs /\ extra' = size_all (patterns_in c)).
  Proof.
    intros HF A E0.
    enough (H : exists more z' extra', alive (d ++ more) z' extra' (snd (perform_all g cs w)) /\ (z <= z')%Z /\
      (extra' = extra \/ exists c, In c cs /\ extra' = size_all (patterns_in c))) by (rewrite E0 in H; exact H).
    clear E0. revert d z extra w A. induction HF as [|c cs Hc HF IH]; intros d z extra w A; cbn [perform_all].
    - exists [], z, extra. rewrite app_nil_r. cbn [snd]. split; [assumption|]. split; [lia|auto].
    - destruct (alive_step c d z extra w Hc A) as (m1 & z1 & x1 & A1 & H1). destruct (perform g c w) as [o w1]. cbn [snd] in A1.
      destruct (IH _ _ _ _ A1) as (m2 & z2 & x2 & A2 & Hz & H2). destruct (perform_all g cs w1) as [os w2]. cbn [snd] in *.
      exists (m1 ++ m2), z2, x2. rewrite app_assoc. split; [assumption|]. pose proof (size_all_pos (patterns_in c)). split; [lia|].
      destruct H2 as [->|(c' & Hc' & ->)]; [|right; exists c'; split; [right|]; auto].
      destruct H1 as [(_ & _ & ->)|[(_ & _ & ->)|(-> & -> & _)]]; [auto|right; exists c; split; [left|]; auto|auto].
  Qed.
End History.

Section ReadOnly.
  Context {rt : PyRt}.
  Theorem no_make_files (q : pystr) (g : gdbms) (w : world) :
    parse_make q = Ok None -> w_fs (snd (run (query q g) w)) = w_fs w.
  Proof.
    intros H. unfold query. rewrite run_bind, run_lift. unfold parse_query_string. rewrite H. cbn [bind].
    destruct (parse_find q) as [[f|]|e]; cbn [bind]; try reflexivity.
    destruct (parse_report q _) as [rp|e]; cbn [bind]; [|reflexivity].
    rewrite run_bind. unfold execute_query. cbn [q_make q_find q_report]. rewrite run_bind. cbn [run]. rewrite run_bind.
    pose proof (find_files f g w) as F. destruct (run (find f g) w) as [[r|e] w1]; cbn [fst snd] in *; [|exact F].
    rewrite run_bind. destruct rp; exact F.
  Qed.
End ReadOnly.
