(** * CrashFacts: what a crash during MAKE leaves behind, and what the next calls do *)
From Verif Require Import PyBase BaseFacts Json JsonFacts JsonMore SpecJson RtLaws Props PropsFacts Checks Statements Data FS FSFacts Store
  SpecStore StoreFacts Make SpecMake MakeFacts MakeRun MakeMore Find Query SpecHistory HistoryFacts SpecCrash Torn SpecShell.
From Coq Require Import ZifyBool ZifyN ZifyNat.

Lemma pair_inv {A B} (a c : A) (b d : B) : (a, b) = (c, d) -> a = c /\ b = d.
Proof. intros H. inversion H. auto. Qed.

(** a crash after [n] operations, [k] characters into the next one if that is a write *)
Fixpoint crash_at {A} (n k : nat) (m : io A) (w : world) : world :=
  match m with
  | Do c f =>
      match n with
      | O => match c with CWrite p off t => snd (exec (CWrite p off (firstn k t)) w) | _ => w end
      | S n' => crash_at n' k (f (fst (exec c w))) (snd (exec c w))
      end
  | _ => w
  end.
Lemma crash_at_crash {A} n k (m : io A) w : crash m w (crash_at n k m w).
Proof.
  revert m w; induction n as [|n IH]; intros [a|e|c f] w; cbn [crash_at]; try apply crash_now'.
  - destruct c; try apply crash_now'. eapply crash_write. symmetry. apply firstn_skipn.
  - apply crash_later. apply IH.
Qed.

Section Crash.
  Context {rt : PyRt}.

  Lemma crash_read_json p w w' : crash (read_json p) w w' -> w' = w.
  Proof.
    unfold read_json. intros H. apply crash_bind in H as [H|(t & w1 & R & H)]; [eapply crash_read; eauto|].
    rewrite run_read in R. inv R. eapply crash_lift; eauto.
  Qed.
  Lemma crash_get_wn p w w' : crash (get_current_wiggle_number p) w w' -> w' = w.
  Proof.
    unfold get_current_wiggle_number. intros H. apply crash_bind in H as [H|(t & w1 & R & H)]; [eapply crash_read; eauto|].
    rewrite run_read in R. inv R. destruct t; [eapply crash_throw|eapply crash_lift]; eauto.
  Qed.

  (** writing a document at [off] *)
  Lemma crash_write_json p off v t w w' : has_file p t w -> off <= List.length t -> crash (write_json p off v) w w' ->
    exists a b, dump_text Indent4 v = a ++ b /\ w' = put p (write_at t off a) w.
  Proof.
    intros F L H. unfold write_json in H. unfold dump_text. destruct (dump_top Indent4 v) as [s ok]. cbn [fst].
    apply crash_bind in H as [H|(u & w1 & R & H)].
    - apply (crash_do_write _ _ _ _ _ _ F) in H as [-> |(t1 & t2 & -> & ->)]; [|eauto].
      exists [], s. split; [reflexivity|]. rewrite put_same; [reflexivity|]. replace (write_at t off []) with t; [assumption|].
      unfold write_at. replace (off - List.length t) with 0 by lia. cbn [repeat app List.length]. rewrite Nat.add_0_r. symmetry. apply firstn_skipn.
    - rewrite (run_write p off s t w F) in R. inv R. exists s, []. rewrite app_nil_r. split; [reflexivity|].
      destruct ok; [eapply crash_ret|eapply crash_throw]; eauto.
  Qed.

  (** write at [off] and cut there *)
  Lemma crash_rewrite p off v t w w' : has_file p t w -> off <= List.length t ->
    crash (let! n := write_json p off v in let! _ := do_unit (CTrunc p n) in Ret true) w w' ->
    (exists a b, dump_text Indent4 v = a ++ b /\ w' = put p (write_at t off a) w) \/
    w' = put p (firstn off t ++ dump_text Indent4 v) w.
  Proof.
    intros F L H. apply crash_bind in H as [H|(n & w1 & R & H)].
    - left. eapply crash_write_json; eauto.
    - rewrite (run_write_json p off v t w F) in R. destruct (snd (dump_top Indent4 v)); [|discriminate]. inv R.
      apply crash_bind in H as [H|(u & w1 & R & H)].
      + apply (crash_do_trunc _ _ _ _ _ (put_has p _ w)) in H as [-> | ->].
        * left. exists (dump_text Indent4 v), []. rewrite app_nil_r. auto.
        * right. rewrite put_put. rewrite firstn_write_at by lia. reflexivity.
      + rewrite (run_trunc _ _ _ _ (put_has p _ w)) in R. inv R. apply crash_ret in H. subst w'.
        right. rewrite put_put. rewrite firstn_write_at by lia. reflexivity.
  Qed.
  Lemma crash_rewrite0 p v t w w' : has_file p t w ->
    crash (let! n := write_json p 0 v in let! _ := do_unit (CTrunc p n) in Ret true) w w' ->
    exists u, w' = put p u w /\ (over t (dump_text Indent4 v) u \/ u = dump_text Indent4 v).
  Proof.
    intros F H. apply (crash_rewrite p 0 v t w w' F) in H; [|lia]. destruct H as [(a & b & E & ->)| ->].
    - eexists. split; [reflexivity|]. left. exists a, b. rewrite write_at_0. auto.
    - eexists. split; [reflexivity|]. right. reflexivity.
  Qed.

  (** the database *)
  Lemma crash_add_item p d items w w' : db_file_is p d w -> dict_ok (d ++ items) -> crash (add_item_to_database p items) w w' ->
    exists u, w' = put p u w /\ over (db_text d) (db_text (d ++ items)) u.
  Proof.
    intros DF V H. pose proof DF as (F & Vd & Sd). unfold add_item_to_database in H.
    assert (Same : exists u, w = put p u w /\ over (db_text d) (db_text (d ++ items)) u).
    { exists (db_text d). rewrite put_same by exact F. split; [reflexivity|]. exists [], (db_text (d ++ items)). split; reflexivity. }
    apply crash_bind in H as [H|(db & w1 & R & H)]; [apply crash_read_json in H; subst; exact Same|].
    rewrite run_read_json, (db_file_parse p d w DF) in R. injection R as <- <-.
    apply crash_bind in H as [H|(db' & w1 & R & H)]; [apply crash_lift in H; subst; exact Same|].
    rewrite run_lift, db_add_all_new in R by (apply dict_ok_keys; auto). injection R as <- <-.
    apply crash_bind in H as [H|(n & w1 & R & H)].
    - apply (crash_write_json p 0 _ _ w w' F) in H; [|lia]. destruct H as (a & b & E & ->). eexists. split; [reflexivity|].
      exists a, b. rewrite write_at_0. auto.
    - apply crash_ret in H. subst w'. rewrite (run_write_json p 0 _ _ w F) in R.
      destruct (snd (dump_top Indent4 _)); [|discriminate]. injection R as <- <-. eexists. split; [reflexivity|].
      exists (db_text (d ++ items)), []. rewrite app_nil_r, write_at_0. split; reflexivity.
  Qed.

  (** the indexes: what a crash of one of the three updates leaves, when the update would end in [ix'] *)
  Lemma over_start old new : over old new old.
  Proof. exists [], new. split; reflexivity. Qed.
  Lemma ix_same p ix w w' (F : ix_file_is p ix w) st (Ft : has_file p (dump_text st (index_val ix)) w) new :
    w' = w -> exists u, w' = put p u w /\ (over (dump_text st (index_val ix)) new u \/ u = new).
  Proof. intros ->. eexists. rewrite put_same by exact Ft. split; [reflexivity|]. left. apply over_start. Qed.

  Lemma crash_add_set p items name ix ix' st w w' : index_ok ix -> has_file p (dump_text st (index_val ix)) w -> index_ok ix' ->
    run (add_items_set p items name) w = (Ok true, put p (ix_text ix') w) ->
    crash (add_items_set p items name) w w' ->
    exists u, w' = put p u w /\ (over (dump_text st (index_val ix)) (ix_text ix') u \/ u = ix_text ix').
  Proof.
    intros IO F IO' R H. assert (FI : ix_file_is p ix w) by (split; eauto).
    unfold add_items_set in *.
    rewrite run_bind, run_read_json, (ix_file_parse p ix w FI) in R.
    apply crash_bind in H as [H|(v & w1 & R1 & H)]; [apply crash_read_json in H; eapply ix_same; eauto|].
    rewrite run_read_json, (ix_file_parse p ix w FI) in R1. injection R1 as <- <-.
    rewrite run_bind, run_lift in R. apply crash_bind in H as [H|(cur & w1 & R1 & H)]; [apply crash_lift in H; eapply ix_same; eauto|].
    rewrite run_lift in R1. apply pair_inv in R1 as [R2 <-]. rewrite R2 in R. clear R2.
    rewrite run_bind, run_lift in R. apply crash_bind in H as [H|(idx & w1 & R1 & H)]; [apply crash_lift in H; eapply ix_same; eauto|].
    rewrite run_lift in R1. apply pair_inv in R1 as [R2 <-]. rewrite R2 in R. clear R2.
    apply (crash_rewrite0 p idx _ w w' F) in H as (u & -> & H). exists u. split; [reflexivity|].
    rewrite run_bind, (run_write_json p 0 idx _ w F) in R. destruct (snd (dump_top Indent4 idx)); [|discriminate].
    rewrite run_bind, (run_trunc p _ _ _ (put_has p _ _)), put_put in R. cbn [run] in R.
    rewrite firstn_write_at in R by lia. cbn [firstn app] in R.
    apply pair_inv in R as [_ R']. apply (f_equal (get p)) in R'. rewrite !get_put_same in R'. assert (R'' := f_equal (fun e => match e with Some (EFile t) => t | _ => [] end) R'); cbv beta iota in R''. rewrite <- R''. exact H.
  Qed.
  Lemma crash_add_rels p items ix st w w' : rt_ok rt -> items_ok items -> items <> [] ->
    index_ok ix -> has_file p (dump_text st (index_val ix)) w ->
    crash (add_items_to_node_relationships_index p items) w w' ->
    let ix' := with_rels ix (rel_add_all items (ix_rels ix)) in
    exists u, w' = put p u w /\ (over (dump_text st (index_val ix)) (ix_text ix') u \/ u = ix_text ix').
  Proof.
    intros RO HI NE IO F H ix'. assert (FI : ix_file_is p ix w) by (split; eauto).
    pose proof (run_add_rels p items ix w RO HI NE FI) as R. fold ix' in R.
    unfold add_items_to_node_relationships_index in *.
    assert (RD : run (do_text (CRead p)) w = (Ok (dump_text st (index_val ix)), w)).
    { rewrite run_read. unfold has_file in F. rewrite F. reflexivity. }
    rewrite run_bind, RD in R.
    apply crash_bind in H as [H|(v & w1 & R1 & H)]; [apply crash_read in H; eapply ix_same; eauto|].
    rewrite RD in R1. injection R1 as <- <-. destruct items as [|i items]; [congruence|].
    do 4 (rewrite run_bind, run_lift in R; apply crash_bind in H as [H|(? & ? & R1 & H)]; [apply crash_lift in H; eapply ix_same; eauto|];
      rewrite run_lift in R1; apply pair_inv in R1 as [R2 <-]; rewrite R2 in R; clear R2).
    match type of H with crash (let! _ := write_json p 0 ?idx in _) ?w3 _ =>
      apply (crash_rewrite0 p idx _ w3 w' F) in H as (u & -> & H); exists u; (split; [reflexivity|]);
      rewrite run_bind, (run_write_json p 0 idx _ w3 F) in R; destruct (snd (dump_top Indent4 idx)); [|discriminate] end.
    rewrite run_bind, (run_trunc p _ _ _ (put_has p _ _)), put_put in R. cbn [run] in R.
    rewrite firstn_write_at in R by lia. cbn [firstn app] in R.
    apply pair_inv in R as [_ R']. apply (f_equal (get p)) in R'. rewrite !get_put_same in R'. assert (R'' := f_equal (fun e => match e with Some (EFile t) => t | _ => [] end) R'); cbv beta iota in R''. unfold ix_text. rewrite <- R''. exact H.
  Qed.
  Lemma crash_add_rels_none p ix st w w' : index_ok ix -> has_file p (dump_text st (index_val ix)) w ->
    crash (add_items_to_node_relationships_index p []) w w' ->
    exists u, w' = put p (dump_text st (index_val ix) ++ u) w /\ part_of (ix_text ix) u.
  Proof.
    intros IO F H. assert (FI : ix_file_is p ix w) by (split; eauto).
    pose proof (run_add_rels_none p ix st w IO F) as R.
    assert (Same : w' = w -> exists u, w' = put p (dump_text st (index_val ix) ++ u) w /\ part_of (ix_text ix) u).
    { intros ->. exists []. rewrite app_nil_r, put_same by exact F. split; [reflexivity|]. exists (ix_text ix). reflexivity. }
    unfold add_items_to_node_relationships_index in *.
    assert (RD : run (do_text (CRead p)) w = (Ok (dump_text st (index_val ix)), w)).
    { rewrite run_read. unfold has_file in F. rewrite F. reflexivity. }
    rewrite run_bind, RD in R.
    apply crash_bind in H as [H|(v & w1 & R1 & H)]; [apply crash_read in H; auto|].
    rewrite RD in R1. injection R1 as <- <-.
    do 4 (rewrite run_bind, run_lift in R; apply crash_bind in H as [H|(? & ? & R1 & H)]; [apply crash_lift in H; auto|];
      rewrite run_lift in R1; apply pair_inv in R1 as [R2 <-]; rewrite R2 in R; clear R2).
    match type of H with crash (let! _ := write_json p _ ?idx in _) ?w3 _ =>
      apply (crash_rewrite p _ idx _ w3 w' F (le_n _)) in H;
      rewrite run_bind, (run_write_json p _ idx _ w3 F) in R; destruct (snd (dump_top Indent4 idx)); [|discriminate] end.
    rewrite run_bind, (run_trunc p _ _ _ (put_has p _ _)), put_put in R. cbn [run] in R.
    rewrite firstn_write_at in R by lia. rewrite firstn_all in *.
    apply pair_inv in R as [_ R']. apply (f_equal (get p)) in R'. rewrite !get_put_same in R'. assert (R'' := f_equal (fun e => match e with Some (EFile t) => t | _ => [] end) R'); cbv beta iota in R''. apply app_inv_head in R''.
    destruct H as [(a & b & E & ->)| ->].
    - exists a. rewrite write_at_end. split; [reflexivity|]. exists b. unfold ix_text. rewrite <- R'', E. reflexivity.
    - rewrite R''. exists (ix_text ix). split; [reflexivity|]. exists []. rewrite app_nil_r. reflexivity.
  Qed.

  (** the counter *)
  Lemma crash_update_wn p z t w w' : has_file p t w -> crash (update_wiggle_number p z) w w' ->
    w' = w \/ exists c, w' = put p c w /\ part_of (str_of_Z z) c.
  Proof.
    intros F H. unfold update_wiggle_number in H. apply crash_bind in H as [H|(u & w1 & R & H)].
    - apply (crash_do_create _ _ _ _ F) in H as [-> | ->]; [auto|]. right. exists []. split; [reflexivity|]. exists (str_of_Z z). reflexivity.
    - rewrite (run_create _ _ _ F) in R. inv R. right. apply crash_bind in H as [H|(u & w1 & R & H)].
      + apply (crash_do_write _ _ _ _ _ _ (put_has p [] w)) in H as [-> |(t1 & t2 & E & ->)].
        * exists []. split; [reflexivity|]. exists (str_of_Z z). reflexivity.
        * exists t1. rewrite put_put, write_at_0, skipn_nil, app_nil_r. split; [reflexivity|]. exists t2. exact E.
      + rewrite (run_write _ _ _ _ _ (put_has p [] w)) in R. inv R. apply crash_ret in H. subst w'.
        exists (str_of_Z z). rewrite put_put, write_at_0, skipn_nil, app_nil_r. split; [reflexivity|]. exists []. rewrite app_nil_r. reflexivity.
  Qed.

  Context (D : rt_data rt).
  Context (g : gdbms) (G : graph) (w : world) (S : stored g G w).

  Lemma three_files d i c :
    let w' := put (wiggle_number_fp g) c (put (indexes_fp g) i (put (database_fp g) d w)) in
    file_is (database_fp g) d w' /\ file_is (indexes_fp g) i w' /\ file_is (wiggle_number_fp g) c w' /\ unchanged_but (the_files g) w w'.
  Proof.
    pose proof (ne_di g G w S) as N1. pose proof (ne_dw g G w S) as N2. pose proof (ne_iw g G w S) as N3. cbv zeta.
    split; [apply has_put_other; [exact N2|]; apply has_put_other; [exact N1|]; apply put_has|].
    split; [apply has_put_other; [exact N3|]; apply put_has|]. split; [apply put_has|].
    repeat apply same_but_put; cbn; auto. apply same_but_refl.
  Qed.

  Lemma crash_commit l items ms nss w' st :
    Forall names_ok (patterns_of l) -> ready (patterns_of l) (g_next G) ms (concat nss) items ->
    has_file (indexes_fp g) (dump_text st (index_val (g_ix G))) w ->
    crash (commit items (concat nss) ms (g_next G + size_all (patterns_of l))%Z g) w w' ->
    exists d i c, crashed (patterns_of l) G items (dump_text st (index_val (g_ix G))) d i c /\
      w' = put (wiggle_number_fp g) c (put (indexes_fp g) i (put (database_fp g) d w)).
  Proof.
    intros N R Fi H. pose proof (ne_di g G w S) as N1. pose proof (ne_dw g G w S) as N2. pose proof (ne_iw g G w S) as N3.
    set (ps := patterns_of l) in *. set (i0 := dump_text st (index_val (g_ix G))) in *.
    assert (E : entries_all ps (g_next G) items) by apply R.
    assert (V : dict_ok (g_db G ++ items)) by (eapply stored_join; eauto).
    assert (Fw : has_file (wiggle_number_fp g) (str_of_Z (g_next G)) w) by apply S.
    assert (KW : forall i d, put (indexes_fp g) i (put (database_fp g) d w) =
                 put (wiggle_number_fp g) (str_of_Z (g_next G)) (put (indexes_fp g) i (put (database_fp g) d w))).
    { intros i d. rewrite (put_same (wiggle_number_fp g)); [reflexivity|].
      apply has_put_other; [congruence|]. apply has_put_other; [congruence|]. exact Fw. }
    assert (KI : forall d, put (database_fp g) d w = put (indexes_fp g) i0 (put (database_fp g) d w)).
    { intros d. rewrite (put_same (indexes_fp g)); [reflexivity|]. apply has_put_other; [congruence|]. exact Fi. }
    unfold commit in H. apply crash_bind in H as [H|(b & w1 & R1 & H)].
    { apply (crash_add_item _ _ _ _ _ (stored_db g G w S) V) in H as (d & -> & O).
      exists d, i0, (str_of_Z (g_next G)). split; [constructor; exact O|]. rewrite <- KW, <- KI. reflexivity. }
    rewrite (write_new_db _ _ _ _ (stored_db g G w S) V) in R1. destruct (dict_ser items) eqn:Sr; [|discriminate].
    apply pair_inv in R1 as [_ <-]. fold (db_text (g_db G ++ items)) in H.
    set (wd := put (database_fp g) (db_text (g_db G ++ items)) w) in *.
    assert (Fi1 : has_file (indexes_fp g) i0 wd) by (apply has_put_other; [congruence|exact Fi]).
    assert (IO : index_ok (g_ix G)) by apply (st_ok _ _ _ S).
    assert (IX : ix_file_is (indexes_fp g) (g_ix G) wd) by (split; [exact IO|exists st; exact Fi1]).
    destruct (owns_dec ps (g_next G)) as [O|O].
    - assert (RI : rel_index_items (concat nss) <> []).
      { intros E0. destruct O as (k & z & O). exact (proj1 (rd_none _ _ _ _ _ R) E0 k z O). }
      destruct (rel_add_all_ok (rel_index_items (concat nss)) (ix_rels (g_ix G)) (rt_base _ D) (rd_rels_ok _ _ _ _ _ R) (rels_ok_index _ IO))
        as [RO RM].
      set (rels := rel_add_all (rel_index_items (concat nss)) (ix_rels (g_ix G))) in *.
      set (ix1 := with_rels (g_ix G) rels).
      assert (IO1 : index_ok ix1). { destruct IO. destruct RO as (? & ? & ?). constructor; assumption. }
      assert (A1 : added ps (g_next G) true false false (g_ix G) ix1).
      { split; [|split].
        - intros k z. change (ix_rels ix1) with rels. rewrite RM, (rd_rels _ _ _ _ _ R). tauto.
        - intros s. change (ix_labels ix1) with (ix_labels (g_ix G)). split; [auto|]. intros [?|[? _]]; [auto|discriminate].
        - intros s. change (ix_names ix1) with (ix_names (g_ix G)). split; [auto|]. intros [?|[? _]]; [auto|discriminate]. }
      set (w1 := put (indexes_fp g) (ix_text ix1) wd).
      assert (IX1 : ix_file_is (indexes_fp g) ix1 w1) by (split; [exact IO1|exists Indent4; apply put_has]).
      assert (LO : Forall str_ok (labels_to_add ms)).
      { apply Forall_forall. intros s Hs. apply (rd_labels _ _ _ _ _ R) in Hs. eapply names_str_ok; eauto. }
      assert (NO : Forall str_ok (names_to_add ms)).
      { apply Forall_forall. intros s Hs. apply (rd_names _ _ _ _ _ R) in Hs. eapply names_str_ok; eauto. }
      destruct (run_add_labels _ _ _ _ (rt_base _ D) LO IX1) as (ls & EL & NL & OL & ML).
      set (ix2 := with_labels ix1 ls) in *.
      assert (IO2 : index_ok ix2) by (destruct IO1; constructor; assumption).
      assert (A2 : added ps (g_next G) true true false (g_ix G) ix2).
      { destruct A1 as (A & B & C). split; [exact A|]. split; [|exact C].
        intros s. change (ix_labels ix2) with ls. rewrite ML, (rd_labels _ _ _ _ _ R). change (ix_labels ix1) with (ix_labels (g_ix G)). tauto. }
      set (w2 := put (indexes_fp g) (ix_text ix2) w1).
      assert (IX2 : ix_file_is (indexes_fp g) ix2 w2) by (split; [exact IO2|exists Indent4; apply put_has]).
      destruct (run_add_names _ _ _ _ (rt_base _ D) NO IX2) as (na & EN & NN & ON & MN).
      set (ix3 := with_names ix2 na) in *.
      assert (IO3 : index_ok ix3) by (destruct IO2; constructor; assumption).
      assert (A3 : added ps (g_next G) true true true (g_ix G) ix3).
      { destruct A2 as (A & B & C). split; [exact A|]. split; [exact B|].
        intros s. change (ix_names ix3) with na. rewrite MN, (rd_names _ _ _ _ _ R). change (ix_names ix2) with (ix_names (g_ix G)). tauto. }
      apply crash_bind in H as [H|(b' & w3 & R3 & H)].
      + unfold add_indexes in H. apply crash_bind in H as [H|(b1 & w4 & R4 & H)].
        { apply (crash_add_rels _ _ (g_ix G) st _ _ (rt_base _ D) (rd_rels_ok _ _ _ _ _ R) RI IO Fi1) in H as (i & -> & [HO | ->]).
          - exists (db_text (g_db G ++ items)), i, (str_of_Z (g_next G)). split; [eapply in_relationship_index; eauto|apply KW].
          - exists (db_text (g_db G ++ items)), (ix_text ix1), (str_of_Z (g_next G)).
            split; [eapply in_label_index; eauto; apply over_start|apply KW]. }
        rewrite (run_add_rels _ _ _ _ (rt_base _ D) (rd_rels_ok _ _ _ _ _ R) RI IX) in R4. apply pair_inv in R4 as [_ <-].
        fold rels ix1 in H. fold (ix_text ix1) in H. fold w1 in H.
        apply crash_bind in H as [H|(b2 & w4 & R4 & H)].
        { apply (crash_add_set _ _ _ ix1 ix2 Indent4 _ _ IO1 (put_has _ _ _) IO2 EL) in H as (i & -> & HO).
          exists (db_text (g_db G ++ items)), i, (str_of_Z (g_next G)). split; [|unfold w1; rewrite put_put; apply KW].
          destruct HO as [HO | ->]; [eapply in_label_index; eauto|].
          eapply in_name_index; eauto. left. apply over_start. }
        rewrite EL in R4. apply pair_inv in R4 as [_ <-]. fold (ix_text ix2) in H. fold w2 in H.
        apply crash_bind in H as [H|(b3 & w4 & R4 & H)].
        { apply (crash_add_set _ _ _ ix2 ix3 Indent4 _ _ IO2 (put_has _ _ _) IO3 EN) in H as (i & -> & HO).
          exists (db_text (g_db G ++ items)), i, (str_of_Z (g_next G)). split; [|unfold w2, w1; rewrite !put_put; apply KW].
          eapply in_name_index; eauto. }
        rewrite EN in R4. apply pair_inv in R4 as [_ <-]. apply crash_ret in H. subst w'. fold (ix_text ix3).
        exists (db_text (g_db G ++ items)), (ix_text ix3), (str_of_Z (g_next G)). split; [|unfold w2, w1; rewrite !put_put; apply KW].
        eapply in_name_index; eauto.
      + unfold add_indexes in R3. rewrite run_bind, (run_add_rels _ _ _ _ (rt_base _ D) (rd_rels_ok _ _ _ _ _ R) RI IX) in R3.
        fold rels ix1 in R3. fold (ix_text ix1) in R3. fold w1 in R3. rewrite run_bind, EL in R3. fold (ix_text ix2) in R3. fold w2 in R3.
        rewrite run_bind, EN in R3. cbn [run] in R3. apply pair_inv in R3 as [_ <-]. fold (ix_text ix3) in H.
        assert (E3 : put (indexes_fp g) (ix_text ix3) w2 = put (indexes_fp g) (ix_text ix3) wd).
        { unfold w2, w1. rewrite !put_put. reflexivity. }
        rewrite E3 in H.
        assert (F3 : has_file (wiggle_number_fp g) (str_of_Z (g_next G)) (put (indexes_fp g) (ix_text ix3) wd)).
        { apply has_put_other; [congruence|]. apply has_put_other; [congruence|]. exact Fw. }
        apply crash_bind in H as [H|(b4 & w4 & R4 & H)].
        * apply (crash_update_wn _ _ _ _ _ F3) in H as [-> |(c & -> & P)].
          -- exists (db_text (g_db G ++ items)), (ix_text ix3), (str_of_Z (g_next G)). split; [eapply in_name_index; eauto|apply KW].
          -- exists (db_text (g_db G ++ items)), (ix_text ix3), c. split; [eapply in_counter; eauto|reflexivity].
        * rewrite (run_update_wn _ _ _ _ F3) in R4. apply pair_inv in R4 as [_ <-]. apply crash_ret in H. subst w'.
          eexists (db_text (g_db G ++ items)), (ix_text ix3), _. split; [eapply in_counter; eauto|reflexivity].
          exists []. rewrite app_nil_r. reflexivity.
    - assert (B : load_json (i0 ++ ix_text (g_ix G)) = Err JSONDecodeError).
      { pose proof (doubled_index st Indent4 (g_ix G) [] IO) as B. rewrite app_nil_r in B. exact B. }
      apply crash_bind in H as [H|(b' & w3 & R3 & H)].
      + unfold add_indexes in H. rewrite (proj2 (rd_none _ _ _ _ _ R) O) in H.
        apply crash_bind in H as [H|(b1 & w4 & R4 & H)].
        { apply (crash_add_rels_none _ _ st _ _ IO Fi1) in H as (u & -> & P).
          exists (db_text (g_db G ++ items)), (i0 ++ u), (str_of_Z (g_next G)). split; [apply in_second_document; auto|apply KW]. }
        rewrite (run_add_rels_none _ _ st _ IO Fi1) in R4. apply pair_inv in R4 as [_ <-].
        apply crash_bind in H as [H|(b2 & w4 & R4 & H)].
        2:{ rewrite (run_add_labels_bad _ _ _ _ (put_has _ _ _) B) in R4. discriminate. }
        exists (db_text (g_db G ++ items)), (i0 ++ ix_text (g_ix G)), (str_of_Z (g_next G)).
        split; [apply in_second_document; auto; exists []; rewrite app_nil_r; reflexivity|].
        rewrite <- KW. unfold add_items_to_node_labels_index, add_items_set in H.
        apply crash_bind in H as [H|(v & w4 & R4 & H)]; [apply crash_read_json in H; exact H|].
        rewrite run_read_json, (parse_res_bad _ _ _ _ (put_has _ _ _) B) in R4. discriminate.
      + unfold add_indexes in R3. rewrite (proj2 (rd_none _ _ _ _ _ R) O) in R3.
        rewrite run_bind, (run_add_rels_none _ _ st _ IO Fi1) in R3.
        rewrite run_bind, (run_add_labels_bad _ _ _ _ (put_has _ _ _) B) in R3. discriminate.
  Qed.

  Lemma crash_make l w' st : Forall names_ok (patterns_of l) ->
    has_file (indexes_fp g) (dump_text st (index_val (g_ix G))) w -> crash (make l g) w w' ->
    w' = w \/ exists items d i c, acceptable (patterns_of l) (g_next G) items /\
      crashed (patterns_of l) G items (dump_text st (index_val (g_ix G))) d i c /\
      w' = put (wiggle_number_fp g) c (put (indexes_fp g) i (put (database_fp g) d w)).
  Proof.
    intros N Fi H. unfold make in H.
    apply crash_bind in H as [H|(z & w1 & R & H)]; [left; eapply crash_get_wn; eauto|].
    rewrite (stored_counter g G w S) in R. injection R as <- <-.
    apply crash_bind in H as [H|(pm & w1 & R & H)]; [left; eapply crash_lift; eauto|].
    rewrite run_lift in R. unfold process_parsed_make_list in R. fold (patterns_of l) in R.
    destruct (prepare_spec (patterns_of l) (g_next G)) as [(ms & nss & items & E1 & E2 & RD)|(NA & [(e & E)|(ms & e & E1 & E2)])].
    - rewrite E1 in R. injection R as <- <-. cbv beta iota in H.
      apply crash_bind in H as [H|(nodes & w1 & R & H)]; [left; eapply crash_lift; eauto|].
      rewrite run_lift, E2 in R. injection R as <- <-.
      right. exists items.
      assert (HC : crash (commit items (concat nss) ms (g_next G + size_all (patterns_of l))%Z g) w w').
      { unfold commit. unfold add_nodes_to_graph in H. rewrite (rd_nodes _ _ _ _ _ RD) in H. exact H. }
      destruct (crash_commit l items ms nss w' st N RD Fi HC) as (d & i & c & C & ->).
      exists d, i, c. split; [split; apply RD|]. auto.
    - rewrite E in R. discriminate.
    - rewrite E1 in R. injection R as <- <-. cbv beta iota in H.
      apply crash_bind in H as [H|(nodes & w1 & R & H)]; [left; eapply crash_lift; eauto|].
      rewrite run_lift, E2 in R. discriminate.
  Qed.

  Theorem crash_states l w' : Forall names_ok (patterns_of l) -> crash (make l g) w w' ->
    w' = w \/ exists items i0 d i c, acceptable (patterns_of l) (g_next G) items /\
      file_is (indexes_fp g) i0 w /\ crashed (patterns_of l) G items i0 d i c /\
      file_is (database_fp g) d w' /\ file_is (indexes_fp g) i w' /\ file_is (wiggle_number_fp g) c w' /\
      unchanged_but (the_files g) w w'.
  Proof.
    intros N H. destruct (st_ix _ _ _ S) as (st & Fi). destruct (crash_make l w' st N Fi H) as [-> |(items & d & i & c & A & C & ->)]; [auto|].
    right. exists items, (dump_text st (index_val (g_ix G))), d, i, c. split; [exact A|]. split; [exact Fi|]. split; [exact C|].
    apply three_files.
  Qed.

  (** ** what the next calls do *)
  Lemma stuck_by w0 : (forall w2 l, w_fs w2 = w_fs w0 -> patterns_of l <> [] -> exists e, run (make l g) w2 = (Err e, w2)) -> stuck g w0.
  Proof.
    intros HM. assert (G0 : forall cs w2, w_fs w2 = w_fs w0 -> Forall draws cs ->
      Forall2 make_raised cs (fst (perform_all g cs w2)) /\ w_fs (snd (perform_all g cs w2)) = w_fs w2).
    { induction cs as [|c cs IH]; intros w2 E HD; cbn [perform_all]; [split; [constructor|reflexivity]|].
      inversion HD as [|? ? Hc HD']; subst.
      assert (H : make_raised c (fst (perform g c w2)) /\ w_fs (snd (perform g c w2)) = w_fs w2).
      { destruct c as [l|f]; cbn [perform make_raised].
        - destruct (HM w2 l E Hc) as (e & ->). cbn [fst snd]. eauto.
        - split; [exact I|]. pose proof (find_files f g w2) as H. destruct (run (find f g) w2). exact H. }
      destruct (perform g c w2) as [o w3]. cbn [fst snd] in H. destruct H as [H1 H2].
      destruct (IH w3 (eq_trans H2 E) HD') as [I1 I2]. destruct (perform_all g cs w3) as [os w4]. cbn [fst snd] in *.
      split; [constructor; assumption|congruence]. }
    intros cs HD. exact (G0 cs w0 eq_refl HD).
  Qed.
  Lemma file_fs p t w1 w2 : w_fs w2 = w_fs w1 -> file_is p t w1 -> file_is p t w2.
  Proof. unfold file_is. congruence. Qed.

  Lemma stuck_unreadable t w0 : file_is (database_fp g) t w0 -> load_json t = Err JSONDecodeError -> stuck g w0.
  Proof.
    intros F L. apply stuck_by. intros w2 l E _. apply (make_unreadable_db l g w2 JSONDecodeError).
    rewrite run_read_json, (parse_res_bad _ t w2 _ (file_fs _ _ _ _ E F) L). reflexivity.
  Qed.
  Lemma stuck_no_counter w0 : file_is (wiggle_number_fp g) [] w0 -> stuck g w0.
  Proof.
    intros F. apply stuck_by. intros w2 l E _. exists PlainException. apply make_no_counter.
    apply run_get_wn_empty. exact (file_fs _ _ _ _ E F).
  Qed.
  Lemma taken_make d w2 l : db_file_is (database_fp g) d w2 -> file_is (wiggle_number_fp g) (str_of_Z (g_next G)) w2 ->
    In (str_of_Z (g_next G)) (keys d) -> patterns_of l <> [] ->
    (forall items, acceptable (patterns_of l) (g_next G) items -> run (make l g) w2 = (Err NodeExistsError, w2)) /\
    exists e, run (make l g) w2 = (Err e, w2).
  Proof.
    intros Fd Fw K NE. pose proof (run_get_wn _ _ _ Fw) as Hz.
    assert (T : forall items, acceptable (patterns_of l) (g_next G) items -> run (make l g) w2 = (Err NodeExistsError, w2)).
    { intros items A. eapply make_taken; [exact Hz| |exact A| |exact K].
      - rewrite run_read_json, (db_file_parse _ _ _ Fd). reflexivity.
      - destruct (patterns_of l) as [|p ps]; [congruence|]. eapply entries_first. apply A. }
    split; [exact T|].
    destruct (prepare_spec (patterns_of l) (g_next G)) as [(ms & nss & items & E1 & E2 & R)|(NA & _)].
    - exists NodeExistsError. apply (T items). split; apply R.
    - eapply run_make_not_ready; eauto.
  Qed.
  Lemma stuck_taken d w0 : db_file_is (database_fp g) d w0 -> file_is (wiggle_number_fp g) (str_of_Z (g_next G)) w0 ->
    In (str_of_Z (g_next G)) (keys d) -> stuck g w0.
  Proof.
    intros (Fd & V & Sr) Fw K. apply stuck_by. intros w2 l E NE. apply (taken_make d); auto.
    - split; [exact (file_fs _ _ _ _ E Fd)|]. auto.
    - exact (file_fs _ _ _ _ E Fw).
  Qed.

  Lemma made_db_ok l items : Forall names_ok (patterns_of l) -> acceptable (patterns_of l) (g_next G) items -> dict_ser items = true ->
    forall w0, file_is (database_fp g) (db_text (g_db G ++ items)) w0 -> db_file_is (database_fp g) (g_db G ++ items) w0.
  Proof.
    intros N A Sr w0 F. split; [exact F|]. split; [eapply stored_join; eauto; apply A|].
    unfold dict_ser. rewrite forallb_app. fold (dict_ser (g_db G)) (dict_ser items). rewrite Sr, (g_db_ser _ (st_ok _ _ _ S)). reflexivity.
  Qed.

  (** a database with the new nodes and a counter without the new value *)
  Theorem half_done_stuck l items w0 : Forall names_ok (patterns_of l) -> patterns_of l <> [] ->
    acceptable (patterns_of l) (g_next G) items -> dict_ser items = true ->
    file_is (database_fp g) (db_text (g_db G ++ items)) w0 -> file_is (wiggle_number_fp g) (str_of_Z (g_next G)) w0 ->
    stuck g w0.
  Proof.
    intros N NE A Sr Fd Fw. apply (stuck_taken (g_db G ++ items)); [eapply made_db_ok; eauto|exact Fw|].
    rewrite keys_app, in_app_iff. right. destruct (patterns_of l) as [|p ps]; [congruence|]. eapply entries_first. apply A.
  Qed.
  Theorem half_done_exists l items w0 m items' : Forall names_ok (patterns_of l) -> patterns_of l <> [] ->
    acceptable (patterns_of l) (g_next G) items -> dict_ser items = true ->
    file_is (database_fp g) (db_text (g_db G ++ items)) w0 -> file_is (wiggle_number_fp g) (str_of_Z (g_next G)) w0 ->
    patterns_of m <> [] -> acceptable (patterns_of m) (g_next G) items' ->
    run (make m g) w0 = (Err NodeExistsError, w0).
  Proof.
    intros N NE A Sr Fd Fw NM A'. eapply (taken_make (g_db G ++ items)); [eapply made_db_ok; eauto|exact Fw| |exact NM|exact A'].
    rewrite keys_app, in_app_iff. right. destruct (patterns_of l) as [|p ps]; [congruence|]. eapply entries_first. apply A.
  Qed.

  (** every crash point *)
  Theorem crash_outcome l w' : Forall names_ok (patterns_of l) -> patterns_of l <> [] -> crash (make l g) w w' ->
    w' = w \/ stuck g w' \/
    exists G' c, made (patterns_of l) G G' /\ c <> [] /\ part_of (str_of_Z (g_next G')) c /\
      file_is (database_fp g) (db_text (g_db G')) w' /\ file_is (indexes_fp g) (ix_text (g_ix G')) w' /\
      file_is (wiggle_number_fp g) c w' /\ unchanged_but (the_files g) w w'.
  Proof.
    intros N NE H. destruct (st_ix _ _ _ S) as (st & Fi).
    destruct (crash_make l w' st N Fi H) as [-> |(items & d & i & c & A & C & E)]; [auto|].
    destruct (three_files d i c) as (Fd & Fx & Fw & U). cbv zeta in *. rewrite <- E in *.
    inversion C; subst d i c; try (right; left; eapply half_done_stuck; eauto; fail).
    - rename H0 into O. destruct (torn_db (g_db G) items d0) as [T|[(T & Sr)|T]].
      + eapply stored_join; eauto. apply A.
      + apply (st_ok _ _ _ S).
      + exact O.
      + subst d0. left. rewrite E. unfold db_text. rewrite (put_same (database_fp g)) by apply S.
        rewrite (put_same (indexes_fp g)) by exact Fi. apply put_same. apply S.
      + subst d0. right. left. eapply half_done_stuck; eauto.
      + right. left. eapply stuck_unreadable; [exact Fd|]. unfold load_json. rewrite T. reflexivity.
    - destruct c0 as [|x c0]; [right; left; apply stuck_no_counter; exact Fw|]. right. right.
      exists {| g_db := g_db G ++ items; g_ix := ix3; g_next := (g_next G + size_all (patterns_of l))%Z |}, (x :: c0).
      cbn [g_db g_ix g_next]. match goal with X : added _ _ true true true _ _ |- _ => destruct X as (A1 & A2 & A3) end.
      split; [|repeat split; auto; try discriminate; apply U].
      constructor; cbn [g_db g_ix g_next]; auto.
      + exists items. split; [apply A|reflexivity].
      + intros k z. rewrite A1. tauto.
      + intros s. rewrite A2. tauto.
      + intros s. rewrite A3. tauto.
  Qed.

  Lemma crash_to_commit l items w' : acceptable (patterns_of l) (g_next G) items ->
    (forall (ns : list node) ms z, crash (commit items ns ms z g) w w') -> crash (make l g) w w'.
  Proof.
    intros A H. destruct (prepared l (g_next G) items A) as (ms & nss & E1 & E2 & R). unfold make.
    eapply crash_bind_r; [apply (stored_counter g G w S)|].
    eapply crash_bind_r; [rewrite run_lift; unfold process_parsed_make_list; fold (patterns_of l); rewrite E1; reflexivity|].
    cbv beta iota. eapply crash_bind_r; [rewrite run_lift, E2; reflexivity|].
    unfold add_nodes_to_graph. rewrite (rd_nodes _ _ _ _ _ R).
    exact (H (concat nss) ms (g_next G + size_all (patterns_of l))%Z).
  Qed.
  (** every first part of the new database can be all that reaches the file *)
  Theorem crash_torn_db l items a b : Forall names_ok (patterns_of l) -> acceptable (patterns_of l) (g_next G) items ->
    db_text (g_db G ++ items) = a ++ b ->
    exists w', crash (make l g) w w' /\ unchanged_but [database_fp g] w w' /\
      file_is (database_fp g) (a ++ skipn (List.length a) (db_text (g_db G))) w'.
  Proof.
    intros N A E. set (u := a ++ skipn (List.length a) (db_text (g_db G))).
    exists (put (database_fp g) u w). split; [|split; [apply unchanged_put|apply put_has]].
    apply (crash_to_commit l items _ A). intros ns ms z. unfold commit. apply crash_bind_l. unfold add_item_to_database.
    pose proof (stored_db g G w S) as DF. pose proof (stored_join D g G w S (patterns_of l) items N (proj2 A)) as V.
    eapply crash_bind_r; [rewrite run_read_json, (db_file_parse _ _ _ DF); reflexivity|].
    eapply crash_bind_r; [rewrite run_lift, db_add_all_new by (apply dict_ok_keys; exact V); reflexivity|].
    apply crash_bind_l. unfold write_json. unfold db_text, dump_text in E. destruct (dump_top Indent4 (VDict (g_db G ++ items))) as [t ok].
    cbn [fst] in E. subst t. apply crash_bind_l. unfold do_unit.
    replace (put (database_fp g) u w) with (snd (exec (CWrite (database_fp g) 0 a) w)).
    - eapply crash_write. reflexivity.
    - pose proof (proj1 DF) as F. unfold has_file, get in F. cbn [exec]. rewrite F. cbn [snd]. unfold put. rewrite write_at_0. reflexivity.
  Qed.
  Theorem crash_can_stick l items : Forall names_ok (patterns_of l) -> patterns_of l <> [] ->
    acceptable (patterns_of l) (g_next G) items -> dict_ser items = true ->
    exists w', crash (make l g) w w' /\ stuck g w' /\ file_is (database_fp g) (db_text (g_db G ++ items)) w'.
  Proof.
    intros N NE A Sr. exists (new_db g G w items). split; [|split; [|apply put_has]].
    - apply (crash_to_commit l items _ A). intros ns ms z. unfold commit.
      pose proof (write_new_db _ _ _ _ (stored_db g G w S) (stored_join D g G w S (patterns_of l) items N (proj2 A))) as R. rewrite Sr in R.
      eapply crash_bind_r; [exact R|]. apply crash_now'.
    - eapply half_done_stuck; eauto; [apply put_has|]. apply has_put_other; [|apply S]. intros E. apply (ne_dw g G w S). auto.
  Qed.
  (** no crash leaves a database that can be read and is neither the old nor the new one *)
  Theorem crash_db l w' d : Forall names_ok (patterns_of l) -> crash (make l g) w w' -> run (read_json (database_fp g)) w' = (Ok d, w') ->
    d = VDict (g_db G) \/ exists items, acceptable (patterns_of l) (g_next G) items /\ dict_ser items = true /\ d = VDict (g_db G ++ items).
  Proof.
    intros N H R. destruct (st_ix _ _ _ S) as (st & Fi). pose proof (stored_db g G w S) as DF.
    destruct (crash_make l w' st N Fi H) as [-> |(items & d0 & i & c & A & C & E)].
    { rewrite run_read_json, (db_file_parse _ _ _ DF) in R. inversion R. auto. }
    destruct (three_files d0 i c) as (Fd & Fx & Fw & U). cbv zeta in *. rewrite <- E in *.
    assert (HN : dict_ser items = true -> d0 = db_text (g_db G ++ items) -> d = VDict (g_db G ++ items)).
    { intros Sr ->. rewrite run_read_json, (db_file_parse _ _ _ (made_db_ok l items N A Sr w' Fd)) in R. inversion R. auto. }
    inversion C; subst d0 i c; try (right; exists items; auto; fail).
    destruct (torn_db (g_db G) items d1) as [T|[(T & Sr)|T]].
    + eapply stored_join; eauto. apply A.
    + apply (st_ok _ _ _ S).
    + assumption.
    + left. subst d1. assert (DF' : db_file_is (database_fp g) (g_db G) w') by (split; [exact Fd|apply DF]).
      rewrite run_read_json, (db_file_parse _ _ _ DF') in R. inversion R. auto.
    + right. exists items. auto.
    + exfalso. assert (L : load_json d1 = Err JSONDecodeError) by (unfold load_json; rewrite T; reflexivity).
      rewrite run_read_json, (parse_res_bad _ d1 w' _ Fd L) in R. discriminate.
  Qed.
End Crash.
