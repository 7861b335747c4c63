(** * MakeRun: running MAKE on the files of a graph *)
From Verif Require Import PyBase BaseFacts Json JsonFacts RtLaws Props PropsFacts Checks Statements Data FS FSFacts Store
  SpecStore StoreFacts Make SpecMake MakeFacts.
From Coq Require Import ZifyBool ZifyN ZifyNat.

Section Run.
  Context {rt : PyRt}.

  (** the writing half *)
  Definition commit (items : list (pystr * pyval)) (ns : list node) (ms : list make_pre) (w' : Z) (g : gdbms) : io bool :=
    let! _ := add_item_to_database (database_fp g) items in
    let! _ := add_indexes ns ms g in
    let! _ := update_wiggle_number (wiggle_number_fp g) w' in
    Ret true.

  Lemma run_make_ready l g w z ms nss items :
    run (get_current_wiggle_number (wiggle_number_fp g)) w = (Ok z, w) ->
    process_patterns (patterns_of l) z = Ok ((z + size_all (patterns_of l))%Z, ms) -> mapM make_nodes ms = Ok nss ->
    ready (patterns_of l) z ms (concat nss) items ->
    run (make l g) w = run (commit items (concat nss) ms (z + size_all (patterns_of l))%Z g) w.
  Proof.
    intros Hz E1 E2 R. unfold make. rewrite run_bind, Hz. rewrite run_bind, run_lift.
    unfold process_parsed_make_list. fold (patterns_of l). rewrite E1. rewrite run_bind, run_lift, E2.
    unfold commit, add_nodes_to_graph. rewrite (rd_nodes _ _ _ _ _ R). reflexivity.
  Qed.
  Lemma run_make_not_ready l g w z :
    run (get_current_wiggle_number (wiggle_number_fp g)) w = (Ok z, w) ->
    (~ exists items, acceptable (patterns_of l) z items) ->
    exists e, run (make l g) w = (Err e, w).
  Proof.
    intros Hz N. destruct (prepare_spec (patterns_of l) z) as [(ms & nss & items & _ & _ & R)|(_ & H)].
    { exfalso. apply N. exists items. split; apply R. }
    unfold make. rewrite run_bind, Hz. rewrite run_bind, run_lift.
    unfold process_parsed_make_list. fold (patterns_of l).
    destruct H as [(e & ->)|(ms & e & -> & E)]; [eauto|].
    rewrite run_bind, run_lift, E. eauto.
  Qed.
  Lemma prepared l z items : acceptable (patterns_of l) z items ->
    exists ms nss, process_patterns (patterns_of l) z = Ok ((z + size_all (patterns_of l))%Z, ms) /\
      mapM make_nodes ms = Ok nss /\ ready (patterns_of l) z ms (concat nss) items.
  Proof.
    intros A. destruct (prepare_spec (patterns_of l) z) as [(ms & nss & items' & E1 & E2 & R)|(N & _)].
    - exists ms, nss. split; [exact E1|]. split; [exact E2|]. replace items with items'; [assumption|].
      eapply entries_all_fun; [apply R|apply A].
    - exfalso. apply N. exists items. exact A.
  Qed.

  (** reading the counter never changes anything *)
  Lemma run_get_wn_any p w : exists r, run (get_current_wiggle_number p) w = (r, w).
  Proof.
    unfold get_current_wiggle_number. rewrite run_bind, run_read.
    destruct (read_res (get p w)) as [[|c t]|e]; [eexists; reflexivity| |eexists; reflexivity].
    rewrite run_lift. eauto.
  Qed.

  (** ** C21: refusals, from any file state *)
  Theorem make_no_counter l g w e : run (get_current_wiggle_number (wiggle_number_fp g)) w = (Err e, w) ->
    run (make l g) w = (Err e, w).
  Proof. intros H. unfold make. rewrite run_bind, H. reflexivity. Qed.
  Theorem make_unreadable_db l g w e : run (read_json (database_fp g)) w = (Err e, w) ->
    exists e', run (make l g) w = (Err e', w).
  Proof.
    intros H. destruct (run_get_wn_any (wiggle_number_fp g) w) as ([z|e'] & Hz); [|exists e'; apply make_no_counter; assumption].
    destruct (prepare_spec (patterns_of l) z) as [(ms & nss & items & E1 & E2 & R)|(N & _)].
    - rewrite (run_make_ready l g w z ms nss items Hz E1 E2 R). unfold commit. rewrite run_bind.
      unfold add_item_to_database. rewrite run_bind, H. eauto.
    - eapply run_make_not_ready; eauto.
  Qed.
  Theorem make_taken l g w z d items k : run (get_current_wiggle_number (wiggle_number_fp g)) w = (Ok z, w) ->
    run (read_json (database_fp g)) w = (Ok (VDict d), w) ->
    acceptable (patterns_of l) z items -> In k (keys items) -> In k (keys d) ->
    run (make l g) w = (Err NodeExistsError, w).
  Proof.
    intros Hz Hd A Hi Hk. destruct (prepared l z items A) as (ms & nss & E1 & E2 & R).
    rewrite (run_make_ready l g w z ms nss items Hz E1 E2 R). unfold commit. rewrite run_bind.
    unfold add_item_to_database. rewrite run_bind, Hd. rewrite run_bind, run_lift.
    rewrite (db_add_all_exists items d k Hi Hk). reflexivity.
  Qed.

  (** an exception that only [db_add] raises *)
  Lemma io_bind_assoc {A B C} (m : io A) (f : A -> io B) (h : B -> io C) w :
    run (io_bind (io_bind m f) h) w = run (io_bind m (fun a => io_bind (f a) h)) w.
  Proof. rewrite !run_bind. destruct (run m w) as [[a|e] w1]; [rewrite run_bind; reflexivity|reflexivity]. Qed.

  (** ** on a well-formed graph *)
  Context (D : rt_data rt).
  Context (g : gdbms) (G : graph) (w : world) (S : stored g G w).

  Lemma stored_counter : run (get_current_wiggle_number (wiggle_number_fp g)) w = (Ok (g_next G), w).
  Proof. apply run_get_wn. apply S. Qed.
  Lemma stored_db : db_file_is (database_fp g) (g_db G) w.
  Proof. split; [apply S|]. split; apply (st_ok _ _ _ S). Qed.
  Lemma stored_ix : ix_file_is (indexes_fp g) (g_ix G) w.
  Proof. split; [apply (st_ok _ _ _ S)|apply S]. Qed.

  Lemma stored_join ps items : Forall names_ok ps -> entries_all ps (g_next G) items -> dict_ok (g_db G ++ items).
  Proof.
    intros N E. apply dict_ok_join; [apply (st_ok _ _ _ S)|eapply entries_all_ok; eauto|].
    intros k Hi Hd. destruct (entries_all_keys ps _ items E) as [_ K]. destruct (K k Hi) as (z & -> & Hz).
    destruct (g_below _ (st_ok _ _ _ S) _ Hd) as (z' & E' & Hz'). apply str_of_Z_inj in E'. lia.
  Qed.

  Theorem make_refused l : (~ exists items, acceptable (patterns_of l) (g_next G) items) ->
    exists e, run (make l g) w = (Err e, w).
  Proof. apply run_make_not_ready. apply stored_counter. Qed.

  Definition new_db (items : list (pystr * pyval)) : world :=
    put (database_fp g) (dump_text Indent4 (VDict (g_db G ++ items))) w.

  Lemma run_commit items ps ns ms w' : Forall names_ok ps -> entries_all ps (g_next G) items ->
    run (commit items ns ms w' g) w =
    if dict_ser items
    then run (let! _ := add_indexes ns ms g in let! _ := update_wiggle_number (wiggle_number_fp g) w' in Ret true) (new_db items)
    else (Err TypeError, new_db items).
  Proof.
    intros N E. unfold commit. rewrite run_bind.
    rewrite (write_new_db _ _ _ _ stored_db (stored_join ps items N E)). fold (new_db items).
    destruct (dict_ser items); reflexivity.
  Qed.

  (** C27 *)
  Theorem make_unwritable l items : Forall names_ok (patterns_of l) -> acceptable (patterns_of l) (g_next G) items ->
    dict_ser items = false ->
    exists w', run (make l g) w = (Err TypeError, w') /\ unchanged_but [database_fp g] w w' /\
      run (read_json (database_fp g)) w' = (Err JSONDecodeError, w') /\
      run (load_database (database_fp g)) w' = (Ok (VDict []), w').
  Proof.
    intros N A Sr. destruct (prepared l (g_next G) items A) as (ms & nss & E1 & E2 & R).
    exists (new_db items). rewrite (run_make_ready l g w _ ms nss items stored_counter E1 E2 R).
    rewrite (run_commit items (patterns_of l) _ _ _ N (proj2 A)), Sr. split; [reflexivity|].
    split; [apply unchanged_put|].
    destruct (add_item_bad _ _ _ _ stored_db (stored_join _ items N (proj2 A)) Sr) as (w' & _ & -> & P & L).
    split; [|exact L]. rewrite run_read_json. fold (new_db items) in P. rewrite P. reflexivity.
  Qed.

  Lemma ne_di : database_fp g <> indexes_fp g. Proof. apply (st_files _ _ _ S). Qed.
  Lemma ne_dw : database_fp g <> wiggle_number_fp g. Proof. apply (st_files _ _ _ S). Qed.
  Lemma ne_iw : indexes_fp g <> wiggle_number_fp g. Proof. apply (st_files _ _ _ S). Qed.

  Lemma has_put_other p q t u v : p <> q -> has_file p t v -> has_file p t (put q u v).
  Proof. intros N H. unfold has_file. rewrite get_put_other; auto. Qed.
  Lemma ix_put_other p q ix u v : p <> q -> ix_file_is p ix v -> ix_file_is p ix (put q u v).
  Proof. intros N (H & st & F). split; [assumption|]. exists st. apply has_put_other; auto. Qed.

  (** C23: the state after the failure *)
  Definition half_made (items : list (pystr * pyval)) (st : style) : world :=
    put (indexes_fp g) (dump_text st (index_val (g_ix G)) ++ dump_text Indent4 (index_val (g_ix G))) (new_db items).
  Theorem make_no_owner l items st : Forall names_ok (patterns_of l) -> acceptable (patterns_of l) (g_next G) items ->
    dict_ser items = true -> (forall k z, ~ owns (patterns_of l) (g_next G) k z) ->
    has_file (indexes_fp g) (dump_text st (index_val (g_ix G))) w ->
    run (make l g) w = (Err JSONDecodeError, half_made items st).
  Proof.
    intros N A Sr O F. destruct (prepared l (g_next G) items A) as (ms & nss & E1 & E2 & R).
    rewrite (run_make_ready l g w _ ms nss items stored_counter E1 E2 R).
    rewrite (run_commit items (patterns_of l) _ _ _ N (proj2 A)), Sr.
    rewrite run_bind. unfold add_indexes. rewrite (proj2 (rd_none _ _ _ _ _ R) O).
    assert (IO : index_ok (g_ix G)) by apply (st_ok _ _ _ S).
    assert (F' : has_file (indexes_fp g) (dump_text st (index_val (g_ix G))) (new_db items)).
    { apply has_put_other; [|assumption]. intros E. apply ne_di. auto. }
    rewrite run_bind, (run_add_rels_none _ _ st _ IO F'). unfold half_made.
    rewrite run_bind.
    assert (B : load_json (dump_text st (index_val (g_ix G)) ++ dump_text Indent4 (index_val (g_ix G))) = Err JSONDecodeError).
    { pose proof (doubled_index st Indent4 (g_ix G) [] IO) as B. rewrite app_nil_r in B. exact B. }
    rewrite (run_add_labels_bad _ _ _ _ (put_has _ _ _) B). reflexivity.
  Qed.

  (** C22 *)
  Lemma names_str_ok ps s : Forall names_ok ps -> label_drawn ps s \/ name_drawn ps s -> str_ok s.
  Proof.
    intros N [(p & x & Hp & Hx & E)|(p & l & Hp & Hl & E & _)]; rewrite Forall_forall in N; apply (N p Hp) in E; auto.
    - apply in_map_iff in Hx as ([n y] & <- & Hy). cbn [snd]. unfold drawn_nodes in Hy. destruct Hy as [Hy|Hy]; [inv Hy; cbn; tauto|].
      apply in_app_iff in Hy as [Hy|Hy].
      + destruct (drawn (middle_node p)); [|destruct Hy]. destruct Hy as [Hy|[]]. inv Hy. cbn; tauto.
      + destruct (drawn (right_node p)); [|destruct Hy]. destruct Hy as [Hy|[]]. inv Hy. cbn; tauto.
    - eapply links_pieces; eauto.
  Qed.

  Theorem make_succeeds l items : Forall names_ok (patterns_of l) -> acceptable (patterns_of l) (g_next G) items ->
    dict_ser items = true -> (exists k z, owns (patterns_of l) (g_next G) k z) ->
    exists G' w', run (make l g) w = (Ok true, w') /\ made (patterns_of l) G G' /\ stored g G' w' /\
      w' = put (wiggle_number_fp g) (str_of_Z (g_next G')) (put (indexes_fp g) (dump_text Indent4 (index_val (g_ix G'))) (new_db items)) /\
      g_db G' = g_db G ++ items.
  Proof.
    intros N A Sr O. destruct (prepared l (g_next G) items A) as (ms & nss & E1 & E2 & R).
    rewrite (run_make_ready l g w _ ms nss items stored_counter E1 E2 R).
    rewrite (run_commit items (patterns_of l) _ _ _ N (proj2 A)), Sr.
    set (ps := patterns_of l) in *.
    assert (RI : rel_index_items (concat nss) <> []).
    { intros E. destruct O as (k & z & O). exact (proj1 (rd_none _ _ _ _ _ R) E k z O). }
    assert (IX : ix_file_is (indexes_fp g) (g_ix G) (new_db items)).
    { apply ix_put_other; [|apply stored_ix]. intros E. apply ne_di. auto. }
    destruct (rel_add_all_ok (rel_index_items (concat nss)) (ix_rels (g_ix G)) (rt_base _ D) (rd_rels_ok _ _ _ _ _ R) (rels_ok_index _ (proj1 IX)))
      as [RO RM].
    set (rels := rel_add_all (rel_index_items (concat nss)) (ix_rels (g_ix G))) in *.
    assert (IX1 : ix_file_is (indexes_fp g) (with_rels (g_ix G) rels)
                    (put (indexes_fp g) (dump_text Indent4 (index_val (with_rels (g_ix G) rels))) (new_db items))).
    { split; [|exists Indent4; apply put_has]. destruct (proj1 IX). destruct RO as (? & ? & ?). constructor; assumption. }
    assert (LO : Forall str_ok (labels_to_add ms)).
    { apply Forall_forall. intros s Hs. apply (rd_labels _ _ _ _ _ R) in Hs. eapply names_str_ok; eauto. }
    assert (NO : Forall str_ok (names_to_add ms)).
    { apply Forall_forall. intros s Hs. apply (rd_names _ _ _ _ _ R) in Hs. eapply names_str_ok; eauto. }
    destruct (run_add_labels _ _ _ _ (rt_base _ D) LO IX1) as (ls & EL & NL & OL & ML).
    rewrite put_put in EL.
    assert (IX2 : ix_file_is (indexes_fp g) (with_labels (with_rels (g_ix G) rels) ls)
                    (put (indexes_fp g) (dump_text Indent4 (index_val (with_labels (with_rels (g_ix G) rels) ls))) (new_db items))).
    { split; [|exists Indent4; apply put_has]. destruct (proj1 IX1). constructor; assumption. }
    destruct (run_add_names _ _ _ _ (rt_base _ D) NO IX2) as (na & EN & NN & ON & MN).
    rewrite put_put in EN.
    set (ix' := with_names (with_labels (with_rels (g_ix G) rels) ls) na) in *.
    assert (IO' : index_ok ix').
    { destruct (proj1 IX2). constructor; assumption. }
    exists {| g_db := g_db G ++ items; g_ix := ix'; g_next := (g_next G + size_all ps)%Z |}.
    eexists. split; [|split; [|split; [|split; [reflexivity|reflexivity]]]].
    - cbn [g_next g_ix]. rewrite run_bind. unfold add_indexes. rewrite run_bind.
      rewrite (run_add_rels _ _ _ _ (rt_base _ D) (rd_rels_ok _ _ _ _ _ R) RI IX). fold rels.
      rewrite run_bind, EL. rewrite run_bind, EN. cbn [run].
      rewrite run_bind.
      rewrite (run_update_wn _ _ (str_of_Z (g_next G))); [reflexivity|].
      apply has_put_other; [|apply has_put_other; [|apply S]]; intros E; [apply ne_iw|apply ne_dw]; auto.
    - constructor; cbn [g_db g_ix g_next].
      + exists items. split; [apply A|reflexivity].
      + intros k z. change (ix_rels ix') with rels. rewrite RM. rewrite (rd_rels _ _ _ _ _ R). reflexivity.
      + intros s. change (ix_labels ix') with ls. rewrite ML. rewrite (rd_labels _ _ _ _ _ R). reflexivity.
      + intros s. change (ix_names ix') with na. rewrite MN. rewrite (rd_names _ _ _ _ _ R). reflexivity.
      + reflexivity.
    - constructor; cbn [g_db g_ix g_next].
      + apply S.
      + constructor; cbn [g_db g_ix g_next].
        * eapply stored_join; [exact N|apply A].
        * unfold dict_ser. rewrite forallb_app. fold (dict_ser (g_db G)) (dict_ser items). rewrite Sr, (g_db_ser _ (st_ok _ _ _ S)). reflexivity.
        * assumption.
        * intros k. rewrite keys_app, in_app_iff. pose proof (size_all_pos ps). intros [K|K].
          -- destruct (g_below _ (st_ok _ _ _ S) k K) as (z & -> & Hz). exists z. split; [reflexivity|lia].
          -- destruct (entries_all_keys ps _ items (proj2 A)) as [_ K']. destruct (K' k K) as (z & -> & Hz). exists z. split; [reflexivity|lia].
      + apply has_put_other; [apply ne_dw|]. apply has_put_other; [apply ne_di|]. apply put_has.
      + exists Indent4. apply has_put_other; [apply ne_iw|]. apply put_has.
      + apply put_has.
  Qed.

  Lemma owns_dec ps z : (exists k n, owns ps z k n) \/ (forall k n, ~ owns ps z k n).
  Proof.
    revert z; induction ps as [|p ps IH]; intros z; [right; intros k n []|]. cbn [owns].
    destruct (IH (z + size p)%Z) as [(k & n & H)|H]; [left; eauto|].
    assert (HP : (exists n x l, In (n, x) (stored_nodes p z) /\ In l (owned p z n)) \/
                 (forall n x, In (n, x) (stored_nodes p z) -> owned p z n = [])).
    { generalize (stored_nodes p z). intros ns. induction ns as [|[n x] ns IHn]; [right; intros n x []|].
      destruct IHn as [(n' & x' & l & A & B)|IHn]; [left; exists n', x', l; split; [right|]; assumption|].
      destruct (owned p z n) as [|l r] eqn:E; [right|left; exists n, x, l; split; [left; reflexivity|rewrite E; left; reflexivity]].
      intros n' x' [A|A]; [inv A; assumption|eauto]. }
    destruct HP as [(n & x & l & A & B)|HP].
    - left. exists (str_of_Z n), (lk_num l). left. exists n, x, l. auto.
    - right. intros k n [(m & x & l & A & _ & B & _)|O]; [rewrite (HP m x A) in B; destruct B|eapply H; eauto].
  Qed.

  (** the four outcomes *)
  Theorem make_cases l : Forall names_ok (patterns_of l) ->
    ((~ exists items, acceptable (patterns_of l) (g_next G) items) /\ exists e, run (make l g) w = (Err e, w)) \/
    (exists items, acceptable (patterns_of l) (g_next G) items /\ dict_ser items = false /\
       run (make l g) w = (Err TypeError, new_db items)) \/
    (exists items st, acceptable (patterns_of l) (g_next G) items /\ dict_ser items = true /\
       (forall k z, ~ owns (patterns_of l) (g_next G) k z) /\
       has_file (indexes_fp g) (dump_text st (index_val (g_ix G))) w /\
       run (make l g) w = (Err JSONDecodeError, half_made items st)) \/
    (exists items G' w', acceptable (patterns_of l) (g_next G) items /\ dict_ser items = true /\
       (exists k z, owns (patterns_of l) (g_next G) k z) /\
       run (make l g) w = (Ok true, w') /\ made (patterns_of l) G G' /\ stored g G' w' /\
       w' = put (wiggle_number_fp g) (str_of_Z (g_next G')) (put (indexes_fp g) (dump_text Indent4 (index_val (g_ix G'))) (new_db items)) /\
       g_db G' = g_db G ++ items).
  Proof.
    intros N. destruct (prepare_spec (patterns_of l) (g_next G)) as [(ms & nss & items & E1 & E2 & R)|(NA & _)].
    2:{ left. split; [exact NA|]. apply make_refused. exact NA. }
    assert (A : acceptable (patterns_of l) (g_next G) items) by (split; apply R). right.
    destruct (dict_ser items) eqn:Sr.
    - right. destruct (owns_dec (patterns_of l) (g_next G)) as [O|O].
      + right. destruct (make_succeeds l items N A Sr O) as (G' & w' & H1 & H2 & H3 & H4 & H5).
        exists items, G', w'. auto 10.
      + left. destruct (st_ix _ _ _ S) as (st & F). exists items, st. repeat split; try apply A; auto.
        apply make_no_owner; auto.
    - left. exists items. split; [exact A|]. split; [exact Sr|].
      rewrite (run_make_ready l g w _ ms nss items stored_counter E1 E2 R).
      rewrite (run_commit items (patterns_of l) _ _ _ N (proj2 A)), Sr. reflexivity.
  Qed.
End Run.
