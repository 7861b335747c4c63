(** * StoreFacts: what the storage functions do *)
From Verif Require Import PyBase BaseFacts Json JsonFacts FS FSFacts Store SpecStore.
From Coq Require Import ZifyBool ZifyN ZifyNat.

Section Decimal.
  Context {rt : PyRt}.
  Lemma is_space_digit c : is_digit0 c = true -> is_space c = false.
  Proof. unfold is_space, is_digit0, between, is_ascii. intros H. replace (N.ltb c 128) with true by lia. unfold is_space0, between. lia. Qed.
  Lemma digits_us_spec prev s acc : Forall (fun c => is_digit0 c = true) s -> (s <> [] \/ prev = true) ->
    digits_us prev s acc = Some (fold_left (fun n c => (n * 10 + (c - 48))%N) s acc).
  Proof.
    intros H; revert prev acc; induction H as [|c s Hc H IH]; intros prev acc Hp.
    - destruct Hp as [Hp| ->]; [congruence|reflexivity].
    - cbn [digits_us fold_left]. rewrite Hc. apply IH. auto.
  Qed.
  Lemma lstrip_head p (s : pystr) : match s with [] => True | c :: _ => p c = false end -> lstrip p s = s.
  Proof. destruct s as [|c s]; auto. simpl. intros ->. reflexivity. Qed.
  Lemma strip_ends p s a b : (match s with [] => True | c :: _ => p c = false end) -> s = a ++ [b] -> p b = false -> strip p s = s.
  Proof.
    intros H E Hb. unfold strip, rstrip. rewrite (lstrip_head p s H), E, rev_app_distr. cbn [rev app lstrip].
    rewrite Hb. cbn [rev]. rewrite rev_involutive. reflexivity.
  Qed.
  Lemma c_space_digit c : is_digit0 c = true -> is_c_space c = false.
  Proof. unfold is_digit0, is_c_space, between. lia. Qed.
  Lemma py_int_str_of_Z z : py_int (str_of_Z z) = Ok z.
  Proof.
    assert (Hn : forall n, forallb is_ascii (str_of_N n) = true /\ exists a b, str_of_N n = a ++ [b] /\ is_digit0 b = true).
    { intros n. destruct (str_of_N_spec n) as (Hne & HF & _ & _). split.
      - apply forallb_forall. intros c Hc. rewrite Forall_forall in HF. specialize (HF c Hc).
        unfold is_digit0, between, is_ascii in *. lia.
      - destruct (exists_last Hne) as (a & b & E). exists a, b. split; auto. rewrite E in HF.
        apply Forall_app in HF as [_ HF]. inv HF. auto. }
    unfold py_int. destruct z as [|p|p]; cbn [str_of_Z].
    - reflexivity.
    - destruct (Hn (N.pos p)) as (Ha & a & b & E & Hb). rewrite Ha.
      destruct (str_of_N_spec (N.pos p)) as (Hne & HF & HN & [[? _]|(_ & c & r & Ec & Hc)]); [discriminate|].
      rewrite (strip_ends is_c_space _ a b).
      2:{ rewrite Ec. apply c_space_digit. unfold is_digit0, between in *. lia. }
      2: exact E. 2: apply c_space_digit; auto.
      rewrite digits_us_spec by auto. fold (N_of_digits (str_of_N (N.pos p))). rewrite HN.
      rewrite Ec. unfold between in Hc. replace (N.eqb c 45) with false by lia. replace (N.eqb c 43) with false by lia. reflexivity.
    - destruct (Hn (N.pos p)) as (Ha & a & b & E & Hb).
      replace (forallb is_ascii (45%N :: str_of_N (N.pos p))) with true by (cbn [forallb]; rewrite Ha; reflexivity).
      destruct (str_of_N_spec (N.pos p)) as (Hne & HF & HN & _).
      rewrite (strip_ends is_c_space _ (45%N :: a) b).
      2: reflexivity. 2: rewrite E; reflexivity. 2: apply c_space_digit; auto.
      change (N.eqb 45 45) with true. cbv iota. rewrite digits_us_spec by auto. fold (N_of_digits (str_of_N (N.pos p))). rewrite HN.
      reflexivity.
  Qed.
  Lemma str_of_Z_inj a b : str_of_Z a = str_of_Z b -> a = b.
  Proof. intros H. pose proof (py_int_str_of_Z a) as Ha. rewrite H, py_int_str_of_Z in Ha. congruence. Qed.
  Lemma str_of_Z_ne z : str_of_Z z <> [].
  Proof. destruct z; try discriminate. apply (str_of_N_spec (N.pos p)). Qed.
  Lemma str_of_Z_ascii z : forallb is_ascii (str_of_Z z) = true.
  Proof.
    assert (H : forall n, forallb is_ascii (str_of_N n) = true).
    { intros n. destruct (str_of_N_spec n) as (_ & HF & _). apply forallb_forall. intros c Hc.
      rewrite Forall_forall in HF. specialize (HF c Hc). unfold is_digit0, between, is_ascii in *. lia. }
    destruct z; cbn [str_of_Z forallb]; auto. rewrite H. reflexivity.
  Qed.
  Lemma ascii_str_ok s : forallb is_ascii s = true -> str_ok s.
  Proof.
    rewrite forallb_forall. intros H. apply Forall_forall. intros c Hc. specialize (H c Hc).
    unfold is_ascii, ch_ok, is_high, between in *. lia.
  Qed.
  Lemma str_of_Z_ok z : str_ok (str_of_Z z).
  Proof. apply ascii_str_ok, str_of_Z_ascii. Qed.
End Decimal.

Section StoreFacts.
  Context {rt : PyRt}.

  Definition parse_res (e : option entry) : res pyval := let? t := read_res e in load_json t.
  Lemma run_read_json p w : run (read_json p) w = (parse_res (get p w), w).
  Proof.
    unfold read_json. rewrite run_bind, run_read. unfold parse_res. destruct (read_res (get p w)); cbn [bind]; auto.
    apply run_lift.
  Qed.
  Lemma parse_res_file p t w v : has_file p t w -> load_json t = Ok v -> parse_res (get p w) = Ok v.
  Proof. unfold has_file. intros -> H. exact H. Qed.
  Lemma parse_res_bad p t w e : has_file p t w -> load_json t = Err e -> parse_res (get p w) = Err e.
  Proof. unfold has_file. intros -> H. exact H. Qed.

  Lemma run_write_json p off v t w : has_file p t w ->
    run (write_json p off v) w =
    (if snd (dump_top Indent4 v) then Ok (off + List.length (dump_text Indent4 v)) else Err TypeError,
     put p (write_at t off (dump_text Indent4 v)) w).
  Proof.
    intros F. unfold write_json, dump_text. destruct (dump_top Indent4 v) as [s ok]. cbn [fst snd].
    rewrite run_bind, (run_write p off s t w F). destruct ok; reflexivity.
  Qed.
  Lemma put_has p t w : has_file p t (put p t w).
  Proof. unfold has_file. apply get_put_same. Qed.

  Lemma load_json_dump st v : val_ok v -> ser v = true -> load_json (dump_text st v) = Ok v.
  Proof. intros. unfold load_json. rewrite loads_dump; auto. Qed.

  (** ** the database *)
  Lemma db_add_all_exists items d k : In k (keys items) -> In k (keys d) -> db_add_all items (VDict d) = Err NodeExistsError.
  Proof.
    revert d; induction items as [|[k' v] items IH]; intros d Hi Hd; [destruct Hi|].
    cbn [db_add_all db_add]. destruct (d_mem k' d) eqn:E; [reflexivity|]. cbn [bind].
    apply d_mem_false in E. simpl in Hi. destruct Hi as [->|Hi]; [contradiction|].
    apply IH; auto. apply d_set_keys_in. auto.
  Qed.
  Lemma db_add_all_new items d : NoDup (keys (d ++ items)) -> db_add_all items (VDict d) = Ok (VDict (d ++ items)).
  Proof.
    revert d; induction items as [|[k v] items IH]; intros d H; cbn [db_add_all db_add].
    - rewrite app_nil_r. reflexivity.
    - assert (Hk : ~ In k (keys d)).
      { rewrite keys_app in H. apply NoDup_app_inv in H as (_ & _ & H). intros Hin. apply (H k Hin). left. reflexivity. }
      rewrite (proj2 (d_mem_false k d) Hk). cbn [bind]. rewrite d_set_new by auto.
      replace (d ++ (k, v) :: items) with ((d ++ [(k, v)]) ++ items) in * by (rewrite <- app_assoc; reflexivity).
      apply IH; auto.
  Qed.

  Definition exec_add (p : path) (items : list (pystr * pyval)) (w : world) : res bool * world :=
    match parse_res (get p w) with
    | Err e => (Err e, w)
    | Ok db => match db_add_all items db with
               | Err e => (Err e, w)
               | Ok db' =>
                   (if snd (dump_top Indent4 db') then Ok true else Err TypeError,
                    match get p w with
                    | Some (EFile t) => put p (write_at t 0 (dump_text Indent4 db')) w
                    | _ => w
                    end)
               end
    end.
  Lemma run_add_item p items w : run (add_item_to_database p items) w = exec_add p items w.
  Proof.
    unfold add_item_to_database, exec_add. rewrite run_bind, run_read_json.
    destruct (parse_res (get p w)) as [db|e] eqn:E; [|reflexivity].
    rewrite run_bind, run_lift. destruct (db_add_all items db) as [db'|e]; [|reflexivity].
    unfold parse_res, read_res in E. destruct (get p w) as [[|t]|] eqn:G; try discriminate.
    rewrite run_bind, (run_write_json p 0 db' t w G). destruct (snd (dump_top Indent4 db')); reflexivity.
  Qed.

  (** the database file holds [d], as the program writes it *)
  Definition db_file_is (p : path) (d : list (pystr * pyval)) (w : world) : Prop :=
    has_file p (dump_text Indent4 (VDict d)) w /\ dict_ok d /\ dict_ser d = true.
  Lemma db_file_parse p d w : db_file_is p d w -> parse_res (get p w) = Ok (VDict d).
  Proof. intros (F & V & S). eapply parse_res_file; eauto. apply load_json_dump; auto. Qed.

  Theorem add_item_exists p d items w k : db_file_is p d w -> In k (keys items) -> In k (keys d) ->
    run (add_item_to_database p items) w = (Err NodeExistsError, w).
  Proof.
    intros H Hi Hd. rewrite run_add_item. unfold exec_add. rewrite (db_file_parse p d w H), (db_add_all_exists items d k Hi Hd). reflexivity.
  Qed.
  Lemma write_new_db p d items w : db_file_is p d w -> dict_ok (d ++ items) ->
    run (add_item_to_database p items) w =
    (if dict_ser items then Ok true else Err TypeError, put p (dump_text Indent4 (VDict (d ++ items))) w).
  Proof.
    intros H V. rewrite run_add_item. unfold exec_add. rewrite (db_file_parse p d w H).
    rewrite db_add_all_new by (apply dict_ok_keys; auto).
    destruct H as (F & Vd & Sd). unfold has_file in F. rewrite F.
    rewrite dump_ser by auto. f_equal.
    - cbn [ser]. rewrite forallb_app. unfold dict_ser in *. rewrite Sd. cbn [andb].
      destruct (forallb _ items); reflexivity.
    - rewrite write_at_0_long; auto. apply dump_length_mono; auto.
  Qed.
  Theorem add_item_new p d items w : db_file_is p d w -> dict_ok (d ++ items) -> dict_ser items = true ->
    run (add_item_to_database p items) w = (Ok true, put p (dump_text Indent4 (VDict (d ++ items))) w) /\
    db_file_is p (d ++ items) (put p (dump_text Indent4 (VDict (d ++ items))) w).
  Proof.
    intros H V S. rewrite (write_new_db p d items w H V), S. split; auto.
    split; [apply put_has|]. split; auto. destruct H as (_ & _ & Sd). unfold dict_ser in *. rewrite forallb_app, Sd, S. reflexivity.
  Qed.
  (** a value that json refuses *)
  Theorem add_item_bad p d items w : db_file_is p d w -> dict_ok (d ++ items) -> dict_ser items = false ->
    exists w', run (add_item_to_database p items) w = (Err TypeError, w') /\
      w' = put p (dump_text Indent4 (VDict (d ++ items))) w /\
      parse_res (get p w') = Err JSONDecodeError /\ run (load_database p) w' = (Ok (VDict []), w').
  Proof.
    intros H V S. rewrite (write_new_db p d items w H V), S. eexists. split; [reflexivity|]. split; [reflexivity|].
    set (w' := put p _ w).
    assert (E : parse_res (get p w') = Err JSONDecodeError).
    { eapply parse_res_bad; [apply put_has|]. unfold load_json. rewrite loads_bad; auto.
      cbn [ser]. rewrite forallb_app. unfold dict_ser in *. rewrite S. apply andb_false_r. }
    split; auto. unfold load_database. rewrite run_catch, run_read_json, E. reflexivity.
  Qed.
  Theorem load_database_ok p d w : db_file_is p d w -> run (load_database p) w = (Ok (VDict d), w).
  Proof. intros H. unfold load_database. rewrite run_catch, run_read_json, (db_file_parse p d w H). reflexivity. Qed.
  Theorem wipe_database_sure p t w : has_file p t w ->
    run (wipe_database p true) w = (Ok (Some true), put p (py "{}") w).
  Proof.
    intros F. unfold wipe_database. rewrite run_bind, (run_create p t w F).
    rewrite run_bind, (run_write_json p 0 (VDict []) [] _ (put_has p [] w)). cbn [snd dump_top dump text].
    rewrite run_bind, (run_trunc p _ _ _ (put_has p _ _)). rewrite !put_put.
    change 0 with (List.length (@nil N)) at 1. cbn [run]. reflexivity.
  Qed.

  (** ** the counter *)
  Lemma run_get_wn p z w : has_file p (str_of_Z z) w -> run (get_current_wiggle_number p) w = (Ok z, w).
  Proof.
    intros F. unfold get_current_wiggle_number. rewrite run_bind, run_read. unfold has_file in F. rewrite F. cbn [read_res].
    pose proof (str_of_Z_ne z). destruct (str_of_Z z) eqn:E; [congruence|]. rewrite <- E, py_int_str_of_Z. reflexivity.
  Qed.
  Lemma run_get_wn_empty p w : has_file p [] w -> run (get_current_wiggle_number p) w = (Err PlainException, w).
  Proof.
    intros F. unfold get_current_wiggle_number. rewrite run_bind, run_read. unfold has_file in F. rewrite F. reflexivity.
  Qed.
  Lemma run_update_wn p z t w : has_file p t w -> run (update_wiggle_number p z) w = (Ok z, put p (str_of_Z z) w).
  Proof.
    intros F. unfold update_wiggle_number. rewrite run_bind, (run_create p t w F).
    rewrite run_bind, (run_write p 0 _ [] _ (put_has p [] w)). rewrite put_put. cbn [run].
    rewrite write_at_0_long by (simpl; lia). reflexivity.
  Qed.

  (** ** indexes *)
  Lemma strs_of_map l : strs_of (map VStr l) = Some l.
  Proof. induction l as [|s l IH]; cbn [map strs_of]; [reflexivity|]. rewrite IH. reflexivity. Qed.
  Lemma ints_of_map l : ints_of (map VInt l) = Some l.
  Proof. induction l as [|s l IH]; cbn [map ints_of]; [reflexivity|]. rewrite IH. reflexivity. Qed.
  Lemma set_val_strs l : set_val (strs_val l) = Ok (map VStr l).
  Proof.
    unfold set_val, strs_val. cbn [iter_val bind]. replace (forallb hashable (map VStr l)) with true; [reflexivity|].
    induction l; cbn [map forallb hashable]; auto.
  Qed.
  Lemma set_val_ints l : set_val (VList (map VInt l)) = Ok (map VInt l).
  Proof.
    unfold set_val. cbn [iter_val bind]. replace (forallb hashable (map VInt l)) with true; [reflexivity|].
    induction l; cbn [map forallb hashable]; auto.
  Qed.
  Lemma str_union_val l items : str_union (strs_val l) items = Ok (map VStr (set_order (s_union (s_of_list l) items))).
  Proof. unfold str_union. rewrite set_val_strs. cbn [bind]. rewrite strs_of_map. reflexivity. Qed.
  Lemma int_union_val l items : int_union (VList (map VInt l)) items = Ok (map VInt (zset_order (z_union (z_of_list l) items))).
  Proof. unfold int_union. rewrite set_val_ints. cbn [bind]. rewrite ints_of_map. reflexivity. Qed.
  Lemma str_set_val l : str_set (strs_val l) = Ok (s_of_list l).
  Proof.
    unfold str_set. rewrite set_val_strs. cbn [bind]. do 2 f_equal.
    induction l as [|x l IH]; cbn [map flat_map app]; congruence.
  Qed.
  Lemma int_set_val l : int_set (VList (map VInt l)) = Ok (z_of_list l).
  Proof.
    unfold int_set. rewrite set_val_ints. cbn [bind]. do 2 f_equal.
    induction l as [|x l IH]; cbn [map flat_map app]; congruence.
  Qed.

  Lemma keys_map {A B} (f : A -> B) (d : list (pystr * A)) : keys (map (fun kv => (fst kv, f (snd kv))) d) = keys d.
  Proof. unfold keys. rewrite map_map. reflexivity. Qed.
  Lemma rels_val_ok d : Forall str_ok (keys d) -> NoDup (keys d) -> val_ok (rels_val d) /\ ser (rels_val d) = true.
  Proof.
    intros H N. unfold rels_val. split.
    - constructor; [|rewrite (keys_map (fun l => VList (map VInt l))); auto].
      apply Forall_forall. intros kv Hin. apply in_map_iff in Hin as (x & <- & Hx). cbn [fst snd]. split.
      + rewrite Forall_forall in H. apply H. unfold keys. apply in_map; auto.
      + constructor. apply Forall_forall. intros v Hv. apply in_map_iff in Hv as (z & <- & _). constructor.
    - cbn [ser]. apply forallb_forall. intros kv Hin. apply in_map_iff in Hin as (x & <- & Hx). cbn [snd ser].
      apply forallb_forall. intros v Hv. apply in_map_iff in Hv as (z & <- & _). reflexivity.
  Qed.
  Lemma strs_val_ok l : Forall str_ok l -> val_ok (strs_val l) /\ ser (strs_val l) = true.
  Proof.
    intros H. unfold strs_val. split.
    - constructor. apply Forall_forall. intros v Hv. apply in_map_iff in Hv as (z & <- & Hz). constructor.
      rewrite Forall_forall in H. auto.
    - cbn [ser]. apply forallb_forall. intros v Hv. apply in_map_iff in Hv as (z & <- & _). reflexivity.
  Qed.
  Lemma index_val_ok ix : index_ok ix -> val_ok (index_val ix) /\ ser (index_val ix) = true.
  Proof.
    intros H. destruct (rels_val_ok (ix_rels ix)) as [A1 A2]; try apply H.
    destruct (strs_val_ok (ix_labels ix)) as [B1 B2]; try apply H.
    destruct (strs_val_ok (ix_names ix)) as [C1 C2]; try apply H.
    unfold index_val. split.
    - constructor.
      + apply Forall_cons; [|apply Forall_cons; [|apply Forall_cons; [|apply Forall_nil]]]; cbn [fst snd]; (split; [apply ascii_str_ok; reflexivity|auto]).
      + cbn [keys map fst]. repeat constructor; cbn; intuition discriminate.
    - cbn [ser forallb snd]. rewrite A2, B2, C2. reflexivity.
  Qed.
  Lemma load_index st ix : index_ok ix -> load_json (dump_text st (index_val ix)) = Ok (index_val ix).
  Proof. intros H. destruct (index_val_ok ix H). apply load_json_dump; auto. Qed.

  (** the indexes file holds [ix], in one of the two styles *)
  Definition ix_file_is (p : path) (ix : index) (w : world) : Prop :=
    index_ok ix /\ exists st, has_file p (dump_text st (index_val ix)) w.
  Lemma ix_file_parse p ix w : ix_file_is p ix w -> parse_res (get p w) = Ok (index_val ix).
  Proof. intros (H & st & F). eapply parse_res_file; eauto. apply load_index; auto. Qed.

  Lemma rewrite_index p ix ix' w : index_ok ix' -> ix_file_is p ix w ->
    run (let! n := write_json p 0 (index_val ix') in let! _ := do_unit (CTrunc p n) in Ret true) w =
    (Ok true, put p (dump_text Indent4 (index_val ix')) w) /\
    ix_file_is p ix' (put p (dump_text Indent4 (index_val ix')) w).
  Proof.
    intros H' (H & st & F). split.
    - rewrite run_bind, (run_write_json p 0 _ _ w F). destruct (index_val_ok ix' H') as [V S].
      rewrite dump_ser, S by auto. rewrite run_bind, (run_trunc p _ _ _ (put_has p _ _)), put_put. cbn [run].
      rewrite firstn_write_at by lia. reflexivity.
    - split; auto. exists Indent4. apply put_has.
  Qed.

  Definition with_labels (ix : index) l := {| ix_rels := ix_rels ix; ix_labels := l; ix_names := ix_names ix |}.
  Definition with_names (ix : index) l := {| ix_rels := ix_rels ix; ix_labels := ix_labels ix; ix_names := l |}.
  Definition with_rels (ix : index) d := {| ix_rels := d; ix_labels := ix_labels ix; ix_names := ix_names ix |}.

  Lemma set_order_ok items cur : rt_ok rt -> Forall str_ok items -> Forall str_ok cur ->
    Forall str_ok (set_order (s_union (s_of_list cur) items)) /\ NoDup (set_order (s_union (s_of_list cur) items)) /\
    (forall x, In x (set_order (s_union (s_of_list cur) items)) <-> In x cur \/ In x items).
  Proof.
    intros R Hi Hc. destruct (rt_order _ R (s_union (s_of_list cur) items)) as [N M].
    { apply s_union_NoDup, s_of_list_NoDup. }
    assert (M' : forall x, In x (set_order (s_union (s_of_list cur) items)) <-> In x cur \/ In x items).
    { intros x. rewrite M, s_union_In, s_of_list_In. tauto. }
    split; [|split]; auto. apply Forall_forall. intros x Hx. rewrite Forall_forall in Hi, Hc. apply M' in Hx as [Hx|Hx]; auto.
  Qed.

  Lemma run_add_labels p items ix w : rt_ok rt -> Forall str_ok items -> ix_file_is p ix w ->
    exists l, run (add_items_to_node_labels_index p items) w = (Ok true, put p (dump_text Indent4 (index_val (with_labels ix l))) w) /\
      NoDup l /\ Forall str_ok l /\ (forall x, In x l <-> In x (ix_labels ix) \/ In x items).
  Proof.
    intros R Hi F. pose proof F as [H _].
    destruct (set_order_ok items (ix_labels ix) R Hi ltac:(apply H)) as (A & B & C).
    set (l := set_order (s_union (s_of_list (ix_labels ix)) items)) in *. exists l. split; [|auto].
    unfold add_items_to_node_labels_index, add_items_set. rewrite run_bind, run_read_json, (ix_file_parse p ix w F).
    rewrite run_bind, run_lift.
    replace (index_get NODE_LABELS (index_val ix)) with (Ok (strs_val (ix_labels ix))) by reflexivity.
    cbn [bind]. rewrite str_union_val. fold l. rewrite run_bind, run_lift.
    replace (index_put NODE_LABELS (VList (map VStr l)) (index_val ix)) with (Ok (index_val (with_labels ix l))) by reflexivity.
    apply (rewrite_index p ix (with_labels ix l) w); auto. destruct H; constructor; auto.
  Qed.
  Lemma run_add_names p items ix w : rt_ok rt -> Forall str_ok items -> ix_file_is p ix w ->
    exists l, run (add_items_to_relationship_names_index p items) w = (Ok true, put p (dump_text Indent4 (index_val (with_names ix l))) w) /\
      NoDup l /\ Forall str_ok l /\ (forall x, In x l <-> In x (ix_names ix) \/ In x items).
  Proof.
    intros R Hi F. pose proof F as [H _].
    destruct (set_order_ok items (ix_names ix) R Hi ltac:(apply H)) as (A & B & C).
    set (l := set_order (s_union (s_of_list (ix_names ix)) items)) in *. exists l. split; [|auto].
    unfold add_items_to_relationship_names_index, add_items_set. rewrite run_bind, run_read_json, (ix_file_parse p ix w F).
    rewrite run_bind, run_lift.
    replace (index_get RELATIONSHIP_NAMES (index_val ix)) with (Ok (strs_val (ix_names ix))) by reflexivity.
    cbn [bind]. rewrite str_union_val. fold l. rewrite run_bind, run_lift.
    replace (index_put RELATIONSHIP_NAMES (VList (map VStr l)) (index_val ix)) with (Ok (index_val (with_names ix l))) by reflexivity.
    apply (rewrite_index p ix (with_names ix l) w); auto. destruct H; constructor; auto.
  Qed.

  (** relationship numbers *)
  Definition rel_add (k : pystr) (new : list Z) (d : list (pystr * list Z)) : list (pystr * list Z) :=
    d_set k (zset_order (match d_get k d with Some old => z_union (z_of_list old) new | None => new end)) d.
  Definition rel_add_all (items : list (pystr * list Z)) (d : list (pystr * list Z)) : list (pystr * list Z) :=
    fold_left (fun d kv => rel_add (fst kv) (snd kv) d) items d.
  Definition enc (kv : pystr * list Z) : pystr * pyval := (fst kv, VList (map VInt (snd kv))).
  Lemma d_get_enc k d : d_get k (map enc d) = option_map (fun l => VList (map VInt l)) (d_get k d).
  Proof. induction d as [|[q l] d IH]; cbn [map d_get enc fst snd]; auto. destruct (str_eqb k q); auto. Qed.
  Lemma d_set_enc k l d : d_set k (VList (map VInt l)) (map enc d) = map enc (d_set k l d).
  Proof.
    induction d as [|[q l'] d IH]; cbn [map d_set enc fst snd]; auto. destruct (str_eqb k q); cbn [map enc fst snd]; [reflexivity|].
    rewrite <- IH. reflexivity.
  Qed.
  Lemma rel_index_add_enc k new d : rel_index_add k new (map enc d) = Ok (map enc (rel_add k new d)).
  Proof.
    unfold rel_index_add, rel_add. rewrite d_get_enc. destruct (d_get k d) as [old|]; cbn [option_map].
    - rewrite int_union_val. cbn [bind]. rewrite d_set_enc. reflexivity.
    - rewrite d_set_enc. reflexivity.
  Qed.
  Lemma rel_index_add_all_enc items d : rel_index_add_all items (map enc d) = Ok (map enc (rel_add_all items d)).
  Proof.
    revert d; induction items as [|[k s] items IH]; intros d; cbn [rel_index_add_all]; [reflexivity|].
    rewrite rel_index_add_enc. cbn [bind]. apply IH.
  Qed.
  Notation rels_of := numbers_of (only parsing).
  Definition items_ok (items : list (pystr * list Z)) : Prop :=
    Forall (fun kv => str_ok (fst kv) /\ NoDup (snd kv)) items.
  Definition rels_ok (d : list (pystr * list Z)) : Prop :=
    Forall str_ok (keys d) /\ NoDup (keys d) /\ Forall (fun kv => NoDup (snd kv)) d.
  Lemma Forall_keys_set {A} (P : pystr -> Prop) k (v : A) d : P k -> Forall P (keys d) -> Forall P (keys (d_set k v d)).
  Proof.
    intros Hk H. apply Forall_forall. intros x Hx. apply d_set_keys_in in Hx as [->|Hx]; auto.
    rewrite Forall_forall in H. auto.
  Qed.
  Lemma Forall_d_set' {A} (P : pystr * A -> Prop) k v d : (forall k', P (k', v)) -> Forall P d -> Forall P (d_set k v d).
  Proof.
    intros Hk. induction d as [|[q x] d IH]; intros H; cbn [d_set]; [repeat constructor; auto|]. inv H.
    destruct (str_eqb k q); constructor; auto.
  Qed.
  Lemma rel_add_ok k new d : rt_ok rt -> str_ok k -> NoDup new -> rels_ok d ->
    rels_ok (rel_add k new d) /\
    (forall k' z, In z (rels_of k' (rel_add k new d)) <-> In z (rels_of k' d) \/ (k' = k /\ In z new)).
  Proof.
    intros R Hk Hn (A & B & C). unfold rel_add.
    set (l := match d_get k d with Some old => z_union (z_of_list old) new | None => new end).
    assert (Nl : NoDup l).
    { unfold l. destruct (d_get k d); auto. apply z_union_NoDup, z_of_list_NoDup. }
    destruct (rt_zorder _ R l Nl) as [N M]. split.
    - split; [|split].
      + apply Forall_keys_set; auto.
      + apply d_set_NoDup; auto.
      + apply Forall_d_set'; auto.
    - intros k' z. unfold numbers_of. rewrite d_get_set. str_case k' k.
      + subst k'. rewrite M. unfold l. destruct (d_get k d) as [old|].
        * rewrite z_union_In, z_of_list_In. tauto.
        * simpl. tauto.
      + tauto.
  Qed.
  Lemma rel_add_all_ok items d : rt_ok rt -> items_ok items -> rels_ok d ->
    rels_ok (rel_add_all items d) /\
    (forall k' z, In z (rels_of k' (rel_add_all items d)) <-> In z (rels_of k' d) \/ exists s, In (k', s) items /\ In z s).
  Proof.
    intros R. revert d; induction items as [|[k s] items IH]; intros d Hi Hd.
    - split; auto. intros k' z. cbn. firstorder.
    - inv Hi. cbn [fst snd] in H1. destruct H1 as [Hk Hs]. destruct (rel_add_ok k s d R Hk Hs Hd) as [Hd' M].
      destruct (IH _ H2 Hd') as [A B]. split; [exact A|]. intros k' z.
      change (rel_add_all ((k, s) :: items) d) with (rel_add_all items (rel_add k s d)). rewrite B, M. clear. split.
      + intros [[H|[-> H]]|(s' & H1 & H2)]; [auto| |].
        * right. exists s. split; [left; auto|auto].
        * right. exists s'. split; [right; auto|auto].
      + intros [H|(s' & [E|H1] & H2)]; [auto| |].
        * inv E. left. right. auto.
        * right. exists s'. auto.
  Qed.
  Lemma run_add_rels p items ix w : rt_ok rt -> items_ok items -> items <> [] -> ix_file_is p ix w ->
    run (add_items_to_node_relationships_index p items) w =
      (Ok true, put p (dump_text Indent4 (index_val (with_rels ix (rel_add_all items (ix_rels ix))))) w).
  Proof.
    intros R Hi Hne F. pose proof F as [H (st & Ft)].
    unfold add_items_to_node_relationships_index. rewrite run_bind, run_read. pose proof Ft as Ft0. unfold has_file in Ft0.
    rewrite Ft0. cbn [read_res]. rewrite run_bind, run_lift, load_index by auto.
    rewrite run_bind, run_lift.
    replace (index_get NODE_RELATIONSHIPS (index_val ix)) with (Ok (VDict (map enc (ix_rels ix)))) by reflexivity.
    rewrite run_bind, run_lift. unfold rel_entry_add. rewrite rel_index_add_all_enc. cbn [bind].
    destruct items as [|i items]; [congruence|].
    set (d := rel_add_all (i :: items) (ix_rels ix)).
    rewrite run_bind, run_lift.
    replace (index_put NODE_RELATIONSHIPS (VDict (map enc d)) (index_val ix)) with (Ok (index_val (with_rels ix d))) by reflexivity.
    apply (rewrite_index p ix (with_rels ix d) w); auto.
    destruct (rel_add_all_ok (i :: items) (ix_rels ix) R Hi) as [(A & B & C) _].
    { destruct H. repeat split; auto. }
    destruct H. constructor; auto.
  Qed.
  (** with nothing to add the document is appended *)
  Lemma run_add_rels_none p ix st w : index_ok ix -> has_file p (dump_text st (index_val ix)) w ->
    run (add_items_to_node_relationships_index p []) w =
      (Ok true, put p (dump_text st (index_val ix) ++ dump_text Indent4 (index_val ix)) w).
  Proof.
    intros H Ft. unfold add_items_to_node_relationships_index. rewrite run_bind, run_read. pose proof Ft as Ft0. unfold has_file in Ft0.
    rewrite Ft0. cbn [read_res]. rewrite run_bind, run_lift, load_index by auto.
    rewrite run_bind, run_lift.
    replace (index_get NODE_RELATIONSHIPS (index_val ix)) with (Ok (VDict (map enc (ix_rels ix)))) by reflexivity.
    rewrite run_bind, run_lift. unfold rel_entry_add. cbn [rel_index_add_all bind].
    rewrite run_bind, run_lift.
    replace (index_put NODE_RELATIONSHIPS (VDict (map enc (ix_rels ix))) (index_val ix)) with (Ok (index_val ix)) by reflexivity.
    destruct (index_val_ok ix H) as [V S].
    rewrite run_bind, (run_write_json p _ _ _ w Ft), dump_ser, S by auto.
    rewrite run_bind, (run_trunc p _ _ _ (put_has p _ _)), put_put. cbn [run].
    rewrite firstn_write_at by lia. rewrite firstn_all. reflexivity.
  Qed.
  Lemma doubled_index st st' ix more : index_ok ix -> load_json ((dump_text st (index_val ix) ++ dump_text st' (index_val ix)) ++ more) = Err JSONDecodeError.
  Proof.
    intros H. destruct (index_val_ok ix H) as [V S]. unfold load_json. rewrite <- app_assoc.
    unfold index_val at 1. rewrite loads_dump_more; [reflexivity|exact V|exact S|]. unfold dump_text, dump_top. assert (Hh : value_head (fst (dump st' 0 (index_val ix)) ++ more)) by (apply value_head_app, dump_head; [exact V|discriminate]). rewrite (skip_ws_head _ Hh). intros E. rewrite E in Hh. destruct Hh.
  Qed.
  Lemma run_add_rels_bad p items t w : has_file p t w -> load_json t = Err JSONDecodeError ->
    run (add_items_to_node_relationships_index p items) w = (Err JSONDecodeError, w).
  Proof.
    intros Ft Hl. unfold add_items_to_node_relationships_index. rewrite run_bind, run_read. unfold has_file in Ft.
    rewrite Ft. cbn [read_res]. rewrite run_bind, run_lift, Hl. reflexivity.
  Qed.
  Lemma run_add_labels_bad p items t w : has_file p t w -> load_json t = Err JSONDecodeError ->
    run (add_items_to_node_labels_index p items) w = (Err JSONDecodeError, w).
  Proof.
    intros Ft Hl. unfold add_items_to_node_labels_index, add_items_set.
    rewrite run_bind, run_read_json, (parse_res_bad p t w _ Ft Hl). reflexivity.
  Qed.

  (** loading the indexes *)
  Lemma load_labels p ix w : ix_file_is p ix w -> run (load_node_labels_index p) w = (Ok (ix_labels ix), w).
  Proof.
    intros F. unfold load_node_labels_index, load_index_set. rewrite run_catch, run_bind, run_read_json, (ix_file_parse p ix w F), run_lift.
    replace (index_get NODE_LABELS (index_val ix)) with (Ok (strs_val (ix_labels ix))) by reflexivity. cbn [bind].
    rewrite str_set_val, s_of_list_id by apply F. reflexivity.
  Qed.
  Lemma load_names p ix w : ix_file_is p ix w -> run (load_relationship_names_index p) w = (Ok (ix_names ix), w).
  Proof.
    intros F. unfold load_relationship_names_index, load_index_set. rewrite run_catch, run_bind, run_read_json, (ix_file_parse p ix w F), run_lift.
    replace (index_get RELATIONSHIP_NAMES (index_val ix)) with (Ok (strs_val (ix_names ix))) by reflexivity. cbn [bind].
    rewrite str_set_val, s_of_list_id by apply F. reflexivity.
  Qed.
  Lemma z_of_list_id l : NoDup l -> z_of_list l = l.
  Proof.
    assert (G : forall b a, NoDup (a ++ b) -> z_union a b = a ++ b).
    { induction b as [|y b IH]; intros a H; [rewrite app_nil_r; reflexivity|].
      unfold z_union in *. simpl.
      assert (E : z_add y a = a ++ [y]).
      { unfold z_add. destruct (z_mem y a) eqn:E; auto. apply z_mem_In in E.
        apply NoDup_app_inv in H as (_ & _ & H). exfalso. eapply H; eauto. left; auto. }
      rewrite E, IH; rewrite <- app_assoc; auto. }
    intros H. apply (G l []). auto.
  Qed.
  Lemma load_rels p ix w : ix_file_is p ix w -> run (load_node_relationships_index p) w = (Ok (ix_rels ix), w).
  Proof.
    intros F. unfold load_node_relationships_index. rewrite run_catch, run_bind, run_read_json, (ix_file_parse p ix w F), run_lift.
    replace (index_get NODE_RELATIONSHIPS (index_val ix)) with (Ok (rels_val (ix_rels ix))) by reflexivity. cbn [bind rels_val].
    assert (E : forall d, Forall (fun kv : pystr * list Z => NoDup (snd kv)) d ->
              mapM (fun kv : pystr * pyval => let? s := int_set (snd kv) in Ok (fst kv, s)) (map enc d) = Ok d).
    { clear. induction d as [|[k l] d IH]; intros H; [reflexivity|]. inv H. cbn [map mapM enc fst snd].
      rewrite int_set_val. cbn [bind]. fold enc. rewrite IH by auto. cbn [bind]. rewrite z_of_list_id by auto. reflexivity. }
    change (fun kv : pystr * list Z => (fst kv, VList (map VInt (snd kv)))) with enc. rewrite E; auto. apply F.
  Qed.
  Lemma load_labels_bad p t w : has_file p t w -> load_json t = Err JSONDecodeError -> run (load_node_labels_index p) w = (Ok [], w).
  Proof.
    intros F H. unfold load_node_labels_index, load_index_set. rewrite run_catch, run_bind, run_read_json, (parse_res_bad p t w _ F H). reflexivity.
  Qed.
  Lemma load_names_bad p t w : has_file p t w -> load_json t = Err JSONDecodeError -> run (load_relationship_names_index p) w = (Ok [], w).
  Proof.
    intros F H. unfold load_relationship_names_index, load_index_set. rewrite run_catch, run_bind, run_read_json, (parse_res_bad p t w _ F H). reflexivity.
  Qed.

  (** wiping *)
  Lemma wipe_unsure p name e w : run (wipe_index p name e false) w = (Ok None, w).
  Proof. reflexivity. Qed.
  Lemma wipe_labels_sure p ix w : ix_file_is p ix w ->
    run (wipe_node_labels_index p true) w = (Ok (Some true), put p (dump_text Indent4 (index_val (with_labels ix []))) w) /\
    ix_file_is p (with_labels ix []) (put p (dump_text Indent4 (index_val (with_labels ix []))) w).
  Proof.
    intros F. pose proof F as [H (st & Ft)]. assert (H' : index_ok (with_labels ix [])) by (destruct H; constructor; auto; constructor).
    destruct (rewrite_index p ix (with_labels ix []) w H' F) as [_ X]. split; auto.
    unfold wipe_node_labels_index, wipe_index. rewrite run_bind, run_read_json, (ix_file_parse p ix w F), run_bind, run_lift.
    replace (index_put NODE_LABELS (VList []) (index_val ix)) with (Ok (index_val (with_labels ix []))) by reflexivity.
    rewrite run_bind, (run_write_json p 0 _ _ w Ft). destruct (index_val_ok _ H') as [V S].
    rewrite dump_ser, S by auto. rewrite run_bind, (run_trunc p _ _ _ (put_has p _ _)), put_put. cbn [run].
    rewrite firstn_write_at by lia. reflexivity.
  Qed.
  Lemma wipe_names_sure p ix w : ix_file_is p ix w ->
    run (wipe_relationship_names_index p true) w = (Ok (Some true), put p (dump_text Indent4 (index_val (with_names ix []))) w) /\
    ix_file_is p (with_names ix []) (put p (dump_text Indent4 (index_val (with_names ix []))) w).
  Proof.
    intros F. pose proof F as [H (st & Ft)]. assert (H' : index_ok (with_names ix [])) by (destruct H; constructor; auto; constructor).
    destruct (rewrite_index p ix (with_names ix []) w H' F) as [_ X]. split; auto.
    unfold wipe_relationship_names_index, wipe_index. rewrite run_bind, run_read_json, (ix_file_parse p ix w F), run_bind, run_lift.
    replace (index_put RELATIONSHIP_NAMES (VList []) (index_val ix)) with (Ok (index_val (with_names ix []))) by reflexivity.
    rewrite run_bind, (run_write_json p 0 _ _ w Ft). destruct (index_val_ok _ H') as [V S].
    rewrite dump_ser, S by auto. rewrite run_bind, (run_trunc p _ _ _ (put_has p _ _)), put_put. cbn [run].
    rewrite firstn_write_at by lia. reflexivity.
  Qed.
  Lemma wipe_rels_sure p ix w : ix_file_is p ix w ->
    run (wipe_node_relationships_index p true) w = (Ok (Some true), put p (dump_text Indent4 (index_val (with_rels ix []))) w) /\
    ix_file_is p (with_rels ix []) (put p (dump_text Indent4 (index_val (with_rels ix []))) w).
  Proof.
    intros F. pose proof F as [H (st & Ft)]. assert (H' : index_ok (with_rels ix [])) by (destruct H; constructor; auto; constructor).
    destruct (rewrite_index p ix (with_rels ix []) w H' F) as [_ X]. split; auto.
    unfold wipe_node_relationships_index, wipe_index. rewrite run_bind, run_read_json, (ix_file_parse p ix w F), run_bind, run_lift.
    replace (index_put NODE_RELATIONSHIPS (VDict []) (index_val ix)) with (Ok (index_val (with_rels ix []))) by reflexivity.
    rewrite run_bind, (run_write_json p 0 _ _ w Ft). destruct (index_val_ok _ H') as [V S].
    rewrite dump_ser, S by auto. rewrite run_bind, (run_trunc p _ _ _ (put_has p _ _)), put_put. cbn [run].
    rewrite firstn_write_at by lia. reflexivity.
  Qed.
End StoreFacts.

(** ** the statements of Prop_Store *)
Section StoreStatements.
  Context {rt : PyRt}.

  Lemma unchanged_put p t w : unchanged_but [p] w (put p t w).
  Proof. apply same_but_put; [left; auto|apply same_but_refl]. Qed.

  Lemma dict_ok_join d items : dict_ok d -> dict_ok items -> (forall k, In k (keys items) -> ~ In k (keys d)) -> dict_ok (d ++ items).
  Proof.
    intros H H' Hd. inv H. inv H'. constructor; [apply Forall_app; auto|]. rewrite keys_app. apply NoDup_app_intro; auto.
    intros x Hx Hx'. exact (Hd x Hx' Hx).
  Qed.
  Theorem store_refuse p d items w k : db_file p d w -> In k (keys items) -> In k (keys d) ->
    run (add_item_to_database p items) w = (Err NodeExistsError, w).
  Proof. apply add_item_exists. Qed.
  Theorem store_add p d items w : db_file p d w -> dict_ok items -> (forall k, In k (keys items) -> ~ In k (keys d)) -> dict_ser items = true ->
    exists w', run (add_item_to_database p items) w = (Ok true, w') /\ unchanged_but [p] w w' /\
      run (load_database p) w' = (Ok (VDict (d ++ items)), w') /\ db_file p (d ++ items) w'.
  Proof.
    intros H Vi Hk S. assert (V : dict_ok (d ++ items)) by (apply dict_ok_join; auto; apply H).
    destruct (add_item_new p d items w H V S) as [R D]. eexists. split; [exact R|].
    split; [apply unchanged_put|]. split; [apply load_database_ok; exact D|exact D].
  Qed.
  Theorem store_bad p d items w : db_file p d w -> dict_ok items -> (forall k, In k (keys items) -> ~ In k (keys d)) -> dict_ser items = false ->
    exists w', run (add_item_to_database p items) w = (Err TypeError, w') /\ unchanged_but [p] w w' /\
      run (read_json p) w' = (Err JSONDecodeError, w') /\ run (load_database p) w' = (Ok (VDict []), w').
  Proof.
    intros H Vi Hk S. assert (V : dict_ok (d ++ items)) by (apply dict_ok_join; auto; apply H).
    destruct (add_item_bad p d items w H V S) as (w' & R & -> & P & L). eexists. split; [exact R|].
    split; [apply unchanged_put|]. split; [|exact L]. rewrite run_read_json, P. reflexivity.
  Qed.
  Theorem counter_round_trip p t z w : file_is p t w ->
    exists w', run (update_wiggle_number p z) w = (Ok z, w') /\ unchanged_but [p] w w' /\
      run (get_current_wiggle_number p) w' = (Ok z, w').
  Proof.
    intros F. eexists. split; [apply (run_update_wn p z t w F)|]. split; [apply unchanged_put|].
    apply run_get_wn. apply put_has.
  Qed.
  Theorem counter_empty p w : file_is p [] w -> run (get_current_wiggle_number p) w = (Err PlainException, w).
  Proof. apply run_get_wn_empty. Qed.

  Definition same_set {A} (l l' : list A) : Prop := forall x, In x l <-> In x l'.

  Theorem labels_union p items ix w : rt_ok rt -> Forall str_ok items -> index_file p ix w ->
    exists l w', run (add_items_to_node_labels_index p items) w = (Ok true, w') /\ unchanged_but [p] w w' /\
      index_file p {| ix_rels := ix_rels ix; ix_labels := l; ix_names := ix_names ix |} w' /\
      run (load_node_labels_index p) w' = (Ok l, w') /\ (forall x, In x l <-> In x (ix_labels ix) \/ In x items) /\
      run (load_relationship_names_index p) w' = (Ok (ix_names ix), w') /\
      run (load_node_relationships_index p) w' = (Ok (ix_rels ix), w').
  Proof.
    intros R Hi F. destruct (run_add_labels p items ix w R Hi F) as (l & E & N & K & M). pose proof F as [H _].
    exists l. eexists. split; [exact E|]. split; [apply unchanged_put|].
    assert (F' : ix_file_is p (with_labels ix l) (put p (dump_text Indent4 (index_val (with_labels ix l))) w)).
    { split; [destruct H; constructor; auto|]. exists Indent4. apply put_has. }
    split; [exact F'|]. split; [apply (load_labels _ _ _ F')|]. split; [exact M|].
    split; [apply (load_names _ _ _ F')|apply (load_rels _ _ _ F')].
  Qed.
  Theorem names_union p items ix w : rt_ok rt -> Forall str_ok items -> index_file p ix w ->
    exists l w', run (add_items_to_relationship_names_index p items) w = (Ok true, w') /\ unchanged_but [p] w w' /\
      index_file p {| ix_rels := ix_rels ix; ix_labels := ix_labels ix; ix_names := l |} w' /\
      run (load_relationship_names_index p) w' = (Ok l, w') /\ (forall x, In x l <-> In x (ix_names ix) \/ In x items) /\
      run (load_node_labels_index p) w' = (Ok (ix_labels ix), w') /\
      run (load_node_relationships_index p) w' = (Ok (ix_rels ix), w').
  Proof.
    intros R Hi F. destruct (run_add_names p items ix w R Hi F) as (l & E & N & K & M). pose proof F as [H _].
    exists l. eexists. split; [exact E|]. split; [apply unchanged_put|].
    assert (F' : ix_file_is p (with_names ix l) (put p (dump_text Indent4 (index_val (with_names ix l))) w)).
    { split; [destruct H; constructor; auto|]. exists Indent4. apply put_has. }
    split; [exact F'|]. split; [apply (load_names _ _ _ F')|]. split; [exact M|].
    split; [apply (load_labels _ _ _ F')|apply (load_rels _ _ _ F')].
  Qed.
  Lemma rels_ok_index ix : index_ok ix -> rels_ok (ix_rels ix).
  Proof. intros []. repeat split; auto. Qed.
  Theorem rels_union p items ix w : rt_ok rt -> items <> [] ->
    Forall (fun kv => str_ok (fst kv) /\ NoDup (snd kv)) items -> index_file p ix w ->
    exists d w', run (add_items_to_node_relationships_index p items) w = (Ok true, w') /\ unchanged_but [p] w w' /\
      index_file p {| ix_rels := d; ix_labels := ix_labels ix; ix_names := ix_names ix |} w' /\
      run (load_node_relationships_index p) w' = (Ok d, w') /\
      (forall k z, In z (numbers_of k d) <-> In z (numbers_of k (ix_rels ix)) \/ exists s, In (k, s) items /\ In z s) /\
      run (load_node_labels_index p) w' = (Ok (ix_labels ix), w') /\
      run (load_relationship_names_index p) w' = (Ok (ix_names ix), w').
  Proof.
    intros R Hne Hi F. pose proof F as [H _]. pose proof (run_add_rels p items ix w R Hi Hne F) as E.
    destruct (rel_add_all_ok items (ix_rels ix) R Hi (rels_ok_index ix H)) as [(A & B & C) M].
    exists (rel_add_all items (ix_rels ix)). eexists. split; [exact E|]. split; [apply unchanged_put|].
    set (ix' := with_rels ix (rel_add_all items (ix_rels ix))) in *.
    assert (F' : ix_file_is p ix' (put p (dump_text Indent4 (index_val ix')) w)).
    { split; [destruct H; constructor; auto|]. exists Indent4. apply put_has. }
    split; [exact F'|]. split; [apply (load_rels _ _ _ F')|]. split; [exact M|].
    split; [apply (load_labels _ _ _ F')|apply (load_names _ _ _ F')].
  Qed.
  (** with no item *)
  Theorem rels_nothing p ix w : index_file p ix w ->
    exists w', run (add_items_to_node_relationships_index p []) w = (Ok true, w') /\ unchanged_but [p] w w' /\
      run (read_json p) w' = (Err JSONDecodeError, w').
  Proof.
    intros (H & st & F). eexists. split; [apply (run_add_rels_none p ix st w H F)|]. split; [apply unchanged_put|].
    rewrite run_read_json. rewrite (parse_res_bad p _ _ JSONDecodeError (put_has p _ w)); [reflexivity|].
    rewrite <- (app_nil_r (_ ++ _)). apply doubled_index; auto.
  Qed.

  Theorem wipe_needs_sure p w :
    run (wipe_database p false) w = (Ok None, w) /\ run (wipe_node_labels_index p false) w = (Ok None, w) /\
    run (wipe_relationship_names_index p false) w = (Ok None, w) /\
    run (wipe_node_relationships_index p false) w = (Ok None, w).
  Proof. repeat split; reflexivity. Qed.
  Theorem wipe_db_sure p t w : file_is p t w ->
    exists w', run (wipe_database p true) w = (Ok (Some true), w') /\ unchanged_but [p] w w' /\
      file_is p (py "{}") w' /\ run (load_database p) w' = (Ok (VDict []), w').
  Proof.
    intros F. eexists. split; [apply (wipe_database_sure p t w F)|]. split; [apply unchanged_put|]. split; [apply put_has|].
    apply load_database_ok. split; [apply put_has|]. split; [repeat constructor|reflexivity].
  Qed.
  Theorem wipe_index_sure p ix w (what : nat) : index_file p ix w -> what < 3 ->
    let ix' := {| ix_rels := if Nat.eqb what 0 then [] else ix_rels ix;
                  ix_labels := if Nat.eqb what 1 then [] else ix_labels ix;
                  ix_names := if Nat.eqb what 2 then [] else ix_names ix |} in
    exists w', run (match what with 0 => wipe_node_relationships_index p true | 1 => wipe_node_labels_index p true
                    | _ => wipe_relationship_names_index p true end) w = (Ok (Some true), w') /\ unchanged_but [p] w w' /\
      index_file p ix' w' /\
      run (load_node_relationships_index p) w' = (Ok (ix_rels ix'), w') /\
      run (load_node_labels_index p) w' = (Ok (ix_labels ix'), w') /\
      run (load_relationship_names_index p) w' = (Ok (ix_names ix'), w').
  Proof.
    intros F Hw. destruct what as [|[|[|what]]]; [| | |lia]; cbn [Nat.eqb].
    - destruct (wipe_rels_sure p ix w F) as [E F']. eexists. split; [exact E|]. split; [apply unchanged_put|]. split; [exact F'|].
      split; [apply (load_rels _ _ _ F')|split; [apply (load_labels _ _ _ F')|apply (load_names _ _ _ F')]].
    - destruct (wipe_labels_sure p ix w F) as [E F']. eexists. split; [exact E|]. split; [apply unchanged_put|]. split; [exact F'|].
      split; [apply (load_rels _ _ _ F')|split; [apply (load_labels _ _ _ F')|apply (load_names _ _ _ F')]].
    - destruct (wipe_names_sure p ix w F) as [E F']. eexists. split; [exact E|]. split; [apply unchanged_put|]. split; [exact F'|].
      split; [apply (load_rels _ _ _ F')|split; [apply (load_labels _ _ _ F')|apply (load_names _ _ _ F')]].
  Qed.
  Theorem new_text_longer d items : dict_ok d -> dict_ser d = true ->
    List.length (dump_text Indent4 (VDict d)) <= List.length (dump_text Indent4 (VDict (d ++ items))).
  Proof. intros. apply dump_length_mono; auto. Qed.
  Theorem no_residue p d items w : db_file p d w -> dict_ok items -> (forall k, In k (keys items) -> ~ In k (keys d)) ->
    exists r w', run (add_item_to_database p items) w = (r, w') /\ file_is p (dump_text Indent4 (VDict (d ++ items))) w'.
  Proof.
    intros H Vi Hk. assert (V : dict_ok (d ++ items)) by (apply dict_ok_join; auto; apply H).
    rewrite (write_new_db p d items w H V). eexists. eexists. split; [reflexivity|]. apply put_has.
  Qed.
  Theorem add_labels_twice p items ix w : rt_ok rt -> Forall str_ok items -> index_file p ix w ->
    exists l w1 l2 w2,
      run (add_items_to_node_labels_index p items) w = (Ok true, w1) /\ run (load_node_labels_index p) w1 = (Ok l, w1) /\
      run (add_items_to_node_labels_index p items) w1 = (Ok true, w2) /\ run (load_node_labels_index p) w2 = (Ok l2, w2) /\
      (forall x, In x l2 <-> In x l) /\ List.length l2 = List.length l.
  Proof.
    intros R Hi F. destruct (labels_union p items ix w R Hi F) as (l & w1 & E1 & _ & F1 & L1 & M1 & _).
    destruct (labels_union p items _ w1 R Hi F1) as (l2 & w2 & E2 & _ & F2 & L2 & M2 & _). cbn [ix_labels] in M2.
    exists l, w1, l2, w2. repeat (split; [assumption|]).
    assert (M : forall x, In x l2 <-> In x l) by (intros x; rewrite M2, M1; tauto). split; [exact M|].
    destruct F1 as [H1 _], F2 as [H2 _].
    pose proof (ix_labels_nodup _ H1) as N1. pose proof (ix_labels_nodup _ H2) as N2. cbn [ix_labels] in N1, N2.
    apply Nat.le_antisymm; apply NoDup_incl_length; auto; intros x Hx; apply M; auto.
  Qed.
End StoreStatements.
