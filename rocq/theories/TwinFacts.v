(** * TwinFacts: two starts of the same Python *)
From Verif Require Import PyBase BaseFacts ListFacts Json JsonFacts JsonMore SpecJson RtLaws Regex Patterns Literal Props PropsFacts Checks Statements PatternFacts Data FS FSFacts Store
  SpecStore StoreFacts Make SpecMake MakeFacts MakeRun MakeMore Find Query SpecHistory HistoryFacts SpecCrash Torn QueryFacts SplitFacts SpecSound SoundFacts SpecProc ProcFacts SpecTwin SpecStore.

(** ** Parsing does not depend on the order of sets or on the time *)
Lemma lex_same a b : @f_repr a = @f_repr b -> @int_fits a = @int_fits b -> forall fuel s, @lex a fuel s = @lex b fuel s.
Proof.
  intros E E2. assert (NA : forall r, @number_atom a r = @number_atom b r) by (intros r; unfold number_atom; rewrite E, E2; reflexivity).
  induction fuel as [|f IH]; intros s; [reflexivity|]. cbn [lex]. destruct s as [|c s1]; [reflexivity|].
  rewrite ?IH. destruct (is_blank c); [reflexivity|]. destruct (N.eqb c 44); [reflexivity|].
  destruct (is_quote c); [destruct (quoted c s1) as [[[[|t0 t] [|r0 r]]|]|]; rewrite ?IH; reflexivity|].
  destruct (is_digit0 c); [destruct (span _ (c :: s1)) as [run r]; rewrite NA, IH; reflexivity|].
  destruct (is_name_start c); [|reflexivity]. destruct (span is_word0 (c :: s1)) as [run r]. rewrite IH. destruct r as [|c2 r2]; [reflexivity|].
  destruct (is_quote c2); [|reflexivity]. destruct (str_eqb run (py "b")); [|reflexivity]. destruct (quoted c2 r2) as [[[t r3]|]|]; rewrite ?IH; reflexivity.
Qed.
Lemma forM_ext {A} (f f' : A -> res unit) l : (forall x, f x = f' x) -> forM f l = forM f' l.
Proof. intros E. induction l as [|x l IH]; cbn [forM]; [reflexivity|]. rewrite E, IH. reflexivity. Qed.
Lemma mapM_ext {A B} (f f' : A -> res B) l : (forall x, f x = f' x) -> mapM f l = mapM f' l.
Proof. intros E. induction l as [|x l IH]; cbn [mapM]; [reflexivity|]. rewrite E, IH. reflexivity. Qed.

Lemma python_patterns a b : same_python a b ->
  @list_value a = @list_value b /\ @check_properties a = @check_properties b /\ @check_relationships a = @check_relationships b /\
  @extract_all_statements a = @extract_all_statements b /\ @build_parsed_make a = @build_parsed_make b /\ @build_parsed_find a = @build_parsed_find b /\
  @parse_report a = @parse_report b /\ @all_properties a = @all_properties b /\ @clean a = @clean b /\ @is_space a = @is_space b /\ @handle_float a = @handle_float b /\
  @get_current_wiggle_number a = @get_current_wiggle_number b.
Proof. destruct a, b. intros []. cbn in *. subst. repeat split; reflexivity. Qed.

Definition made_node_timeless (rt : PyRt) (n : node) : pyval :=
  VDict [(py "node_metadata", VDict [(py "wn", VInt (n_wn n)); (py "created_at", VNone); (py "updated_at", VNone)]);
         (py "node_label", VStr (n_label n)); (py "properties", opt_dict_val (n_props n));
         (py "relations", match n_rels n with
                          | Some l => VList (map (inside (py "relationship_metadata") no_time) (map rel_val l))
                          | None => VNone end)].
Lemma timeless_node (rt : PyRt) n : timeless (node_val n) = made_node_timeless rt n.
Proof. unfold made_node_timeless, node_val. destruct (n_rels n); reflexivity. Qed.

Section Same.
  Context (a b : PyRt) (E : same_python a b).
  Let P := python_patterns a b E.
  Lemma literal_same s : @literal_eval a s = @literal_eval b s.
  Proof. unfold literal_eval. destruct s as [|c s]; rewrite (sp_lit _ _ E); [reflexivity|]. rewrite (lex_same a b (sp_float _ _ E) (sp_fits _ _ E)). reflexivity. Qed.
  Lemma validate_same ms : @validate_statement a ms = @validate_statement b ms.
  Proof.
    destruct P as (P1 & P2 & P3 & _). unfold validate_statement.
    assert (X : @check_node_rel_properties a ms = @check_node_rel_properties b ms); [|rewrite X, P3; reflexivity].
    unfold check_node_rel_properties. rewrite P2. apply forM_ext. intros s. apply forM_ext. intros p. unfold check_param_match. rewrite P1.
    destruct (check_property_syntax _); cbn [bind]; [|reflexivity]. apply forM_ext. intros l. unfold check_list. rewrite literal_same. reflexivity.
  Qed.
  Lemma parse_make_same q : @parse_make a q = @parse_make b q.
  Proof. destruct P as (_ & _ & _ & P1 & P2 & _). unfold parse_make. rewrite P1, P2. destruct (@extract_all_statements b q MAKE) as [[ms|]|]; cbn [bind]; [|reflexivity|reflexivity]. rewrite validate_same. reflexivity. Qed.
  Lemma parse_find_same q : @parse_find a q = @parse_find b q.
  Proof. destruct P as (_ & _ & _ & P1 & _ & P2 & _). unfold parse_find. rewrite P1, P2. destruct (@extract_all_statements b q FIND) as [[ms|]|]; cbn [bind]; [|reflexivity|reflexivity]. rewrite validate_same. reflexivity. Qed.
  Lemma parse_query_same q : @parse_query_string a q = @parse_query_string b q.
  Proof. destruct P as (_ & _ & _ & _ & _ & _ & P1 & _). unfold parse_query_string. rewrite parse_make_same, parse_find_same, P1. reflexivity. Qed.

  Lemma property_dict_same s : @get_property_dict a s = @get_property_dict b s.
  Proof.
    destruct P as (_ & _ & _ & _ & _ & _ & _ & P1 & P2 & P3 & P4 & _).
    assert (H1 : forall c v, @handle_extracted a c v = @handle_extracted b c v).
    { intros c v. unfold handle_extracted. rewrite P2, P4. destruct (yield_type c) as [[]|]; cbn [bind]; try reflexivity; [unfold handle_int; rewrite (sp_fits _ _ E); reflexivity|]. unfold handle_list. rewrite literal_same. reflexivity. }
    assert (H2 : forall c, @one_property a c = @one_property b c).
    { intros c. unfold one_property. rewrite P3. destruct (cap GPropName c), (cap GPropValue c); try reflexivity. rewrite H1. reflexivity. }
    assert (H3 : forall ms d, @props_loop a ms d = @props_loop b ms d).
    { induction ms as [|[t c] ms IH]; intros d; cbn [props_loop]; [reflexivity|]. rewrite H2. destruct (@one_property b c); cbn [bind]; [apply IH|reflexivity]. }
    unfold get_property_dict, parse_properties. rewrite P1. destruct s as [[|c s]|]; [reflexivity| |reflexivity]. rewrite H3. reflexivity.
  Qed.
  Lemma make_nodes_same m : @make_nodes a m = @make_nodes b m.
  Proof.
    assert (H1 : forall n, @make_node a n = @make_node b n).
    { intros n. unfold make_node. rewrite property_dict_same. destruct (@get_property_dict b _); cbn [bind]; [|reflexivity].
      destruct (np_rels n) as [|r0 rs]; [reflexivity|]. rewrite (mapM_ext (@make_relationship a) (@make_relationship b)); [reflexivity|]. intros r. unfold make_relationship. rewrite property_dict_same. reflexivity. }
    unfold make_nodes. rewrite H1. destruct (@make_node b (mp_left m)); cbn [bind]; [|reflexivity]. destruct (mp_middle m); [rewrite H1|]; reflexivity.
  Qed.
  Lemma find_parsed_same f : @process_parsed_find a f = @process_parsed_find b f.
  Proof.
    unfold process_parsed_find, process_pattern_find, find_left, find_middle, find_right. rewrite !property_dict_same.
    assert (H : forall p x y, @find_link a p x y = @find_link b p x y) by (intros p x y; unfold find_link; destruct (p_text p) as [[|c t]|]; rewrite ?property_dict_same; reflexivity).
    destruct (bind (@get_property_dict b (p_props (left_node (pf_pattern f)))) _); cbn [bind]; [|reflexivity].
    destruct (if truthy (p_text (middle_node (pf_pattern f))) then _ else _); cbn [bind]; [|reflexivity].
    destruct (if truthy (p_text (middle_node (pf_pattern f))) then _ else _); cbn [bind]; [|reflexivity].
    rewrite H. destruct (@find_link b _ _ _) as [[[x1 x2] x3]|]; cbn [bind]; [|reflexivity]. rewrite H. reflexivity.
  Qed.

  (** ** What is made differs in the times only *)
  Definition same_item (x y : pystr * pyval) : Prop := fst x = fst y /\ timeless (snd x) = timeless (snd y) /\ ser (snd x) = ser (snd y).
  Lemma node_same n : timeless (@node_val a n) = timeless (@node_val b n) /\ ser (@node_val a n) = ser (@node_val b n).
  Proof.
    assert (R : forall r, inside (py "relationship_metadata") no_time (@rel_val a r) = inside (py "relationship_metadata") no_time (@rel_val b r) /\ ser (@rel_val a r) = ser (@rel_val b r)) by (intros r; split; reflexivity).
    split.
    - rewrite !timeless_node. unfold made_node_timeless. destruct (n_rels n) as [l|]; [|reflexivity].
      replace (map (inside (py "relationship_metadata") no_time) (map (@rel_val b) l)) with (map (inside (py "relationship_metadata") no_time) (map (@rel_val a) l)); [reflexivity|].
      rewrite !map_map. apply map_ext. intros r. apply R.
    - unfold node_val. cbn [ser forallb fst snd]. destruct (n_rels n) as [l|]; [|reflexivity]. cbn [ser].
      assert (X : forallb ser (map (@rel_val a) l) = forallb ser (map (@rel_val b) l)) by (induction l as [|r l IH]; cbn [map forallb]; [reflexivity|]; rewrite IH, (proj2 (R r)); reflexivity).
      rewrite X. reflexivity.
  Qed.
  Lemma set_same k v v' d d' : timeless v = timeless v' -> ser v = ser v' -> Forall2 same_item d d' -> Forall2 same_item (d_set k v d) (d_set k v' d').
  Proof.
    intros T S. induction 1 as [|[k1 v1] [k2 v2] d d' [K V] F IH]; cbn [d_set]; [repeat constructor; assumption|].
    cbn [fst snd] in K. subst k2. destruct (str_eqb k k1); constructor; auto; split; cbn [fst snd]; auto.
  Qed.
  Lemma nodes_same ns : Forall2 same_item (@nodes_dict a ns) (@nodes_dict b ns).
  Proof.
    unfold nodes_dict. assert (H : forall d d', Forall2 same_item d d' -> Forall2 same_item (fold_left (fun d n => d_set (str_of_Z (n_wn n)) (@node_val a n) d) ns d) (fold_left (fun d n => d_set (str_of_Z (n_wn n)) (@node_val b n) d) ns d')).
    { induction ns as [|n ns IH]; intros d d' F; cbn [fold_left]; [exact F|]. apply IH. apply set_same; [apply node_same|apply node_same|exact F]. }
    apply H. constructor.
  Qed.
  Lemma items_keys d d' : Forall2 same_item d d' -> keys d = keys d' /\ timeless_db d = timeless_db d' /\ dict_ser d = dict_ser d'.
  Proof.
    unfold dict_ser. induction 1 as [|[k v] [k' v'] d d' (K & T & S) F (I1 & I2 & I3)]; [auto|]. cbn [fst snd] in *. subst k'.
    cbn [keys map timeless_db fst snd forallb]. unfold keys, timeless_db in *. cbn [fst snd] in *. rewrite I1, I2, I3, S, T. auto.
  Qed.
End Same.

(** ** Two runs side by side *)
Section Runs.
  Context (base a b : PyRt) (Da : rt_data a) (Db : rt_data b) (Ea : same_python base a) (Eb : same_python base b).
  Context (g : gdbms) (DI : distinct_files g).
  Local Notation db := (database_fp g).
  Local Notation ix := (indexes_fp g).
  Local Notation wn := (wiggle_number_fp g).
  Local Notation al := (@alike base g).
  Definition side_by_side {A} (m m' : io A) : Prop := forall w w', al w w' ->
    fst (run m w) = fst (run m' w') /\ al (snd (run m w)) (snd (run m' w')).

  Lemma side_bind {A B} (m m' : io A) (f f' : A -> io B) : side_by_side m m' -> (forall x, side_by_side (f x) (f' x)) -> side_by_side (io_bind m f) (io_bind m' f').
  Proof.
    intros M F w w' H. rewrite !run_bind. destruct (M w w' H) as [R W]. destruct (run m w) as [[x|e] w1], (run m' w') as [[x'|e'] w1']; cbn [fst snd] in *; try discriminate.
    - injection R as <-. exact (F x w1 w1' W).
    - injection R as <-. auto.
  Qed.
  Lemma side_ret {A} (x : A) : side_by_side (Ret x) (Ret x).
  Proof. intros w w' H. auto. Qed.
  Lemma side_throw {A} e : side_by_side (@Throw A e) (Throw e).
  Proof. intros w w' H. auto. Qed.
  Lemma side_lift {A} (r r' : res A) : r = r' -> side_by_side (lift r) (lift r').
  Proof. intros <- w w' H. rewrite !run_lift. auto. Qed.

  Lemma Ef : @f_repr a = @f_repr b. Proof. rewrite <- (sp_float _ _ Ea). apply (sp_float _ _ Eb). Qed.
  Lemma Eab : same_python a b.
  Proof. destruct Ea, Eb. constructor; congruence. Qed.

  Lemma al_unchanged w w' v v' : al w w' -> w_in v = w_in w -> w_out v = w_out w -> w_in v' = w_in w' -> w_out v' = w_out w' -> w_in v = w_in v' /\ w_out v = w_out v'.
  Proof. intros [_ _ _ I O] -> -> -> ->. auto. Qed.
  Lemma al_put_db w w' d d' : al w w' -> @dict_ok base d -> dict_ser d = true -> @dict_ok base d' -> dict_ser d' = true -> timeless_db d = timeless_db d' ->
    al (put db (dump_text Indent4 (VDict d)) w) (put db (dump_text Indent4 (VDict d')) w').
  Proof.
    intros [HD HX HW HI HO] V1 S1 V2 S2 T. destruct DI as (N1 & N2 & N3). constructor.
    - left. exists d, d'. split; [split; [apply put_has|auto]|]. split; [split; [apply put_has|auto]|exact T].
    - destruct HX as [(x & x' & (O1 & st & F1) & (O2 & st' & F2) & X)|((t & F & L) & (t' & F' & L'))].
      + left. exists x, x'. split; [split; [exact O1|exists st; apply has_put_other; auto]|]. split; [split; [exact O2|exists st'; apply has_put_other; auto]|exact X].
      + right. split; eexists; (split; [apply has_put_other; [auto|eassumption]|assumption]).
    - destruct HW as (t & F & F'). exists t. split; apply has_put_other; auto.
    - exact HI.
    - exact HO.
  Qed.
  Lemma al_put_bad_db w w' t t' : al w w' -> @load_json base t = Err JSONDecodeError -> @load_json base t' = Err JSONDecodeError -> al (put db t w) (put db t' w').
  Proof.
    intros [HD HX HW HI HO] L1 L2. destruct DI as (N1 & N2 & N3). constructor.
    - right. split; eexists; (split; [apply put_has|assumption]).
    - destruct HX as [(x & x' & (O1 & st & F1) & (O2 & st' & F2) & X)|((t1 & F & L) & (t1' & F' & L'))].
      + left. exists x, x'. split; [split; [exact O1|exists st; apply has_put_other; auto]|]. split; [split; [exact O2|exists st'; apply has_put_other; auto]|exact X].
      + right. split; eexists; (split; [apply has_put_other; [auto|eassumption]|assumption]).
    - destruct HW as (t1 & F & F'). exists t1. split; apply has_put_other; auto.
    - exact HI.
    - exact HO.
  Qed.
  Lemma db_other q t w w' t' : db <> q -> (exists d d', @db_file base db d w /\ @db_file base db d' w' /\ timeless_db d = timeless_db d') \/ (@no_json base db w /\ @no_json base db w') ->
    (exists d d', @db_file base db d (put q t w) /\ @db_file base db d' (put q t' w') /\ timeless_db d = timeless_db d') \/ (@no_json base db (put q t w) /\ @no_json base db (put q t' w')).
  Proof.
    intros N [(d & d' & (F & V) & (F' & V') & T)|((t1 & F & L) & (t1' & F' & L'))].
    - left. exists d, d'. split; [split; [apply has_put_other; auto|exact V]|]. split; [split; [apply has_put_other; auto|exact V']|exact T].
    - right. split; eexists; (split; [apply has_put_other; [auto|eassumption]|assumption]).
  Qed.
  Lemma al_put_ix w w' x x' : al w w' -> index_ok x -> index_ok x' -> same_index x x' ->
    al (put ix (dump_text Indent4 (index_val x)) w) (put ix (dump_text Indent4 (index_val x')) w').
  Proof.
    intros [HD HX HW HI HO] O O' X. destruct DI as (N1 & N2 & N3). constructor.
    - apply db_other; assumption.
    - left. exists x, x'. split; [split; [exact O|exists Indent4; apply put_has]|]. split; [split; [exact O'|exists Indent4; apply put_has]|exact X].
    - destruct HW as (t & F & F'). exists t. split; apply has_put_other; auto.
    - exact HI.
    - exact HO.
  Qed.
  Lemma al_put_bad_ix w w' t t' : al w w' -> @load_json base t = Err JSONDecodeError -> @load_json base t' = Err JSONDecodeError -> al (put ix t w) (put ix t' w').
  Proof.
    intros [HD HX HW HI HO] L1 L2. destruct DI as (N1 & N2 & N3). constructor.
    - apply db_other; assumption.
    - right. split; eexists; (split; [apply put_has|assumption]).
    - destruct HW as (t1 & F & F'). exists t1. split; apply has_put_other; auto.
    - exact HI.
    - exact HO.
  Qed.
  Lemma al_put_wn w w' t : al w w' -> al (put wn t w) (put wn t w').
  Proof.
    intros [HD HX HW HI HO]. destruct DI as (N1 & N2 & N3). constructor.
    - apply db_other; assumption.
    - destruct HX as [(x & x' & (O1 & st & F1) & (O2 & st' & F2) & X)|((t1 & F & L) & (t1' & F' & L'))].
      + left. exists x, x'. split; [split; [exact O1|exists st; apply has_put_other; auto]|]. split; [split; [exact O2|exists st'; apply has_put_other; auto]|exact X].
      + right. split; eexists; (split; [apply has_put_other; [auto|eassumption]|assumption]).
    - exists t. split; apply put_has.
    - exact HI.
    - exact HO.
  Qed.

  (** the counter *)
  Lemma side_get_wn : side_by_side (@get_current_wiggle_number a wn) (@get_current_wiggle_number b wn).
  Proof.
    destruct (python_patterns a b Eab) as (_ & _ & _ & _ & _ & _ & _ & _ & _ & _ & _ & ->). intros w w' H.
    destruct (al_wn _ _ _ H) as (t & F & F'). unfold get_current_wiggle_number. rewrite !run_bind, !run_read.
    assert (G : get wn w = Some (EFile t)) by exact F. assert (G' : get wn w' = Some (EFile t)) by exact F'. rewrite G, G'. cbn [read_res].
    destruct t; [auto|]. rewrite !run_lift. auto.
  Qed.
  Lemma side_update_wn z : side_by_side (update_wiggle_number wn z) (update_wiggle_number wn z).
  Proof.
    intros w w' H. destruct (al_wn _ _ _ H) as (t & F & F'). rewrite (run_update_wn wn z t w F), (run_update_wn wn z t w' F'). cbn [fst snd].
    split; [reflexivity|apply al_put_wn; exact H].
  Qed.

  (** the database *)
  Lemma side_add_db items items' : @dict_ok a items -> @dict_ok b items' -> Forall2 same_item items items' ->
    side_by_side (@add_item_to_database a db items) (@add_item_to_database b db items').
  Proof.
    intros V V' F w w' H. destruct (items_keys _ _ F) as (K & T & S).
    destruct (al_db _ _ _ H) as [(d & d' & D1 & D2 & TD)|((t & F1 & L1) & (t' & F2 & L2))].
    2:{ rewrite !run_add_item. unfold exec_add. rewrite (load_json_same _ _ (sp_float _ _ Ea)) in L1. rewrite (load_json_same _ _ (sp_float _ _ Eb)) in L2.
        rewrite (@parse_res_bad a _ _ _ _ F1 L1), (@parse_res_bad b _ _ _ _ F2 L2). auto. }
    pose proof (db_file_same _ _ (sp_float _ _ Ea) _ _ _ D1) as Da1. pose proof (db_file_same _ _ (sp_float _ _ Eb) _ _ _ D2) as Db1.
    assert (KD : keys d = keys d') by (apply (f_equal (map fst)) in TD; unfold timeless_db, keys in *; rewrite !map_map in TD; exact TD).
    destruct (existsb (fun k => s_mem k (keys d)) (keys items)) eqn:X.
    - apply existsb_exists in X as (k & Hk & Hk'). apply s_mem_In in Hk'. rewrite (@add_item_exists a _ _ _ _ k Da1 Hk Hk').
      rewrite KD in Hk'. rewrite K in Hk. rewrite (@add_item_exists b _ _ _ _ k Db1 Hk Hk'). auto.
    - assert (ND : forall k, In k (keys items) -> ~ In k (keys d)).
      { intros k Hk Hk'. assert (existsb (fun k => s_mem k (keys d)) (keys items) = true); [|congruence]. apply existsb_exists. exists k. split; [exact Hk|]. apply s_mem_In. exact Hk'. }
      assert (V1 : @dict_ok a (d ++ items)) by (apply dict_ok_join; [apply Da1|exact V|exact ND]).
      assert (V2 : @dict_ok b (d' ++ items')) by (apply dict_ok_join; [apply Db1|exact V'|rewrite <- KD, <- K; exact ND]).
      rewrite (@write_new_db a _ _ _ _ Da1 V1), (@write_new_db b _ _ _ _ Db1 V2), S. cbn [fst snd]. split; [reflexivity|].
      destruct (dict_ser items') eqn:Sr.
      + apply al_put_db; [exact H| | | | |].
        * apply (dict_same a base (eq_sym (sp_float _ _ Ea)) _ V1).
        * destruct Da1 as (_ & _ & Q). unfold dict_ser in *. rewrite forallb_app, S, Q. reflexivity.
        * apply (dict_same b base (eq_sym (sp_float _ _ Eb)) _ V2).
        * destruct Db1 as (_ & _ & Q). unfold dict_ser in *. rewrite forallb_app, Sr, Q. reflexivity.
        * unfold timeless_db in *. rewrite !map_app. congruence.
      + apply al_put_bad_db; [exact H| |].
        * rewrite (load_json_same _ _ (sp_float _ _ Ea)). unfold load_json.
          rewrite (@dict_cut a Indent4 (d ++ items) (dump_text Indent4 (VDict (d ++ items))) [] V1); [reflexivity|rewrite app_nil_r; reflexivity|].
          right. unfold dict_ser in *. rewrite forallb_app, S. apply andb_false_r.
        * rewrite (load_json_same _ _ (sp_float _ _ Eb)). unfold load_json.
          rewrite (@dict_cut b Indent4 (d' ++ items') (dump_text Indent4 (VDict (d' ++ items'))) [] V2); [reflexivity|rewrite app_nil_r; reflexivity|].
          right. unfold dict_ser in *. rewrite forallb_app, Sr. apply andb_false_r.
  Qed.

  (** the indexes *)
  Lemma keys_d_set {A} k (v v' : A) d d' : keys d = keys d' -> keys (d_set k v d) = keys (d_set k v' d').
  Proof.
    revert d'; induction d as [|[q x] d IH]; intros [|[q' x'] d'] E; cbn [keys map fst] in E; try discriminate; [reflexivity|].
    injection E as <- E. cbn [d_set]. destruct (str_eqb k q); cbn [keys map fst]; f_equal; [exact E|apply IH; exact E].
  Qed.
  Lemma rel_keys items : forall d d', keys d = keys d' -> keys (@rel_add_all a items d) = keys (@rel_add_all b items d').
  Proof.
    unfold rel_add_all. induction items as [|[k s] items IH]; intros d d' E; cbn [fold_left]; [exact E|]. apply IH. unfold rel_add. apply keys_d_set. exact E.
  Qed.
  Lemma side_add_indexes ns ms : items_ok (rel_index_items ns) -> Forall str_ok (labels_to_add ms) -> Forall str_ok (names_to_add ms) ->
    side_by_side (@add_indexes a ns ms g) (@add_indexes b ns ms g).
  Proof.
    intros IO LO NO w w' H. unfold add_indexes. rewrite !run_bind.
    destruct (al_ix _ _ _ H) as [(x & x' & F1 & F2 & (XK & XR & XL & XN))|((t & F1 & L1) & (t' & F2 & L2))].
    2:{ rewrite (load_json_same _ _ (sp_float _ _ Ea)) in L1. rewrite (load_json_same _ _ (sp_float _ _ Eb)) in L2.
        rewrite (@run_add_rels_bad a _ _ _ _ F1 L1), (@run_add_rels_bad b _ _ _ _ F2 L2). auto. }
    destruct (rel_index_items ns) as [|i its] eqn:RI.
    - destruct F1 as (O1 & st1 & F1), F2 as (O2 & st2 & F2).
      rewrite (@run_add_rels_none a _ _ _ _ O1 F1), (@run_add_rels_none b _ _ _ _ O2 F2). rewrite !run_bind.
      pose proof (@doubled_index a st1 Indent4 x [] O1) as B1. pose proof (@doubled_index b st2 Indent4 x' [] O2) as B2. rewrite app_nil_r in B1, B2.
      rewrite (@run_add_labels_bad a _ _ _ _ (put_has _ _ _) B1), (@run_add_labels_bad b _ _ _ _ (put_has _ _ _) B2). cbn [fst snd].
      split; [reflexivity|]. apply al_put_bad_ix; [exact H| |].
      + rewrite (load_json_same _ _ (sp_float _ _ Ea)). exact B1.
      + rewrite (load_json_same _ _ (sp_float _ _ Eb)). exact B2.
    - assert (NE : i :: its <> []) by discriminate. rewrite <- RI in *. clear RI i its. set (its := rel_index_items ns) in *.
      rewrite (@run_add_rels a _ _ _ _ (rt_base _ Da) IO NE F1), (@run_add_rels b _ _ _ _ (rt_base _ Db) IO NE F2). rewrite !run_bind.
      destruct (@rel_add_all_ok a its (ix_rels x) (rt_base _ Da) IO (rels_ok_index _ (proj1 F1))) as [RO1 RM1].
      destruct (@rel_add_all_ok b its (ix_rels x') (rt_base _ Db) IO (rels_ok_index _ (proj1 F2))) as [RO2 RM2].
      pose proof (rel_keys its (ix_rels x) (ix_rels x') XK) as RK.
      set (r1 := @rel_add_all a its (ix_rels x)) in *. set (r2 := @rel_add_all b its (ix_rels x')) in *.
      assert (G1 : ix_file_is ix (with_rels x r1) (put ix (dump_text Indent4 (index_val (with_rels x r1))) w)).
      { split; [|exists Indent4; apply put_has]. destruct (proj1 F1), RO1 as (? & ? & ?). constructor; assumption. }
      assert (G2 : ix_file_is ix (with_rels x' r2) (put ix (dump_text Indent4 (index_val (with_rels x' r2))) w')).
      { split; [|exists Indent4; apply put_has]. destruct (proj1 F2), RO2 as (? & ? & ?). constructor; assumption. }
      destruct (@run_add_labels a _ _ _ _ (rt_base _ Da) LO G1) as (l1 & EL1 & NL1 & OL1 & ML1).
      destruct (@run_add_labels b _ _ _ _ (rt_base _ Db) LO G2) as (l2 & EL2 & NL2 & OL2 & ML2).
      rewrite put_put in EL1, EL2. rewrite EL1, EL2. rewrite !run_bind.
      assert (I1 : ix_file_is ix (with_labels (with_rels x r1) l1) (put ix (dump_text Indent4 (index_val (with_labels (with_rels x r1) l1))) w)).
      { split; [|exists Indent4; apply put_has]. destruct (proj1 G1). constructor; assumption. }
      assert (I2 : ix_file_is ix (with_labels (with_rels x' r2) l2) (put ix (dump_text Indent4 (index_val (with_labels (with_rels x' r2) l2))) w')).
      { split; [|exists Indent4; apply put_has]. destruct (proj1 G2). constructor; assumption. }
      destruct (@run_add_names a _ _ _ _ (rt_base _ Da) NO I1) as (n1 & EN1 & NN1 & ON1 & MN1).
      destruct (@run_add_names b _ _ _ _ (rt_base _ Db) NO I2) as (n2 & EN2 & NN2 & ON2 & MN2).
      rewrite put_put in EN1, EN2. rewrite EN1, EN2. cbn [run fst snd]. split; [reflexivity|]. apply al_put_ix; [exact H| | |].
      + destruct (proj1 I1). constructor; assumption.
      + destruct (proj1 I2). constructor; assumption.
      + split; [exact RK|]. split; [|split].
        * intros k z. cbn [ix_rels with_names with_labels with_rels]. rewrite RM1, RM2, (XR k z). reflexivity.
        * intros s. cbn [ix_labels with_names with_labels with_rels] in *. rewrite ML1, ML2, (XL s). reflexivity.
        * intros s. cbn [ix_names with_names with_labels with_rels] in *. rewrite MN1, MN2, (XN s). reflexivity.
  Qed.

  Lemma side_lift_bind {A B} (r : res A) (f f' : A -> io B) : (forall x, r = Ok x -> side_by_side (f x) (f' x)) -> side_by_side (io_bind (lift r) f) (io_bind (lift r) f').
  Proof. intros H w w' W. rewrite !run_bind, !run_lift. destruct r as [x|e]; [exact (H x eq_refl w w' W)|auto]. Qed.

  Lemma side_make l : Forall names_ok (patterns_of l) -> side_by_side (@make a l g) (@make b l g).
  Proof.
    intros N. unfold make. apply side_bind; [apply side_get_wn|]. intros z. unfold process_parsed_make_list.
    change (flat_map pm_patterns l) with (patterns_of l). apply side_lift_bind. intros [z' ms] E1.
    rewrite (mapM_ext _ _ ms (make_nodes_same a b Eab)). apply side_lift_bind. intros nss E2.
    destruct (@prepare_spec b (patterns_of l) z) as [(ms' & nss' & items' & E1' & E2' & R')|(NA' & [(e' & E1')|(ms' & e' & E1' & E2')])]; [| congruence|].
    2:{ rewrite E1 in E1'. injection E1' as _ <-. congruence. }
    rewrite E1 in E1'. injection E1' as -> <-. rewrite E2 in E2'. injection E2' as <-.
    destruct (@prepare_spec a (patterns_of l) z) as [(ms1 & nss1 & items & E1' & E2' & R)|(NA' & [(e' & E1')|(ms1 & e' & E1' & E2')])]; [| congruence|].
    2:{ rewrite E1 in E1'. injection E1' as <-. rewrite (mapM_ext _ _ ms (make_nodes_same a b Eab)) in E2'. congruence. }
    rewrite E1 in E1'. injection E1' as <-. rewrite (mapM_ext _ _ ms (make_nodes_same a b Eab)), E2 in E2'. injection E2' as <-.
    apply side_bind; [|intros _; apply side_bind; [|intros _; apply side_bind; [apply side_update_wn|intros _; apply side_ret]]].
    - unfold add_nodes_to_graph. apply side_add_db; [| |apply nodes_same].
      + rewrite (rd_nodes _ _ _ _ _ R). eapply (@entries_all_ok a Da); [exact N|apply R].
      + rewrite (rd_nodes _ _ _ _ _ R'). eapply (@entries_all_ok b Db); [exact N|apply R'].
    - apply side_add_indexes; [apply R| |].
      + apply Forall_forall. intros s Hs. apply (rd_labels _ _ _ _ _ R) in Hs. eapply names_str_ok; eauto.
      + apply Forall_forall. intros s Hs. apply (rd_names _ _ _ _ _ R) in Hs. eapply names_str_ok; eauto.
  Qed.

  Lemma mem_same (l x y : list pystr) : same_members x y -> existsb (fun s => s_mem s x) l = existsb (fun s => s_mem s y) l.
  Proof.
    intros M. induction l as [|s l IH]; cbn [existsb]; [reflexivity|]. rewrite IH. f_equal.
    destruct (s_mem s x) eqn:X, (s_mem s y) eqn:Y; try reflexivity.
    - apply s_mem_In, M, s_mem_In in X. congruence.
    - apply s_mem_In, M, s_mem_In in Y. congruence.
  Qed.
  Lemma side_find f : side_by_side (@find a f g) (@find b f g).
  Proof.
    intros w w' H. rewrite !run_find, (find_parsed_same a b Eab). destruct (@process_parsed_find b f) as [fp|e]; [|auto].
    assert (X : fst (run (@find_short_circuit a fp g) w) = fst (run (@find_short_circuit b fp g) w')).
    { unfold find_short_circuit. rewrite !run_bind.
      destruct (al_ix _ _ _ H) as [(x & x' & F1 & F2 & (XK & XR & XL & XN))|((t & F1 & L1) & (t' & F2 & L2))].
      - rewrite (@load_labels a _ _ _ F1), (@load_labels b _ _ _ F2), !run_bind, (@load_names a _ _ _ F1), (@load_names b _ _ _ F2).
        unfold node_label_is_in_index, relationship_name_is_in_index. rewrite (mem_same _ _ _ XL), (mem_same _ _ _ XN).
        destruct (negb _); [reflexivity|]. destruct (existsb _ _); reflexivity.
      - rewrite (load_json_same _ _ (sp_float _ _ Ea)) in L1. rewrite (load_json_same _ _ (sp_float _ _ Eb)) in L2.
        rewrite (@load_labels_bad a _ _ _ F1 L1), (@load_labels_bad b _ _ _ F2 L2), !run_bind, (@load_names_bad a _ _ _ F1 L1), (@load_names_bad b _ _ _ F2 L2).
        destruct (negb _); [reflexivity|]. destruct (relationship_name_is_in_index _ _); reflexivity. }
    rewrite X. destruct (fst (run (@find_short_circuit b fp g) w')) as [[|]|e]; cbn [fst snd]; auto.
    split; [reflexivity|]. destruct H as [A1 A2 A3 A4 A5]. constructor; cbn [w_in w_out]; try assumption. rewrite A5. reflexivity.
  Qed.
  Lemma side_query q : side_by_side (@query a q g) (@query b q g).
  Proof.
    unfold query. rewrite (parse_query_same a b Eab). apply side_lift_bind. intros pq P. apply side_bind; [|intros _; apply side_ret].
    unfold execute_query. apply side_bind.
    - destruct (q_make pq) as [[|m ms]|] eqn:Q; [apply side_ret| |apply side_ret]. apply side_make.
      unfold parse_query_string in P. destruct (@parse_make b q) as [mk|] eqn:PM; cbn [bind] in P; [|discriminate].
      destruct (@parse_find b q) as [[f|]|]; cbn [bind] in P; try discriminate. destruct (@parse_report b q _); cbn [bind] in P; [|discriminate].
      injection P as <-. cbn [q_make] in Q. subst mk. exact (parsed_names_ok Db q _ PM).
    - intros _. destruct (q_find pq); [|apply side_throw]. apply side_bind; [apply side_find|]. intros found.
      apply side_bind; [|intros _; apply side_ret]. destruct (q_report pq); apply side_ret.
  Qed.
End Runs.

Theorem same_answers base g : distinct_files g -> forall qs qs' w w', Forall (fun pq => start_of base (fst pq)) qs -> Forall (fun pq => start_of base (fst pq)) qs' ->
  map snd qs = map snd qs' -> @alike base g w w' ->
  fst (session_of g qs w) = fst (session_of g qs' w') /\ @alike base g (snd (session_of g qs w)) (snd (session_of g qs' w')).
Proof.
  intros DI. induction qs as [|[a q] qs IH]; intros [|[b q'] qs'] w w' F F' E H; cbn [map snd] in E; try discriminate; [cbn [session_of fst snd]; auto|].
  injection E as <- E. inversion F as [|? ? [Da Ea] F1]; subst. inversion F' as [|? ? [Db Eb] F2]; subst. cbn [fst] in *. cbn [session_of].
  destruct (side_query base a b Da Db Ea Eb g DI q w w' H) as [R W].
  destruct (run (@query a q g) w) as [r w1], (run (@query b q g) w') as [r' w1']. cbn [fst snd] in *. subst r'.
  specialize (IH qs' w1 w1' F1 F2 E W). destruct (session_of g qs w1) as [rs w2], (session_of g qs' w1') as [rs' w2']. cbn [fst snd] in *.
  destruct IH as [-> W2]. auto.
Qed.
Theorem stored_alike base g G w : @stored base g G w -> @alike base g w w.
Proof.
  intros [A [B1 B2 B3 B4] C X Y]. constructor; auto.
  - left. exists (g_db G), (g_db G). split; [split; auto|]. split; [split; auto|reflexivity].
  - left. exists (g_ix G), (g_ix G). split; [split; auto|]. split; [split; auto|]. split; [reflexivity|]. split; [intros k z; reflexivity|]. split; intros s; reflexivity.
  - eauto.
Qed.
Theorem alike_stored base g G w w' : @stored base g G w -> @alike base g w w' -> exists G', @stored base g G' w' /\ same_but_times G G'.
Proof.
  intros [A [B1 B2 B3 B4] C X Y] [HD HX HW _ _].
  assert (FU : forall p t t' v, file_is p t v -> file_is p t' v -> t = t') by (unfold file_is; intros; congruence).
  destruct HD as [(d & d' & (F1 & V1 & S1) & (F2 & V2 & S2) & T)|((t & F & L) & _)].
  2:{ rewrite (FU _ _ _ _ F C), load_json_dump in L; [discriminate|exact B1|exact B2]. }
  assert (d = g_db G).
  { pose proof (FU _ _ _ _ F1 C) as Q. pose proof (load_json_dump Indent4 (VDict d) V1 S1) as Q1. rewrite Q, load_json_dump in Q1; [congruence|exact B1|exact B2]. }
  subst d. destruct X as (st & X).
  destruct HX as [(x & x' & (O1 & st1 & F3) & (O2 & st2 & F4) & I)|((t & F & L) & _)].
  2:{ rewrite (FU _ _ _ _ F X), load_index in L; [discriminate|exact B3]. }
  destruct HW as (t & F5 & F6). rewrite (FU _ _ _ _ F5 Y) in F6.
  assert (x = g_ix G).
  { apply index_inj. pose proof (@load_index base st1 x O1) as Q1. rewrite (FU _ _ _ _ F3 X), load_index in Q1; [congruence|exact B3]. }
  subst x. exists {| g_db := d'; g_ix := x'; g_next := g_next G |}. split.
  - constructor; cbn [g_db g_ix g_next]; [exact A| |exact F2|exists st2; exact F4|exact F6].
    constructor; cbn [g_db g_ix g_next]; [exact V2|exact S2|exact O2|]. intros k Hk. apply B4.
    assert (KD : keys (g_db G) = keys d') by (apply (f_equal (map fst)) in T; unfold timeless_db, keys in *; rewrite !map_map in T; exact T). rewrite KD. exact Hk.
  - split; [exact T|]. split; [exact I|reflexivity].
Qed.
