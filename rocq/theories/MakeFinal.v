(** * MakeFinal: the statements of Prop_Make, assembled *)
From Verif Require Import PyBase BaseFacts Json JsonFacts RtLaws Props PropsFacts Checks Statements Data FS FSFacts Store
  SpecStore StoreFacts Make SpecMake MakeFacts MakeRun MakeMore Find SpecHistory HistoryFacts.
From Coq Require Import ZifyBool ZifyN ZifyNat.

Section Final.
  Context (rt : PyRt).

  Lemma same_but_in (ps qs : list path) w w' : (forall p, In p ps -> In p qs) -> unchanged_but ps w w' -> unchanged_but qs w w'.
  Proof. intros H (A & B & C). repeat split; auto. Qed.

  Theorem make_ok_effect g G w l b w' : rt_data rt -> stored g G w -> Forall names_ok (patterns_of l) ->
    run (make l g) w = (Ok b, w') ->
    b = true /\ unchanged_but [database_fp g; indexes_fp g; wiggle_number_fp g] w w' /\
    exists items, acceptable (patterns_of l) (g_next G) items /\ dict_ser items = true /\
      (exists k z, owns (patterns_of l) (g_next G) k z) /\
      exists G', stored g G' w' /\ made (patterns_of l) G G' /\ g_db G' = g_db G ++ items.
  Proof.
    intros D S N H.
    destruct (make_cases D g G w S l N) as [(_ & e & E)|[(items & AC & Sr & E)|[(items & st & AC & Sr & O & F & E)|(items & G' & w1 & AC & Sr & O & E & M & S' & Ew & Edb)]]];
      rewrite E in H; try discriminate. inv H. split; [reflexivity|]. split.
    - apply same_but_put; [cbn; tauto|]. apply same_but_put; [cbn; tauto|]. apply same_but_put; [cbn; tauto|]. apply same_but_refl.
    - exists items. repeat (split; [assumption|]). exists G'. auto.
  Qed.

  Theorem make_ok_when g G w l items : rt_data rt -> stored g G w -> Forall names_ok (patterns_of l) ->
    acceptable (patterns_of l) (g_next G) items -> dict_ser items = true -> (exists k z, owns (patterns_of l) (g_next G) k z) ->
    exists w', run (make l g) w = (Ok true, w').
  Proof. intros D S N A Sr O. destruct (make_succeeds D g G w S l items N A Sr O) as (G' & w' & H & _). eauto. Qed.

  Theorem make_half g G w l items : rt_data rt -> stored g G w -> Forall names_ok (patterns_of l) ->
    acceptable (patterns_of l) (g_next G) items -> dict_ser items = true -> (forall k z, ~ owns (patterns_of l) (g_next G) k z) ->
    exists t w', run (make l g) w = (Err JSONDecodeError, w') /\ unchanged_but [database_fp g; indexes_fp g] w w' /\
      db_file (database_fp g) (g_db G ++ items) w' /\
      file_is (indexes_fp g) t w /\ file_is (indexes_fp g) (t ++ dump_text Indent4 (index_val (g_ix G))) w' /\
      run (read_json (indexes_fp g)) w' = (Err JSONDecodeError, w') /\
      run (get_current_wiggle_number (wiggle_number_fp g)) w' = (Ok (g_next G), w').
  Proof.
    intros D S N A Sr O. destruct (st_ix _ _ _ S) as (st & F).
    exists (dump_text st (index_val (g_ix G))), (half_made g G w items st).
    split; [apply make_no_owner; auto|].
    split; [apply same_but_put; [cbn; tauto|]; apply same_but_put; [cbn; tauto|]; apply same_but_refl|].
    destruct (st_files _ _ _ S) as (F1 & F2 & F3). split; [|split; [|split; [|split]]].
    - split; [|split].
      + apply has_put_other; [congruence|]. apply put_has.
      + eapply stored_join; eauto. apply A.
      + unfold dict_ser. rewrite forallb_app. fold (dict_ser (g_db G)) (dict_ser items). rewrite Sr, (g_db_ser _ (st_ok _ _ _ S)). reflexivity.
    - exact F.
    - apply put_has.
    - rewrite run_read_json. erewrite parse_res_bad; [reflexivity|apply put_has|].
      pose proof (doubled_index st Indent4 (g_ix G) [] (g_ix_ok _ (st_ok _ _ _ S))) as Q. rewrite app_nil_r in Q. exact Q.
    - apply run_get_wn. apply has_put_other; [congruence|]. apply has_put_other; [congruence|]. apply S.
  Qed.

  (** the converse: the only way to a change that is then reported as an exception *)
  Theorem make_half_only g G w l e w' : rt_data rt -> stored g G w -> Forall names_ok (patterns_of l) ->
    run (make l g) w = (Err e, w') -> w' <> w ->
    exists items, acceptable (patterns_of l) (g_next G) items /\
      (e = TypeError /\ dict_ser items = false \/
       e = JSONDecodeError /\ dict_ser items = true /\ forall k z, ~ owns (patterns_of l) (g_next G) k z).
  Proof.
    intros D S N H NE.
    destruct (make_cases D g G w S l N) as [(_ & e' & E)|[(items & AC & Sr & E)|[(items & st & AC & Sr & O & F & E)|(items & G' & w1 & AC & Sr & O & E & M & S' & Ew & Edb)]]];
      rewrite E in H; inv H; [congruence| |]; exists items; auto 6.
  Qed.

  Lemma half_broken g G w l items w' : rt_data rt -> stored g G w -> Forall names_ok (patterns_of l) -> patterns_of l <> [] ->
    acceptable (patterns_of l) (g_next G) items -> dict_ser items = true -> (forall k z, ~ owns (patterns_of l) (g_next G) k z) ->
    run (make l g) w = (Err JSONDecodeError, w') ->
    exists t, broken g (g_db G ++ items) (g_next G) t w' /\ In (str_of_Z (g_next G)) (keys (g_db G ++ items)).
  Proof.
    intros D S N NE A Sr O H. destruct (make_half g G w l items D S N A Sr O) as (t & w1 & H1 & _ & DB & _ & IX & RI & _).
    rewrite H in H1. inv H1. exists (t ++ dump_text Indent4 (index_val (g_ix G))). split.
    - constructor; [exact DB| |exact IX|].
      + pose proof (make_half g G w l items D S N A Sr O) as (t' & w2 & H2 & (U & _) & _). rewrite H in H2. inv H2.
        unfold has_file, get. rewrite U; [apply S|]. destruct (st_files _ _ _ S) as (F1 & F2 & F3). intros [E|[E|[]]]; congruence.
      + rewrite run_read_json in RI. unfold parse_res in RI. unfold file_is in IX. unfold get in RI. rewrite IX in RI. cbn [read_res bind] in RI. congruence.
    - rewrite keys_app, in_app_iff. right. destruct (patterns_of l) as [|p ps]; [congruence|]. eapply entries_first. apply A.
  Qed.

  Theorem wedge g G w l items w' cs : rt_data rt -> stored g G w -> Forall names_ok (patterns_of l) -> patterns_of l <> [] ->
    acceptable (patterns_of l) (g_next G) items -> dict_ser items = true -> (forall k z, ~ owns (patterns_of l) (g_next G) k z) ->
    run (make l g) w = (Err JSONDecodeError, w') ->
    Forall2 refused cs (fst (perform_all g cs w')) /\ w_fs (snd (perform_all g cs w')) = w_fs w'.
  Proof.
    intros D S N NE A Sr O H. destruct (half_broken g G w l items w' D S N NE A Sr O H) as (t & B & K). eapply wedged_all; eauto. apply S.
  Qed.
  Theorem wedge_exists g G w l items w' l2 items2 : rt_data rt -> stored g G w -> Forall names_ok (patterns_of l) -> patterns_of l <> [] ->
    acceptable (patterns_of l) (g_next G) items -> dict_ser items = true -> (forall k z, ~ owns (patterns_of l) (g_next G) k z) ->
    run (make l g) w = (Err JSONDecodeError, w') ->
    patterns_of l2 <> [] -> acceptable (patterns_of l2) (g_next G) items2 ->
    run (make l2 g) w' = (Err NodeExistsError, w').
  Proof.
    intros D S N NE A Sr O H NE2 A2. destruct (half_broken g G w l items w' D S N NE A Sr O H) as (t & B & K). eapply wedged_taken; eauto.
  Qed.

  Theorem never_lost g G w cs : rt_data rt -> stored g G w -> Forall call_ok cs ->
    exists more z extra, let w' := snd (perform_all g cs w) in
      db_file (database_fp g) (g_db G ++ more) w' /\
      run (load_database (database_fp g)) w' = (Ok (VDict (g_db G ++ more)), w') /\
      run (get_current_wiggle_number (wiggle_number_fp g)) w' = (Ok z, w') /\ (g_next G <= z)%Z /\
      (forall k, In k (keys (g_db G ++ more)) -> exists n, k = str_of_Z n /\ (n < z + extra)%Z) /\
      (extra = 0%Z \/ exists c, In c cs /\ extra = size_all (patterns_in c)).
  Proof.
    intros D S HF. destruct (alive_all D g (st_files _ _ _ S) cs (g_db G) (g_next G) 0%Z w HF) as (more & z & extra & A & Hz & HX);
      [left; exists G; auto|reflexivity|].
    exists more, z, extra. cbv zeta. set (w' := snd (perform_all g cs w)) in *.
    assert (Q : db_file_is (database_fp g) (g_db G ++ more) w' /\ has_file (wiggle_number_fp g) (str_of_Z z) w' /\ key_below (z + extra) (g_db G ++ more)).
    { destruct A as [(G' & S' & Ed & Ez & Ex)|(t & B & KB & _)].
      - rewrite <- Ed, <- Ez, Ex. split; [apply stored_db; assumption|]. split; [apply S'|]. rewrite Z.add_0_r. intros k. apply (g_below _ (st_ok _ _ _ S')).
      - split; [apply B|]. split; [apply B|assumption]. }
    destruct Q as (Q1 & Q2 & Q3). split; [exact Q1|]. split; [apply load_database_ok; exact Q1|]. split; [apply run_get_wn; exact Q2|]. auto.
  Qed.

  (** C17-C20 on the database after a successful MAKE *)
  Theorem right_lost g G w l w' ps1 p ps2 : rt_data rt -> stored g G w -> Forall names_ok (patterns_of l) ->
    patterns_of l = ps1 ++ p :: ps2 -> drawn (right_node p) = true ->
    run (make l g) w = (Ok true, w') ->
    exists d z, run (load_database (database_fp g)) w' = (Ok (VDict d), w') /\
      run (get_current_wiggle_number (wiggle_number_fp g)) w' = (Ok z, w') /\
      let r := num_right p (g_next G + size_all ps1) in
      (g_next G <= r < z)%Z /\ ~ In (str_of_Z r) (keys d) /\ forall n a b, ~ lists_link d r n a b.
  Proof.
    intros D S N EP Dr H. destruct (make_ok_effect g G w l true w' D S N H) as (_ & _ & items & A & _ & _ & G' & S' & M & Ed).
    exists (g_db G'), (g_next G'). split; [apply load_database_ok; apply stored_db; assumption|].
    split; [apply run_get_wn; apply S'|]. cbv zeta. set (r := num_right p (g_next G + size_all ps1)).
    assert (R : (g_next G <= r < g_next G')%Z).
    { rewrite (md_next _ _ _ M), EP. unfold r, num_right. clear - Dr.
      assert (Q : size_all (ps1 ++ p :: ps2) = (size_all ps1 + size p + size_all ps2)%Z).
      { induction ps1 as [|q qs IH]; cbn [app size_all]; [lia|]. rewrite IH. lia. }
      rewrite Q. unfold size. rewrite Dr. cbn [one].
      pose proof (size_all_pos ps1). pose proof (size_all_pos ps2). pose proof (one_range (drawn (middle_node p))).
      pose proof (one_range (drawn (left_middle_rel p))). pose proof (one_range (drawn (middle_right_rel p))). lia. }
    assert (K : ~ In (str_of_Z r) (keys (g_db G'))).
    { rewrite Ed, keys_app, in_app_iff. intros [K|K].
      - destruct (g_below _ (st_ok _ _ _ S) _ K) as (z & E & Hz). apply str_of_Z_inj in E. lia.
      - destruct A as [W E]. rewrite EP in W, E. eapply right_not_key; eauto. }
    split; [exact R|]. split; [exact K|]. intros n a b (v & _ & _ & Hv & _). apply K. apply (in_map fst) in Hv. exact Hv.
  Qed.

  Theorem ends_stored g G w l w' ps1 p ps2 k : rt_data rt -> stored g G w -> Forall names_ok (patterns_of l) ->
    patterns_of l = ps1 ++ p :: ps2 -> run (make l g) w = (Ok true, w') ->
    In k (links p (g_next G + size_all ps1)) -> In (lk_from k) (map fst (stored_nodes p (g_next G + size_all ps1))) ->
    exists d, run (load_database (database_fp g)) w' = (Ok (VDict d), w') /\
      lists_link d (lk_from k) (lk_num k) (lk_from k) (lk_to k) /\ lk_from k <> lk_to k /\
      (In (str_of_Z (lk_to k)) (keys d) <-> lk_to k <> num_right p (g_next G + size_all ps1)).
  Proof.
    intros D S N EP H L F. destruct (make_ok_effect g G w l true w' D S N H) as (_ & _ & items & [W E] & _ & _ & G' & S' & M & Ed).
    rewrite EP in W, E. set (w0 := (g_next G + size_all ps1)%Z) in *.
    exists (g_db G'). split; [apply load_database_ok; apply stored_db; assumption|].
    assert (LL : lists_link items (lk_from k) (lk_num k) (lk_from k) (lk_to k)).
    { apply (lists_link_of ps1 p ps2 (g_next G) items k _ _ _ E L). auto. }
    split; [|split].
    - destruct LL as (v & r & md & Hv & HR). exists v, r, md. split; [|exact HR]. rewrite Ed. apply in_app_iff. right. exact Hv.
    - apply Forall_elt in W. pose proof (links_from_to p w0 W) as Q. rewrite Forall_forall in Q. auto.
    - assert (Wp := W). apply Forall_elt in Wp. split.
      + intros K EQ. rewrite Ed, keys_app, in_app_iff in K. rewrite EQ in K. unfold links in L.
        assert (DR : drawn (right_node p) = true).
        { apply in_app_iff in L as [L|L].
          - destruct (drawn (left_middle_rel p)) eqn:D1; [|destruct L]. destruct L as [<-|[]].
            destruct (wd_rel1 _ Wp D1) as [Dm _]. unfold between_nodes, num_left, num_middle, num_right in EQ. rewrite Dm in EQ.
            destruct (points_right (left_middle_rel p)); cbn [lk_to one] in EQ; lia.
          - destruct (drawn (middle_right_rel p)) eqn:D2; [|destruct L]. apply (wd_rel2 _ Wp D2). }
        destruct K as [K|K].
        * destruct (g_below _ (st_ok _ _ _ S) _ K) as (z & Ez & Hz). apply str_of_Z_inj in Ez. subst z. unfold num_right, w0 in Hz.
          pose proof (size_all_pos ps1). pose proof (one_range (drawn (middle_node p))). lia.
        * eapply right_not_key; eauto.
      + intros NR. rewrite Ed, keys_app, in_app_iff. right.
        assert (KS : In (lk_to k) (map fst (stored_nodes p w0))).
        { unfold links in L. unfold stored_nodes in *. apply in_app_iff in L as [L|L].
          - destruct (drawn (left_middle_rel p)) eqn:D1; [|destruct L]. destruct L as [<-|[]].
            destruct (wd_rel1 _ Wp D1) as [Dm _]. rewrite Dm. unfold between_nodes. destruct (points_right (left_middle_rel p)); cbn; tauto.
          - destruct (drawn (middle_right_rel p)) eqn:D2; [|destruct L]. destruct L as [<-|[]].
            destruct (wd_rel2 _ Wp D2) as (Dm & _). rewrite Dm in *. unfold between_nodes in *. destruct (points_right (middle_right_rel p)); cbn [lk_to] in *; [congruence|cbn; tauto]. }
        clear - E KS. revert E KS. unfold w0. generalize (g_next G). intros z. revert z items.
        induction ps1 as [|q qs IH]; intros z items; cbn [app entries_all size_all].
        * rewrite Z.add_0_r. intros (a & b & -> & A & _) KS. rewrite keys_app, in_app_iff. left. rewrite (entries_keys _ _ _ A). apply in_map. exact KS.
        * rewrite Z.add_assoc. intros (a & b & -> & _ & B) KS. rewrite keys_app, in_app_iff. right. eapply IH; eauto.
  Qed.

  Theorem own_only g G w l w' : rt_data rt -> stored g G w -> Forall names_ok (patterns_of l) -> run (make l g) w = (Ok true, w') ->
    exists items, run (load_database (database_fp g)) w' = (Ok (VDict (g_db G ++ items)), w') /\
      forall a n a' b, lists_link items a n a' b -> a' = a /\ b <> a.
  Proof.
    intros D S N H. destruct (make_ok_effect g G w l true w' D S N H) as (_ & _ & items & [W E] & _ & _ & G' & S' & M & Ed).
    exists items. rewrite <- Ed. split; [apply load_database_ok; apply stored_db; assumption|]. intros. eapply lists_own; eauto.
  Qed.

  Theorem dir_left g G w l w' ps1 p ps2 : rt_data rt -> stored g G w -> Forall names_ok (patterns_of l) ->
    patterns_of l = ps1 ++ p :: ps2 -> run (make l g) w = (Ok true, w') -> drawn (left_middle_rel p) = true ->
    let w0 := (g_next G + size_all ps1)%Z in
    exists items, run (load_database (database_fp g)) w' = (Ok (VDict (g_db G ++ items)), w') /\
      forall a a' b, lists_link items a (num_rel1 p w0) a' b <->
        if points_right (left_middle_rel p) then a = num_left w0 /\ a' = num_left w0 /\ b = num_middle w0
        else a = num_middle w0 /\ a' = num_middle w0 /\ b = num_left w0.
  Proof.
    intros D S N EP H Dr w0. destruct (make_ok_effect g G w l true w' D S N H) as (_ & _ & items & [W E] & _ & _ & G' & S' & M & Ed).
    exists items. rewrite <- Ed. split; [apply load_database_ok; apply stored_db; assumption|]. rewrite EP in W, E. eapply direction1; eauto.
  Qed.
  Theorem dir_right g G w l w' ps1 p ps2 : rt_data rt -> stored g G w -> Forall names_ok (patterns_of l) ->
    patterns_of l = ps1 ++ p :: ps2 -> run (make l g) w = (Ok true, w') -> drawn (middle_right_rel p) = true ->
    let w0 := (g_next G + size_all ps1)%Z in
    exists items, run (load_database (database_fp g)) w' = (Ok (VDict (g_db G ++ items)), w') /\
      forall a a' b, lists_link items a (num_rel2 p w0) a' b <->
        points_right (middle_right_rel p) = true /\ a = num_middle w0 /\ a' = num_middle w0 /\ b = num_right p w0.
  Proof.
    intros D S N EP H Dr w0. destruct (make_ok_effect g G w l true w' D S N H) as (_ & _ & items & [W E] & _ & _ & G' & S' & M & Ed).
    exists items. rewrite <- Ed. split; [apply load_database_ok; apply stored_db; assumption|]. rewrite EP in W, E. eapply direction2; eauto.
  Qed.
  (** both arrow heads: rejected in any file state with a readable counter or not *)
  Theorem dir_both g w l p x : In p (patterns_of l) -> x = left_middle_rel p \/ x = middle_right_rel p ->
    drawn x = true -> two_heads x -> exists e, run (make l g) w = (Err e, w).
  Proof.
    intros Hp Hx Dr T. destruct (run_get_wn_any (wiggle_number_fp g) w) as ([z|e] & Hz); [|exists e; apply make_no_counter; assumption].
    eapply run_make_not_ready; [eassumption|]. intros (items & W & _). rewrite Forall_forall in W. destruct (W p Hp) as [_ _ _ W1 W2].
    destruct Hx as [-> | ->]; [apply W1 in Dr; tauto|apply W2 in Dr; tauto].
  Qed.

  Theorem created_at g G w l w' : rt_data rt -> stored g G w -> Forall names_ok (patterns_of l) -> run (make l g) w = (Ok true, w') ->
    exists items, run (load_database (database_fp g)) w' = (Ok (VDict (g_db G ++ items)), w') /\
      forall k v, In (k, v) items ->
        (exists n, k = str_of_Z n /\ field (py "node_metadata") v =
           Some (VDict [(py "wn", VInt n); (py "created_at", VFloat import_time); (py "updated_at", VNone)])) /\
        forall r, In r (relations v) -> exists n, field (py "relationship_metadata") r =
           Some (VDict [(py "wn", VInt n); (py "created_at", VFloat import_time); (py "updated_at", VNone)]).
  Proof.
    intros D S N H. destruct (make_ok_effect g G w l true w' D S N H) as (_ & _ & items & [W E] & _ & _ & G' & S' & M & Ed).
    exists items. rewrite <- Ed. split; [apply load_database_ok; apply stored_db; assumption|]. intros k v. apply (all_created _ _ _ _ _ E).
  Qed.

  Theorem consecutive l w w' ms : process_parsed_make_list l w = Ok (w', ms) ->
    exists k : nat, w' = (w + Z.of_nat k)%Z /\ flat_map (fun m => node_numbers m ++ rel_numbers m) ms = zrange w k.
  Proof. intros H. destruct (numbers_consecutive l w w' ms H) as [A B]. eauto. Qed.
  Theorem counted l w w' ms : process_parsed_make_list l w = Ok (w', ms) -> w' = (w + size_all (patterns_of l))%Z /\ Forall well_drawn (patterns_of l).
  Proof.
    unfold process_parsed_make_list. fold (patterns_of l). destruct (process_patterns_spec (patterns_of l) w) as [(W & ms' & E & P)|(_ & e & E)]; rewrite E; [|discriminate].
    intros H. inv H. auto.
  Qed.

  Lemma meaningless_entries ps1 p ps2 w items : entries_all (ps1 ++ p :: ps2) w items -> well_drawn p -> ~ meaningless p.
  Proof.
    intros E W M.
    assert (NV : forall n x, In (n, x) (stored_nodes p (w + size_all ps1)) -> exists v, node_value p (w + size_all ps1) n x v).
    { clear M. revert w items E. induction ps1 as [|q qs IH]; intros w items; cbn [app entries_all size_all].
      - rewrite Z.add_0_r. intros (a & b & _ & A & _) n x H. destruct (Forall2_in_l _ _ _ A _ H) as ([k v] & _ & _ & V). eauto.
      - intros (a & b & _ & _ & B). rewrite Z.add_assoc. eapply IH; eauto. }
    set (w0 := (w + size_all ps1)%Z) in *.
    assert (PV : forall x v, props_value x v -> (exists e, get_property_dict (p_props x) = Err e) -> False).
    { intros x v H (e & He). unfold props_value in H. rewrite He in H. exact H. }
    assert (LV : forall k, In k (links p w0) -> In (lk_from k) (map fst (stored_nodes p w0)) -> exists v, props_value (lk_piece k) v).
    { intros k L H. apply in_map_iff in H as ([n x] & En & Hn). cbn [fst] in En. destruct (NV n x Hn) as (v & pv & rels & _ & R & _).
      assert (O : In k (owned p w0 n)) by (apply owned_In; auto). destruct (Forall2_in_l _ _ _ R _ O) as (rv & _ & pv' & P & _). eauto. }
    destruct M as [M|[(Dm & M)|[(D1 & M)|(D2 & PR & M)]]].
    - destruct (NV (num_left w0) (left_node p)) as (v & pv & rels & P & _); [left; reflexivity|]. eauto.
    - destruct (NV (num_middle w0) (middle_node p)) as (v & pv & rels & P & _); [right; rewrite Dm; left; reflexivity|]. eauto.
    - destruct (wd_rel1 _ W D1) as [Dm _].
      destruct (LV (between_nodes (num_rel1 p w0) (left_middle_rel p) (num_left w0) (num_middle w0))) as (v & P).
      + unfold links. rewrite D1. left. reflexivity.
      + unfold stored_nodes. rewrite Dm. unfold between_nodes. destruct (points_right _); cbn; auto.
      + eapply PV; [|exact M]. revert P. unfold between_nodes. destruct (points_right _); cbn [lk_piece]; eauto.
    - destruct (wd_rel2 _ W D2) as (Dm & _).
      destruct (LV (between_nodes (num_rel2 p w0) (middle_right_rel p) (num_middle w0) (num_right p w0))) as (v & P).
      + unfold links. rewrite D2. apply in_app_iff. right. left. reflexivity.
      + unfold stored_nodes, between_nodes. rewrite Dm, PR. cbn. auto.
      + eapply PV; [|exact M]. revert P. unfold between_nodes. rewrite PR. cbn [lk_piece]. eauto.
  Qed.

  Theorem bad_pattern_refused l g w p : In p (patterns_of l) -> ~ well_drawn p \/ meaningless p ->
    exists e, run (make l g) w = (Err e, w).
  Proof.
    intros Hp B. destruct (run_get_wn_any (wiggle_number_fp g) w) as ([z|e] & Hz); [|exists e; apply make_no_counter; assumption].
    eapply run_make_not_ready; [eassumption|]. intros (items & W & E). apply in_split in Hp as (ps1 & ps2 & EP). rewrite EP in W, E.
    apply Forall_elt in W. destruct B as [B|B]; [auto|]. eapply meaningless_entries; eauto.
  Qed.

  (** NodeExistsError: nothing was written *)
  Theorem refused_not_acceptable l g w z : run (get_current_wiggle_number (wiggle_number_fp g)) w = (Ok z, w) ->
    (~ exists items, acceptable (patterns_of l) z items) -> exists e, run (make l g) w = (Err e, w).
  Proof. apply run_make_not_ready. Qed.
End Final.
