(** * MessagesRunFacts: what the messages of failed queries say (C68) *)
From Verif Require Import RtLaws SpecText SpecChecks SpecProps SpecStore SpecMake SpecMessages SpecShell PyBase BaseFacts Json Literal Props Checks Statements StatementFacts Data FS FSFacts Store
  StoreFacts Make MakeFacts Find FindFacts HistoryFacts Query QueryFacts Confine ShellFacts Messages MessagesFacts MessagesRun SpecMessagesRun.

(** ** running with messages *)
Lemma run_own {A} (x : io A) w : run (own_io x) w = match run x w with (Ok a, w') => (Ok (Good a), w') | (Err e, w') => (Ok (Bad e None), w') end.
Proof. unfold own_io. rewrite run_catch, run_bind. destruct (run x w) as [[a|e] w']; reflexivity. Qed.
Lemma run_mbind {A B} (x : iom A) (f : A -> iom B) w : run (iom_bind x f) w =
  match run x w with (Ok (Good a), w') => run (f a) w' | (Ok (Bad e m), w') => (Ok (Bad e m), w') | (Err e, w') => (Err e, w') end.
Proof. unfold iom_bind. rewrite run_bind. destruct (run x w) as [[[a|e m]|e] w']; reflexivity. Qed.

(** the program with messages does the same *)
Definition same_run {A} (x : iom A) (y : io A) : Prop := forall w, exists r w', run x w = (Ok r, w') /\ run y w = (erase r, w').
Lemma same_own {A} (x : io A) : same_run (own_io x) x.
Proof. intros w. rewrite run_own. destruct (run x w) as [[a|e] w']; eauto. Qed.
Lemma same_ret {A} (r : resm A) (x : res A) : erase r = x -> same_run (Ret r) (lift x).
Proof. intros E w. exists r, w. rewrite run_lift, E. auto. Qed.
Lemma same_bind {A B} (x : iom A) y (f : A -> iom B) g : same_run x y -> (forall a, same_run (f a) (g a)) -> same_run (iom_bind x f) (io_bind y g).
Proof.
  intros X F w. rewrite run_mbind, run_bind. destruct (X w) as (r & w' & -> & ->). destruct r as [a|e m]; cbn [erase]; [apply F|]. exists (Bad e m), w'. auto.
Qed.
Lemma erase_own {A} (x : res A) : erase (own x) = x.
Proof. destruct x; reflexivity. Qed.

Lemma mbind_bad {A B} (x : iom A) (f : A -> iom B) w e m w' : run (iom_bind x f) w = (Ok (Bad e m), w') ->
  run x w = (Ok (Bad e m), w') \/ exists a w1, run x w = (Ok (Good a), w1) /\ run (f a) w1 = (Ok (Bad e m), w').
Proof. rewrite run_mbind. destruct (run x w) as [[[a|e' m']|e'] w1]; intros H; [right; eauto|left; congruence|discriminate]. Qed.
Lemma own_bad {A} (x : io A) w e m w' : run (own_io x) w = (Ok (Bad e m), w') -> m = None /\ run x w = (Err e, w').
Proof. rewrite run_own. destruct (run x w) as [[a|e'] w1]; intros H; inv H. auto. Qed.
Lemma own_good {A} (x : io A) w a w' : run (own_io x) w = (Ok (Good a), w') -> run x w = (Ok a, w').
Proof. rewrite run_own. destruct (run x w) as [[b|e'] w1]; intros H; inv H. auto. Qed.

(** ** programs that raise only Python's exceptions *)
Inductive mild {A} : io A -> Prop :=
| mild_ret a : mild (Ret a)
| mild_throw e : other_error e -> mild (Throw e)
| mild_do c k : (forall r, (forall e, r = RErr e -> other_error e) -> mild (k r)) -> mild (Do c k).
Ltac other := split; [unfold project_error; cbn [In]; intuition discriminate|discriminate].
Lemma exec_mild c w e : fst (exec c w) = RErr e -> other_error e.
Proof.
  assert (M : forall ps f o f', mkdirs ps f = (Some o, f') -> o = OSError).
  { induction ps as [|p ps IH]; intros f o f' H; cbn [mkdirs] in H; [discriminate|]. destruct (fs_get p f) as [[|t]|]; eauto. congruence. }
  destruct c; cbn [exec]; intros H;
    repeat match type of H with context [match ?x with _ => _ end] => destruct x eqn:? end; cbn [fst] in H; inv H; try other.
  apply M in Heqp0. subst. other.
Qed.
Lemma mild_run {A} (x : io A) : mild x -> forall w e w', run x w = (Err e, w') -> other_error e.
Proof.
  induction 1 as [a|e H|c k H IH]; intros w e' w' E; cbn [run] in E; [discriminate|inv E; assumption|].
  destruct (exec c w) as [r w1] eqn:X. eapply IH; [|exact E]. intros e ->. eapply (exec_mild c w). rewrite X. reflexivity.
Qed.
Lemma mild_bind {A B} (x : io A) (f : A -> io B) : mild x -> (forall a, mild (f a)) -> mild (io_bind x f).
Proof. induction 1; cbn [io_bind]; auto; constructor; auto. Qed.
Lemma mild_catch {A} (x : io A) h : mild x -> (forall e m, h e = Some m -> mild m) -> mild (io_catch x h).
Proof. intros M H. induction M; cbn [io_catch]; try (constructor; auto; fail). destruct (h e) eqn:E; [eapply H; eauto|constructor; auto]. Qed.
Lemma mild_lift {A} (r : res A) : (forall e, r = Err e -> other_error e) -> mild (lift r).
Proof. destruct r; intros H; constructor. apply H. reflexivity. Qed.
Lemma mild_unit c : mild (do_unit c).
Proof. constructor. intros r H. destruct r; try constructor. apply H. reflexivity. Qed.
Lemma mild_text c : mild (do_text c).
Proof. constructor. intros r H. destruct r; constructor; try other. apply H. reflexivity. Qed.

Section MessagesRunFacts.
  Context {rt : PyRt}.

  Lemma mild_json p : mild (read_json p).
  Proof.
    unfold read_json. apply mild_bind; [apply mild_text|]. intros t. apply mild_lift. unfold load_json. intros e H. destruct (loads t); inv H. other.
  Qed.
  Lemma mild_write p n v : mild (write_json p n v).
  Proof.
    unfold write_json. destruct (dump_top Indent4 v) as [t ok]. apply mild_bind; [apply mild_unit|]. intros _. destruct ok; constructor. other.
  Qed.
  Lemma index_get_mild name idx e : index_get name idx = Err e -> other_error e.
  Proof. unfold index_get. destruct idx; intros H; try (inv H; other). destruct (d_get name d); inv H. other. Qed.
  Lemma set_val_mild v e : set_val v = Err e -> other_error e.
  Proof. unfold set_val. destruct v; cbn [iter_val bind]; intros H; try (inv H; other); destruct (forallb hashable _); inv H; other. Qed.
  Lemma str_set_mild v e : str_set v = Err e -> other_error e.
  Proof. unfold str_set. destruct (set_val v) eqn:E; cbn [bind]; intros H; inv H. eapply set_val_mild; eauto. Qed.
  Lemma str_union_mild v l e : str_union v l = Err e -> other_error e.
  Proof. unfold str_union. destruct (set_val v) eqn:E; cbn [bind]; intros H; inv H. eapply set_val_mild; eauto. Qed.
  Lemma index_union_mild name idx l e : (let? v := index_get name idx in str_union v l) = Err e -> other_error e.
  Proof. destruct (index_get name idx) eqn:E; cbn [bind]; intros H; [eapply str_union_mild; eauto|inv H; eapply index_get_mild; eauto]. Qed.
  Lemma index_strs_mild name idx e : (let? v := index_get name idx in str_set v) = Err e -> other_error e.
  Proof. destruct (index_get name idx) eqn:E; cbn [bind]; intros H; [eapply str_set_mild; eauto|inv H; eapply index_get_mild; eauto]. Qed.
  Lemma index_put_mild name v idx e : index_put name v idx = Err e -> other_error e.
  Proof. unfold index_put. destruct idx; intros H; inv H; other. Qed.
  Lemma int_union_mild v l e : int_union v l = Err e -> other_error e.
  Proof. unfold int_union. destruct (set_val v) eqn:E; cbn [bind]; intros H; inv H. eapply set_val_mild; eauto. Qed.
  Lemma rel_add_mild items : forall d e, rel_index_add_all items d = Err e -> other_error e.
  Proof.
    induction items as [|[k s] items IH]; intros d e H; cbn [rel_index_add_all] in H; [discriminate|]. unfold rel_index_add in H.
    destruct (d_get k d) as [old|]; cbn [bind] in H; [|eapply IH; eauto]. destruct (int_union old s) eqn:E; cbn [bind] in H; [eapply IH; eauto|]. inv H. eapply int_union_mild; eauto.
  Qed.
  Lemma rel_entry_mild items v e : rel_entry_add items v = Err e -> other_error e.
  Proof.
    unfold rel_entry_add. destruct v; try (destruct items; intros H; inv H; other).
    destruct (rel_index_add_all items d) eqn:E; cbn [bind]; intros H; inv H. eapply rel_add_mild; eauto.
  Qed.
  Lemma mild_add_set p l n : mild (add_items_set p l n).
  Proof.
    unfold add_items_set. apply mild_bind; [apply mild_json|intros idx]. apply mild_bind; [apply mild_lift; intros e; apply index_union_mild|intros upd]. cbv zeta.
    apply mild_bind; [apply mild_lift; intros e; apply index_put_mild|intros idx']. apply mild_bind; [apply mild_write|intros k]. apply mild_bind; [apply mild_unit|intros; apply mild_ret].
  Qed.
  Lemma mild_indexes ns ms g : mild (add_indexes ns ms g).
  Proof.
    unfold add_indexes. apply mild_bind; [|intros; apply mild_bind; [apply mild_add_set|intros; apply mild_bind; [apply mild_add_set|intros; apply mild_ret]]].
    unfold add_items_to_node_relationships_index. apply mild_bind; [apply mild_text|intros t]. apply mild_bind; [apply mild_lift|intros idx].
    { unfold load_json. intros e H. destruct (loads t); inv H. other. }
    apply mild_bind; [apply mild_lift|intros d].
    { intros e. apply index_get_mild. }
    apply mild_bind; [apply mild_lift; intros e; apply rel_entry_mild|intros d']. cbv zeta. apply mild_bind; [apply mild_lift; intros e; apply index_put_mild|intros idx'].
    apply mild_bind; [apply mild_write|intros n]. apply mild_bind; [apply mild_unit|constructor].
  Qed.
  Lemma mild_update p z : mild (update_wiggle_number p z).
  Proof. unfold update_wiggle_number. apply mild_bind; [apply mild_unit|intros]. apply mild_bind; [apply mild_unit|intros; apply mild_ret]. Qed.
  Lemma mild_load_set p n : mild (load_index_set p n).
  Proof.
    unfold load_index_set. apply mild_catch; [|intros e m H; destruct e; inv H; constructor].
    apply mild_bind; [apply mild_json|]. intros v. apply mild_lift. apply index_strs_mild.
  Qed.
  Lemma mild_short fp g : mild (find_short_circuit fp g).
  Proof.
    unfold find_short_circuit. apply mild_bind; [apply mild_load_set|intros a]. apply mild_bind; [apply mild_load_set|intros b].
    destruct (negb _); [constructor|]. destruct (relationship_name_is_in_index _ _); constructor.
  Qed.

  (** ** the same runs *)
  Lemma ltr_same t : erase (relationship_is_left_to_right_m t) = relationship_is_left_to_right t.
  Proof. unfold relationship_is_left_to_right_m, relationship_is_left_to_right. destruct (_ && _); [reflexivity|]. destruct t; reflexivity. Qed.
  Lemma link_same x w a b : erase (link_m x w a b) = link x w a b.
  Proof.
    unfold link_m, link. destruct (p_text x) as [[|c t]|]; try reflexivity. rewrite erase_bind, ltr_same. destruct (relationship_is_left_to_right _) as [l|]; cbn [bind]; [|reflexivity].
    destruct a, b; try reflexivity. destruct l; reflexivity.
  Qed.
  Lemma pattern_same p w : erase (process_pattern_m p w) = process_pattern p w.
  Proof.
    unfold process_pattern_m, process_pattern. rewrite erase_bind, erase_own. destruct (new_node_pre w (left_node p)) as [lft|]; cbn [bind]; [|reflexivity].
    rewrite erase_bind, erase_own. destruct (opt_node (middle_node p) (w + 1)%Z) as [[w1 md]|]; cbn [bind]; [|reflexivity].
    rewrite erase_bind, erase_own. destruct (opt_node (right_node p) w1) as [[w2 rg]|]; cbn [bind]; [|reflexivity]. cbv zeta.
    rewrite erase_bind, link_same. destruct (link (left_middle_rel p) w2 (Some lft) md) as [[[[w3 l3] m3] n3]|]; cbn [bind]; [|reflexivity].
    rewrite erase_bind, link_same. destruct (link (middle_right_rel p) w3 m3 rg) as [[[[w4 m4] r4] n4]|]; cbn [bind]; [|reflexivity]. destruct l3; reflexivity.
  Qed.
  Lemma patterns_same ps : forall w, erase (process_patterns_m ps w) = process_patterns ps w.
  Proof.
    induction ps as [|p ps IH]; intros w; cbn [process_patterns_m process_patterns]; [reflexivity|]. rewrite erase_bind, pattern_same.
    destruct (process_pattern p w) as [[w1 m]|]; cbn [bind]; [|reflexivity]. rewrite erase_bind, IH. destruct (process_patterns ps w1) as [[w2 ms]|]; reflexivity.
  Qed.
  Lemma new_node_same wn l ps rels : erase (new_node_m wn l ps rels) = new_node wn l ps rels.
  Proof.
    unfold new_node_m, new_node. destruct rels as [rs|]; [|reflexivity]. cbv zeta. set (f := fun r => _).
    assert (E : existsb f rs = match List.find f rs with Some _ => true | None => false end).
    { induction rs as [|r rs IH]; cbn [existsb List.find]; [reflexivity|]. destruct (f r); [reflexivity|exact IH]. }
    rewrite E. destruct (List.find f rs); reflexivity.
  Qed.
  Lemma make_rel_same r : erase (make_relationship_m r) = make_relationship r.
  Proof.
    unfold make_relationship_m, make_relationship. rewrite erase_bind, properties_same. destruct (get_property_dict _); cbn [bind]; [|reflexivity].
    unfold new_relationship_m, new_relationship. destruct (_ =? _)%Z; reflexivity.
  Qed.
  Lemma make_node_same n : erase (make_node_m n) = make_node n.
  Proof.
    unfold make_node_m, make_node. rewrite erase_bind, properties_same. destruct (get_property_dict _); cbn [bind]; [|reflexivity]. rewrite erase_bind.
    assert (E : erase (match np_rels n with [] => Good None | l => letm rs := mapMm make_relationship_m l in Good (Some rs) end) =
      match np_rels n with [] => Ok None | l => let? rs := mapM make_relationship l in Ok (Some rs) end).
    { destruct (np_rels n); [reflexivity|]. rewrite erase_bind, (erase_mapM _ make_relationship _ make_rel_same). destruct (mapM _ _); reflexivity. }
    rewrite E. destruct (match np_rels n with [] => Ok None | _ => _ end); cbn [bind]; [|reflexivity]. apply new_node_same.
  Qed.
  Lemma make_nodes_same m : erase (make_nodes_m m) = make_nodes m.
  Proof.
    unfold make_nodes_m, make_nodes. rewrite erase_bind, make_node_same. destruct (make_node (mp_left m)) as [l|] eqn:E; cbn [bind]; [|reflexivity]. rewrite erase_bind.
    assert (E1 : erase (match mp_middle m with Some n => letm x := make_node_m n in Good [x] | None => Good [] end) =
      match mp_middle m with Some n => let? x := make_node n in Ok [x] | None => Ok [] end).
    { destruct (mp_middle m); [|reflexivity]. rewrite erase_bind, make_node_same. destruct (make_node _); reflexivity. }
    rewrite E1. destruct (match mp_middle m with Some n => let? x := make_node n in Ok [x] | None => Ok [] end); cbn [bind]; [|reflexivity]. rewrite erase_bind.
    destruct (mp_right m); [|reflexivity]. rewrite erase_bind, make_node_same, E. reflexivity.
  Qed.
  Lemma db_add_same k v d : erase (db_add_m k v d) = db_add k v d.
  Proof. unfold db_add_m, db_add. destruct d; try reflexivity; [destruct (contains k s)|destruct (existsb _ l)|destruct (d_mem k d)]; reflexivity. Qed.
  Lemma db_add_all_same items : forall d, erase (db_add_all_m items d) = db_add_all items d.
  Proof.
    induction items as [|[k v] items IH]; intros d; cbn [db_add_all_m db_add_all]; [reflexivity|]. rewrite erase_bind, db_add_same. destruct (db_add k v d); cbn [bind]; [apply IH|reflexivity].
  Qed.
  Lemma wn_same p : same_run (get_current_wiggle_number_m p) (get_current_wiggle_number p).
  Proof.
    unfold get_current_wiggle_number_m, get_current_wiggle_number. apply same_bind; [apply same_own|]. intros t. destruct t as [|c t].
    - intros w. exists (raise PlainException (Text (py "HOLD FIRE on overwriting the issue!"))), w. split; reflexivity.
    - apply same_ret, erase_own.
  Qed.
  Lemma good_same {A} (a : A) : same_run (Ret (Good a)) (Ret a).
  Proof. intros w. exists (Good a), w. auto. Qed.
  Lemma run_make_same l g : same_run (make_m l g) (make l g).
  Proof.
    unfold make_m, make. apply same_bind; [apply wn_same|]. intros wn. apply same_bind; [apply same_ret; apply patterns_same|]. intros [wn' ms].
    apply same_bind; [apply same_ret; apply erase_mapM; apply make_nodes_same|]. intros nss. cbv zeta. apply same_bind.
    - unfold add_item_to_database_m, add_nodes_to_graph, add_item_to_database. apply same_bind; [apply same_own|]. intros db.
      apply same_bind; [apply same_ret; apply db_add_all_same|]. intros db'. apply same_bind; [apply same_own|]. intros _. apply good_same.
    - intros _. apply same_bind; [apply same_own|]. intros _. apply same_bind; [apply same_own|]. intros _. apply good_same.
  Qed.
  Lemma find_link_same x a b : erase (find_link_m x a b) = find_link x a b.
  Proof.
    unfold find_link_m, find_link. destruct (p_text x) as [[|c t]|]; try reflexivity. rewrite erase_bind, properties_same. destruct (get_property_dict _); cbn [bind]; [|reflexivity]. cbv zeta.
    rewrite erase_bind, ltr_same. destruct (relationship_is_left_to_right _) as [l|]; cbn [bind]; [|reflexivity]. destruct l; [destruct a|destruct b]; reflexivity.
  Qed.
  Lemma find_pattern_same p : erase (process_pattern_find_m p) = process_pattern_find p.
  Proof.
    assert (L : erase (find_left_m p) = find_left p).
    { unfold find_left_m, find_left. rewrite erase_bind, properties_same. destruct (get_property_dict _); cbn [bind]; [apply erase_own|reflexivity]. }
    assert (M : erase (find_middle_m p) = find_middle p).
    { unfold find_middle_m, find_middle. destruct (truthy _); [|reflexivity]. rewrite erase_bind, properties_same. destruct (get_property_dict _); cbn [bind]; [|reflexivity].
      rewrite erase_bind, erase_own. destruct (new_find_node _ _ _); reflexivity. }
    assert (Rg : erase (find_right_m p) = find_right p).
    { unfold find_right_m, find_right. destruct (truthy _); [|reflexivity]. rewrite erase_bind, properties_same. destruct (get_property_dict _); cbn [bind]; [|reflexivity].
      rewrite erase_bind, erase_own. destruct (new_find_node _ _ _); reflexivity. }
    unfold process_pattern_find_m, process_pattern_find. rewrite erase_bind, L. destruct (find_left p) as [lft|]; cbn [bind]; [|reflexivity].
    rewrite erase_bind, M. destruct (find_middle p) as [md|]; cbn [bind]; [|reflexivity]. rewrite erase_bind, Rg. destruct (find_right p) as [rg|]; cbn [bind]; [|reflexivity]. cbv zeta.
    rewrite erase_bind, find_link_same. destruct (find_link (left_middle_rel p) (Some lft) md) as [[[l3 m3] n3]|]; cbn [bind]; [|reflexivity].
    rewrite erase_bind, find_link_same. destruct (find_link (middle_right_rel p) m3 rg) as [[[m4 r4] n4]|]; cbn [bind]; [|reflexivity]. destruct l3; reflexivity.
  Qed.
  Lemma run_find_same f g : same_run (find_m f g) (find f g).
  Proof.
    unfold find_m, find, process_parsed_find. apply same_bind; [apply same_ret; apply find_pattern_same|]. intros fp. apply same_bind; [apply same_own|]. intros ok.
    destruct ok; [apply good_same|]. apply same_bind; [apply same_own|]. intros _. apply good_same.
  Qed.
  Lemma execute_same pq g : same_run (execute_query_m pq g) (execute_query pq g).
  Proof.
    unfold execute_query_m, execute_query. apply same_bind.
    - destruct (q_make pq) as [[|m ms]|]; try apply good_same. apply run_make_same.
    - intros _. destruct (q_find pq) as [f|].
      + apply same_bind; [apply run_find_same|]. intros found. apply same_bind; [|intros _; apply good_same]. destruct (q_report pq); [apply same_own|apply good_same].
      + intros w. eexists _, w. split; reflexivity.
  Qed.

  Context (D : rt_data rt).
  Let R : rt_ok rt := rt_base rt D.

  Theorem run_query_same q g w : exists r w', run (query_m q g) w = (Ok r, w') /\ run (query q g) w = (erase r, w').
  Proof.
    revert w. change (same_run (query_m q g) (query q g)). unfold query_m, query. apply same_bind; [apply same_ret; apply query_same; exact R|]. intros pq.
    apply same_bind; [apply execute_same|]. intros _. apply good_same.
  Qed.

  (** ** failures of MAKE *)
  Definition why (q : pystr) (g : gdbms) (w : world) (c : clause) (e : exn) (m : option message) : Prop :=
    match m with Some m' => failure q g w c e m' | None => other_error e \/ exists l, literal_eval l = Err e end.
  Lemma property_why q g w c s p x e m : stmt_of q c s -> In p (pattern_matches s) -> In x (the_pieces p) -> get_property_dict_m (p_props x) = Bad e m -> why q g w c e m.
  Proof.
    intros S P X H. unfold get_property_dict_m in H. destruct (p_props x) as [[|a t]|] eqn:E; try discriminate. apply bindm_bad in H as [H|(d & _ & H)]; [|discriminate].
    apply (refused_property D) in H as (l1 & k & ty & v & l2 & P1 & P2 & P3). destruct m as [m|]; cbn [why].
    - eapply f_property; eauto.
    - right. inv P3. eauto.
  Qed.
  Lemma heads_why q g w c s p x e m : stmt_of q c s -> In p (pattern_matches s) -> In x [left_middle_rel p; middle_right_rel p] ->
    forall a t, p_text x = Some (a :: t) -> relationship_is_left_to_right_m (a :: t) = Bad e m -> why q g w c e m.
  Proof.
    intros S P X a t E H. unfold relationship_is_left_to_right_m in H. destruct (contains (py "<") (a :: t)) eqn:C1, (contains (py ">") (a :: t)) eqn:C2; try discriminate H.
    cbn [andb] in H. assert (m = Some (Text (py "Non directed relationship found: " ++ text_of x)) /\ e = NonDirectedRelationshipError) as [-> ->].
    { unfold text_of. rewrite E. unfold raise in H. split; congruence. }
    cbn [why]. eapply f_heads; eauto. assert (T : text_of x = a :: t) by (unfold text_of; rewrite E; reflexivity). unfold two_heads. rewrite T. clear T.
    apply contains_app in C1 as (u & v & C1). apply contains_app in C2 as (u' & v' & C2).
    split; [rewrite C1|rewrite C2]; rewrite in_app_iff; right; left; reflexivity.
  Qed.
  Lemma own_other {A} (r : res A) e m : (forall e, r = Err e -> other_error e) -> own r = Bad e m -> m = None /\ other_error e.
  Proof. destruct r; cbn [own]; intros H E; inv E. auto. Qed.
  Lemma opt_node_other x w e : opt_node x w = Err e -> other_error e.
  Proof. unfold opt_node. destruct (truthy _); [|discriminate]. unfold new_node_pre. destruct (p_label x); cbn [bind]; intros H; inv H. other. Qed.
  Lemma link_why q g w c s p x n a b e m : stmt_of q c s -> In p (pattern_matches s) -> In x [left_middle_rel p; middle_right_rel p] ->
    link_m x n a b = Bad e m -> why q g w c e m.
  Proof.
    intros S P X H. unfold link_m in H. destruct (p_text x) as [[|ch t]|] eqn:E; try discriminate. apply bindm_bad in H as [H|(l & _ & H)].
    - eapply heads_why; eauto.
    - destruct a, b; try (destruct l; discriminate); inv H; left; other.
  Qed.
  Lemma pattern_why q g w c s p n e m : stmt_of q c s -> In p (pattern_matches s) -> process_pattern_m p n = Bad e m -> why q g w c e m.
  Proof.
    intros S P H. unfold process_pattern_m in H. apply bindm_bad in H as [H|(lft & _ & H)].
    { apply own_other in H as [-> H]; [left; exact H|]. unfold new_node_pre. intros e'. destruct (p_label _); intros Y; inv Y. other. }
    apply bindm_bad in H as [H|([w1 md] & _ & H)]. { apply own_other in H as [-> H]; [left; exact H|]. intros e'. apply opt_node_other. }
    apply bindm_bad in H as [H|([w2 rg] & _ & H)]. { apply own_other in H as [-> H]; [left; exact H|]. intros e'. apply opt_node_other. } cbv zeta in H.
    apply bindm_bad in H as [H|([[[w3 l3] m3] n3] & _ & H)]. { apply (link_why q g w c s p (left_middle_rel p)) in H; auto. left; reflexivity. }
    apply bindm_bad in H as [H|([[[w4 m4] r4] n4] & _ & H)]. { apply (link_why q g w c s p (middle_right_rel p)) in H; auto. right; left; reflexivity. }
    destruct l3; inv H. left. other.
  Qed.
  Lemma patterns_why q g w c ps : (forall p, In p ps -> exists s, stmt_of q c s /\ In p (pattern_matches s)) -> forall n e m,
    process_patterns_m ps n = Bad e m -> why q g w c e m.
  Proof.
    induction ps as [|p ps IH]; intros S n e m H; cbn [process_patterns_m] in H; [discriminate|]. apply bindm_bad in H as [H|([n1 m1] & _ & H)].
    - destruct (S p (or_introl eq_refl)) as (s & S1 & S2). eapply pattern_why; eauto.
    - apply bindm_bad in H as [H|([n2 m2] & _ & H)]; [|discriminate]. eapply IH; eauto. intros p' I. apply S. right. exact I.
  Qed.

  Lemma make_node_why q g w c s p n k x lb e m : stmt_of q c s -> In p (pattern_matches s) -> well_drawn p -> In x (the_pieces p) ->
    make_node_m (pre_node k x lb (owned p n k)) = Bad e m -> why q g w c e m.
  Proof.
    intros S P W X H. unfold make_node_m, pre_node in H. cbn [np_props np_rels np_wn np_label] in H. apply bindm_bad in H as [H|(d & E & H)]; [eapply property_why; eauto|].
    assert (F : Forall (fun l => lk_from l <> lk_to l /\ lk_from l = k /\ In (lk_piece l) (the_pieces p)) (owned p n k)).
    { apply Forall_forall. intros l Hl. apply owned_In in Hl as [Hl Hk]. pose proof (links_from_to p n W) as Q. rewrite Forall_forall in Q.
      split; [auto|]. split; [exact Hk|]. exact (links_pieces p n l Hl). }
    assert (G : forall ls, Forall (fun l => lk_from l <> lk_to l /\ lk_from l = k /\ In (lk_piece l) (the_pieces p)) ls ->
      (forall e m, mapMm make_relationship_m (map pre_rel ls) = Bad e m -> why q g w c e m) /\
      (forall rs, mapMm make_relationship_m (map pre_rel ls) = Good rs -> Forall (fun r => r_from r = k) rs)).
    { clear H F. induction 1 as [|l ls (H1 & H2 & H3) F [IH1 IH2]]; cbn [map mapMm]; split; intros; try discriminate; [inv H; constructor| |].
      - apply bindm_bad in H as [H|(r & _ & H)].
        + unfold make_relationship_m, pre_rel, new_rel_pre in H. cbn [rp_props rp_wn rp_name rp_from rp_to] in H. apply bindm_bad in H as [H|(d' & _ & H)]; [eapply property_why; eauto|].
          unfold new_relationship_m in H. apply Z.eqb_neq in H1. rewrite H1 in H. discriminate.
        + apply bindm_bad in H as [H|(rs & _ & H)]; [|discriminate]. eauto.
      - destruct (make_relationship_m (pre_rel l)) as [r|] eqn:E1; cbn [bindm] in H; [|discriminate].
        destruct (mapMm make_relationship_m (map pre_rel ls)) as [rs'|] eqn:E2; cbn [bindm] in H; [|discriminate]. inv H. constructor; [|apply IH2; reflexivity].
        unfold make_relationship_m, pre_rel, new_rel_pre in E1. cbn [rp_props rp_wn rp_name rp_from rp_to] in E1.
        destruct (get_property_dict_m (p_props (lk_piece l))); cbn [bindm] in E1; [|discriminate]. unfold new_relationship_m in E1. apply Z.eqb_neq in H1. rewrite H1 in E1. inv E1. reflexivity. }
    destruct (G _ F) as [G1 G2]. apply bindm_bad in H as [H|(rels & E2 & H)].
    - destruct (map pre_rel (owned p n k)) eqn:EM; [discriminate|]. apply bindm_bad in H as [H|(rs & _ & H)]; [|discriminate]. eauto.
    - exfalso. unfold new_node_m in H. destruct rels as [rs|]; [|discriminate]. cbv zeta in H. destruct (List.find _ rs) as [r|] eqn:EF; [|discriminate].
      destruct (map pre_rel (owned p n k)) eqn:EM; [discriminate|]. destruct (mapMm make_relationship_m (r0 :: l)) as [rs'|]; cbn [bindm] in E2; [|discriminate]. inv E2.
      apply List.find_some in EF as [I Y]. specialize (G2 rs eq_refl). rewrite Forall_forall in G2. rewrite (G2 r I), Z.eqb_refl in Y. discriminate.
  Qed.
  Lemma make_nodes_why q g w c s p n pre e m : stmt_of q c s -> In p (pattern_matches s) -> well_drawn p -> pre_ok p n pre ->
    make_nodes_m pre = Bad e m -> why q g w c e m.
  Proof.
    intros S P W [(sl & _ & Pl) Pm _ _ _] H. unfold make_nodes_m in H. rewrite Pl in H. apply bindm_bad in H as [H|(l & E & H)]; [eapply make_node_why; eauto; left; reflexivity|].
    apply bindm_bad in H as [H|(md & _ & H)].
    - destruct (drawn (middle_node p)); [destruct Pm as (sm & _ & Pm)|]; rewrite Pm in H; [|discriminate]. apply bindm_bad in H as [H|(x & _ & H)]; [|discriminate].
      eapply make_node_why; eauto. unfold the_pieces. cbn [In]. auto.
    - apply bindm_bad in H as [H|(r & _ & H)]; [|discriminate]. destruct (mp_right pre); [|discriminate]. apply bindm_bad in H as [H|(x & _ & H)]; [|discriminate]. congruence.
  Qed.
  Lemma all_nodes_why q g w c ps : (forall p, In p ps -> exists s, stmt_of q c s /\ In p (pattern_matches s)) -> Forall well_drawn ps -> forall n ms e m,
    all_pre ps n ms -> mapMm make_nodes_m ms = Bad e m -> why q g w c e m.
  Proof.
    induction ps as [|p ps IH]; intros S W n [|pre ms] e m A H; cbn [all_pre] in A; try contradiction; [discriminate|]. destruct A as [A1 A2]. inv W. cbn [mapMm] in H.
    apply bindm_bad in H as [H|(x & _ & H)].
    - destruct (S p (or_introl eq_refl)) as (s & S1 & S2). eapply make_nodes_why; eauto.
    - apply bindm_bad in H as [H|(xs & _ & H)]; [|discriminate]. eapply IH; eauto. intros p' I. apply S. right. exact I.
  Qed.

  (** ** a number that exists *)
  Lemma has_key_spec k v d : (exists d', db_add_m k v d = Good d' /\ ~ has_key k d /\ exists l, d = VDict l /\ d' = VDict (d_set k v l)) \/
    (db_add_m k v d = node_exists k /\ has_key k d) \/ (db_add_m k v d = Bad TypeError None).
  Proof.
    unfold db_add_m. destruct d; auto.
    - destruct (contains k s) eqn:E; auto. right; left. split; [reflexivity|]. apply contains_app in E. exact E.
    - destruct (existsb _ l) eqn:E; auto. right; left. split; [reflexivity|]. apply existsb_exists in E as (x & I & E). destruct x; try discriminate. apply str_eqb_eq in E. subst. exact I.
    - destruct (d_mem k d) eqn:E.
      + right; left. split; [reflexivity|]. apply d_mem_true in E. exact E.
      + left. exists (VDict (d_set k v d)). split; [reflexivity|]. apply d_mem_false in E. split; [exact E|]. eauto.
  Qed.
  Lemma add_all_bad items : NoDup (keys items) -> forall d e m, db_add_all_m items d = Bad e m ->
    (m = None /\ e = TypeError) \/ exists i1 k v i2, items = i1 ++ (k, v) :: i2 /\ Forall (fun i => ~ has_key (fst i) d) i1 /\ has_key k d /\ @Bad pyval e m = node_exists k.
  Proof.
    induction items as [|[k v] items IH]; intros N d e m H; cbn [db_add_all_m] in H; [discriminate|]. cbn [keys map fst] in N. apply NoDup_cons_iff in N as [N1 N2].
    destruct (has_key_spec k v d) as [(d' & E & NK & l & -> & ->)|[[E K]|E]]; rewrite E in H; cbn [bindm node_exists raise] in H.
    - destruct (IH N2 _ _ _ H) as [Y|(i1 & k' & v' & i2 & -> & F & K & Y)]; [left; exact Y|]. right. exists ((k, v) :: i1), k', v', i2.
      assert (KS : forall k', has_key k' (VDict (d_set k v l)) <-> k' = k \/ has_key k' (VDict l)) by (intros k0; cbn [has_key]; change (map fst) with (@keys pyval); apply d_set_keys_in).
      split; [reflexivity|]. split; [constructor; [exact NK|]|]; [|split; [|exact Y]].
      + eapply Forall_impl; [|exact F]. intros i Hi Hk. apply Hi. apply KS. auto.
      + apply KS in K as [->|K]; [|exact K]. exfalso. apply N1. change (In k (keys (i1 ++ (k, v') :: i2))). rewrite keys_app, in_app_iff. right. left. reflexivity.
    - right. exists [], k, v, items. repeat split; [constructor|exact K|]. symmetry. exact H.
    - inv H. auto.
  Qed.

  Lemma make_run_why q g w l e m w' : parse_make q = Ok (Some l) -> run (make_m l g) w = (Ok (Bad e m), w') -> why q g w MAKE e m /\ (m <> None -> w' = w).
  Proof.
    intros EM H. destruct (parsed_make_sound q l EM) as [F EX]. set (ms := map pm_raw l) in *.
    assert (PS : flat_map pm_patterns l = flat_map pattern_matches ms).
    { unfold ms. clear - F. induction F as [|x l (_ & _ & E & _) F IH]; cbn [flat_map map]; [reflexivity|]. rewrite E, IH. reflexivity. }
    assert (ST : forall p, In p (flat_map pattern_matches ms) -> exists s, stmt_of q MAKE s /\ In p (pattern_matches s)).
    { intros p I. apply in_flat_map in I as (s & I1 & I2). exists s. split; [|exact I2]. split; [auto|]. exists ms. split; [exact EX|exact I1]. }
    unfold make_m in H. apply mbind_bad in H as [H|(wn & w1 & EW & H)].
    { unfold get_current_wiggle_number_m in H. apply mbind_bad in H as [H|(t & w2 & ET & H)].
      - apply own_bad in H as [-> H]. split; [|congruence]. left. eapply mild_run; [|exact H]. apply mild_text.
      - apply own_good in ET. rewrite run_read in ET. injection ET as ET <-. destruct t as [|c t]; cbn [run] in H.
        + inv H. split; [|reflexivity]. cbn [why]. apply f_counter. unfold file_text. unfold read_res, get in ET. destruct (fs_get _ _) as [[|t]|]; inv ET. reflexivity.
        + injection H as H <-. split; [|reflexivity]. apply own_other in H as [-> H]; [left; exact H|]. intros e' Y. unfold py_int in Y.
          destruct (forallb is_ascii (c :: t)); [match type of Y with context [match ?o with Some z => Ok z | None => Err ValueError end] => destruct o end|destruct (int_ext (c :: t))]; inv Y; other. }
    assert (EW' : w1 = w /\ exists ct, file_text (wiggle_number_fp g) w ct /\ py_int ct = Ok wn).
    { unfold get_current_wiggle_number_m in EW. rewrite run_mbind, run_own, run_read in EW. unfold file_text. unfold read_res, get in EW.
      destruct (fs_get (wiggle_number_fp g) (w_fs w)) as [[|t]|]; try discriminate. destruct t as [|c t]; [discriminate|]. cbn [run] in EW. injection EW as EW <-.
      split; [reflexivity|]. exists (c :: t). split; [reflexivity|]. destruct (py_int (c :: t)); inv EW. reflexivity. }
    destruct EW' as [-> (ct & FC & EC)]. clear EW.
    apply mbind_bad in H as [H|([wn' pre] & w1 & EP & H)].
    { cbn [run] in H. injection H as H <-. split; [|reflexivity]. unfold process_parsed_make_list_m in H. rewrite PS in H. eapply patterns_why; eauto. }
    cbn [run] in EP. injection EP as EP <-. unfold process_parsed_make_list_m in EP. rewrite PS in EP. pose proof (patterns_same (flat_map pattern_matches ms) wn) as PE. rewrite EP in PE. cbn [erase] in PE.
    apply mbind_bad in H as [H|(nss & w1 & EN & H)].
    { cbn [run] in H. injection H as H <-. split; [|reflexivity]. destruct (process_patterns_spec (flat_map pattern_matches ms) wn) as [(W & pre' & E1 & A)|(W & e' & E1)]; rewrite E1 in PE; [|discriminate].
      injection PE as _ <-. eapply all_nodes_why; eauto. }
    cbn [run] in EN. injection EN as EN <-. pose proof (erase_mapM make_nodes_m make_nodes pre make_nodes_same) as NE. rewrite EN in NE. cbn [erase] in NE. cbv zeta in H.
    apply mbind_bad in H as [H|(b & w1 & EA & H)].
    { unfold add_item_to_database_m in H. apply mbind_bad in H as [H|(db & w1 & EJ & H)].
      { apply own_bad in H as [-> H]. split; [|congruence]. left. eapply mild_run; [apply mild_json|exact H]. }
      apply own_good in EJ. rewrite run_read_json in EJ. injection EJ as EJ <-.
      apply mbind_bad in H as [H|(db' & w1 & EB & H)].
      - cbn [run] in H. injection H as H <-. split; [|reflexivity].
        destruct (prepare_spec (flat_map pattern_matches ms) wn) as [(pre' & nss' & items & E1 & E2 & RD)|(NA & [(e' & E1)|(pre' & e' & E1 & E2)])]; rewrite E1 in PE; try discriminate;
          injection PE as PE1 PE2; subst pre'; rewrite E2 in NE; [|discriminate]. injection NE as <-. destruct RD as [W EA N1 _ _ _ _ _]. rewrite N1 in H.
        assert (ND : NoDup (keys items)) by (apply (entries_all_keys _ _ _ EA)).
        apply (add_all_bad items ND) in H as [[-> ->]|(i1 & k & v & i2 & -> & F1 & K & Y)]; [left; other|]. unfold node_exists, raise in Y. injection Y as -> ->.
        unfold parse_res, read_res, get in EJ. destruct (fs_get (database_fp g) (w_fs w)) as [[|t]|] eqn:ED; cbn [bind] in EJ; try discriminate.
        eapply f_exists; [exact EX|exact FC|exact EC|exact ED|exact EJ|split; [exact W|exact EA]|exact F1|exact K].
      - cbn [run] in EB. injection EB as EB <-. apply mbind_bad in H as [H|(u & w1 & _ & H)]; [|discriminate]. apply own_bad in H as [-> H]. split; [|congruence]. left. eapply mild_run; [apply mild_write|exact H]. }
    clear EA. apply mbind_bad in H as [H|(u & w2 & _ & H)].
    { apply own_bad in H as [-> H]. split; [|congruence]. left. eapply mild_run; [apply mild_indexes|exact H]. }
    apply mbind_bad in H as [H|(u' & w3 & _ & H)]; [|discriminate]. apply own_bad in H as [-> H]. split; [|congruence]. left. eapply mild_run; [apply mild_update|exact H].
  Qed.

  (** ** failures of FIND *)
  Lemma find_link_why q g w s p x a b e m : stmt_of q FIND s -> In p (pattern_matches s) -> In x [left_middle_rel p; middle_right_rel p] ->
    find_link_m x a b = Bad e m -> why q g w FIND e m.
  Proof.
    intros S P X H. unfold find_link_m in H. destruct (p_text x) as [[|ch t]|] eqn:E; try discriminate. apply bindm_bad in H as [H|(d & _ & H)].
    { eapply property_why; eauto. unfold the_pieces. cbn [In] in *. intuition. }
    cbv zeta in H. apply bindm_bad in H as [H|(l & _ & H)]; [eapply heads_why; eauto|]. destruct l; [destruct a|destruct b]; inv H; left; other.
  Qed.
  Lemma find_node_other l h d e : new_find_node l h d = Err e -> other_error e.
  Proof. unfold new_find_node. destruct l; intros H; inv H. other. Qed.
  Lemma find_run_why q g w f e m w' : parse_find q = Ok (Some f) -> run (find_m f g) w = (Ok (Bad e m), w') -> why q g w FIND e m /\ w' = w.
  Proof.
    intros EF H. assert (ST : exists s, stmt_of q FIND s /\ In (pf_pattern f) (pattern_matches s)).
    { rewrite <- find_same in EF. destruct (parse_find_m q) as [o|] eqn:E; inv EF. unfold parse_find_m in E.
      destruct (extract_all_statements_m q FIND) as [[ms|]|] eqn:X; cbn [bindm] in E; try discriminate. destruct (Nat.ltb 1 (List.length ms)); [discriminate|].
      destruct (validate_statement_m ms); cbn [bindm] in E; [|discriminate]. destruct ms as [|s ms]; [discriminate|]. apply extract_good in X as [_ X].
      destruct (build_parsed_find_m s) as [f'|] eqn:B; cbn [bindm] in E; inv E. exists s. split; [split; [auto|]; exists (s :: ms); split; [exact X|left; reflexivity]|].
      unfold build_parsed_find_m in B. destruct (pattern_matches s) as [|p ps]; [discriminate|]. destruct (validate_handles_m p); cbn [bindm] in B; [|discriminate].
      destruct (re_match find_field s); inv B. left. reflexivity. }
    destruct ST as (s & S & P). set (p := pf_pattern f) in *. unfold find_m in H. apply mbind_bad in H as [H|(fp & w1 & E1 & H)].
    - cbn [run] in H. injection H as H <-. split; [|reflexivity]. change (process_pattern_find_m p = Bad e m) in H. unfold process_pattern_find_m in H.
      apply bindm_bad in H as [H|(lft & _ & H)].
      { unfold find_left_m in H. apply bindm_bad in H as [H|(d & _ & H)]; [eapply property_why; eauto; left; reflexivity|].
        apply own_other in H as [-> H]; [left; exact H|]. intros e'. apply find_node_other. }
      apply bindm_bad in H as [H|(md & _ & H)].
      { unfold find_middle_m in H. destruct (truthy _); [|discriminate]. apply bindm_bad in H as [H|(d & _ & H)].
        - eapply property_why; eauto. unfold the_pieces. cbn [In]. auto.
        - apply bindm_bad in H as [H|(n & _ & H)]; [|discriminate]. apply own_other in H as [-> H]; [left; exact H|]. intros e'. apply find_node_other. }
      apply bindm_bad in H as [H|(rg & _ & H)].
      { unfold find_right_m in H. destruct (truthy _); [|discriminate]. apply bindm_bad in H as [H|(d & _ & H)]; [eapply property_why; eauto; left; reflexivity|].
        apply bindm_bad in H as [H|(n & _ & H)]; [|discriminate]. apply own_other in H as [-> H]; [left; exact H|]. intros e'. apply find_node_other. }
      cbv zeta in H. apply bindm_bad in H as [H|([[l3 m3] n3] & _ & H)]. { apply (find_link_why q g w s p (left_middle_rel p)) in H; auto. left; reflexivity. }
      apply bindm_bad in H as [H|([[m4 r4] n4] & _ & H)]. { apply (find_link_why q g w s p (middle_right_rel p)) in H; auto. right; left; reflexivity. }
      destruct l3; inv H. left. other.
    - cbn [run] in E1. injection E1 as E1 <-. apply mbind_bad in H as [H|(ok & w1 & E2 & H)].
      + apply own_bad in H as [-> H]. split; [left; eapply mild_run; [apply mild_short|exact H]|].
        assert (Y : run (find f g) w = (Err e, w')).
        { unfold find. rewrite run_bind, run_lift. unfold process_parsed_find. rewrite <- find_pattern_same. fold p. change (pf_pattern f) with p in E1. rewrite E1. cbn [erase]. rewrite run_bind, H. reflexivity. }
        rewrite run_find in Y. destruct (process_parsed_find f) as [fp'|e']; [|congruence]. destruct (fst (run (find_short_circuit fp' g) w)) as [[|]|e']; congruence.
      + destruct ok; [discriminate|]. apply mbind_bad in H as [H|(u & w2 & _ & H)]; [|discriminate]. rewrite run_own in H. cbn [do_unit run exec] in H. discriminate.
  Qed.

  Theorem query_failure q g w e m w' : run (query_m q g) w = (Ok (Bad e m), w') ->
    match m with
    | Some m => (explains q e m /\ w' = w) \/ (failure q g w MAKE e m /\ w' = w) \/
        (failure q g w' FIND e m /\ exists pq, parse_query_string q = Ok pq /\ match q_make pq with Some l => run (make l g) w = (Ok true, w') | None => w' = w end)
    | None => other_error e \/ exists l, literal_eval l = Err e
    end.
  Proof.
    intros H. unfold query_m in H. apply mbind_bad in H as [H|(pq & w1 & EP & H)].
    { cbn [run] in H. injection H as H <-. pose proof (messages_explain R q e m H) as X. destruct m as [m|]; cbn [says_why] in X; [auto|].
      destruct X as [-> |[-> |[-> |(l & X & _)]]]; try (left; other). right. eauto. }
    cbn [run] in EP. injection EP as EP <-. pose proof (query_same R q) as ES. rewrite EP in ES. cbn [erase] in ES.
    assert (EQ : exists f, parse_make q = Ok (q_make pq) /\ parse_find q = Ok (Some f) /\ q_find pq = Some f /\ q_make pq <> Some []).
    { symmetry in ES. unfold parse_query_string in ES. destruct (parse_make q) as [mk|] eqn:E1; cbn [bind] in ES; [|discriminate].
      destruct (parse_find q) as [[f|]|] eqn:E2; cbn [bind] in ES; try discriminate. destruct (parse_report q (pattern_handles (pf_pattern f))) as [rp|] eqn:E3; cbn [bind] in ES; [|discriminate]. inv ES.
      cbn [q_make q_find]. exists f. repeat split. intros ->. destruct (make_then_find q g w [] f rp E1 E2 E3) as [N _]. congruence. }
    destruct EQ as (f & EM & EF & EQ & NE). apply mbind_bad in H as [H|(u & w2 & _ & H)]; [|discriminate]. unfold execute_query_m in H. rewrite EQ in H.
    apply mbind_bad in H as [H|(b & w1 & E1 & H)].
    { destruct (q_make pq) as [[|x l]|]; try discriminate. apply (make_run_why q g w (x :: l) e m w' EM) in H as [X Y]. destruct m as [m|]; [|exact X]. right; left. split; [exact X|]. apply Y. discriminate. }
    apply mbind_bad in H as [H|(found & w2 & E2 & H)].
    - apply (find_run_why q g w1 f e m w' EF) in H as [X ->]. destruct m as [m|]; [|exact X]. right; right. split; [exact X|]. exists pq. split; [symmetry; exact ES|].
      destruct (q_make pq) as [[|x l]|]; [congruence| |]; [|inv E1; reflexivity].
      destruct (run_make_same (x :: l) g w) as (r & w2 & Q1 & Q2). rewrite Q1 in E1. injection E1 as -> ->. cbn [erase] in Q2. rewrite Q2. f_equal. f_equal.
      assert (BT : b = true); [|congruence]. clear - Q1. unfold make_m in Q1. repeat (rewrite run_mbind in Q1;
        match type of Q1 with match ?x with _ => _ end = _ => destruct x as [[[?|? ?]|?] ?]; try discriminate end; try (match type of Q1 with context [let (_, _) := ?y in _] => destruct y end)).
      cbn [run] in Q1. congruence.
    - apply mbind_bad in H as [H|(u & w3 & _ & H)]; [|discriminate]. exfalso. destruct (q_report pq); [|discriminate]. unfold own_io, report in H. discriminate.
  Qed.

  Theorem never_raised q g w e w' : In e [RelationshipToFromError; NodeHasUnrelatedRelationship; PropertyTypeAssignmentError] ->
    run (query q g) w = (Err e, w') -> exists l, literal_eval l = Err e.
  Proof.
    intros I H. destruct (run_query_same q g w) as (r & w1 & E1 & E2). rewrite E2 in H. destruct r as [b|e' m]; cbn [erase] in H; inv H. apply query_failure in E1. destruct m as [m|].
    - exfalso. destruct E1 as [[X _]|[[X _]|[X _]]]; inversion X; subst; cbn [In] in I; intuition try discriminate;
        match goal with Y : refused _ _ _ _ _ _ |- _ => inversion Y; subst end; intuition discriminate.
    - destruct E1 as [[X _]|X]; [|exact X]. exfalso. apply X. unfold project_error. cbn [In] in *. intuition.
  Qed.

  Theorem intact_failure q g G w e m w' : stored g G w -> run (query_m q g) w = (Ok (Bad e (Some m)), w') -> e <> NodeExistsError /\ e <> PlainException.
  Proof.
    intros S H. apply query_failure in H.
    enough (X : ~ (e = NodeExistsError \/ e = PlainException)) by tauto. intros E.
    destruct H as [[X _]|[[X _]|[X _]]].
    - inversion X; subst; intuition discriminate.
    - destruct S as [_ SO SD _ SN]. unfold file_is in SD, SN.
      inversion X as [FC|c s p x S1 S2 S3 S4|c s p x t l1 k ty v l2 e' m' S1 S2 S3 S4 S5 S6 S7|ms ct z t d i1 k v i2 EX FC EC FD ED [W A] F K]; subst.
      + unfold file_text in FC. rewrite SN in FC. injection FC as FC. destruct (str_of_Z_ne _ FC).
      + intuition discriminate.
      + inversion S7; subst; intuition discriminate.
      + unfold file_text in FC, FD. rewrite SN in FC. injection FC as <-. rewrite py_int_str_of_Z in EC. injection EC as <-.
        rewrite SD in FD. injection FD as <-. rewrite load_json_dump in ED; [|apply SO|apply SO]. injection ED as <-. cbn [has_key] in K.
        destruct (entries_all_keys _ _ _ A) as [_ KN]. destruct (KN k) as (n & -> & N1 & _); [rewrite keys_app, in_app_iff; right; left; reflexivity|].
        destruct (g_below _ SO _ K) as (n' & E' & L). apply str_of_Z_inj in E'. lia.
    - inversion X; subst; [intuition discriminate|]. match goal with Y : refused _ _ _ _ _ _ |- _ => inversion Y; subst end; intuition discriminate.
  Qed.

  (** ** the shell *)
  Lemma mentions_dec line : contains (py "help") (str_lower line) = true <-> mentions_help line.
  Proof. unfold mentions_help. apply contains_app. Qed.
  Lemma talk_step u pt n g w line r : w_in w = line :: r -> run (shell_loop_m u pt (S n) g) w =
    if str_eqb line (py "q") then (Ok tt, says (py "Good Bye!") (says (echo line) (rest r w)))
    else if contains (py "help") (str_lower line)
    then run (shell_loop_m u pt n g) (says (py "A helpful guide is on the way!" ++ [10%N]) (says (echo line) (rest r w)))
    else match run (query_m line g) (says (echo line) (rest r w)) with
         | (Ok (Good _), w1) => run (shell_loop_m u pt n g) w1
         | (Ok (Bad e m), w1) => run (shell_loop_m u pt n g) (says (exception_text u pt e m) w1)
         | (Err e, w1) => (Err e, w1)
         end.
  Proof.
    intros E. cbn [shell_loop_m]. rewrite run_bind. unfold do_text. cbn [run exec]. rewrite E. cbn [run].
    rewrite run_bind. cbn [do_unit run exec]. change {| w_fs := w_fs _; w_in := _; w_out := _ |} with (says (echo line) (rest r w)).
    destruct (str_eqb line (py "q")); [reflexivity|]. destruct (contains (py "help") (str_lower line)).
    - rewrite run_bind. reflexivity.
    - rewrite run_bind. destruct (run (query_m line g) (says (echo line) (rest r w))) as [[[b|e m]|e] w1]; [reflexivity| |reflexivity]. rewrite run_bind. reflexivity.
  Qed.
  Theorem shell_talks u pt g : forall n w, List.length (w_in w) < n ->
    Talk (exception_text u pt) g w (fst (run (shell_loop_m u pt n g) w)) (snd (run (shell_loop_m u pt n g) w)).
  Proof.
    induction n as [|n IH]; intros w L; [lia|]. destruct (w_in w) as [|line r] eqn:E.
    - cbn [shell_loop_m]. rewrite run_bind. unfold do_text. cbn [run exec]. rewrite E. cbn [run fst snd]. apply t_end. exact E.
    - rewrite (talk_step u pt n g w line r E). cbn [List.length] in L.
      destruct (str_eqb line (py "q")) eqn:Q.
      { apply str_eqb_eq in Q. subst line. apply t_quit. exact E. }
      apply str_eqb_neq in Q. destruct (contains (py "help") (str_lower line)) eqn:H.
      + apply mentions_dec in H. eapply t_help; [exact E|exact Q|exact H|]. apply IH. cbn [says rest w_in]. lia.
      + assert (NH : ~ mentions_help line) by (rewrite <- mentions_dec, H; discriminate).
        pose proof (query_keeps_input line g (says (echo line) (rest r w))) as K. cbn [says rest w_in] in K.
        destruct (run_query_same line g (says (echo line) (rest r w))) as (x & w1 & E1 & E2). rewrite E2 in K. cbn [snd] in K. rewrite E1. destruct x as [b|e m].
        * eapply t_succeeds; [exact E|exact Q|exact NH|exact E1|]. apply IH. rewrite K. lia.
        * eapply t_fails; [exact E|exact Q|exact NH|exact E1|]. apply IH. cbn [says w_in]. rewrite K. lia.
  Qed.
  Lemma alike_refl w : alike w w.
  Proof. repeat split. induction (w_out w); constructor; auto. left. reflexivity. Qed.
  Lemma exec_out c w w2 : alike w w2 -> fst (exec c w2) = fst (exec c w) /\ alike (snd (exec c w)) (snd (exec c w2)).
  Proof.
    intros (A & B & C). destruct c; cbn [exec]; rewrite <- ?A, <- ?B;
      repeat match goal with |- context [match ?x with _ => _ end] => destruct x eqn:? end; cbn [fst snd]; split; try reflexivity; repeat split; cbn [w_fs w_in w_out with_fs]; auto; try congruence.
    apply Forall2_app; [exact C|]. constructor; [left; reflexivity|constructor].
  Qed.
  Lemma run_out {A} (x : io A) : forall w w2, alike w w2 -> fst (run x w2) = fst (run x w) /\ alike (snd (run x w)) (snd (run x w2)).
  Proof.
    induction x as [a|e|c k IH]; intros w w2 L; cbn [run]; [auto|auto|]. destruct (exec_out c w w2 L) as [E1 E2].
    destruct (exec c w) as [r1 w1'], (exec c w2) as [r2 w2']. cbn [fst snd] in *. subst r2. apply IH. exact E2.
  Qed.
  Theorem talk_is_session answer g w r w' : Talk answer g w r w' -> forall w0, alike w0 w -> exists w0', Session g w0 r w0' /\ alike w0' w'.
  Proof.
    induction 1 as [w E|w r E|w line r res w' E N H S IH|w line r b w1 res w' E N H RQ S IH|w line r e m w1 res w' E N H RQ S IH]; intros w0 L; pose proof L as (A & B & C); rewrite E in B.
    - exists w0. split; [apply no_more_input; exact B|exact L].
    - eexists. split; [apply quit; exact B|]. repeat split; cbn [says rest w_fs w_in w_out]; auto. repeat (apply Forall2_app; [|constructor; [left; reflexivity|constructor]]). exact C.
    - destruct (IH (says (py "A helpful guide is on the way!" ++ [10%N]) (says (echo line) (rest r w0)))) as (w0' & S' & L').
      { repeat split; cbn [says rest w_fs w_in w_out]; auto. repeat (apply Forall2_app; [|constructor; [left; reflexivity|constructor]]). exact C. }
      exists w0'. split; [|exact L']. eapply help; eauto.
    - assert (LS : alike (says (echo line) (rest r w0)) (says (echo line) (rest r w))).
      { repeat split; cbn [says rest w_fs w_in w_out]; auto. repeat (apply Forall2_app; [|constructor; [left; reflexivity|constructor]]). exact C. }
      destruct (run_query_same line g (says (echo line) (rest r w))) as (x & w2 & E1 & E2). rewrite RQ in E1. injection E1 as <- <-. cbn [erase] in E2.
      destruct (run_out (query line g) _ _ LS) as [Y1 Y2]. rewrite E2 in Y1, Y2. cbn [fst snd] in Y1, Y2. destruct (run (query line g) (says (echo line) (rest r w0))) as [r0 w3] eqn:E0. cbn [fst snd] in Y1, Y2. subst r0.
      destruct (IH w3 Y2) as (w0' & S' & L'). exists w0'. split; [|exact L']. eapply query_succeeds; eauto.
    - assert (LS : alike (says (echo line) (rest r w0)) (says (echo line) (rest r w))).
      { repeat split; cbn [says rest w_fs w_in w_out]; auto. repeat (apply Forall2_app; [|constructor; [left; reflexivity|constructor]]). exact C. }
      destruct (run_query_same line g (says (echo line) (rest r w))) as (x & w2 & E1 & E2). rewrite RQ in E1. injection E1 as <- <-. cbn [erase] in E2.
      destruct (run_out (query line g) _ _ LS) as [Y1 Y2]. rewrite E2 in Y1, Y2. cbn [fst snd] in Y1, Y2. destruct (run (query line g) (says (echo line) (rest r w0))) as [r0 w3] eqn:E0. cbn [fst snd] in Y1, Y2. subst r0.
      destruct (IH (says (py "error") w3)) as (w0' & S' & L').
      { destruct Y2 as (Y3 & Y4 & Y5). repeat split; cbn [says rest w_fs w_in w_out]; auto. apply Forall2_app; [exact Y5|]. constructor; [right; reflexivity|constructor]. }
      exists w0'. split; [|exact L']. eapply query_fails; eauto.
  Qed.

  (** ** the lists in messages *)
  Definition its_quote (s : pystr) : N := if existsb (N.eqb 39) s && negb (existsb (N.eqb 34) s) then 34%N else 39%N.
  Lemma repr_plain u s : shown_plainly s -> repr u s = its_quote s :: s ++ [its_quote s] /\ ~ In (its_quote s) s.
  Proof.
    intros [F Q]. assert (NI : ~ In (its_quote s) s).
    { unfold its_quote. destruct (existsb (N.eqb 39) s) eqn:E1; cbn [andb].
      - apply existsb_exists in E1 as (x & I & E1). apply N.eqb_eq in E1. subst x. destruct (existsb (N.eqb 34) s) eqn:E2; cbn [negb].
        + apply existsb_exists in E2 as (x & I2 & E2). apply N.eqb_eq in E2. subst x. tauto.
        + intros I2. assert (existsb (N.eqb 34) s = true) by (apply existsb_exists; exists 34%N; auto). congruence.
      - intros I2. assert (existsb (N.eqb 39) s = true) by (apply existsb_exists; exists 39%N; auto). congruence. }
    split; [|exact NI]. unfold repr. fold (its_quote s). cbv zeta. f_equal. f_equal. revert NI. generalize (its_quote s). intros q NI. clear Q.
    induction F as [|c s [C1 C2] F IH]; cbn [flat_map]; [reflexivity|]. rewrite IH by (intros I; apply NI; right; exact I). clear IH F.
    assert (c <> q) by (intros ->; apply NI; left; reflexivity). unfold repr_char.
    replace (N.eqb c q || N.eqb c 92) with false by lia. replace (N.eqb c 9) with false by lia. replace (N.eqb c 10) with false by lia. replace (N.eqb c 13) with false by lia.
    replace (N.ltb c 32 || N.eqb c 127) with false by lia. replace (N.ltb c 127) with true by lia. reflexivity.
  Qed.
  Lemma quoted_plain q s r : Forall (fun c => (32 <= c <= 126)%N /\ c <> 92%N) s -> ~ In q s -> Literal.quoted q (s ++ q :: r) = Some (Some (s, r)).
  Proof.
    induction 1 as [|c s [C1 C2] F IH]; cbn [app Literal.quoted]; intros NI; [rewrite N.eqb_refl; reflexivity|].
    assert (c <> q) by (intros ->; apply NI; left; reflexivity). rewrite IH by (intros I; apply NI; right; exact I).
    replace (N.eqb c q) with false by lia. replace (N.eqb c 92) with false by lia. replace (N.eqb c 10) with false by lia. replace (N.eqb c 13 || N.eqb c 0) with false by lia. reflexivity.
  Qed.
  Fixpoint with_commas (l : list pystr) : list atom :=
    match l with [] => [] | [s] => [AStr s] | s :: l' => AStr s :: AComma :: with_commas l' end.
  Lemma lex_shown u l : Forall shown_plainly l -> forall f, List.length (join (py ", ") (map (repr u) l)) < f ->
    lex f (join (py ", ") (map (repr u) l)) = LexOk (with_commas l).
  Proof.
    induction 1 as [|s l P F IH]; intros f L; [destruct f; [lia|reflexivity]|].
    destruct (repr_plain u s P) as [ER NI]. assert (QQ : its_quote s = 39%N \/ its_quote s = 34%N) by (unfold its_quote; destruct (_ && _); auto).
    assert (ST : forall f r, match r with c2 :: _ => c2 <> its_quote s | [] => True end -> lex (S f) (repr u s ++ r) = lex_cons (AStr s) (lex f r)).
    { intros f' r HR. rewrite ER. cbn [app lex]. rewrite <- app_assoc. cbn [app]. rewrite (quoted_plain (its_quote s) s r (proj1 P) NI).
      replace (is_blank (its_quote s)) with false by (destruct QQ as [-> | ->]; reflexivity).
      replace (N.eqb (its_quote s) 44) with false by (destruct QQ as [-> | ->]; reflexivity). replace (is_quote (its_quote s)) with true by (destruct QQ as [-> | ->]; reflexivity).
      destruct s as [|c s']; [|reflexivity]. destruct r as [|c2 r]; [reflexivity|]. replace (N.eqb c2 (its_quote [])) with false by lia. reflexivity. }
    destruct l as [|s2 l].
    - cbn [map join with_commas] in *. destruct f as [|f]; [lia|]. pose proof (ST f []) as ST'. rewrite app_nil_r in ST'. rewrite ST' by exact I.
      destruct f; [rewrite ER in L; cbn [List.length] in L; lia|reflexivity].
    - cbn [map] in *. change (join (py ", ") (repr u s :: repr u s2 :: map (repr u) l)) with (repr u s ++ 44%N :: 32%N :: join (py ", ") (repr u s2 :: map (repr u) l)) in *.
      change (with_commas (s :: s2 :: l)) with (AStr s :: AComma :: with_commas (s2 :: l)). rewrite app_length in L. cbn [List.length] in L.
      destruct f as [|f]; [lia|]. rewrite ST by (destruct QQ as [-> | ->]; discriminate).
      assert (LR : 0 < List.length (repr u s)) by (rewrite ER; cbn [List.length]; lia).
      destruct f as [|[|f]]; [lia|lia|]. cbn [lex is_blank N.eqb Pos.eqb orb]. rewrite IH by lia. reflexivity.
  Qed.
  Lemma elems_commas l : elems true (with_commas l) = PVals (map (fun s => Some (VStr s)) l).
  Proof.
    induction l as [|s l IH]; [reflexivity|]. destruct l as [|s2 l]; [reflexivity|].
    change (with_commas (s :: s2 :: l)) with (AStr s :: AComma :: with_commas (s2 :: l)). cbn [elems]. rewrite IH. reflexivity.
  Qed.
  Lemma all_strings l : all_some (map (fun s => Some (VStr s)) l) = Some (map VStr l).
  Proof. induction l as [|s l IH]; cbn [map all_some]; [reflexivity|]. rewrite IH. reflexivity. Qed.
  Theorem list_shown u l : Forall shown_plainly l -> literal_eval (quoted_text u (AList l)) = Ok (VList (map VStr l)).
  Proof.
    intros F. unfold quoted_text. set (t := join (py ", ") (map (repr u) l)). change (py "[" ++ t ++ py "]") with (91%N :: t ++ [93%N]).
    unfold literal_eval. change (91%N :: t ++ [93%N]) with ((91%N :: t) ++ [93%N]). rewrite last_last. cbn [app N.eqb Pos.eqb andb]. rewrite removelast_last. cbn [List.length].
    rewrite app_length. cbn [List.length]. replace (Nat.leb 2 (S (List.length t + 1))) with true by (symmetry; apply Nat.leb_le; lia).
    unfold t. rewrite (lex_shown u l F) by lia. rewrite elems_commas, all_strings. reflexivity.
  Qed.
End MessagesRunFacts.
