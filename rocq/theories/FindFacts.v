(** * FindFacts: the model of FIND against SpecFind *)
From Verif Require Import PyBase BaseFacts Json SpecJson RtLaws Props Checks SpecText SpecPattern Statements PatternFacts FS FSFacts Store SpecStore StoreFacts
  Make SpecMake MakeFacts MakeRun MakeMore MakeFinal Find SpecFind HistoryFacts.
From Coq Require Import ZifyBool ZifyN ZifyNat.

Section FindFacts.
  Context {rt : PyRt}.

  Definition rel_of (x : piece) (o : option (list (pystr * pyval))) : find_rel_pre :=
    {| fr_name := p_label x; fr_handle := p_handle x; fr_yes := o; fr_no := Some [] |}.
  Lemma find_link_eq x a b : find_link x a b =
    if drawn x then
      match get_property_dict (p_props x) with
      | Err e => Err e
      | Ok o =>
          if two_headsb x then Err NonDirectedRelationshipError
          else if points_right x
          then match a with Some n => Ok (Some (find_add_rel (rel_of x o) n), b, truthy_list (p_label x)) | None => Err AttributeError end
          else match b with Some n => Ok (a, Some (find_add_rel (rel_of x o) n), truthy_list (p_label x)) | None => Err AttributeError end
      end
    else Ok (a, b, []).
  Proof.
    unfold find_link, drawn, two_headsb, points_right, text_of.
    destruct (p_text x) as [[|c t]|] eqn:E; try reflexivity.
    destruct (get_property_dict (p_props x)) as [o|e]; [|reflexivity]. cbn [bind].
    unfold relationship_is_left_to_right. destruct (contains (py "<") (c :: t) && contains (py ">") (c :: t)); [reflexivity|].
    cbn [bind]. destruct (N.eqb (last (c :: t) 0%N) 62); reflexivity.
  Qed.

  (** what an accepted pattern is turned into *)
  Record find_ok (p : pattern) (fp : find_pre) : Prop := {
    fo_labels : forall s, In s (fp_labels fp) <-> asked_label p s;
    fo_names : forall s, In s (fp_names fp) <-> asked_name p s;
    fo_right : drawn (middle_node p) = true -> exists n, fp_right fp = Some n /\ Some (fn_label n) = p_label (right_node p) /\
                 fn_handle n = p_handle (middle_node p) /\ get_property_dict (p_props (left_node p)) = Ok (fn_yes n) }.

  Lemma node_there p x : is_pattern p -> In x [left_node p; middle_node p; right_node p] ->
    drawn x = true /\ (exists l, p_label x = Some l) \/ drawn x = false /\ p_label x = None.
  Proof.
    intros P I. pose proof (node_label p x P I) as H. destruct (drawn x); [left|right]; split; try reflexivity.
    - destruct H as (l & H & _). eauto.
    - apply H.
  Qed.


  Ltac no_way p := right; split; [intros [W1 W2 W3 W4 W5 W6]; unfold meaning in *;
      repeat match goal with H : two_headsb _ = true |- _ => apply two_headsb_spec in H end;
      repeat match goal with
             | H : ?a = true -> _, H' : ?a = true |- _ => specialize (H H')
             end;
      first [congruence | tauto
            | destruct W5; congruence
            | match goal with H : get_property_dict (p_props (left_middle_rel p)) = Err _ |- _ => destruct (W6 (left_middle_rel p)); [cbn; tauto|assumption|congruence] end
            | match goal with H : get_property_dict (p_props (middle_node p)) = Err _ |- _ => destruct (W6 (middle_node p)); [cbn; tauto|assumption|congruence] end
            | match goal with H : get_property_dict (p_props (middle_right_rel p)) = Err _ |- _ => destruct (W6 (middle_right_rel p)); [cbn; tauto|assumption|congruence] end
            | intuition congruence]
    | eexists; reflexivity].

  Lemma in_names s l : In s (s_of_list l) <-> In s l.
  Proof. apply s_of_list_In. Qed.
  Lemma asked_name_eq p s : asked_name p s <->
    In s ((if drawn (left_middle_rel p) then truthy_list (p_label (left_middle_rel p)) else []) ++
          (if drawn (middle_right_rel p) then truthy_list (p_label (middle_right_rel p)) else [])).
  Proof.
    unfold asked_name. rewrite in_app_iff. split.
    - intros (x & [<-|[<-|[]]] & D & L & N); rewrite D; [left|right]; apply truthy_list_In; auto.
    - intros [H|H]; [destruct (drawn (left_middle_rel p)) eqn:D|destruct (drawn (middle_right_rel p)) eqn:D]; try destruct H;
        apply truthy_list_In in H as [L N]; eexists; (split; [|split; [exact D|auto]]); cbn; tauto.
  Qed.
  Ltac yes p := left; split;
    [constructor; try congruence; try (intros _; split; [rewrite <- two_headsb_spec; congruence|tauto]); try (eexists; eassumption);
     intros x [<-|[<-|[<-|[]]]] D; try congruence; eexists; eassumption
    |eexists; split; [reflexivity|]; constructor;
     [intros s; cbn [fp_labels fn_label find_labels app]; unfold asked_label, asked_nodes;
      match goal with H : drawn (middle_node p) = _ |- _ => rewrite H end; rewrite s_of_list_In; cbn [In]; split;
      [intros HI; repeat (destruct HI as [<-|HI]; [eexists; split; [|eassumption]; tauto|]); destruct HI
      |intros (x & HI & E); repeat (destruct HI as [<-|HI]; [match goal with H : p_label _ = Some _ |- _ => rewrite H in E; injection E as ->; tauto end|]); destruct HI]
     |intros s; cbn [fp_names]; rewrite s_of_list_In, asked_name_eq;
      repeat match goal with H : drawn _ = _ |- _ => rewrite H end; cbn [app]; rewrite ?app_nil_r; reflexivity
     |intros HD; first [congruence|cbn [fp_right]; eexists; split; [reflexivity|]; cbn [fn_label fn_handle fn_yes find_add_rel]; auto]]].

  Lemma process_find p : is_pattern p ->
    (findable p /\ exists fp, process_pattern_find p = Ok fp /\ find_ok p fp) \/
    (~ findable p /\ exists e, process_pattern_find p = Err e).
  Proof.
    intros P. unfold process_pattern_find, find_left, find_middle, find_right.
    change (truthy (p_text (middle_node p))) with (drawn (middle_node p)).
    destruct (node_there p (left_node p) P) as [[D1 [l1 L1]]|[D1 L1]]; [cbn; tauto| |].
    2:{ destruct (get_property_dict (p_props (left_node p))) as [o1|e] eqn:E1; cbn [bind new_find_node]; rewrite ?L1; cbn [bind]; no_way p. }
    destruct (get_property_dict (p_props (left_node p))) as [o1|e] eqn:E1; cbn [bind]; [|no_way p].
    rewrite L1. cbn [bind new_find_node].
    destruct (node_there p (middle_node p) P) as [[D2 [l2 L2]]|[D2 L2]]; [cbn; tauto| |]; rewrite D2; cbn [bind].
    - destruct (get_property_dict (p_props (middle_node p))) as [o2|e] eqn:E2; cbn [bind]; [|no_way p].
      rewrite L2. cbn [bind new_find_node].
      destruct (node_there p (right_node p) P) as [[D3 [l3 L3]]|[D3 L3]]; [cbn; tauto| |]; rewrite L3; cbn [bind new_find_node]; [|no_way p].
      rewrite !find_link_eq.
      destruct (drawn (left_middle_rel p)) eqn:D4; cbn [bind];
        [destruct (get_property_dict (p_props (left_middle_rel p))) as [o4|e] eqn:E4; cbn [bind]; [|no_way p];
         destruct (two_headsb (left_middle_rel p)) eqn:T4; [no_way p|]; destruct (points_right (left_middle_rel p)) eqn:R4; cbn [bind] |];
      rewrite find_link_eq; (destruct (drawn (middle_right_rel p)) eqn:D5; cbn [bind];
        [destruct (get_property_dict (p_props (middle_right_rel p))) as [o5|e] eqn:E5; cbn [bind]; [|no_way p];
         destruct (two_headsb (middle_right_rel p)) eqn:T5; [no_way p|]; destruct (points_right (middle_right_rel p)) eqn:R5; cbn [bind] |]);
      yes p.
    - rewrite !find_link_eq.
      destruct (drawn (left_middle_rel p)) eqn:D4; cbn [bind];
        [destruct (get_property_dict (p_props (left_middle_rel p))) as [o4|e] eqn:E4; cbn [bind]; [|no_way p];
         destruct (two_headsb (left_middle_rel p)) eqn:T4; [no_way p|]; destruct (points_right (left_middle_rel p)) eqn:R4; cbn [bind]; [|no_way p] |];
      rewrite find_link_eq; (destruct (drawn (middle_right_rel p)) eqn:D5; cbn [bind];
        [destruct (get_property_dict (p_props (middle_right_rel p))) as [o5|e] eqn:E5; cbn [bind]; [|no_way p];
         destruct (two_headsb (middle_right_rel p)) eqn:T5; [no_way p|]; destruct (points_right (middle_right_rel p)) eqn:R5; cbn [bind]; no_way p |]);
      yes p.
  Qed.

  Lemma existsb_mem l idx : existsb (fun x => s_mem x idx) l = true <-> exists s, In s l /\ In s idx.
  Proof. rewrite existsb_exists. split; intros (x & A & B); exists x; (split; [exact A|]); apply s_mem_In; exact B. Qed.
  Lemma index_file_is p ix w : index_file p ix w -> ix_file_is p ix w.
  Proof. intros H. exact H. Qed.

  Theorem find_outcome f g ix w : is_pattern (pf_pattern f) -> index_file (indexes_fp g) ix w ->
    let p := pf_pattern f in
    let label_known := exists s, asked_label p s /\ In s (ix_labels ix) in
    let name_known := exists s, asked_name p s /\ In s (ix_names ix) in
    (findable p /\ (label_known /\ ~ name_known) /\ run (find f g) w = found w) \/
    (findable p /\ ~ (label_known /\ ~ name_known) /\ run (find f g) w = nothing_found w) \/
    (~ findable p /\ exists e, run (find f g) w = (Err e, w)).
  Proof.
    intros P I p lk nk. rewrite run_find. unfold process_parsed_find. fold p.
    destruct (process_find p P) as [(F & fp & E & O)|(F & e & E)]; rewrite E; [|right; right; eauto].
    rewrite run_short_circuit, (load_labels _ _ _ (index_file_is _ _ _ I)), (load_names _ _ _ (index_file_is _ _ _ I)). cbn [fst].
    assert (HL : node_label_is_in_index (fp_labels fp) (ix_labels ix) = true <-> lk).
    { unfold node_label_is_in_index. rewrite existsb_mem. unfold lk. split; intros (s & A & B); exists s; (split; [|exact B]); apply (fo_labels _ _ O); exact A. }
    assert (HN : relationship_name_is_in_index (fp_names fp) (ix_names ix) = true <-> nk).
    { unfold relationship_name_is_in_index. rewrite existsb_mem. unfold nk. split; intros (s & A & B); exists s; (split; [|exact B]); apply (fo_names _ _ O); exact A. }
    destruct (node_label_is_in_index (fp_labels fp) (ix_labels ix)), (relationship_name_is_in_index (fp_names fp) (ix_names ix)); cbn [negb andb];
      [right; left|left|right; left|right; left]; (split; [exact F|]); (split; [|reflexivity]); intuition discriminate.
  Qed.

  (** ** C36 *)
  Theorem two_node_find f g w : is_pattern (pf_pattern f) ->
    drawn (middle_node (pf_pattern f)) = true -> drawn (right_node (pf_pattern f)) = false ->
    run (find f g) w = (Err ValidationError, w) \/
    exists x e, In x [left_node (pf_pattern f); middle_node (pf_pattern f)] /\ get_property_dict (p_props x) = Err e /\ run (find f g) w = (Err e, w).
  Proof.
    intros P DM DR. rewrite run_find. unfold process_parsed_find. set (p := pf_pattern f) in *.
    unfold process_pattern_find, find_left, find_middle, find_right.
    change (truthy (p_text (middle_node p))) with (drawn (middle_node p)). rewrite DM.
    destruct (get_property_dict (p_props (left_node p))) as [o1|e] eqn:E1; cbn [bind]; [|right; eexists _, _; split; [left; reflexivity|split; [exact E1|reflexivity]]].
    destruct (node_there p (left_node p) P) as [[D1 [l1 L1]]|[D1 L1]]; [cbn; tauto| |]; rewrite L1; cbn [bind new_find_node]; [|auto].
    destruct (get_property_dict (p_props (middle_node p))) as [o2|e] eqn:E2; cbn [bind]; [|right; eexists _, _; split; [right; left; reflexivity|split; [exact E2|reflexivity]]].
    destruct (node_there p (middle_node p) P) as [[D2 [l2 L2]]|[D2 L2]]; [cbn; tauto| |congruence]. rewrite L2; cbn [bind new_find_node].
    destruct (node_there p (right_node p) P) as [[D3 [l3 L3]]|[D3 L3]]; [cbn; tauto|congruence|]. rewrite L3; cbn [bind new_find_node]. auto.
  Qed.

  (** ** C39 *)
  Theorem right_ignored f f' g w : (exists x, pf_pattern f' = with_right (pf_pattern f) x /\ p_label x = p_label (right_node (pf_pattern f))) ->
    run (find f' g) w = run (find f g) w.
  Proof.
    intros (x & E & L). rewrite !run_find. unfold process_parsed_find. rewrite E.
    replace (process_pattern_find (with_right (pf_pattern f) x)) with (process_pattern_find (pf_pattern f)); [reflexivity|].
    unfold process_pattern_find, find_left, find_middle, find_right. cbn [with_right left_node middle_node right_node left_middle_rel middle_right_rel].
    rewrite L. reflexivity.
  Qed.
  Theorem right_looked_up f fp : is_pattern (pf_pattern f) -> process_parsed_find f = Ok fp -> drawn (middle_node (pf_pattern f)) = true ->
    exists n, fp_right fp = Some n /\ Some (fn_label n) = p_label (right_node (pf_pattern f)) /\
      fn_handle n = p_handle (middle_node (pf_pattern f)) /\ get_property_dict (p_props (left_node (pf_pattern f))) = Ok (fn_yes n).
  Proof.
    intros P E D. unfold process_parsed_find in E. destruct (process_find _ P) as [(F & fp' & E' & O)|(F & e & E')]; [|congruence].
    assert (fp' = fp) by congruence. subst. apply (fo_right _ _ O D).
  Qed.
End FindFacts.


Lemma Forall2_In_r {A B} (R : A -> B -> Prop) l l' b : Forall2 R l l' -> In b l' -> exists a, In a l /\ R a b.
Proof. induction 1 as [|x y l l' H F IH]; cbn [In]; [tauto|]. intros [<-|H']; [eauto|]. destruct (IH H') as (a & I & HR). eauto. Qed.

Section Reached.
  Context {rt : PyRt} (D : rt_data rt).

  Lemma entries_labels p w items k v s : entries p w items -> In (k, v) items -> field (py "node_label") v = Some (VStr s) ->
    exists x, In x (map snd (drawn_nodes p 0)) /\ p_label x = Some s.
  Proof.
    unfold entries, stored_nodes, drawn_nodes. intros E I F. eapply Forall2_In_r in E; [|exact I].
    destruct E as [[n x] [HI [K N]]]. cbn [fst snd] in *. destruct N as (pv & rels & _ & _ & ->). cbn in F. unfold name_value in F.
    destruct (p_label x) as [l|] eqn:L; [|discriminate]. injection F as ->. exists x. split; [|exact L].
    destruct HI as [HI|HI]; [injection HI as _ <-; left; reflexivity|]. right. rewrite map_app, in_app_iff. left.
    destruct (drawn (middle_node p)); [|destruct HI]. destruct HI as [HI|[]]. injection HI as _ <-. left. reflexivity.
  Qed.
  Lemma entries_all_labels ps : forall w items k v s, entries_all ps w items -> In (k, v) items -> field (py "node_label") v = Some (VStr s) -> label_drawn ps s.
  Proof.
    induction ps as [|p ps IH]; intros w items k v s E I F; cbn [entries_all] in E; [subst; destruct I|].
    destruct E as (a & b & -> & E1 & E2). apply in_app_iff in I as [I|I].
    - destruct (entries_labels _ _ _ _ _ _ E1 I F) as (x & HX & L). exists p, x. split; [left; reflexivity|auto].
    - destruct (IH _ _ _ _ _ E2 I F) as (p' & x & HP & H). exists p', x. split; [right; exact HP|exact H].
  Qed.
  Lemma label_drawn_app a b s : label_drawn (a ++ b) s <-> label_drawn a s \/ label_drawn b s.
  Proof.
    unfold label_drawn. split.
    - intros (p & x & I & H). apply in_app_iff in I as [I|I]; [left|right]; eauto.
    - intros [(p & x & I & H)|(p & x & I & H)]; exists p, x; rewrite in_app_iff; auto.
  Qed.
  Lemma name_drawn_app a b s : name_drawn (a ++ b) s <-> name_drawn a s \/ name_drawn b s.
  Proof.
    unfold name_drawn. split.
    - intros (p & x & I & H). apply in_app_iff in I as [I|I]; [left|right]; eauto.
    - intros [(p & x & I & H)|(p & x & I & H)]; exists p, x; rewrite in_app_iff; auto.
  Qed.

  Lemma file_is_fs p t w w' : w_fs w' = w_fs w -> file_is p t w -> file_is p t w'.
  Proof. unfold file_is. intros ->. auto. Qed.
  Lemma stored_fs g G w w' : w_fs w' = w_fs w -> stored g G w -> stored g G w'.
  Proof.
    intros E [A B C (st & I) N]. constructor; auto; try (eapply file_is_fs; eassumption). exists st. eapply file_is_fs; eassumption.
  Qed.

  (** the index of a reached graph holds exactly the labels and names drawn so far *)
  Theorem reached_inv g w ps : reached g w ps -> exists G, stored g G w /\
    (forall s, In s (ix_labels (g_ix G)) <-> label_drawn ps s) /\
    (forall s, In s (ix_names (g_ix G)) <-> name_drawn ps s) /\
    (forall k v s, In (k, v) (g_db G) -> field (py "node_label") v = Some (VStr s) -> In s (ix_labels (g_ix G))).
  Proof.
    induction 1 as [G w S E1 E2 E3|w ps l b w' R IH N E|w ps f R IH].
    - exists G. split; [exact S|]. rewrite E1, E2, E3. split; [|split].
      + intros s. split; [intros []|intros (p & x & [] & _)].
      + intros s. split; [intros []|intros (p & x & [] & _)].
      + intros k v s [].
    - destruct IH as (G & S & HL & HN & HD). destruct (make_ok_effect rt g G w l b w' D S N E) as (_ & _ & items & AC & _ & _ & G' & S' & M & Edb).
      exists G'. split; [exact S'|]. split; [|split].
      + intros s. rewrite (md_labels _ _ _ M), label_drawn_app, HL. tauto.
      + intros s. rewrite (md_names _ _ _ M), name_drawn_app, HN. tauto.
      + intros k v s I F. rewrite (md_labels _ _ _ M). rewrite Edb in I. apply in_app_iff in I as [I|I]; [left; eauto|right].
        destruct AC as [_ AC]. eapply entries_all_labels; eassumption.
    - destruct IH as (G & S & H). exists G. split; [|exact H]. eapply stored_fs; [apply find_files|exact S].
  Qed.

  Lemma stored_index g G w : stored g G w -> index_file (indexes_fp g) (g_ix G) w.
  Proof. intros S. split; [apply S|]. destruct (st_ix _ _ _ S) as (st & H). eauto. Qed.

  (** ** C37 *)
  Theorem stored_label_found g w ps f d k v s : reached g w ps -> is_pattern (pf_pattern f) -> alone (pf_pattern f) -> meaning (left_node (pf_pattern f)) ->
    run (load_database (database_fp g)) w = (Ok (VDict d), w) -> In (k, v) d -> field (py "node_label") v = Some (VStr s) ->
    p_label (left_node (pf_pattern f)) = Some s -> run (find f g) w = found w.
  Proof.
    intros R P (A1 & A2 & A3 & A4 & A5) M L I F LB. destruct (reached_inv g w ps R) as (G & S & HL & HN & HD).
    assert (d = g_db G).
    { assert (HF : db_file_is (database_fp g) (g_db G) w).
      { split; [apply S|]. split; apply S. }
      rewrite (load_database_ok _ _ _ HF) in L. congruence. }
    subst d.
    assert (NN : ~ exists s0, asked_name (pf_pattern f) s0 /\ In s0 (ix_names (g_ix G))).
    { intros (s0 & (x & [<-|[<-|[]]] & Dx & _) & _); congruence. }
    assert (LK : exists s0, asked_label (pf_pattern f) s0 /\ In s0 (ix_labels (g_ix G))).
    { exists s. split; [|eapply HD; eassumption]. exists (left_node (pf_pattern f)). split; [left; reflexivity|exact LB]. }
    destruct (find_outcome f g (g_ix G) w P (stored_index g G w S)) as [(_ & _ & E)|[(_ & X & _)|(X & _)]]; [exact E| |].
    - exfalso. apply X. auto.
    - exfalso. apply X. constructor; auto; try congruence. intros x [<-|[<-|[<-|[]]]]; congruence.
  Qed.
  Theorem unknown_label_not_found g w ps f : reached g w ps -> is_pattern (pf_pattern f) -> findable (pf_pattern f) ->
    (forall s, asked_label (pf_pattern f) s -> ~ label_drawn ps s) -> run (find f g) w = nothing_found w.
  Proof.
    intros R P FD U. destruct (reached_inv g w ps R) as (G & S & HL & HN & HD).
    destruct (find_outcome f g (g_ix G) w P (stored_index g G w S)) as [(_ & ((s & A & B) & _) & E)|[(_ & _ & E)|(X & _)]].
    - exfalso. apply HL in B. eapply U; eassumption.
    - exact E.
    - contradiction.
  Qed.
  (** and what is found in a reached graph, in terms of what was drawn *)
  Theorem reached_outcome g w ps f : reached g w ps -> is_pattern (pf_pattern f) -> findable (pf_pattern f) ->
    ((exists s, asked_label (pf_pattern f) s /\ label_drawn ps s) -> (forall s, asked_name (pf_pattern f) s -> ~ name_drawn ps s) ->
     run (find f g) w = found w) /\
    (forall s, asked_name (pf_pattern f) s -> name_drawn ps s -> run (find f g) w = nothing_found w).
  Proof.
    intros R P FD. destruct (reached_inv g w ps R) as (G & S & HL & HN & HD).
    destruct (find_outcome f g (g_ix G) w P (stored_index g G w S)) as [(_ & (_ & X) & E)|[(_ & X & E)|(X & _)]]; [| |contradiction].
    - split; [intros _ _; exact E|]. intros s A B. exfalso. apply X. exists s. split; [exact A|]. apply HN. exact B.
    - split; [|intros _ _ _; exact E]. intros (s & A & B) N. exfalso. apply X. split; [exists s; split; [exact A|apply HL; exact B]|].
      intros (s' & A' & B'). apply HN in B'. eapply N; eassumption.
  Qed.
End Reached.
