(** * SplitFacts: one MAKE or several; handles do not matter *)
From Verif Require Import PyBase BaseFacts Json JsonFacts JsonMore SpecJson RtLaws Props PropsFacts Checks Statements Data FS FSFacts Store
  SpecStore StoreFacts Make SpecMake MakeFacts MakeRun MakeMore MakeFinal FindFacts SpecSplit.
From Coq Require Import ZifyBool ZifyN ZifyNat.

Lemma size_all_app a b : size_all (a ++ b) = (size_all a + size_all b)%Z.
Proof. induction a as [|p a IH]; cbn [app size_all]; [lia|]. rewrite IH. lia. Qed.

Section Split.
  Context {rt : PyRt}.

  Lemma entries_all_app a : forall b w items, entries_all (a ++ b) w items <->
    exists x y, items = x ++ y /\ entries_all a w x /\ entries_all b (w + size_all a)%Z y.
  Proof.
    induction a as [|p a IH]; intros b w items; cbn [app entries_all size_all].
    - rewrite Z.add_0_r. split; [intros H; exists [], items; auto|]. intros (x & y & -> & -> & H). exact H.
    - split.
      + intros (u & v & -> & E & H). apply IH in H as (x & y & -> & H1 & H2). exists (u ++ x), y. rewrite app_assoc. split; [reflexivity|].
        split; [exists u, x; auto|]. replace (w + (size p + size_all a))%Z with (w + size p + size_all a)%Z by lia. exact H2.
      + intros (x & y & -> & (u & v & -> & E & H1) & H2). exists u, (v ++ y). rewrite app_assoc. split; [reflexivity|]. split; [exact E|].
        apply IH. exists v, y. split; [reflexivity|]. split; [exact H1|].
        replace (w + (size p + size_all a))%Z with (w + size p + size_all a)%Z in H2 by lia. exact H2.
  Qed.
  Lemma owns_app a : forall b w k z, owns (a ++ b) w k z <-> owns a w k z \/ owns b (w + size_all a)%Z k z.
  Proof.
    induction a as [|p a IH]; intros b w k z; cbn [app owns size_all]; [rewrite Z.add_0_r; tauto|].
    rewrite IH. replace (w + (size p + size_all a))%Z with (w + size p + size_all a)%Z by lia. tauto.
  Qed.
  Lemma name_drawn_app a b s : name_drawn (a ++ b) s <-> name_drawn a s \/ name_drawn b s.
  Proof.
    unfold name_drawn. split.
    - intros (p & l & H & R). apply in_app_iff in H as [H|H]; [left|right]; eauto.
    - intros [(p & l & H & R)|(p & l & H & R)]; exists p, l; rewrite in_app_iff; auto.
  Qed.
  Lemma patterns_app a b : patterns_of (a ++ b) = patterns_of a ++ patterns_of b.
  Proof. apply flat_map_app. Qed.

  Lemma owns_relationship ps w : Forall well_drawn ps -> (has_relationship ps <-> exists k z, owns ps w k z).
  Proof.
    revert w; induction ps as [|p ps IH]; intros w W; [split; [intros (p & [] & _)|intros (k & z & [])]|].
    apply Forall_cons_iff in W as [Wp W]. specialize (IH (w + size p)%Z W). split.
    - intros (q & [<- |H] & D).
      + assert (X : exists n x l, In (n, x) (stored_nodes p w) /\ In l (owned p w n)).
        { assert (B1 : drawn (left_middle_rel p) = true -> drawn (middle_node p) = true) by (intros; apply (wd_rel1 _ Wp); assumption).
          assert (B2 : drawn (middle_right_rel p) = true -> drawn (middle_node p) = true) by (intros; apply (wd_rel2 _ Wp); assumption).
          destruct D as [D|[D R]].
          - pose proof (B1 D) as M. destruct (points_right (left_middle_rel p)) eqn:R.
            + exists (num_left w), (left_node p), (between_nodes (num_rel1 p w) (left_middle_rel p) (num_left w) (num_middle w)).
              split; [left; reflexivity|]. unfold owned, links. rewrite D. apply filter_In. split; [left; reflexivity|].
              unfold between_nodes. rewrite R. cbn [lk_from]. apply Z.eqb_refl.
            + exists (num_middle w), (middle_node p), (between_nodes (num_rel1 p w) (left_middle_rel p) (num_left w) (num_middle w)).
              split; [unfold stored_nodes; rewrite M; right; left; reflexivity|]. unfold owned, links. rewrite D. apply filter_In. split; [left; reflexivity|].
              unfold between_nodes. rewrite R. cbn [lk_from]. apply Z.eqb_refl.
          - pose proof (B2 D) as M.
            exists (num_middle w), (middle_node p), (between_nodes (num_rel2 p w) (middle_right_rel p) (num_middle w) (num_right p w)).
            split; [unfold stored_nodes; rewrite M; right; left; reflexivity|]. unfold owned, links. rewrite D. apply filter_In.
            split; [apply in_app_iff; right; left; reflexivity|]. unfold between_nodes. rewrite R. cbn [lk_from]. apply Z.eqb_refl. }
        destruct X as (n & x & l & A & B). exists (str_of_Z n), (lk_num l). cbn [owns]. left. exists n, x, l. auto.
      + destruct (proj1 IH) as (k & z & O); [exists q; auto|]. exists k, z. cbn [owns]. right. exact O.
    - intros (k & z & [(n & x & l & A & -> & B & ->)|O]).
      + exists p. split; [left; reflexivity|]. unfold owned in B. apply filter_In in B as [B F]. unfold links in B. apply in_app_iff in B as [B|B].
        * destruct (drawn (left_middle_rel p)); [left; reflexivity|destruct B].
        * right. destruct (drawn (middle_right_rel p)) eqn:D; [|destruct B]. destruct B as [<- |[]]. split; [reflexivity|].
          unfold between_nodes in F. destruct (points_right (middle_right_rel p)) eqn:R; [reflexivity|]. cbn [lk_from] in F. apply Z.eqb_eq in F.
          pose proof (wd_rel2 _ Wp D) as (M & _ & _). unfold stored_nodes in A. rewrite M in A. unfold num_right, num_left, num_middle in *. rewrite M in F. cbn [one] in F.
          destruct A as [A|[A|[]]]; inversion A; lia.
      + destruct (proj2 IH) as (q & H & D); [eauto|]. exists q. split; [right; exact H|exact D].
  Qed.

  Context (D : rt_data rt).

  Lemma made_same g G w a b G1 w1 w2 G2 w3 G3 :
    stored g G w -> stored g G1 w1 -> made (patterns_of a) G G1 -> stored g G2 w2 -> made (patterns_of b) G1 G2 ->
    stored g G3 w3 -> made (patterns_of (a ++ b)) G G3 -> same_graph g w3 w2.
  Proof.
    intros S S1 M1 S2 M2 S3 M3. rewrite patterns_app in M3.
    assert (N : g_next G3 = g_next G2) by (rewrite (md_next _ _ _ M3), (md_next _ _ _ M2), (md_next _ _ _ M1), size_all_app; lia).
    assert (DB : g_db G3 = g_db G2).
    { destruct (md_db _ _ _ M3) as (i3 & E3 & ->). destruct (md_db _ _ _ M2) as (i2 & E2 & ->). destruct (md_db _ _ _ M1) as (i1 & E1 & ->).
      rewrite <- app_assoc. f_equal. apply entries_all_app in E3 as (x & y & -> & X & Y). rewrite (md_next _ _ _ M1) in E2.
      rewrite (entries_all_fun _ _ _ _ X E1), (entries_all_fun _ _ _ _ Y E2). reflexivity. }
    split; [|split].
    - eexists. split; [exact (st_db _ _ _ S3)|]. rewrite DB. exact (st_db _ _ _ S2).
    - eexists. split; [exact (st_wn _ _ _ S3)|]. rewrite N. exact (st_wn _ _ _ S2).
    - exists (g_ix G3), (g_ix G2). split; [split; [apply (g_ix_ok _ (st_ok _ _ _ S3))|exact (st_ix _ _ _ S3)]|].
      split; [split; [apply (g_ix_ok _ (st_ok _ _ _ S2))|exact (st_ix _ _ _ S2)]|].
      split; [|split].
      + intros k z. rewrite (md_rels _ _ _ M3), (md_rels _ _ _ M2), (md_rels _ _ _ M1), owns_app, (md_next _ _ _ M1). tauto.
      + intros s. rewrite (md_labels _ _ _ M3), (md_labels _ _ _ M2), (md_labels _ _ _ M1), label_drawn_app. tauto.
      + intros s. rewrite (md_names _ _ _ M3), (md_names _ _ _ M2), (md_names _ _ _ M1), name_drawn_app. tauto.
  Qed.

  (** several MAKEs that succeed could have been one *)
  Theorem join_makes g G w a b w1 w2 : stored g G w -> Forall names_ok (patterns_of a) -> Forall names_ok (patterns_of b) ->
    run (make a g) w = (Ok true, w1) -> run (make b g) w1 = (Ok true, w2) ->
    exists w3, run (make (a ++ b) g) w = (Ok true, w3) /\ same_graph g w3 w2 /\ unchanged_but [database_fp g; indexes_fp g; wiggle_number_fp g] w2 w3.
  Proof.
    intros S Na Nb Ra Rb.
    destruct (make_ok_effect rt g G w a true w1 D S Na Ra) as (_ & U1 & i1 & [W1 E1] & Sr1 & O1 & G1 & S1 & M1 & DB1).
    destruct (make_ok_effect rt g G1 w1 b true w2 D S1 Nb Rb) as (_ & U2 & i2 & [W2 E2] & Sr2 & O2 & G2 & S2 & M2 & DB2).
    assert (Nab : Forall names_ok (patterns_of (a ++ b))) by (rewrite patterns_app; apply Forall_app; auto).
    destruct (make_ok_when rt g G w (a ++ b) (i1 ++ i2) D S Nab) as (w3 & R3).
    { rewrite patterns_app. split; [apply Forall_app; auto|]. apply entries_all_app. exists i1, i2. rewrite (md_next _ _ _ M1) in E2. auto. }
    { pose proof (g_db_ser _ (st_ok _ _ _ S2)) as Q. rewrite DB2, DB1 in Q. unfold dict_ser in *. rewrite !forallb_app in Q. rewrite !forallb_app.
      apply andb_true_iff in Q as [Q Q2]. apply andb_true_iff in Q as [_ Q1]. rewrite Q1, Q2. reflexivity. }
    { destruct O1 as (k & z & O). exists k, z. rewrite patterns_app. apply owns_app. left. exact O. }
    exists w3. split; [exact R3|].
    destruct (make_ok_effect rt g G w (a ++ b) true w3 D S Nab R3) as (_ & U3 & _ & _ & _ & _ & G3 & S3 & M3 & _).
    split; [exact (made_same g G w a b G1 w1 w2 G2 w3 G3 S S1 M1 S2 M2 S3 M3)|].
    destruct U1 as (A1 & B1 & C1), U2 as (A2 & B2 & C2), U3 as (A3 & B3 & C3). split; [|split; congruence].
    intros q H. rewrite A3, A2, A1 by exact H. reflexivity.
  Qed.

  (** one MAKE that succeeds could have been several, if each of them has a relationship *)
  Theorem split_make g G w a b w3 : stored g G w -> Forall names_ok (patterns_of a) -> Forall names_ok (patterns_of b) ->
    run (make (a ++ b) g) w = (Ok true, w3) -> has_relationship (patterns_of a) -> has_relationship (patterns_of b) ->
    exists w1 w2, run (make a g) w = (Ok true, w1) /\ run (make b g) w1 = (Ok true, w2) /\ same_graph g w3 w2 /\
      unchanged_but [database_fp g; indexes_fp g; wiggle_number_fp g] w2 w3.
  Proof.
    intros S Na Nb R3 Ha Hb.
    assert (Nab : Forall names_ok (patterns_of (a ++ b))) by (rewrite patterns_app; apply Forall_app; auto).
    destruct (make_ok_effect rt g G w (a ++ b) true w3 D S Nab R3) as (_ & U3 & i3 & [W3 E3] & Sr3 & _ & G3 & S3 & M3 & DB3).
    rewrite patterns_app in W3, E3. apply Forall_app in W3 as [Wa Wb]. apply entries_all_app in E3 as (x & y & -> & X & Y).
    assert (Sr : dict_ser x = true /\ dict_ser y = true).
    { unfold dict_ser in *. rewrite forallb_app in Sr3. apply andb_true_iff in Sr3. exact Sr3. }
    destruct Sr as [Sx Sy].
    destruct (make_ok_when rt g G w a x D S Na (conj Wa X) Sx (proj1 (owns_relationship _ _ Wa) Ha)) as (w1 & R1).
    destruct (make_ok_effect rt g G w a true w1 D S Na R1) as (_ & U1 & i1 & [_ E1] & _ & _ & G1 & S1 & M1 & DB1).
    assert (Y1 : entries_all (patterns_of b) (g_next G1) y) by (rewrite (md_next _ _ _ M1); exact Y).
    destruct (make_ok_when rt g G1 w1 b y D S1 Nb (conj Wb Y1) Sy (proj1 (owns_relationship _ _ Wb) Hb)) as (w2 & R2).
    exists w1, w2. split; [exact R1|]. split; [exact R2|].
    destruct (join_makes g G w a b w1 w2 S Na Nb R1 R2) as (w3' & R3' & SG & U). rewrite R3 in R3'. inversion R3'; subst. auto.
  Qed.

  Lemma strs_inj a b : map VStr a = map VStr b -> a = b.
  Proof. revert b; induction a as [|x a IH]; intros [|y b] H; try discriminate; [reflexivity|]. cbn [map] in H. inversion H. f_equal. apply IH. assumption. Qed.
  Lemma ints_inj a b : map VInt a = map VInt b -> a = b.
  Proof. revert b; induction a as [|x a IH]; intros [|y b] H; try discriminate; [reflexivity|]. cbn [map] in H. inversion H. f_equal. apply IH. assumption. Qed.
  Lemma rels_inj a b : rels_val a = rels_val b -> a = b.
  Proof.
    unfold rels_val. intros H. assert (E : map (fun kv => (fst kv, VList (map VInt (snd kv)))) a = map (fun kv => (fst kv, VList (map VInt (snd kv)))) b) by congruence.
    clear H. revert b E; induction a as [|[k x] a IH]; intros [|[k' y] b] H; try discriminate; [reflexivity|]. cbn [map fst snd] in H. inversion H as [[H1 H2 H3]].
    apply ints_inj in H2. subst. f_equal. apply IH. exact H3.
  Qed.
  Lemma index_inj a b : index_val a = index_val b -> a = b.
  Proof.
    unfold index_val, strs_val. intros H. inversion H as [[H1 H2 H3]].
    assert (R : ix_rels a = ix_rels b) by (apply rels_inj; unfold rels_val; rewrite H1; reflexivity).
    apply strs_inj in H2. apply strs_inj in H3. destruct a, b. cbn in *. subst. reflexivity.
  Qed.
  Lemma index_file_fun p a b w : index_file p a w -> index_file p b w -> a = b.
  Proof.
    intros [Oa (sa & Fa)] [Ob (sb & Fb)]. unfold file_is in *. rewrite Fa in Fb. assert (E : dump_text sa (index_val a) = dump_text sb (index_val b)) by congruence.
    apply index_inj. pose proof (load_index sa a Oa) as A. pose proof (load_index sb b Ob) as B. rewrite E in A. congruence.
  Qed.
  Lemma same_graph_trans g w1 w2 w3 : same_graph g w1 w2 -> same_graph g w2 w3 -> same_graph g w1 w3.
  Proof.
    intros ((t & A1 & A2) & (u & B1 & B2) & i1 & i2 & F1 & F2 & X1 & X2 & X3) ((t' & A3 & A4) & (u' & B3 & B4) & i3 & i4 & F3 & F4 & Y1 & Y2 & Y3).
    pose proof (index_file_fun _ _ _ _ F2 F3). subst i3. unfold file_is in *.
    assert (t' = t) by congruence. assert (u' = u) by congruence. subst. split; [eauto|]. split; [eauto|]. exists i1, i4. split; [exact F1|]. split; [exact F4|].
    split; [intros; rewrite X1; auto|]. split; intros; [rewrite X2|rewrite X3]; auto.
  Qed.
  Lemma same_graph_refl g G w : stored g G w -> same_graph g w w.
  Proof.
    intros S. split; [eexists; split; exact (st_db _ _ _ S)|]. split; [eexists; split; exact (st_wn _ _ _ S)|].
    exists (g_ix G), (g_ix G). assert (F : index_file (indexes_fp g) (g_ix G) w) by (split; [apply (g_ix_ok _ (st_ok _ _ _ S))|exact (st_ix _ _ _ S)]).
    split; [exact F|]. split; [exact F|]. tauto.
  Qed.

  Theorem join_all g ls : forall G w w', ls <> [] -> stored g G w -> Forall (fun l => Forall names_ok (patterns_of l)) ls -> in_turn ls g w = Some w' ->
    exists w1, run (make (concat ls) g) w = (Ok true, w1) /\ same_graph g w1 w' /\ unchanged_but [database_fp g; indexes_fp g; wiggle_number_fp g] w' w1.
  Proof.
    induction ls as [|a ls IH]; intros G w w' NE S N H; [congruence|]. apply Forall_cons_iff in N as [Na N].
    cbn [in_turn] in H. destruct (run (make a g) w) as [[[|]|e] w1] eqn:R; try discriminate.
    destruct (make_ok_effect rt g G w a true w1 D S Na R) as (_ & _ & _ & _ & _ & _ & G1 & S1 & _).
    destruct ls as [|b ls].
    - cbn [in_turn concat] in *. injection H as <-. rewrite app_nil_r. exists w1. split; [exact R|]. split; [eapply same_graph_refl; eauto|]. repeat split; auto.
    - destruct (IH G1 w1 w' ltac:(discriminate) S1 N H) as (w2 & R2 & SG & U).
      assert (Nb : Forall names_ok (patterns_of (concat (b :: ls)))).
      { clear -N. induction N as [|x l Hx HN IHN]; [constructor|]. cbn [concat]. rewrite patterns_app. apply Forall_app; auto. }
      destruct (join_makes g G w a (concat (b :: ls)) w1 w2 S Na Nb R R2) as (w3 & R3 & SG3 & U3). exists w3. split; [exact R3|].
      split; [eapply same_graph_trans; eauto|]. destruct U as (A1 & B1 & C1), U3 as (A2 & B2 & C2). split; [|split; congruence].
      intros q Q. rewrite A2, A1 by exact Q. reflexivity.
  Qed.
  Theorem split_all g ls : forall G w w', ls <> [] -> stored g G w -> Forall (fun l => Forall names_ok (patterns_of l)) ls -> Forall (fun l => has_relationship (patterns_of l)) ls ->
    run (make (concat ls) g) w = (Ok true, w') ->
    exists w1, in_turn ls g w = Some w1 /\ same_graph g w' w1 /\ unchanged_but [database_fp g; indexes_fp g; wiggle_number_fp g] w1 w'.
  Proof.
    induction ls as [|a ls IH]; intros G w w' NE S N HR H; [congruence|]. apply Forall_cons_iff in N as [Na N]. apply Forall_cons_iff in HR as [Ha HR].
    destruct ls as [|b ls].
    - cbn [concat] in H. rewrite app_nil_r in H. cbn [in_turn]. rewrite H. exists w'.
      destruct (make_ok_effect rt g G w a true w' D S Na H) as (_ & _ & _ & _ & _ & _ & G1 & S1 & _).
      split; [reflexivity|]. split; [eapply same_graph_refl; eauto|]. repeat split; auto.
    - assert (Nb : Forall names_ok (patterns_of (concat (b :: ls)))).
      { clear -N. induction N as [|x l Hx HN IHN]; [constructor|]. cbn [concat]. rewrite patterns_app. apply Forall_app; auto. }
      assert (Hb : has_relationship (patterns_of (concat (b :: ls)))).
      { apply Forall_cons_iff in HR as [(p & P & Q) _]. exists p. split; [|exact Q]. cbn [concat]. rewrite patterns_app. apply in_app_iff. auto. }
      cbn [concat] in H. change (b ++ concat ls) with (concat (b :: ls)) in H.
      destruct (split_make g G w a (concat (b :: ls)) w' S Na Nb H Ha Hb) as (w1 & w2 & R1 & R2 & SG & U).
      destruct (make_ok_effect rt g G w a true w1 D S Na R1) as (_ & _ & _ & _ & _ & _ & G1 & S1 & _).
      destruct (IH G1 w1 w2 ltac:(discriminate) S1 N HR R2) as (w3 & T & SG3 & U3). exists w3.
      split; [cbn [in_turn]; rewrite R1; exact T|]. split; [eapply same_graph_trans; eauto|].
      destruct U as (A1 & B1 & C1), U3 as (A2 & B2 & C2). split; [|split; congruence]. intros q Q. rewrite A1, A2 by exact Q. reflexivity.
  Qed.
End Split.

(** ** handles *)
Section Handles.
  Context {rt : PyRt}.
  Definition req (a b : rel_pre) : Prop :=
    rp_wn a = rp_wn b /\ rp_name a = rp_name b /\ get_property_dict (rp_props a) = get_property_dict (rp_props b) /\ rp_from a = rp_from b /\ rp_to a = rp_to b.
  Definition neq' (a b : node_pre) : Prop :=
    np_wn a = np_wn b /\ np_label a = np_label b /\ get_property_dict (np_props a) = get_property_dict (np_props b) /\ Forall2 req (np_rels a) (np_rels b).
  Definition oeq (a b : option node_pre) : Prop :=
    match a, b with Some x, Some y => neq' x y | None, None => True | _, _ => False end.
  Definition meq (a b : make_pre) : Prop :=
    neq' (mp_left a) (mp_left b) /\ oeq (mp_middle a) (mp_middle b) /\ oeq (mp_right a) (mp_right b) /\
    mp_labels a = mp_labels b /\ mp_names a = mp_names b.
  (** the same error, or related results *)
  Definition rrel {A} (R : A -> A -> Prop) (a b : res A) : Prop :=
    match a, b with Ok x, Ok y => R x y | Err e, Err f => e = f | _, _ => False end.
  Lemma rrel_bind {A B} (R : A -> A -> Prop) (Q : B -> B -> Prop) a b f g : rrel R a b -> (forall x y, R x y -> rrel Q (f x) (g y)) ->
    rrel Q (let? x := a in f x) (let? y := b in g y).
  Proof. destruct a, b; cbn [rrel bind]; intros H K; try contradiction; auto. Qed.

  Lemma eq_node_pre w a b : p_label a = p_label b -> get_property_dict (p_props a) = get_property_dict (p_props b) -> rrel neq' (new_node_pre w a) (new_node_pre w b).
  Proof. intros L P. unfold new_node_pre. rewrite L. destruct (p_label b); [|reflexivity]. cbn [rrel]. repeat split; cbn [np_rels np_props np_label]; auto. Qed.
  Lemma eq_opt_node w a b : same_node a b -> rrel (fun x y => fst x = fst y /\ oeq (snd x) (snd y)) (opt_node a w) (opt_node b w).
  Proof.
    intros (E & L & P). unfold opt_node. unfold drawn in E. unfold truthy.
    destruct (p_text a) as [[|]|], (p_text b) as [[|]|]; try discriminate; try (cbn; auto; fail).
    eapply rrel_bind; [apply eq_node_pre; eassumption|]. cbn. auto.
  Qed.
  Lemma eq_add_rel r s a b : req r s -> neq' a b -> neq' (add_rel r a) (add_rel s b).
  Proof. intros R (A & B & C & F). unfold add_rel. repeat split; cbn; auto. apply Forall2_app; auto. Qed.
  Definition link_rel (x y : Z * option node_pre * option node_pre * list pystr) : Prop :=
    fst (fst (fst x)) = fst (fst (fst y)) /\ oeq (snd (fst (fst x))) (snd (fst (fst y))) /\ oeq (snd (fst x)) (snd (fst y)) /\ snd x = snd y.
  Lemma eq_link w x y a b a' b' : same_relationship x y -> oeq a a' -> oeq b b' -> rrel link_rel (link x w a b) (link y w a' b').
  Proof.
    intros ((E & L & P) & R & T) A B. rewrite !link_eq. rewrite E, R, L.
    assert (TE : two_headsb x = two_headsb y).
    { apply Bool.eq_iff_eq_true. rewrite !two_headsb_spec. exact T. }
    rewrite TE. destruct (drawn y); [|cbn; repeat split; auto]. destruct (two_headsb y); [reflexivity|].
    destruct a as [na|], a' as [na'|]; try contradiction; destruct b as [nb|], b' as [nb'|]; try contradiction; try reflexivity.
    cbn [oeq] in A, B. cbv zeta.
    assert (Q : req (pre_rel (between_nodes w x (np_wn na) (np_wn nb))) (pre_rel (between_nodes w y (np_wn na') (np_wn nb')))).
    { destruct A as (A & _), B as (B & _). rewrite A, B. unfold between_nodes. rewrite R. destruct (points_right y); unfold pre_rel, new_rel_pre; repeat split; cbn; congruence. }
    destruct (points_right y); cbn [rrel]; unfold link_rel; cbn [fst snd oeq]; (split; [reflexivity|]); (split; [|split; [|reflexivity]]); try assumption; apply eq_add_rel; assumption.
  Qed.
  Lemma oeq_labels a b : oeq a b -> labels_of a = labels_of b.
  Proof. destruct a, b; cbn [oeq labels_of]; try contradiction; [|reflexivity]. intros (_ & -> & _). reflexivity. Qed.
  Lemma eq_pattern p q w : same_drawing p q -> rrel (fun x y => fst x = fst y /\ meq (snd x) (snd y)) (process_pattern p w) (process_pattern q w).
  Proof.
    intros ((_ & L1 & L2) & R1 & M & R2 & R). unfold process_pattern.
    eapply rrel_bind; [apply eq_node_pre; eassumption|]. intros l l' HL.
    eapply rrel_bind; [apply eq_opt_node; exact M|]. intros [w1 m] [w1' m'] [E HM]. cbn [fst snd] in *. subst w1'.
    eapply rrel_bind; [apply eq_opt_node; exact R|]. intros [w2 r] [w2' r'] [E HR]. cbn [fst snd] in *. subst w2'.
    cbv zeta. eapply rrel_bind; [apply eq_link; [exact R1|exact HL|exact HM]|].
    intros [[[w3 l3] m3] n1] [[[w3' l3'] m3'] n1'] (E & HL3 & HM3 & N1). cbn [fst snd] in *. subst w3' n1'.
    eapply rrel_bind; [apply eq_link; [exact R2|exact HM3|exact HR]|].
    intros [[[w4 m4] r4] n2] [[[w4' m4'] r4'] n2'] (E & HM4 & HR4 & N2). cbn [fst snd] in *. subst w4' n2'.
    destruct l3 as [l3|], l3' as [l3'|]; try contradiction; [|reflexivity]. cbn [rrel fst snd]. split; [reflexivity|].
    unfold meq. cbn [mp_left mp_middle mp_right mp_labels mp_names]. repeat (split; [assumption|]). split; [|reflexivity].
    rewrite (oeq_labels _ _ HM), (oeq_labels _ _ HR). destruct HL as (_ & -> & _). reflexivity.
  Qed.
  Lemma eq_patterns ps qs : Forall2 same_drawing ps qs -> forall w,
    rrel (fun x y => fst x = fst y /\ Forall2 meq (snd x) (snd y)) (process_patterns ps w) (process_patterns qs w).
  Proof.
    induction 1 as [|p q ps qs H HF IH]; intros w; cbn [process_patterns]; [cbn; auto|].
    eapply rrel_bind; [apply eq_pattern; exact H|]. intros [w1 m] [w1' m'] [E HM]. cbn [fst snd] in *. subst w1'.
    eapply rrel_bind; [apply IH|]. intros [w2 r] [w2' r'] [E HR]. cbn [fst snd] in *. subst w2'. cbn [rrel fst snd]. auto.
  Qed.
  Lemma eq_relationships l l' : Forall2 req l l' -> mapM make_relationship l = mapM make_relationship l'.
  Proof.
    induction 1 as [|a b l l' H HF IH]; [reflexivity|]. cbn [mapM]. rewrite IH.
    assert (E : make_relationship a = make_relationship b) by (destruct H as (A & B & C & F & T); unfold make_relationship; rewrite A, B, C, F, T; reflexivity).
    rewrite E. reflexivity.
  Qed.
  Lemma eq_make_node a b : neq' a b -> make_node a = make_node b.
  Proof.
    intros (A & B & C & F). unfold make_node. rewrite A, B, C. destruct F as [|x y l l' H HF]; [reflexivity|].
    rewrite (eq_relationships (x :: l) (y :: l')) by (constructor; assumption). reflexivity.
  Qed.
  Lemma eq_make_nodes a b : meq a b -> make_nodes a = make_nodes b.
  Proof.
    intros (L & M & R & _). unfold make_nodes. rewrite (eq_make_node _ _ L).
    destruct (mp_middle a) as [x|], (mp_middle b) as [y|]; try contradiction; destruct (mp_right a), (mp_right b); try contradiction; try reflexivity.
    all: cbn [oeq] in M; rewrite (eq_make_node _ _ M); reflexivity.
  Qed.
  Lemma eq_all_nodes l l' : Forall2 meq l l' -> mapM make_nodes l = mapM make_nodes l' /\ labels_to_add l = labels_to_add l' /\ names_to_add l = names_to_add l'.
  Proof.
    intros H. split; [induction H as [|a b l l' H HF IH]; [reflexivity|]; cbn [mapM]; rewrite IH, (eq_make_nodes _ _ H); reflexivity|].
    unfold labels_to_add, names_to_add. split; generalize (@nil pystr) as acc; induction H as [|a b l l' H HF IH]; intros acc; cbn [fold_left]; try reflexivity;
      destruct H as (_ & _ & _ & E1 & E2); rewrite ?E1, ?E2; apply IH.
  Qed.
  Theorem handles_do_not_matter l l' g w : Forall2 same_drawing (patterns_of l) (patterns_of l') -> run (make l g) w = run (make l' g) w.
  Proof.
    intros H. unfold make. rewrite !run_bind. destruct (run (get_current_wiggle_number (wiggle_number_fp g)) w) as [[n|e] w1]; [|reflexivity].
    rewrite !run_bind, !run_lift. unfold process_parsed_make_list.
    pose proof (eq_patterns _ _ H n) as E. unfold patterns_of in E.
    destruct (process_patterns (flat_map pm_patterns l) n) as [[n1 ms]|e], (process_patterns (flat_map pm_patterns l') n) as [[n1' ms']|e']; try contradiction.
    2:{ cbn [rrel] in E. subst. reflexivity. }
    destruct E as [E F]. cbn [fst snd] in *. subst n1'. destruct (eq_all_nodes _ _ F) as (A & B & C).
    rewrite !run_bind, !run_lift, A. destruct (mapM make_nodes ms') as [nss|e]; [|reflexivity]. unfold add_indexes. rewrite B, C. reflexivity.
  Qed.
End Handles.
