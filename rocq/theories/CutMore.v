(** * CutMore: what follows after a creation or a deletion that was cut off (C79) *)
From Verif Require Import PyBase Json RtLaws FS FSFacts Store SpecStore Make Query Gdbms SpecGdbms GdbmsFacts DurableFacts SpecAmid AmidMore SpecCut CutFacts.

Section Creation.
  Context (dir : path) (n : pystr) (w : world).
  Context (P : plain n) (NN : no_nul dir) (D : disk w) (T : dir_there dir w).
  Context (HF : entry_at (dir ++ [n]) w = None \/ entry_at (dir ++ [n]) w = Some EDir).
  Context (HN : forall p, In p (files_of (graph_at dir n)) -> entry_at p w = None).
  Let g := graph_at dir n.
  Let w0 := with_folder dir n w.
  Let w1 := put (database_fp g) new_database w0.
  Let w2 := put (indexes_fp g) new_indexes w1.
  Lemma by_fs v u : w_fs v = w_fs u -> forall p, entry_at p v = entry_at p u.
  Proof. intros E p. unfold entry_at. rewrite E. reflexivity. Qed.
  Lemma T0 v : same_else dir n w v -> dir_there (dir ++ [n]) v.
  Proof.
    intros S. destruct (se_folder dir n w T HF v S) as [F TD].
    intros d Hd. apply on_the_way_snoc in Hd as [Hd| ->]; [apply TD; exact Hd|exact F].
  Qed.
  Lemma D0 : disk w0.
  Proof.
    unfold w0, with_folder. destruct HF as [H|H]; rewrite H; [|exact D]. apply disk_add; [exact D|exact H|destruct dir; discriminate|].
    intros d Hd Nd. apply T. apply on_the_way_snoc in Hd as [Hd|Hd]; [exact Hd|contradiction].
  Qed.
  Lemma D1 a : disk (put (database_fp g) a w0).
  Proof. apply disk_new_file; [apply D0|apply T0, se0|]. apply (w0_none dir n w HN). apply I1. Qed.
  Lemma D2 a : disk (put (indexes_fp g) a w1).
  Proof. apply disk_new_file; [apply D1|apply T0, se1|]. apply (none1 dir n w HN). Qed.
  Lemma D3 a : disk (put (wiggle_number_fp g) a w2).
  Proof. apply disk_new_file; [apply D2|apply T0, se2|]. apply (none2 dir n w HN). Qed.
  Lemma only_from v u : w_fs v = w_fs u -> same_else dir n w u -> only_graph_differs (dir ++ [n]) g w v.
  Proof.
    intros E S. assert (F : entry_at (dir ++ [n]) v = Some EDir) by (rewrite (by_fs v u E); exact (proj1 (se_folder dir n w T HF u S))).
    constructor; [|right; exact F|intros; exact F]. intros p N1 N2. rewrite (by_fs v u E), (S p N2). apply folder_others. exact N1.
  Qed.
  Theorem creation_cut v : crash (get_new_gdbms_file_paths n dir) w v ->
    disk v /\ only_graph_differs (dir ++ [n]) g w v /\ exists a b c, moment a b c /\ texts g v a b c.
  Proof.
    intros C. apply creation_moments in C; try assumption. destruct (three_distinct dir n) as (X1 & X2 & X3). fold g in X1, X2, X3.
    pose proof (w0_none dir n w HN) as N0. fold g w0 in N0.
    assert (A1 : forall a p t, p = database_fp g -> entry_at p (put (database_fp g) a t) = Some (EFile a)) by (intros a p t ->; apply get_put_same).
    assert (DS : forall v u, w_fs v = w_fs u -> disk u -> disk v) by (intros ? ? E; apply disk_same; exact E).
    unfold moments in C. fold g w0 w1 w2 in C.
    destruct C as [E|[E|[(a & B & E)|[(a & B & E)|(a & B & E)]]]].
    - split; [exact (DS _ _ E D)|]. split.
      + constructor; [intros p _ _; apply by_fs; exact E|left; apply by_fs; exact E|]. intros p I NE. exfalso. apply NE. rewrite (by_fs v w E). apply HN. exact I.
      + exists None, None, None. split; [constructor|]. repeat split; (etransitivity; [apply (by_fs v w E)|]; apply HN); [apply I1|apply I2|apply I3].
    - split; [exact (DS _ _ E D0)|]. split; [exact (only_from _ _ E (se0 dir n w))|].
      exists None, None, None. split; [constructor|]. repeat split; (etransitivity; [apply (by_fs v w0 E)|]; apply N0); [apply I1|apply I2|apply I3].
    - split; [exact (DS _ _ E (D1 a))|]. split; [apply (only_from _ _ E); apply se_put; [apply I1|apply se0]|].
      exists (Some a), None, None. split; [constructor; exact B|]. repeat split; (etransitivity; [apply (by_fs v _ E)|]).
      + apply get_put_same.
      + etransitivity; [apply get_put_other; auto|]. apply N0, I2.
      + etransitivity; [apply get_put_other; auto|]. apply N0, I3.
    - split; [exact (DS _ _ E (D2 a))|]. split; [apply (only_from _ _ E); apply se_put; [apply I2|apply se1]|].
      exists (Some new_database), (Some a), None. split; [constructor; exact B|]. repeat split; (etransitivity; [apply (by_fs v _ E)|]).
      + etransitivity; [apply get_put_other; auto|]. apply get_put_same.
      + apply get_put_same.
      + etransitivity; [apply get_put_other; auto|]. etransitivity; [apply get_put_other; auto|]. apply N0, I3.
    - split; [exact (DS _ _ E (D3 a))|]. split; [apply (only_from _ _ E); apply se_put; [apply I3|apply se2]|].
      exists (Some new_database), (Some new_indexes), (Some a). split; [constructor; exact B|]. repeat split; (etransitivity; [apply (by_fs v _ E)|]).
      + etransitivity; [apply get_put_other; auto|]. etransitivity; [apply get_put_other; auto|]. apply get_put_same.
      + etransitivity; [apply get_put_other; auto|]. apply get_put_same.
      + apply get_put_same.
  Qed.
  (** every moment can be the last *)
  Theorem creation_can_cut a b c : moment a b c -> exists v, crash (get_new_gdbms_file_paths n dir) w v /\ texts g v a b c.
  Proof.
    intros M. destruct (three_distinct dir n) as (X1 & X2 & X3). fold g in X1, X2, X3.
    pose proof (w0_none dir n w HN) as N0. fold g w0 in N0.
    unfold get_new_gdbms_file_paths, create_new_database, create_new_indexes_file, create_new_wiggle_number_file.
    rewrite db_file_plain, idx_file_plain, wn_file_plain by exact P. fold g.
    change (dump_text Compact (VDict [])) with new_database. change (dump_text Compact new_index) with new_indexes. change (py "0") with new_counter.
    destruct M as [|a B|a B|a B].
    - exists w. split; [constructor|]. repeat split; apply HN; [apply I1|apply I2|apply I3].
    - exists (put (database_fp g) a w0). split.
      + apply crash_catch_l, crash_bind_l. apply create_crash; try assumption; try (apply (file_in_folder dir n _ (I1 dir n))). apply HN, I1.
      + repeat split; [apply get_put_same| |]; (etransitivity; [apply get_put_other; auto|]); apply N0; [apply I2|apply I3].
    - exists (put (indexes_fp g) a w1). destruct (se_folder dir n w T HF w1 (se1 dir n w)) as [FD TD]. split.
      + apply crash_catch_l. eapply crash_bind_r; [apply (run_first dir n w P NN T HF HN)|]. apply crash_bind_l.
        pose proof (create_crash dir n w1 P NN TD (or_intror FD) (indexes_fp g) new_indexes a (none1 dir n w HN)
          (proj1 (file_in_folder dir n _ (I2 dir n))) (proj2 (file_in_folder dir n _ (I2 dir n))) B) as C.
        rewrite with_folder_there in C by exact FD. exact C.
      + repeat split.
        * etransitivity; [apply get_put_other; auto|]. apply get_put_same.
        * apply get_put_same.
        * etransitivity; [apply get_put_other; auto|]. etransitivity; [apply get_put_other; auto|]. apply N0, I3.
    - exists (put (wiggle_number_fp g) a w2). destruct (se_folder dir n w T HF w2 (se2 dir n w)) as [FD TD]. split.
      + apply crash_catch_l. eapply crash_bind_r; [apply (run_first dir n w P NN T HF HN)|].
        eapply crash_bind_r; [apply (run_one dir n w P NN T HF); [apply I2|apply se1|apply (none1 dir n w HN)]|]. apply crash_bind_l.
        pose proof (create_crash dir n w2 P NN TD (or_intror FD) (wiggle_number_fp g) new_counter a (none2 dir n w HN)
          (proj1 (file_in_folder dir n _ (I3 dir n))) (proj2 (file_in_folder dir n _ (I3 dir n))) B) as C.
        rewrite with_folder_there in C by exact FD. exact C.
      + repeat split.
        * etransitivity; [apply get_put_other; auto|]. etransitivity; [apply get_put_other; auto|]. apply get_put_same.
        * etransitivity; [apply get_put_other; auto|]. apply get_put_same.
        * apply get_put_same.
  Qed.

  Lemma texts_stored {rt : PyRt} v : texts g v (Some new_database) (Some new_indexes) (Some new_counter) -> stored g empty_graph v.
  Proof.
    intros (A & B & C). constructor.
    - exact (three_distinct dir n).
    - constructor; [constructor|reflexivity| |]; cbn [empty_graph g_db g_ix g_next]; try constructor; cbn; try constructor; try (intros ? []).
    - exact A.
    - exists Compact. exact B.
    - exact C.
  Qed.
  (** the same name once more *)
  Theorem creation_again {rt : PyRt} v : crash (get_new_gdbms_file_paths n dir) w v ->
    (entry_at (database_fp g) v = None /\ exists v', run (get_new_gdbms_file_paths n dir) v = (Ok g, v') /\ stored g empty_graph v') \/
    (entry_at (database_fp g) v <> None /\ run (get_new_gdbms_file_paths n dir) v = (Err ValueError, say [taken_msg n] v)).
  Proof.
    intros C. destruct (creation_cut v C) as (DV & [O F N] & a & b & c & M & (E1 & E2 & E3)).
    destruct a as [a|].
    - right. split; [rewrite E1; discriminate|]. eapply taken_graph; [exact P|exact NN|exact DV|exact E1].
    - left. split; [exact E1|]. inversion M; subst b c. 
      destruct (new_graph (rt := rt) dir n v P NN DV) as (v' & R & S & _).
      + intros d Hd. rewrite O; [apply T; exact Hd| |].
        * intros ->. destruct Hd as (_ & q & Hq). apply (f_equal (@List.length pystr)) in Hq. rewrite !app_length in Hq. cbn [List.length] in Hq. lia.
        * apply not_file_dir. apply on_the_way_snoc. left. exact Hd.
      + destruct F as [F|F]; [rewrite F; exact HF|right; exact F].
      + intros p Hp. cbn [files_of In] in Hp. destruct Hp as [<-|[<-|[<-|[]]]]; assumption.
      + exists v'. auto.
  Qed.
  (** deleting it and creating it again *)
  Theorem creation_repair {rt : PyRt} v : Forall no_wildcard (dir ++ [n]) -> (forall p, inside (dir ++ [n]) p -> entry_at p w = None) ->
    crash (get_new_gdbms_file_paths n dir) w v -> entry_at (dir ++ [n]) v = Some EDir ->
    exists v1 v2, run (delete_gdbms n dir) v = (Ok 0%Z, v1) /\ run (get_new_gdbms_file_paths n dir) v1 = (Ok g, v2) /\ stored g empty_graph v2 /\
      (forall p, ~ own (dir ++ [n]) p -> entry_at p v2 = entry_at p w).
  Proof.
    intros NW HI C FD. destruct (creation_cut v C) as (DV & [O F N] & a & b & c & M & (E1 & E2 & E3)).
    assert (VI : forall x, In x [py "database_" ++ n ++ py ".json"; py "indexes_" ++ n ++ py ".json"; py "wiggle_number_" ++ n ++ py ".txt"] -> visible x).
    { intros x [<-|[<-|[<-|[]]]] r E; discriminate E. }
    destruct (delete_graph n dir v P DV NW FD) as (v1 & R1 & DV1 & _ & _ & G1 & G2 & G3).
    { intros m e He.
      assert (IN : In (dir ++ [n; m]) (files_of g) -> visible m).
      { intros I. apply VI. unfold g, files_of, graph_at in I. cbn [database_fp indexes_fp wiggle_number_fp In] in I.
        destruct I as [I|[I|[I|[]]]]; apply app_inv_head in I; injection I as I; rewrite <- I; [left|right; left|right; right; left]; reflexivity. }
      destruct (in_dec path_eq_dec (dir ++ [n; m]) (files_of g)) as [I|I].
      - split; [exact (IN I)|]. cbn [files_of In] in I.
        destruct I as [I|[I|[I|[]]]]; rewrite <- I in He; [rewrite E1 in He; destruct a|rewrite E2 in He; destruct b|rewrite E3 in He; destruct c]; cbn [option_map] in He; try discriminate He; injection He as <-; eauto.
      - exfalso. rewrite O in He; [|apply file_not_folder|exact I]. rewrite HI in He; [discriminate He|]. exists [m]. split; [discriminate|]. rewrite <- app_assoc. reflexivity. }
    assert (DT : dir_there dir v1).
    { intros d Hd. assert (LN : forall q, d <> (dir ++ [n]) ++ q).
      { intros q ->. destruct Hd as (_ & q' & Hq). apply (f_equal (@List.length pystr)) in Hq. rewrite !app_length in Hq. cbn [List.length] in Hq. lia. }
      rewrite G3; [rewrite O; [apply T; exact Hd| |]| |].
      - specialize (LN []). rewrite app_nil_r in LN. exact LN.
      - apply not_file_dir. apply on_the_way_snoc. left. exact Hd.
      - specialize (LN []). rewrite app_nil_r in LN. exact LN.
      - intros (q & _ & E). exact (LN q E). }
    destruct (new_graph (rt := rt) dir n v1 P NN DV1 DT (or_introl G1)) as (v2 & R2 & S2 & _ & _ & K & _).
    { intros p Hp. apply G2. cbn [files_of graph_at In database_fp indexes_fp wiggle_number_fp] in Hp. destruct Hp as [<-|[<-|[<-|[]]]]; (eexists [_]; split; [discriminate|]; rewrite <- app_assoc; reflexivity). }
    exists v1, v2. split; [exact R1|]. split; [exact R2|]. split; [exact S2|].
    intros p Np. assert (FP : ~ In p (files_of g)).
    { intros Hp. apply Np. right. cbn [files_of graph_at In database_fp indexes_fp wiggle_number_fp g] in Hp. destruct Hp as [<-|[<-|[<-|[]]]]; (eexists [_]; split; [discriminate|]; rewrite <- app_assoc; reflexivity). }
    rewrite K by (auto; intros ->; apply Np; left; reflexivity).
    rewrite G3 by (try (intros ->; apply Np; left; reflexivity); intros X; apply Np; right; exact X).
    apply O; auto. intros ->. apply Np. left. reflexivity.
  Qed.
End Creation.

(** ** a graph without one of its files, in the menu *)
Theorem incomplete_not_chosen folder w l i n r f : disk w -> is_a_dir folder w -> menu folder w l -> i < 26 -> nth_error l i = Some n -> plain n ->
  (exists p, In p (files_of (graph_at folder n)) /\ entry_at p w = None) -> w_in w = letter i :: r ->
  run (get_existing_gdbms (S f) folder folder) w =
  run (get_existing_gdbms f folder folder) {| w_fs := w_fs w; w_in := r; w_out := w_out w ++ shown l ++ [py "Database files could not be found "] |}.
Proof.
  intros D H M Hi Hn P (p & Ip & Np) E. rewrite (get_existing_step f folder folder w l D H M) by (intros ->; destruct i; discriminate).
  rewrite E. cbv zeta. rewrite (proj2 (menu_get l (letter i) n)) by eauto.
  replace (files_there folder n w) with false; [unfold say; cbn [w_fs w_in w_out]; rewrite <- app_assoc; reflexivity|].
  symmetry. unfold files_there, fs_is_file. rewrite db_file_plain, idx_file_plain, wn_file_plain by exact P. unfold files_of, entry_at in *. cbn [In] in Ip.
  destruct Ip as [<-|[<-|[<-|[]]]]; rewrite Np; rewrite ?andb_false_r; reflexivity.
Qed.

(** ** the counter has not been written yet *)
Section Empty.
  Context {rt : PyRt}.
  Theorem make_without_counter l g w : entry_at (wiggle_number_fp g) w = Some (EFile []) -> run (make l g) w = (Err PlainException, w).
  Proof.
    intros H. unfold entry_at in H. unfold make. rewrite run_bind. unfold get_current_wiggle_number. rewrite run_bind. cbn [do_text run exec]. rewrite H. reflexivity.
  Qed.
End Empty.
