(** * CutFacts: creations and deletions of graphs that are cut off (C79) *)
From Verif Require Import PyBase Json FS FSFacts Store SpecStore Gdbms SpecGdbms GdbmsFacts SpecAmid AmidMore SpecCut.

Lemma crash_catch {A} (m : io A) h w v : crash (io_catch m h) w v ->
  crash m w v \/ exists e m' w1, run m w = (Err e, w1) /\ h e = Some m' /\ crash m' w1 v.
Proof.
  revert w; induction m as [a|e|c k IH]; intros w H; cbn [io_catch] in H.
  - left. exact H.
  - destruct (h e) as [m'|] eqn:E; [|left; exact H]. right. exists e, m', w. auto.
  - apply crash_do_inv in H as [->|[(p & off & t & t1 & t2 & -> & -> & ->)|H]].
    + left. constructor.
    + left. eapply crash_write. reflexivity.
    + cbn [run]. destruct (exec c w) as [r w1] eqn:E. cbn [fst snd] in *.
      destruct (IH _ _ H) as [X|(e & m' & w2 & H1 & H2 & H3)].
      * left. apply crash_later. rewrite E. exact X.
      * right. exists e, m', w2. auto.
Qed.
Lemma crash_catch_l {A} (m : io A) h w v : crash m w v -> crash (io_catch m h) w v.
Proof.
  intros H. induction H as [m w|p off t t1 t2 k w E|c k w w' H IH].
  - constructor.
  - cbn [io_catch]. eapply crash_write; eauto.
  - cbn [io_catch]. apply crash_later. auto.
Qed.

(** ** one file *)
Section OneFile.
  Context (dir : path) (n : pystr) (w : world).
  Context (P : plain n) (NN : no_nul dir) (T : dir_there dir w).
  Context (HF : entry_at (dir ++ [n]) w = None \/ entry_at (dir ++ [n]) w = Some EDir).
  Let w0 := with_folder dir n w.
  Lemma folder_made : entry_at (dir ++ [n]) w0 = Some EDir.
  Proof. unfold w0, with_folder. destruct HF as [H|H]; rewrite H; [|exact H]. unfold entry_at, set_entry. cbn [with_fs w_fs]. apply fs_get_set_same. Qed.
  Lemma folder_others p : p <> dir ++ [n] -> entry_at p w0 = entry_at p w.
  Proof. clear P NN T HF. intros N. unfold w0, with_folder. destruct (entry_at (dir ++ [n]) w); [reflexivity|]. unfold entry_at, set_entry. cbn [with_fs w_fs]. apply fs_get_set_other. exact N. Qed.

  Lemma create_unfold f content : entry_at f w = None -> parent f = dir ++ [n] -> f <> dir ++ [n] ->
    exists k1 k2 k3 k4 k5, create_file dir n f content = Do (CMkdir (dir ++ [n])) k1 /\
      exec (CMkdir (dir ++ [n])) w = (RUnit, w0) /\ k1 RUnit = Do (CIsFile f) k2 /\ exec (CIsFile f) w0 = (RBool false, w0) /\
      k2 (RBool false) = Do (CTouch f) k3 /\ exec (CTouch f) w0 = (RUnit, put f [] w0) /\ k3 RUnit = Do (CCreate f) k4 /\
      exec (CCreate f) (put f [] w0) = (RUnit, put f [] w0) /\ k4 RUnit = Do (CWrite f 0 content) k5 /\
      (forall t, exec (CWrite f 0 t) (put f [] w0) = (RUnit, put f t w0)) /\ k5 RUnit = Ret f.
  Proof.
    intros H PF NF. unfold create_file, mkdir. rewrite joinpath_plain, has_nul_false by assumption. cbn [do_unit io_bind].
    eexists _, _, _, _, _. split; [reflexivity|]. split; [apply exec_mkdir_new; assumption|]. split; [reflexivity|].
    assert (H0 : fs_get f (w_fs w0) = None) by (rewrite <- H; apply folder_others; exact NF).
    split; [cbn [exec]; unfold fs_is_file; rewrite H0; reflexivity|]. split; [reflexivity|].
    assert (DD : fs_is_dir (parent f) (w_fs w0) = true) by (apply fs_is_dir_spec; right; rewrite PF; apply folder_made).
    split; [cbn [exec]; rewrite H0, DD; reflexivity|]. split; [reflexivity|].
    assert (P0 : fs_get f (w_fs (put f [] w0)) = Some (EFile [])) by apply get_put_same.
    split; [cbn [exec]; rewrite P0; f_equal; apply put_put|]. split; [reflexivity|].
    split; [|reflexivity]. intros t. cbn [exec]. rewrite P0. f_equal.
    etransitivity; [apply put_put|]. rewrite write_at_0, skipn_nil, app_nil_r. reflexivity.
  Qed.
  Lemma crash_create f content v : entry_at f w = None -> parent f = dir ++ [n] -> f <> dir ++ [n] ->
    crash (create_file dir n f content) w v -> v = w \/ v = w0 \/ exists a, begins a content /\ v = put f a w0.
  Proof.
    intros H PF NF C. destruct (create_unfold f content H PF NF) as (k1 & k2 & k3 & k4 & k5 & E1 & X1 & E2 & X2 & E3 & X3 & E4 & X4 & E5 & X5 & E6).
    rewrite E1 in C. apply crash_do_inv in C as [->|[(p & off & t & t1 & t2 & E & _)|C]]; [auto|discriminate|]. rewrite X1 in C. cbn [fst snd] in C. rewrite E2 in C.
    apply crash_do_inv in C as [->|[(p & off & t & t1 & t2 & E & _)|C]]; [auto|discriminate|]. rewrite X2 in C. cbn [fst snd] in C. rewrite E3 in C.
    apply crash_do_inv in C as [->|[(p & off & t & t1 & t2 & E & _)|C]]; [auto|discriminate|]. rewrite X3 in C. cbn [fst snd] in C. rewrite E4 in C.
    right. right. 
    apply crash_do_inv in C as [->|[(p & off & t & t1 & t2 & E & _)|C]]; [exists []; split; [exists content; reflexivity|reflexivity]|discriminate|]. rewrite X4 in C. cbn [fst snd] in C. rewrite E5 in C.
    apply crash_do_inv in C as [->|[(p & off & t & t1 & t2 & E & E' & ->)|C]].
    - exists []. split; [exists content; reflexivity|reflexivity].
    - injection E as <- <- ->. rewrite X5. exists t1. split; [exists t2; exact E'|reflexivity].
    - rewrite X5 in C. cbn [fst snd] in C. rewrite E6 in C. apply crash_ret in C. subst v. exists content. split; [exists []; rewrite app_nil_r; reflexivity|reflexivity].
  Qed.
  Lemma create_crash f content a : entry_at f w = None -> parent f = dir ++ [n] -> f <> dir ++ [n] -> begins a content ->
    crash (create_file dir n f content) w (put f a w0).
  Proof.
    intros H PF NF (b & E). destruct (create_unfold f content H PF NF) as (k1 & k2 & k3 & k4 & k5 & E1 & X1 & E2 & X2 & E3 & X3 & E4 & X4 & E5 & X5 & E6).
    rewrite E1. apply crash_later. rewrite X1. cbn [fst snd]. rewrite E2. apply crash_later. rewrite X2. cbn [fst snd]. rewrite E3.
    apply crash_later. rewrite X3. cbn [fst snd]. rewrite E4. apply crash_later. rewrite X4. cbn [fst snd]. rewrite E5.
    pose proof (crash_write f 0 content a b k5 (put f [] w0) E) as C. rewrite X5 in C. exact C.
  Qed.
End OneFile.

Lemma with_folder_there dir n w : entry_at (dir ++ [n]) w = Some EDir -> with_folder dir n w = w.
Proof. unfold with_folder. intros ->. reflexivity. Qed.

(** ** the three files *)
Section Three.
  Context (dir : path) (n : pystr) (w : world).
  Context (P : plain n) (NN : no_nul dir) (T : dir_there dir w).
  Context (HF : entry_at (dir ++ [n]) w = None \/ entry_at (dir ++ [n]) w = Some EDir).
  Context (HN : forall p, In p (files_of (graph_at dir n)) -> entry_at p w = None).
  Let g := graph_at dir n.
  Let w0 := with_folder dir n w.
  Let w1 := put (database_fp g) new_database w0.
  Let w2 := put (indexes_fp g) new_indexes w1.
  Let w3 := put (wiggle_number_fp g) new_counter w2.
  Lemma file_in_folder p : In p (files_of g) -> parent p = dir ++ [n] /\ p <> dir ++ [n].
  Proof.
    unfold g, files_of, graph_at. cbn [database_fp indexes_fp wiggle_number_fp In].
    intros [<-|[<-|[<-|[]]]]; (split; [apply parent_file|apply file_not_folder]).
  Qed.
  Lemma w0_none p : In p (files_of g) -> entry_at p w0 = None.
  Proof. intros I. etransitivity; [apply folder_others; apply (file_in_folder p I)|]. apply HN. exact I. Qed.
  Lemma not_file_dir d : on_the_way (dir ++ [n]) d -> ~ In d (files_of g).
  Proof.
    clear P NN T HF HN. intros Hd I. destruct Hd as (_ & q & Hq). apply (f_equal (@List.length pystr)) in Hq. rewrite !app_length in Hq. cbn [List.length] in Hq.
    unfold g, files_of, graph_at in I. cbn [database_fp indexes_fp wiggle_number_fp In] in I.
    destruct I as [<-|[<-|[<-|[]]]]; rewrite app_length in Hq; cbn [List.length] in Hq; lia.
  Qed.
  Definition same_else (v : world) : Prop := forall p, ~ In p (files_of g) -> entry_at p v = entry_at p w0.
  Lemma se_put p t v : In p (files_of g) -> same_else v -> same_else (put p t v).
  Proof. intros I S q Nq. etransitivity; [apply get_put_other; intros ->; contradiction|]. apply S. exact Nq. Qed.
  Lemma se_folder v : same_else v -> entry_at (dir ++ [n]) v = Some EDir /\ dir_there dir v.
  Proof.
    intros S. assert (F : entry_at (dir ++ [n]) w0 = Some EDir) by (apply folder_made; assumption). split.
    - rewrite S; [exact F|]. apply not_file_dir. apply on_the_way_snoc. auto.
    - intros d Hd. rewrite S by (apply not_file_dir, on_the_way_snoc; left; exact Hd).
      destruct (path_eq_dec d (dir ++ [n])) as [->|N]; [exact F|]. etransitivity; [apply folder_others; exact N|]. apply T. exact Hd.
  Qed.
  Lemma I1 : In (database_fp g) (files_of g). Proof. left. reflexivity. Qed.
  Lemma I2 : In (indexes_fp g) (files_of g). Proof. right; left. reflexivity. Qed.
  Lemma I3 : In (wiggle_number_fp g) (files_of g). Proof. right; right; left. reflexivity. Qed.
  Lemma se0 : same_else w0. Proof. intros p _. reflexivity. Qed.
  Lemma se1 : same_else w1. Proof. apply se_put; [apply I1|apply se0]. Qed.
  Lemma se2 : same_else w2. Proof. apply se_put; [apply I2|apply se1]. Qed.
  Lemma none1 : entry_at (indexes_fp g) w1 = None.
  Proof. destruct (three_distinct dir n) as (X1 & X2 & X3). fold g in X1, X2, X3. unfold w1. etransitivity; [apply get_put_other; auto|]. apply w0_none, I2. Qed.
  Lemma none2 : entry_at (wiggle_number_fp g) w2 = None.
  Proof.
    destruct (three_distinct dir n) as (X1 & X2 & X3). fold g in X1, X2, X3. unfold w2, w1.
    etransitivity; [apply get_put_other; auto|]. etransitivity; [apply get_put_other; auto|]. apply w0_none, I3.
  Qed.
  Definition moments (v : world) : Prop :=
    w_fs v = w_fs w \/ w_fs v = w_fs w0 \/ (exists a, begins a new_database /\ w_fs v = w_fs (put (database_fp g) a w0)) \/
    (exists a, begins a new_indexes /\ w_fs v = w_fs (put (indexes_fp g) a w1)) \/ (exists a, begins a new_counter /\ w_fs v = w_fs (put (wiggle_number_fp g) a w2)).
  Lemma run_one (f : path) content v : In f (files_of g) -> same_else v -> entry_at f v = None ->
    run (create_file dir n f content) v = (Ok f, put f content v).
  Proof.
    intros I S N. destruct (se_folder v S) as [FD TD]. apply create_file_new; auto. apply (file_in_folder f I).
  Qed.
  Lemma run_first : run (create_file dir n (database_fp g) new_database) w = (Ok (database_fp g), w1).
  Proof. rewrite create_file_first by assumption. apply run_one; [apply I1|apply se0|apply w0_none, I1]. Qed.
  Theorem creation_moments v : crash (get_new_gdbms_file_paths n dir) w v -> moments v.
  Proof.
    intros C. unfold get_new_gdbms_file_paths in C. unfold create_new_database, create_new_indexes_file, create_new_wiggle_number_file in C.
    rewrite db_file_plain, idx_file_plain, wn_file_plain in C by exact P. fold g in C.
    change (dump_text Compact (VDict [])) with new_database in C. change (dump_text Compact new_index) with new_indexes in C. change (py "0") with new_counter in C.
    assert (R : run (let! d := create_file dir n (database_fp g) new_database in
      let! i := create_file dir n (indexes_fp g) new_indexes in let! w := create_file dir n (wiggle_number_fp g) new_counter in
      let! _ := do_unit (CPrint (py "Using " ++ n)) in Ret {| database_fp := d; indexes_fp := i; wiggle_number_fp := w |}) w =
      (Ok g, say [py "Using " ++ n] w3)).
    { rewrite run_bind, run_first. cbv beta iota. rewrite run_bind, run_one; [|apply I2|apply se1|apply none1]. cbv beta iota. fold w2.
      rewrite run_bind, run_one; [|apply I3|apply se2|apply none2]. cbv beta iota. reflexivity. }
    apply crash_catch in C as [C|(e & m' & w4 & X & _)]; [|rewrite R in X; discriminate X].
    apply crash_bind in C as [C|(d & v1 & R1 & C)].
    { apply crash_create in C as [->|[->|(a & B & ->)]]; try assumption; try (apply (file_in_folder _ I1)); [left; reflexivity|right; left; reflexivity| |apply HN, I1].
      right; right; left. exists a. auto. }
    rewrite run_first in R1. injection R1 as <- <-.
    apply crash_bind in C as [C|(i & v2 & R2 & C)].
    { destruct (se_folder w1 se1) as [FD TD].
      apply crash_create in C; auto; try (apply (file_in_folder _ I2)); [|apply none1]. rewrite with_folder_there in C by exact FD.
      destruct C as [->|[->|(a & B & ->)]].
      - right; right; left. exists new_database. split; [exists []; reflexivity|reflexivity].
      - right; right; left. exists new_database. split; [exists []; reflexivity|reflexivity].
      - right; right; right; left. exists a. auto. }
    rewrite run_one in R2; [|apply I2|apply se1|apply none1]. injection R2 as <- <-. fold w2 in C.
    apply crash_bind in C as [C|(i & v3 & R3 & C)].
    { destruct (se_folder w2 se2) as [FD TD].
      apply crash_create in C; auto; try (apply (file_in_folder _ I3)); [|apply none2]. rewrite with_folder_there in C by exact FD.
      destruct C as [->|[->|(a & B & ->)]].
      - right; right; right; left. exists new_indexes. split; [exists []; rewrite app_nil_r; reflexivity|reflexivity].
      - right; right; right; left. exists new_indexes. split; [exists []; rewrite app_nil_r; reflexivity|reflexivity].
      - right; right; right; right. exists a. auto. }
    rewrite run_one in R3; [|apply I3|apply se2|apply none2]. injection R3 as <- <-. fold w3 in C.
    right; right; right; right. exists new_counter. split; [exists []; reflexivity|]. fold w3.
    apply crash_do_inv in C as [->|[(p & off & t & t1 & t2 & E & _)|C]]; [reflexivity|discriminate|].
    cbn [exec fst snd io_bind] in C. apply crash_ret in C. subst v. reflexivity.
  Qed.
End Three.
