(** * CutKept: whenever the first dialogue is cut off, everything that was on the disk is still there (C79) *)
From Verif Require Import PyBase FS FSFacts Store Gdbms SpecGdbms GdbmsFacts DurableFacts SpecCut CutFacts CutDelete.

Lemma some_eq {A} (a b : A) : Some a = Some b -> b = a.
Proof. intros H. injection H as ->. reflexivity. Qed.
Definition ck {A} (m : io A) : Prop := forall w v, crash m w v -> kept w v.
Lemma ck_run {A} (m : io A) : ck m -> forall w, kept w (snd (run m w)).
Proof. intros H w. apply H. apply crash_end. Qed.
Lemma ck_bind {A B} (m : io A) (f : A -> io B) : ck m -> (forall a, ck (f a)) -> ck (io_bind m f).
Proof.
  intros HM HF w v C. apply crash_bind in C as [C|(a & w1 & R & C)]; [apply HM; exact C|].
  eapply kept_trans; [|apply (HF a); exact C]. pose proof (ck_run m HM w) as K. rewrite R in K. exact K.
Qed.
Lemma ck_catch {A} (m : io A) h : ck m -> (forall e m', h e = Some m' -> ck m') -> ck (io_catch m h).
Proof.
  intros HM HH w v C. apply crash_catch in C as [C|(e & m' & w1 & R & E & C)]; [apply HM; exact C|].
  eapply kept_trans; [|apply (HH e m' E); exact C]. pose proof (ck_run m HM w) as K. rewrite R in K. exact K.
Qed.
Lemma ck_ret {A} (a : A) : ck (Ret a).
Proof. intros w v C. apply crash_ret in C. subst. apply kept_refl. Qed.
Lemma ck_throw {A} e : ck (Throw e : io A).
Proof. intros w v C. apply crash_throw in C. subst. apply kept_refl. Qed.
Lemma ck_reads {A} (m : io A) : reads_only m -> ck m.
Proof. intros R w v C. apply crash_reads in C; [|exact R]. subst. apply kept_refl. Qed.
Lemma ck_do {A} c (k : resp -> io A) : (forall p off t, c <> CWrite p off t) -> (forall w, kept w (snd (exec c w))) -> (forall r, ck (k r)) -> ck (Do c k).
Proof.
  intros NW HC HK w v C. apply crash_do_inv in C as [->|[(p & off & t & t1 & t2 & E & _)|C]]; [apply kept_refl|destruct (NW _ _ _ E)|].
  eapply kept_trans; [apply HC|eapply HK; exact C].
Qed.
Lemma ck_print t : ck (do_unit (CPrint t)).
Proof. apply ck_do; [discriminate|intros w p e H; exact H|]. intros []; try apply ck_ret; apply ck_throw. Qed.
Lemma ck_input : ck (do_text CInput).
Proof. apply ck_do; [discriminate|intros w p e H; cbn [exec]; destruct (w_in w); exact H|]. intros []; try apply ck_ret; apply ck_throw. Qed.
Lemma ck_print_all l : ck (print_all l).
Proof. induction l as [|t l IH]; cbn [print_all]; [apply ck_ret|]. apply ck_bind; [apply ck_print|intros; exact IH]. Qed.

Lemma ck_create_file dir n f content : ck (create_file dir n f content).
Proof.
  unfold create_file. apply ck_bind.
  - unfold mkdir. destruct (has_nul (joinpath dir n)); [apply ck_throw|]. apply ck_do; [discriminate|apply exec_mkdir_kept|]. intros []; try apply ck_ret; apply ck_throw.
  - intros _ w v C. apply crash_bind in C as [C|(b & w1 & R & C)]; [apply crash_reads in C; [subst; apply kept_refl|apply ro_bool]|].
    cbn [do_bool run exec] in R. injection R as <- <-. unfold fs_is_file in C.
    destruct (fs_get f (w_fs w)) as [[|t]|] eqn:G.
    + cbn [do_unit io_bind] in C. apply crash_do_inv in C as [->|[(p & off & u & t1 & t2 & E & _)|C]]; [apply kept_refl|discriminate|].
      cbn [exec] in C. rewrite G in C. cbn [fst snd io_bind] in C.
      apply crash_do_inv in C as [->|[(p & off & u & t1 & t2 & E & _)|C]]; [apply kept_refl|discriminate|].
      cbn [exec] in C. rewrite G in C. cbn [fst snd io_bind] in C. apply crash_throw in C. subst. apply kept_refl.
    + apply crash_throw in C. subst. apply kept_refl.
    + assert (KP : forall a, kept w (put f a w)).
      { intros a p e H. unfold entry_at. fold (get p (put f a w)). rewrite get_put_other; [exact H|]. intros ->. unfold entry_at in H. congruence. }
      cbn [do_unit io_bind] in C. apply crash_do_inv in C as [->|[(p & off & u & t1 & t2 & E & _)|C]]; [apply kept_refl|discriminate|].
      cbn [exec] in C. rewrite G in C. destruct (fs_is_dir (parent f) (w_fs w)); cbn [fst snd io_bind] in C; [|apply crash_throw in C; subst; apply kept_refl].
      fold (put f [] w) in C. assert (P0 : fs_get f (w_fs (put f [] w)) = Some (EFile [])) by apply get_put_same.
      apply crash_do_inv in C as [->|[(p & off & u & t1 & t2 & E & _)|C]]; [apply KP|discriminate|].
      assert (X3 : exec (CCreate f) (put f [] w) = (RUnit, put f [] w)) by (cbn [exec]; rewrite P0; f_equal; apply put_put).
      rewrite X3 in C. cbn [fst snd io_bind] in C.
      assert (X4 : forall t, exec (CWrite f 0 t) (put f [] w) = (RUnit, put f (write_at [] 0 t) w)).
      { intros t. cbn [exec]. rewrite P0. f_equal. apply put_put. }
      apply crash_do_inv in C as [->|[(p & off & u & t1 & t2 & E & E' & ->)|C]]; [apply KP| |].
      * injection E as <- <- <-. rewrite X4. apply KP.
      * rewrite X4 in C. cbn [fst snd io_bind] in C. apply crash_ret in C. subst. apply KP.
Qed.
Lemma ck_new n dir : ck (get_new_gdbms_file_paths n dir).
Proof.
  unfold get_new_gdbms_file_paths. apply ck_catch.
  - repeat (apply ck_bind; [try apply ck_create_file; try apply ck_print|intros]). apply ck_ret.
  - intros e m'. destruct (is_value_error e); [|discriminate]. intros H. apply some_eq in H. subst m'. apply ck_bind; [apply ck_print|intros; apply ck_throw].
Qed.
Lemma ck_create fuel dir : ck (create_new_dbms fuel dir).
Proof.
  induction fuel as [|fuel IH]; [apply ck_throw|]. cbn [create_new_dbms].
  apply ck_bind; [apply ck_input|]. intros name. apply ck_bind.
  - apply ck_catch; [apply ck_bind; [apply ck_new|intros; apply ck_ret]|].
    intros e m'. destruct (is_value_error e); [|discriminate]. intros H. apply some_eq in H. subst m'. apply ck_bind; [apply ck_print|intros; apply ck_ret].
  - intros [g|]; [apply ck_ret|exact IH].
Qed.
Lemma ck_display dir : ck (get_and_display_available_dbms dir).
Proof.
  unfold get_and_display_available_dbms. apply ck_bind; [apply ck_reads, ro_list|]. intros [|x l]; [apply ck_ret|].
  apply ck_bind; [apply ck_print|]. intros _. apply ck_bind; [apply ck_print_all|]. intros _. apply ck_bind; [apply ck_print|]. intros; apply ck_ret.
Qed.
Lemma ck_existing f folder dir : ck (get_existing_gdbms f folder dir).
Proof.
  induction f as [|f IH]; [apply ck_throw|]. cbn [get_existing_gdbms].
  apply ck_bind; [apply ck_display|].
  assert (N : ck (let! _ := do_unit (CPrint (py "There are no databases, please create a new database.")) in create_new_dbms f dir)).
  { apply ck_bind; [apply ck_print|]. intros; apply ck_create. }
  intros [[|kv d]|]; [exact N| |exact N].
  apply ck_bind; [apply ck_input|]. intros s. destruct (d_get s (kv :: d)) as [n|].
  - apply ck_bind.
    + apply ck_catch.
      * apply ck_reads. repeat (apply reads_only_bind; [apply ro_existing|intros]). constructor.
      * intros e m' H. destruct e; try discriminate H. apply some_eq in H. subst m'. apply ck_bind; [apply ck_print|intros; apply ck_ret].
    + intros [g|]; [apply ck_ret|exact IH].
  - apply ck_bind; [apply ck_print|]. intros; exact IH.
Qed.
Theorem dialogue_cut f folder w v : crash (select_gdbms f folder) w v -> kept w v.
Proof.
  revert w v. change (ck (select_gdbms f folder)). unfold select_gdbms. apply ck_bind; [apply ck_input|]. intros c. destruct (_ || _); [apply ck_existing|apply ck_create].
Qed.
