(** * AmidFacts: programs that look at one part of the disk only (C78) *)
From Verif Require Import PyBase BaseFacts Json FS FSFacts Store Query SpecStore SpecShell SpecGdbms SpecAmid Confine GdbmsFacts Gdbms.

(** ** commands that depend on the part [P] of the disk only *)
Definition within (P : path -> Prop) (c : cmd) : Prop :=
  match c with
  | CRead p | CWrite p _ _ | CTrunc p _ | CIsFile p => P p
  | CCreate p | CTouch p => P p /\ (parent p = [] \/ P (parent p))
  | CIsDir p => p = [] \/ P p
  | CMkdir p => forall d, on_the_way p d -> P d
  | CPrint _ => True
  | _ => False
  end.
Definition same_on (P : path -> Prop) (w w' : world) : Prop := forall p, P p -> fs_get p (w_fs w') = fs_get p (w_fs w).
Definition same_term (w w' : world) : Prop := w_in w' = w_in w /\ w_out w' = w_out w.
Lemma same_on_refl P w : same_on P w w.
Proof. intros p H. reflexivity. Qed.
Lemma same_on_trans P a b c : same_on P a b -> same_on P b c -> same_on P a c.
Proof. intros X Y p H. rewrite Y, X; auto. Qed.
Lemma same_dir P w w' p : same_on P w w' -> p = [] \/ P p -> fs_is_dir p (w_fs w') = fs_is_dir p (w_fs w).
Proof. intros S [->|H]; [reflexivity|]. unfold fs_is_dir. destruct p; [reflexivity|]. rewrite S by exact H. reflexivity. Qed.
Lemma set_same P q e f f' : (forall p, P p -> fs_get p f' = fs_get p f) -> forall p, P p -> fs_get p (fs_set q e f') = fs_get p (fs_set q e f).
Proof. intros S p H. rewrite !fs_get_set. destruct (path_eqb p q); [reflexivity|auto]. Qed.
Lemma mkdirs_same P ps : forall f f', (forall p, In p ps -> P p) -> (forall p, P p -> fs_get p f' = fs_get p f) ->
  fst (mkdirs ps f') = fst (mkdirs ps f) /\ forall p, P p -> fs_get p (snd (mkdirs ps f')) = fs_get p (snd (mkdirs ps f)).
Proof.
  induction ps as [|q ps IH]; intros f f' I S; cbn [mkdirs]; [auto|].
  rewrite (S q) by (apply I; left; reflexivity). assert (I' : forall p, In p ps -> P p) by (intros p H; apply I; right; exact H).
  destruct (fs_get q f) as [[|t]|]; [apply IH; assumption|auto|]. apply IH; [exact I'|]. apply set_same. exact S.
Qed.
Lemma prefixes_way p d : In d (prefixes p) -> on_the_way p d.
Proof.
  revert d. induction p as [|x p IH]; intros d; cbn [prefixes In]; [tauto|]. intros [<-|H]; [split; [discriminate|]; exists p; reflexivity|].
  apply in_map_iff in H as (y & <- & Y). destruct (IH y Y) as (N & q & ->). split; [discriminate|]. exists q. reflexivity.
Qed.
Lemma exec_same P c w w' : within P c -> same_on P w w' -> fst (exec c w') = fst (exec c w) /\ same_on P (snd (exec c w)) (snd (exec c w')).
Proof.
  intros I S. destruct c; cbn [within] in I; try contradiction.
  - cbn [exec]. rewrite (S p I). destruct (fs_get p (w_fs w)) as [[|t]|]; auto.
  - cbn [exec]. rewrite (S p I). destruct (fs_get p (w_fs w)) as [[|u]|]; auto. split; [reflexivity|]. exact (set_same P _ _ _ _ S).
  - cbn [exec]. rewrite (S p I). destruct (fs_get p (w_fs w)) as [[|u]|]; auto. split; [reflexivity|]. exact (set_same P _ _ _ _ S).
  - destruct I as [I J]. cbn [exec]. rewrite (S p I), (same_dir P w w' _ S J). destruct (fs_get p (w_fs w)) as [[|u]|]; auto; [split; [reflexivity|exact (set_same P _ _ _ _ S)]|].
    destruct (fs_is_dir (parent p) (w_fs w)); auto. split; [reflexivity|exact (set_same P _ _ _ _ S)].
  - cbn [exec fst snd]. unfold fs_is_file. rewrite (S p I). auto.
  - cbn [exec fst snd]. rewrite (same_dir P w w' p S I). auto.
  - cbn [exec]. destruct (mkdirs_same P (prefixes p) (w_fs w) (w_fs w')) as [A B]; [intros d H; apply I, prefixes_way; exact H|exact S|].
    destruct (mkdirs (prefixes p) (w_fs w')) as [[e'|] f']; destruct (mkdirs (prefixes p) (w_fs w)) as [[e|] f]; cbn [fst snd] in *; try discriminate;
      (split; [congruence|exact B]).
  - destruct I as [I J]. cbn [exec]. rewrite (S p I), (same_dir P w w' _ S J). destruct (fs_get p (w_fs w)) as [[|u]|]; auto.
    destruct (fs_is_dir (parent p) (w_fs w)); auto. split; [reflexivity|exact (set_same P _ _ _ _ S)].
  - cbn [exec fst snd]. auto.
Qed.
Lemma exec_term P c w w' : within P c -> same_on P w w' -> same_term w w' -> same_term (snd (exec c w)) (snd (exec c w')).
Proof.
  intros I S [TI TO]. destruct c; cbn [within] in I; try contradiction.
  - cbn [exec]. rewrite (S p I). destruct (fs_get p (w_fs w)) as [[|t]|]; split; assumption.
  - cbn [exec]. rewrite (S p I). destruct (fs_get p (w_fs w)) as [[|u]|]; split; assumption.
  - cbn [exec]. rewrite (S p I). destruct (fs_get p (w_fs w)) as [[|u]|]; split; assumption.
  - destruct I as [I J]. cbn [exec]. rewrite (S p I), (same_dir P w w' _ S J). destruct (fs_get p (w_fs w)) as [[|u]|]; try (split; assumption).
    destruct (fs_is_dir (parent p) (w_fs w)); split; assumption.
  - split; assumption.
  - split; assumption.
  - cbn [exec]. destruct (mkdirs (prefixes p) (w_fs w')) as [[e'|] f']; destruct (mkdirs (prefixes p) (w_fs w)) as [[e|] f]; split; assumption.
  - destruct I as [I J]. cbn [exec]. rewrite (S p I), (same_dir P w w' _ S J). destruct (fs_get p (w_fs w)) as [[|u]|]; try (split; assumption).
    destruct (fs_is_dir (parent p) (w_fs w)); split; assumption.
  - cbn [exec snd]. split; cbn [w_in w_out]; [exact TI|]. rewrite TO. reflexivity.
Qed.

(** ** undisturbed *)
Theorem undisturbed_on {A} P (R : world -> world -> Prop) (m : io A) : (forall w w', R w w' -> same_on P w w') -> only (within P) m ->
  forall w r w' v, amid R m w r w' -> same_on P v w -> r = fst (run m v) /\ same_on P (snd (run m v)) w'.
Proof.
  intros HR O. induction O as [a|e|c k Hc Hk IH]; intros w r w' v D S.
  - inversion D; subst. cbn [run fst snd]. split; [reflexivity|]. eapply same_on_trans; [exact S|apply HR; assumption].
  - inversion D; subst. cbn [run fst snd]. split; [reflexivity|]. eapply same_on_trans; [exact S|apply HR; assumption].
  - inversion D as [| |c' k' w0 w1 r' w0' HW D']; subst. assert (S1 : same_on P v w1) by (eapply same_on_trans; [exact S|apply HR; exact HW]).
    destruct (exec_same P c v w1 Hc S1) as [E S2]. rewrite E in D'. cbn [run]. destruct (exec c v) as [x v1]. cbn [fst snd] in *.
    eapply IH; [exact D'|exact S2].
Qed.
Theorem undisturbed_cut {A} P (R : world -> world -> Prop) (m : io A) : (forall w w', R w w' -> same_on P w w') -> only (within P) m ->
  forall w w' v, amid_cut R m w w' -> same_on P v w -> exists v', crash m v v' /\ same_on P v' w'.
Proof.
  intros HR O. induction O as [a|e|c k Hc Hk IH]; intros w w' v D S.
  - inversion D; subst. exists v. split; [constructor|]. eapply same_on_trans; [exact S|apply HR; assumption].
  - inversion D; subst. exists v. split; [constructor|]. eapply same_on_trans; [exact S|apply HR; assumption].
  - inversion D as [m' w0 w0' HW|p off t t1 t2 k' w0 w1 w0' HW E HW2|c' k' w0 w1 w0' HW D']; subst.
    + exists v. split; [constructor|]. eapply same_on_trans; [exact S|apply HR; assumption].
    + assert (S1 : same_on P v w1) by (eapply same_on_trans; [exact S|apply HR; exact HW]).
      exists (snd (exec (CWrite p off t1) v)). split; [econstructor; reflexivity|]. eapply same_on_trans; [|apply HR; exact HW2].
      apply (exec_same P (CWrite p off t1) v w1); [exact Hc|exact S1].
    + assert (S1 : same_on P v w1) by (eapply same_on_trans; [exact S|apply HR; exact HW]).
      destruct (exec_same P c v w1 Hc S1) as [E S2]. rewrite E in D'. destruct (IH _ _ _ _ D' S2) as (v' & C & S3). exists v'. split; [apply crash_later; exact C|exact S3].
Qed.

(** ** queries *)
Definition part (g : gdbms) (d : path) : Prop := exists p, In p (files_of g) /\ on_the_way p d.
Lemma leaves_same g w w' : leaves g w w' -> same_on (part g) w w'.
Proof. intros L d (p & I & W). exact (L p d I W). Qed.
Lemma part_self g p : In p (files_of g) -> p <> [] -> part g p.
Proof. intros I N. exists p. split; [exact I|]. split; [exact N|]. exists []. rewrite app_nil_r. reflexivity. Qed.
Lemma parent_way p : p <> [] -> parent p = [] \/ on_the_way p (parent p).
Proof.
  intros N. destruct (parent p) as [|x q] eqn:E; [auto|right]. split; [discriminate|]. rewrite <- E.
  exists [last p []]. unfold parent. apply app_removelast_last. exact N.
Qed.
Lemma on_files_within g c : Forall (fun p => p <> []) (files_of g) -> on_files (the_files g) c -> within (part g) c.
Proof.
  intros N. rewrite Forall_forall in N. destruct c; cbn [on_files within]; intros I; try contradiction; try exact I; try (apply part_self; [exact I|exact (N p I)]).
  split; [apply part_self; [exact I|exact (N p I)]|]. destruct (parent_way p (N p I)) as [E|W]; [left; exact E|right; exists p; auto].
Qed.
Section Queries.
  Context {rt : PyRt}.
  Theorem query_undisturbed q g w r w' : Forall (fun p => p <> []) (files_of g) -> amid (leaves g) (query q g) w r w' ->
    r = fst (run (query q g) w) /\ forall p, In p (files_of g) -> entry_at p w' = entry_at p (snd (run (query q g) w)).
  Proof.
    intros N D. destruct (undisturbed_on (part g) (leaves g) (query q g) (leaves_same g)
      (only_impl _ _ _ (fun c => on_files_within g c N) (only_query q g)) w r w' w D (same_on_refl _ _)) as [E S].
    split; [exact E|]. intros p I. apply S. apply part_self; [exact I|]. rewrite Forall_forall in N. exact (N p I).
  Qed.
  Theorem query_cut_undisturbed q g w w' : Forall (fun p => p <> []) (files_of g) -> amid_cut (leaves g) (query q g) w w' ->
    exists v, crash (query q g) w v /\ forall p, In p (files_of g) -> entry_at p w' = entry_at p v.
  Proof.
    intros N D. destruct (undisturbed_cut (part g) (leaves g) (query q g) (leaves_same g)
      (only_impl _ _ _ (fun c => on_files_within g c N) (only_query q g)) w w' w D (same_on_refl _ _)) as (v & C & S).
    exists v. split; [exact C|]. intros p I. apply S. apply part_self; [exact I|]. rewrite Forall_forall in N. exact (N p I).
  Qed.
End Queries.

(** ** with a terminal of its own *)
Definition within_t (P : path -> Prop) (c : cmd) : Prop := within P c \/ c = CInput.
Definition same_all (P : path -> Prop) (w w' : world) : Prop := same_on P w w' /\ same_term w w'.
Lemma same_all_trans P a b c : same_all P a b -> same_all P b c -> same_all P a c.
Proof. intros (X & X1 & X2) (Y & Y1 & Y2). split; [eapply same_on_trans; eassumption|]. split; congruence. Qed.
Lemma same_all_refl P w : same_all P w w.
Proof. split; [apply same_on_refl|]. split; reflexivity. Qed.
Lemma exec_all P c w w' : within_t P c -> same_all P w w' -> fst (exec c w') = fst (exec c w) /\ same_all P (snd (exec c w)) (snd (exec c w')).
Proof.
  intros [I| ->] [S T]; [destruct (exec_same P c w w' I S) as [E S2]; split; [exact E|split; [exact S2|exact (exec_term P c w w' I S T)]]|].
  destruct T as [TI TO]. cbn [exec]. rewrite TI. destruct (w_in w) as [|t r] eqn:WI; cbn [fst snd]; (split; [reflexivity|]); (split; [exact S|]); split; cbn [w_in w_out]; congruence.
Qed.
Theorem undisturbed_all {A} P (R : world -> world -> Prop) (m : io A) : (forall w w', R w w' -> same_all P w w') -> only (within_t P) m ->
  forall w r w' v, amid R m w r w' -> same_all P v w -> r = fst (run m v) /\ same_all P (snd (run m v)) w'.
Proof.
  intros HR O. induction O as [a|e|c k Hc Hk IH]; intros w r w' v D S.
  - inversion D; subst. cbn [run fst snd]. split; [reflexivity|]. eapply same_all_trans; [exact S|apply HR; assumption].
  - inversion D; subst. cbn [run fst snd]. split; [reflexivity|]. eapply same_all_trans; [exact S|apply HR; assumption].
  - inversion D as [| |c' k' w0 w1 r' w0' HW D']; subst. assert (S1 : same_all P v w1) by (eapply same_all_trans; [exact S|apply HR; exact HW]).
    destruct (exec_all P c v w1 Hc S1) as [E S2]. rewrite E in D'. cbn [run]. destruct (exec c v) as [x v1]. cbn [fst snd] in *.
    eapply IH; [exact D'|exact S2].
Qed.
Section Sessions.
  Context {rt : PyRt}.
  Lemma only_shell P f : forall g, only P (do_text CInput) -> (forall t, P (CPrint t)) -> (forall q, only P (query q g)) -> only P (shell_loop f g).
  Proof.
    induction f as [|f IH]; intros g CI CP CQ; [constructor|]. cbn [shell_loop]. apply only_bind; [exact CI|]. intros q.
    apply only_bind; [apply only_unit, CP|]. intros _. destruct (str_eqb q (py "q")); [apply only_unit, CP|].
    destruct (contains (py "help") (str_lower q)); [apply only_bind; [apply only_unit, CP|]; intros _; apply IH; assumption|].
    apply only_bind; [|intros; apply IH; assumption]. apply only_catch.
    - apply CQ.
    - intros e m' E. injection E as <-. constructor; [apply CP|]. intros []; constructor.
  Qed.
  Lemma leaves_all_same g w w' : leaves_all g w w' -> same_all (part g) w w'.
  Proof. intros (L & I & O). split; [apply leaves_same; exact L|split; assumption]. Qed.
  Theorem session_undisturbed f g w r w' : Forall (fun p => p <> []) (files_of g) -> amid (leaves_all g) (shell_loop f g) w r w' ->
    r = fst (run (shell_loop f g) w) /\ w_out w' = w_out (snd (run (shell_loop f g) w)) /\
    forall p, In p (files_of g) -> entry_at p w' = entry_at p (snd (run (shell_loop f g) w)).
  Proof.
    intros N D. destruct (undisturbed_all (part g) (leaves_all g) (shell_loop f g) (leaves_all_same g)) with (w := w) (r := r) (w' := w') (v := w) as (E & S & _ & TO).
    - apply only_shell; [apply only_text; right; reflexivity|intros t; left; exact I|]. intros q.
      apply (only_impl _ _ _ (fun c H => or_introl (on_files_within g c N H)) (only_query q g)).
    - exact D.
    - apply same_all_refl.
    - split; [exact E|]. split; [exact TO|]. intros p I. apply S. apply part_self; [exact I|]. rewrite Forall_forall in N. exact (N p I).
  Qed.
End Sessions.
