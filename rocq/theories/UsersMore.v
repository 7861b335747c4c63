(** * UsersMore: what the jobs of somebody do (C80) *)
From Verif Require Import PyBase BaseFacts Statements FS FSFacts Store Make Find Query Gdbms SpecShell SpecGdbms GdbmsFacts Confine SpecMany ManyFacts
  SpecAmid AmidFacts AmidMore AmidDelete SpecUsers UsersFacts.

Lemma home_create_file dir n x content : plain n -> only (at_home (dir ++ [n])) (create_file dir n (dir ++ [n; x]) content).
Proof.
  intros P. change [n; x] with ([n] ++ [x]). rewrite app_assoc. set (d := dir ++ [n]). unfold create_file. rewrite joinpath_plain by exact P. fold d.
  assert (X : exists m, d ++ [x] = d ++ [m]) by eauto.
  apply only_bind; [unfold mkdir; destruct (has_nul d); [constructor|apply only_unit; reflexivity]|]. intros _.
  apply only_bind; [apply only_bool; exact X|]. intros []; [constructor|].
  apply only_bind; [apply only_unit; exact X|]. intros _. apply only_bind; [apply only_unit; exact X|]. intros _.
  apply only_bind; [apply only_unit; exact X|]. intros _. constructor.
Qed.
Lemma home_new n dir : plain n -> only (at_home (dir ++ [n])) (get_new_gdbms_file_paths n dir).
Proof.
  intros P. pose proof (db_file_plain dir n P) as E1. pose proof (idx_file_plain dir n P) as E2. pose proof (wn_file_plain dir n P) as E3. unfold get_new_gdbms_file_paths. apply only_catch.
  - unfold create_new_database, create_new_indexes_file, create_new_wiggle_number_file. rewrite E1, E2, E3. cbn [graph_at database_fp indexes_fp wiggle_number_fp].
    apply only_bind; [apply home_create_file; exact P|]. intros a. apply only_bind; [apply home_create_file; exact P|]. intros b.
    apply only_bind; [apply home_create_file; exact P|]. intros c. apply only_bind; [apply only_unit; exact I|]. intros; constructor.
  - intros e m'. destruct (is_value_error e); [|discriminate]. intros E. injection E as <-. constructor; [exact I|]. intros []; constructor.
Qed.
Lemma home_remove d l : (forall p, In p l -> exists m, p = d ++ [m]) -> only (at_home d) (remove_all l).
Proof.
  induction l as [|p l IH]; intros H; cbn [remove_all]; [constructor|]. apply only_bind; [apply only_unit; apply H; left; reflexivity|].
  intros _. apply IH. intros q Q. apply H. right. exact Q.
Qed.
Lemma home_delete n dir : plain n -> Forall no_wildcard (dir ++ [n]) -> only (at_home (dir ++ [n])) (delete_gdbms n dir).
Proof.
  intros P NW. unfold delete_gdbms. rewrite joinpath_slash by exact P. set (d := dir ++ [n]) in *.
  apply only_bind; [apply only_bool; reflexivity|]. intros []; cbn [negb]; [|constructor].
  unfold glob_star. rewrite glob_dirs_ret by exact NW. cbn [io_bind app concat_io]. unfold glob1, list_or_empty. cbn [do_names io_catch io_bind].
  constructor; [reflexivity|]. intros r.
  assert (K : forall names, only (at_home d) (let! _ := remove_all (map (fun n => d ++ [n]) names ++ []) in let! _ := do_unit (CRmdir d) in Ret 0%Z)).
  { intros names. apply only_bind; [|intros _; apply only_bind; [apply only_unit; reflexivity|intros; constructor]].
    apply home_remove. intros p I. rewrite app_nil_r in I. apply in_map_iff in I as (m & <- & _). eauto. }
  destruct r; cbn [io_catch io_bind]; apply K.
Qed.
Section Jobs.
  Context {rt : PyRt}.
  Lemma home_query q dir n : only (at_home (dir ++ [n])) (query q (graph_at dir n)).
  Proof.
    eapply only_impl; [|apply only_query]. intros c H.
    assert (X : forall p, In p (the_files (graph_at dir n)) -> exists m, p = (dir ++ [n]) ++ [m]).
    { intros p I. cbn in I. destruct I as [<- |[<- |[<- |[]]]]; eexists; rewrite <- app_assoc; reflexivity. }
    destruct c; cbn [on_files at_home] in *; auto; contradiction.
  Qed.
  Lemma home_job dir n j : plain n -> Forall no_wildcard (dir ++ [n]) -> only (at_home (dir ++ [n])) (do_job dir n j).
  Proof.
    intros P NW. unfold do_job. apply only_catch; [|intros e m' E; injection E as <-; constructor].
    destruct j; (apply only_bind; [|intros; constructor]); [apply home_query|apply home_new; exact P|apply home_delete; assumption].
  Qed.
  Lemma home_jobs dir n js : plain n -> Forall no_wildcard (dir ++ [n]) -> only (at_home (dir ++ [n])) (do_jobs dir n js).
  Proof.
    intros P NW. induction js as [|j js IH]; cbn [do_jobs]; [constructor|]. apply only_bind; [apply home_job; assumption|]. intros t.
    apply only_bind; [exact IH|]. intros; constructor.
  Qed.

  (** nobody's program ends with an exception *)
  Inductive safe {A} : io A -> Prop :=
  | safe_ret : forall a, safe (Ret a)
  | safe_do : forall c k, (forall r, safe (k r)) -> safe (Do c k).
  Lemma safe_bind {A B} (m : io A) (f : A -> io B) : safe m -> (forall a, safe (f a)) -> safe (io_bind m f).
  Proof. induction 1; intros F; cbn [io_bind]; [apply F|]. constructor. auto. Qed.
  Lemma safe_catch {A} (m : io A) (h : exn -> A) : safe (io_catch m (fun e => Some (Ret (h e)))).
  Proof. induction m as [a|e|c k IH]; cbn [io_catch]; constructor. exact IH. Qed.
  Lemma safe_jobs dir n js : safe (do_jobs dir n js).
  Proof.
    induction js as [|j js IH]; cbn [do_jobs]; [constructor|]. apply safe_bind; [apply (safe_catch _ Failed)|]. intros t. apply safe_bind; [exact IH|]. intros; constructor.
  Qed.
  Lemma safe_together {A} (ps : list (io A)) w tr ps' w' : together ps w tr ps' w' -> (forall i m, nth_error ps i = Some m -> safe m) ->
    forall i m, nth_error ps' i = Some m -> safe m.
  Proof.
    induction 1 as [ps w|ps j c k w tr ps' w' E H IH]; intros S; [exact S|]. apply IH. intros i m Hm. destruct (Nat.eq_dec i j) as [-> |N].
    - rewrite (replaced_same j _ _ ps E) in Hm. injection Hm as <-. specialize (S j _ E). inversion S; subst. auto.
    - rewrite (replaced_other j i _ _ ps E N) in Hm. exact (S i m Hm).
  Qed.

  Context (dir : path) (us : list (pystr * list job)).
  Context (PL : Forall (fun u => plain (fst u) /\ no_wildcard (fst u)) us) (NW : Forall no_wildcard dir) (ND : NoDup (map fst us)).
  Lemma programs_nth i m : nth_error (programs dir us) i = Some m -> exists n js, nth_error us i = Some (n, js) /\ m = do_jobs dir n js.
  Proof using. clear PL NW ND. unfold programs. rewrite nth_error_map. destruct (nth_error us i) as [[n js]|]; cbn [option_map]; intros E; [|discriminate]. injection E as <-. eauto. Qed.
  Lemma programs_home i m : nth_error (programs dir us) i = Some m -> exists n, nth_error (map fst us) i = Some n /\ only (at_home (dir ++ [n])) m.
  Proof using PL NW.
    clear ND. intros H. destruct (programs_nth i m H) as (n & js & E & ->). exists n. split; [rewrite nth_error_map, E; reflexivity|].
    pose proof (proj1 (Forall_forall _ _) PL _ (nth_error_In _ _ E)) as [P W]. apply home_jobs; [exact P|]. apply Forall_app. split; [exact NW|]. constructor; [exact W|constructor].
  Qed.
  Lemma sees_own d w v : d <> [] -> sees d w v -> forall p, own d p -> entry_at p w = entry_at p v.
  Proof using.
    clear PL NW ND. intros N [S _] p O. unfold entry_at. symmetry. apply S. destruct O as [-> |O]; [apply self_around; exact N|right; exact O].
  Qed.
  Context (w : world) (tr : list (nat * cmd)) (ps' : list (io (list told))) (w' : world).
  Context (T : dir_there dir w) (H : together (programs dir us) w tr ps' w').
  Theorem users_done i n js ts : nth_error us i = Some (n, js) -> nth_error ps' i = Some (Ret ts) ->
    fst (run (do_jobs dir n js) w) = Ok ts /\ forall p, own (dir ++ [n]) p -> entry_at p w' = entry_at p (snd (run (do_jobs dir n js) w)).
  Proof using PL NW ND T H.
    intros E Hi. destruct (each_alone dir _ w tr ps' w' H (map fst us) ND programs_home T) as [_ X].
    destruct (X i (do_jobs dir n js) n w) as [_ Y]; [unfold programs; rewrite nth_error_map, E; reflexivity|rewrite nth_error_map, E; reflexivity|apply sees_refl|].
    destruct (Y ts Hi) as [R S]. split; [exact R|]. apply sees_own; [apply snoc_nonempty|exact S].
  Qed.
  Theorem users_midway i n js : nth_error us i = Some (n, js) ->
    exists v, crash (do_jobs dir n js) w v /\ forall p, own (dir ++ [n]) p -> entry_at p w' = entry_at p v.
  Proof using PL NW ND T H.
    intros E. destruct (each_alone dir _ w tr ps' w' H (map fst us) ND programs_home T) as [_ X].
    destruct (X i (do_jobs dir n js) n w) as [(v & C & S) _]; [unfold programs; rewrite nth_error_map, E; reflexivity|rewrite nth_error_map, E; reflexivity|apply sees_refl|].
    exists v. split; [exact C|]. apply sees_own; [apply snoc_nonempty|exact S].
  Qed.
  Theorem users_elsewhere p : (forall n, In n (map fst us) -> ~ own (dir ++ [n]) p) -> entry_at p w' = entry_at p w.
  Proof using PL NW ND T H. intros N. exact (proj1 (each_alone dir _ w tr ps' w' H (map fst us) ND programs_home T) p N). Qed.
  Theorem users_told i m : nth_error ps' i = Some m -> (exists ts, m = Ret ts) \/ exists c k, m = Do c k.
  Proof using H.
    clear PL NW ND T. intros E. assert (S : safe m).
    { eapply (safe_together _ w tr ps' w' H); [|exact E]. intros j x X. destruct (programs_nth j x X) as (n & js & _ & ->). apply safe_jobs. }
    inversion S; eauto.
  Qed.
End Jobs.
