(** * Prop_Users: several people, each with a graph of their own (C80)

    [programs], [do_jobs] and what people ask for and are told are in SpecUsers; [together] (any number of programs, any
    order of their operations, each perhaps never getting another turn) is in SpecMany; [crash] (what a program cut off
    somewhere can leave) is in FS; [own], [entry_at], [plain], [no_wildcard] and [dir_there] are in SpecAmid and SpecGdbms. *)
From Verif Require Import PyBase FS Store Query Gdbms SpecGdbms GdbmsFacts SpecMany ManyFacts SpecAmid SpecUsers UsersMore AsciiRt Prop_Gdbms.

(** who has finished has been told the same, and has the same graph, as somebody who was alone on the machine *)
Theorem C80_each_as_if_alone : forall (rt : PyRt) dir us,
  Forall (fun u => plain (fst u) /\ no_wildcard (fst u)) us -> Forall no_wildcard dir -> NoDup (map fst us) ->
  forall w tr ps' w', dir_there dir w -> together (programs dir us) w tr ps' w' ->
  forall i n js ts, nth_error us i = Some (n, js) -> nth_error ps' i = Some (Ret ts) ->
  fst (run (do_jobs dir n js) w) = Ok ts /\
  forall p, own (dir ++ [n]) p -> entry_at p w' = entry_at p (snd (run (do_jobs dir n js) w)).
Proof. exact @users_done. Qed.
Print Assumptions C80_each_as_if_alone.
(** who has not has what they would have had at some moment, had they been alone *)
Theorem C80_midway_as_if_alone : forall (rt : PyRt) dir us,
  Forall (fun u => plain (fst u) /\ no_wildcard (fst u)) us -> Forall no_wildcard dir -> NoDup (map fst us) ->
  forall w tr ps' w', dir_there dir w -> together (programs dir us) w tr ps' w' ->
  forall i n js, nth_error us i = Some (n, js) ->
  exists v, crash (do_jobs dir n js) w v /\ forall p, own (dir ++ [n]) p -> entry_at p w' = entry_at p v.
Proof. exact @users_midway. Qed.
Print Assumptions C80_midway_as_if_alone.
(** all else on the disk stays as it was *)
Theorem C80_nothing_else : forall (rt : PyRt) dir us,
  Forall (fun u => plain (fst u) /\ no_wildcard (fst u)) us -> Forall no_wildcard dir -> NoDup (map fst us) ->
  forall w tr ps' w', dir_there dir w -> together (programs dir us) w tr ps' w' ->
  forall p, (forall n, In n (map fst us) -> ~ own (dir ++ [n]) p) -> entry_at p w' = entry_at p w.
Proof. exact @users_elsewhere. Qed.
Print Assumptions C80_nothing_else.
(** everybody has been told about all their jobs or can go on *)
Theorem C80_done_or_goes_on : forall (rt : PyRt) dir us w tr ps' w', together (programs dir us) w tr ps' w' ->
  forall i m, nth_error ps' i = Some m -> (exists ts, m = Ret ts) \/ exists c k, m = Do c k.
Proof. exact @users_told. Qed.
Print Assumptions C80_done_or_goes_on.

(** ** Examples *)
(** three people: one creates a graph and works with it, one deletes theirs and creates it again, one asks nonsense and
    creates a graph that is there; their operations alternate *)
Definition us_q : pystr := py "MAKE (:A)-[:R]->(:B);" ++ [10%N] ++ py "FIND (:A);".
Definition us_people : list (pystr * list job) :=
  [(py "c", [Create; Ask us_q]); (py "a", [Ask us_q; Delete; Create]); (py "b", [Ask (py "MAKE"); Create; Ask us_q])].
Definition us_w : world := ex_graphs [py "a"; py "b"] ex_empty.
Definition us_turns : list nat := concat (repeat [2; 0; 1; 1] 60).
Definition us_ps := @programs ascii_rt ex_dir us_people.
Lemma us_plain : Forall (fun u : pystr * list job => plain (fst u) /\ no_wildcard (fst u)) us_people.
Proof.
  repeat constructor; cbn; try discriminate; intros; repeat match goal with H : _ \/ _ |- _ => destruct H as [H|H] | H : In _ _ |- _ => destruct H as [H|H] end; subst; try discriminate; try contradiction; try (intros X; discriminate X); intuition congruence.
Qed.
Lemma us_there : dir_there ex_dir us_w.
Proof. intros d (N & q & E). unfold ex_dir in E. destruct d as [|x [|y [|z d]]]; [congruence| | |]; inversion E; subst; vm_compute; reflexivity. Qed.
Example C80_hypotheses : Forall (fun u : pystr * list job => plain (fst u) /\ no_wildcard (fst u)) us_people /\ Forall no_wildcard ex_dir /\
  NoDup (map fst us_people) /\ dir_there ex_dir us_w /\
  together us_ps us_w (turns_log us_turns us_ps us_w) (fst (turns us_turns us_ps us_w)) (snd (turns us_turns us_ps us_w)).
Proof.
  split; [exact us_plain|]. split.
  - repeat constructor; intros X; subst; cbn in *; intuition congruence.
  - split; [|split; [exact us_there|apply turns_together]]. repeat constructor; cbn; intuition discriminate.
Qed.
Example C80_example : let r := turns us_turns us_ps us_w in
  map (fun m => match m with Ret ts => Some ts | _ => None end) (fst r) =
    [Some [Created (graph_at ex_dir (py "c")); Answered true];
     Some [Answered true; Deleted 0; Created (graph_at ex_dir (py "a"))];
     Some [Failed AttributeError; Failed ValueError; Answered true]] /\
  map (fun n => entry_at (wiggle_number_fp (graph_at ex_dir n)) (snd r)) [py "a"; py "b"; py "c"] =
    [Some (EFile (py "0")); Some (EFile (py "3")); Some (EFile (py "3"))].
Proof. vm_compute. split; reflexivity. Qed.
(** names with wild cards are another matter: who deletes their graph [[b]] empties that of somebody else *)
Definition us_wild : list (pystr * list job) := [(py "[b]", [Create; Delete]); (py "b", [Ask us_q])].
Theorem C80_wildcard_hits_others_refuted : let ps := @programs ascii_rt ex_dir us_wild in
  exists tr ps' w', together ps us_w tr ps' w' /\
  nth_error ps' 1 = Some (Ret [Failed FileNotFoundError]) /\
  fst (run (@do_jobs ascii_rt ex_dir (py "b") [Ask us_q]) us_w) = Ok [Answered true].
Proof.
  cbv zeta. eexists _, _, _. split; [apply (turns_together (repeat 0 60 ++ repeat 1 60))|]. split; vm_compute; reflexivity.
Qed.
Print Assumptions C80_wildcard_hits_others_refuted.
