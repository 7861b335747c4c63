(** * Prop_Many: any number of queries at the same time on one graph (C64)

    [together], [made_by], [json_query] and [reads_first] are in SpecMany, [unreadable] in SpecDurable. *)
From Verif Require Import PyBase Json SpecJson RtLaws Props Statements FS Store SpecStore Make SpecMake Find Query SpecShell SpecDurable
  SpecMany ManyFacts AsciiRt AsciiFacts Prop_Make Prop_Query.

(** at every moment *)
Theorem C64_old_nodes_and_whole_makes : forall (rt : PyRt), rt_data rt -> forall g, distinct_files g -> forall d qs w tr ps w',
  db_file (database_fp g) d w -> Forall json_query qs -> together (map (fun q => query q g) qs) w tr ps w' ->
  (exists who parts, NoDup who /\ Forall2 (made_by qs) who parts /\ db_file (database_fp g) (d ++ concat parts) w') \/ unreadable g w'.
Proof. exact @some_of_them. Qed.
Print Assumptions C64_old_nodes_and_whole_makes.

(** nobody reads the counter after somebody began to replace it: at most one MAKE survives *)
Theorem C64_same_counter_one_survives : forall (rt : PyRt), rt_data rt -> forall g, distinct_files g -> forall d z0 qs w tr ps w',
  db_file (database_fp g) d w -> file_is (wiggle_number_fp g) (str_of_Z z0) w -> Forall json_query qs ->
  together (map (fun q => query q g) qs) w tr ps w' -> reads_first (wiggle_number_fp g) tr ->
  db_file (database_fp g) d w' \/ unreadable g w' \/
  exists q l items, In q qs /\ parse_make q = Ok (Some l) /\ acceptable (patterns_of l) z0 items /\ db_file (database_fp g) (d ++ items) w'.
Proof. exact @one_at_most. Qed.
Print Assumptions C64_same_counter_one_survives.

(** ** Examples *)
Definition mn_a : pystr := py "MAKE (:A)-[:R]->(:B);" ++ nl ++ py "FIND (:A);".
Definition mn_b : pystr := py "MAKE (:C)<-[:S]-(:D);" ++ nl ++ py "FIND (:A);".
Definition mn_c : pystr := py "FIND (:C);".
Definition mn_qs : list pystr := [mn_a; mn_b; mn_c; mn_a].
Definition mn_ps : list (io bool) := map (fun q => @query ascii_rt q ex_g) mn_qs.
Definition mn_keys (w : world) : option (list pystr) :=
  match fst (run (@read_json ascii_rt (database_fp ex_g)) w) with Ok (VDict d) => Some (keys d) | _ => None end.
Definition mn_results (ps : list (io bool)) : list (option (res bool)) :=
  map (fun p => match p with Ret b => Some (Ok b) | Throw e => Some (Err e) | Do _ _ => None end) ps.
Fixpoint times {A} (n : nat) (l : list A) : list A := match n with 0 => [] | S n => l ++ times n l end.
(** the first runs to its end, then the others take turns; all of them take turns from the beginning *)
Definition mn_s1 : list nat := repeat 0 20 ++ times 20 [2; 1; 3].
Definition mn_s2 : list nat := times 20 [0; 1; 2; 3].
Lemma mn_json : Forall (@json_query ascii_rt) mn_qs.
Proof.
  assert (H : forall q, match @parse_make ascii_rt q with
      | Ok (Some l) => forallb (fun p => forallb (fun x => match p_props x with Some (_ :: _) => false | _ => true end)
          [left_node p; left_middle_rel p; middle_node p; middle_right_rel p; right_node p]) (patterns_of l)
      | _ => true end = true -> @json_query ascii_rt q).
  { intros q H l E. rewrite E in H. apply Forall_forall. intros p Hp x d Hx G. rewrite forallb_forall in H. specialize (H p Hp).
    rewrite forallb_forall in H. specialize (H x Hx). destruct (p_props x) as [[|c t]|]; cbn in G; congruence. }
  repeat constructor; apply H; vm_compute; reflexivity.
Qed.
Example C64_hypotheses : distinct_files ex_g /\ @db_file ascii_rt (database_fp ex_g) [] ex_w /\
  file_is (wiggle_number_fp ex_g) (str_of_Z 0) ex_w /\ Forall (@json_query ascii_rt) mn_qs /\
  together mn_ps ex_w (turns_log mn_s1 mn_ps ex_w) (fst (turns mn_s1 mn_ps ex_w)) (snd (turns mn_s1 mn_ps ex_w)).
Proof.
  split; [apply ex_stored|]. split; [|split; [reflexivity|split; [apply mn_json|apply turns_together]]].
  split; [reflexivity|]. split; [|reflexivity]. apply vo_dict; constructor.
Qed.
(** and at the moment when each of the four has done two operations, nobody has read the counter after a change *)
Definition mn_s3 : list nat := times 2 [0; 1; 2; 3].
Example C64_hypotheses_counter : together mn_ps ex_w (turns_log mn_s3 mn_ps ex_w) (fst (turns mn_s3 mn_ps ex_w)) (snd (turns mn_s3 mn_ps ex_w)) /\
  List.length (turns_log mn_s3 mn_ps ex_w) = 8 /\ reads_first (wiggle_number_fp ex_g) (turns_log mn_s3 mn_ps ex_w).
Proof.
  split; [apply turns_together|]. split; [vm_compute; reflexivity|].
  assert (X : forallb (fun ic => match snd ic with CCreate _ | CWrite _ _ _ | CTrunc _ _ => false | _ => true end) (turns_log mn_s3 mn_ps ex_w) = true) by (vm_compute; reflexivity).
  intros (t1 & i & c & t2 & j & t3 & E & H). rewrite E, forallb_forall in X.
  specialize (X (i, c)). cbn [snd] in X. destruct H as [-> |[(o & t & ->)|(n & ->)]]; discriminate X; apply in_or_app; right; left; reflexivity.
Qed.
(** What a user expects is false: all four queries are answered, three of them with a MAKE, and the database, which
    can be read, holds the nodes of two, or of one of them. *)
Theorem C64_answered_lost_refuted :
  (let r := turns mn_s1 mn_ps ex_w in mn_results (fst r) = repeat (Some (Ok true)) 4 /\ mn_keys (snd r) = Some [py "0"; py "1"; py "3"; py "4"]) /\
  (let r := turns mn_s2 mn_ps ex_w in mn_results (fst r) = repeat (Some (Ok true)) 4 /\ mn_keys (snd r) = Some [py "0"; py "1"]).
Proof. vm_compute. repeat split. Qed.
Print Assumptions C64_answered_lost_refuted.
