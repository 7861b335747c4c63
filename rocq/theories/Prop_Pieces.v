(** * Prop_Pieces: the indexes file read between two pieces of a write, or after a crash (C70)

    [in_pieces], [taken], [answer_from] and [index_met] are in SpecPieces, [schedule] in SpecConc, [crash] in FS. *)
From Verif Require Import PyBase Json SpecJson RtLaws Props Statements SpecPattern FS Store SpecStore Make SpecMake Find SpecFind SpecCrash CrashFacts SpecConc ConcFacts
  SpecBeside SpecPieces PiecesFacts PatternFacts AsciiRt AsciiFacts Prop_Make Prop_Find.

(** ** a FIND beside a MAKE whose texts reach the files in pieces *)
(** cutting the writes changes nothing for a process that is alone *)
Theorem C70_pieces_alone : forall A (m m' : io A), in_pieces m m' -> forall w, run m' w = run m w.
Proof. exact @pieces_run. Qed.
Print Assumptions C70_pieces_alone.
(** the MAKE is not disturbed *)
Theorem C70_make_is_not_disturbed : forall (rt : PyRt) f l g w b tr rf rm w',
  in_pieces (make l g) b -> schedule (find f g) b w tr rf rm w' ->
  rm = fst (run (make l g) w) /\ w_fs w' = w_fs (snd (run (make l g) w)).
Proof. exact @pieces_undisturbed. Qed.
Print Assumptions C70_make_is_not_disturbed.
(** the FIND takes the labels from one text the indexes file held meanwhile, the names from another *)
Theorem C70_find_answer : forall (rt : PyRt), rt_data rt -> forall g G w, stored g G w -> forall f l b tr rf rm w',
  Forall names_ok (patterns_of l) -> is_pattern (pf_pattern f) -> findable (pf_pattern f) ->
  in_pieces (make l g) b -> schedule (find f g) b w tr rf rm w' ->
  exists i0 t1 t2, file_is (indexes_fp g) i0 w /\ index_met (patterns_of l) G i0 t1 /\ index_met (patterns_of l) G i0 t2 /\
    answer_from (pf_pattern f) t1 t2 rf.
Proof. exact @find_beside_pieces. Qed.
Print Assumptions C70_find_answer.
(** and whatever a crash of the MAKE could leave behind, a process beside it can meet *)
Theorem C70_every_tear_is_met : forall A (rt : PyRt) (a : io A) l g w v, crash (make l g) w v ->
  exists b tr ra rm w', in_pieces (make l g) b /\ schedule a b w tr ra rm w' /\ ra = fst (run a v).
Proof. intros A rt a l g w v. exact (@meets A bool a (make l g) w v). Qed.
Print Assumptions C70_every_tear_is_met.

(** ** a FIND after a MAKE that was stopped *)
Theorem C70_find_after_crash : forall (rt : PyRt), rt_data rt -> forall g G w, stored g G w -> forall f l w',
  Forall names_ok (patterns_of l) -> is_pattern (pf_pattern f) -> findable (pf_pattern f) -> crash (make l g) w w' ->
  exists i0 t, file_is (indexes_fp g) i0 w /\ file_is (indexes_fp g) t w' /\ index_met (patterns_of l) G i0 t /\
    answer_from (pf_pattern f) t t (fst (run (find f g) w')).
Proof. exact @find_after_crash. Qed.
Print Assumptions C70_find_after_crash.

(** ** Examples *)
(** the runtime of AsciiRt with sets listed the other way round (CPython lists them in no fixed order) *)
Definition late_rt : PyRt := {|
  u_word := @u_word ascii_rt; u_space := @u_space ascii_rt; u_digit := @u_digit ascii_rt;
  u_upper := @u_upper ascii_rt; u_lowertitle := @u_lowertitle ascii_rt; u_lower := @u_lower ascii_rt;
  u_upcase := @u_upcase ascii_rt; u_ci := @u_ci ascii_rt;
  f_repr := @f_repr ascii_rt; int_ext := @int_ext ascii_rt; int_fits := @int_fits ascii_rt; lit_ext := @lit_ext ascii_rt;
  set_order := @rev pystr; zset_order := @rev Z; set_mixed := @set_mixed ascii_rt; import_time := @import_time ascii_rt |}.
Lemma late_data : rt_data late_rt.
Proof.
  constructor.
  - constructor; cbn; try discriminate; intros l H; (split; [apply NoDup_rev; exact H|intros x; symmetry; apply in_rev]).
  - exact (rt_word_ch _ ascii_data).
  - exact (rt_space_ch _ ascii_data).
  - exact (rt_float _ ascii_data).
  - exact (rt_frac _ ascii_data).
  - cbn. discriminate.
  - exact (rt_time _ ascii_data).
Qed.
Definition pi_first : list parsed_make := ex_parse (py "MAKE (:Ant)-[:EATS]->(:Bee);").
Definition pi_second : list parsed_make := ex_parse (py "MAKE (:Cow)-[:EATS]->(:Ant);").
Definition pi_w : world := snd (@run bool (@make late_rt pi_first ex_g) ex_w).
Definition pi_torn : world := crash_at 7 148 (@make late_rt pi_second ex_g) pi_w.
Definition pi_find : parsed_find := ex_find "FIND (a:Coe);".
Lemma pi_stored : @stored late_rt ex_g ex_G ex_w.
Proof.
  constructor; try reflexivity.
  - repeat split; discriminate.
  - constructor; try reflexivity; cbn; [apply vo_dict; constructor| |intros k []]. constructor; cbn; constructor.
  - exists Compact. reflexivity.
Qed.
Lemma pi_first_names : Forall names_ok (patterns_of pi_first).
Proof. vm_compute patterns_of. ex_names. Qed.
Lemma pi_second_names : Forall names_ok (patterns_of pi_second).
Proof. vm_compute patterns_of. ex_names. Qed.
Lemma pi_crash : crash (@make late_rt pi_second ex_g) pi_w pi_torn.
Proof. apply crash_at_crash. Qed.
Lemma pi_findable : findable (rt := late_rt) (pf_pattern pi_find).
Proof.
  constructor; try (vm_compute; reflexivity); try (vm_compute; discriminate).
  - eexists. vm_compute. reflexivity.
  - intros x [<- |[<- |[<- |[]]]]; vm_compute; discriminate.
Qed.

(** What a user expects, that a FIND after a crash does not find what nobody ever made, is false: only the
    labels Ant, Bee and Cow were ever given, and a node with the label Coe is found. *)
Theorem C70_only_made_labels_found_refuted : exists w1 w2,
  rt_data late_rt /\ @stored late_rt ex_g ex_G ex_w /\ g_db ex_G = [] /\
  @run bool (@make late_rt pi_first ex_g) ex_w = (Ok true, w1) /\ crash (@make late_rt pi_second ex_g) w1 w2 /\
  (forall s, asked_label (pf_pattern pi_find) s <-> s = py "Coe") /\
  (forall s, label_drawn (patterns_of pi_first ++ patterns_of pi_second) s -> In s [py "Ant"; py "Bee"; py "Cow"]) /\
  fst (run (@find late_rt pi_find ex_g) w2) = something.
Proof.
  exists pi_w, pi_torn. split; [exact late_data|]. split; [exact pi_stored|]. split; [reflexivity|].
  split; [vm_compute; reflexivity|]. split; [exact pi_crash|]. split; [|split].
  - intros s. split.
    + intros (x & H & E). vm_compute in H. repeat (destruct H as [<- |H]; [vm_compute in E; (discriminate || (injection E as <-; reflexivity))|]). destruct H.
    + intros ->. eexists. split; [left; reflexivity|]. vm_compute. reflexivity.
  - intros s (p & x & Hp & H & E). vm_compute in Hp.
    repeat (destruct Hp as [<- |Hp]; [vm_compute in H; repeat (destruct H as [<- |H]; [vm_compute in E; injection E as <-; cbn; tauto|]); destruct H|]). destruct Hp.
  - vm_compute. reflexivity.
Qed.
Print Assumptions C70_only_made_labels_found_refuted.
(** nor does a FIND beside the second MAKE, when that is still writing *)
Theorem C70_only_made_labels_found_beside_refuted : exists b tr rm w',
  in_pieces (@make late_rt pi_second ex_g) b /\ schedule (@find late_rt pi_find ex_g) b pi_w tr something rm w'.
Proof.
  destruct (C70_every_tear_is_met _ late_rt (@find late_rt pi_find ex_g) pi_second ex_g pi_w pi_torn pi_crash) as (b & tr & ra & rm & w' & IP & S & E).
  assert (X : fst (run (@find late_rt pi_find ex_g) pi_torn) = something) by (vm_compute; reflexivity). rewrite X in E. subst ra. eauto 6.
Qed.
Print Assumptions C70_only_made_labels_found_beside_refuted.

(** the hypotheses of the theorems above are met, and the torn text is taken for labels and names *)
Lemma pi_pattern : is_pattern (rt := late_rt) (pf_pattern pi_find).
Proof. eapply (C36_parsed_patterns late_rt (py "FIND (a:Coe);")). vm_compute. reflexivity. Qed.
Lemma pi_strings s ss : In s ss <-> In (VStr s) (map VStr ss).
Proof. rewrite in_map_iff. split; [intros H; exists s; auto|intros (x & E & H); congruence]. Qed.
Example C70_example : exists G t,
  stored (rt := late_rt) ex_g G pi_w /\ file_is (indexes_fp ex_g) t pi_torn /\
  taken (rt := late_rt) NODE_LABELS t (Ok [py "Coe"; py "Ant"]) /\ taken (rt := late_rt) RELATIONSHIP_NAMES t (Ok [py "EATS"]) /\
  answer_from (rt := late_rt) (pf_pattern pi_find) t t something.
Proof.
  assert (R : @run bool (@make late_rt pi_first ex_g) ex_w = (Ok true, pi_w)) by (vm_compute; reflexivity).
  destruct (C22_successful_make_effect late_rt _ _ _ _ _ _ late_data pi_stored pi_first_names R) as (_ & _ & items & _ & _ & _ & G & S & _ & _).
  destruct (C70_find_after_crash late_rt late_data ex_g G pi_w S pi_find pi_second pi_torn pi_second_names pi_pattern pi_findable pi_crash) as (i0 & t & _ & F & _ & A).
  exists G, t. split; [exact S|]. split; [exact F|].
  pose proof F as F'. unfold file_is in F'. vm_compute in F'. injection F' as <-.
  split; [eapply tk_list; [vm_compute; reflexivity|vm_compute; reflexivity| |];
    [intros v I; cbn [In] in I; split; intros ?; intuition congruence|intros s; apply pi_strings]|].
  split; [eapply tk_list; [vm_compute; reflexivity|vm_compute; reflexivity| |];
    [intros v I; cbn [In] in I; split; intros ?; intuition congruence|intros s; apply pi_strings]|].
  assert (X : fst (run (@find late_rt pi_find ex_g) pi_torn) = something) by (vm_compute; reflexivity). rewrite X in A. exact A.
Qed.

(** ** two MAKEs whose texts reach the files in pieces *)
Definition pi_a : list parsed_make := ex_parse (py "MAKE (:Ant{n:1})-[:EATS]->(:Bee);").
Definition pi_b : list parsed_make := ex_parse (py "MAKE (:Cow{n:2})-[:EATS]->(:Dog);").
(** a node of the database: its label and its properties *)
Definition node_in (g : gdbms) (w : world) (label : pystr) (props : pyval) : Prop :=
  exists d k o, run (@load_database ascii_rt (database_fp g)) w = (Ok (VDict d), w) /\ In (k, VDict o) d /\
    d_get (py "node_label") o = Some (VStr label) /\ d_get (py "properties") o = Some props.
Definition pi_db (w : world) : list (pystr * pyval) :=
  match fst (run (@load_database ascii_rt (database_fp ex_g)) w) with Ok (VDict d) => d | _ => [] end.
Definition pi_node (w : world) : list (pystr * pyval) := match pi_db w with (_, VDict o) :: _ => o | _ => [] end.
Lemma pi_node_in w label props : run (@load_database ascii_rt (database_fp ex_g)) w = (Ok (VDict (pi_db w)), w) ->
  In (py "0", VDict (pi_node w)) (pi_db w) -> d_get (py "node_label") (pi_node w) = Some (VStr label) ->
  d_get (py "properties") (pi_node w) = Some props -> node_in ex_g w label props.
Proof. intros A B C E. exists (pi_db w), (py "0"), (pi_node w). auto. Qed.
Definition pi_cut : io bool := cut_at 2 190 (@make ascii_rt pi_a ex_g).
Definition pi_whole : io bool := @make ascii_rt pi_b ex_g.
Definition pi_order : list bool := [false; false; true; true; true; false; true].
Definition pi_turns := take_turns pi_order pi_cut pi_whole ex_w.
Definition pi_end : world := snd pi_turns.
Ltac pi_is := apply pi_node_in; [vm_compute; reflexivity|vm_compute; left; reflexivity|vm_compute; reflexivity|vm_compute; reflexivity].
Lemma pi_end_node : node_in ex_g pi_end (py "Cow") (VDict [(py "n", VInt 1)]).
Proof. pi_is. Qed.
Lemma pi_a_node : node_in ex_g (snd (run (@make ascii_rt pi_a ex_g) ex_w)) (py "Ant") (VDict [(py "n", VInt 1)]).
Proof. pi_is. Qed.
Lemma pi_b_node : node_in ex_g (snd (run (@make ascii_rt pi_b ex_g) ex_w)) (py "Cow") (VDict [(py "n", VInt 2)]).
Proof. pi_is. Qed.
Lemma turns_are {A B} s (a : io A) (b : io B) w ra rb : snd (fst (fst (take_turns s a b w))) = ra -> snd (fst (take_turns s a b w)) = rb ->
  schedule a b w (fst (fst (fst (take_turns s a b w)))) ra rb (snd (take_turns s a b w)).
Proof. pose proof (take_turns_schedule s a b w) as H. destruct (take_turns s a b w) as [[[tr ra'] rb'] w']. intros <- <-. exact H. Qed.
Lemma pi_schedule : schedule pi_cut pi_whole ex_w (fst (fst (fst pi_turns))) (Ok true) (Ok true) pi_end.
Proof. unfold pi_end, pi_turns. apply turns_are; vm_compute; reflexivity. Qed.
(** What C64 shows for whole writes, that a readable database holds whole MAKEs, is false for writes in pieces:
    both MAKEs are answered, and there is one node with the label from one of them and the property from the other. *)
Theorem C70_whole_makes_refuted : exists a b tr w',
  in_pieces (@make ascii_rt pi_a ex_g) a /\ in_pieces (@make ascii_rt pi_b ex_g) b /\
  schedule a b ex_w tr (Ok true) (Ok true) w' /\
  node_in ex_g w' (py "Cow") (VDict [(py "n", VInt 1)]) /\
  node_in ex_g (snd (run (@make ascii_rt pi_a ex_g) ex_w)) (py "Ant") (VDict [(py "n", VInt 1)]) /\
  node_in ex_g (snd (run (@make ascii_rt pi_b ex_g) ex_w)) (py "Cow") (VDict [(py "n", VInt 2)]).
Proof.
  exists pi_cut, pi_whole, (fst (fst (fst pi_turns))), pi_end. split; [apply cut_at_pieces|]. split; [apply in_pieces_refl|].
  split; [exact pi_schedule|]. split; [exact pi_end_node|]. split; [exact pi_a_node|exact pi_b_node].
Qed.
Print Assumptions C70_whole_makes_refuted.
