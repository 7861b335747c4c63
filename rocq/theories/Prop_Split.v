(** * Prop_Split: one MAKE or several (C71); handles do not matter to MAKE (C72)

    [same_graph], [in_turn], [has_relationship] and [same_drawing] are in SpecSplit. *)
From Verif Require Import PyBase Json SpecJson RtLaws Props Statements FS Store SpecStore Make SpecMake SpecSplit SplitFacts AsciiRt AsciiFacts Prop_Make.

(** ** C71 *)
(** MAKEs that succeed one after the other can be joined to one: it succeeds and leaves the same graph *)
Theorem C71_join : forall (rt : PyRt), rt_data rt -> forall g ls G w w',
  ls <> [] -> stored g G w -> Forall (fun l => Forall names_ok (patterns_of l)) ls -> in_turn ls g w = Some w' ->
  exists w1, run (make (concat ls) g) w = (Ok true, w1) /\ same_graph g w1 w' /\
    unchanged_but [database_fp g; indexes_fp g; wiggle_number_fp g] w' w1.
Proof. exact @join_all. Qed.
Print Assumptions C71_join.
(** a MAKE that succeeds can be split anywhere, if every part has a relationship of its own *)
Theorem C71_split : forall (rt : PyRt), rt_data rt -> forall g ls G w w',
  ls <> [] -> stored g G w -> Forall (fun l => Forall names_ok (patterns_of l)) ls -> Forall (fun l => has_relationship (patterns_of l)) ls ->
  run (make (concat ls) g) w = (Ok true, w') ->
  exists w1, in_turn ls g w = Some w1 /\ same_graph g w' w1 /\ unchanged_but [database_fp g; indexes_fp g; wiggle_number_fp g] w1 w'.
Proof. exact @split_all. Qed.
Print Assumptions C71_split.

Definition sp_a : list parsed_make := ex_parse (py "MAKE (:Ant)-[:EATS]->(:Bee);").
Definition sp_b : list parsed_make := ex_parse (py "MAKE (:Cow)<-[:EATS]-(:Ant);").
Lemma sp_a_names : Forall names_ok (patterns_of sp_a).
Proof. vm_compute patterns_of. ex_names. Qed.
Lemma sp_b_names : Forall names_ok (patterns_of sp_b).
Proof. vm_compute patterns_of. ex_names. Qed.
Definition sp_turn : option world := @in_turn ascii_rt [sp_a; sp_b] ex_g ex_w.
Definition sp_turn_w : world := match sp_turn with Some w => w | None => ex_w end.
Definition sp_joined_w : world := snd (run (@make ascii_rt (concat [sp_a; sp_b]) ex_g) ex_w).
Lemma sp_turn_ok : @in_turn ascii_rt [sp_a; sp_b] ex_g ex_w = Some sp_turn_w.
Proof. vm_compute. reflexivity. Qed.
Lemma sp_joined_ok : run (@make ascii_rt (concat [sp_a; sp_b]) ex_g) ex_w = (Ok true, sp_joined_w).
Proof. vm_compute. reflexivity. Qed.
Example C71_hypotheses : exists w1 w2, rt_data ascii_rt /\ @stored ascii_rt ex_g ex_G ex_w /\
  Forall (fun l => Forall names_ok (patterns_of l)) [sp_a; sp_b] /\ Forall (fun l => has_relationship (patterns_of l)) [sp_a; sp_b] /\
  @in_turn ascii_rt [sp_a; sp_b] ex_g ex_w = Some w1 /\ run (@make ascii_rt (concat [sp_a; sp_b]) ex_g) ex_w = (Ok true, w2).
Proof.
  exists sp_turn_w, sp_joined_w. split; [exact ascii_data|]. split; [exact ex_stored|]. split; [constructor; [exact sp_a_names|constructor; [exact sp_b_names|constructor]]|].
  split; [|split; [exact sp_turn_ok|exact sp_joined_ok]].
  constructor; [|constructor; [|constructor]]; vm_compute patterns_of; (eexists; split; [left; reflexivity|]; left; reflexivity).
Qed.
Definition sp_w1 : world := snd (run (@make ascii_rt (ex_two ++ ex_alone) ex_g) ex_w).
Definition sp_w2 : world := snd (run (@make ascii_rt ex_two ex_g) ex_w).
Definition sp_w3 : world := snd (run (@make ascii_rt ex_alone ex_g) sp_w2).
(** What a user expects, that any part can be a MAKE of its own, is false: a node without relationships can only be
    stored together with one that has some. *)
Theorem C71_any_part_refuted : exists w1 w2 w3,
  run (@make ascii_rt (ex_two ++ ex_alone) ex_g) ex_w = (Ok true, w1) /\ run (@make ascii_rt ex_two ex_g) ex_w = (Ok true, w2) /\
  run (@make ascii_rt ex_alone ex_g) w2 = (Err JSONDecodeError, w3).
Proof. exists sp_w1, sp_w2, sp_w3. split; [vm_compute; reflexivity|]. split; vm_compute; reflexivity. Qed.
Print Assumptions C71_any_part_refuted.

(** ** C72: patterns drawn alike have the same result and the same effect, whatever the files hold *)
Theorem C72_handles_do_not_matter : forall (rt : PyRt) l l' g w,
  Forall2 same_drawing (patterns_of l) (patterns_of l') -> run (make l g) w = run (make l' g) w.
Proof. exact @handles_do_not_matter. Qed.
Print Assumptions C72_handles_do_not_matter.

Definition sp_plain : list parsed_make := ex_parse (py "MAKE (:Ant{n:1})-[:EATS]->(:Bee);").
Definition sp_named : list parsed_make := ex_parse (py "MAKE ( x:Ant {n:1} )-[r:EATS]->(y:Bee);").
Example C72_hypotheses : Forall2 (same_drawing (rt := ascii_rt)) (patterns_of sp_plain) (patterns_of sp_named) /\ patterns_of sp_plain <> patterns_of sp_named /\
  fst (run (@make ascii_rt sp_named ex_g) ex_w) = Ok true.
Proof.
  split; [|split; [vm_compute; discriminate|vm_compute; reflexivity]].
  vm_compute patterns_of. constructor; [|constructor].
  assert (F : forall a b : piece, forallb (fun c => negb (N.eqb c 60)) (text_of a) = true -> forallb (fun c => negb (N.eqb c 60)) (text_of b) = true ->
    (two_heads a <-> two_heads b)).
  { assert (X : forall a : piece, forallb (fun c => negb (N.eqb c 60)) (text_of a) = true -> ~ two_heads a).
    { intros a H [K _]. rewrite forallb_forall in H. specialize (H _ K). discriminate. }
    intros a b Ha Hb. split; intros H; exfalso; [exact (X a Ha H)|exact (X b Hb H)]. }
  unfold same_drawing, same_relationship, same_node.
  repeat match goal with |- _ /\ _ => split end; try reflexivity; apply F; reflexivity.
Qed.
