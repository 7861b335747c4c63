(** * Prop_Twin: two starts of the same Python (C75)

    [same_python], [start_of], [timeless], [same_members], [same_index], [same_but_times] and [alike] are in SpecTwin,
    [session_of] in SpecProc. *)
From Verif Require Import PyBase Json SpecJson RtLaws Props Statements FS Store SpecStore Make SpecMake Find Query Messages MessagesRun SpecSound SpecProc SpecTwin TwinFacts
  AsciiRt AsciiFacts Prop_Make Prop_Query Prop_Proc SpecStore.

(** Whatever the order of sets and the time each query meets, the queries have the same answers and leave the same graph. *)
Theorem C75_same_answers : forall (base : PyRt) g, distinct_files g -> forall qs qs' w w',
  Forall (fun pq => start_of base (fst pq)) qs -> Forall (fun pq => start_of base (fst pq)) qs' -> map snd qs = map snd qs' ->
  @alike base g w w' ->
  fst (session_of g qs w) = fst (session_of g qs' w') /\ @alike base g (snd (session_of g qs w)) (snd (session_of g qs' w')).
Proof. exact same_answers. Qed.
Print Assumptions C75_same_answers.

(** every stored graph is a start *)
Theorem C75_graph_alike : forall (base : PyRt) g G w, @stored base g G w -> @alike base g w w.
Proof. exact stored_alike. Qed.
Print Assumptions C75_graph_alike.

(** what is left is the same graph but for the times, if it is one in either run *)
Theorem C75_same_graph : forall (base : PyRt) g G w w', @stored base g G w -> @alike base g w w' ->
  exists G', @stored base g G' w' /\ same_but_times G G'.
Proof. exact alike_stored. Qed.
Print Assumptions C75_same_graph.

(** ** Examples *)
(** a second start: sets the other way round, at a later time *)
Definition tw_other : PyRt := {|
  u_word := @u_word ascii_rt; u_space := @u_space ascii_rt; u_digit := @u_digit ascii_rt;
  u_upper := @u_upper ascii_rt; u_lowertitle := @u_lowertitle ascii_rt; u_lower := @u_lower ascii_rt;
  u_upcase := @u_upcase ascii_rt; u_ci := @u_ci ascii_rt;
  f_repr := @f_repr ascii_rt; int_ext := @int_ext ascii_rt; int_fits := @int_fits ascii_rt; lit_ext := @lit_ext ascii_rt;
  set_order := @rev pystr; zset_order := @rev Z; set_mixed := @set_mixed ascii_rt; import_time := py "1999999999.5" |}.
Lemma tw_start : start_of ascii_rt ascii_rt.
Proof. split; [exact ascii_data|constructor; reflexivity]. Qed.
Lemma tw_other_start : start_of ascii_rt tw_other.
Proof.
  split; [|constructor; reflexivity]. constructor.
  - constructor; cbn; [reflexivity|discriminate|discriminate| |]; intros l H; (split; [apply NoDup_rev; exact H|intros x; symmetry; apply in_rev]).
  - exact (rt_word_ch _ ascii_data).
  - exact (rt_space_ch _ ascii_data).
  - exact (rt_float _ ascii_data).
  - exact (rt_frac _ ascii_data).
  - cbn. discriminate.
  - apply (rt_float _ ascii_data (py "1999999999.5")). vm_compute. reflexivity.
Qed.
(** nodes; a MAKE that breaks off with bytes in a list; a MAKE after it; a FIND *)
Definition tw_q1 : pystr := py "MAKE (:A)-[:R]->(:B)-[:S]->(:C);" ++ nl ++ py "FIND (:A);".
Definition tw_q2 : pystr := py "MAKE (:D{x:[b'y']})-[:T]->(:E);" ++ nl ++ py "FIND (:A);".
Definition tw_q3 : pystr := py "FIND (:A);".
Definition tw_texts : list pystr := [tw_q1; tw_q3; tw_q2; tw_q1; tw_q3].
Definition tw_qs : list (PyRt * pystr) := map (fun q => (ascii_rt, q)) tw_texts.
Definition tw_qs' : list (PyRt * pystr) := map (fun q => (tw_other, q)) tw_texts.
Definition tw_labels (w : world) : res (list pystr) := fst (run (@load_node_labels_index ascii_rt (indexes_fp ex_g)) w).
Example C75_hypotheses : distinct_files ex_g /\ Forall (fun pq => start_of ascii_rt (fst pq)) tw_qs /\ Forall (fun pq => start_of ascii_rt (fst pq)) tw_qs' /\
  map snd tw_qs = map snd tw_qs' /\ @stored ascii_rt ex_g ex_G ex_w /\ @alike ascii_rt ex_g ex_w ex_w.
Proof.
  split; [apply ex_stored|]. split; [|split; [|split; [reflexivity|split; [exact ex_stored|eapply C75_graph_alike; exact ex_stored]]]].
  - repeat (apply Forall_cons; [exact tw_start|]). apply Forall_nil.
  - repeat (apply Forall_cons; [exact tw_other_start|]). apply Forall_nil.
Qed.
Example C75_example : fst (session_of ex_g tw_qs ex_w) = [Ok true; Ok true; Err TypeError; Err JSONDecodeError; Ok true] /\
  let w := snd (run (@query ascii_rt tw_q1 ex_g) ex_w) in let w' := snd (run (@query tw_other tw_q1 ex_g) ex_w) in
  pr_meta w = [(py "0", Some (VFloat (py "1700000000.5"))); (py "1", Some (VFloat (py "1700000000.5")))] /\
  pr_meta w' = [(py "0", Some (VFloat (py "1999999999.5"))); (py "1", Some (VFloat (py "1999999999.5")))] /\
  tw_labels w = Ok [py "A"; py "B"; py "C"] /\ tw_labels w' = Ok [py "C"; py "B"; py "A"].
Proof. vm_compute. repeat split. Qed.

(** Only the wording of one error depends on the start: which of several missing handles a REPORT is blamed for. *)
Definition tw_report : pystr := py "FIND (n:A)-[:R]->(m:B);" ++ nl ++ py "REPORT(x);".
Theorem C75_same_message_refuted : exists (a b : PyRt) q, start_of a b /\ start_of b a /\ @parse_query_string_m a q <> @parse_query_string_m b q.
Proof.
  exists ascii_rt, tw_other, tw_report. split; [exact tw_other_start|]. split; [split; [exact ascii_data|constructor; reflexivity]|].
  intros H. apply (f_equal (fun r => match r with Bad e (Some (Text t)) => t | _ => [] end)) in H. vm_compute in H. discriminate H.
Qed.
Print Assumptions C75_same_message_refuted.
