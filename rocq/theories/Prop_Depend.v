(** * Prop_Depend: what the answers of a graph depend on (C83)

    [same_words] and [until_damage] are in SpecDepend, [session] and [corrupting] in SpecSound. *)
From Verif Require Import PyBase RtLaws Statements PatternFacts FS Store SpecStore Make SpecMake Find Query SpecFind FindFacts SpecSound SpecDepend DependFacts
  AsciiRt AsciiFacts Prop_Make Prop_Find Prop_Query Prop_Same.

(** two graphs whose indexes hold the same labels and names answer any series of queries alike *)
Theorem C83_answered_alike : forall (rt : PyRt), rt_data rt -> forall (g g' : gdbms) (qs : list pystr) (G : graph) (w : world) (G' : graph) (w' : world),
  stored g G w -> stored g' G' w' -> same_words G G' ->
  until_damage (fst (session g qs w)) = until_damage (fst (session g' qs w')).
Proof. exact @sessions_same. Qed.
Print Assumptions C83_answered_alike.
(** and print the same lines, and have the same words afterwards *)
Theorem C83_printed_alike : forall (rt : PyRt), rt_data rt -> forall (g g' : gdbms) (qs : list pystr) (G : graph) (w : world) (G' : graph) (w' : world),
  stored g G w -> stored g' G' w' -> same_words G G' -> (forall r, In r (fst (session g qs w)) -> ~ corrupting r) ->
  fst (session g qs w) = fst (session g' qs w') /\
  (exists out, w_out (snd (session g qs w)) = w_out w ++ out /\ w_out (snd (session g' qs w')) = w_out w' ++ out) /\
  exists G1 G1', stored g G1 (snd (session g qs w)) /\ stored g' G1' (snd (session g' qs w')) /\ same_words G1 G1'.
Proof. exact @sessions_print_same. Qed.
Print Assumptions C83_printed_alike.
(** a query that is sent twice in a row gets the same answer, or the same exception, twice *)
Theorem C83_sent_twice : forall (rt : PyRt), rt_data rt -> forall (q : pystr) (g : gdbms) (G : graph) (w : world), stored g G w ->
  let r := run (query q g) w in let r2 := run (query q g) (snd r) in
  ~ corrupting (fst r) -> fst r2 = fst r /\ exists out, w_out (snd r) = w_out w ++ out /\ w_out (snd r2) = w_out (snd r) ++ out.
Proof. exact @sent_twice. Qed.
Print Assumptions C83_sent_twice.

(** ** Examples *)
Definition dp_queries : list pystr :=
  [py "MAKE (:Ant{n:1})-[:EATS]->(:Bee);" ++ nl ++ py "FIND (:Ant);"; py "nonsense"; py "FIND (:Land);"; py "FIND (a:Ant)-[:EATS]->(b:Bee)-[:EATS]->(c:Cow);"].
(** the two graphs of C82_hypotheses: the same patterns made in another order, and some of them twice *)
Definition dp_answers : list (res bool) := fst (@session ascii_rt ex_g dp_queries sm_a).
Definition dp_lines : nat := List.length (w_out (snd (@session ascii_rt ex_g dp_queries sm_a))) - List.length (w_out sm_a).
Lemma dp_words g w ps w' ps' : @reached ascii_rt g w ps -> @reached ascii_rt g w' ps' -> (forall p, In p ps <-> In p ps') ->
  exists G G', @stored ascii_rt g G w /\ @stored ascii_rt g G' w' /\ same_words G G'.
Proof.
  intros A B P. destruct (reached_inv ascii_data _ _ _ A) as (G & S & L & N & _). destruct (reached_inv ascii_data _ _ _ B) as (G' & S' & L' & N' & _).
  exists G, G'. split; [exact S|]. split; [exact S'|]. split; intros s.
  - rewrite L, L'. split; intros (p & x & I & X); exists p, x; (split; [apply P; exact I|exact X]).
  - rewrite N, N'. split; intros (p & x & I & X); exists p, x; (split; [apply P; exact I|exact X]).
Qed.
Example C83_hypotheses : rt_data ascii_rt /\ w_fs sm_a <> w_fs sm_b /\
  (exists G G', @stored ascii_rt ex_g G sm_a /\ @stored ascii_rt ex_g G' sm_b /\ same_words G G') /\
  dp_answers = [Ok true; Err AttributeError; Ok true; Ok true] /\ dp_lines = 1.
Proof.
  destruct C82_hypotheses as (A & B & P & _ & D). split; [exact ascii_data|]. split; [exact D|]. split; [exact (dp_words _ _ _ _ _ A B P)|].
  split; vm_compute; reflexivity.
Qed.
Example C83_twice_example : let q := py "MAKE (:Ant)-[:EATS]->(:Bee);" ++ nl ++ py "FIND (:Cow);" in
  let r := run (@query ascii_rt q ex_g) ex_w in let r2 := run (@query ascii_rt q ex_g) (snd r) in
  fst r = Ok true /\ fst r2 = Ok true /\ w_out (snd r2) = w_out ex_w ++ [NO_RESULTS; NO_RESULTS].
Proof. vm_compute. repeat split. Qed.
(** What is true of one query is false of two: sending the same series again can print other things.  Here the FIND finds
    something at first and nothing when it is sent again after the MAKE. *)
Definition dp_series : list pystr :=
  [py "FIND (a:Person)-[:IN]->(b:City)-[:IN]->(c:City);"; py "MAKE (:Person)-[:IN]->(:City);" ++ nl ++ py "FIND (:Person);"].
Definition dp_first : list (res bool) * world := @session ascii_rt ex_g dp_series ex_made.
Definition dp_second : list (res bool) * world := @session ascii_rt ex_g dp_series (snd dp_first).
Theorem C83_series_twice_refuted : exists out1 out2, w_out (snd dp_first) = w_out ex_made ++ out1 /\ w_out (snd dp_second) = w_out (snd dp_first) ++ out2 /\
  (forall r, In r (fst dp_first ++ fst dp_second) -> r = Ok true) /\ out1 <> out2.
Proof.
  exists [], [NO_RESULTS]. split; [vm_compute; reflexivity|]. split; [vm_compute; reflexivity|]. split; [|discriminate].
  intros r H. assert (E : fst dp_first ++ fst dp_second = [Ok true; Ok true; Ok true; Ok true]) by (vm_compute; reflexivity). rewrite E in H.
  repeat (destruct H as [<-|H]; [reflexivity|]). destruct H.
Qed.
Print Assumptions C83_series_twice_refuted.
