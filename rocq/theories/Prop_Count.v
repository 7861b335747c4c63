(** * Prop_Count: what a parsed pattern says about itself (C88)

    [pattern_matches s] are the patterns read from a statement, [number_of_nodes], [number_of_relationships] and
    [pattern_repr] the counts and the line a pattern shows.  [nodes_written], [rels_written], [line_written], [total] and
    [third] are in SpecCount. *)
From Verif Require Import PyBase Json RtLaws SpecText SpecPattern SpecGrammar Statements RegexFacts FS Store SpecStore Make SpecMake
  PatternCount SpecCount CountFacts AsciiRt AsciiFacts Prop_Pattern Prop_Make.

(** For every written statement the counts are those of what is written, pattern by pattern. *)
Theorem C88_written_counts : forall (rt : PyRt), rt_ok rt -> forall (kw : pystr) (l : list (pystr * wpattern)),
  Word kw -> good_list l ->
  map number_of_nodes (pattern_matches (show_statement kw l)) = map (fun bp => nodes_written (snd bp)) l /\
  map number_of_relationships (pattern_matches (show_statement kw l)) = map (fun bp => rels_written (snd bp)) l /\
  map pattern_repr (pattern_matches (show_statement kw l)) = map (fun bp => line_written (snd bp)) l.
Proof. exact @written_counts. Qed.
Print Assumptions C88_written_counts.

(** For every text: at most three and at most two, and nothing at all exactly for a run of white space ([PatternText p t]:
    the pattern is the reading of [t], which every pattern has, C10). *)
Theorem C88_any_text : forall (rt : PyRt) (stmt : pystr),
  Forall (fun p => (0 <= number_of_nodes p <= 3)%Z /\ (0 <= number_of_relationships p <= 2)%Z /\
            forall t, PatternText p t -> (number_of_nodes p = 0%Z /\ number_of_relationships p = 0%Z <-> all_space t)) (pattern_matches stmt).
Proof. exact @any_text. Qed.
Print Assumptions C88_any_text.

(** A successful MAKE takes as many numbers as nodes and relationships are counted, but stores fewer nodes: one less for
    each pattern with a third node. *)
Theorem C88_make_counts : forall (rt : PyRt) g G w q l b w',
  rt_data rt -> stored g G w -> parse_make q = Ok (Some l) -> run (make l g) w = (Ok b, w') ->
  exists items G', stored g G' w' /\ g_db G' = g_db G ++ items /\
    g_next G' = (g_next G + total number_of_nodes (patterns_of l) + total number_of_relationships (patterns_of l))%Z /\
    Z.of_nat (List.length items) = (total number_of_nodes (patterns_of l) - total third (patterns_of l))%Z.
Proof. exact @make_counts. Qed.
Print Assumptions C88_make_counts.

(** ** Examples *)
Example C88_example_written : @good_list ascii_rt ex_list /\
  map (fun bp => line_written (snd bp)) ex_list = [py "|ParsedPattern| Nodes: 2, Rels: 1"; py "|ParsedPattern| Nodes: 1, Rels: 0"].
Proof. split; [apply ex_written|reflexivity]. Qed.
(** A relationship alone, and a run of white space alone, are patterns without any node. *)
Theorem C88_always_a_node_refuted :
  map (fun p => (number_of_nodes p, number_of_relationships p)) (@pattern_matches ascii_rt (py "MAKE <-[:R]-;")) = [(0, 1)]%Z /\
  map (fun p => (number_of_nodes p, number_of_relationships p)) (@pattern_matches ascii_rt (py "MAKE x(:A);")) = [(0, 0); (1, 0)]%Z.
Proof. vm_compute. auto. Qed.
Print Assumptions C88_always_a_node_refuted.
(** Three nodes are counted, two are stored. *)
Theorem C88_counted_are_stored_refuted : let '(r, w') := @run bool (@make ascii_rt ex_three ex_g) ex_w in
  r = Ok true /\ total number_of_nodes (patterns_of ex_three) = 3%Z /\
  match fst (run (@load_database ascii_rt (database_fp ex_g)) w') with Ok (VDict d) => List.length d = 2 | _ => False end.
Proof. vm_compute. auto. Qed.
Print Assumptions C88_counted_are_stored_refuted.
Example C88_hypotheses_make : exists q w', @parse_make ascii_rt q = Ok (Some ex_three) /\
  @run bool (@make ascii_rt ex_three ex_g) ex_w = (Ok true, w') /\ @stored ascii_rt ex_g ex_G ex_w.
Proof.
  eexists (py "MAKE (:Person)-[:KNOWS]->(:City)-[:IN]->(:Land);"), _. split; [vm_compute; reflexivity|].
  split; [vm_compute; reflexivity|exact ex_stored].
Qed.
