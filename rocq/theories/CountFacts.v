(** * CountFacts: proofs for C88 *)
From Verif Require Import PyBase Json SpecJson RtLaws Regex RegexSpec Patterns SpecText SpecPattern SpecGrammar Statements FS Store SpecStore Make SpecMake
  MakeFacts MakeMore MakeFinal MakeRun PatternFacts GrammarFacts PatternCount SpecCount AsciiRt Prop_Pattern Prop_Make.

Lemma Forall2_same {A B} (R : A -> B -> Prop) l m : Forall2 R l m -> List.length l = List.length m.
Proof. induction 1; cbn; congruence. Qed.
Lemma bool_text_drawn x : bool_text (p_text x) = one (drawn x).
Proof. unfold drawn. destruct (p_text x) as [[|a t]|]; reflexivity. Qed.
Lemma show_node_drawn n : drawn (read_node n) = true.
Proof. reflexivity. Qed.
Lemma show_rel_drawn r : drawn (read_rel r) = true.
Proof. unfold drawn, read_rel, show_rel. cbn. destruct (wr_lt r); reflexivity. Qed.

Section CountFacts.
  Context {rt : PyRt}.
  Lemma count_read p : number_of_nodes (read_pattern p) = nodes_written p /\ number_of_relationships (read_pattern p) = rels_written p.
  Proof.
    unfold number_of_nodes, number_of_relationships. rewrite !bool_text_drawn.
    destruct p; cbn [read_pattern left_node left_middle_rel middle_node middle_right_rel right_node];
      rewrite ?show_node_drawn, ?show_rel_drawn; split; reflexivity.
  Qed.
  Lemma repr_read p : pattern_repr (read_pattern p) = line_written p.
  Proof. unfold pattern_repr. destruct (count_read p) as [-> ->]. destruct p; reflexivity. Qed.

  Lemma written_counts (H : rt_ok rt) kw l : Word kw -> good_list l ->
    map number_of_nodes (pattern_matches (show_statement kw l)) = map (fun bp => nodes_written (snd bp)) l /\
    map number_of_relationships (pattern_matches (show_statement kw l)) = map (fun bp => rels_written (snd bp)) l /\
    map pattern_repr (pattern_matches (show_statement kw l)) = map (fun bp => line_written (snd bp)) l.
  Proof.
    intros K G. rewrite (C09_patterns_read rt H kw l K G), !map_map.
    repeat split; apply map_ext; intros [b p]; cbn; [apply count_read|apply count_read|apply repr_read].
  Qed.

  Lemma counts_bounded p : (0 <= number_of_nodes p <= 3)%Z /\ (0 <= number_of_relationships p <= 2)%Z.
  Proof.
    unfold number_of_nodes, number_of_relationships. rewrite !bool_text_drawn.
    destruct (drawn (left_node p)), (drawn (middle_node p)), (drawn (right_node p)), (drawn (left_middle_rel p)), (drawn (middle_right_rel p)); cbn; lia.
  Qed.

  Lemma maybe_none (P : piece -> pystr -> Prop) x t : (forall x t, P x t -> drawn x = true) -> maybe P x t -> drawn x = false -> t = [].
  Proof. intros HP [H|[_ E]] D; [apply HP in H; congruence|exact E]. Qed.
  Lemma nothing_counted p t : PatternText p t -> number_of_nodes p = 0%Z -> number_of_relationships p = 0%Z -> all_space t.
  Proof.
    unfold number_of_nodes, number_of_relationships. rewrite !bool_text_drawn.
    intros (b1 & t1 & b2 & t2 & b3 & t3 & b4 & t4 & b5 & t5 & E & S & M1 & M2 & M3 & M4 & M5) N R.
    assert (D : drawn (left_node p) = false /\ drawn (middle_node p) = false /\ drawn (right_node p) = false /\
                drawn (left_middle_rel p) = false /\ drawn (middle_right_rel p) = false).
    { destruct (drawn (left_node p)), (drawn (middle_node p)), (drawn (right_node p)), (drawn (left_middle_rel p)), (drawn (middle_right_rel p));
        cbn in N, R; try discriminate; auto. }
    destruct D as (D1 & D2 & D3 & D4 & D5).
    apply (maybe_none NodePiece) in M1; [|exact node_drawn|exact D1].
    apply (maybe_none RelPiece) in M2; [|exact rel_drawn|exact D4].
    apply (maybe_none NodePiece) in M3; [|exact node_drawn|exact D2].
    apply (maybe_none RelPiece) in M4; [|exact rel_drawn|exact D5].
    apply (maybe_none NodePiece) in M5; [|exact node_drawn|exact D3].
    subst. inversion S as [|? ? A1 S1]; subst. inversion S1 as [|? ? A2 S2]; subst. inversion S2 as [|? ? A3 S3]; subst.
    inversion S3 as [|? ? A4 S4]; subst. inversion S4 as [|? ? A5 S5]; subst.
    unfold all_space in *. cbn [app]. rewrite app_nil_r. rewrite !Forall_app. repeat (split; [assumption|]). assumption.
  Qed.
  Lemma piece_not_blank p t : PatternText p t -> all_space t -> number_of_nodes p = 0%Z /\ number_of_relationships p = 0%Z.
  Proof.
    unfold number_of_nodes, number_of_relationships. rewrite !bool_text_drawn.
    intros (b1 & t1 & b2 & t2 & b3 & t3 & b4 & t4 & b5 & t5 & -> & S & M1 & M2 & M3 & M4 & M5) A. unfold all_space in A. rewrite !Forall_app in A.
    destruct A as (_ & A1 & _ & A2 & _ & A3 & _ & A4 & _ & A5).
    assert (HN : forall x t, maybe NodePiece x t -> Forall (fun c => is_space c = true) t -> drawn x = false).
    { intros x t [(s1 & h & s2 & s3 & n & s4 & s5 & s6 & -> & _)|[H _]] B; [|exact (absent_drawn x H)].
      rewrite !Forall_app in B. destruct B as [B _]. inversion B as [|? ? C]. discriminate C. }
    assert (HR : forall x t, maybe RelPiece x t -> Forall (fun c => is_space c = true) t -> drawn x = false).
    { intros x t [(lt & d1 & s1 & h & s2 & co & s3 & n & s4 & s5 & d2 & gt & s6 & -> & _)|[H _]] B; [|exact (absent_drawn x H)].
      rewrite !Forall_app in B. destruct B as (_ & _ & B & _). inversion B as [|? ? C]. discriminate C. }
    rewrite (HN _ _ M1 A1), (HR _ _ M2 A2), (HN _ _ M3 A3), (HR _ _ M4 A4), (HN _ _ M5 A5). split; reflexivity.
  Qed.
  Lemma any_text stmt : Forall (fun p => (0 <= number_of_nodes p <= 3)%Z /\ (0 <= number_of_relationships p <= 2)%Z /\
      forall t, PatternText p t -> (number_of_nodes p = 0%Z /\ number_of_relationships p = 0%Z <-> all_space t)) (pattern_matches stmt).
  Proof.
    apply Forall_forall. intros p I. destruct (counts_bounded p) as [A B]. split; [exact A|]. split; [exact B|].
    intros t T. split; [intros [N R]; exact (nothing_counted p t T N R)|exact (piece_not_blank p t T)].
  Qed.

  Lemma left_drawn p : is_pattern p -> well_drawn p -> drawn (left_node p) = true.
  Proof.
    intros P W. pose proof (node_label p (left_node p) P (or_introl eq_refl)) as L.
    destruct (drawn (left_node p)); [reflexivity|]. destruct L as (_ & _ & L & _). destruct (wd_left p W L).
  Qed.
  Lemma size_count p : is_pattern p -> well_drawn p -> size p = (number_of_nodes p + number_of_relationships p)%Z.
  Proof.
    intros P W. unfold size, number_of_nodes, number_of_relationships. rewrite !bool_text_drawn, (left_drawn p P W). unfold one at 5. lia.
  Qed.
  Lemma size_all_count ps : Forall is_pattern ps -> Forall well_drawn ps ->
    size_all ps = (total number_of_nodes ps + total number_of_relationships ps)%Z.
  Proof.
    induction ps as [|p ps IH]; intros P W; [reflexivity|]. inversion P; inversion W; subst. cbn [size_all total].
    rewrite IH, size_count by assumption. lia.
  Qed.
  Lemma third_drawn p : third p = one (drawn (right_node p)).
  Proof. apply bool_text_drawn. Qed.
  Lemma entries_count ps : Forall is_pattern ps -> Forall well_drawn ps -> forall w items, entries_all ps w items ->
    Z.of_nat (List.length items) = (total number_of_nodes ps - total third ps)%Z.
  Proof.
    induction ps as [|p ps IH]; intros P W w items E; [rewrite E; reflexivity|]. inversion P; inversion W; subst.
    destruct E as (a & b & -> & A & B). rewrite app_length, Nat2Z.inj_add, (IH H2 H6 _ _ B). cbn [total].
    apply Forall2_same in A. rewrite <- A, third_drawn. unfold number_of_nodes. rewrite !bool_text_drawn, (left_drawn p) by assumption.
    unfold stored_nodes. destruct (drawn (middle_node p)); cbn [List.length one]; lia.
  Qed.

  Lemma make_counts g G w q l b w' : rt_data rt -> stored g G w -> parse_make q = Ok (Some l) -> run (make l g) w = (Ok b, w') ->
    exists items G', stored g G' w' /\ g_db G' = g_db G ++ items /\
      g_next G' = (g_next G + total number_of_nodes (patterns_of l) + total number_of_relationships (patterns_of l))%Z /\
      Z.of_nat (List.length items) = (total number_of_nodes (patterns_of l) - total third (patterns_of l))%Z.
  Proof.
    intros D S Q R. pose proof (C10_parsed_names rt D q l Q) as N.
    assert (P : Forall is_pattern (patterns_of l)) by (apply Forall_forall; intros p; apply (parse_make_is_pattern q l p Q)).
    destruct (C22_successful_make_effect rt g G w l b w' D S N R) as (_ & _ & items & [W E] & _ & _ & G' & S' & M & DB).
    exists items, G'. split; [exact S'|]. split; [exact DB|]. split; [|exact (entries_count _ P W _ _ E)].
    rewrite <- Z.add_assoc, <- (size_all_count _ P W). apply M.
  Qed.
End CountFacts.
