(** * SoundFacts: proofs about database, index and counter (C58) *)
From Verif Require Import PyBase BaseFacts Json JsonFacts SpecJson RtLaws Props PropsFacts Checks Statements PatternFacts Data FS FSFacts Store
  SpecStore StoreFacts Make SpecMake MakeFacts MakeRun MakeMore MakeFinal Find FindFacts Query QueryFacts HistoryFacts SpecSound.
From Coq Require Import ZifyBool ZifyN ZifyNat.

Section SoundFacts.
  Context {rt : PyRt}.

  Lemma node_fields p w n x v : node_value p w n x v -> node_number v = [n] /\ field (py "node_label") v = Some (name_value x).
  Proof. intros (pv & rels & _ & _ & ->). split; reflexivity. Qed.
  Lemma link_number l r : link_value l r -> rel_number r = [lk_num l].
  Proof. intros (pv & _ & ->). reflexivity. Qed.
  Lemma node_rel_numbers p w n x v : node_value p w n x v -> flat_map rel_number (relations v) = map lk_num (owned p w n).
  Proof.
    intros V. apply relations_node in V. induction V as [|l r ls rs L F IH]; [reflexivity|]. cbn [flat_map map]. rewrite (link_number _ _ L), IH. reflexivity.
  Qed.
  Definition pattern_numbers (p : pattern) (w : Z) : list Z := flat_map (fun nx => fst nx :: map lk_num (owned p w (fst nx))) (stored_nodes p w).
  Lemma entries_numbers p w items : entries p w items -> all_numbers items = pattern_numbers p w.
  Proof.
    unfold entries, all_numbers, pattern_numbers. intros F. induction F as [|nx kv l items [E V] F IH]; [reflexivity|].
    cbn [flat_map]. rewrite (proj1 (node_fields _ _ _ _ _ V)), (node_rel_numbers _ _ _ _ _ V), IH. reflexivity.
  Qed.
  Lemma pattern_numbers_ok p w : NoDup (pattern_numbers p w) /\ forall z, In z (pattern_numbers p w) -> (w <= z < w + size p)%Z.
  Proof.
    unfold pattern_numbers, stored_nodes, owned, links, between_nodes, size, num_rel2, num_rel1, num_right, num_middle, num_left.
    destruct (drawn (middle_node p)), (drawn (right_node p)), (drawn (left_middle_rel p)), (drawn (middle_right_rel p)),
      (points_right (left_middle_rel p)), (points_right (middle_right_rel p)); cbn [one app flat_map fst filter lk_from];
      repeat match goal with |- context [Z.eqb ?a ?b] => destruct (Z.eqb_spec a b); try lia end;
      cbn [map lk_num app]; (split; [repeat (apply NoDup_cons; [cbn [In]; lia|]); apply NoDup_nil|intros z; cbn [In]; lia]).
  Qed.

  Lemma NoDup_two {A} (l m : list A) : NoDup l -> NoDup m -> (forall x, In x l -> ~ In x m) -> NoDup (l ++ m).
  Proof.
    induction l as [|x l IH]; intros L M X; [exact M|]. inv L. cbn [app]. apply NoDup_cons.
    - rewrite in_app_iff. intros [H|H]; [contradiction|]. apply (X x); [left; reflexivity|exact H].
    - apply IH; auto. intros y Hy. apply X. right. exact Hy.
  Qed.
  Lemma all_numbers_app a b : all_numbers (a ++ b) = all_numbers a ++ all_numbers b.
  Proof. apply flat_map_app. Qed.
  Lemma entries_all_numbers ps : forall w items, entries_all ps w items ->
    NoDup (all_numbers items) /\ forall z, In z (all_numbers items) -> (w <= z < w + size_all ps)%Z.
  Proof.
    induction ps as [|p ps IH]; intros w items; cbn [entries_all size_all].
    - intros ->. split; [apply NoDup_nil|intros z []].
    - intros (a & b & -> & A & B). apply IH in B as [B1 B2]. apply entries_numbers in A. destruct (pattern_numbers_ok p w) as [P1 P2].
      rewrite <- A in P1, P2. pose proof (size_pos p). pose proof (size_all_pos ps). rewrite all_numbers_app. split.
      + apply NoDup_two; auto. intros z Hz Hz'. apply P2 in Hz. apply B2 in Hz'. lia.
      + intros z. rewrite in_app_iff. intros [Hz|Hz]; [apply P2 in Hz|apply B2 in Hz]; lia.
  Qed.

  Lemma owns_split ps : forall w k z, owns ps w k z <->
    exists ps1 p ps2 n x l, ps = ps1 ++ p :: ps2 /\ In (n, x) (stored_nodes p (w + size_all ps1)) /\ k = str_of_Z n /\
      In l (owned p (w + size_all ps1) n) /\ z = lk_num l.
  Proof.
    induction ps as [|p ps IH]; intros w k z; cbn [owns].
    - split; [intros []|]. intros (ps1 & p & ps2 & n & x & l & E & _). destruct ps1; discriminate.
    - rewrite IH. split.
      + intros [(n & x & l & H)|(ps1 & q & ps2 & n & x & l & -> & H)].
        * exists [], p, ps, n, x, l. cbn [size_all]. rewrite Z.add_0_r. split; [reflexivity|exact H].
        * exists (p :: ps1), q, ps2, n, x, l. cbn [size_all]. rewrite Z.add_assoc. split; [reflexivity|exact H].
      + intros ([|q ps1] & r & ps2 & n & x & l & E & H); inv E; cbn [size_all] in H.
        * left. rewrite Z.add_0_r in H. exists n, x, l. exact H.
        * right. exists ps1, r, ps2, n, x, l. rewrite Z.add_assoc in H. split; [reflexivity|exact H].
  Qed.
  Lemma link_shift p w : map lk_piece (links p w) = map lk_piece (links p 0).
  Proof.
    unfold links, between_nodes. destruct (drawn (left_middle_rel p)), (drawn (middle_right_rel p)), (points_right (left_middle_rel p)), (points_right (middle_right_rel p)); reflexivity.
  Qed.

  Theorem made_sound ps G G' : made ps G G' -> sound G -> sound G'.
  Proof.
    intros [(items & E & Db) R L N X] [S1 S2 S3 S4 S5 S6]. pose proof (entries_all_split _ _ _ E) as Sp.
    assert (IR : forall k z, owns ps (g_next G) k z <-> exists v r, In (k, v) items /\ In r (relations v) /\ rel_number r = [z]).
    { intros k z. rewrite owns_split. split.
      - intros (ps1 & p & ps2 & n & x & l & -> & Hx & -> & Hl & ->).
        assert (HI : exists v, In (str_of_Z n, v) items /\ node_value p (g_next G + size_all ps1) n x v).
        { clear - E Hx. revert items E Hx. generalize (g_next G). induction ps1 as [|q ps1 IH]; intros w items E Hx; cbn [app entries_all size_all] in *.
          - rewrite Z.add_0_r in *. destruct E as (a & b & -> & A & _). destruct (Forall2_in_l _ _ _ A (n, x) Hx) as ([k v] & Hv & E' & V).
            cbn [fst snd] in *. subst k. exists v. split; [apply in_app_iff; left; exact Hv|exact V].
          - destruct E as (a & b & -> & _ & B). rewrite Z.add_assoc in *. destruct (IH _ _ B Hx) as (v & Hv & V). exists v. split; [apply in_app_iff; right; exact Hv|exact V]. }
        destruct HI as (v & Hv & V). apply relations_node in V. destruct (Forall2_in_l _ _ _ V l Hl) as (r & Hr & Lr).
        exists v, r. split; [exact Hv|]. split; [exact Hr|]. apply link_number. exact Lr.
      - intros (v & r & Hv & Hr & Nr). apply Sp in Hv as (ps1 & p & ps2 & n & x & -> & Hx & Ek & V). cbn [fst snd] in *.
        apply relations_node in V. destruct (Forall2_in_r _ _ _ V r Hr) as (l & Hl & Lr). rewrite (link_number _ _ Lr) in Nr. inv Nr.
        exists ps1, p, ps2, n, x, l. auto. }
    constructor.
    - intros k z. rewrite R, S1, IR, Db. split.
      + intros [(v & r & H & H')|(v & r & H & H')]; exists v, r; rewrite in_app_iff; auto.
      + intros (v & r & H & H'). apply in_app_iff in H as [H|H]; [left|right]; exists v, r; auto.
    - intros k v s H F. rewrite L. rewrite Db in H. apply in_app_iff in H as [H|H]; [left; eauto|right]. eapply entries_all_labels; eassumption.
    - intros k v r s H Hr F. rewrite N. rewrite Db in H. apply in_app_iff in H as [H|H]; [destruct (S3 _ _ _ _ H Hr F); auto|].
      apply Sp in H as (ps1 & p & ps2 & n & x & -> & Hx & Ek & V). cbn [fst snd] in *. apply relations_node in V.
      destruct (Forall2_in_r _ _ _ V r Hr) as (l & Hl & Lr). apply link_fields in Lr as (_ & F' & _). rewrite F in F'. unfold name_value in F'.
      destruct (p_label (lk_piece l)) as [s'|] eqn:P; [|discriminate]. inv F'. destruct s' as [|c s']; [left; reflexivity|]. right. right.
      apply filter_In in Hl as [Hl _]. apply (in_map lk_piece) in Hl. rewrite link_shift in Hl. apply in_map_iff in Hl as (l' & E' & Hl).
      exists p, l'. split; [apply in_app_iff; right; left; reflexivity|]. split; [exact Hl|]. rewrite E', P. split; [reflexivity|discriminate].
    - intros k v H. rewrite Db in H. apply in_app_iff in H as [H|H]; [eauto|].
      apply Sp in H as (ps1 & p & ps2 & n & x & -> & Hx & Ek & V). cbn [fst snd] in *. exists n. split; [exact Ek|].
      split; [apply (node_fields _ _ _ _ _ V)|]. intros r Hr. apply relations_node in V. destruct (Forall2_in_r _ _ _ V r Hr) as (l & Hl & Lr).
      split; [|exists (lk_num l); apply link_number; exact Lr]. apply link_fields in Lr as (_ & _ & F & _). rewrite F.
      apply filter_In in Hl as [_ Hl]. apply Z.eqb_eq in Hl. congruence.
    - rewrite Db, all_numbers_app. destruct (entries_all_numbers _ _ _ E) as [E1 E2]. apply NoDup_two; auto.
      intros z Hz Hz'. apply S6 in Hz. apply E2 in Hz'. lia.
    - intros z. rewrite Db, all_numbers_app, in_app_iff, X. destruct (entries_all_numbers _ _ _ E) as [_ E2]. pose proof (size_all_pos ps).
      intros [Hz|Hz]; [apply S6 in Hz|apply E2 in Hz]; lia.
  Qed.

  Theorem empty_sound G : empty_graph G -> sound G.
  Proof.
    intros (E1 & E2 & E3 & E4). constructor.
    - intros k z. rewrite E1, E2. split; [intros []|intros (v & r & [] & _)].
    - intros k v s. rewrite E1. intros [].
    - intros k v r s. rewrite E1. intros [].
    - intros k v. rewrite E1. intros [].
    - rewrite E1. apply NoDup_nil.
    - intros z. rewrite E1. intros [].
  Qed.

  (** one query on a stored graph: nothing changes, or a MAKE was carried out, or one of the two exceptions came out *)
  Lemma query_step (D : rt_data rt) g G w q : stored g G w -> let r := fst (run (query q g) w) in let w' := snd (run (query q g) w) in
    corrupting r \/ stored g G w' \/ exists ps G', made ps G G' /\ stored g G' w'.
  Proof.
    intros S. cbv zeta.
    destruct (parse_query_string q) as [pq|e] eqn:P; [|rewrite (parse_error_no_effect _ _ _ _ P); right; left; exact S].
    unfold parse_query_string in P. destruct (parse_make q) as [m|] eqn:EM; cbn [bind] in P; [|discriminate].
    destruct (parse_find q) as [[f|]|] eqn:EF; cbn [bind] in P; try discriminate.
    destruct (parse_report q (pattern_handles (pf_pattern f))) as [rp|] eqn:ER; cbn [bind] in P; [|discriminate].
    destruct m as [l|].
    - destruct (make_then_find q g w l f rp EM EF ER) as (_ & H1 & H2 & H3). pose proof (parsed_names_ok D q l EM) as N.
      destruct (run (make l g) w) as [[b|e] w1] eqn:RM.
      + destruct (make_ok_effect rt g G w l b w1 D S N RM) as (-> & _ & items & _ & _ & _ & G' & S' & M & _).
        pose proof (find_files f g w1) as FF. destruct (run (find f g) w1) as [[r|e] w2] eqn:RF; cbn [snd] in FF.
        * rewrite (H3 true w1 r w2 eq_refl RF). cbn [fst snd]. right. right. exists (patterns_of l), G'. split; [exact M|]. eapply stored_fs; eassumption.
        * destruct (H2 true w1 e w2 eq_refl RF) as [-> ->]. cbn [fst snd]. right. right. exists (patterns_of l), G'. auto.
      + rewrite (H1 e w1 eq_refl). cbn [fst snd].
        destruct (make_cases D g G w S l N) as [(_ & e' & E)|[(items & AC & Sr & E)|[(items & st & AC & Sr & O & F & E)|(items & G' & w2 & AC & Sr & O & E & _)]]];
          rewrite E in RM; inv RM; [right; left; exact S|left; right; reflexivity|left; left; reflexivity].
    - rewrite (find_alone q g w f rp EM EF ER). pose proof (find_files f g w) as FF.
      destruct (run (find f g) w) as [[r|e] w2] eqn:RF; cbn [fst snd] in *; right; left; eapply stored_fs; eassumption.
  Qed.

  Theorem session_sound (D : rt_data rt) g qs : forall G w, stored g G w -> sound G ->
    (forall r, In r (fst (session g qs w)) -> ~ corrupting r) ->
    exists G' more, stored g G' (snd (session g qs w)) /\ sound G' /\ g_db G' = g_db G ++ more /\ (g_next G <= g_next G')%Z.
  Proof.
    induction qs as [|q qs IH]; intros G w S So H; cbn [session] in *.
    - exists G, []. rewrite app_nil_r. cbn [snd]. auto using Z.le_refl.
    - pose proof (query_step D g G w q S) as ST. cbv zeta in ST. destruct (run (query q g) w) as [r w1]. cbn [fst snd] in ST.
      destruct (session g qs w1) as [rs w2] eqn:ES. cbn [fst snd] in *.
      assert (H' : forall r', In r' rs -> ~ corrupting r') by (intros r' Hr; apply H; right; exact Hr).
      destruct ST as [C|[S1|(ps & G1 & M & S1)]]; [destruct (H r (or_introl eq_refl) C)| |].
      + specialize (IH G w1 S1 So). rewrite ES in IH. exact (IH H').
      + specialize (IH G1 w1 S1 (made_sound _ _ _ M So)). rewrite ES in IH. destruct (IH H') as (G' & more & A & B & C & X). cbn [snd] in A.
        destruct M as [(items & _ & Db) _ _ _ Nx]. pose proof (size_all_pos ps). exists G', (items ++ more). rewrite app_assoc, <- Db.
        split; [exact A|]. split; [exact B|]. split; [exact C|lia].
  Qed.
End SoundFacts.
