(** * DependFacts: answers depend only on the labels and names in the indexes (C83) *)
From Verif Require Import PyBase BaseFacts Json SpecJson RtLaws Props Statements PatternFacts Data FS FSFacts Store SpecStore Make SpecMake MakeFacts MakeRun
  MakeMore MakeFinal Find SpecFind HistoryFacts FindFacts Query QueryFacts SpecSplit SplitFacts SpecSound SoundFacts ShiftFacts SpecDepend.
From Coq Require Import ZifyBool ZifyN ZifyNat.

Section Depend.
  Context {rt : PyRt} (data : rt_data rt).

  (** ** the entries for the same patterns, numbered differently, can be written or cannot *)
  Lemma link_ser l l' v v' : lk_piece l = lk_piece l' -> link_value l v -> link_value l' v' -> ser v = ser v'.
  Proof using.
    intros E (pv & P & ->) (pv' & P' & ->). rewrite E in *. unfold props_value in *. destruct (get_property_dict (p_props (lk_piece l'))) as [[d|]|]; subst; try contradiction; reflexivity.
  Qed.
  Lemma links_ser ls ls' : map lk_piece ls = map lk_piece ls' -> forall vs vs', Forall2 link_value ls vs -> Forall2 link_value ls' vs' -> forallb ser vs = forallb ser vs'.
  Proof using.
    revert ls'; induction ls as [|l ls IH]; intros [|l' ls'] E vs vs' F F'; try discriminate; inv F; inv F'; [reflexivity|]. cbn [map] in E. injection E as E1 E2.
    cbn [forallb]. rewrite (link_ser l l' y y0) by assumption. f_equal. eapply IH; eassumption.
  Qed.
  Lemma node_ser p w n x v w' n' v' : map lk_piece (owned p w n) = map lk_piece (owned p w' n') -> node_value p w n x v -> node_value p w' n' x v' -> ser v = ser v'.
  Proof using.
    intros E (pv & rs & P & F & ->) (pv' & rs' & P' & F' & ->). pose proof (links_ser _ _ E _ _ F F') as Q.
    assert (pv = pv') by (unfold props_value in *; destruct (get_property_dict (p_props x)) as [[d|]|]; subst; try contradiction; reflexivity). subst pv'.
    assert (L : ser (match rs with [] => VNone | _ => VList rs end) = ser (match rs' with [] => VNone | _ => VList rs' end)).
    { destruct rs, rs'; exact Q. }
    cbn [ser forallb snd]. rewrite L. reflexivity.
  Qed.
  Lemma owned_shift p w k n : map lk_piece (owned p (w + k) (n + k)) = map lk_piece (owned p w n).
  Proof using.
    unfold owned, links, between_nodes, num_rel2, num_rel1, num_right, num_middle, num_left.
    destruct (drawn (left_middle_rel p)), (drawn (middle_right_rel p)), (points_right (left_middle_rel p)), (points_right (middle_right_rel p)); cbn [app filter lk_from];
      repeat match goal with |- context [Z.eqb ?a ?b] => destruct (Z.eqb_spec a b); try lia end; reflexivity.
  Qed.
  Lemma stored_shift p w k : stored_nodes p (w + k) = map (fun nx => ((fst nx + k)%Z, snd nx)) (stored_nodes p w).
  Proof using.
    unfold stored_nodes, num_left, num_middle. destruct (drawn (middle_node p)); cbn [map fst snd]; [|reflexivity]. do 3 f_equal. lia.
  Qed.
  Lemma entries_ser p w k a b : entries p w a -> entries p (w + k) b -> dict_ser a = dict_ser b.
  Proof using.
    unfold entries. rewrite stored_shift. generalize (stored_nodes p w). intros l A. revert b. induction A as [|[n x] kv l a [_ V] A IH]; intros b B; inv B; [reflexivity|].
    unfold dict_ser in *. cbn [forallb]. f_equal; [|apply IH; assumption]. match goal with H : _ /\ _ |- _ => destruct H as [_ V'] end. cbn [fst snd] in *.
    eapply node_ser; [symmetry; apply owned_shift|exact V|exact V'].
  Qed.
  Lemma entries_all_ser ps : forall w k a b, entries_all ps w a -> entries_all ps (w + k) b -> dict_ser a = dict_ser b.
  Proof using.
    induction ps as [|p ps IH]; intros w k a b; cbn [entries_all]; [intros -> ->; reflexivity|].
    intros (a1 & a2 & -> & A1 & A2) (b1 & b2 & -> & B1 & B2). unfold dict_ser in *. rewrite !forallb_app. f_equal; [eapply entries_ser; eassumption|].
    eapply (IH (w + size p)%Z k); [exact A2|]. replace (w + size p + k)%Z with (w + k + size p)%Z by lia. exact B2.
  Qed.

  (** ** MAKE on two graphs *)
  Lemma make_refused_how l g G w : stored g G w -> run (make l g) w =
    match (let? x := process_patterns (patterns_of l) (g_next G) in mapM make_nodes (snd x)) with
    | Err e => (Err e, w)
    | Ok nss => run (make l g) w
    end.
  Proof using.
    intros S. destruct (process_patterns (patterns_of l) (g_next G)) as [[z ms]|e] eqn:P; cbn [bind snd].
    - destruct (mapM make_nodes ms) as [nss|e] eqn:M; [reflexivity|]. unfold make. rewrite run_bind, (stored_counter _ _ _ S), run_bind, run_lift.
      unfold process_parsed_make_list. fold (patterns_of l). rewrite P, run_bind, run_lift, M. reflexivity.
    - unfold make. rewrite run_bind, (stored_counter _ _ _ S), run_bind, run_lift. unfold process_parsed_make_list. fold (patterns_of l). rewrite P. reflexivity.
  Qed.
  Lemma preparation_shift ps w w' : match (let? x := process_patterns ps w in mapM make_nodes (snd x)) with
      | Err e => (let? x := process_patterns ps w' in mapM make_nodes (snd x)) = Err e
      | Ok _ => exists nss, (let? x := process_patterns ps w' in mapM make_nodes (snd x)) = Ok nss
      end.
  Proof using.
    replace w' with (w + (w' - w))%Z by lia. rewrite sh_patterns. destruct (process_patterns ps w) as [[z ms]|e]; cbn [bind res_map snd fst]; [|reflexivity].
    rewrite sh_all_nodes. destruct (mapM make_nodes ms); cbn [res_map]; [eexists; reflexivity|reflexivity].
  Qed.
  Lemma acceptable_how ps w : (exists items, acceptable ps w items) <-> exists nss, (let? x := process_patterns ps w in mapM make_nodes (snd x)) = Ok nss.
  Proof using.
    destruct (prepare_spec ps w) as [(ms & nss & items & E1 & E2 & R)|(N & H)].
    - rewrite E1. cbn [bind snd]. rewrite E2. split; [eauto|]. intros _. exists items. split; apply R.
    - split; [intros A; contradiction|]. intros (nss & E). exfalso. destruct H as [(e & X)|(ms & e & X & Y)]; rewrite X in E; cbn [bind snd] in E; congruence.
  Qed.

  Lemma make_same l g G w g' G' w' : stored g G w -> stored g' G' w' -> Forall names_ok (patterns_of l) ->
    (exists e, run (make l g) w = (Err e, w) /\ run (make l g') w' = (Err e, w')) \/
    (exists e w1 w1', run (make l g) w = (Err e, w1) /\ run (make l g') w' = (Err e, w1') /\ corrupting (Err e) /\ w_out w1 = w_out w /\ w_out w1' = w_out w') \/
    exists G1 w1 G1' w1', run (make l g) w = (Ok true, w1) /\ run (make l g') w' = (Ok true, w1') /\ stored g G1 w1 /\ stored g' G1' w1' /\
      made (patterns_of l) G G1 /\ made (patterns_of l) G' G1' /\ w_out w1 = w_out w /\ w_out w1' = w_out w'.
  Proof using data.
    intros S S' N. pose proof (preparation_shift (patterns_of l) (g_next G) (g_next G')) as P.
    pose proof (make_refused_how l g G w S) as H. pose proof (make_refused_how l g' G' w' S') as H'.
    pose proof (acceptable_how (patterns_of l) (g_next G)) as A. pose proof (acceptable_how (patterns_of l) (g_next G')) as A'.
    destruct (let? x := process_patterns (patterns_of l) (g_next G) in mapM make_nodes (snd x)) as [nss|e].
    - destruct P as (nss' & P). rewrite P in *. clear H H'. destruct (proj2 A (ex_intro _ nss eq_refl)) as (it & Hit). destruct (proj2 A' (ex_intro _ nss' eq_refl)) as (it' & Hit').
      assert (Sr : dict_ser it = dict_ser it').
      { apply (entries_all_ser (patterns_of l) (g_next G) (g_next G' - g_next G)); [apply Hit|]. replace (g_next G + (g_next G' - g_next G))%Z with (g_next G') by lia. apply Hit'. }
      assert (O : (exists k z, owns (patterns_of l) (g_next G) k z) <-> exists k z, owns (patterns_of l) (g_next G') k z).
      { rewrite <- !owns_relationship by apply Hit. reflexivity. }
      destruct (make_cases data g G w S l N) as [(NA & _)|[(i & AC & Sr1 & E)|[(i & st & AC & Sr1 & O1 & F & E)|(i & G1 & w1 & AC & Sr1 & O1 & E & M & S1 & Ew & Edb)]]];
        [exfalso; apply NA; eauto|..];
        assert (i = it) by (eapply entries_all_fun; [apply AC|apply Hit]); subst i;
        destruct (make_cases data g' G' w' S' l N) as [(NA' & _)|[(i' & AC' & Sr1' & E')|[(i' & st' & AC' & Sr1' & O1' & F' & E')|(i' & G1' & w1' & AC' & Sr1' & O1' & E' & M' & S1' & Ew' & Edb')]]];
        try (exfalso; apply NA'; eauto; fail);
        (assert (i' = it') by (eapply entries_all_fun; [apply AC'|apply Hit'])); subst i'; try (exfalso; congruence).
      + right. left. exists TypeError. do 2 eexists. split; [exact E|]. split; [exact E'|]. split; [right; reflexivity|]. split; reflexivity.
      + right. left. exists JSONDecodeError. do 2 eexists. split; [exact E|]. split; [exact E'|]. split; [left; reflexivity|]. split; reflexivity.
      + exfalso. apply O in O1' as (k & z & X). exact (O1 k z X).
      + exfalso. apply O in O1 as (k & z & X). exact (O1' k z X).
      + right. right. exists G1, w1, G1', w1'. do 6 (split; [assumption|]). rewrite Ew, Ew'. split; reflexivity.
    - rewrite P in H'. left. exists e. auto.
  Qed.
  Lemma same_made ps G G' G1 G1' : same_words G G' -> made ps G G1 -> made ps G' G1' -> same_words G1 G1'.
  Proof using.
    intros [L N] M M'. split; intros s.
    - rewrite (md_labels _ _ _ M), (md_labels _ _ _ M'), L. reflexivity.
    - rewrite (md_names _ _ _ M), (md_names _ _ _ M'), N. reflexivity.
  Qed.

  (** ** FIND on two graphs *)
  Lemma find_same f g G w g' G' w' : stored g G w -> stored g' G' w' -> same_words G G' -> is_pattern (pf_pattern f) ->
    fst (run (find f g) w) = fst (run (find f g') w') /\
    exists out, w_out (snd (run (find f g) w)) = w_out w ++ out /\ w_out (snd (run (find f g') w')) = w_out w' ++ out.
  Proof using.
    intros S S' [EL EN] P.
    pose proof (find_outcome f g (g_ix G) w P (stored_index g G w S)) as O. pose proof (find_outcome f g' (g_ix G') w' P (stored_index g' G' w' S')) as O'. cbv zeta in O, O'.
    assert (KL : (exists s, asked_label (pf_pattern f) s /\ In s (ix_labels (g_ix G))) <-> (exists s, asked_label (pf_pattern f) s /\ In s (ix_labels (g_ix G')))).
    { split; intros (s & A & B); exists s; (split; [exact A|apply EL; exact B]). }
    assert (KN : (exists s, asked_name (pf_pattern f) s /\ In s (ix_names (g_ix G))) <-> (exists s, asked_name (pf_pattern f) s /\ In s (ix_names (g_ix G')))).
    { split; intros (s & A & B); exists s; (split; [exact A|apply EN; exact B]). }
    destruct O as [(F & K & E)|[(F & K & E)|(F & e & E)]]; destruct O' as [(F' & K' & E')|[(F' & K' & E')|(F' & e' & E')]]; try contradiction; try tauto.
    - rewrite E, E'. split; [reflexivity|]. exists []. rewrite !app_nil_r. split; reflexivity.
    - rewrite E, E'. split; [reflexivity|]. exists [NO_RESULTS]. split; reflexivity.
    - split; [|exists []; rewrite E, E', !app_nil_r; split; reflexivity].
      rewrite !run_find. rewrite run_find in E. destruct (process_parsed_find f) as [fp|x] eqn:PF; [|reflexivity]. exfalso.
      unfold process_parsed_find in PF. destruct (process_find (pf_pattern f) P) as [(FF & _)|(_ & y & EY)]; [contradiction|]. rewrite EY in PF. discriminate PF.
  Qed.

  (** ** queries *)
  Lemma query_same q g G w g' G' w' : stored g G w -> stored g' G' w' -> same_words G G' ->
    let r := run (query q g) w in let r' := run (query q g') w' in
    fst r = fst r' /\ (exists out, w_out (snd r) = w_out w ++ out /\ w_out (snd r') = w_out w' ++ out) /\
    (corrupting (fst r) \/ exists G1 G1', stored g G1 (snd r) /\ stored g' G1' (snd r') /\ same_words G1 G1').
  Proof using data.
    intros S S' W. cbv zeta.
    destruct (parse_query_string q) as [pq|e] eqn:P.
    2:{ rewrite (parse_error_no_effect q g w _ P), (parse_error_no_effect q g' w' _ P). cbn [fst snd]. split; [reflexivity|]. split; [exists []; rewrite !app_nil_r; auto|].
        right. exists G, G'. auto. }
    unfold parse_query_string in P. destruct (parse_make q) as [m|] eqn:EM; cbn [bind] in P; [|discriminate].
    destruct (parse_find q) as [[f|]|] eqn:EF; cbn [bind] in P; try discriminate.
    destruct (parse_report q (pattern_handles (pf_pattern f))) as [rp|] eqn:ER; cbn [bind] in P; [|discriminate]. clear P.
    pose proof (parse_find_is_pattern q f EF) as PF.
    destruct m as [l|].
    - pose proof (parsed_names_ok data q l EM) as N.
      destruct (make_then_find q g w l f rp EM EF ER) as (_ & H1 & H2 & H3). destruct (make_then_find q g' w' l f rp EM EF ER) as (_ & H1' & H2' & H3').
      destruct (make_same l g G w g' G' w' S S' N) as [(e & E & E')|[(e & w1 & w1' & E & E' & C & O & O')|(G1 & w1 & G1' & w1' & E & E' & S1 & S1' & M & M' & O & O')]].
      + rewrite (H1 _ _ E), (H1' _ _ E'). cbn [fst snd]. split; [reflexivity|]. split; [exists []; rewrite !app_nil_r; auto|]. right. exists G, G'. auto.
      + rewrite (H1 _ _ E), (H1' _ _ E'). cbn [fst snd]. split; [reflexivity|]. split; [exists []; rewrite !app_nil_r; auto|]. left. exact C.
      + pose proof (same_made _ _ _ _ _ W M M') as W1. destruct (find_same f g G1 w1 g' G1' w1' S1 S1' W1 PF) as (R & out & Q & Q').
        pose proof (find_files f g w1) as FF. pose proof (find_files f g' w1') as FF'.
        destruct (run (find f g) w1) as [[r|e] w2] eqn:RF; destruct (run (find f g') w1') as [[r'|e'] w2'] eqn:RF'; cbn [fst snd] in *; try discriminate.
        * rewrite (H3 _ _ _ _ E RF), (H3' _ _ _ _ E' RF'). cbn [fst snd]. split; [reflexivity|]. split; [exists out; rewrite Q, Q', O, O'; auto|].
          right. exists G1, G1'. split; [eapply stored_fs; eassumption|]. split; [eapply stored_fs; eassumption|exact W1].
        * destruct (H2 _ _ _ _ E RF) as [X ->]. destruct (H2' _ _ _ _ E' RF') as [X' ->]. cbn [fst snd]. split; [congruence|].
          split; [exists []; rewrite !app_nil_r; auto|]. right. exists G1, G1'. auto.
    - rewrite (find_alone q g w f rp EM EF ER), (find_alone q g' w' f rp EM EF ER). destruct (find_same f g G w g' G' w' S S' W PF) as (R & out & Q & Q').
      pose proof (find_files f g w) as FF. pose proof (find_files f g' w') as FF'.
      destruct (run (find f g) w) as [[r|e] w2] eqn:RF; destruct (run (find f g') w') as [[r'|e'] w2'] eqn:RF'; cbn [fst snd] in *; try discriminate;
        (split; [congruence|]); (split; [exists out; auto|]); right; exists G, G'; (split; [eapply stored_fs; eassumption|]); (split; [eapply stored_fs; eassumption|exact W]).
  Qed.

  Lemma until_damage_stop r rs : corrupting r -> until_damage (r :: rs) = [r].
  Proof using. intros [-> | ->]; reflexivity. Qed.
  Lemma until_damage_go r rs : ~ corrupting r -> until_damage (r :: rs) = r :: until_damage rs.
  Proof using. intros C. cbn [until_damage]. destruct r as [b|e]; [reflexivity|]. destruct e; try reflexivity; exfalso; apply C; [left|right]; reflexivity. Qed.
  Lemma corrupting_dec r : corrupting r \/ ~ corrupting r.
  Proof using. destruct r as [b|e]; [right; intros [X|X]; discriminate|]. destruct e; try (right; intros [X|X]; discriminate); left; [left|right]; reflexivity. Qed.

  Theorem sessions_same g g' qs : forall G w G' w', stored g G w -> stored g' G' w' -> same_words G G' ->
    until_damage (fst (session g qs w)) = until_damage (fst (session g' qs w')).
  Proof using data.
    induction qs as [|q qs IH]; intros G w G' w' S S' W; cbn [session]; [reflexivity|].
    destruct (query_same q g G w g' G' w' S S' W) as (E & _ & K). destruct (run (query q g) w) as [r w1], (run (query q g') w') as [r' w1']. cbn [fst snd] in *. subst r'.
    destruct (session g qs w1) as [rs w2] eqn:ES. destruct (session g' qs w1') as [rs' w2'] eqn:ES'. cbn [fst].
    destruct (corrupting_dec r) as [C|C]; [rewrite !until_damage_stop by exact C; reflexivity|]. destruct K as [K|(G1 & G1' & S1 & S1' & W1)]; [contradiction|].
    rewrite !until_damage_go by exact C. f_equal. specialize (IH G1 w1 G1' w1' S1 S1' W1). rewrite ES, ES' in IH. exact IH.
  Qed.
  Theorem sessions_print_same g g' qs : forall G w G' w', stored g G w -> stored g' G' w' -> same_words G G' ->
    (forall r, In r (fst (session g qs w)) -> ~ corrupting r) ->
    fst (session g qs w) = fst (session g' qs w') /\
    (exists out, w_out (snd (session g qs w)) = w_out w ++ out /\ w_out (snd (session g' qs w')) = w_out w' ++ out) /\
    exists G1 G1', stored g G1 (snd (session g qs w)) /\ stored g' G1' (snd (session g' qs w')) /\ same_words G1 G1'.
  Proof using data.
    induction qs as [|q qs IH]; intros G w G' w' S S' W NC; cbn [session] in *.
    - cbn [fst snd]. split; [reflexivity|]. split; [exists []; rewrite !app_nil_r; auto|eauto].
    - destruct (query_same q g G w g' G' w' S S' W) as (E & (out & O & O') & K). destruct (run (query q g) w) as [r w1], (run (query q g') w') as [r' w1']. cbn [fst snd] in *. subst r'.
      destruct (session g qs w1) as [rs w2] eqn:ES. destruct (session g' qs w1') as [rs' w2'] eqn:ES'. cbn [fst snd] in *.
      destruct K as [K|(G1 & G1' & S1 & S1' & W1)]; [exfalso; exact (NC r (or_introl eq_refl) K)|].
      specialize (IH G1 w1 G1' w1' S1 S1' W1). rewrite ES, ES' in IH. cbn [fst snd] in IH.
      destruct (IH (fun r' H => NC r' (or_intror H))) as (E2 & (out2 & O2 & O2') & X). split; [congruence|]. split; [|exact X].
      exists (out ++ out2). rewrite O2, O2', O, O', !app_assoc. auto.
  Qed.
  (** ** the same query twice *)
  Theorem sent_twice q g G w : stored g G w -> let r := run (query q g) w in let r2 := run (query q g) (snd r) in
    ~ corrupting (fst r) -> fst r2 = fst r /\ exists out, w_out (snd r) = w_out w ++ out /\ w_out (snd r2) = w_out (snd r) ++ out.
  Proof using data.
    intros S. cbv zeta. intros NC.
    destruct (parse_query_string q) as [pq|e] eqn:P.
    2:{ rewrite !(parse_error_no_effect q g _ _ P). cbn [fst snd]. split; [reflexivity|]. exists []. rewrite !app_nil_r. auto. }
    unfold parse_query_string in P. destruct (parse_make q) as [m|] eqn:EM; cbn [bind] in P; [|discriminate].
    destruct (parse_find q) as [[f|]|] eqn:EF; cbn [bind] in P; try discriminate.
    destruct (parse_report q (pattern_handles (pf_pattern f))) as [rp|] eqn:ER; cbn [bind] in P; [|discriminate]. clear P.
    pose proof (parse_find_is_pattern q f EF) as PF. assert (W0 : forall H, same_words H H) by (intros H; split; intros s; reflexivity).
    destruct m as [l|].
    - pose proof (parsed_names_ok data q l EM) as N.
      destruct (make_then_find q g w l f rp EM EF ER) as (_ & H1 & H2 & H3).
      destruct (make_same l g G w g G w S S N) as [(e & E & _)|[(e & w1 & w1' & E & _ & C & _)|(G1 & w1 & _ & _ & E & _ & S1 & _ & M & _ & O & _)]].
      + rewrite (H1 _ _ E) in *. cbn [fst snd] in *. rewrite (H1 _ _ E). split; [reflexivity|]. exists []. rewrite !app_nil_r. auto.
      + rewrite (H1 _ _ E) in NC. contradiction.
      + assert (K : forall w2, stored g G1 w2 -> exists G2 w3, run (make l g) w2 = (Ok true, w3) /\ stored g G2 w3 /\ same_words G1 G2 /\ w_out w3 = w_out w2).
        { intros w2 S2. destruct (make_same l g G w g G1 w2 S S2 N) as [(e & X & _)|[(e & y & z & X & _)|(G1' & w1' & G2 & w3 & _ & X' & _ & S3 & _ & M2 & _ & O2)]]; try congruence.
          exists G2, w3. split; [exact X'|]. split; [exact S3|]. split; [|exact O2]. split; intros s.
          - rewrite (md_labels _ _ _ M2), (md_labels _ _ _ M). tauto.
          - rewrite (md_names _ _ _ M2), (md_names _ _ _ M). tauto. }
        pose proof (find_files f g w1) as FF. destruct (run (find f g) w1) as [[r|e] w2] eqn:RF; cbn [snd] in FF.
        * assert (S2 : stored g G1 w2) by (eapply stored_fs; eassumption). rewrite (H3 _ _ _ _ E RF). cbn [fst snd].
          destruct (K w2 S2) as (G2 & w3 & E2 & S3 & W & O2). destruct (find_same f g G1 w1 g G2 w3 S1 S3 W PF) as (R & out & Q & Q').
          destruct (make_then_find q g w2 l f rp EM EF ER) as (_ & _ & _ & H3'). rewrite RF in *. destruct (run (find f g) w3) as [[r'|e'] w4] eqn:RF2; cbn [fst snd] in *; [|discriminate].
          rewrite (H3' _ _ _ _ E2 RF2). cbn [fst snd]. split; [reflexivity|]. exists out. split; [rewrite Q, O; reflexivity|rewrite Q', O2; reflexivity].
        * destruct (H2 _ _ _ _ E RF) as [-> X]. rewrite X. cbn [fst snd].
          destruct (K w1 S1) as (G2 & w3 & E2 & S3 & W & O2). destruct (find_same f g G1 w1 g G2 w3 S1 S3 W PF) as (R & out & Q & Q').
          destruct (make_then_find q g w1 l f rp EM EF ER) as (_ & _ & H2' & _). rewrite RF in *. destruct (run (find f g) w3) as [[r'|e'] w4] eqn:RF2; cbn [fst snd] in *; [discriminate|].
          destruct (H2' _ _ _ _ E2 RF2) as [-> X']. rewrite X'. cbn [fst snd]. split; [congruence|]. exists []. rewrite !app_nil_r. auto.
    - rewrite (find_alone q g w f rp EM EF ER) in *. pose proof (find_files f g w) as FF.
      assert (S2 : stored g G (snd (run (find f g) w))) by (eapply stored_fs; eassumption).
      destruct (find_same f g G w g G (snd (run (find f g) w)) S S2 (W0 G) PF) as (R & out & Q & Q').
      destruct (run (find f g) w) as [[r|e] w2] eqn:RF; cbn [fst snd] in *; rewrite (find_alone q g w2 f rp EM EF ER); destruct (run (find f g) w2) as [[r'|e'] w3]; cbn [fst snd] in *; try discriminate;
        (split; [congruence|]); exists out; auto.
  Qed.
End Depend.
