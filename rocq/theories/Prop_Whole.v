(** * Prop_Whole: what is written is what is stored (C56, C57)

    [drawn_list], [statement_text], [now_contains] and the stored objects are in SpecWhole. *)
From Verif Require Import PyBase Json SpecText SpecPattern SpecGrammar SpecValue ValueMore RtLaws Checks Statements FS Store SpecStore Make SpecMake Find Query
  ChecksFacts SpecWhole WholeFacts WholeMore WholeQuery AsciiRt AsciiFacts Prop_Make Prop_Value.

(** ** C56 *)
Theorem C56_written_make_is_stored : forall (rt : PyRt), rt_data rt -> forall (g : gdbms) (G : graph) (w : world) (kw : pystr) (l : list (pystr * dpattern)),
  kw = py "MAKE" \/ kw = py "make" -> stored g G w -> drawn_list l -> (exists bp, In bp l /\ rels_in (snd bp) <> []) ->
  exists ms w' G', parse_make (statement_text kw l) = Ok (Some ms) /\ run (make ms g) w = (Ok true, w') /\
    stored g G' w' /\ now_contains l G G' /\ unchanged_but [database_fp g; indexes_fp g; wiggle_number_fp g] w w'.
Proof. exact @written_make. Qed.
Print Assumptions C56_written_make_is_stored.

(** ** C57 *)
Theorem C57_query_stores_and_answers : forall (rt : PyRt), rt_data rt -> forall (g : gdbms) (G : graph) (w : world) (kw : pystr) (l : list (pystr * dpattern))
    (kw' b : pystr) (a : dnode) (l' : list (pystr * dpattern)),
  kw = py "MAKE" \/ kw = py "make" -> kw' = py "FIND" \/ kw' = py "find" ->
  stored g G w -> drawn_list l -> (exists bp, In bp l /\ rels_in (snd bp) <> []) -> drawn_list ((b, One a) :: l') ->
  ~ Occurs (py "FIND") (statement_text kw l) -> ~ Occurs (py "MAKE") (statement_text kw' ((b, One a) :: l')) ->
  let q := join_lines [statement_text kw l; statement_text kw' ((b, One a) :: l')] in
  ~ AnagramLine (py "REPORT") q ->
  exists w' G', run (query q g) w = (Ok true, w') /\ stored g G' w' /\ now_contains l G G' /\
    (In (dn_label a) (ix_labels (g_ix G')) /\ w_out w' = w_out w \/
     ~ In (dn_label a) (ix_labels (g_ix G')) /\ w_out w' = w_out w ++ [NO_RESULTS]).
Proof. exact @written_query. Qed.
Print Assumptions C57_query_stores_and_answers.

(** ** Example data *)
Definition wh_items : list witem := firstn 5 ex_items ++ skipn 6 ex_items.
Definition wh_props : wprops := {| wp_items := wh_items; wp_blank := py " " |}.
Definition wh_since : wprops := {| wp_items := [item "since" (Scalar (SFrac (py "1") (py "50"))) ""]; wp_blank := [] |}.
Definition wh_node (h l : string) (o : option wprops) : dnode :=
  {| dn_s1 := []; dn_handle := py h; dn_s2 := []; dn_s3 := []; dn_label := py l; dn_s4 := []; dn_props := o; dn_s6 := [] |}.
Definition wh_rel : drel :=
  {| dr_right := false; dr_d1 := 1; dr_s1 := []; dr_handle := py "r"; dr_s2 := []; dr_s3 := []; dr_name := py "KNOWS"; dr_s4 := [];
     dr_props := Some wh_since; dr_d2 := 0 |}.
Definition wh_list : list (pystr * dpattern) :=
  [(py " ", Two (wh_node "a" "Man" (Some wh_props)) wh_rel (wh_node "b" "City" None)); (py " ", One (wh_node "" "Land" None))].
Example wh_text : statement_text (py "MAKE") wh_list =
  py "MAKE (a:Man{ n: 12 , x: 1.50, t: true, f: false, z: null , e: """", l: [1, 'a b', 2.5 , null] } )<--[r:KNOWS{ since: 1.50}]-(b:City), (:Land);".
Proof. reflexivity. Qed.
Lemma no_plus (s : pystr) : existsb (N.eqb 43) s = false -> ~ In 43%N s.
Proof. intros H I. rewrite <- Bool.not_true_iff_false, existsb_exists in H. apply H. exists 43%N. auto. Qed.
Lemma wh_incl i : In i wh_items -> In i ex_items.
Proof. unfold wh_items. intros H. cbn [firstn skipn ex_items app In] in *. tauto. Qed.
Example wh_props_drawn : @props_drawn ascii_rt wh_props.
Proof.
  constructor; cbn [wh_props wp_items wp_blank].
  - discriminate.
  - apply Forall_forall. intros i Hi. pose proof ex_items_written as H. rewrite Forall_forall in H. apply H, wh_incl, Hi.
  - apply Forall_forall. intros i Hi. pose proof ex_items_plain as H. pose proof ex_items_written as H'. rewrite Forall_forall in H, H'. apply plain_legal; [apply H', wh_incl, Hi|apply H, wh_incl, Hi].
  - vm_compute. repeat (apply NoDup_cons; [cbn; intuition discriminate|]). apply NoDup_nil.
  - blanks.
  - apply no_plus. reflexivity.
Qed.
Example wh_since_drawn : @props_drawn ascii_rt wh_since.
Proof.
  destruct ex_digits as (D12 & D1 & D50 & D2 & D5). constructor; cbn [wh_since wp_items wp_blank].
  - discriminate.
  - apply Forall_cons; [|apply Forall_nil]. constructor; cbn [item wi_s1 wi_s2 wi_s3 wi_s4 wi_key wi_val].
    + repeat (apply Forall_cons; [blanks|]). apply Forall_nil.
    + blanks.
    + discriminate.
    + exact (conj D1 D50).
    + intros [].
  - apply Forall_cons; [exact I|apply Forall_nil].
  - vm_compute. repeat constructor. intros [].
  - constructor.
  - apply no_plus. reflexivity.
Qed.
Lemma wh_node_drawn h l o : @Word ascii_rt (py h) -> @Word ascii_rt (py l) -> py l <> [] -> @some_drawn ascii_rt o -> @node_drawn ascii_rt (wh_node h l o).
Proof. intros H1 H2 H3 H4. constructor; cbn; auto. repeat (apply Forall_cons; [constructor|]). apply Forall_nil. Qed.
Example wh_drawn : @drawn_list ascii_rt wh_list.
Proof.
  assert (NO : @some_drawn ascii_rt None) by (intros q E; discriminate).
  constructor.
  - discriminate.
  - repeat (apply Forall_cons; [blanks|]). apply Forall_nil.
  - apply Forall_cons; [|apply Forall_cons; [|apply Forall_nil]]; cbn [snd nodes_in].
    + apply Forall_cons; [|apply Forall_cons; [|apply Forall_nil]]; apply wh_node_drawn; try blanks; try discriminate.
      intros q E. injection E as <-. exact wh_props_drawn.
    + apply Forall_cons; [|apply Forall_nil]. apply wh_node_drawn; [constructor|blanks|discriminate|exact NO].
  - apply Forall_cons; [|apply Forall_cons; [|apply Forall_nil]]; cbn [snd rels_in]; [|apply Forall_nil].
    apply Forall_cons; [|apply Forall_nil]. constructor; cbn.
    + repeat (apply Forall_cons; [constructor|]). apply Forall_nil.
    + blanks.
    + blanks.
    + reflexivity.
    + reflexivity.
    + right. reflexivity.
    + intros q E. injection E as <-. exact wh_since_drawn.
  - apply Forall_cons; [|apply Forall_cons; [|apply Forall_nil]]; vm_compute; repeat (apply NoDup_cons; [cbn; intuition discriminate|]); apply NoDup_nil.
  - intros H. vm_compute in H. repeat (destruct H as [H|H]; [discriminate|]). destruct H.
  - intros l' b p E. destruct l' as [|x [|y l']]; [discriminate| |destruct l'; discriminate]. injection E as _ _ <-. reflexivity.
Qed.
Example C56_example : exists ms w' G', @parse_make ascii_rt (statement_text (py "MAKE") wh_list) = Ok (Some ms) /\
  run (@make ascii_rt ms ex_g) ex_w = (Ok true, w') /\ @stored ascii_rt ex_g G' w' /\ @now_contains ascii_rt wh_list ex_G G'.
Proof.
  destruct (C56_written_make_is_stored ascii_rt ascii_data ex_g ex_G ex_w (py "MAKE") wh_list) as (ms & w' & G' & A & B & C & E & _).
  - left. reflexivity.
  - exact ex_stored.
  - exact wh_drawn.
  - eexists. split; [left; reflexivity|discriminate].
  - exists ms, w', G'. auto.
Qed.
(** and FIND (x:Sea); on a second line *)
Definition wh_find : list (pystr * dpattern) := [(py " ", One (wh_node "x" "Sea" None))].
Example C57_find_drawn : @drawn_list ascii_rt wh_find.
Proof.
  constructor.
  - discriminate.
  - repeat (apply Forall_cons; [blanks|]). apply Forall_nil.
  - apply Forall_cons; [|apply Forall_nil]. apply Forall_cons; [|apply Forall_nil]. apply wh_node_drawn; [blanks|blanks|discriminate|intros q E; discriminate].
  - apply Forall_cons; [apply Forall_nil|apply Forall_nil].
  - apply Forall_cons; [|apply Forall_nil]; vm_compute; repeat (apply NoDup_cons; [cbn; intuition discriminate|]); apply NoDup_nil.
  - intros H. vm_compute in H. repeat (destruct H as [H|H]; [discriminate|]). destruct H.
  - intros l' b p E. destruct l' as [|x l']; [|destruct l'; discriminate]. injection E as _ <-. reflexivity.
Qed.

Example C57_example : exists w' G', run (@query ascii_rt (join_lines [statement_text (py "MAKE") wh_list; py "FIND (x:Sea);"]) ex_g) ex_w = (Ok true, w') /\
  @stored ascii_rt ex_g G' w' /\ @now_contains ascii_rt wh_list ex_G G'.
Proof.
  destruct (C57_query_stores_and_answers ascii_rt ascii_data ex_g ex_G ex_w (py "MAKE") wh_list (py "FIND") (py " ") (wh_node "x" "Sea" None) []) as (w' & G' & A & B & C & _).
  - left. reflexivity.
  - left. reflexivity.
  - exact ex_stored.
  - exact wh_drawn.
  - eexists. split; [left; reflexivity|discriminate].
  - exact C57_find_drawn.
  - apply occurs_no. vm_compute. reflexivity.
  - apply occurs_no. vm_compute. reflexivity.
  - apply (anagram_no _ _ 80%N); [vm_compute; auto|vm_compute; reflexivity].
  - exists w', G'. auto.
Qed.
Example C57_example_output :
  w_out (snd (run (@query ascii_rt (join_lines [py "MAKE (a:Man)-[:KNOWS]->(b:City);"; py "FIND (x:Sea);"]) ex_g) ex_w)) = [NO_RESULTS] /\
  w_out (snd (run (@query ascii_rt (join_lines [py "MAKE (a:Man)-[:KNOWS]->(b:City);"; py "FIND (x:City);"]) ex_g) ex_w)) = [].
Proof. vm_compute. split; reflexivity. Qed.
