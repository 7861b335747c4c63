(** * Prop_Lines: what a query of several lines does and answers (C67)

    [query_drawn], [asks], [mentioned], [made], [hit] and [answers] are in SpecLines. *)
From Coq Require Import Lia.
From Verif Require Import PyBase Json SpecJson SpecText SpecPattern SpecGrammar SpecValue RtLaws Checks Statements FS Store SpecStore Make SpecMake Find Query
  ChecksFacts SpecWhole WholeFacts WholeMore WholeQuery SpecLines LinesFacts AsciiRt AsciiFacts Prop_Make Prop_Value Prop_Whole.

(** ** C67 *)
Theorem C67_lines_stored_then_answered : forall (rt : PyRt), rt_data rt -> forall (g : gdbms) (G : graph) (w : world) (ls : list qline) (p : dpattern),
  stored g G w -> query_drawn ls -> asks ls p ->
  made ls = [] \/ (exists bp, In bp (made ls) /\ rels_in (snd bp) <> []) -> mentioned ls p ->
  exists w1 G1, stored g G1 w1 /\ now_contains (made ls) G G1 /\
    unchanged_but [database_fp g; indexes_fp g; wiggle_number_fp g] w w1 /\ (made ls = [] -> w1 = w /\ G1 = G) /\
    answers p G1 w1 (run (query (query_text ls) g) w).
Proof. exact @lines_answered. Qed.
Print Assumptions C67_lines_stored_then_answered.

Theorem C67_unmentioned_handle_no_effect : forall (rt : PyRt), rt_data rt -> forall (g : gdbms) (w : world) (ls : list qline) (p : dpattern),
  query_drawn ls -> asks ls p -> ~ mentioned ls p ->
  run (query (query_text ls) g) w = (Err FindReportHandleMissmatch, w).
Proof. exact @handle_missing. Qed.
Print Assumptions C67_unmentioned_handle_no_effect.

(** MAKE lines without any relationship: the nodes are written, the index becomes unreadable, the query raises *)
Theorem C67_lone_nodes_break_the_graph : forall (rt : PyRt), rt_data rt -> forall (g : gdbms) (G : graph) (w : world) (ls : list qline) (p : dpattern),
  stored g G w -> query_drawn ls -> asks ls p -> mentioned ls p ->
  made ls <> [] -> (forall bp, In bp (made ls) -> rels_in (snd bp) = []) ->
  exists items w', run (query (query_text ls) g) w = (Err JSONDecodeError, w') /\
    unchanged_but [database_fp g; indexes_fp g] w w' /\
    all_stored (map snd (made ls)) (g_next G) items /\ db_file (database_fp g) (g_db G ++ items) w' /\
    run (read_json (indexes_fp g)) w' = (Err JSONDecodeError, w') /\
    run (get_current_wiggle_number (wiggle_number_fp g)) w' = (Ok (g_next G), w').
Proof. exact @lone_nodes_lost. Qed.
Print Assumptions C67_lone_nodes_break_the_graph.

(** ** Examples *)
Definition li_rel (right : bool) (h n : string) : drel :=
  {| dr_right := right; dr_d1 := 0; dr_s1 := []; dr_handle := py h; dr_s2 := []; dr_s3 := []; dr_name := py n; dr_s4 := []; dr_props := None; dr_d2 := 0 |}.
Definition li_node (h l : string) : dnode := wh_node h l None.
Definition li_make1 : list (pystr * dpattern) := [(py " ", Two (li_node "a" "Man") (li_rel true "" "KNOWS") (li_node "b" "City"))].
Definition li_make2 : list (pystr * dpattern) := [(py " ", Two (li_node "c" "Land") (li_rel false "" "IN") (li_node "d" "Man")); (py " ", One (li_node "" "Sea"))].
Definition li_make3 : list (pystr * dpattern) := [(py " ", One (li_node "" "Sea")); (py " ", One (li_node "" "Man"))].
Definition li_asked : dpattern := Three (li_node "x" "City") (li_rel true "r" "OWNS") (li_node "y" "Hut") (li_rel true "s" "") (li_node "z" "Sea").
Definition li_find : list (pystr * dpattern) := [([], li_asked)].
Definition li_query : list qline :=
  [ReportLine (py "REPORT x, r, y, s, z;"); MakeLine (py "make") li_make1; FindLine (py "FIND") li_find; MakeLine (py "MAKE") li_make2].
Example li_text : query_text li_query =
  py "REPORT x, r, y, s, z;" ++ 10%N :: py "make (a:Man)-[:KNOWS]->(b:City);" ++ 10%N ::
  py "FIND(x:City)-[r:OWNS]->(y:Hut)-[s:]->(z:Sea);" ++ 10%N :: py "MAKE (c:Land)<-[:IN]-(d:Man), (:Sea);".
Proof. reflexivity. Qed.
Lemma li_node_drawn h l : @Word ascii_rt (py h) -> @Word ascii_rt (py l) -> py l <> [] -> @node_drawn ascii_rt (li_node h l).
Proof. intros H1 H2 H3. apply wh_node_drawn; auto. intros q E. discriminate. Qed.
Lemma li_rel_drawn b h n : @Word ascii_rt (py h) -> @Word ascii_rt (py n) -> py n = [] \/ @str_isupper ascii_rt (py n) = true -> @rel_drawn ascii_rt (li_rel b h n).
Proof.
  intros H1 H2 H3. constructor; cbn; auto.
  - repeat (apply Forall_cons; [constructor|]). apply Forall_nil.
  - intros q E. discriminate.
Qed.
Tactic Notation "each" tactic(T) := repeat (apply Forall_cons; [T|]); apply Forall_nil.
Ltac li_drawn :=
  constructor;
  [ discriminate
  | each blanks
  | each (cbn [snd nodes_in li_asked]; each (apply li_node_drawn; [blanks|blanks|discriminate]))
  | each (cbn [snd rels_in li_asked]; each (apply li_rel_drawn; [blanks|blanks|first [left; reflexivity|right; reflexivity]]))
  | each (vm_compute; repeat (apply NoDup_cons; [cbn; intuition discriminate|]); apply NoDup_nil)
  | let H := fresh in intros H; vm_compute in H; repeat (destruct H as [H|H]; [discriminate|]); destruct H
  | intros l' b p E; apply (f_equal (fun l => last l ([], One (li_node "" "")))) in E; rewrite last_last in E; injection E as _ <-; reflexivity ].
Example li_make1_drawn : @drawn_list ascii_rt li_make1.
Proof. li_drawn. Qed.
Example li_make2_drawn : @drawn_list ascii_rt li_make2.
Proof. li_drawn. Qed.
Example li_make3_drawn : @drawn_list ascii_rt li_make3.
Proof. li_drawn. Qed.
Example li_find_drawn : @drawn_list ascii_rt li_find.
Proof. li_drawn. Qed.
Lemma one_report (ls : list qline) : length (filter (fun k => match clause_of k with REPORT => true | _ => false end) ls) <= 1 ->
  forall a x b y c, ls = a ++ x :: b ++ y :: c -> clause_of x = REPORT -> clause_of y <> REPORT.
Proof.
  intros H a x b y c -> X Y. rewrite filter_app, app_length in H. cbn [filter] in H. rewrite X in H. cbn [length] in H.
  rewrite filter_app, app_length in H. cbn [filter] in H. rewrite Y in H. cbn [length] in H. lia.
Qed.
Example li_query_drawn : @query_drawn ascii_rt li_query.
Proof.
  constructor.
  - unfold li_query. repeat (apply Forall_cons; [cbn [line_drawn]|]); [..|apply Forall_nil].
    + split; [|split; [intros H; vm_compute in H; intuition discriminate|left; eexists; reflexivity]].
      exists (py "REPORT"), (py " x, r, y, s, z"). repeat split; try (repeat constructor; fail); [discriminate|intros H; vm_compute in H; intuition discriminate].
    + split; [auto|exact li_make1_drawn].
    + split; [auto|exact li_find_drawn].
    + split; [auto|exact li_make2_drawn].
  - intros x c [<-|[<-|[<-|[<-|[]]]]] [<-|[<-|[<-|[]]]] N; cbn [clause_of] in N; try (exfalso; apply N; reflexivity); apply occurs_no; vm_compute; reflexivity.
  - intros c [<-|[<-|[<-|[]]]] H; exfalso.
    + apply (H (MakeLine (py "make") li_make1)); [right; left; reflexivity|reflexivity].
    + apply (H (FindLine (py "FIND") li_find)); [right; right; left; reflexivity|reflexivity].
    + apply (H (ReportLine (py "REPORT x, r, y, s, z;"))); [left; reflexivity|reflexivity].
  - apply one_report. cbn. auto.
Qed.
Example li_asks : asks li_query li_asked.
Proof.
  eexists [_; _], _, [], [], [_]. split; [reflexivity|]. intros x [<-|[<-|[<-|[]]]]; discriminate.
Qed.
Example li_mentioned : mentioned li_query li_asked.
Proof.
  intros t h I H. assert (t = py "REPORT x, r, y, s, z;") as -> by (destruct I as [I|[I|[I|[I|[]]]]]; congruence).
  cbn in H. repeat destruct H as [<-|H]; [| | | | |destruct H].
  - exists (py "REPORT "), (py ", r, y, s, z;"). reflexivity.
  - exists (py "REPORT x, "), (py ", y, s, z;"). reflexivity.
  - exists (py "REPORT x, r, "), (py ", s, z;"). reflexivity.
  - exists (py "REPORT x, r, y, "), (py ", z;"). reflexivity.
  - exists (py "REPORT x, r, y, s, "), (py ";"). reflexivity.
Qed.
(** the two relationships and the lone node are stored, and the FIND finds: City is there and OWNS is not *)
Example C67_example : exists w1 G1, @stored ascii_rt ex_g G1 w1 /\ @now_contains ascii_rt (li_make1 ++ li_make2) ex_G G1 /\
  run (@query ascii_rt (query_text li_query) ex_g) ex_w = (Ok true, w1).
Proof.
  destruct (C67_lines_stored_then_answered ascii_rt ascii_data ex_g ex_G ex_w li_query li_asked) as (w1 & G1 & S & N & _ & _ & A).
  - exact ex_stored.
  - exact li_query_drawn.
  - exact li_asks.
  - right. eexists. split; [left; reflexivity|discriminate].
  - exact li_mentioned.
  - exists w1, G1. split; [exact S|]. split; [exact N|]. destruct A as [[_ A]|[NH _]]; [exact A|]. exfalso. apply NH. split.
    + exists (li_node "x" "City"). split; [left; reflexivity|]. apply (nc_labels _ _ _ N). right. eexists _, (li_node "b" "City"). split; [left; reflexivity|]. split; [right; left; reflexivity|reflexivity].
    + intros (r & I & E & H). apply (nc_names _ _ _ N) in H as [H|(_ & bp & r' & Ib & Ir & X)]; [vm_compute in H; exact H|].
      destruct I as [<-|[<-|[]]]; [|apply E; reflexivity]. destruct Ib as [<-|[<-|[<-|[]]]]; cbn in Ir; intuition (subst; discriminate).
Qed.
(** with FIND and REPORT only, and a handle that is left out *)
Definition li_short : list qline := [FindLine (py "FIND") [([], One (li_node "x" "City"))]; ReportLine (py "REPORT y;")].
Example li_short_drawn : @query_drawn ascii_rt li_short.
Proof.
  constructor.
  - unfold li_short. repeat (apply Forall_cons; [cbn [line_drawn]|]); [..|apply Forall_nil].
    + split; [auto|]. li_drawn.
    + split; [|split; [intros H; vm_compute in H; intuition discriminate|left; eexists; reflexivity]].
      exists (py "REPORT"), (py " y"). repeat split; try (repeat constructor; fail); [discriminate|intros H; vm_compute in H; intuition discriminate].
  - intros x c [<-|[<-|[]]] [<-|[<-|[<-|[]]]] N; cbn [clause_of] in N; try (exfalso; apply N; reflexivity); apply occurs_no; vm_compute; reflexivity.
  - intros c [<-|[<-|[<-|[]]]] H.
    + apply (anagram_call_no _ _ 77%N); [vm_compute; auto|vm_compute; reflexivity].
    + exfalso. eapply H; [left; reflexivity|reflexivity].
    + exfalso. eapply H; [right; left; reflexivity|reflexivity].
  - apply one_report. cbn. auto.
Qed.
Example C67_unmentioned_example : run (@query ascii_rt (query_text li_short) ex_g) ex_w = (Err FindReportHandleMissmatch, ex_w).
Proof.
  apply (C67_unmentioned_handle_no_effect ascii_rt ascii_data ex_g ex_w li_short (One (li_node "x" "City"))).
  - exact li_short_drawn.
  - eexists [], _, [], [], [_]. split; [reflexivity|]. intros x [<-|[]]. discriminate.
  - intros M. destruct (M (py "REPORT y;") (py "x")) as (a & b & E); [right; left; reflexivity|left; reflexivity|].
    assert (H : In 120%N (py "REPORT y;")) by (rewrite E; rewrite !in_app_iff; right; left; left; reflexivity). vm_compute in H. intuition discriminate.
Qed.
(** a FIND alone *)
Definition li_alone : list qline := [FindLine (py "find") [([], One (li_node "x" "City"))]].
Example li_alone_drawn : @query_drawn ascii_rt li_alone.
Proof.
  constructor.
  - apply Forall_cons; [|apply Forall_nil]. cbn [line_drawn]. split; [auto|]. li_drawn.
  - intros x c [<-|[]] [<-|[<-|[<-|[]]]] N; cbn [clause_of] in N; try (exfalso; apply N; reflexivity); apply occurs_no; vm_compute; reflexivity.
  - intros c [<-|[<-|[<-|[]]]] H.
    + apply (anagram_call_no _ _ 77%N); [vm_compute; auto|vm_compute; reflexivity].
    + exfalso. eapply H; [left; reflexivity|reflexivity].
    + apply (anagram_no _ _ 80%N); [vm_compute; auto|vm_compute; reflexivity].
  - apply one_report. cbn. auto.
Qed.
Example C67_alone_example : run (@query ascii_rt (query_text li_alone) ex_g) ex_w = (Ok true, {| w_fs := w_fs ex_w; w_in := w_in ex_w; w_out := w_out ex_w ++ [NO_RESULTS] |}).
Proof.
  destruct (C67_lines_stored_then_answered ascii_rt ascii_data ex_g ex_G ex_w li_alone (One (li_node "x" "City"))) as (w1 & G1 & S & N & _ & E & A).
  - exact ex_stored.
  - exact li_alone_drawn.
  - eexists [], _, [], [], []. split; [reflexivity|]. intros x [].
  - left. reflexivity.
  - intros t h [I|[]]. discriminate.
  - destruct (E eq_refl) as [-> ->]. destruct A as [[((n & _ & H) & _) _]|[_ A]]; [vm_compute in H; destruct H|exact A].
Qed.
(** only lone nodes *)
Definition li_lone : list qline := [MakeLine (py "MAKE") li_make3; FindLine (py "FIND") [([], One (li_node "x" "City"))]].
Example li_lone_drawn : @query_drawn ascii_rt li_lone.
Proof.
  constructor.
  - unfold li_lone. repeat (apply Forall_cons; [cbn [line_drawn]|]); [..|apply Forall_nil].
    + split; [auto|exact li_make3_drawn].
    + split; [auto|]. li_drawn.
  - intros x c [<-|[<-|[]]] [<-|[<-|[<-|[]]]] N; cbn [clause_of] in N; try (exfalso; apply N; reflexivity); apply occurs_no; vm_compute; reflexivity.
  - intros c [<-|[<-|[<-|[]]]] H.
    + exfalso. eapply H; [left; reflexivity|reflexivity].
    + exfalso. eapply H; [right; left; reflexivity|reflexivity].
    + apply (anagram_no _ _ 80%N); [vm_compute; auto|vm_compute; reflexivity].
  - apply one_report. cbn. auto.
Qed.
Example C67_lone_example : exists w', run (@query ascii_rt (query_text li_lone) ex_g) ex_w = (Err JSONDecodeError, w').
Proof.
  destruct (C67_lone_nodes_break_the_graph ascii_rt ascii_data ex_g ex_G ex_w li_lone (One (li_node "x" "City"))) as (items & w' & A & _).
  - exact ex_stored.
  - exact li_lone_drawn.
  - eexists [_], _, [], [], []. split; [reflexivity|]. intros x [<-|[]]. discriminate.
  - intros t h [I|[I|[]]]; discriminate.
  - discriminate.
  - intros bp [<-|[<-|[]]]; reflexivity.
  - eauto.
Qed.
