(** * Prop_Order: the order of the lines of a query; one query or several (C84)

    [rearranged], [linking] and [two_nodes] are in SpecOrder; [query_drawn], [asks] and [mentioned] in SpecLines; [session] in SpecSound; [same_graph] in
    SpecSplit. *)
From Verif Require Import PyBase Json SpecJson SpecText SpecPattern SpecGrammar SpecValue RtLaws Checks Statements FS Store SpecStore Make SpecMake Find Query
  ChecksFacts SpecWhole WholeFacts WholeMore WholeQuery SpecLines LinesFacts SpecSplit SpecSound SpecOrder OrderFacts AsciiRt AsciiFacts Prop_Make Prop_Value Prop_Whole Prop_Lines.

(** where the FIND line and the REPORT line stand among the MAKE lines does not matter, on any disk *)
Theorem C84_order_of_lines : forall (rt : PyRt) (g : gdbms) (w : world) (ls ls' : list qline),
  query_drawn ls -> query_drawn ls' -> rearranged ls ls' ->
  run (query (query_text ls) g) w = run (query (query_text ls') g) w.
Proof. exact @order_of_lines. Qed.
Print Assumptions C84_order_of_lines.
(** MAKE lines with a relationship each can be sent in one query or in one query for each of them: all succeed, and the graph
    is the same in the end *)
Theorem C84_one_query_or_several : forall (rt : PyRt), rt_data rt -> forall (g : gdbms) (G : graph) (w : world) (mks rest : list qline) (p : dpattern),
  stored g G w -> mks <> [] -> Forall linking mks -> (forall x, In x rest -> clause_of x <> MAKE) ->
  query_drawn (mks ++ rest) -> Forall (fun m => query_drawn (m :: rest)) mks -> asks rest p -> mentioned rest p -> ~ two_nodes p ->
  let one := run (query (query_text (mks ++ rest)) g) w in
  let several := session g (map (fun m => query_text (m :: rest)) mks) w in
  fst one = Ok true /\ Forall (eq (Ok true)) (fst several) /\ same_graph g (snd one) (snd several) /\
  (forall q, ~ In q [database_fp g; indexes_fp g; wiggle_number_fp g] -> fs_get q (w_fs (snd one)) = fs_get q (w_fs (snd several))).
Proof. exact @one_or_several. Qed.
Print Assumptions C84_one_query_or_several.

(** ** Examples *)
Definition od_m1 : qline := MakeLine (py "make") li_make1.
Definition od_m2 : qline := MakeLine (py "MAKE") li_make2.
Definition od_f : qline := FindLine (py "FIND") li_find.
Definition od_r : qline := ReportLine (py "REPORT x, r, y, s, z;").
Lemma od_line x : In x [od_m1; od_m2; od_f; od_r] -> @line_drawn ascii_rt x /\
  forall c, In c [MAKE; FIND; REPORT] -> clause_of x <> c -> ~ @Occurs ascii_rt (keyword c) (line_text x).
Proof.
  intros H. split.
  - pose proof (qd_lines _ li_query_drawn) as L. unfold li_query in L. rewrite Forall_forall in L. apply L. cbn [In] in *. unfold od_m1, od_m2, od_f, od_r in H. tauto.
  - intros c Hc N. apply (qd_apart _ li_query_drawn x c); try assumption. cbn [In] in *. unfold li_query, od_m1, od_m2, od_f, od_r in *. cbn [In]. tauto.
Qed.
Lemma od_drawn ls : (forall x, In x ls -> In x [od_m1; od_m2; od_f; od_r]) -> forallb (fun c => existsb (of_clause c) ls) [MAKE; FIND; REPORT] = true ->
  length (filter (fun k => match clause_of k with REPORT => true | _ => false end) ls) <= 1 -> @query_drawn ascii_rt ls.
Proof.
  intros H A R. constructor.
  - apply Forall_forall. intros x I. apply od_line, H, I.
  - intros x c I. apply od_line, H, I.
  - intros c Hc N. exfalso. rewrite forallb_forall in A. specialize (A c Hc). apply existsb_exists in A as (x & I & E). apply same_clause_true in E. exact (N x I E).
  - apply one_report. exact R.
Qed.
Ltac od := apply od_drawn;
  [ intros x I; cbn [In app] in *; tauto
  | reflexivity
  | cbn; auto ].
Example C84_order_hypotheses : @query_drawn ascii_rt [od_r; od_m1; od_f; od_m2] /\ @query_drawn ascii_rt [od_m1; od_m2; od_f; od_r] /\
  rearranged [od_r; od_m1; od_f; od_m2] [od_m1; od_m2; od_f; od_r] /\
  query_text [od_r; od_m1; od_f; od_m2] <> query_text [od_m1; od_m2; od_f; od_r].
Proof.
  split; [od|]. split; [od|]. split; [|discriminate]. intros c [<-|[<-|[<-|[]]]]; reflexivity.
Qed.
Example C84_several_hypotheses : rt_data ascii_rt /\ @stored ascii_rt ex_g ex_G ex_w /\ Forall linking [od_m1; od_m2] /\ (forall x, In x [od_f; od_r] -> clause_of x <> MAKE) /\
  @query_drawn ascii_rt ([od_m1; od_m2] ++ [od_f; od_r]) /\ Forall (fun m => @query_drawn ascii_rt (m :: [od_f; od_r])) [od_m1; od_m2] /\
  asks [od_f; od_r] li_asked /\ mentioned [od_f; od_r] li_asked /\ ~ two_nodes li_asked.
Proof.
  split; [exact ascii_data|]. split; [exact ex_stored|]. split.
  { constructor; [|constructor; [|constructor]]; do 3 eexists; (split; [reflexivity|]); (split; [left; reflexivity|discriminate]). }
  split; [intros x [<-|[<-|[]]]; discriminate|]. split; [od|]. split; [constructor; [od|constructor; [od|constructor]]|].
  split; [|split; [|exact (fun H => H)]].
  - eexists [], _, [], [], [_]. split; [reflexivity|]. intros x [<-|[]]. discriminate.
  - intros t h I H. apply (li_mentioned t h); [|exact H]. unfold li_query. cbn [In] in *. unfold od_r, od_f in I. destruct I as [I|[I|[]]]; [discriminate|]. left. exact I.
Qed.
(** Lines of the same kind cannot be swapped: two MAKE lines in the other order give the nodes other numbers. *)
Definition od_after (ls : list qline) : world := snd (run (@query ascii_rt (query_text ls) ex_g) ex_w).
Definition od_db (ls : list qline) : option entry := fs_get (database_fp ex_g) (w_fs (od_after ls)).
Theorem C84_order_of_makes_refuted : @query_drawn ascii_rt [od_m1; od_m2; od_f; od_r] /\ @query_drawn ascii_rt [od_m2; od_m1; od_f; od_r] /\
  od_db [od_m1; od_m2; od_f; od_r] <> od_db [od_m2; od_m1; od_f; od_r].
Proof. split; [od|]. split; [od|]. vm_compute. discriminate. Qed.
Print Assumptions C84_order_of_makes_refuted.
