(** * Prop_Find: what FIND answers (C36-C41)

    [findable], [asked_label], [asked_name], [found], [nothing_found], [reached] are in SpecFind. *)
From Verif Require Import PyBase SpecText SpecPattern SpecGrammar Json SpecJson RtLaws Props Checks Statements PatternFacts AcceptFacts AcceptMore FS Store SpecStore Make SpecMake Find Query
  SpecFind FindFacts QueryFacts AsciiRt AsciiFacts Prop_Make Prop_Pattern.

(** ** Example data *)
Definition ex_find (q : string) : parsed_find :=
  match @parse_find ascii_rt (py q) with Ok (Some f) => f | _ => {| pf_raw := []; pf_pattern := blank_pattern; pf_handles := [] |} end.
Definition ex_made : world := snd (@run bool (@make ascii_rt ex_two ex_g) ex_w).
Lemma ex_reached : @reached ascii_rt ex_g ex_made (patterns_of ex_two).
Proof.
  change (patterns_of ex_two) with ([] ++ patterns_of ex_two).
  eapply (reached_make ex_g ex_w [] ex_two true); [eapply reached_empty; [apply ex_stored|reflexivity..]|apply ex_two_names|vm_compute; reflexivity].
Qed.

(** ** C36 *)
Theorem C36_two_node_find_raises : forall (rt : PyRt) f g w,
  is_pattern (pf_pattern f) -> drawn (middle_node (pf_pattern f)) = true -> drawn (right_node (pf_pattern f)) = false ->
  run (find f g) w = (Err ValidationError, w) \/
  exists x e, In x [left_node (pf_pattern f); middle_node (pf_pattern f)] /\
    get_property_dict (p_props x) = Err e /\ run (find f g) w = (Err e, w).
Proof. exact @two_node_find. Qed.
Print Assumptions C36_two_node_find_raises.
Theorem C36_two_node_query_fails : forall (rt : PyRt) q f g w, parse_find q = Ok (Some f) ->
  drawn (middle_node (pf_pattern f)) = true -> drawn (right_node (pf_pattern f)) = false ->
  exists e, fst (run (query q g) w) = Err e.
Proof. exact @two_node_query. Qed.
Print Assumptions C36_two_node_query_fails.
(** every parsed FIND has a pattern in this sense *)
Theorem C36_parsed_patterns : forall (rt : PyRt) q f, parse_find q = Ok (Some f) -> is_pattern (pf_pattern f).
Proof. exact @parse_find_is_pattern. Qed.
Print Assumptions C36_parsed_patterns.
Example C36_example : exists f, @parse_find ascii_rt (py "FIND (a:Person)-[:KNOWS]->(b:City);") = Ok (Some f) /\
  drawn (middle_node (pf_pattern f)) = true /\ drawn (right_node (pf_pattern f)) = false /\
  run (@find ascii_rt f ex_g) ex_made = (Err ValidationError, ex_made).
Proof. exists (ex_find "FIND (a:Person)-[:KNOWS]->(b:City);"). vm_compute. repeat split. Qed.

(** ** C38 (before C37, which uses it): the outcome of every FIND *)
Theorem C38_find_outcome : forall (rt : PyRt) f g ix w, is_pattern (pf_pattern f) -> index_file (indexes_fp g) ix w ->
  let p := pf_pattern f in
  let label_known := exists s, asked_label p s /\ In s (ix_labels ix) in
  let name_known := exists s, asked_name p s /\ In s (ix_names ix) in
  (findable p /\ (label_known /\ ~ name_known) /\ run (find f g) w = found w) \/
  (findable p /\ ~ (label_known /\ ~ name_known) /\ run (find f g) w = nothing_found w) \/
  (~ findable p /\ exists e, run (find f g) w = (Err e, w)).
Proof. exact @find_outcome. Qed.
Print Assumptions C38_find_outcome.
(** in terms of what was made: a name that was never made is found, one that was made is not *)
Theorem C38_made_names_are_not_found : forall (rt : PyRt), rt_data rt -> forall g w ps f,
  reached g w ps -> is_pattern (pf_pattern f) -> findable (pf_pattern f) ->
  ((exists s, asked_label (pf_pattern f) s /\ label_drawn ps s) -> (forall s, asked_name (pf_pattern f) s -> ~ name_drawn ps s) ->
   run (find f g) w = found w) /\
  (forall s, asked_name (pf_pattern f) s -> name_drawn ps s -> run (find f g) w = nothing_found w).
Proof. exact @reached_outcome. Qed.
Print Assumptions C38_made_names_are_not_found.
(** MAKE (:Person)-[:KNOWS]->(:City); then FIND of a relationship that is there, and of one that is not *)
Example C38_example :
  run (@find ascii_rt (ex_find "FIND (a:Person)-[:KNOWS]->(b:City)-[:KNOWS]->(c:City);") ex_g) ex_made = nothing_found ex_made /\
  run (@find ascii_rt (ex_find "FIND (a:Person)-[:HATES]->(b:City)-[:HATES]->(c:City);") ex_g) ex_made = found ex_made.
Proof. vm_compute. split; reflexivity. Qed.
Example C38_hypotheses : exists ix, index_file (indexes_fp ex_g) ix ex_made /\ In (py "Person") (ix_labels ix) /\ In (py "KNOWS") (ix_names ix) /\
  findable (rt := ascii_rt) (pf_pattern (ex_find "FIND (a:Person)-[:HATES]->(b:City)-[:HATES]->(c:City);")).
Proof.
  destruct (reached_inv ascii_data _ _ _ ex_reached) as (G & S & HL & HN & _). exists (g_ix G). split; [exact (@stored_index ascii_rt _ _ _ S)|].
  split; [|split].
  - apply HL. vm_compute. eexists _, _. split; [left; reflexivity|]. split; [left; reflexivity|reflexivity].
  - apply HN. vm_compute. eexists _, _. split; [left; reflexivity|]. split; [left; reflexivity|]. repeat split; discriminate.
  - constructor; try (vm_compute; reflexivity).
    + intros _. split; [|left; vm_compute; reflexivity]. vm_compute. intuition discriminate.
    + intros _. split; [|vm_compute; reflexivity]. vm_compute. intuition discriminate.
    + eexists. vm_compute. reflexivity.
    + intros x [<-|[<-|[<-|[]]]] _; eexists; vm_compute; reflexivity.
Qed.

(** ** C37 *)
Theorem C37_stored_label_found : forall (rt : PyRt), rt_data rt -> forall g w ps f d k v s,
  reached g w ps -> is_pattern (pf_pattern f) -> alone (pf_pattern f) -> meaning (left_node (pf_pattern f)) ->
  run (load_database (database_fp g)) w = (Ok (VDict d), w) -> In (k, v) d -> field (py "node_label") v = Some (VStr s) ->
  p_label (left_node (pf_pattern f)) = Some s -> run (find f g) w = found w.
Proof. exact @stored_label_found. Qed.
Print Assumptions C37_stored_label_found.
Theorem C37_unknown_label_not_found : forall (rt : PyRt), rt_data rt -> forall g w ps f,
  reached g w ps -> is_pattern (pf_pattern f) -> findable (pf_pattern f) ->
  (forall s, asked_label (pf_pattern f) s -> ~ label_drawn ps s) -> run (find f g) w = nothing_found w.
Proof. exact @unknown_label_not_found. Qed.
Print Assumptions C37_unknown_label_not_found.
(** The converse of the first is false: the label of the right node of a three-node MAKE, which is never
    stored, is found. *)
Theorem C37_found_is_stored_refuted : exists l w f,
  run (@make ascii_rt l ex_g) ex_w = (Ok true, w) /\ run (@find ascii_rt f ex_g) w = found w /\
  alone (pf_pattern f) /\ p_label (left_node (pf_pattern f)) = Some (py "Land") /\
  exists d, run (@load_database ascii_rt (database_fp ex_g)) w = (Ok (VDict d), w) /\
    map (fun kv => field (py "node_label") (snd kv)) d = [Some (VStr (py "Person")); Some (VStr (py "City"))].
Proof.
  exists ex_three. eexists. exists (ex_find "FIND (x:Land);"). split; [vm_compute; reflexivity|]. split; [vm_compute; reflexivity|].
  split; [vm_compute; repeat split|]. split; [reflexivity|]. eexists. vm_compute. split; reflexivity.
Qed.
Print Assumptions C37_found_is_stored_refuted.
Example C37_example :
  run (@find ascii_rt (ex_find "FIND (a:City);") ex_g) ex_made = found ex_made /\
  run (@find ascii_rt (ex_find "FIND (a:Land);") ex_g) ex_made = nothing_found ex_made.
Proof.
  split.
  - destruct (fst (run (@load_database ascii_rt (database_fp ex_g)) ex_made)) as [v|e] eqn:E; [|vm_compute in E; discriminate].
    vm_compute in E. injection E as E.
    refine (C37_stored_label_found ascii_rt ascii_data ex_g ex_made _ _ _ _ _ (py "City") ex_reached _ _ _ _ _ _ _).
    + eapply (C36_parsed_patterns ascii_rt (py "FIND (a:City);")). vm_compute. reflexivity.
    + vm_compute. repeat split.
    + eexists. vm_compute. reflexivity.
    + vm_compute. reflexivity.
    + right. left. reflexivity.
    + vm_compute. reflexivity.
    + reflexivity.
  - refine (C37_unknown_label_not_found ascii_rt ascii_data ex_g ex_made _ _ ex_reached _ _ _).
    + eapply (C36_parsed_patterns ascii_rt (py "FIND (a:Land);")). vm_compute. reflexivity.
    + constructor; try (vm_compute; reflexivity); try (vm_compute; discriminate).
      * eexists. vm_compute. reflexivity.
      * intros x [<-|[<-|[<-|[]]]] H; vm_compute in H; discriminate.
    + intros s (x & [<-|[]] & L) (p & y & HP & HY & LY). vm_compute in L. injection L as <-. vm_compute in HP. destruct HP as [<-|[]].
      vm_compute in HY. destruct HY as [<-|[<-|[]]]; vm_compute in LY; discriminate.
Qed.

(** ** C39 *)
Theorem C39_right_node_looked_up_wrongly : forall (rt : PyRt) f fp,
  is_pattern (pf_pattern f) -> process_parsed_find f = Ok fp -> drawn (middle_node (pf_pattern f)) = true ->
  exists n, fp_right fp = Some n /\ Some (fn_label n) = p_label (right_node (pf_pattern f)) /\
    fn_handle n = p_handle (middle_node (pf_pattern f)) /\
    get_property_dict (p_props (left_node (pf_pattern f))) = Ok (fn_yes n).
Proof. exact @right_looked_up. Qed.
Print Assumptions C39_right_node_looked_up_wrongly.
Theorem C39_right_node_ignored : forall (rt : PyRt) f f' g w,
  (exists x, pf_pattern f' = with_right (pf_pattern f) x /\ p_label x = p_label (right_node (pf_pattern f))) ->
  run (find f' g) w = run (find f g) w.
Proof. exact @right_ignored. Qed.
Print Assumptions C39_right_node_ignored.
Example C39_example : exists fp n, @process_parsed_find ascii_rt (ex_find "FIND (a:Person{x:1})-[:R]->(b:City{y:2})-[:S]->(c:Land{z:3});") = Ok fp /\
  fp_right fp = Some n /\ fn_handle n = Some (py "b") /\ fn_yes n = Some [(py "x", VInt 1)].
Proof. eexists _, _. split; [vm_compute; reflexivity|]. split; [reflexivity|]. split; reflexivity. Qed.
Example C39_example_ignored : exists x,
  pf_pattern (ex_find "FIND (a:Person)-[:R]->(b:City)-[:S]->(d:Land);") = with_right (pf_pattern (ex_find "FIND (a:Person)-[:R]->(b:City)-[:S]->(c:Land{z:3});")) x /\
  p_label x = p_label (right_node (pf_pattern (ex_find "FIND (a:Person)-[:R]->(b:City)-[:S]->(c:Land{z:3});"))) /\
  p_handle x = Some (py "d") /\ p_props x = None.
Proof. exists (right_node (pf_pattern (ex_find "FIND (a:Person)-[:R]->(b:City)-[:S]->(d:Land);"))). vm_compute. repeat split. Qed.

(** ** C40 *)
Theorem C40_first_pattern_decides : forall (rt : PyRt) q q' stmt stmt' f f' p l l',
  Extracted (Statement (py "FIND")) q [stmt] -> Extracted (Statement (py "FIND")) q' [stmt'] ->
  pattern_matches stmt = p :: l -> pattern_matches stmt' = p :: l' ->
  parse_find q = Ok (Some f) -> parse_find q' = Ok (Some f') ->
  forall g w, run (find f g) w = run (find f' g) w.
Proof. exact @first_pattern. Qed.
Print Assumptions C40_first_pattern_decides.
Theorem C40_written_patterns : forall (rt : PyRt), rt_ok rt -> forall (kw b : pystr) (p : wpattern) (l l' : list (pystr * wpattern)),
  kw = py "FIND" \/ kw = py "find" -> statement_written ((b, p) :: l) -> passes ((b, p) :: l) ->
  statement_written ((b, p) :: l') -> passes ((b, p) :: l') -> NoDup (given_handles (read_pattern p)) ->
  exists f f', parse_find (show_statement kw ((b, p) :: l)) = Ok (Some f) /\
    parse_find (show_statement kw ((b, p) :: l')) = Ok (Some f') /\
    forall g w, run (find f g) w = run (find f' g) w.
Proof. exact @written_first_pattern. Qed.
Print Assumptions C40_written_patterns.
Theorem C40_no_pattern_raises : forall (rt : PyRt) q stmt g w,
  Extracted (Statement (py "FIND")) q [stmt] -> pattern_matches stmt = [] ->
  (exists e, parse_find q = Err e) /\ exists e, run (query q g) w = (Err e, w).
Proof. exact @no_pattern_raises. Qed.
Print Assumptions C40_no_pattern_raises.
Example C40_example : exists f f',
  @parse_find ascii_rt (py "FIND (a:Person), (b:City);") = Ok (Some f) /\ @parse_find ascii_rt (py "FIND (a:Person);") = Ok (Some f') /\
  pf_pattern f = pf_pattern f'.
Proof. exists (ex_find "FIND (a:Person), (b:City);"), (ex_find "FIND (a:Person);"). vm_compute. repeat split. Qed.
(** [ex_list] without its second pattern *)
Example C40_hypotheses : @statement_written ascii_rt [hd (py " ", OneNode ex_c) ex_list] /\ @passes ascii_rt [hd (py " ", OneNode ex_c) ex_list] /\
  NoDup (given_handles (read_pattern (TwoNodes ex_a ex_r ex_b))).
Proof.
  pose proof ex_written as [_ W L _]. pose proof ex_passes as P. inversion W; subst. inversion P; subst. split; [|split].
  - constructor; [discriminate|constructor; [assumption|constructor]| |].
    + vm_compute. intuition discriminate.
    + intros l' b p E. destruct l' as [|x l']; cbn in E; [|destruct l'; discriminate]. injection E as _ <-. reflexivity.
  - constructor; [assumption|constructor].
  - vm_compute. repeat constructor; cbn; intuition discriminate.
Qed.
Example C40_example_none : @pattern_matches ascii_rt (py "FIND(nodes);") = [] /\
  @parse_find ascii_rt (py "FIND(nodes);") = Err IndexError.
Proof. vm_compute. split; reflexivity. Qed.

(** ** C41 *)
Theorem C41_report_accepted_iff : forall (rt : PyRt) q rep hs,
  Extracted (ReportStatement (py "REPORT")) q [rep] ->
  let spelt := starts (py "REPORT") rep \/ starts (py "report") rep in
  ((forall h, In h hs -> exists a b, rep = a ++ h ++ b) /\ spelt /\ parse_report q hs = Ok (Some {| pr_raw := rep; pr_extracted := rep |})) \/
  ((forall h, In h hs -> exists a b, rep = a ++ h ++ b) /\ ~ spelt /\ parse_report q hs = Err ValidationError) \/
  ((exists h, In h hs /\ ~ exists a b, rep = a ++ h ++ b) /\ parse_report q hs = Err FindReportHandleMissmatch).
Proof. exact @report_cases. Qed.
Print Assumptions C41_report_accepted_iff.
Theorem C41_no_report : forall (rt : PyRt) q hs,
  Extracted (ReportStatement (py "REPORT")) q [] -> ~ Misspelt REPORT q -> parse_report q hs = Ok None.
Proof. exact @report_absent. Qed.
Print Assumptions C41_no_report.
(** handles are looked for anywhere, also inside words: the handle "t" occurs in "x.test"; a star is refused *)
Example C41_example :
  @parse_report ascii_rt (py "REPORT x.test;") [py "t"] = Ok (Some {| pr_raw := py "REPORT x.test;"; pr_extracted := py "REPORT x.test;" |}) /\
  @parse_report ascii_rt (py "REPORT *;") [py "t"] = Err FindReportHandleMissmatch /\
  @parse_report ascii_rt (py "REPORT *;") [py "EP"] = Ok (Some {| pr_raw := py "REPORT *;"; pr_extracted := py "REPORT *;" |}).
Proof. vm_compute. repeat split. Qed.
Example C41_hypotheses : Extracted (@ReportStatement ascii_rt (py "REPORT")) (py "REPORT *;") [py "REPORT *;"].
Proof.
  change (py "REPORT *;") with (py "REPORT *;" ++ []) at 1. apply Ex_take; [|discriminate| |constructor].
  - exists (py "REPORT"), (py " *"). split; [reflexivity|]. split; [repeat (constructor; [vm_compute; reflexivity|]); constructor|]. split; [discriminate|]. vm_compute. intuition discriminate.
  - intros m' r E _. rewrite app_nil_r in E. rewrite E, app_length. lia.
Qed.
