(** * Prop_Pattern: parsing of statements (C09-C12, and C07 for written statements) *)
From Verif Require Import PyBase BaseFacts SpecText SpecPattern SpecGrammar Regex Patterns Checks Statements ChecksFacts PatternFacts GrammarFacts StatementFacts AcceptFacts AcceptMore
  RtLaws SpecMake Make AsciiRt AsciiFacts.

(** ** Example data: MAKE (a :Man {n: 1})<--[ r:KNOWS]- (:B), (:C); *)
Definition ex_a : wnode := {| wn_s1 := []; wn_handle := py "a"; wn_s2 := py " "; wn_s3 := []; wn_label := py "Man"; wn_s4 := py " ";
                              wn_props := Some (py "{n: 1}"); wn_s6 := [] |}.
Definition ex_b : wnode := {| wn_s1 := []; wn_handle := []; wn_s2 := []; wn_s3 := []; wn_label := py "B"; wn_s4 := []; wn_props := None; wn_s6 := [] |}.
Definition ex_c : wnode := {| wn_s1 := []; wn_handle := []; wn_s2 := []; wn_s3 := []; wn_label := py "C"; wn_s4 := []; wn_props := None; wn_s6 := [] |}.
Definition ex_r : wrel := {| wr_lt := true; wr_d1 := 1; wr_s1 := py " "; wr_handle := py "r"; wr_s2 := []; wr_colon := true; wr_s3 := [];
                             wr_name := py "KNOWS"; wr_s4 := []; wr_props := None; wr_d2 := 0; wr_gt := false; wr_s6 := py " " |}.
Definition ex_list : list (pystr * wpattern) := [(py " ", TwoNodes ex_a ex_r ex_b); (py " ", OneNode ex_c)].
Example ex_text : show_statement (py "MAKE") ex_list = py "MAKE (a :Man {n: 1})<--[ r:KNOWS]- (:B), (:C);".
Proof. reflexivity. Qed.
Example ex_written : @statement_written ascii_rt ex_list.
Proof.
  assert (A : @node_written ascii_rt ex_a).
  { constructor; try (repeat constructor; fail); try discriminate. intros t E. injection E as <-. split; [|eexists; reflexivity].
    split; [discriminate|]. repeat (apply Forall_cons; [vm_compute; auto 20|]). apply Forall_nil. }
  assert (Bx : @node_written ascii_rt ex_b) by (constructor; try (repeat constructor; fail); discriminate).
  assert (Cx : @node_written ascii_rt ex_c) by (constructor; try (repeat constructor; fail); discriminate).
  assert (Rx : @rel_written ascii_rt ex_r) by (constructor; try (repeat constructor; fail); discriminate).
  constructor.
  - discriminate.
  - constructor; [split; [repeat constructor|cbn; auto]|]. constructor; [split; [repeat constructor|exact Cx]|constructor].
  - vm_compute. intuition discriminate.
  - intros l' b p E. destruct l' as [|x [|y l']]; cbn in E; [discriminate| |destruct l'; discriminate]. injection E as _ _ <-. reflexivity.
Qed.
Example ex_passes : @passes ascii_rt ex_list.
Proof.
  constructor; [split|constructor; [split; constructor|constructor]].
  - cbn. constructor; [|constructor]. exists (py "{n: 1}"). split; [|vm_compute; reflexivity].
    exists (py "n: 1"), []. split; [reflexivity|]. split; [reflexivity|]. split; [constructor|]. split; [discriminate|].
    split; [repeat (apply Forall_cons; [vm_compute; auto 20|]); apply Forall_nil|]. exists 0. reflexivity.
  - cbn. constructor; [|constructor]. split; [reflexivity|right; reflexivity].
Qed.
Example ex_distinct : distinct_handles ex_list.
Proof. vm_compute. repeat constructor; cbn; intuition discriminate. Qed.

(** ** C09 *)
(** A written list of patterns is read back piece by piece. *)
Theorem C09_patterns_read : forall (rt : PyRt), rt_ok rt -> forall (kw : pystr) (l : list (pystr * wpattern)),
  Word kw -> good_list l ->
  pattern_matches (show_statement kw l) = map (fun bp => read_pattern (snd bp)) l.
Proof. exact @patterns_read. Qed.
Print Assumptions C09_patterns_read.

(** A written MAKE statement that uses one-way arrows, upper case relationship names, distinct handles in each
    pattern and property texts in braces is accepted, and parsed to exactly what was written. *)
Theorem C09_make_round_trip : forall (rt : PyRt), rt_ok rt -> forall (kw : pystr) (l : list (pystr * wpattern)),
  kw = py "MAKE" \/ kw = py "make" -> statement_written l -> passes l -> distinct_handles l ->
  parse_make (show_statement kw l) =
    Ok (Some [{| pm_raw := show_statement kw l; pm_patterns := map (fun bp => read_pattern (snd bp)) l |}]).
Proof. exact @make_round_trip. Qed.
Print Assumptions C09_make_round_trip.

(** The same for FIND, whose first pattern is taken. *)
Theorem C09_find_round_trip : forall (rt : PyRt), rt_ok rt -> forall (kw b : pystr) (p : wpattern) (l : list (pystr * wpattern)),
  kw = py "FIND" \/ kw = py "find" -> statement_written ((b, p) :: l) -> passes ((b, p) :: l) ->
  NoDup (given_handles (read_pattern p)) ->
  parse_find (show_statement kw ((b, p) :: l)) =
    Ok (Some {| pf_raw := show_statement kw ((b, p) :: l); pf_pattern := read_pattern p; pf_handles := given_handles (read_pattern p) |}).
Proof. exact @find_round_trip. Qed.
Print Assumptions C09_find_round_trip.

Example C09_example : @parse_make ascii_rt (py "MAKE (a :Man {n: 1})<--[ r:KNOWS]- (:B), (:C);") =
  Ok (Some [{| pm_raw := py "MAKE (a :Man {n: 1})<--[ r:KNOWS]- (:B), (:C);";
               pm_patterns := [read_pattern (TwoNodes ex_a ex_r ex_b); read_pattern (OneNode ex_c)] |}]).
Proof. exact (C09_make_round_trip ascii_rt ascii_ok' (py "MAKE") ex_list (or_introl eq_refl) ex_written ex_passes ex_distinct). Qed.

(** ** C07 for written statements: the relationships that are checked are those written. *)
Theorem C07_written_relationships : forall (rt : PyRt), rt_ok rt -> forall (kw : pystr) (l : list (pystr * wpattern)),
  Word kw -> good_list l ->
  rel_matches (show_statement kw l) = flat_map (fun bp => map rel_pair (rels_of (snd bp))) l.
Proof. exact @rels_read. Qed.
Print Assumptions C07_written_relationships.
Example C07_written_example : @rel_matches ascii_rt (show_statement (py "MAKE") ex_list) = [(py "<--[ r:KNOWS]-", py "KNOWS")].
Proof. apply (C07_written_relationships ascii_rt ascii_ok' (py "MAKE") ex_list); [repeat constructor|apply ex_written]. Qed.

(** ** C10 *)
(** Every parsed pattern is the reading of a piece of the statement; the pieces lie in the text in order. *)
Theorem C10_parsed_is_in_text : forall (rt : PyRt) (stmt : pystr),
  exists gaps ts, stmt = weave gaps ts /\ List.length gaps = S (List.length ts) /\
    Forall (fun t => t <> []) ts /\ Forall2 PatternText (pattern_matches stmt) ts.
Proof. exact @patterns_in_text. Qed.
Print Assumptions C10_parsed_is_in_text.

(** A node that is there has a non-empty word as label; one that is not there has nothing. *)
Theorem C10_node_labels : forall (rt : PyRt) (p : pattern) (x : piece),
  (exists t, PatternText p t) -> In x [left_node p; middle_node p; right_node p] ->
  if drawn x then exists l, p_label x = Some l /\ l <> [] /\ Word l else absent x.
Proof. exact @node_label. Qed.
Print Assumptions C10_node_labels.

Theorem C10_words : forall (rt : PyRt) (p : pattern) (x : piece),
  (exists t, PatternText p t) -> In x [left_node p; left_middle_rel p; middle_node p; middle_right_rel p; right_node p] ->
  (forall s, p_label x = Some s -> Word s) /\ (forall s, p_handle x = Some s -> Word s) /\ (forall s, p_props x = Some s -> ParamText s).
Proof. exact @piece_words. Qed.
Print Assumptions C10_words.

(** So the names of every parsed query can be written to the files: the hypothesis [names_ok] of the MAKE and
    history theorems holds for every query that parses. *)
Theorem C10_parsed_names : forall (rt : PyRt), rt_data rt -> forall (q : pystr) (l : list parsed_make),
  parse_make q = Ok (Some l) -> Forall names_ok (patterns_of l).
Proof. exact @parsed_names_ok. Qed.
Print Assumptions C10_parsed_names.

Example C10_example : exists q l, @parse_make ascii_rt q = Ok (Some l) /\ List.length (patterns_of l) = 2.
Proof. eexists _, _. split; [exact C09_example|reflexivity]. Qed.
(** A bare relationship is read as a pattern without any node. *)
Example C10_bare_relationship : exists p, @pattern_matches ascii_rt (py "MAKE <-[:R]-;") = [p] /\
  absent (left_node p) /\ absent (middle_node p) /\ absent (right_node p) /\ p_label (left_middle_rel p) = Some (py "R").
Proof. eexists. split; [vm_compute; reflexivity|]. repeat split. Qed.

(** ** C11 *)
(** One pattern: rejected exactly when two given handles are equal. *)
Theorem C11_one_pattern : forall (p : pattern),
  (NoDup (given_handles p) /\ validate_handles p = Ok tt) \/
  (~ NoDup (given_handles p) /\ validate_handles p = Err MakeDuplicateHandlesError).
Proof. exact @validate_handles_cases. Qed.
Print Assumptions C11_one_pattern.

(** Whole queries that pass the checks and spell their keywords properly. *)
Theorem C11_make_duplicates : forall (rt : PyRt) (q : pystr) (ms : list pystr),
  ms <> [] -> Extracted (Statement (py "MAKE")) q ms -> validate_statement ms = Ok tt -> Forall exact_kw_make ms ->
  ((forall m p, In m ms -> In p (pattern_matches m) -> NoDup (given_handles p)) /\ parse_make q = Ok (Some (map plain ms))) \/
  ((exists m p, In m ms /\ In p (pattern_matches m) /\ ~ NoDup (given_handles p)) /\ parse_make q = Err MakeDuplicateHandlesError).
Proof. exact @make_duplicates. Qed.
Print Assumptions C11_make_duplicates.

(** However a query parses, no pattern of it has equal handles. *)
Theorem C11_parsed_distinct : forall (rt : PyRt) (q : pystr) (l : list parsed_make), parse_make q = Ok (Some l) ->
  Forall (fun m => exact_kw_make (pm_raw m) /\ Statement (py "MAKE") (pm_raw m) /\ pm_patterns m = pattern_matches (pm_raw m) /\
                   Forall (fun p => NoDup (given_handles p)) (pm_patterns m)) l /\
  Extracted (Statement (py "MAKE")) q (map pm_raw l).
Proof. exact @parsed_make_sound. Qed.
Print Assumptions C11_parsed_distinct.

Example C11_examples :
  let rt := ascii_rt in
  parse_make (py "MAKE (a:A)-[r:R]->(a:B);") = Err MakeDuplicateHandlesError /\
  parse_make (py "MAKE (a:A)-[:R]->(:B), (a:C);") = Ok (Some [plain (py "MAKE (a:A)-[:R]->(:B), (a:C);")]).
Proof. vm_compute. auto. Qed.

(** ** C12 *)
Theorem C12_make_keyword_case : forall (rt : PyRt) (q : pystr) (ms : list pystr),
  ms <> [] -> Extracted (Statement (py "MAKE")) q ms -> validate_statement ms = Ok tt ->
  (forall m p, In m ms -> In p (pattern_matches m) -> NoDup (given_handles p)) ->
  (Forall exact_kw_make ms /\ parse_make q = Ok (Some (map plain ms))) \/
  (Exists (fun m => ~ exact_kw_make m) ms /\ parse_make q = Err ValidationError).
Proof. exact @make_keyword_case. Qed.
Print Assumptions C12_make_keyword_case.

Theorem C12_find_keyword_case : forall (rt : PyRt) (q stmt : pystr),
  Extracted (Statement (py "FIND")) q [stmt] -> validate_statement [stmt] = Ok tt ->
  match pattern_matches stmt with
  | [] => parse_find q = Err IndexError
  | p :: _ =>
      (~ NoDup (given_handles p) /\ parse_find q = Err MakeDuplicateHandlesError) \/
      (NoDup (given_handles p) /\
         (((starts (py "FIND") stmt \/ starts (py "find") stmt) /\
             parse_find q = Ok (Some {| pf_raw := stmt; pf_pattern := p; pf_handles := given_handles p |})) \/
          (~ (starts (py "FIND") stmt \/ starts (py "find") stmt) /\ parse_find q = Err ValidationError)))
  end.
Proof. exact @find_cases. Qed.
Print Assumptions C12_find_keyword_case.

Example C12_examples :
  let rt := ascii_rt in
  parse_make (py "Make (a:A);") = Err ValidationError /\ parse_make (py "make (a:A);") = Ok (Some [plain (py "make (a:A);")]) /\
  parse_find (py "fiND (a:A);") = Err ValidationError /\ parse_find (py "FIND(nodes);") = Err IndexError.
Proof. vm_compute. auto. Qed.
(** The hypotheses are met. *)
Example C12_hypotheses : let rt := ascii_rt in
  Extracted (Statement (py "MAKE")) (py "Make (a:A);") [py "Make (a:A);"] /\ validate_statement [py "Make (a:A);"] = Ok tt.
Proof.
  cbn zeta. split; [|vm_compute; reflexivity].
  apply (extraction_genuine (rt := ascii_rt) (py "Make (a:A);") MAKE [py "Make (a:A);"]). vm_compute. reflexivity.
Qed.
