(** * Prop_Schema: what the database of a graph can hold (C69)

    [entry], [storable] and [can_be_written] are in SpecSchema; [history g h w w'] is that of C62: queries that are
    answered, fail or are cut off at any point. *)
From Verif Require Import PyBase Json SpecJson SpecText SpecPattern SpecValue RtLaws Literal Checks Statements FS Store SpecStore Make SpecMake Find Query
  SpecShell SpecDurable SpecWhole SpecSchema SchemaFacts SchemaMore AsciiRt AsciiFacts Prop_Make Prop_Query Prop_Durable.
From Coq Require Import ZifyBool.

(** Whatever is sent to a graph: everything that is added to its database is an [entry], all of whose properties are [storable]. *)
Theorem C69_only_entries : forall (rt : PyRt), rt_data rt -> rt_lists -> forall g h w w' d v,
  history g h w w' -> distinct_files g -> db_file (database_fp g) d w ->
  run (read_json (database_fp g)) w' = (Ok v, w') -> exists more, v = VDict (d ++ more) /\ Forall entry more.
Proof. exact @schema. Qed.
Print Assumptions C69_only_entries.

(** And some MAKE statement stores a given label with a given object of properties. *)
Theorem C69_can_be_stored : forall (rt : PyRt), rt_data rt -> forall g G w label d,
  stored g G w -> a_word label -> d <> [] -> NoDup (map fst d) ->
  Forall (fun kv => a_word (fst kv) /\ can_be_written (snd kv)) d ->
  exists q ms w' G' rels, parse_make q = Ok (Some ms) /\ run (make ms g) w = (Ok true, w') /\ stored g G' w' /\
    In (str_of_Z (g_next G), VDict [(py "node_metadata", meta (g_next G)); (py "node_label", VStr label); (py "properties", VDict d);
                                    (py "relations", VList rels)]) (g_db G').
Proof. exact @can_store. Qed.
Print Assumptions C69_can_be_stored.

(** A string that can be written is not kept by every query that writes it: here the query is refused because the letters
    of the string are those of REPORT. *)
Definition sc_q : pystr := py "MAKE (:A{k:'porter'})-[:R]->(:B);" ++ nl ++ py "FIND (a:A);".
Theorem C69_query_refuted :
  @can_be_written ascii_rt (VStr (py "porter")) /\
  run (@query ascii_rt sc_q ex_g) ex_w = (Err ClauseSyntaxError, ex_w) /\
  fst (run (@query ascii_rt (sc_q ++ nl ++ py "REPORT a;") ex_g) ex_w) = Ok true.
Proof.
  split; [|vm_compute; split; reflexivity]. constructor. split; [|split; [|split]].
  - repeat (apply Forall_cons; [split; [left; reflexivity|discriminate]|]). apply Forall_nil.
  - intros c t E. injection E as <- _. discriminate.
  - intros c t E. change (py "porter") with (py "porte" ++ [114%N]) in E. apply app_inj_tail in E as [_ <-]. discriminate.
  - cbn. intuition discriminate.
Qed.
Print Assumptions C69_query_refuted.

(** ** Examples *)
Lemma ascii_lists : @rt_lists ascii_rt.
Proof. intros t v _ H. discriminate. Qed.
Example C69_hypotheses : @history ascii_rt ex_g [(du_q, Answered); (du_q, Cut); (du_q, Cut)] ex_w du_3 /\ distinct_files ex_g /\
  @db_file ascii_rt (database_fp ex_g) [] ex_w /\
  exists v, run (@read_json ascii_rt (database_fp ex_g)) du_3 = (Ok v, du_3) /\ v <> VDict [].
Proof.
  destruct C62_hypotheses as (A & B & C & _). split; [exact A|]. split; [exact B|]. split; [exact C|].
  eexists. split; [vm_compute; reflexivity|discriminate].
Qed.
Lemma sc_word s : s <> [] -> forallb (@is_word ascii_rt) s = true -> @a_word ascii_rt s.
Proof. intros N H. split; [exact N|]. apply Forall_forall. rewrite forallb_forall in H. exact H. Qed.
Definition sc_d : list (pystr * pyval) :=
  [(py "n", VInt 12); (py "s", VStr (py "it's ""x""")); (py "l", VList [VNone; VInt 0; VStr (py "a,b")])].
Example C69_can_hypotheses : @a_word ascii_rt (py "Man") /\ sc_d <> [] /\ NoDup (map fst sc_d) /\
  Forall (fun kv => @a_word ascii_rt (fst kv) /\ @can_be_written ascii_rt (snd kv)) sc_d.
Proof.
  assert (T : forall c, existsb (N.eqb c) (py "'"".@") || @is_word ascii_rt c || @is_space ascii_rt c = true -> c <> 10%N -> @text_char ascii_rt c).
  { intros c H N. split; [|exact N]. rewrite !Bool.orb_true_iff, existsb_exists in H. destruct H as [[(x & I & E)|H]|H]; auto.
    apply N.eqb_eq in E. subst. auto. }
  split; [apply sc_word; [discriminate|reflexivity]|]. split; [discriminate|]. split.
  - repeat (apply NoDup_cons; [cbn; intuition discriminate|]). apply NoDup_nil.
  - apply Forall_cons; [|apply Forall_cons; [|apply Forall_cons; [|apply Forall_nil]]]; (split; [apply sc_word; [discriminate|reflexivity]|]); cbn [snd].
    + apply cw_int; [discriminate|reflexivity].
    + apply cw_str. split; [|split; [|split]].
      * repeat (apply Forall_cons; [apply T; [reflexivity|discriminate]|]). apply Forall_nil.
      * intros c t E. injection E as <- _. discriminate.
      * intros c t E. change (py "it's ""x""") with (py "it's ""x" ++ [34%N]) in E. apply app_inj_tail in E as [_ <-]. discriminate.
      * cbn. intuition discriminate.
    + apply cw_list; [discriminate|]. apply Forall_cons; [apply il_null|]. apply Forall_cons; [apply il_int; [discriminate|reflexivity]|]. apply Forall_cons; [|apply Forall_nil].
      apply il_str.
      * apply Forall_cons; [split; [left; apply T; [reflexivity|discriminate]|split; discriminate]|].
        apply Forall_cons; [split; [right; reflexivity|split; discriminate]|].
        apply Forall_cons; [split; [left; apply T; [reflexivity|discriminate]|split; discriminate]|]. apply Forall_nil.
      * intros (a & w & b & E & I). assert (L : List.length (py "a,b") = List.length (a ++ w ++ b)) by congruence. rewrite !app_length in L.
        cbn in I. destruct I as [<-|[<-|[<-|[]]]]; cbn in L; lia.
Qed.
(** values that no query can put into a database *)
Example C69_not_storable : ~ @storable ascii_rt (VInt (-1)) /\ ~ @storable ascii_rt (VStr (py "a-b")) /\ ~ @storable ascii_rt (VList [VList []]).
Proof.
  split; [intros H; inversion H; lia|]. split.
  - intros H. inversion H as [| | | |x (F & _)|]; subst. inversion F as [|a l A F']; subst. inversion F' as [|b l' [B _] F'']; subst.
    destruct B as [B|[B|B]]; [discriminate|discriminate|]. cbn in B. intuition discriminate.
  - intros H. inversion H as [| | | | |t l N F E X]; subst. inversion X as [|x y X1 X2]; subst. exact X1.
Qed.
