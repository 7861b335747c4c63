(** * Prop_Sound: database, index and counter agree after any queries (C58)

    [sound], [session], [corrupting] and [empty_graph] are in SpecSound. *)
From Verif Require Import PyBase Json RtLaws Statements FS Store SpecStore Make SpecMake Query SpecSound SoundFacts AsciiRt AsciiFacts Prop_Make Prop_Query.

(** ** C58 *)
Theorem C58_a_new_graph_is_sound : forall (G : graph), empty_graph G -> sound G.
Proof. exact empty_sound. Qed.
Print Assumptions C58_a_new_graph_is_sound.

Theorem C58_queries_keep_a_graph_sound : forall (rt : PyRt), rt_data rt -> forall (g : gdbms) (qs : list pystr) (G : graph) (w : world),
  stored g G w -> sound G -> (forall r, In r (fst (session g qs w)) -> ~ corrupting r) ->
  exists G' more, stored g G' (snd (session g qs w)) /\ sound G' /\ g_db G' = g_db G ++ more /\ (g_next G <= g_next G')%Z.
Proof. exact @session_sound. Qed.
Print Assumptions C58_queries_keep_a_graph_sound.

Definition so_queries : list pystr :=
  [py "MAKE (:A{n:1})-[:R]->(:B);" ++ nl ++ py "FIND (:A);"; py "nonsense"; py "MAKE(:A)-[]->(:B)-[]->(:C);FIND(:A);"].
Example C58_hypotheses : rt_data ascii_rt /\ @stored ascii_rt ex_g ex_G ex_w /\ empty_graph ex_G /\
  fst (@session ascii_rt ex_g so_queries ex_w) = [Ok true; Err AttributeError; Ok true].
Proof. split; [exact ascii_data|]. split; [exact ex_stored|]. split; [repeat split|]. vm_compute. reflexivity. Qed.

Lemma end_missing d : existsb (fun kv => existsb (fun r => match field (py "wn_to_node") r with Some (VInt b) => negb (s_mem (str_of_Z b) (keys d)) | _ => false end)
    (relations (snd kv))) d = true ->
  ~ (forall k v r b, In (k, v) d -> In r (relations v) -> field (py "wn_to_node") r = Some (VInt b) -> In (str_of_Z b) (keys d)).
Proof.
  intros X H. apply existsb_exists in X as ([k v] & Hv & X). apply existsb_exists in X as (r & Hr & X). cbn [snd] in *.
  destruct (field (py "wn_to_node") r) as [[| |b| | | | |]|] eqn:F; try discriminate. specialize (H k v r b Hv Hr F).
  apply BaseFacts.s_mem_In in H. rewrite H in X. discriminate.
Qed.
(** The graph of the example: a relationship that no stored node ends, and an indexed label that no stored node has. *)
Definition so_world : world := snd (@session ascii_rt ex_g so_queries ex_w).
Definition db_read (r : res pyval * world) : list (pystr * pyval) := match fst r with Ok (VDict d) => d | _ => [] end.
Definition so_db : list (pystr * pyval) := db_read (run (@load_database ascii_rt (database_fp ex_g)) so_world).
Theorem C58_every_end_is_stored_refuted :
  ~ (forall k v r b, In (k, v) so_db -> In r (relations v) -> field (py "wn_to_node") r = Some (VInt b) -> In (str_of_Z b) (keys so_db)).
Proof. apply end_missing. vm_compute. reflexivity. Qed.
Print Assumptions C58_every_end_is_stored_refuted.
