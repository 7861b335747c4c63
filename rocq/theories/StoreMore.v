(** * StoreMore: adding the same things to an index twice *)
From Verif Require Import PyBase BaseFacts Json JsonFacts SpecJson FS FSFacts Store SpecStore StoreFacts.

Section StoreMore.
  Context {rt : PyRt}.
  Theorem add_names_twice p items ix w : rt_ok rt -> Forall str_ok items -> index_file p ix w ->
    exists l w1 l2 w2,
      run (add_items_to_relationship_names_index p items) w = (Ok true, w1) /\ run (load_relationship_names_index p) w1 = (Ok l, w1) /\
      run (add_items_to_relationship_names_index p items) w1 = (Ok true, w2) /\ run (load_relationship_names_index p) w2 = (Ok l2, w2) /\
      (forall x, In x l2 <-> In x l) /\ List.length l2 = List.length l.
  Proof.
    intros R Hi F. destruct (names_union p items ix w R Hi F) as (l & w1 & E1 & _ & F1 & L1 & M1 & _).
    destruct (names_union p items _ w1 R Hi F1) as (l2 & w2 & E2 & _ & F2 & L2 & M2 & _). cbn [ix_names] in M2.
    exists l, w1, l2, w2. repeat (split; [assumption|]).
    assert (M : forall x, In x l2 <-> In x l) by (intros x; rewrite M2, M1; tauto). split; [exact M|].
    destruct F1 as [H1 _], F2 as [H2 _].
    pose proof (ix_names_nodup _ H1) as N1. pose proof (ix_names_nodup _ H2) as N2. cbn [ix_names] in N1, N2.
    apply Nat.le_antisymm; apply NoDup_incl_length; auto; intros x Hx; apply M; auto.
  Qed.
  Lemma numbers_nodup ix k : index_ok ix -> NoDup (numbers_of k (ix_rels ix)).
  Proof.
    intros H. unfold numbers_of. destruct (d_get k (ix_rels ix)) as [l|] eqn:E; [|constructor].
    apply d_get_In in E. pose proof (ix_rels_nodup _ H) as N. rewrite Forall_forall in N. exact (N _ E).
  Qed.
  Theorem add_rels_twice p items ix w : rt_ok rt -> items <> [] ->
    Forall (fun kv => str_ok (fst kv) /\ NoDup (snd kv)) items -> index_file p ix w ->
    exists d w1 d2 w2,
      run (add_items_to_node_relationships_index p items) w = (Ok true, w1) /\ run (load_node_relationships_index p) w1 = (Ok d, w1) /\
      run (add_items_to_node_relationships_index p items) w1 = (Ok true, w2) /\ run (load_node_relationships_index p) w2 = (Ok d2, w2) /\
      forall k, (forall z, In z (numbers_of k d2) <-> In z (numbers_of k d)) /\ List.length (numbers_of k d2) = List.length (numbers_of k d).
  Proof.
    intros R NE Hi F. destruct (rels_union p items ix w R NE Hi F) as (d & w1 & E1 & _ & F1 & L1 & M1 & _).
    destruct (rels_union p items _ w1 R NE Hi F1) as (d2 & w2 & E2 & _ & F2 & L2 & M2 & _). cbn [ix_rels] in M2.
    exists d, w1, d2, w2. repeat (split; [assumption|]). intros k.
    assert (M : forall z, In z (numbers_of k d2) <-> In z (numbers_of k d)) by (intros z; rewrite M2, M1; tauto). split; [exact M|].
    destruct F1 as [H1 _], F2 as [H2 _]. pose proof (numbers_nodup _ k H1) as N1. pose proof (numbers_nodup _ k H2) as N2. cbn [ix_rels] in N1, N2.
    apply Nat.le_antisymm; apply NoDup_incl_length; auto; intros x Hx; apply M; auto.
  Qed.
End StoreMore.
