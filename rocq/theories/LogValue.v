(** * LogValue: proofs about the records of property values (C76) *)
From Verif Require Import PyBase Regex Patterns Props Log SpecLogValue BaseFacts.

Section LogValue.
  Context {rt : PyRt} (lt : pyval -> pystr).
  Lemma value_str v : str_is lt v (value_text lt v).
  Proof.
    destruct v as [|[]|z|t|s|l|d|]; cbn [value_text]; try (constructor; fail); try (apply str_other; eauto; fail).
    destruct (str_eqb t (py "Infinity")) eqn:E; [apply str_eqb_eq in E; subst; constructor|].
    constructor. intros ->. rewrite (proj2 (str_eqb_eq _ _) eq_refl) in E. discriminate.
  Qed.
  Lemma determined_ok what text r recs v : determined lt what text r = (recs, Ok v) -> called v what -> recorded lt v recs.
  Proof. destruct r as [x|e]; cbn [determined]; [|discriminate]. intros [= <- <-] C. exact (recorded_value lt x what _ text C (value_str x)). Qed.
  Lemma determined_val what text r recs v : determined lt what text r = (recs, Ok v) -> r = Ok v.
  Proof. destruct r; cbn [determined]; [|discriminate]. intros [= _ <-]. reflexivity. Qed.
  Lemma handle_recorded c value recs v : handle_extracted_l lt c value = (recs, Ok v) -> recorded lt v recs.
  Proof.
    unfold handle_extracted_l, wbind, silent. cbn [fst snd]. destruct (yield_type c) as [[]|]; cbn [fst snd app]; try discriminate.
    - unfold handle_null. destruct str_eqb; [|discriminate]. intros [= <- <-]. constructor.
    - intros E. rewrite <- surjective_pairing in E. apply (determined_ok _ _ _ _ _ E). apply determined_val in E. unfold handle_bool in E.
      destruct str_eqb; [injection E as <-; constructor|]. destruct str_eqb; [injection E as <-; constructor|discriminate].
    - intros E. rewrite <- surjective_pairing in E. apply (determined_ok _ _ _ _ _ E). apply determined_val in E. unfold handle_float in E.
      destruct contains; [|discriminate]. destruct f_repr; [|discriminate]. injection E as <-; constructor.
    - intros E. rewrite <- surjective_pairing in E. apply (determined_ok _ _ _ _ _ E). apply determined_val in E. unfold handle_int in E.
      destruct contains; [discriminate|]. destruct (clean value); [discriminate|]. destruct (forallb _ _ && _); [|discriminate]. injection E as <-; constructor.
    - intros E. rewrite <- surjective_pairing in E. apply (determined_ok _ _ _ _ _ E). constructor.
    - intros E. rewrite <- surjective_pairing in E. apply (determined_ok _ _ _ _ _ E). apply determined_val in E. unfold handle_string in E.
      destruct existsb; [discriminate|]. injection E as <-; constructor.
  Qed.
  Definition put (d : list (pystr * pyval)) (kv : pystr * pyval) := d_set (fst kv) (snd kv) d.
  Lemma one_recorded c recs kv : one_property_l lt c = (recs, Ok kv) -> recorded lt (snd kv) recs.
  Proof.
    unfold one_property_l. destruct (cap GPropName c) as [n|]; [|discriminate]. destruct (cap GPropValue c) as [x|]; [|discriminate].
    destruct (strip is_space x); [discriminate|]. unfold wbind, silent. destruct (handle_extracted_l lt c x) as [r [v|]] eqn:E; cbn [fst snd]; [|discriminate].
    rewrite app_nil_r. intros [= <- <-]. exact (handle_recorded c x r v E).
  Qed.
  Lemma loop_recorded ms : forall d0 recs d, props_loop_l lt ms d0 = (recs, Ok d) ->
    exists kvs rss, d = fold_left put kvs d0 /\ Forall2 (recorded lt) (map snd kvs) rss /\ recs = concat rss.
  Proof.
    induction ms as [|[m c] ms IH]; intros d0 recs d; cbn [props_loop_l].
    - intros [= <- <-]. exists [], []. repeat split. constructor.
    - unfold wbind at 1. destruct (one_property_l lt c) as [r [kv|]] eqn:E; cbn [fst snd]; [|discriminate].
      destruct (props_loop_l lt ms (d_set (fst kv) (snd kv) d0)) as [rs x] eqn:L. cbn [fst snd]. intros [= <- ->].
      destruct (IH _ _ _ L) as (kvs & rss & -> & F & ->). exists (kv :: kvs), (r :: rss). repeat split. constructor; [exact (one_recorded c r kv E)|exact F].
  Qed.
  Lemma values_recorded s recs d : get_property_dict_l lt s = (recs, Ok (Some d)) ->
    exists kvs rss, d = fold_left (fun d kv => d_set (fst kv) (snd kv) d) kvs [] /\ Forall2 (recorded lt) (map snd kvs) rss /\ recs = concat rss.
  Proof.
    unfold get_property_dict_l. destruct s as [[|a s]|]; try discriminate. unfold wbind, silent.
    destruct (props_loop_l lt _ []) as [r [x|]] eqn:L; cbn [fst snd]; [|discriminate]. rewrite app_nil_r. intros [= <- <-]. exact (loop_recorded _ _ _ _ L).
  Qed.
End LogValue.
