(** * ObjectsPrint: proofs about the printed form of Node and Relationship objects *)
From Verif Require Import PyBase BaseFacts Data Objects SpecObjects StoreFacts LogFacts AsciiRt.
From Coq Require Import Lia.

Lemma number_no_blank z c : In c (str_of_Z z) -> c <> 32%N.
Proof.
  assert (P : forall p, In c (str_of_N (N.pos p)) -> c <> 32%N).
  { intros p H. unfold str_of_N in H. pose proof (dec_digits (S (N.size_nat (N.pos p))) (N.pos p) [] (Forall_nil _)) as D.
    rewrite Forall_forall in D. specialize (D _ H). lia. }
  destruct z as [|p|p]; cbn [str_of_Z In]; [intros [<-|[]]; lia|apply P|intros [<-|H]; [lia|eapply P; exact H]].
Qed.
(** the text before and behind the last blank *)
Lemma last_blank (a x b y : pystr) : ~ In 32%N x -> ~ In 32%N y -> a ++ 32%N :: x = b ++ 32%N :: y -> a = b /\ x = y.
Proof.
  revert b. induction a as [|c a IH]; intros [|d b] X Y E; cbn [app] in E.
  - injection E as ->. auto.
  - injection E as _ E. destruct X. rewrite E. apply in_elt.
  - injection E as _ E. destruct Y. rewrite <- E. apply in_elt.
  - injection E as -> E. destruct (IH b X Y E) as [-> ->]. auto.
Qed.
Lemma number_apart (a b : pystr) x y : a ++ 32%N :: str_of_Z x = b ++ 32%N :: str_of_Z y -> a = b /\ x = y.
Proof.
  intros E. apply last_blank in E as [-> E].
  - split; [reflexivity|]. exact (@str_of_Z_inj ascii_rt x y E).
  - intros H. apply number_no_blank in H. congruence.
  - intros H. apply number_no_blank in H. congruence.
Qed.
Theorem printed_node_fun t l z l' z' : printed_node t l z -> printed_node t l' z' -> l = l' /\ z = z'.
Proof.
  unfold printed_node. intros -> E. apply app_inv_head in E.
  change (l ++ py ": " ++ str_of_Z z) with (l ++ [58%N] ++ 32%N :: str_of_Z z) in E.
  change (l' ++ py ": " ++ str_of_Z z') with (l' ++ [58%N] ++ 32%N :: str_of_Z z') in E. rewrite !app_assoc in E.
  apply number_apart in E as [E ->]. apply app_inv_tail in E. auto.
Qed.
Theorem printed_rel_fun t n x y n' x' y' : printed_rel t n x y -> printed_rel t n' x' y' -> n = n' /\ x = x' /\ y = y'.
Proof.
  unfold printed_rel. intros -> E. apply app_inv_head in E.
  assert (F : forall m u v, m ++ py ": FROM " ++ str_of_Z u ++ py " TO " ++ str_of_Z v =
                            (((m ++ py ": FROM") ++ 32%N :: str_of_Z u) ++ py " TO") ++ 32%N :: str_of_Z v).
  { intros. rewrite <- !app_assoc. reflexivity. }
  rewrite !F in E. apply number_apart in E as [E ->]. apply app_inv_tail in E. apply number_apart in E as [E ->].
  apply app_inv_tail in E. auto.
Qed.
Theorem printed_node_says o : printed_node (node_repr o) (no_label o) (mo_wn (no_meta o)) /\
  forall l z, printed_node (node_repr o) l z -> l = no_label o /\ z = mo_wn (no_meta o).
Proof.
  assert (P : printed_node (node_repr o) (no_label o) (mo_wn (no_meta o))) by reflexivity.
  split; [exact P|]. intros l z H. apply (printed_node_fun _ _ _ _ _ H P).
Qed.
Theorem printed_rel_says r : printed_rel (rel_repr r) (name_or_none r) (ro_from r) (ro_to r) /\
  forall n x y, printed_rel (rel_repr r) n x y -> n = name_or_none r /\ x = ro_from r /\ y = ro_to r.
Proof.
  assert (P : printed_rel (rel_repr r) (name_or_none r) (ro_from r) (ro_to r)).
  { unfold printed_rel, rel_repr, name_or_none, field_value. destruct (ro_name r) as [[n|]|]; reflexivity. }
  split; [exact P|]. intros n x y H. apply (printed_rel_fun _ _ _ _ _ _ _ H P).
Qed.
