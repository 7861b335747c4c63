(** * ExampleFacts: the example queries of the project fail *)
From Verif Require Import PyBase Regex SpecText Checks ChecksFacts Json Data FS Store Make Find Statements Query QueryFacts SpecShell SpecExamples.

Section ExampleFacts.
  Context {rt : PyRt}.

  Lemma no_find_fails q g w : map fst (finditer (clause_regex FIND) q) = [] -> exists e, run (query q g) w = (Err e, w).
  Proof. intros E. apply no_find_no_effect. apply (extract_spec q FIND); [discriminate|exact E]. Qed.

  Lemma parse_fails q e g w : parse_query_string q = Err e -> run (query q g) w = (Err e, w).
  Proof. intros E. unfold query. rewrite E. reflexivity. Qed.

  Theorem documented_fail g w q : In q documented -> exists e, run (query q g) w = (Err e, w).
  Proof.
    unfold documented. intros I.
    destruct I as [<-|[<-|[<-|[<-|[<-|[<-|[]]]]]]]; try (apply no_find_fails; vm_compute; reflexivity);
      eexists; apply parse_fails; vm_compute; reflexivity.
  Qed.

  Theorem documented_why g w :
    run (query readme_query g) w = (Err MakeDuplicateHandlesError, w) /\
    run (query all_clauses_wql g) w = (Err FindReportHandleMissmatch, w) /\
    run (query find_wql g) w = (Err FindReportHandleMissmatch, w) /\
    run (query make_wql g) w = (Err AttributeError, w).
  Proof. repeat split; apply parse_fails; vm_compute; reflexivity. Qed.

  Theorem documented_lines_fail g w l : In l documented_lines -> exists e, run (query l g) w = (Err e, w).
  Proof.
    unfold documented_lines. intros I.
    repeat (destruct I as [<-|I]; [first [apply no_find_fails; vm_compute; reflexivity | eexists; vm_compute; reflexivity]|]). destruct I.
  Qed.

  Theorem documented_session g w r w' : Session g w r w' ->
    Forall (fun l => In l documented_lines \/ l = py "q") (w_in w) -> w_fs w' = w_fs w.
  Proof.
    induction 1 as [w E|w rr E|w line rr res w' E NQ H S IH|w line rr b w1 res w' E NQ NH R S IH|w line rr e w1 res w' E NQ NH R S IH]; intros F;
      try reflexivity; rewrite E in F; inversion F as [|? ? Hl Fr]; subst.
    - apply IH. exact Fr.
    - exfalso. destruct Hl as [I|Q]; [|now apply NQ].
      destruct (documented_lines_fail g (says (echo line) (rest rr w)) line I) as (e & R'). congruence.
    - destruct Hl as [I|Q]; [|now destruct NQ].
      destruct (documented_lines_fail g (says (echo line) (rest rr w)) line I) as (e' & R'). rewrite R' in R. injection R as _ <-.
      apply IH. exact Fr.
  Qed.
End ExampleFacts.
