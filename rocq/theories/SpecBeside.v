(** * SpecBeside: a FIND while a MAKE works on the same graph (C63)

    [schedule] is in SpecConc: each operation on a file is one step, the steps come in any order. *)
From Verif Require Import PyBase Json Props Statements FS Store SpecStore Make SpecMake Find SpecFind.

Section SpecBeside.
  Context {rt : PyRt}.

  (** how a reader can meet an index of the graph [G] while the patterns [ps] are made:
      as it was before, as it is afterwards, or as a text that is not JSON *)
  Inductive met := Before | After | Unreadable.
  Definition labels_met (ps : list pattern) (G : graph) (m : met) (s : pystr) : Prop :=
    match m with
    | Before => In s (ix_labels (g_ix G))
    | After => In s (ix_labels (g_ix G)) \/ label_drawn ps s
    | Unreadable => False
    end.
  Definition names_met (ps : list pattern) (G : graph) (m : met) (s : pystr) : Prop :=
    match m with
    | Before => In s (ix_names (g_ix G))
    | After => In s (ix_names (g_ix G)) \/ name_drawn ps s
    | Unreadable => False
    end.

  (** the answer to the pattern [p] for these labels and relationship names (C38) *)
  Definition something : res (option (list (bool * bool))) := Ok (Some [(true, false)]).
  Definition nothing : res (option (list (bool * bool))) := Ok None.
  Definition answered (p : pattern) (labels names : pystr -> Prop) (r : res (option (list (bool * bool)))) : Prop :=
    let yes := (exists s, asked_label p s /\ labels s) /\ ~ (exists s, asked_name p s /\ names s) in
    (yes /\ r = something) \/ (~ yes /\ r = nothing).
End SpecBeside.
