(** * SpecDepend: what the answers of a graph depend on (C83) *)
From Verif Require Import PyBase FS Store SpecStore.

(** the indexes hold the same labels and the same relationship names; nothing is said about the nodes, their properties, their
    relationships, or the counter *)
Definition same_words (G G' : graph) : Prop :=
  (forall s, In s (ix_labels (g_ix G)) <-> In s (ix_labels (g_ix G'))) /\
  (forall s, In s (ix_names (g_ix G)) <-> In s (ix_names (g_ix G'))).

(** the results of a session up to the first one that can leave a damaged graph (see [corrupting] in SpecSound), that one
    included *)
Fixpoint until_damage (rs : list (res bool)) : list (res bool) :=
  match rs with
  | [] => []
  | r :: rs' => r :: match r with
                     | Err JSONDecodeError | Err TypeError => []
                     | _ => until_damage rs'
                     end
  end.
