(** * SpecAmid: a program while other things happen on the machine (C78) *)
From Verif Require Import PyBase FS Store SpecGdbms.

(** [amid R m w r w']: [m], started in [w], may end with [r] in [w'] if before each of its operations, and at the end,
    the rest of the machine changes the world in a way that [R] allows. *)
Inductive amid {A} (R : world -> world -> Prop) : io A -> world -> res A -> world -> Prop :=
| amid_ret : forall a w w', R w w' -> amid R (Ret a) w (Ok a) w'
| amid_throw : forall e w w', R w w' -> amid R (Throw e) w (Err e) w'
| amid_do : forall c k w w1 r w', R w w1 -> amid R (k (fst (exec c w1))) (snd (exec c w1)) r w' -> amid R (Do c k) w r w'.
(** the same, but the program is cut off, perhaps within a write *)
Inductive amid_cut {A} (R : world -> world -> Prop) : io A -> world -> world -> Prop :=
| cut_now : forall m w w', R w w' -> amid_cut R m w w'
| cut_write : forall p off t t1 t2 k w w1 w', R w w1 -> t = t1 ++ t2 -> R (snd (exec (CWrite p off t1) w1)) w' -> amid_cut R (Do (CWrite p off t) k) w w'
| cut_later : forall c k w w1 w', R w w1 -> amid_cut R (k (fst (exec c w1))) (snd (exec c w1)) w' -> amid_cut R (Do c k) w w'.

(** the files of a graph, and the folders they lie in, are left alone; the terminal too, in [leaves_all] *)
Definition leaves (g : gdbms) (w w' : world) : Prop :=
  forall p d, In p (files_of g) -> on_the_way p d -> entry_at d w' = entry_at d w.
Definition leaves_all (g : gdbms) (w w' : world) : Prop := leaves g w w' /\ w_in w' = w_in w /\ w_out w' = w_out w.
(** the folder [d], what lies in it, and the folders it lies in are left alone *)
Definition leaves_folder (d : path) (w w' : world) : Prop :=
  forall p, on_the_way d p \/ inside d p -> entry_at p w' = entry_at p w.
(** as [leaves_folder], and what the others leave is a disk *)
Definition orderly (d : path) (w w' : world) : Prop := leaves_folder d w w' /\ disk w'.
(** the folder [d] and what lies in it *)
Definition own (d p : path) : Prop := p = d \/ inside d p.
