(** * SpecMany: any number of queries that work on one graph at the same time (C64)

    Each operation on a file is one step; the steps come in any order.  A process that is killed between two steps
    is one that never gets another turn. *)
From Verif Require Import PyBase Json SpecJson Statements FS Store SpecStore Make SpecMake Query.

(** [l] with its [i]th element (from 0) replaced *)
Definition replaced {A} (i : nat) (x : A) (l : list A) : list A := firstn i l ++ x :: skipn (S i) l.

(** [together ps w tr ps' w']: of the processes [ps], started in [w], there can be left [ps'] to do, the files being
    as in [w']; [tr] lists the operations in order, each with the number of the process. *)
Inductive together {A} : list (io A) -> world -> list (nat * cmd) -> list (io A) -> world -> Prop :=
| rest_for_now : forall ps w, together ps w [] ps w
| one_step : forall ps i c k w tr ps' w', nth_error ps i = Some (Do c k) ->
    together (replaced i (k (fst (exec c w))) ps) (snd (exec c w)) tr ps' w' ->
    together ps w ((i, c) :: tr) ps' w'.

(** [c] changes the file [p] *)
Definition changes (p : path) (c : cmd) : Prop := c = CCreate p \/ (exists off t, c = CWrite p off t) \/ (exists n, c = CTrunc p n).
(** nobody reads [p] after somebody began to change it *)
Definition reads_first (p : path) (tr : list (nat * cmd)) : Prop :=
  ~ exists t1 i c t2 j t3, tr = t1 ++ (i, c) :: t2 ++ (j, CRead p) :: t3 /\ changes p c.

Section SpecMany.
  Context {rt : PyRt}.
  (** [items] are all nodes of the MAKE of the [i]th query, numbered from some [z] *)
  Definition made_by (qs : list pystr) (i : nat) (items : list (pystr * pyval)) : Prop :=
    exists q l z, nth_error qs i = Some q /\ parse_make q = Ok (Some l) /\ acceptable (patterns_of l) z items.
  (** the property values of its MAKE, if it has one, can be written as JSON (see C27) *)
  Definition json_query (q : pystr) : Prop := forall l, parse_make q = Ok (Some l) -> Forall writable (patterns_of l).
End SpecMany.

(** the processes take turns as listed; a turn of a process that has ended is skipped *)
Fixpoint turns {A} (s : list nat) (ps : list (io A)) (w : world) : list (io A) * world :=
  match s with
  | [] => (ps, w)
  | i :: s' => match nth_error ps i with
               | Some (Do c k) => turns s' (replaced i (k (fst (exec c w))) ps) (snd (exec c w))
               | _ => turns s' ps w
               end
  end.
(** the operations they then do *)
Fixpoint turns_log {A} (s : list nat) (ps : list (io A)) (w : world) : list (nat * cmd) :=
  match s with
  | [] => []
  | i :: s' => match nth_error ps i with
               | Some (Do c k) => (i, c) :: turns_log s' (replaced i (k (fst (exec c w))) ps) (snd (exec c w))
               | _ => turns_log s' ps w
               end
  end.
