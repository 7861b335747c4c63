(** * SpecHistory: sequences of MAKE and FIND calls on one graph (C24, C25, C34) *)
From Verif Require Import PyBase Json SpecJson Statements FS Store SpecStore Make SpecMake Find.

Inductive call := CallMake (l : list parsed_make) | CallFind (f : parsed_find).
Inductive outcome := Raised (e : exn) | Made (b : bool) | Found (r : option (list (bool * bool))).

Section SpecHistory.
  Context {rt : PyRt}.
  (** one call, whatever it raises being caught by the caller *)
  Definition perform (g : gdbms) (c : call) (w : world) : outcome * world :=
    match c with
    | CallMake l => let (r, w') := run (make l g) w in (match r with Ok b => Made b | Err e => Raised e end, w')
    | CallFind f => let (r, w') := run (find f g) w in (match r with Ok x => Found x | Err e => Raised e end, w')
    end.
  Fixpoint perform_all (g : gdbms) (cs : list call) (w : world) : list outcome * world :=
    match cs with
    | [] => ([], w)
    | c :: cs' => let (o, w1) := perform g c w in let (os, w2) := perform_all g cs' w1 in (o :: os, w2)
    end.

  Definition patterns_in (c : call) : list pattern := match c with CallMake l => patterns_of l | CallFind _ => [] end.
  (** labels and names as the parser returns them, property values that json can write *)
  Definition call_ok (c : call) : Prop :=
    Forall names_ok (patterns_in c) /\ Forall writable (patterns_in c).

  (** what a call may do in a wedged graph *)
  Definition refused (c : call) (o : outcome) : Prop :=
    match c with
    | CallMake l => exists e, o = Raised e
    | CallFind _ => (exists e, o = Raised e) \/ o = Found None
    end.
End SpecHistory.
