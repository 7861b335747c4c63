(** * SpecConc: two processes that work on the same graph at the same time (C51)

    Each operation on a file is one step; the steps of the two processes come in any order. *)
From Verif Require Import PyBase FS.

(** [schedule a b w tr ra rb w']: the processes [a] and [b], started in [w], can end with the results
    [ra] and [rb] in [w']; [tr] lists the operations in order, [true] standing for the first process. *)
Inductive schedule {A B} : io A -> io B -> world -> list (bool * cmd) -> res A -> res B -> world -> Prop :=
| sc_done : forall a b ra rb w,
    (match a with Ret x => ra = Ok x | Throw e => ra = Err e | Do _ _ => False end) ->
    (match b with Ret x => rb = Ok x | Throw e => rb = Err e | Do _ _ => False end) ->
    schedule a b w [] ra rb w
| sc_left : forall c k b w tr ra rb w',
    schedule (k (fst (exec c w))) b (snd (exec c w)) tr ra rb w' ->
    schedule (Do c k) b w ((true, c) :: tr) ra rb w'
| sc_right : forall a c k w tr ra rb w',
    schedule a (k (fst (exec c w))) (snd (exec c w)) tr ra rb w' ->
    schedule a (Do c k) w ((false, c) :: tr) ra rb w'.

(** nobody reads the counter file [p] after somebody began to replace it *)
Definition reads_before_writes (p : path) (tr : list (bool * cmd)) : Prop :=
  ~ exists t1 x t2 y t3, tr = t1 ++ (x, CCreate p) :: t2 ++ (y, CRead p) :: t3.

(** the given list says whose turn it is; when it is used up, or a process has ended, the other goes on *)
Fixpoint solo_run {A} (who : bool) (m : io A) (w : world) : list (bool * cmd) * res A * world :=
  match m with
  | Ret a => ([], Ok a, w)
  | Throw e => ([], Err e, w)
  | Do c k => let '(tr, r, w') := solo_run who (k (fst (exec c w))) (snd (exec c w)) in ((who, c) :: tr, r, w')
  end.
Fixpoint take_turns {A B} (s : list bool) (a : io A) (b : io B) (w : world) {struct s} : list (bool * cmd) * res A * res B * world :=
  match s with
  | [] => let '(tr1, ra, w1) := solo_run true a w in let '(tr2, rb, w2) := solo_run false b w1 in (tr1 ++ tr2, ra, rb, w2)
  | true :: s' =>
      match a with
      | Do c k => let '(tr, ra, rb, w') := take_turns s' (k (fst (exec c w))) b (snd (exec c w)) in ((true, c) :: tr, ra, rb, w')
      | _ => take_turns s' a b w
      end
  | false :: s' =>
      match b with
      | Do c k => let '(tr, ra, rb, w') := take_turns s' a (k (fst (exec c w))) (snd (exec c w)) in ((false, c) :: tr, ra, rb, w')
      | _ => take_turns s' a b w
      end
  end.
