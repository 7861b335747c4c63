(** * SpecUsers: several people, each with a graph of their own (C80) *)
From Verif Require Import PyBase Statements FS Store Make Find Query Gdbms SpecGdbms.

(** what one can ask for, and what one is told *)
Inductive job := Ask (q : pystr) | Create | Delete.
Inductive told := Answered (b : bool) | Created (g : gdbms) | Deleted (z : Z) | Failed (e : exn).

Section SpecUsers.
  Context {rt : PyRt}.
  (** one job on the graph [n] in the folder [dir]; who is told of an exception goes on with the next job *)
  Definition do_job (dir : path) (n : pystr) (j : job) : io told :=
    io_catch
      match j with
      | Ask q => let! b := query q (graph_at dir n) in Ret (Answered b)
      | Create => let! g := get_new_gdbms_file_paths n dir in Ret (Created g)
      | Delete => let! z := delete_gdbms n dir in Ret (Deleted z)
      end (fun e => Some (Ret (Failed e))).
  Fixpoint do_jobs (dir : path) (n : pystr) (js : list job) : io (list told) :=
    match js with
    | [] => Ret []
    | j :: js' => let! t := do_job dir n j in let! ts := do_jobs dir n js' in Ret (t :: ts)
    end.
  (** what the people run: each has the name of a graph and a list of jobs *)
  Definition programs (dir : path) (us : list (pystr * list job)) : list (io (list told)) := map (fun u => do_jobs dir (fst u) (snd u)) us.
End SpecUsers.
