(** * OsNames: what the operating system makes of the names in a path

    In FS.v a path is a list of components and a command acts on that very list.  Here the
    operating system walks along the path, as POSIX says: every component but the last must be a
    folder, ".." leads one folder up, and a component longer than NAME_MAX bytes (in UTF-8) is
    refused.  It is the same programs that are run, with [os_exec] in the place of
    [exec].  The names come from input() at select_gdbms.py:76 and from the arguments of
    get_new_gdbms_file_paths (86-109) and delete_gdbms (162-182).

    Simplifications: no symbolic links, no permissions, no limit on the length of a whole path;
    NAME_MAX is that of the usual file systems of Linux. *)
From Verif Require Import PyBase FS.

Definition dotdot : pystr := py "..".

(** the size of a character and of a text in UTF-8 (os.fsencode); texts with surrogates are not modelled *)
Definition utf8_size (c : N) : N :=
  if N.ltb c 128 then 1 else if N.ltb c 2048 then 2 else if N.ltb c 65536 then 3 else 4.
Fixpoint byte_length (s : pystr) : N :=
  match s with [] => 0%N | c :: s' => (utf8_size c + byte_length s')%N end.
Definition NAME_MAX : N := 255.
Definition too_long (c : pystr) : bool := N.ltb NAME_MAX (byte_length c).

(** why a walk fails: ENOENT, ENOTDIR, ENAMETOOLONG *)
Inductive trouble := Missing | NotAFolder | TooLong.

(** The walk along [p] from the folder [d].  The result is where the last component is, whether
    it exists or not. *)
Fixpoint locate (d p : path) (f : fs) : path + trouble :=
  match p with
  | [] => inl d
  | c :: r =>
      if negb (fs_is_dir d f)
      then inr (match fs_get d f with None => Missing | Some _ => NotAFolder end)
      else if str_eqb c dotdot then locate (parent d) r f
      else if too_long c then inr TooLong
      else locate (d ++ [c]) r f
  end.

(** Path.mkdir(parents=True, exist_ok=True): missing folders are made on the way *)
Fixpoint make_way (d p : path) (f : fs) : option exn * fs :=
  match p with
  | [] => (None, f)
  | c :: r =>
      if str_eqb c dotdot then make_way (parent d) r f
      else if too_long c then (Some OSError, f)
      else match fs_get (d ++ [c]) f with
           | Some EDir => make_way (d ++ [c]) r f
           | Some (EFile _) => (Some OSError, f)
           | None => make_way (d ++ [c]) r (fs_set (d ++ [c]) EDir f)
           end
  end.

(** the path of a command, and the command with another path *)
Definition path_of (c : cmd) : path :=
  match c with
  | CRead p | CWrite p _ _ | CTrunc p _ | CCreate p | CIsFile p | CIsDir p | CMkdir p | CTouch p
  | CList p | CUnlink p | CRmdir p => p
  | CPrint _ | CInput => []
  end.
Definition at_path (c : cmd) (q : path) : cmd :=
  match c with
  | CRead _ => CRead q
  | CWrite _ off t => CWrite q off t
  | CTrunc _ n => CTrunc q n
  | CCreate _ => CCreate q
  | CIsFile _ => CIsFile q
  | CIsDir _ => CIsDir q
  | CMkdir _ => CMkdir q
  | CTouch _ => CTouch q
  | CList _ => CList q
  | CUnlink _ => CUnlink q
  | CRmdir _ => CRmdir q
  | CPrint t => CPrint t
  | CInput => CInput
  end.

(** What the caller sees when the walk fails.  Path.is_file and Path.is_dir answer False for
    ENOENT and ENOTDIR and raise for ENAMETOOLONG. *)
Definition refusal (c : cmd) (t : trouble) : resp :=
  match t, c with
  | TooLong, _ => RErr OSError
  | _, (CIsFile _ | CIsDir _) => RBool false
  | Missing, _ => RErr FileNotFoundError
  | NotAFolder, _ => RErr OSError
  end.

Definition os_exec (c : cmd) (w : world) : resp * world :=
  match c with
  | CPrint _ | CInput => exec c w
  | CMkdir p =>
      match make_way [] p (w_fs w) with
      | (None, f') => (RUnit, with_fs w f')
      | (Some e, f') => (RErr e, with_fs w f')
      end
  | _ =>
      match locate [] (path_of c) (w_fs w) with
      | inl q => exec (at_path c q) w
      | inr t => (refusal c t, w)
      end
  end.

Fixpoint os_run {A} (m : io A) (w : world) : res A * world :=
  match m with
  | Ret a => (Ok a, w)
  | Throw e => (Err e, w)
  | Do c k => let (r, w') := os_exec c w in os_run (k r) w'
  end.

(** crashes, as in FS.v *)
Inductive os_crash {A} : io A -> world -> world -> Prop :=
| os_crash_now : forall m w, os_crash m w w
| os_crash_write : forall p off t t1 t2 k w,
    t = t1 ++ t2 -> os_crash (Do (CWrite p off t) k) w (snd (os_exec (CWrite p off t1) w))
| os_crash_later : forall c k w w',
    os_crash (k (fst (os_exec c w))) (snd (os_exec c w)) w' -> os_crash (Do c k) w w'.
