(** * FS: file system, file programs and their execution

    The functions of /repo that touch files or the terminal are modelled as programs over the
    commands below.  [open(p, "r")]/[open(p, "r+")] followed by reading everything is
    [CRead]; [open(p, "w")] is [CCreate]; writing through a handle is [CWrite] at an explicit
    offset; [truncate()] is [CTrunc].  All text the program writes is ASCII, so offsets in
    characters and in bytes agree. *)
From Verif Require Import PyBase.

Definition path := list pystr.

Inductive entry :=
| EDir
| EFile (content : pystr).

Definition path_eq_dec (a b : path) : {a = b} + {a <> b} := list_eq_dec str_eq_dec a b.
Definition path_eqb (a b : path) : bool := if path_eq_dec a b then true else false.

Definition fs := list (path * entry).

Fixpoint fs_get (p : path) (f : fs) : option entry :=
  match f with
  | [] => None
  | (q, e) :: f' => if path_eqb p q then Some e else fs_get p f'
  end.

(** Replace in place or append. *)
Fixpoint fs_set (p : path) (e : entry) (f : fs) : fs :=
  match f with
  | [] => [(p, e)]
  | (q, e') :: f' => if path_eqb p q then (q, e) :: f' else (q, e') :: fs_set p e f'
  end.

Fixpoint fs_del (p : path) (f : fs) : fs :=
  match f with
  | [] => []
  | (q, e') :: f' => if path_eqb p q then fs_del p f' else (q, e') :: fs_del p f'
  end.

(** Parent directory of a path; the root is [[]]. *)
Definition parent (p : path) : path := removelast p.

(** [p] is an entry directly inside [d]. *)
Definition child_name (d p : path) : option pystr :=
  match p with
  | [] => None
  | _ => if path_eqb (removelast p) d then Some (List.last p []) else None
  end.

Definition children (d : path) (f : fs) : list pystr :=
  flat_map (fun pe => match child_name d (fst pe) with Some n => [n] | None => [] end) f.

(** The root always exists. *)
Definition fs_is_dir (p : path) (f : fs) : bool :=
  match p with
  | [] => true
  | _ => match fs_get p f with Some EDir => true | _ => false end
  end.
Definition fs_is_file (p : path) (f : fs) : bool :=
  match fs_get p f with Some (EFile _) => true | _ => false end.

Definition write_at (old : pystr) (off : nat) (t : pystr) : pystr :=
  firstn off old ++ repeat 0%N (off - List.length old) ++ t ++ skipn (off + List.length t) old.

Inductive cmd :=
| CRead (p : path)
| CWrite (p : path) (off : nat) (t : pystr)
| CTrunc (p : path) (len : nat)
| CCreate (p : path)
| CIsFile (p : path)
| CIsDir (p : path)
| CMkdir (p : path)            (* Path.mkdir(parents=True, exist_ok=True) *)
| CTouch (p : path)            (* Path.touch() *)
| CList (p : path)             (* names in a directory *)
| CUnlink (p : path)           (* os.remove *)
| CRmdir (p : path)            (* Path.rmdir *)
| CPrint (t : pystr)
| CInput.

Inductive resp :=
| RUnit
| RBool (b : bool)
| RText (t : pystr)
| RNames (l : list pystr)
| RErr (e : exn).

Record world := { w_fs : fs; w_in : list pystr; w_out : list pystr }.
Definition with_fs (w : world) (f : fs) : world := {| w_fs := f; w_in := w_in w; w_out := w_out w |}.

(** All non-empty prefixes of a path, shortest first. *)
Fixpoint prefixes (p : path) : list path :=
  match p with
  | [] => []
  | x :: p' => [x] :: List.map (cons x) (prefixes p')
  end.

(** mkdir -p: fails on the first prefix that is a file. *)
Fixpoint mkdirs (ps : list path) (f : fs) : option exn * fs :=
  match ps with
  | [] => (None, f)
  | p :: ps' =>
      match fs_get p f with
      | Some EDir => mkdirs ps' f
      | Some (EFile _) => (Some OSError, f)
      | None => mkdirs ps' (fs_set p EDir f)
      end
  end.

Definition exec (c : cmd) (w : world) : resp * world :=
  let f := w_fs w in
  match c with
  | CRead p =>
      match fs_get p f with
      | Some (EFile t) => (RText t, w)
      | Some EDir => (RErr OSError, w)
      | None => (RErr FileNotFoundError, w)
      end
  | CWrite p off t =>
      match fs_get p f with
      | Some (EFile old) => (RUnit, with_fs w (fs_set p (EFile (write_at old off t)) f))
      | _ => (RErr OSError, w)
      end
  | CTrunc p len =>
      match fs_get p f with
      | Some (EFile old) => (RUnit, with_fs w (fs_set p (EFile (firstn len old)) f))
      | _ => (RErr OSError, w)
      end
  | CCreate p =>
      match fs_get p f with
      | Some EDir => (RErr OSError, w)
      | Some (EFile _) => (RUnit, with_fs w (fs_set p (EFile []) f))
      | None => if fs_is_dir (parent p) f
                then (RUnit, with_fs w (fs_set p (EFile []) f))
                else (RErr FileNotFoundError, w)
      end
  | CIsFile p => (RBool (fs_is_file p f), w)
  | CIsDir p => (RBool (fs_is_dir p f), w)
  | CMkdir p =>
      match mkdirs (prefixes p) f with
      | (None, f') => (RUnit, with_fs w f')
      | (Some e, f') => (RErr e, with_fs w f')
      end
  | CTouch p =>
      match fs_get p f with
      | Some _ => (RUnit, w)
      | None => if fs_is_dir (parent p) f
                then (RUnit, with_fs w (fs_set p (EFile []) f))
                else (RErr FileNotFoundError, w)
      end
  | CList p => if fs_is_dir p f then (RNames (children p f), w)
               else match fs_get p f with
                    | None => (RErr FileNotFoundError, w)
                    | _ => (RErr OSError, w)
                    end
  | CUnlink p =>
      match fs_get p f with
      | Some (EFile _) => (RUnit, with_fs w (fs_del p f))
      | Some EDir => (RErr OSError, w)
      | None => (RErr FileNotFoundError, w)
      end
  | CRmdir p =>
      match fs_get p f with
      | Some EDir => match children p f with
                     | [] => (RUnit, with_fs w (fs_del p f))
                     | _ => (RErr OSError, w)
                     end
      | Some (EFile _) => (RErr OSError, w)
      | None => (RErr FileNotFoundError, w)
      end
  | CPrint t => (RUnit, {| w_fs := f; w_in := w_in w; w_out := w_out w ++ [t] |})
  | CInput =>
      match w_in w with
      | [] => (RErr EOFError, w)
      | t :: r => (RText t, {| w_fs := f; w_in := r; w_out := w_out w |})
      end
  end.

(** ** Programs *)
Inductive io (A : Type) :=
| Ret (a : A)
| Throw (e : exn)
| Do (c : cmd) (k : resp -> io A).
Arguments Ret {A} a.
Arguments Throw {A} e.
Arguments Do {A} c k.

Fixpoint io_bind {A B} (m : io A) (f : A -> io B) : io B :=
  match m with
  | Ret a => f a
  | Throw e => Throw e
  | Do c k => Do c (fun r => io_bind (k r) f)
  end.

Notation "'let!' x ':=' e 'in' k" := (io_bind e (fun x => k))
  (at level 200, x pattern, right associativity).

(** [try: m except ...: h e] ; [h e = None] when the exception is not caught. *)
Fixpoint io_catch {A} (m : io A) (h : exn -> option (io A)) : io A :=
  match m with
  | Ret a => Ret a
  | Throw e => match h e with Some m' => m' | None => Throw e end
  | Do c k => Do c (fun r => io_catch (k r) h)
  end.

Definition lift {A} (r : res A) : io A := match r with Ok a => Ret a | Err e => Throw e end.

(** Single commands as programs; a failing command raises. *)
Definition do_unit (c : cmd) : io unit :=
  Do c (fun r => match r with RErr e => Throw e | _ => Ret tt end).
Definition do_text (c : cmd) : io pystr :=
  Do c (fun r => match r with RText t => Ret t | RErr e => Throw e | _ => Throw OSError end).
Definition do_bool (c : cmd) : io bool :=
  Do c (fun r => match r with RBool b => Ret b | RErr e => Throw e | _ => Throw OSError end).
Definition do_names (c : cmd) : io (list pystr) :=
  Do c (fun r => match r with RNames l => Ret l | RErr e => Throw e | _ => Throw OSError end).

(** ** Sequential execution *)
Fixpoint run {A} (m : io A) (w : world) : res A * world :=
  match m with
  | Ret a => (Ok a, w)
  | Throw e => (Err e, w)
  | Do c k => let (r, w') := exec c w in run (k r) w'
  end.

(** ** Crashes: [crash m w w'] -- the process may die while running [m] from [w], leaving
    [w'].  It can die before any command, and in the middle of a write any prefix of the text may have
    reached the file. *)
Inductive crash {A} : io A -> world -> world -> Prop :=
| crash_now : forall m w, crash m w w
| crash_write : forall p off t t1 t2 k w,
    t = t1 ++ t2 -> crash (Do (CWrite p off t) k) w (snd (exec (CWrite p off t1) w))
| crash_later : forall c k w w',
    crash (k (fst (exec c w))) (snd (exec c w)) w' -> crash (Do c k) w w'.

(** ** Interleaving of two processes that share the file system (and have their own terminals,
    which are not modelled here: both use the input/output of the world). *)
Inductive interleave {A B} : io A -> io B -> world -> res A -> res B -> world -> Prop :=
| il_done : forall a b ra rb w,
    (match a with Ret x => ra = Ok x | Throw e => ra = Err e | Do _ _ => False end) ->
    (match b with Ret x => rb = Ok x | Throw e => rb = Err e | Do _ _ => False end) ->
    interleave a b w ra rb w
| il_left : forall c k b w ra rb w',
    interleave (k (fst (exec c w))) b (snd (exec c w)) ra rb w' ->
    interleave (Do c k) b w ra rb w'
| il_right : forall a c k w ra rb w',
    interleave a (k (fst (exec c w))) (snd (exec c w)) ra rb w' ->
    interleave a (Do c k) w ra rb w'.
