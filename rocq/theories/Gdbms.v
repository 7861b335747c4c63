(** * Gdbms: creating, choosing and deleting graphs
    wiggle_shell/core/select_gdbms (all files) and wiggle_shell/wiggleshell.py:7-21.

    Simplifications: a [Path] is the list of its components ([..] is an ordinary
    component, no symbolic links, no limit on the length of names); prompts are not recorded here (see [Terminal]).  Loops
    over the user's input are bounded by [fuel]; see [shell_fuel] in Spec for its adequacy. *)
From Verif Require Import PyBase Json FS Store Query.

(** ** pathlib *)

(** Split at '/'. *)
Fixpoint split_slash (s : pystr) (acc : pystr) : list pystr :=
  match s with
  | [] => [rev acc]
  | c :: s' => if N.eqb c 47 then rev acc :: split_slash s' [] else split_slash s' (c :: acc)
  end.

(** the components pathlib keeps: no empty ones and no '.' *)
Definition kept_part (c : pystr) : bool := negb (str_eqb c []) && negb (str_eqb c (py ".")).
Definition path_parts (s : pystr) : path := List.filter kept_part (split_slash s []).

(** [base.joinpath(s)]: an absolute [s] replaces [base]; DBMS_FOLDER is absolute. *)
Definition joinpath (base : path) (s : pystr) : path :=
  match s with
  | c :: _ => if N.eqb c 47 then path_parts s else base ++ path_parts s
  | [] => base
  end.

(** A null byte in a path makes [mkdir] raise ValueError. *)
Definition has_nul (p : path) : bool := existsb (existsb (N.eqb 0)) p.
Definition mkdir (p : path) : io unit :=
  if has_nul p then Throw ValueError else do_unit (CMkdir p).

(** ** select_database_file.py, select_index_file.py, select_wiggle_number_file.py *)
Definition db_file (dir : path) (name : pystr) : path :=
  joinpath dir (name ++ py "/database_" ++ name ++ py ".json").
Definition idx_file (dir : path) (name : pystr) : path :=
  joinpath dir (name ++ py "/indexes_" ++ name ++ py ".json").
Definition wn_file (dir : path) (name : pystr) : path :=
  joinpath dir (name ++ py "/wiggle_number_" ++ name ++ py ".txt").

(** the common body of create_new_database (select_database_file.py:7-30), create_new_indexes_file
    (select_index_file.py:7-36) and create_new_wiggle_number_file (select_wiggle_number_file.py:9-30) *)
Definition create_file (dir : path) (name : pystr) (file : path) (content : pystr) : io path :=
  let! _ := mkdir (joinpath dir name) in
  let! e := do_bool (CIsFile file) in
  if e then Throw ValueError else
  let! _ := do_unit (CTouch file) in
  let! _ := do_unit (CCreate file) in
  let! _ := do_unit (CWrite file 0 content) in
  Ret file.

(** select_index_file.py:27-31 *)
Definition new_index : pyval :=
  VDict [(NODE_RELATIONSHIPS, VDict []); (NODE_LABELS, VList []); (RELATIONSHIP_NAMES, VList [])].

Definition create_new_database (name : pystr) (dir : path) : io path :=
  create_file dir name (db_file dir name) (dump_text Compact (VDict [])).
Definition create_new_indexes_file (name : pystr) (dir : path) : io path :=
  create_file dir name (idx_file dir name) (dump_text Compact new_index).
Definition create_new_wiggle_number_file (name : pystr) (dir : path) : io path :=
  create_file dir name (wn_file dir name) (py "0").

(** select_database_file.py:33-45, select_index_file.py:39-53, select_wiggle_number_file.py:33-47 *)
Definition existing_file (file : path) : io path :=
  let! e := do_bool (CIsFile file) in
  if e then Ret file else Throw FileNotFoundError.

(** ** select_gdbms.py *)

(** [a <= b] for Python strings (code points) *)
Fixpoint str_leb (a b : pystr) : bool :=
  match a, b with
  | [], _ => true
  | _ :: _, [] => false
  | x :: a', y :: b' => N.ltb x y || (N.eqb x y && str_leb a' b')
  end.
(** sorted(...) *)
Fixpoint insert_str (x : pystr) (l : list pystr) : list pystr :=
  match l with
  | [] => [x]
  | y :: l' => if str_leb x y then x :: l else y :: insert_str x l'
  end.
Definition sort_strs (l : list pystr) : list pystr := fold_right insert_str [] l.

Fixpoint filter_io {A} (p : A -> io bool) (l : list A) : io (list A) :=
  match l with
  | [] => Ret []
  | x :: l' => let! b := p x in
               let! r := filter_io p l' in
               Ret (if b then x :: r else r)
  end.

(** select_gdbms.py:23-41 list_existing_dbms *)
Definition list_existing_dbms (skips : list pystr) (dir : path) : io (list pystr) :=
  let! names := do_names (CList dir) in
  let! l := filter_io (fun n => let! d := do_bool (CIsDir (dir ++ [n])) in
                                Ret (d && negb (s_mem n skips))) names in
  Ret (sort_strs l).

Definition SKIPS : list pystr := [py "tests"; py "__pycache__"].

(** zip(ascii_uppercase, existing_databases) *)
Definition ascii_uppercase : list pystr := map (fun c => [N_of_ascii c]) (list_ascii_of_string "ABCDEFGHIJKLMNOPQRSTUVWXYZ").
Definition letters (l : list pystr) : list (pystr * pystr) := combine ascii_uppercase l.

Fixpoint print_all (l : list pystr) : io unit :=
  match l with
  | [] => Ret tt
  | t :: l' => let! _ := do_unit (CPrint t) in print_all l'
  end.

(** select_gdbms.py:44-66 get_and_display_available_dbms *)
Definition get_and_display_available_dbms (dir : path) : io (option (list (pystr * pystr))) :=
  let! l := list_existing_dbms SKIPS dir in
  match l with
  | [] => Ret None
  | _ =>
      let d := letters l in
      let! _ := do_unit (CPrint (10%N :: py "Letter      db_name")) in
      let! _ := print_all (map (fun kv => fst kv ++ py "           " ++ snd kv) d) in
      let! _ := do_unit (CPrint [10%N]) in
      Ret (Some d)
  end.

Definition taken_msg (name : pystr) : pystr := name ++ py " is already taken, please choose another name.".

(** select_gdbms.py:86-109 get_new_gdbms_file_paths *)
Definition get_new_gdbms_file_paths (name : pystr) (dir : path) : io gdbms :=
  io_catch
    (let! d := create_new_database name dir in
     let! i := create_new_indexes_file name dir in
     let! w := create_new_wiggle_number_file name dir in
     let! _ := do_unit (CPrint (py "Using " ++ name)) in
     Ret {| database_fp := d; indexes_fp := i; wiggle_number_fp := w |})
    (fun e => if is_value_error e
              then Some (let! _ := do_unit (CPrint (taken_msg name)) in Throw e) else None).

(** select_gdbms.py:69-83 create_new_dbms *)
Fixpoint create_new_dbms (fuel : nat) (dir : path) : io gdbms :=
  match fuel with
  | O => Throw OutOfFuel
  | S f =>
      let! name := do_text CInput in
      let! r := io_catch (let! g := get_new_gdbms_file_paths name dir in Ret (Some g))
                         (fun e => if is_value_error e
                                   then Some (let! _ := do_unit (CPrint (taken_msg name)) in Ret None)
                                   else None) in
      match r with
      | Some g => Ret g
      | None => create_new_dbms f dir
      end
  end.

(** select_gdbms.py:112-153 get_existing_gdbms; line 120 lists DBMS_FOLDER whatever directory was given *)
Fixpoint get_existing_gdbms (fuel : nat) (dbms_folder dir : path) : io gdbms :=
  match fuel with
  | O => Throw OutOfFuel
  | S f =>
      let! choices := get_and_display_available_dbms dbms_folder in
      match choices with
      | None | Some [] =>
          let! _ := do_unit (CPrint (py "There are no databases, please create a new database.")) in
          create_new_dbms f dir
      | Some d =>
          let! sel := do_text CInput in
          match d_get sel d with
          | None =>
              let! _ := do_unit (CPrint (sel ++ py " does not exist, please select an existing DB")) in
              get_existing_gdbms f dbms_folder dir
          | Some name =>
              let! r := io_catch
                (let! a := existing_file (db_file dir name) in
                 let! b := existing_file (idx_file dir name) in
                 let! c := existing_file (wn_file dir name) in
                 Ret (Some {| database_fp := a; indexes_fp := b; wiggle_number_fp := c |}))
                (fun e => match e with
                          | FileNotFoundError =>
                              Some (let! _ := do_unit (CPrint (py "Database files could not be found ")) in Ret None)
                          | _ => None
                          end) in
              match r with
              | Some g => Ret g
              | None => get_existing_gdbms f dbms_folder dir
              end
          end
      end
  end.

(** ** glob.glob and fnmatch, as used at select_gdbms.py:175 *)
Inductive gitem :=
| GAny                                   (* the star *)
| GOne                                   (* ? *)
| GLit (c : N)
| GSet (neg : bool) (ranges : list (N * option N)).     (* single characters, and ranges *)

Fixpoint glob_ranges (fuel : nat) (s : pystr) : list (N * option N) :=
  match fuel with
  | O => []
  | S f => match s with
           | a :: d :: b :: s' => if N.eqb d 45 then (a, Some b) :: glob_ranges f s'
                                  else (a, None) :: glob_ranges f (d :: b :: s')
           | a :: s' => (a, None) :: glob_ranges f s'
           | [] => []
           end
  end.
(** fnmatch.translate removes ranges that run backward *)
Definition glob_forward (r : N * option N) : bool := match snd r with Some b => N.leb (fst r) b | None => true end.
(** and only then looks whether what is left begins with an exclamation mark: this may be one that followed the ranges
    removed, or even the start of a range, of which the hyphen and the end are then listed *)
Definition glob_set (neg : bool) (l : list (N * option N)) : gitem :=
  if neg then GSet true (List.filter glob_forward l)
  else match List.filter glob_forward l with
       | (c, o) :: l' => if N.eqb c 33 then GSet true (match o with Some b => (45%N, None) :: (b, None) :: l' | None => l' end)
                         else GSet false ((c, o) :: l')
       | [] => GSet false []
       end.
(** up to the closing bracket *)
Fixpoint glob_class (s : pystr) : option (pystr * pystr) :=
  match s with
  | [] => None
  | c :: s' => if N.eqb c 93 then Some ([], s')
               else match glob_class s' with Some (t, r) => Some (c :: t, r) | None => None end
  end.
Definition glob_bracket (s : pystr) : option (gitem * pystr) :=
  let (neg, s1) := match s with c :: r => if N.eqb c 33 then (true, r) else (false, s) | [] => (false, s) end in
  let body := match s1 with
              | c :: r => if N.eqb c 93
                          then match glob_class r with Some (t, r') => Some (c :: t, r') | None => None end
                          else glob_class s1
              | [] => None
              end in
  match body with
  | Some (t, r) => Some (glob_set neg (glob_ranges (S (List.length t)) t), r)
  | None => None
  end.
Fixpoint glob_parse (fuel : nat) (s : pystr) : list gitem :=
  match fuel with
  | O => []
  | S f =>
      match s with
      | [] => []
      | c :: s' =>
          if N.eqb c 42 then GAny :: glob_parse f s'
          else if N.eqb c 63 then GOne :: glob_parse f s'
          else if N.eqb c 91 then
            match glob_bracket s' with
            | Some (g, r) => g :: glob_parse f r
            | None => GLit c :: glob_parse f s'
            end
          else GLit c :: glob_parse f s'
      end
  end.
Definition in_ranges (c : N) (l : list (N * option N)) : bool :=
  existsb (fun r => match snd r with Some b => between (fst r) b c | None => N.eqb (fst r) c end) l.
Fixpoint glob_items (l : list gitem) (s : pystr) : bool :=
  match l with
  | [] => match s with [] => true | _ => false end
  | GAny :: l' =>
      (fix any (s : pystr) : bool :=
         glob_items l' s || match s with [] => false | _ :: s' => any s' end) s
  | GOne :: l' => match s with _ :: s' => glob_items l' s' | [] => false end
  | GLit c :: l' => match s with x :: s' => N.eqb c x && glob_items l' s' | [] => false end
  | GSet neg r :: l' => match s with x :: s' => xorb neg (in_ranges x r) && glob_items l' s' | [] => false end
  end.
(** fnmatch.fnmatch *)
Definition fnmatch (pat name : pystr) : bool := glob_items (glob_parse (S (List.length pat)) pat) name.
Definition has_magic (c : pystr) : bool := existsb (fun x => N.eqb x 42 || N.eqb x 63 || N.eqb x 91) c.
Definition is_hidden (n : pystr) : bool := match n with c :: _ => N.eqb c 46 | [] => false end.

(** names of a directory; glob ignores OSError *)
Definition list_or_empty (d : path) : io (list pystr) :=
  io_catch (do_names (CList d)) (fun _ => Some (Ret [])).

Fixpoint concat_io {A B} (f : A -> io (list B)) (l : list A) : io (list B) :=
  match l with
  | [] => Ret []
  | x :: l' => let! a := f x in let! b := concat_io f l' in Ret (a ++ b)
  end.

Definition glob1 (d : path) (pat : pystr) : io (list path) :=
  let! names := list_or_empty d in
  Ret (map (fun n => d ++ [n])
           (List.filter (fun n => (is_hidden pat || negb (is_hidden n)) && fnmatch pat n) names)).

(** one intermediate component: [magic] is true once a component with a wild card has been seen *)
Fixpoint glob_dirs (magic : bool) (dirs : list path) (comps : list pystr) : io (list path) :=
  match comps with
  | [] => Ret dirs
  | c :: comps' =>
      if has_magic c then
        let! l := concat_io (fun d => glob1 d c) dirs in
        let! l' := filter_io (fun p => do_bool (CIsDir p)) l in
        glob_dirs true l' comps'
      else
        let next := map (fun d => d ++ [c]) dirs in
        if magic then
          let! l' := filter_io (fun p => let! a := do_bool (CIsDir p) in
                                         let! b := do_bool (CIsFile p) in Ret (a || b)) next in
          glob_dirs true l' comps'
        else glob_dirs false next comps'
  end.

(** glob(f"{db_path}/STAR") *)
Definition glob_star (p : path) : io (list path) :=
  let! dirs := glob_dirs false [[]] p in
  concat_io (fun d => glob1 d [42%N]) dirs.

Fixpoint remove_all (l : list path) : io unit :=
  match l with
  | [] => Ret tt
  | p :: l' => let! _ := do_unit (CUnlink p) in remove_all l'
  end.

(** select_gdbms.py:162-182 delete_gdbms *)
Definition delete_gdbms (name : pystr) (dir : path) : io Z :=
  let p := joinpath dir (name ++ py "/") in
  let! d := do_bool (CIsDir p) in
  if negb d then Throw PlainException else
  let! files := glob_star p in
  let! _ := remove_all files in
  let! _ := do_unit (CRmdir p) in
  Ret 0%Z.

(** select_gdbms.py:185-199 select_gdbms *)
Definition select_gdbms (fuel : nat) (dbms_folder : path) : io gdbms :=
  let! c := do_text CInput in
  if str_eqb c (py "y") || str_eqb c (py "yes")
  then get_existing_gdbms fuel dbms_folder dbms_folder
  else create_new_dbms fuel dbms_folder.

(** wiggleshell.py:7-44 start_wiggle_shell.  Simplification: of line 20, which prints the three
    paths behind [Using], only the first word is recorded (see [Terminal]). *)
Definition start_wiggle_shell `{PyRt} (fuel : nat) (dbms_folder : path) : io unit :=
  let! _ := print_all [py "**********************"; py "Welcome to WiggleGraph";
                       py "**********************" ++ [10%N]] in
  let! g := select_gdbms fuel dbms_folder in
  let! _ := do_unit (CPrint (py "Using ")) in
  shell_loop fuel g.
