(** * AsciiRt: a concrete runtime, used to show that hypotheses can be met and
    to compute examples.  Not used by any general theorem. *)
From Verif Require Import PyBase Json.

Definition is_json_number (s : pystr) : bool :=
  let s' := match s with c :: r => if N.eqb c 45 then r else s | [] => s end in
  match scan_int s' with
  | None => false
  | Some (i, s1) =>
      let (fr, s2) := scan_frac s1 in
      let (ex, s3) := scan_exp s2 in
      match s3, fr ++ ex with [], _ :: _ => true | _, _ => false end
  end.

Fixpoint drop_zeros (s : pystr) : pystr :=
  match s with
  | c :: ((d :: _) as r) => if N.eqb c 48 && is_digit0 d then drop_zeros r else s
  | _ => s
  end.

(** the zeros at the end of a fraction, but for its first digit *)
Fixpoint cut_tail (s : pystr) : pystr :=
  match s with
  | [] => []
  | c :: r => match cut_tail r with [] => if N.eqb c 48 then [] else [c] | t => c :: t end
  end.
Fixpoint cut_zeros (s : pystr) : pystr :=
  match s with
  | [] => []
  | c :: r => if N.eqb c 46 then match r with d :: r' => if forallb is_digit0 r' then c :: d :: cut_tail r' else s | [] => s end
              else c :: cut_zeros r
  end.

(** repr(float(s)) as CPython gives it for texts without an exponent and of at most 15 digits. *)
Definition ascii_f_repr (s : pystr) : option pystr :=
  let t := cut_zeros (drop_zeros s) in
  if is_json_number t && str_eqb (drop_zeros t) t && str_eqb (cut_zeros t) t then Some t else None.

Definition ascii_rt : PyRt := {|
  u_word := fun _ => false; u_space := fun _ => false; u_digit := fun _ => false;
  u_upper := fun _ => false; u_lowertitle := fun _ => false; u_lower := fun c => [c];
  u_upcase := fun c => [c];
  u_ci := fun _ => None;
  f_repr := ascii_f_repr; int_ext := fun _ => None; int_fits := fun n => N.leb n 4300; lit_ext := fun _ => Err SyntaxError;
  set_order := fun l => l; zset_order := fun l => l; set_mixed := fun a b => a ++ b; import_time := py "1700000000.5" |}.
