(** * SpecJson: the values that can be saved (C26-C29)

    Uses the values of PyBase and [is_high] (U+D800..U+DBFF) of Json only. *)
From Verif Require Import PyBase Json.

(** Characters: code points that are not the first half of a UTF-16 surrogate pair. *)
Definition ch_ok (c : N) : Prop := (c < 1114112)%N /\ is_high c = false.
Definition str_ok (s : pystr) : Prop := Forall ch_ok s.

(** the texts that json's NUMBER_RE matches *)
Definition json_int (i : pystr) : Prop :=
  i = [48%N] \/ exists c ds, i = c :: ds /\ between 49 57 c = true /\ Forall (fun c => is_digit0 c = true) ds.
Definition json_frac (fr : pystr) : Prop :=
  fr = [] \/ exists ds, fr = 46%N :: ds /\ ds <> [] /\ Forall (fun c => is_digit0 c = true) ds.
Definition json_exp (ex : pystr) : Prop :=
  ex = [] \/ exists e sg ds, ex = e :: sg ++ ds /\ (e = 101%N \/ e = 69%N) /\
     (sg = [] \/ sg = [45%N] \/ sg = [43%N]) /\ ds <> [] /\ Forall (fun c => is_digit0 c = true) ds.

Section SpecJson.
  Context {rt : PyRt}.

  (** a float text that json writes and reads back: a number with fraction or exponent that is
      its own repr, or one of json's three constants *)
  Definition json_number (t : pystr) : Prop :=
    exists neg i fr ex, t = neg ++ i ++ fr ++ ex /\ (neg = [] \/ neg = [45%N]) /\ json_int i /\
                        json_frac fr /\ json_exp ex /\ fr ++ ex <> [].
  Definition float_ok (t : pystr) : Prop :=
    (json_number t /\ f_repr t = Some t) \/ t = py "NaN" \/ t = py "Infinity" \/ t = py "-Infinity".

  (** values that the program can hold; [VOpaque] is allowed *)
  Inductive val_ok : pyval -> Prop :=
  | vo_none : val_ok VNone
  | vo_bool : forall b, val_ok (VBool b)
  | vo_int : forall z, val_ok (VInt z)
  | vo_float : forall t, float_ok t -> val_ok (VFloat t)
  | vo_str : forall s, str_ok s -> val_ok (VStr s)
  | vo_list : forall l, Forall val_ok l -> val_ok (VList l)
  | vo_dict : forall d, Forall (fun kv => str_ok (fst kv) /\ val_ok (snd kv)) d -> NoDup (keys d) -> val_ok (VDict d)
  | vo_opaque : val_ok VOpaque.

  (** no [VOpaque] inside *)
  Fixpoint ser (v : pyval) : bool :=
    match v with
    | VOpaque => false
    | VList l => forallb ser l
    | VDict d => forallb (fun kv => ser (snd kv)) d
    | _ => true
    end.

  (** the same for the members of an object *)
  Definition dict_ok (d : list (pystr * pyval)) : Prop := val_ok (VDict d).
  Definition dict_ser (d : list (pystr * pyval)) : bool := forallb (fun kv => ser (snd kv)) d.
End SpecJson.
