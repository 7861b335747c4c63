(** * RtLaws: laws of the Python runtime about data

    Used (besides [rt_ok]) by the theorems about what is stored.  They speak about CPython, not
    about /repo: which characters are word characters, what [repr(float)] and
    [ast.literal_eval] can return.  [ascii_data] in AsciiFacts shows that they can be met. *)
From Verif Require Import PyBase BaseFacts Json JsonFacts.

Record rt_data (rt : PyRt) : Prop := {
  rt_base : rt_ok rt;
  (* no word or space character is a surrogate *)
  rt_word_ch : forall c, u_word c = true -> ch_ok c;
  rt_space_ch : forall c, u_space c = true -> ch_ok c;
  (* the text json writes for a float is a JSON number with fraction or exponent, or one of NaN, Infinity and
     -Infinity, and reading it gives the same float *)
  rt_float : forall s t, f_repr s = Some t -> float_ok t;
  (* float() accepts digits.digits *)
  rt_frac : forall a b, a <> [] -> b <> [] -> forallb is_digit0 a = true -> forallb is_digit0 b = true ->
                        exists t, f_repr (a ++ 46%N :: b) = Some t;
  (* literal_eval returns values that json can write, or values it refuses *)
  rt_lit : forall s v, lit_ext s = Ok v -> val_ok v;
  rt_time : float_ok import_time;
}.
