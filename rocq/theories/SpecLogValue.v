(** * SpecLogValue: the records about the values of a property list (C76) *)
From Verif Require Import PyBase Log.

Section SpecLogValue.
  (** str() of a list *)
  Context (list_text : pyval -> pystr).
  (** [t] is str() of the value; floats are held as json writes them, so the infinite one has another text *)
  Inductive str_is : pyval -> pystr -> Prop :=
  | str_true : str_is (VBool true) (py "True")
  | str_false : str_is (VBool false) (py "False")
  | str_int z : str_is (VInt z) (str_of_Z z)
  | str_float t : t <> py "Infinity" -> str_is (VFloat t) t
  | str_inf : str_is (VFloat (py "Infinity")) (py "inf")
  | str_str s : str_is (VStr s) s
  | str_other v : v = VNone \/ (exists l, v = VList l) \/ (exists d, v = VDict d) \/ v = VOpaque -> str_is v (list_text v).
  (** what a value is called; a list may hold, and be, any literal *)
  Inductive called : pyval -> pystr -> Prop :=
  | called_bool b : called (VBool b) []
  | called_float t : called (VFloat t) (py "a float: ")
  | called_int z : called (VInt z) (py "an int: ")
  | called_string s : called (VStr s) (py "a string: ")
  | called_list v : called v (py "a list: ").
  (** null leaves no record, any other value exactly one *)
  Inductive recorded : pyval -> list record -> Prop :=
  | recorded_null : recorded VNone []
  | recorded_value v what s text : called v what -> str_is v s -> recorded v [(DEBUG, text ++ py " was determined to be " ++ what ++ s)].
End SpecLogValue.
