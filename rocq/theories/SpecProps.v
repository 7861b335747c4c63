(** * SpecProps: the properties of any text (C60)

    A reader of property texts without regular expressions, and what the values it finds stand for. *)
From Verif Require Import PyBase Literal Props SpecText SpecValue SpecChecks.

Section SpecProps.
  Context {rt : PyRt}.

  (** ** Beginnings of a text *)
  (** the characters that strings and lists may contain *)
  Definition string_char (c : N) : bool := is_word c || is_space c || existsb (N.eqb c) (py "+'""@.").
  Definition list_char (c : N) : bool := is_word c || is_space c || existsb (N.eqb c) (py ",'"".@+").
  (** the beginning of [s] that is the word [w], letter case ignored *)
  Fixpoint word_at (w s : pystr) : option pystr :=
    match w, s with
    | [], _ => Some []
    | a :: w', b :: s' => if ci_eqb a b then option_map (cons b) (word_at w' s') else None
    | _ :: _, [] => None
    end.
  (** the longest beginning of characters that satisfy [p], if there is at least one *)
  Definition run_at (p : N -> bool) (s : pystr) : option pystr :=
    match while p s with [] => None | w => Some w end.
  (** what follows the character [c] *)
  Definition behind (c : N) (s : pystr) : option pystr :=
    match s with x :: s' => if N.eqb x c then Some s' else None | [] => None end.
  (** digits.digits *)
  Definition frac_at (s : pystr) : option pystr :=
    match run_at is_digit s, behind 46 (lstrip is_digit s) with
    | Some a, Some s' => option_map (fun b => a ++ py "." ++ b) (run_at is_digit s')
    | _, _ => None
    end.
  (** '[' characters ']' *)
  Definition list_at (s : pystr) : option pystr :=
    match behind 91 s with
    | Some s' => match run_at list_char s', behind 93 (lstrip list_char s') with
                 | Some b, Some _ => Some (py "[" ++ b ++ py "]")
                 | _, _ => None
                 end
    | None => None
    end.
  Definition or_else {A} (a b : option A) : option A := match a with Some _ => a | None => b end.
  Definition tagged (t : ptype) (o : option pystr) : option (ptype * pystr) := option_map (pair t) o.
  (** the first kind of value that [s] begins with; what follows it does not matter *)
  Definition value_at (s : pystr) : option (ptype * pystr) :=
    or_else (tagged PNone (word_at (py "null") s))
   (or_else (tagged PBool (or_else (word_at (py "true") s) (word_at (py "false") s)))
   (or_else (tagged PFloat (frac_at s))
   (or_else (tagged PInt (run_at is_digit0 s))
   (or_else (tagged PList (list_at s))
            (tagged PString (run_at string_char s)))))).

  (** a property at the beginning of [s]: key, kind, text of the value, and what follows.  Where there is white space
      but no value behind the colon, the last white space is the value. *)
  Definition prop_at (s : pystr) : option (pystr * ptype * pystr * pystr) :=
    match run_at is_word s, behind 58 (lstrip is_space (lstrip is_word s)) with
    | Some k, Some u =>
        let r := lstrip is_space u in
        match value_at r with
        | Some (t, v) => Some (k, t, v, skipn (List.length v) r)
        | None => match rev (while is_space u) with
                  | b :: _ => Some (k, PString, [b], r)
                  | [] => None
                  end
        end
    | _, _ => None
    end.
  (** [l] are the properties of [s], from left to right *)
  Inductive PropsOf : pystr -> list (pystr * ptype * pystr) -> Prop :=
  | PO_end : PropsOf [] []
  | PO_skip x s l : prop_at (x :: s) = None -> PropsOf s l -> PropsOf (x :: s) l
  | PO_take s k t v r l : prop_at s = Some (k, t, v, r) -> PropsOf r l -> PropsOf s ((k, t, v) :: l).

  (** ** What a value stands for *)
  Inductive reads : ptype -> pystr -> res pyval -> Prop :=
  | RD_null : reads PNone (py "null") (Ok VNone)
  | RD_null_case v : v <> py "null" -> reads PNone v (Err WiggleGraphIllegalPropertyValue)
  | RD_true : reads PBool (py "true") (Ok (VBool true))
  | RD_false : reads PBool (py "false") (Ok (VBool false))
  | RD_bool_case v : v <> py "true" -> v <> py "false" -> reads PBool v (Err WiggleGraphIllegalPropertyValue)
  | RD_float v t : f_repr v = Some t -> reads PFloat v (Ok (VFloat t))
  | RD_float_bad v : f_repr v = None -> reads PFloat v (Err WiggleGraphIllegalPropertyValue)
  | RD_int v : short_enough v -> reads PInt v (Ok (VInt (decimal v)))
  | RD_int_long v : ~ short_enough v -> reads PInt v (Err WiggleGraphIllegalPropertyValue)
  | RD_list v x : literal_eval (respelt v) = Ok x -> reads PList v (Ok x)
  | RD_list_syntax v : literal_eval (respelt v) = Err SyntaxError -> reads PList v (Err WiggleGraphIllegalPropertyValue)
  | RD_list_err v e : literal_eval (respelt v) = Err e -> e <> SyntaxError -> reads PList v (Err e)
  | RD_blank v : all_space v -> reads PString v (Err WiggleGraphIllegalPropertyValue)
  | RD_str v x : ~ all_space v -> Trimmed v x -> ~ In x reserved -> reads PString v (Ok (VStr x))
  | RD_reserved v x : ~ all_space v -> Trimmed v x -> In x reserved -> reads PString v (Err WiggleGraphIllegalPropertyValue).

  (** the elements without repetition, in the order in which they first occur *)
  Fixpoint firsts (l : list pystr) : list pystr :=
    match l with [] => [] | k :: l' => k :: filter (fun k' => negb (str_eqb k k')) (firsts l') end.
  (** the dictionary of a list of properties, or the error of the first one that cannot be read *)
  Inductive read_all : list (pystr * ptype * pystr) -> res (list (pystr * pyval)) -> Prop :=
  | RA_ok l kvs d : Forall2 (fun p kv => fst kv = fst (fst p) /\ reads (snd (fst p)) (snd p) (Ok (snd kv))) l kvs ->
      dictionary_of kvs d -> map fst d = firsts (map fst kvs) -> read_all l (Ok d)
  | RA_err l1 p l2 e : Forall (fun p => exists x, reads (snd (fst p)) (snd p) (Ok x)) l1 ->
      reads (snd (fst p)) (snd p) (Err e) -> read_all (l1 ++ p :: l2) (Err e).

  (** a text that may stand before a key: no colon, and no word character at its end *)
  Definition before_key (a : pystr) : Prop := ~ In 58%N a /\ (forall x a', a = a' ++ [x] -> is_word x = false).
End SpecProps.
