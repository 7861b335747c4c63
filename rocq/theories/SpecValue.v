(** * SpecValue: property values as they are written (C13-C16)

    A written value is the data of its text; [show_*] is the text and [*_value] says which Python value it
    stands for.  Only the vocabulary of PyBase is used. *)
From Verif Require Import PyBase Regex SpecText SpecPattern.

(** the six types of a property, as named groups of the expression that finds properties *)
Definition type_groups : list gname := [GNone; GBool; GFloat; GInt; GList; GString].

Section SpecValue.
  Context {rt : PyRt}.

  (** ** Scalars *)
  Inductive wscalar :=
  | SNull                                (* null *)
  | SBool (b : bool)                     (* true, false *)
  | SInt (ds : pystr)                    (* digits *)
  | SFrac (a b : pystr)                  (* digits.digits *)
  | SStr (q : N) (c w : pystr).          (* the quote q, the content c, the quote q, white space w *)
  Definition show_scalar (s : wscalar) : pystr :=
    match s with
    | SNull => py "null"
    | SBool true => py "true"
    | SBool false => py "false"
    | SInt ds => ds
    | SFrac a b => a ++ py "." ++ b
    | SStr q c w => [q] ++ c ++ [q] ++ w
    end.

  Definition Digits (ds : pystr) : Prop := ds <> [] /\ Forall (fun c => (48 <= c <= 57)%N) ds.
  (** the number written by decimal digits *)
  Definition decimal (ds : pystr) : Z := fold_left (fun z c => (10 * z + (Z.of_N c - 48))%Z) ds 0%Z.
  Definition quote_mark (q : N) : Prop := q = 39%N \/ q = 34%N.
  Definition blank_ch (c : N) : Prop := is_space c = true.

  (** [t] is [s] without all the characters satisfying [p] at its two ends *)
  Definition cut (p : N -> Prop) (s t : pystr) : Prop :=
    exists a b, s = a ++ t ++ b /\ Forall p a /\ Forall p b /\
      (forall c t', t = c :: t' -> ~ p c) /\ (forall c t', t = t' ++ [c] -> ~ p c).
  (** double quotes, then single quotes, then white space are cut off *)
  Definition Trimmed (s t : pystr) : Prop :=
    exists u v, cut (eq 34%N) s u /\ cut (eq 39%N) u v /\ cut blank_ch v t.
  (** words that are refused as strings *)
  Definition reserved : list pystr :=
    [py "Null"; py "None"; py "none"; py "true"; py "True"; py "false"; py "False"].

  (** the characters of a string property *)
  Definition string_text (c : pystr) : Prop :=
    Forall (fun x => is_word x = true \/ is_space x = true \/ In x (py "+'""@.")) c.
  (** not more digits than the interpreter converts *)
  Definition short_enough (ds : pystr) : Prop := int_fits (N.of_nat (length ds)) = true.
  Definition scalar_written (s : wscalar) : Prop :=
    match s with
    | SNull | SBool _ => True
    | SInt ds => Digits ds
    | SFrac a b => Digits a /\ Digits b
    | SStr q c w => quote_mark q /\ string_text c /\ all_space w
    end.
  (** the Python value of a scalar property *)
  Definition scalar_value (s : wscalar) (v : pyval) : Prop :=
    match s with
    | SNull => v = VNone
    | SBool b => v = VBool b
    | SInt ds => v = VInt (decimal ds)
    | SFrac a b => exists t, f_repr (a ++ py "." ++ b) = Some t /\ v = VFloat t
    | SStr q c w => exists x, Trimmed ([q] ++ c ++ [q] ++ w) x /\ ~ In x reserved /\ v = VStr x
    end.
  (** A string without white space behind it, whose content neither starts nor ends with a quote or white
      space and is not reserved. *)
  Definition edge (x : N) : Prop := blank_ch x \/ quote_mark x.
  Definition bare_content (c : pystr) : Prop :=
    (forall x c', c = x :: c' -> ~ edge x) /\ (forall x c', c = c' ++ [x] -> ~ edge x) /\ ~ In c reserved.
  Definition plain_scalar (s : wscalar) : Prop :=
    match s with SStr q c w => w = [] /\ bare_content c | SInt ds => short_enough ds | _ => True end.
  Definition plain_value (s : wscalar) (v : pyval) : Prop :=
    match s with SStr q c w => v = VStr c | _ => scalar_value s v end.

  (** ** Lists: elements with blanks around them, separated by commas *)
  Inductive welem :=
  | Elem (s : wscalar)                   (* null, true, false, number or quoted string *)
  | Bare (w : pystr).                    (* a word without quotes *)
  Definition show_elem (e : welem) : pystr := match e with Elem s => show_scalar s | Bare w => w end.
  Definition wlist := list (pystr * welem * pystr).
  Fixpoint show_elems (l : wlist) : pystr :=
    match l with
    | [] => []
    | [(a, e, b)] => a ++ show_elem e ++ b
    | (a, e, b) :: l' => a ++ show_elem e ++ b ++ py "," ++ show_elems l'
    end.
  Definition inner_blank (a : pystr) : Prop := Forall (fun c => c = 32%N \/ c = 9%N \/ c = 10%N) a.
  (** the characters of a string in a list *)
  Definition list_text (q : N) (c : pystr) : Prop :=
    Forall (fun x => (is_word x = true \/ is_space x = true \/ In x (py ",'"".@+")) /\
                     x <> q /\ x <> 10%N /\ x <> 13%N) c.
  (** Python's keywords *)
  Definition python_keywords : list pystr :=
    List.map py ["False"; "None"; "True"; "and"; "as"; "assert"; "async"; "await"; "break"; "class"; "continue"; "def"; "del";
          "elif"; "else"; "except"; "finally"; "for"; "from"; "global"; "if"; "import"; "in"; "is";
          "lambda"; "nonlocal"; "not"; "or"; "pass"; "raise"; "return"; "try"; "while"; "with"; "yield"]%string.
  Definition has_literal (c : pystr) : Prop :=
    exists a w b, c = a ++ w ++ b /\ In w [py "true"; py "false"; py "null"].
  Definition ascii_word (w : pystr) : Prop :=
    exists c w', w = c :: w' /\ (is_alpha0 c = true \/ c = 95%N) /\ Forall (fun x => is_word0 x = true) w'.
  Definition elem_written (e : welem) : Prop :=
    match e with
    | Elem SNull | Elem (SBool _) => True
    | Elem (SInt ds) => Digits ds /\ (forall r, ds = 48%N :: r -> Forall (eq 48%N) r)   (* no leading zeros *)
    | Elem (SFrac a b) => Digits a /\ Digits b
    | Elem (SStr q c w) => quote_mark q /\ list_text q c /\ inner_blank w
    | Bare w => ascii_word w /\ ~ In w python_keywords /\ ~ has_literal w
    end.
  Definition list_written (l : wlist) : Prop :=
    l <> [] /\ Forall (fun x => inner_blank (fst (fst x)) /\ inner_blank (snd x) /\ elem_written (snd (fst x))) l.
  (** str.replace: true, false and null become True, False and None, also in the middle of a string *)
  Definition respelt (c : pystr) : pystr :=
    replace (py "null") (py "None") (replace (py "false") (py "False") (replace (py "true") (py "True") c)).
  Definition elem_value (e : welem) (v : pyval) : Prop :=
    match e with
    | Elem (SStr q c w) => v = VStr (respelt c)
    | Elem s => scalar_value s v
    | Bare _ => False
    end.
  (** the elements as they were written *)
  Definition elem_plain_value (e : welem) (v : pyval) : Prop :=
    match e with Elem s => plain_value s v | Bare _ => False end.
  Definition is_bare (e : welem) : Prop := match e with Bare _ => True | Elem _ => False end.
  (** the limit on digits holds for numbers in lists too, but not for one digit and not for zeros *)
  Definition elem_fits (e : welem) : Prop :=
    match e with Elem (SInt ds) => short_enough ds \/ length ds = 1 \/ Forall (eq 48%N) ds | _ => True end.
  Definition elem_legal (e : welem) : Prop := ~ is_bare e /\ elem_fits e.
  Definition elem_plain (e : welem) : Prop :=
    match e with Elem (SStr q c w) => ~ has_literal c | Elem s => elem_fits (Elem s) | Bare _ => False end.

  (** ** Property lists: { s1 key s2 : s3 value s4 , ... } *)
  Inductive wvalue := Scalar (s : wscalar) | List_ (l : wlist).
  Definition show_value (v : wvalue) : pystr :=
    match v with Scalar s => show_scalar s | List_ l => py "[" ++ show_elems l ++ py "]" end.
  Record witem := { wi_s1 : pystr; wi_key : pystr; wi_s2 : pystr; wi_s3 : pystr; wi_val : wvalue; wi_s4 : pystr }.
  Definition show_item (i : witem) : pystr :=
    wi_s1 i ++ wi_key i ++ wi_s2 i ++ py ":" ++ wi_s3 i ++ show_value (wi_val i) ++ wi_s4 i.
  Fixpoint show_items (l : list witem) : pystr :=
    match l with
    | [] => []
    | [i] => show_item i
    | i :: l' => show_item i ++ py "," ++ show_items l'
    end.
  Definition show_props (l : list witem) : pystr := py "{" ++ show_items l ++ py "}".

  Definition value_written (v : wvalue) : Prop :=
    match v with Scalar s => scalar_written s | List_ l => list_written l end.
  (** white space behind a string belongs to the string *)
  Definition is_string (v : wvalue) : Prop := match v with Scalar (SStr _ _ _) => True | _ => False end.
  Record item_written (i : witem) : Prop := {
    iw_blanks : Forall all_space [wi_s1 i; wi_s2 i; wi_s3 i; wi_s4 i];
    iw_key : Word (wi_key i);
    iw_key_ne : wi_key i <> [];
    iw_value : value_written (wi_val i);
    iw_string : is_string (wi_val i) -> wi_s4 i = [] }.

  Definition item_value (i : witem) (v : pyval) : Prop :=
    match wi_val i with
    | Scalar s => scalar_value s v
    | List_ l => exists vs, v = VList vs /\ Forall2 (fun x v => elem_value (snd (fst x)) v) l vs
    end.
  (** the value as it was written *)
  Definition item_plain_value (i : witem) (v : pyval) : Prop :=
    match wi_val i with
    | Scalar s => plain_value s v
    | List_ l => exists vs, v = VList vs /\ Forall2 (fun x v => elem_plain_value (snd (fst x)) v) l vs
    end.
  Definition item_plain (i : witem) : Prop :=
    match wi_val i with
    | Scalar s => plain_scalar s
    | List_ l => Forall (fun x => elem_plain (snd (fst x))) l
    end.
  Definition scalar_item (i : witem) : Prop := match wi_val i with Scalar _ => True | List_ _ => False end.

  (** no string is a reserved word once trimmed, no number is too long, and lists have no bare words *)
  Definition item_legal (i : witem) : Prop :=
    match wi_val i with
    | Scalar (SStr q c w) => forall x, Trimmed ([q] ++ c ++ [q] ++ w) x -> ~ In x reserved
    | Scalar (SInt ds) => short_enough ds
    | Scalar _ => True
    | List_ l => Forall (fun x => elem_legal (snd (fst x))) l
    end.

  (** [d] is the dictionary of the pairs [l]: later values replace earlier ones *)
  Definition last_value (l : list (pystr * pyval)) (k : pystr) (v : pyval) : Prop :=
    exists a b, l = a ++ (k, v) :: b /\ ~ In k (map fst b).
  Definition dictionary_of (l d : list (pystr * pyval)) : Prop :=
    NoDup (map fst d) /\ forall k v, In (k, v) d <-> last_value l k v.
End SpecValue.
