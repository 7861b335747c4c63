(** * SpecSchema: what the database of a graph can hold (C69)

    The shape of its entries and the values that a property can have; [meta] is the metadata object
    of SpecWhole. *)
From Verif Require Import PyBase Json SpecJson Literal SpecText SpecPattern SpecValue Store SpecWhole.

Section SpecSchema.
  Context {rt : PyRt}.

  (** ** Values *)
  (** the characters of a string: word characters, white space but no line feed, quotes, '.' and '@' *)
  Definition text_char (c : N) : Prop := (is_word c = true \/ is_space c = true \/ In c (py "'"".@")) /\ c <> 10%N.
  Definition string_storable (x : pystr) : Prop :=
    Forall text_char x /\ (forall c t, x = c :: t -> ~ blank_ch c) /\ (forall c t, x = t ++ [c] -> ~ blank_ch c) /\ ~ In x reserved.
  Definition unicode_digits (a : pystr) : Prop := a <> [] /\ Forall (fun c => is_digit c = true) a.
  (** null, true, false, a number that is not negative, or a string *)
  Definition flat (v : pyval) : Prop :=
    match v with VInt z => (0 <= z)%Z | VList _ | VDict _ | VOpaque => False | _ => True end.
  (** A list is what Python reads from brackets around such characters and commas; it has no lists inside. *)
  Inductive storable : pyval -> Prop :=
  | st_null : storable VNone
  | st_bool b : storable (VBool b)
  | st_int z : (0 <= z)%Z -> storable (VInt z)
  | st_float a b t : unicode_digits a -> unicode_digits b -> f_repr (a ++ py "." ++ b) = Some t -> storable (VFloat t)
  | st_str x : string_storable x -> storable (VStr x)
  | st_list t l : t <> [] -> Forall (fun c => text_char c \/ c = 44%N) t ->
      literal_eval (respelt (py "[" ++ t ++ py "]")) = Ok (VList l) -> Forall flat l -> storable (VList l).

  (** ** Entries *)
  Definition a_word (s : pystr) : Prop := s <> [] /\ Word s.
  Definition properties_obj (v : pyval) : Prop :=
    v = VNone \/ exists d, v = VDict d /\ NoDup (map fst d) /\ Forall (fun kv => a_word (fst kv) /\ storable (snd kv)) d.
  (** a relationship of node [n]; it leads to the node with the next or the last number *)
  Definition link_obj (n : Z) (v : pyval) : Prop :=
    exists m name to pv, Word name /\ properties_obj pv /\ (to = n + 1 \/ to = n - 1)%Z /\ (n < m)%Z /\
      v = VDict [(py "relationship_metadata", meta m); (py "relationship_name", VStr name);
                 (py "wn_from_node", VInt n); (py "wn_to_node", VInt to); (py "properties", pv)].
  (** a node under its number, with at most two relationships *)
  Definition entry (kv : pystr * pyval) : Prop :=
    exists n label pv rels, a_word label /\ properties_obj pv /\ Forall (link_obj n) rels /\ List.length rels <= 2 /\
      kv = (str_of_Z n, VDict [(py "node_metadata", meta n); (py "node_label", VStr label); (py "properties", pv);
                               (py "relations", match rels with [] => VNone | _ => VList rels end)]).

  (** ** A law of CPython *)
  (** Where literal_eval reads brackets around a text without brackets and minus signs, it returns a list of flat
      values and of values that json refuses. *)
  Definition rt_lists : Prop := forall t v, Forall (fun c => ~ In c (py "[](){}-")) t -> lit_ext (py "[" ++ t ++ py "]") = Ok v ->
    exists l, v = VList l /\ Forall (fun x => flat x \/ x = VOpaque) l.

  (** ** Values that can be written *)
  (** a list of nulls, booleans, numbers and strings without quotes, true, false or null inside *)
  Inductive in_list : pyval -> Prop :=
  | il_null : in_list VNone
  | il_bool b : in_list (VBool b)
  | il_int z : (0 <= z)%Z -> short_enough (str_of_Z z) -> in_list (VInt z)
  | il_float a b t : Digits a -> Digits b -> f_repr (a ++ py "." ++ b) = Some t -> in_list (VFloat t)
  | il_str x : Forall (fun c => (text_char c \/ c = 44%N) /\ c <> 39%N /\ c <> 13%N) x -> ~ has_literal x -> in_list (VStr x).
  Inductive can_be_written : pyval -> Prop :=
  | cw_null : can_be_written VNone
  | cw_bool b : can_be_written (VBool b)
  | cw_int z : (0 <= z)%Z -> short_enough (str_of_Z z) -> can_be_written (VInt z)
  | cw_float a b t : Digits a -> Digits b -> f_repr (a ++ py "." ++ b) = Some t -> can_be_written (VFloat t)
  | cw_str x : string_storable x -> can_be_written (VStr x)
  | cw_list l : l <> [] -> Forall in_list l -> can_be_written (VList l).
End SpecSchema.
