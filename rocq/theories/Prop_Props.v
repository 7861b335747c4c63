(** * Prop_Props: what any property text means (C60) *)
From Verif Require Import PyBase Json Literal Props RtLaws SpecText SpecPattern SpecValue SpecChecks SpecProps PropsAny PropsCut AsciiRt AsciiFacts.

(** Whatever the text: its properties are those that [PropsOf] finds from left to right, and the result is the dictionary
    of their values or the error of the first one that cannot be read. *)
Theorem C60_any_text : forall (rt : PyRt), rt_data rt -> forall (s : pystr) (r : res (list (pystr * pyval))),
  parse_properties s = r <-> exists l, PropsOf s l /\ read_all l r.
Proof. exact @parse_any_iff. Qed.
Print Assumptions C60_any_text.
Theorem C60_one_reading : forall (rt : PyRt), rt_data rt -> forall (s : pystr), exists! l, PropsOf s l.
Proof. exact @one_reading. Qed.
Print Assumptions C60_one_reading.
(** a text without a colon: no properties, no error *)
Theorem C60_no_colon : forall (rt : PyRt), rt_data rt -> forall (s : pystr),
  s <> [] -> ~ In 58%N s -> get_property_dict (Some s) = Ok (Some []).
Proof. exact @get_no_colon. Qed.
Print Assumptions C60_no_colon.
(** digits are stored as a number whatever follows them; what precedes the last word before the colon is ignored *)
Theorem C60_number_cut : forall (rt : PyRt), rt_data rt -> forall (a k b b' ds t : pystr),
  before_key a -> k <> [] -> Word k -> all_space b -> all_space b' -> Digits ds -> short_enough ds -> ~ In 58%N t ->
  (forall x t', t = x :: t' -> is_digit x = false /\ x <> 46%N) ->
  get_property_dict (Some (a ++ k ++ b ++ py ":" ++ b' ++ ds ++ t)) = Ok (Some [(k, VInt (decimal ds))]).
Proof. exact @get_number_cut. Qed.
Print Assumptions C60_number_cut.
(** so are null, true and false *)
Theorem C60_null_cut : forall (rt : PyRt), rt_data rt -> forall (a k b b' t : pystr),
  before_key a -> k <> [] -> Word k -> all_space b -> all_space b' -> ~ In 58%N t ->
  get_property_dict (Some (a ++ k ++ b ++ py ":" ++ b' ++ py "null" ++ t)) = Ok (Some [(k, VNone)]).
Proof. exact @get_null_cut. Qed.
Print Assumptions C60_null_cut.
Theorem C60_bool_cut : forall (rt : PyRt), rt_data rt -> forall (a k b b' t : pystr) (v : bool),
  before_key a -> k <> [] -> Word k -> all_space b -> all_space b' -> ~ In 58%N t ->
  get_property_dict (Some (a ++ k ++ b ++ py ":" ++ b' ++ py (if v then "true" else "false") ++ t)) = Ok (Some [(k, VBool v)]).
Proof. exact @get_bool_cut. Qed.
Print Assumptions C60_bool_cut.
(** an empty list is dropped without an error, or refused, depending on white space before it *)
Theorem C60_empty_list : forall (rt : PyRt), rt_data rt -> forall (a k b b' t : pystr),
  before_key a -> k <> [] -> Word k -> all_space b -> all_space b' -> ~ In 58%N t ->
  get_property_dict (Some (a ++ k ++ b ++ py ":" ++ b' ++ py "[]" ++ t)) =
  match b' with [] => Ok (Some []) | _ => Err WiggleGraphIllegalPropertyValue end.
Proof. exact @get_empty_list. Qed.
Print Assumptions C60_empty_list.

(** ** Cases that meet the hypotheses *)
Example C60_any_example : let rt := ascii_rt in
  PropsOf (py "{a: 12abc: 'x', b:[], my-c : }") [(py "a", PInt, py "12"); (py "abc", PString, py "'x'"); (py "c", PString, py " ")] /\
  parse_properties (py "{a: 12abc: 'x', b:[], my-c : }") = Err WiggleGraphIllegalPropertyValue /\
  parse_properties (py "{a: 12abc: 'x', b:[], a : -1}") = Err WiggleGraphIllegalPropertyValue /\
  parse_properties (py "{a: 12abc: 'x', b:[], a :TRUE}") = Err WiggleGraphIllegalPropertyValue /\
  parse_properties (py "{a: 12abc: 'x', b:[], a : 2-1}") = Ok [(py "a", VInt 2); (py "abc", VStr (py "x"))].
Proof.
  cbv zeta. split.
  - repeat first [apply PO_end | apply PO_skip; [vm_compute; reflexivity|] | eapply PO_take; [vm_compute; reflexivity|]].
  - vm_compute. auto.
Qed.
Example C60_cut_example : let rt := ascii_rt in
  before_key (py "{my-") /\ Word (py "key") /\ Digits (py "007") /\
  (forall x t', py "th}" = x :: t' -> is_digit x = false /\ x <> 46%N) /\
  get_property_dict (Some (py "{my-key : 007th}")) = Ok (Some [(py "key", VInt 7)]) /\
  get_property_dict (Some (py "{my-key : nullable}")) = Ok (Some [(py "key", VNone)]) /\
  get_property_dict (Some (py "{my-key : falsehood}")) = Ok (Some [(py "key", VBool false)]) /\
  get_property_dict (Some (py "{my-key :[]}")) = Ok (Some []) /\
  get_property_dict (Some (py "{my-key : []}")) = Err WiggleGraphIllegalPropertyValue /\
  get_property_dict (Some (py "{my-key = 5}")) = Ok (Some []).
Proof.
  cbv zeta. split; [|split; [|split; [|split]]].
  - split.
    + cbn. intuition discriminate.
    + intros x a' E. change (py "{my-") with (py "{my" ++ [45%N]) in E. apply app_inj_tail in E as [_ <-]. reflexivity.
  - repeat constructor.
  - split; [discriminate|]. repeat constructor; vm_compute; discriminate.
  - intros x t' E. injection E as <- _. split; [reflexivity|discriminate].
  - vm_compute. auto 10.
Qed.
