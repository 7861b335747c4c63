(** * Prop_Value: property values (C13-C16)

    The written forms and the values they stand for are in SpecValue. *)
From Verif Require Import PyBase SpecText SpecPattern SpecValue Regex Patterns Props RtLaws ValueMore AsciiRt AsciiFacts.

(** ** C13 *)
(** every property found in any text belongs to exactly one of the six types *)
Theorem C13_exactly_one_type : forall (rt : PyRt) (s t : pystr) (c : caps),
  In (t, c) (finditer all_properties s) -> exists! g, In g type_groups /\ cap g c <> None.
Proof. exact @one_tag. Qed.
Print Assumptions C13_exactly_one_type.
(** ast.literal_eval does not raise this exception of /repo *)
Theorem C13_no_assignment_error : forall (rt : PyRt) (s : pystr),
  (forall x, lit_ext x <> Err PropertyTypeAssignmentError) -> parse_properties s <> Err PropertyTypeAssignmentError.
Proof. exact @no_assignment_error. Qed.
Print Assumptions C13_no_assignment_error.
Example C13_example : map (fun m => filter (fun g => match cap g (snd m) with Some _ => true | None => false end) type_groups)
    (@finditer (@all_properties ascii_rt) (py "{a: null, b: true, c: 1.5, d: 1, e: [1], f: 'x'}")) =
  [[GNone]; [GBool]; [GFloat]; [GInt]; [GList]; [GString]].
Proof. vm_compute. reflexivity. Qed.
Example C13_hypothesis : forall x, @lit_ext ascii_rt x <> Err PropertyTypeAssignmentError.
Proof. intros x. discriminate. Qed.

(** ** C14 *)
(** distinct keys: the dictionary has exactly the written keys and values, in order *)
Theorem C14_properties_are_stored : forall (rt : PyRt), rt_data rt -> forall (l : list witem) (sp : pystr),
  Forall item_written l -> Forall item_plain l -> all_space sp -> NoDup (map wi_key l) ->
  exists d, get_property_dict (Some (show_props l ++ sp)) = Ok (Some d) /\
    Forall2 (fun i kv => fst kv = wi_key i /\ item_plain_value i (snd kv)) l d.
Proof. exact @get_plain. Qed.
Print Assumptions C14_properties_are_stored.
(** a repeated key: the last value counts *)
Theorem C14_repeated_keys : forall (rt : PyRt), rt_data rt -> forall (l : list witem) (sp : pystr),
  Forall item_written l -> Forall item_legal l -> all_space sp ->
  exists kvs d, get_property_dict (Some (show_props l ++ sp)) = Ok (Some d) /\
    Forall2 (fun i kv => fst kv = wi_key i /\ item_value i (snd kv)) l kvs /\ dictionary_of kvs d.
Proof. exact @get_repeated. Qed.
Print Assumptions C14_repeated_keys.
(** a string that is a reserved word once trimmed is refused *)
Theorem C14_reserved_words_refused : forall (rt : PyRt), rt_data rt -> forall (l : list witem) (i : witem) (l' : list witem) (sp : pystr) (q : N) (c w x : pystr),
  Forall item_written (l ++ i :: l') -> Forall item_legal l -> all_space sp ->
  wi_val i = Scalar (SStr q c w) -> Trimmed ([q] ++ c ++ [q] ++ w) x -> In x reserved ->
  get_property_dict (Some (show_props (l ++ i :: l') ++ sp)) = Err WiggleGraphIllegalPropertyValue.
Proof. exact @get_reserved. Qed.
Print Assumptions C14_reserved_words_refused.
(** a whole number of more digits than the interpreter converts is refused *)
Theorem C14_long_number_refused : forall (rt : PyRt), rt_data rt -> forall (l : list witem) (i : witem) (l' : list witem) (sp ds : pystr),
  Forall item_written (l ++ i :: l') -> Forall item_legal l -> all_space sp ->
  wi_val i = Scalar (SInt ds) -> ~ short_enough ds ->
  get_property_dict (Some (show_props (l ++ i :: l') ++ sp)) = Err WiggleGraphIllegalPropertyValue.
Proof. exact @get_long. Qed.
Print Assumptions C14_long_number_refused.

(** Outside the written forms a value can be cut short without any error, or a word without quotes is
    taken as a string: that a text is either refused or stored as it stands is false. *)
Theorem C14_prefix_of_a_value_refuted :
  let get s := @get_property_dict ascii_rt (Some s) in
  get (py "{a: 12abc}") = Ok (Some [(py "a", VInt 12)]) /\
  get (py "{a: nullable}") = Ok (Some [(py "a", VNone)]) /\
  get (py "{a: trueish}") = Ok (Some [(py "a", VBool true)]) /\
  get (py "{a: 1.5.2}") = Ok (Some [(py "a", VFloat (py "1.5"))]) /\
  get (py "{a: abc}") = Ok (Some [(py "a", VStr (py "abc"))]) /\
  get (py "{a: NULL}") = Err WiggleGraphIllegalPropertyValue.
Proof. vm_compute. auto 10. Qed.
Print Assumptions C14_prefix_of_a_value_refuted.

(** ** Example data: { n: 12 , x:1.50, t : true,f:false, z: null , s: 'it is + "so"', e:"", l: [1, 'a b', 2.5 , null] } *)
Definition item (k : string) (v : wvalue) (s4 : string) : witem :=
  {| wi_s1 := py " "; wi_key := py k; wi_s2 := []; wi_s3 := py " "; wi_val := v; wi_s4 := py s4 |}.
Definition ex_elems : wlist :=
  [([], Elem (SInt (py "1")), []); (py " ", Elem (SStr 39 (py "a b") []), []); (py " ", Elem (SFrac (py "2") (py "5")), py " "); (py " ", Elem SNull, [])].
Definition ex_items : list witem :=
  [item "n" (Scalar (SInt (py "12"))) " "; item "x" (Scalar (SFrac (py "1") (py "50"))) ""; item "t" (Scalar (SBool true)) "";
   item "f" (Scalar (SBool false)) ""; item "z" (Scalar SNull) " "; item "s" (Scalar (SStr 39 (py "it is + ""so"" ok") [])) "";
   item "e" (Scalar (SStr 34 [] [])) ""; item "l" (List_ ex_elems) " "].
Example ex_items_text : show_props ex_items =
  py "{ n: 12 , x: 1.50, t: true, f: false, z: null , s: 'it is + ""so"" ok', e: """", l: [1, 'a b', 2.5 , null] }".
Proof. reflexivity. Qed.
Ltac chars := repeat (apply Forall_cons; [vm_compute; auto 20|]); apply Forall_nil.
Ltac blanks := repeat (apply Forall_cons; [vm_compute; reflexivity|]); apply Forall_nil.
Ltac no_edge_ := intros ? ? E; vm_compute in E; injection E as <- _; intros [E|[E|E]]; discriminate.
Example ex_digits : Digits (py "12") /\ Digits (py "1") /\ Digits (py "50") /\ Digits (py "2") /\ Digits (py "5").
Proof. repeat split; try discriminate; repeat constructor; vm_compute; discriminate. Qed.
Example ex_elems_written : @list_written ascii_rt ex_elems.
Proof.
  destruct ex_digits as (D12 & D1 & D50 & D2 & D5). split; [discriminate|].
  repeat (apply Forall_cons; [split; [cbn; chars|split; [cbn; chars|]]|]); [| | | |apply Forall_nil]; cbn.
  - split; [exact D1|]. intros r E. discriminate.
  - split; [left; reflexivity|]. split; [|constructor]. repeat (apply Forall_cons; [vm_compute; repeat split; auto 20; discriminate|]). apply Forall_nil.
  - split; [exact D2|exact D5].
  - exact I.
Qed.
Example ex_items_written : Forall (@item_written ascii_rt) ex_items.
Proof.
  destruct ex_digits as (D12 & D1 & D50 & D2 & D5).
  assert (G : forall k v s4, @Word ascii_rt (py k) -> py k <> [] -> @all_space ascii_rt (py s4) -> @value_written ascii_rt v -> (is_string v -> py s4 = []) ->
              @item_written ascii_rt (item k v s4)).
  { intros k v s4 H1 H2 H3 H4 H5. constructor; auto. cbn [item wi_s1 wi_s2 wi_s3 wi_s4].
    apply Forall_cons; [blanks|apply Forall_cons; [constructor|apply Forall_cons; [blanks|apply Forall_cons; [exact H3|constructor]]]]. }
  unfold ex_items.
  apply Forall_cons; [|apply Forall_cons; [|apply Forall_cons; [|apply Forall_cons; [|apply Forall_cons; [|apply Forall_cons; [|apply Forall_cons; [|apply Forall_cons; [|apply Forall_nil]]]]]]]].
  - apply G; [blanks|discriminate|blanks|exact D12|intros []].
  - apply G; [blanks|discriminate|blanks|exact (conj D1 D50)|reflexivity].
  - apply G; [blanks|discriminate|blanks|exact I|reflexivity].
  - apply G; [blanks|discriminate|blanks|exact I|reflexivity].
  - apply G; [blanks|discriminate|blanks|exact I|intros []].
  - apply G; [blanks|discriminate|blanks| |reflexivity]. cbn [value_written scalar_written]. split; [left; reflexivity|]. split; [chars|constructor].
  - apply G; [blanks|discriminate|blanks| |reflexivity]. cbn [value_written scalar_written]. split; [right; reflexivity|]. split; constructor.
  - apply G; [blanks|discriminate|blanks|exact ex_elems_written|intros []].
Qed.
Lemma last_edge (c : pystr) (y : N) : (forall z, List.last c z = y) -> ~ @edge ascii_rt y -> forall x c', c = c' ++ [x] -> ~ @edge ascii_rt x.
Proof. intros H N x c' ->. specialize (H 0%N). rewrite last_last in H. subst. exact N. Qed.
Example ex_items_plain : Forall (@item_plain ascii_rt) ex_items.
Proof.
  repeat (apply Forall_cons; [try exact I|]); try apply Forall_nil.
  - reflexivity.
  - split; [reflexivity|]. split; [no_edge_|]. split; [|vm_compute; intuition discriminate].
    apply (last_edge _ 107); [reflexivity|]. intros [E|[E|E]]; discriminate.
  - split; [reflexivity|]. split; [intros ? ? E; discriminate|]. split; [intros ? [|? ?] E; discriminate|vm_compute; intuition discriminate].
  - left. vm_compute. reflexivity.
  - cbn. intros (a & w & b & E & [<-|[<-|[<-|[]]]]);
    (destruct a as [|? [|? [|? [|? ?]]]]; cbn in E; try discriminate; injection E; intros; discriminate).
Qed.
Example ex_items_distinct : NoDup (map wi_key ex_items).
Proof. repeat constructor; cbn; intuition discriminate. Qed.
Example C14_example : @get_property_dict ascii_rt (Some (show_props ex_items)) =
  Ok (Some [(py "n", VInt 12); (py "x", VFloat (py "1.5")); (py "t", VBool true); (py "f", VBool false); (py "z", VNone);
            (py "s", VStr (py "it is + ""so"" ok")); (py "e", VStr []); (py "l", VList [VInt 1; VStr (py "a b"); VFloat (py "2.5"); VNone])]).
Proof. vm_compute. reflexivity. Qed.

Example C14_more_examples :
  let get s := @get_property_dict ascii_rt (Some s) in
  get (py "{a: 1, b: 2, a: 'x'}") = Ok (Some [(py "a", VStr (py "x")); (py "b", VInt 2)]) /\
  get (py "{a: 1, b: ' none'}") = Err WiggleGraphIllegalPropertyValue.
Proof. vm_compute. auto. Qed.
(** an interpreter that converts four digits at most; in a list zeros do not count *)
Definition four_digits : PyRt := {|
  u_word := @u_word ascii_rt; u_space := @u_space ascii_rt; u_digit := @u_digit ascii_rt; u_upper := @u_upper ascii_rt;
  u_lowertitle := @u_lowertitle ascii_rt; u_lower := @u_lower ascii_rt; u_upcase := @u_upcase ascii_rt; u_ci := @u_ci ascii_rt;
  f_repr := @f_repr ascii_rt; int_ext := @int_ext ascii_rt; int_fits := fun n => N.leb n 4; lit_ext := @lit_ext ascii_rt;
  set_order := @set_order ascii_rt; zset_order := @zset_order ascii_rt; set_mixed := @set_mixed ascii_rt; import_time := @import_time ascii_rt |}.
Example C14_long_example :
  @short_enough four_digits (py "1234") /\ ~ @short_enough four_digits (py "12345") /\ Digits (py "12345") /\
  @get_property_dict four_digits (Some (py "{a: 1, n: 1234}")) = Ok (Some [(py "a", VInt 1); (py "n", VInt 1234)]) /\
  @get_property_dict four_digits (Some (py "{a: 1, n: 12345}")) = Err WiggleGraphIllegalPropertyValue /\
  @get_property_dict four_digits (Some (py "{n: [1, 12345]}")) = Err WiggleGraphIllegalPropertyValue /\
  @get_property_dict four_digits (Some (py "{n: [1, 00000, '12345', 1234.5]}")) = Ok (Some [(py "n", VList [VInt 1; VInt 0; VStr (py "12345"); VFloat (py "1234.5")])]).
Proof.
  split; [reflexivity|]. split; [discriminate|]. split; [split; [discriminate|repeat constructor; discriminate]|].
  repeat split; vm_compute; reflexivity.
Qed.
Example C14_long_limit : @short_enough ascii_rt (repeat 57%N 4300) /\ ~ @short_enough ascii_rt (repeat 57%N 4301).
Proof. split; [vm_compute; reflexivity|vm_compute; discriminate]. Qed.
Example C14_reserved_hypothesis : @Trimmed ascii_rt (py "' none'") (py "none") /\ In (py "none") reserved.
Proof.
  split; [|vm_compute; auto]. exists (py "' none'"), (py " none").
  split; [exists [], []|split; [exists (py "'"), (py "'")|exists (py " "), []]]; (split; [reflexivity|]);
    (split; [chars|]); (split; [chars|]); split.
  1,3,5: intros c t' E; vm_compute in E; injection E as <- _; intros N; vm_compute in N; discriminate.
  all: intros c t' E; apply (f_equal (fun l => List.last l 0%N)) in E; rewrite last_last in E; vm_compute in E; subst; intros N; vm_compute in N; discriminate.
Qed.

(** ** C15 *)
(** every quoted string, whatever is in it and behind it, is stored as its trimmed text *)
Theorem C15_strings_are_trimmed : forall (rt : PyRt), rt_data rt -> forall (l : list witem) (sp : pystr),
  Forall item_written l -> Forall item_legal l -> all_space sp -> NoDup (map wi_key l) ->
  exists d, get_property_dict (Some (show_props l ++ sp)) = Ok (Some d) /\
    Forall2 (fun i kv => fst kv = wi_key i /\ item_value i (snd kv)) l d.
Proof. exact @get_distinct. Qed.
Print Assumptions C15_strings_are_trimmed.
(** white space behind the closing quote: the quote is stored *)
Theorem C15_blank_behind_keeps_the_quote : forall (rt : PyRt), rt_data rt -> forall (l : list witem) (i : witem) (l' : list witem) (sp : pystr) (q : N) (c w : pystr),
  Forall item_written (l ++ i :: l') -> Forall item_legal (l ++ l') -> all_space sp -> NoDup (map wi_key (l ++ i :: l')) ->
  wi_val i = Scalar (SStr q c w) -> w <> [] -> c <> [] -> (forall x c', c = x :: c' -> ~ edge x) ->
  exists d, get_property_dict (Some (show_props (l ++ i :: l') ++ sp)) = Ok (Some d) /\ In (wi_key i, VStr (c ++ [q])) d.
Proof. exact @get_kept_quote. Qed.
Print Assumptions C15_blank_behind_keeps_the_quote.
(** double quotes, single quotes and white space, nested in this order around the content, are lost *)
Theorem C15_quotes_and_blanks_are_lost : forall (rt : PyRt), rt_data rt ->
  forall (l : list witem) (i : witem) (l' : list witem) (sp : pystr) (q : N) (c w a1 a2 a3 t b3 b2 b1 : pystr),
  Forall item_written (l ++ i :: l') -> Forall item_legal (l ++ l') -> all_space sp -> NoDup (map wi_key (l ++ i :: l')) ->
  wi_val i = Scalar (SStr q c w) -> [q] ++ c ++ [q] ++ w = a1 ++ a2 ++ a3 ++ t ++ b3 ++ b2 ++ b1 ->
  Forall (eq 34%N) a1 -> Forall (eq 39%N) a2 -> all_space a3 -> Forall (eq 34%N) b1 -> Forall (eq 39%N) b2 -> all_space b3 ->
  t <> [] -> bare_content t ->
  exists d, get_property_dict (Some (show_props (l ++ i :: l') ++ sp)) = Ok (Some d) /\ In (wi_key i, VStr t) d.
Proof. exact @get_trimmed. Qed.
Print Assumptions C15_quotes_and_blanks_are_lost.

Definition ex_quote : witem := item "s" (Scalar (SStr 39 (py "Harry") (py " "))) "".
Definition ex_nested : witem := item "s" (Scalar (SStr 34 (py "' Harry '") [])) "".
Example C15_examples :
  let get s := @get_property_dict ascii_rt (Some s) in
  get (show_props [ex_quote]) = Ok (Some [(py "s", VStr (py "Harry'"))]) /\ show_props [ex_quote] = py "{ s: 'Harry' }" /\
  get (show_props [ex_nested]) = Ok (Some [(py "s", VStr (py "Harry"))]) /\ show_props [ex_nested] = py "{ s: ""' Harry '""}".
Proof. vm_compute. auto. Qed.
Example C15_hypotheses : Forall (@item_written ascii_rt) [ex_quote; ex_nested] /\ @bare_content ascii_rt (py "Harry") /\
  py """' Harry '""" = py """" ++ py "'" ++ py " " ++ py "Harry" ++ py " " ++ py "'" ++ py """".
Proof.
  split; [|split; [|reflexivity]].
  - apply Forall_cons; [|apply Forall_cons; [|apply Forall_nil]]; constructor; try discriminate; try reflexivity;
    cbn [ex_quote ex_nested item wi_s1 wi_s2 wi_s3 wi_s4 wi_key wi_val value_written scalar_written].
    + apply Forall_cons; [blanks|apply Forall_cons; [constructor|apply Forall_cons; [blanks|apply Forall_cons; constructor]]].
    + blanks.
    + split; [left; reflexivity|]. split; [chars|blanks].
    + apply Forall_cons; [blanks|apply Forall_cons; [constructor|apply Forall_cons; [blanks|apply Forall_cons; constructor]]].
    + blanks.
    + split; [right; reflexivity|]. split; [chars|constructor].
  - split; [no_edge_|]. split; [|vm_compute; intuition discriminate]. apply (last_edge _ 121); [reflexivity|]. intros [E|[E|E]]; discriminate.
Qed.

(** ** C16 *)
(** the elements are kept as written when no string has true, false or null in it *)
Theorem C16_lists_are_stored : forall (rt : PyRt), rt_data rt -> forall (l : list witem) (i : witem) (l' : list witem) (sp : pystr) (els : wlist),
  Forall item_written (l ++ i :: l') -> Forall item_legal (l ++ l') -> all_space sp -> NoDup (map wi_key (l ++ i :: l')) ->
  wi_val i = List_ els -> Forall (fun x => elem_plain (snd (fst x))) els ->
  exists d vs, get_property_dict (Some (show_props (l ++ i :: l') ++ sp)) = Ok (Some d) /\ In (wi_key i, VList vs) d /\
    Forall2 (fun x v => elem_plain_value (snd (fst x)) v) els vs.
Proof. exact @get_list_plain. Qed.
Print Assumptions C16_lists_are_stored.
(** a string element that has one of them in it is stored altered *)
Theorem C16_literal_words_in_strings_are_altered : forall (rt : PyRt), rt_data rt ->
  forall (l : list witem) (i : witem) (l' : list witem) (sp : pystr) (e1 : wlist) (a : pystr) (q : N) (c w b : pystr) (e2 : wlist),
  Forall item_written (l ++ i :: l') -> Forall item_legal (l ++ l') -> all_space sp -> NoDup (map wi_key (l ++ i :: l')) ->
  wi_val i = List_ (e1 ++ (a, Elem (SStr q c w), b) :: e2) -> Forall (fun x => elem_legal (snd (fst x))) (e1 ++ e2) -> has_literal c ->
  exists d v1 c' v2, get_property_dict (Some (show_props (l ++ i :: l') ++ sp)) = Ok (Some d) /\
    In (wi_key i, VList (v1 ++ VStr c' :: v2)) d /\ List.length v1 = List.length e1 /\ c' = respelt c /\ c' <> c.
Proof. exact @get_list_altered. Qed.
Print Assumptions C16_literal_words_in_strings_are_altered.
(** a bare word in a list: ValueError *)
Theorem C16_bare_word_is_a_ValueError : forall (rt : PyRt), rt_data rt -> forall (l : list witem) (i : witem) (l' : list witem) (sp : pystr) (els : wlist),
  Forall item_written (l ++ i :: l') -> Forall item_legal l -> all_space sp ->
  wi_val i = List_ els -> Forall (fun x => elem_fits (snd (fst x))) els -> Exists (fun x => is_bare (snd (fst x))) els ->
  get_property_dict (Some (show_props (l ++ i :: l') ++ sp)) = Err ValueError.
Proof. exact @get_bare. Qed.
Print Assumptions C16_bare_word_is_a_ValueError.
(** a number of more digits than the interpreter converts, anywhere in a list: refused *)
Theorem C16_long_number_refused : forall (rt : PyRt), rt_data rt -> forall (l : list witem) (i : witem) (l' : list witem) (sp : pystr) (els : wlist),
  Forall item_written (l ++ i :: l') -> Forall item_legal l -> all_space sp ->
  wi_val i = List_ els -> Exists (fun x => ~ elem_fits (snd (fst x))) els ->
  get_property_dict (Some (show_props (l ++ i :: l') ++ sp)) = Err WiggleGraphIllegalPropertyValue.
Proof. exact @get_list_long. Qed.
Print Assumptions C16_long_number_refused.
(** the empty list is silently dropped, or an error, depending on the white space before it *)
Theorem C16_empty_list_refuted :
  let get s := @get_property_dict ascii_rt (Some s) in
  get (py "{a:[]}") = Ok (Some []) /\ get (py "{a: []}") = Err WiggleGraphIllegalPropertyValue.
Proof. vm_compute. auto. Qed.
Print Assumptions C16_empty_list_refuted.

Definition ex_altered : wlist := [([], Elem (SStr 39 (py "untrue") []), []); (py " ", Elem (SInt (py "1")), [])].
Definition ex_bare : wlist := [([], Elem (SInt (py "1")), []); (py " ", Bare (py "Harry"), [])].
Example C16_examples :
  let get s := @get_property_dict ascii_rt (Some s) in
  get (show_props [item "l" (List_ ex_altered) ""]) = Ok (Some [(py "l", VList [VStr (py "unTrue"); VInt 1])]) /\
  show_props [item "l" (List_ ex_altered) ""] = py "{ l: ['untrue', 1]}" /\
  get (show_props [item "l" (List_ ex_bare) ""]) = Err ValueError /\ show_props [item "l" (List_ ex_bare) ""] = py "{ l: [1, Harry]}".
Proof. vm_compute. auto. Qed.
(** an interpreter that converts four digits at most; the second number has five *)
Definition ex_long : wlist := [([], Elem (SInt (py "1")), []); (py " ", Elem (SInt (py "12345")), []); ([], Elem (SInt (py "00000")), [])].
Example C16_long_example :
  Forall (@item_written four_digits) [item "l" (List_ ex_long) ""] /\ Exists (fun x => ~ @elem_fits four_digits (snd (fst x))) ex_long /\
  Forall (fun x => @elem_fits ascii_rt (snd (fst x))) ex_long /\ show_props [item "l" (List_ ex_long) ""] = py "{ l: [1, 12345,00000]}" /\
  @get_property_dict four_digits (Some (show_props [item "l" (List_ ex_long) ""])) = Err WiggleGraphIllegalPropertyValue /\
  @get_property_dict ascii_rt (Some (show_props [item "l" (List_ ex_long) ""])) = Ok (Some [(py "l", VList [VInt 1; VInt 12345; VInt 0])]).
Proof.
  assert (DG : forall ds, forallb (fun c => N.leb 48 c && N.leb c 57) ds = true -> ds <> [] -> Digits ds).
  { intros ds H N. split; [exact N|]. apply Forall_forall. intros c Hc. rewrite forallb_forall in H. specialize (H c Hc).
    apply andb_true_iff in H as [H1 H2]. apply N.leb_le in H1, H2. split; assumption. }
  split; [|split; [|split; [|split; [|split]]]]; try (vm_compute; reflexivity).
  - constructor; [|constructor]. constructor; cbn [item wi_s1 wi_s2 wi_s3 wi_s4 wi_key wi_val].
    + apply Forall_cons; [blanks|apply Forall_cons; [constructor|apply Forall_cons; [blanks|apply Forall_cons; constructor]]].
    + blanks.
    + discriminate.
    + split; [discriminate|]. repeat (apply Forall_cons; [split; [cbn; chars|split; [cbn; chars|]]|]); [| | |apply Forall_nil]; cbn [fst snd elem_written].
      * split; [apply DG; [reflexivity|discriminate]|]. intros r E. discriminate.
      * split; [apply DG; [reflexivity|discriminate]|]. intros r E. discriminate.
      * split; [apply DG; [reflexivity|discriminate]|]. intros r E. injection E as <-. repeat constructor.
    + intros [].
  - apply Exists_cons_tl, Exists_cons_hd. cbn. intros [H|[H|H]]; [discriminate|discriminate|]. inversion H. discriminate.
  - repeat (apply Forall_cons; [left; vm_compute; reflexivity|]). apply Forall_nil.
Qed.
Example C16_bare_fits : Forall (fun x => @elem_fits ascii_rt (snd (fst x))) ex_bare /\ Exists (fun x => is_bare (snd (fst x))) ex_bare.
Proof. split; [apply Forall_cons; [left; vm_compute; reflexivity|apply Forall_cons; [exact I|apply Forall_nil]]|apply Exists_cons_tl, Exists_cons_hd; exact I]. Qed.
Example C16_hypotheses : @list_written ascii_rt ex_elems /\ @list_written ascii_rt ex_altered /\ has_literal (py "untrue") /\ @list_written ascii_rt ex_bare.
Proof.
  destruct ex_digits as (D12 & D1 & D50 & D2 & D5). split; [exact ex_elems_written|]. split; [|split].
  - split; [discriminate|]. repeat (apply Forall_cons; [split; [cbn; chars|split; [cbn; chars|]]|]); [| |apply Forall_nil]; cbn.
    + split; [left; reflexivity|]. split; [|constructor]. repeat (apply Forall_cons; [vm_compute; repeat split; auto 20; discriminate|]). apply Forall_nil.
    + split; [exact D1|]. intros r E. discriminate.
  - exists (py "un"), (py "true"), []. split; [reflexivity|]. left. reflexivity.
  - split; [discriminate|]. repeat (apply Forall_cons; [split; [cbn; chars|split; [cbn; chars|]]|]); [| |apply Forall_nil]; cbn.
    + split; [exact D1|]. intros r E. discriminate.
    + split; [|split].
      * exists 72%N, (py "arry"). split; [reflexivity|]. split; [left; reflexivity|]. repeat constructor.
      * vm_compute. intuition discriminate.
      * intros (a & w & b & E & [<-|[<-|[<-|[]]]]);
        (destruct a as [|? [|? [|? [|? [|? [|? ?]]]]]]; cbn in E; try discriminate; injection E; intros; discriminate).
Qed.
