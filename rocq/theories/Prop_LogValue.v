(** * Prop_LogValue: the records about the values of a property list (C76)

    [get_property_dict_l] reads a property list and gives its records; [recorded] is in SpecLogValue. *)
From Verif Require Import PyBase Props Log SpecLogValue LogValue AsciiRt.

(** The values that were put into the dictionary, one after the other, left their records in this order: none for null, one
    for any other value, which tells what kind of value it is and its text. *)
Theorem C76_values_recorded : forall (rt : PyRt) list_text s recs d, get_property_dict_l list_text s = (recs, Ok (Some d)) ->
  exists kvs rss, d = fold_left (fun d kv => d_set (fst kv) (snd kv) d) kvs [] /\
    Forall2 (recorded list_text) (map snd kvs) rss /\ recs = concat rss.
Proof. exact @values_recorded. Qed.
Print Assumptions C76_values_recorded.

Example C76_values_example : @get_property_dict_l ascii_rt (fun _ => py "[...]") (Some (py "{a: 12, b: null, c: true, d: ""x""}")) =
  ([(DEBUG, py "12 was determined to be an int: 12"); (DEBUG, py "true was determined to be True");
    (DEBUG, py "x was determined to be a string: x")],
   Ok (Some [(py "a", VInt 12); (py "b", VNone); (py "c", VBool true); (py "d", VStr (py "x"))])).
Proof. vm_compute. reflexivity. Qed.
