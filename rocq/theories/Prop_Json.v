(** * Prop_Json: what is saved is what is loaded (C29) *)
From Verif Require Import PyBase Json SpecJson FS Store JsonFacts JsonMore AsciiRt.

(** The saved text of any value reads back as that value, in both styles the program uses
    ([Indent4]: json.dump(.., indent=4); [Compact]: json.dumps). *)
Theorem C29_round_trip : forall (rt : PyRt) (st : style) (v : pyval),
  val_ok v -> ser v = true -> snd (dump_top st v) = true /\ load_json (dump_text st v) = Ok v.
Proof. exact @save_load. Qed.
Print Assumptions C29_round_trip.

(** The document of a list or an object cut short anywhere is not a document. *)
Theorem C29_not_shorter : forall (rt : PyRt) (st : style) (v : pyval) (t1 t2 : pystr),
  val_ok v -> ser v = true -> (match v with VList _ | VDict _ => True | _ => False end) ->
  dump_text st v = t1 ++ t2 -> t2 <> [] -> load_json t1 = Err JSONDecodeError.
Proof. exact @save_cut. Qed.
Print Assumptions C29_not_shorter.

(** An object followed by anything but blanks is not a document. *)
Theorem C29_not_longer : forall (rt : PyRt) (st : style) (d : list (pystr * pyval)) (more : pystr),
  val_ok (VDict d) -> ser (VDict d) = true -> (exists c, In c more /\ is_ws c = false) ->
  load_json (dump_text st (VDict d) ++ more) = Err JSONDecodeError.
Proof. exact @save_more. Qed.
Print Assumptions C29_not_longer.

(** Two different values have different texts. *)
Theorem C29_injective : forall (rt : PyRt) (st st' : style) (v v' : pyval),
  val_ok v -> ser v = true -> val_ok v' -> ser v' = true -> dump_text st v = dump_text st' v' -> v = v'.
Proof. exact @save_injective. Qed.
Print Assumptions C29_injective.

Definition C29_value : pyval :=
  VDict [(py "a", VList [VInt (-12)%Z; VNone; VBool true; VFloat (py "1.5e+300"); VList []]);
         ([233; 128512; 34; 92; 10]%N, VDict [([], VStr [8364; 0; 127]%N)])].
Example C29_hypotheses : @val_ok ascii_rt C29_value /\ ser C29_value = true.
Proof.
  split; [|reflexivity].
  assert (S : forall s, forallb (fun c => N.ltb c 55296 || (N.ltb 57343 c && N.ltb c 1114112)) s = true -> str_ok s).
  { intros s H. apply List.Forall_forall. intros c Hc. rewrite forallb_forall in H. specialize (H c Hc).
    unfold ch_ok, is_high, between. destruct (N.ltb_spec c 55296), (N.ltb_spec 57343 c), (N.ltb_spec c 1114112), (N.leb_spec 55296 c), (N.leb_spec c 56319); cbn in *; split; (lia || congruence). }
  assert (F : @val_ok ascii_rt (VFloat (py "1.5e+300"))).
  { apply vo_float. left. split; [|reflexivity]. exists [], (py "1"), (py ".5"), (py "e+300").
    split; [reflexivity|]. split; [auto|]. split; [right; exists 49%N, []; repeat split; constructor|].
    split; [right; exists (py "5"); repeat split; [discriminate|repeat constructor]|].
    split; [|discriminate]. right. exists 101%N, (py "+"), (py "300"). repeat split; auto; [discriminate|repeat constructor]. }
  apply vo_dict; [|repeat constructor; cbn; intros H; repeat (destruct H as [H|H]; [discriminate|]); destruct H].
  repeat (apply Forall_cons || apply Forall_nil); split; try (apply S; reflexivity).
  - apply vo_list. repeat (apply Forall_cons || apply Forall_nil); try exact F; repeat constructor.
  - apply vo_dict; [|repeat constructor; intros []]. repeat (apply Forall_cons || apply Forall_nil); split; try (apply S; reflexivity).
    apply vo_str. apply S. reflexivity.
Qed.
Example C29_example : @load_json ascii_rt (dump_text Indent4 C29_value) = Ok C29_value.
Proof. vm_compute. reflexivity. Qed.

(** The exclusion of surrogate halves is needed: this pair comes back as one character. *)
Theorem C29_surrogates_refuted : forall rt : PyRt,
  load_json (dump_text Indent4 (VStr [55296; 56320]%N)) = Ok (VStr [65536%N]).
Proof. reflexivity. Qed.
Print Assumptions C29_surrogates_refuted.
