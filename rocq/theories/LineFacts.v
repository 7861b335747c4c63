(** * LineFacts: proofs about the line of an exception and about upper case *)
From Verif Require Import PyBase Json Data FS Store Messages MessagesRun SpecShown ShownFacts SpecLine.
From Coq Require Import Lia.

Lemma upper_case {rt : PyRt} s : in_upper_case s (str_upper s).
Proof.
  exists (map (fun c => if is_ascii c then [upper0 c] else u_upcase c) s). unfold str_upper. rewrite flat_map_concat_map. split; [|reflexivity].
  induction s as [|c s IH]; cbn [map]; constructor; [|exact IH]. unfold upper_char.
  unfold is_ascii. destruct (N.ltb_spec c 128) as [A|A]; [|right; right; split; [exact A|reflexivity]].
  unfold upper0, is_lower0, between. destruct (N.leb_spec 97 c) as [B|B]; cbn [andb]; [|right; left; repeat split; [exact A|intros [X Y]; lia]].
  destruct (N.leb_spec c 122) as [C|C]; [left; repeat split; assumption|right; left; repeat split; [exact A|intros [X Y]; lia]].
Qed.

Lemma listed_join ts : listed ts (join (py ", ") ts).
Proof.
  induction ts as [|t ts IH]; [constructor|]. destruct ts as [|t' ts]; [constructor|].
  exact (listed_more t (t' :: ts) _ ltac:(discriminate) IH).
Qed.
Section LineFacts.
  Context (u : N -> bool) (pt : exn -> pystr).
  Lemma texts_shown l : Forall unicode l -> Forall2 (shows_text u) l (map (repr u) l).
  Proof. induction 1; cbn [map]; constructor; auto using text_shown. Qed.
  Lemma message_text_reads m : quotes_unicode m -> message_reads u m (message_text u m).
  Proof.
    destruct m as [s|a [l|l] b]; cbn; intros U; [reflexivity| |];
      exists (map (repr u) l), (join (py ", ") (map (repr u) l)); (split; [apply texts_shown, U|]); (split; [apply listed_join|]);
      cbn; rewrite <- app_assoc; reflexivity.
  Qed.
  Lemma exception_line e m : quotes_unicode m -> exists t, message_reads u m t /\
    (forall n, In (e, n) project_exceptions -> exception_text u pt e (Some m) = n ++ py ": " ++ t) /\
    (~ In e (map fst project_exceptions) -> exception_text u pt e (Some m) = t).
  Proof.
    intros U. exists (message_text u m). split; [apply message_text_reads, U|]. split.
    - intros n I. cbn in I. repeat (destruct I as [[= <- <-]|I]; [reflexivity|]). destruct I.
    - intros I. unfold exception_text. destruct (class_name e) eqn:C; [|reflexivity]. destruct I.
      unfold class_name in C. destruct e; try discriminate C; cbn; tauto.
  Qed.
End LineFacts.
