(** * SpecWords: what the test for known words looks for *)
From Verif Require Import PyBase.

Definition known_words : list pystr := [py "make"; py "find"; py "adjust"; py "criteria"; py "report"; py "using"].

(** [w] stands in [s] between blanks (U+0020) or the ends of [s], and has no blank itself *)
Definition stands_in (w s : pystr) : Prop :=
  exists a b, s = a ++ w ++ b /\ ~ In 32%N w /\
    (a = [] \/ exists a', a = a' ++ [32%N]) /\ (b = [] \/ exists b', b = 32%N :: b').

(** [k] is [w], a word in small letters, in any mixture of capitals and small letters of ASCII *)
Definition in_some_case (w k : pystr) : Prop :=
  Forall2 (fun c d => d = c \/ (97 <= c <= 122 /\ d + 32 = c))%N w k.
