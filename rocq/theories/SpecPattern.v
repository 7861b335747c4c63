(** * SpecPattern: the texts of nodes, relationships and patterns (C09, C10)

    Only the vocabulary of PyBase and the record of a parsed pattern are used: no regular
    expressions. *)
From Verif Require Import PyBase SpecText Statements.

Section SpecPattern.
  Context {rt : PyRt}.

  Definition Word (s : pystr) : Prop := Forall (fun c => is_word c = true) s.
  (** the text between label and closing bracket *)
  Definition ParamText (s : pystr) : Prop :=
    s <> [] /\ Forall (fun c => is_word c = true \/ is_space c = true \/ In c (py "{}:,'"".[]@")) s.
  Definition Dashes (s : pystr) : Prop := s <> [] /\ Forall (fun c => c = 45%N) s.
  Definition opt_text (o : option pystr) : pystr := match o with Some t => t | None => [] end.
  Definition absent (x : piece) : Prop := p_text x = None /\ p_handle x = None /\ p_label x = None /\ p_props x = None.

  (** '(' handle ':' label properties ')' with white space anywhere between them and behind *)
  Definition NodePiece (x : piece) (t : pystr) : Prop :=
    exists s1 h s2 s3 l s4 s5 s6,
      t = py "(" ++ s1 ++ h ++ s2 ++ py ":" ++ s3 ++ l ++ s4 ++ opt_text (p_props x) ++ s5 ++ py ")" ++ s6 /\
      p_text x = Some t /\ p_handle x = Some h /\ p_label x = Some l /\
      Word h /\ Word l /\ l <> [] /\ (forall pr, p_props x = Some pr -> ParamText pr) /\
      Forall all_space [s1; s2; s3; s4; s5; s6].

  (** dashes, '[' handle ':' name properties ']' dashes, with optional arrow heads; colon,
      handle and name may be missing *)
  Definition RelPiece (x : piece) (t : pystr) : Prop :=
    exists lt d1 s1 h s2 co s3 l s4 s5 d2 gt s6,
      t = lt ++ d1 ++ py "[" ++ s1 ++ h ++ s2 ++ co ++ s3 ++ l ++ s4 ++ opt_text (p_props x) ++ s5 ++ py "]" ++ d2 ++ gt ++ s6 /\
      p_text x = Some t /\ p_handle x = Some h /\ p_label x = Some l /\
      (lt = [] \/ lt = py "<") /\ (gt = [] \/ gt = py ">") /\ (co = [] \/ co = py ":") /\ Dashes d1 /\ Dashes d2 /\
      Word h /\ Word l /\ (forall pr, p_props x = Some pr -> ParamText pr) /\
      Forall all_space [s1; s2; s3; s4; s5; s6].

  Definition maybe (P : piece -> pystr -> Prop) (x : piece) (t : pystr) : Prop := P x t \/ absent x /\ t = [].

  (** up to five pieces in their order, white space before each *)
  Definition PatternText (p : pattern) (t : pystr) : Prop :=
    exists b1 t1 b2 t2 b3 t3 b4 t4 b5 t5,
      t = b1 ++ t1 ++ b2 ++ t2 ++ b3 ++ t3 ++ b4 ++ t4 ++ b5 ++ t5 /\ Forall all_space [b1; b2; b3; b4; b5] /\
      maybe NodePiece (left_node p) t1 /\ maybe RelPiece (left_middle_rel p) t2 /\
      maybe NodePiece (middle_node p) t3 /\ maybe RelPiece (middle_right_rel p) t4 /\
      maybe NodePiece (right_node p) t5.
End SpecPattern.
