(** * SpecChecks: the relationships and property lists of any text (C05, C07, C08, C59)

    No regular expressions and no function of the model, except the reading of a list literal (C16). *)
From Verif Require Import PyBase SpecText SpecPattern Literal Props Statements.

Section SpecChecks.
  Context {rt : PyRt}.

  (** ** Relationships *)
  (** dashes, '[', the text [body], dashes, with optional arrow heads.  The ']' is one of the characters that
      [body] may contain; it does not have to be there. *)
  Definition RelText (body t : pystr) : Prop :=
    exists lt d1 d2 gt, t = lt ++ d1 ++ py "[" ++ body ++ d2 ++ gt /\
      (lt = [] \/ lt = py "<") /\ Dashes d1 /\ ParamText body /\ Dashes d2 /\ (gt = [] \/ gt = py ">").
  (** the longest beginning of [s] whose characters satisfy [p]; [lstrip p s] is the rest *)
  Fixpoint while (p : N -> bool) (s : pystr) : pystr :=
    match s with x :: s' => if p x then x :: while p s' else [] | [] => [] end.
  Definition after_colon (s : pystr) : pystr := match s with x :: s' => if N.eqb x 58 then s' else s | [] => [] end.
  (** what follows blanks, a handle, blanks, a colon and blanks *)
  Definition name_on (body : pystr) : pystr :=
    lstrip is_space (after_colon (lstrip is_space (lstrip is_word (lstrip is_space body)))).
  (** the name: a word; if nothing follows it, not even a ']', its last character is not counted *)
  Definition name_in (body : pystr) : pystr :=
    match lstrip is_word (name_on body) with
    | [] => removelast (name_on body)
    | _ => while is_word (name_on body)
    end.
  (** [rs] are the relationships of [s], as text and name *)
  Definition Relationships (s : pystr) (rs : list (pystr * pystr)) : Prop :=
    Extracted (fun t => exists body, RelText body t) s (map fst rs) /\
    Forall (fun tn => exists body, RelText body (fst tn) /\ snd tn = name_in body) rs.
  Definition acceptable_rels (rs : list (pystr * pystr)) : Prop := Forall (fun tn => rel_acceptable (fst tn) (snd tn)) rs.

  (** ** Property lists *)
  (** '{', at least one character that a property list may contain, '}' *)
  Definition PropsText (t : pystr) : Prop :=
    exists body, t = py "{" ++ body ++ py "}" /\ body <> [] /\
      Forall (fun c => is_word c = true \/ is_space c = true \/ In c (py ":,'"".[]@")) body.
  (** true, false and null replaced by True, False and None ([pythonise]); outside the lists one colon more than
      commas; every list can be read *)
  Definition props_acceptable (t : pystr) : Prop :=
    exists out ls, TakenOut ListLiteral (pythonise t) out ls /\ occ 58 out = occ 44 out + 1 /\
      Forall (fun l => exists v, literal_eval l = Ok v) ls.

  (** ** A list of statements that passes all checks *)
  Record accepted (stmts : list pystr) : Prop := {
    ac_brackets : forall s seg, In s stmts -> Segment s seg -> even_brackets seg;
    ac_legal : forall s, In s stmts -> ~ has_illegal s;
    ac_props : forall s ts, In s stmts -> Extracted PropsText s ts -> Forall props_acceptable ts;
    (* up to the first statement without a relationship *)
    ac_rels : forall l1 s l2 rs, stmts = l1 ++ s :: l2 -> Forall (fun s' => ~ Relationships s' []) l1 ->
                Relationships s rs -> acceptable_rels rs }.

  (** the parts of an accepted list, and why a list is refused *)
  Definition brackets_even (stmts : list pystr) : Prop := forall s seg, In s stmts -> Segment s seg -> even_brackets seg.
  Definition all_legal (stmts : list pystr) : Prop := forall s, In s stmts -> ~ has_illegal s.
  Definition all_props (stmts : list pystr) : Prop := forall s ts, In s stmts -> Extracted PropsText s ts -> Forall props_acceptable ts.
  Definition all_rels (stmts : list pystr) : Prop :=
    forall l1 s l2 rs, stmts = l1 ++ s :: l2 -> Forall (fun s' => ~ Relationships s' []) l1 -> Relationships s rs -> acceptable_rels rs.
  (** ParamSyntaxError, or what reading a list of a property text raises *)
  Definition props_error (stmts : list pystr) (e : exn) : Prop :=
    e = ParamSyntaxError \/
    exists s ts t out ls l, In s stmts /\ Extracted PropsText s ts /\ In t ts /\ TakenOut ListLiteral (pythonise t) out ls /\ In l ls /\
      literal_eval l = Err e /\ e <> SyntaxError.
  Inductive verdict (stmts : list pystr) : res unit -> Prop :=
  | V_brackets : ~ brackets_even stmts -> verdict stmts (Err ClauseSyntaxError)
  | V_illegal : brackets_even stmts -> ~ all_legal stmts -> verdict stmts (Err IllegalCharacterError)
  | V_props e : brackets_even stmts -> all_legal stmts -> ~ all_props stmts -> props_error stmts e -> verdict stmts (Err e)
  | V_rels e : brackets_even stmts -> all_legal stmts -> all_props stmts -> ~ all_rels stmts ->
      e = NonDirectedRelationshipError \/ e = RelationshipNameSyntaxError -> verdict stmts (Err e)
  | V_accepted : accepted stmts -> verdict stmts (Ok tt).

  (** ** All patterns of a text *)
  (** [ps] are patterns read from [s] from left to right; a character is passed over only where no pattern starts *)
  Inductive AllPatterns : pystr -> list pattern -> Prop :=
  | AP_end : AllPatterns [] []
  | AP_skip x s ps : (forall p m rest, x :: s = m ++ rest -> m <> [] -> ~ PatternText p m) -> AllPatterns s ps -> AllPatterns (x :: s) ps
  | AP_take m s p ps : PatternText p m -> m <> [] -> AllPatterns s ps -> AllPatterns (m ++ s) (p :: ps).
End SpecChecks.
