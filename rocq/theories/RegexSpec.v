(** * RegexSpec: what a regular expression means, independently of the matcher

    [Lang r w d]: the text [w] is matched by [r], and [d] are the named groups
    set on the way (innermost/latest first).  [allm r s c] lists every way of
    matching a prefix of [s] in the order in which a backtracking engine with greedy
    operators tries them. *)
From Verif Require Import PyBase Regex.

Inductive Lang : re -> pystr -> caps -> Prop :=
| L_eps : Lang Eps [] []
| L_set : forall p x, p x = true -> Lang (Set_ p) [x] []
| L_cat : forall a b u v c1 c2, Lang a u c1 -> Lang b v c2 -> Lang (Cat a b) (u ++ v) (c2 ++ c1)
| L_alt_l : forall a b u c, Lang a u c -> Lang (Alt a b) u c
| L_alt_r : forall a b u c, Lang b u c -> Lang (Alt a b) u c
| L_opt_some : forall a u c, Lang a u c -> Lang (Opt a) u c
| L_opt_none : forall a, Lang (Opt a) [] []
| L_star : forall p w, Forall (fun x => p x = true) w -> Lang (Star p) w []
| L_grp : forall n a u c, Lang a u c -> Lang (Grp n a) u ((n, u) :: c).

Fixpoint all_star (p : N -> bool) (s : pystr) : list pystr :=
  match s with
  | x :: s' => if p x then all_star p s' ++ [s] else [s]
  | [] => [s]
  end.

Fixpoint allm (r : re) (s : pystr) (c : caps) : list (pystr * caps) :=
  match r with
  | Eps => [(s, c)]
  | Set_ p => match s with x :: s' => if p x then [(s', c)] else [] | [] => [] end
  | Cat a b => flat_map (fun m => allm b (fst m) (snd m)) (allm a s c)
  | Alt a b => allm a s c ++ allm b s c
  | Opt a => allm a s c ++ [(s, c)]
  | Star p => map (fun s1 => (s1, c)) (all_star p s)
  | Grp n a => map (fun m => (fst m, (n, consumed s (fst m)) :: snd m)) (allm a s c)
  end.

(** The preferred match at the start of [s]: its text and groups. *)
Definition Best (r : re) (s w : pystr) (d : caps) : Prop :=
  exists rest more, s = w ++ rest /\ allm r s [] = (rest, d) :: more.
(** No match at the start of [s]. *)
Definition NoMatch (r : re) (s : pystr) : Prop := forall w rest d, s = w ++ rest -> ~ Lang r w d.
(** The preferred non-empty match. *)
Definition BestNE (r : re) (s w : pystr) (d : caps) : Prop :=
  w <> [] /\ exists rest less more, s = w ++ rest /\ allm r s [] = less ++ (rest, d) :: more /\
                                    Forall (fun m => fst m = s) less.
Definition NoMatchNE (r : re) (s : pystr) : Prop :=
  forall w rest d, s = w ++ rest -> Lang r w d -> w = [].

(** A complete scan of [s]: leftmost matches, the preferred one at each
    position; after an empty match a non-empty one is tried at the same position. *)
Inductive Scanned (r : re) : pystr -> list tok -> Prop :=
| S_end : NoMatch r [] -> Scanned r [] []
| S_skip : forall x s l, NoMatch r (x :: s) -> Scanned r s l -> Scanned r (x :: s) (Chr x :: l)
| S_mat : forall w s d l, Best r (w ++ s) w d -> w <> [] -> Scanned r s l -> Scanned r (w ++ s) (Mat w d :: l)
| S_empty_end : forall d, Best r [] [] d -> Scanned r [] [Mat [] d]
| S_empty : forall x s d l, Best r (x :: s) [] d -> NoMatchNE r (x :: s) -> Scanned r s l ->
            Scanned r (x :: s) (Mat [] d :: Chr x :: l)
| S_empty_mat : forall w s d d' l, Best r (w ++ s) [] d -> BestNE r (w ++ s) w d' -> Scanned r s l ->
            Scanned r (w ++ s) (Mat [] d :: Mat w d' :: l).

(** The text covered by the tokens of a scan. *)
Fixpoint toks_text (l : list tok) : pystr :=
  match l with
  | [] => []
  | Chr x :: l' => x :: toks_text l'
  | Mat t _ :: l' => t ++ toks_text l'
  end.
