(** * Prop_Regex: the matcher that every other theorem about text rests on (C52)

    The class of expressions is that of Regex.v: single characters given by a predicate,
    concatenation, alternation, greedy optional, greedy star of single characters, named
    groups. *)
From Verif Require Import PyBase Regex RegexSpec RegexFacts AsciiRt Patterns.

(** At a position: success iff some prefix of the text is in the language. *)
Theorem C52_match_iff_language : forall (r : re) (s : pystr),
  (exists m, match_here r s = Some m) <-> exists w rest d, s = w ++ rest /\ Lang r w d.
Proof. exact match_here_some. Qed.
Print Assumptions C52_match_iff_language.

(** The reported match is a prefix in the language and the first in priority order. *)
Theorem C52_match_is_preferred : forall (r : re) (w rest : pystr) (d : caps),
  match_here r (w ++ rest) = Some (rest, d) <-> Best r (w ++ rest) w d.
Proof. exact match_here_iff_Best. Qed.
Print Assumptions C52_match_is_preferred.
(** The priority list enumerates exactly the matches. *)
Theorem C52_priority_list_complete : forall (r : re) (s rest : pystr) (d : caps),
  In (rest, d) (allm r s []) <-> exists w, s = w ++ rest /\ Lang r w d.
Proof. exact allm_Lang_nil. Qed.
Print Assumptions C52_priority_list_complete.

(** Scanning satisfies the declarative description of a scan, which has one solution,
    and covers the text. *)
Theorem C52_scan : forall (r : re) (s : pystr) (l : list tok),
  Scanned r s l <-> l = scan r 0 s.
Proof. exact scan_iff_Scanned. Qed.
Print Assumptions C52_scan.
Theorem C52_scan_covers : forall (r : re) (s : pystr), toks_text (scan r 0 s) = s.
Proof. exact scan_text. Qed.
Print Assumptions C52_scan_covers.
Theorem C52_search : forall (r : re) (s : pystr),
  search r s = true <-> exists a w b d, s = a ++ w ++ b /\ Lang r w d.
Proof. exact search_spec. Qed.
Print Assumptions C52_search.

Example C52_example :
  map fst (finditer (Plus is_digit0) (py "a12b3")) = [py "12"; py "3"] /\
  match_here (Cat (Star (N.eqb 97)) (ch 97)) (py "aaa") = Some ([], []).
Proof. vm_compute. auto. Qed.
