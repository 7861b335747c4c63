(** * SpecShown: how Python shows a text in quotes *)
From Verif Require Import PyBase.

(** a hexadecimal number in small letters: its digits and its value *)
Definition hex_digit_is (d v : N) : Prop := ((48 <= d <= 57 /\ v = d - 48) \/ (97 <= d <= 102 /\ v = d - 87))%N.
Inductive hex_number : pystr -> N -> Prop :=
| hex_none : hex_number [] 0%N
| hex_more ds n d v : hex_number ds n -> hex_digit_is d v -> hex_number (ds ++ [d]) (16 * n + v)%N.

(** characters that are shown as they are: [u] tells which ones beyond ASCII are printable *)
Definition shown_as_is (u : N -> bool) (c : N) : Prop := (32 <= c <= 126 \/ (127 < c /\ u c = true))%N.
Definition has_name (c : N) : Prop := (c = 9 \/ c = 10 \/ c = 13)%N.

(** [t] shows the character [c] between quotes [q] *)
Inductive shows (u : N -> bool) (q : N) : N -> pystr -> Prop :=
| shows_itself c : shown_as_is u c -> c <> q -> c <> 92%N -> shows u q c [c]
| shows_quote : shows u q q [92%N; q]
| shows_backslash : shows u q 92%N (py "\\")
| shows_tab : shows u q 9%N (py "\t")
| shows_line_feed : shows u q 10%N (py "\n")
| shows_return : shows u q 13%N (py "\r")
| shows_2 c ds : ~ shown_as_is u c -> ~ has_name c -> (c < 256)%N -> List.length ds = 2 -> hex_number ds c -> shows u q c (py "\x" ++ ds)
| shows_4 c ds : ~ shown_as_is u c -> (256 <= c < 65536)%N -> List.length ds = 4 -> hex_number ds c -> shows u q c (py "\u" ++ ds)
| shows_8 c ds : ~ shown_as_is u c -> (65536 <= c)%N -> List.length ds = 8 -> hex_number ds c -> shows u q c (py "\U" ++ ds).

(** [t] shows the text [s]: double quotes if it has a single and no double one, else single quotes *)
Definition shows_text (u : N -> bool) (s t : pystr) : Prop :=
  exists q ts, t = q :: concat ts ++ [q] /\ Forall2 (shows u q) s ts /\
    ((In 39%N s /\ ~ In 34%N s /\ q = 34%N) \/ (~ (In 39%N s /\ ~ In 34%N s) /\ q = 39%N)).

(** all characters are code points of Unicode *)
Definition unicode (s : pystr) : Prop := Forall (fun c => (c < 1114112)%N) s.
