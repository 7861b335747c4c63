(** * SpecOsNames: ordinary names (C77) *)
From Verif Require Import PyBase FS OsNames Gdbms SpecGdbms.

(** a text in UTF-8 (RFC 3629), and the number of its bytes *)
Definition utf8 (s : pystr) : list N :=
  flat_map (fun c =>
    let low := (128 + c mod 64)%N in
    let middle := (128 + c / 64 mod 64)%N in
    let high := (128 + c / 4096 mod 64)%N in
    if (c <? 128)%N then [c]
    else if (c <? 2048)%N then [192 + c / 64; low]%N
    else if (c <? 65536)%N then [224 + c / 4096; middle; low]%N
    else [240 + c / 262144; high; middle; low]%N) s.
Definition octets (s : pystr) : N := N.of_nat (List.length (utf8 s)).

(** a path without ".." whose components are not longer than the file system allows *)
Definition ordinary (p : path) : Prop := forall c, In c p -> c <> py ".." /\ (octets c <= 255)%N.
(** every folder in which [p] lies exists *)
Definition way_there (p : path) (w : world) : Prop :=
  forall d, on_the_way p d -> d <> p -> entry_at d w = Some EDir.
(** a name for a graph: a file name, and short enough for the longest of the three file names *)
Definition good_name (n : pystr) : Prop := plain n /\ (octets n <= 237)%N.
(** the names on the disk are names the operating system allows *)
Definition names_allowed (w : world) : Prop := forall p e, entry_at p w = Some e -> ordinary p.
(** [w'] has the entries [l] more than [w], and nothing else differs on the disk *)
Definition grown (l : list (path * entry)) (w w' : world) : Prop :=
  (forall p e, In (p, e) l -> entry_at p w' = Some e) /\
  (forall p, ~ In p (map fst l) -> entry_at p w' = entry_at p w).
(** the graphs in a folder have such names *)
Definition good_graphs (folder : path) (w : world) : Prop :=
  forall n, entry_at (folder ++ [n]) w = Some EDir -> n <> py "tests" -> n <> py "__pycache__" -> good_name n.
(** the name a/b *)
Definition slashed (a b : pystr) : pystr := a ++ 47%N :: b.
