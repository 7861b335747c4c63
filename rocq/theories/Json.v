(** * Json: the json module as used by /repo.

    [dump(obj, fh, indent=4)]   graph/database/database.py:53,74, indexes/index_helpers.py:24,69,
                                indexes/node_relationships_index.py:46,93
    [dumps(obj)]                wiggle_shell/core/select_gdbms/select_database_file.py:28,
                                select_index_file.py:34
    [load(fh)]                  database.py:22,42, index_helpers.py:19,40,66, node_relationships_index.py:31,64,90

    The printer is CPython's json.encoder (ensure_ascii=True, allow_nan=True),
    the parser is CPython's json.decoder/scanner (strict=True). *)
From Verif Require Import PyBase.

(** ** Printer *)
Inductive style := Indent4 | Compact.

Definition hex_digit (d : N) : N := if N.ltb d 10 then (48 + d)%N else (87 + d)%N.
Definition hex4 (c : N) : pystr :=
  [hex_digit (c / 4096 mod 16); hex_digit (c / 256 mod 16);
   hex_digit (c / 16 mod 16); hex_digit (c mod 16)]%N.
Definition u_escape (c : N) : pystr := 92%N :: 117%N :: hex4 c.

(** json.encoder.py_encode_basestring_ascii, one character. *)
Definition esc_ch (c : N) : pystr :=
  if N.eqb c 34 then [92; 34]%N
  else if N.eqb c 92 then [92; 92]%N
  else if N.eqb c 10 then [92; 110]%N
  else if N.eqb c 13 then [92; 114]%N
  else if N.eqb c 9 then [92; 116]%N
  else if N.eqb c 12 then [92; 102]%N
  else if N.eqb c 8 then [92; 98]%N
  else if between 32 126 c then [c]
  else if N.ltb c 65536 then u_escape c
  else let n := (c - 65536)%N in
       u_escape (55296 + n / 1024 mod 1024) ++ u_escape (56320 + n mod 1024).

Definition json_str (s : pystr) : pystr := 34%N :: flat_map esc_ch s ++ [34%N].

Definition newline (st : style) (lvl : nat) : pystr :=
  match st with Indent4 => 10%N :: repeat 32%N (4 * lvl) | Compact => [] end.
(** item separator, including the line break that follows it when indenting *)
Definition item_sep (st : style) (lvl : nat) : pystr :=
  match st with Indent4 => 44%N :: newline Indent4 lvl | Compact => [44; 32]%N end.
Definition key_sep : pystr := [58; 32]%N.

(** A chunk of output and whether encoding went on without TypeError.  When it
    did not, the text is what had been written before the exception. *)
Definition out := (pystr * bool)%type.
Definition seq (a : out) (b : out) : out :=
  let (t, ok) := a in
  if ok then let (t', ok') := b in (t ++ t', ok') else (t, false).
Definition text (t : pystr) : out := (t, true).

(** json.encoder._make_iterencode (lists: lines 277-332, dicts: 334-412 of CPython 3.10). *)
Fixpoint dump (st : style) (lvl : nat) (v : pyval) : out :=
  match v with
  | VNone => text (py "null")
  | VBool b => text (if b then py "true" else py "false")
  | VInt z => text (str_of_Z z)
  | VFloat t => text t
  | VStr s => text (json_str s)
  | VOpaque => ([], false)
  | VList [] => text (py "[]")
  | VList (x :: l) =>
      seq (text ([91%N] ++ newline st (S lvl)))
        (seq (dump st (S lvl) x)
          (seq ((fix items (l : list pyval) : out :=
                   match l with
                   | [] => text []
                   | y :: l' => seq (text (item_sep st (S lvl))) (seq (dump st (S lvl) y) (items l'))
                   end) l)
            (text (newline st lvl ++ [93%N]))))
  | VDict [] => text (py "{}")
  | VDict ((k, x) :: d) =>
      seq (text ([123%N] ++ newline st (S lvl)))
        (seq (text (json_str k ++ key_sep))
          (seq (dump st (S lvl) x)
            (seq ((fix items (d : list (pystr * pyval)) : out :=
                     match d with
                     | [] => text []
                     | (k', y) :: d' =>
                         seq (text (item_sep st (S lvl)))
                           (seq (text (json_str k' ++ key_sep)) (seq (dump st (S lvl) y) (items d')))
                     end) d)
              (text (newline st lvl ++ [125%N])))))
  end.

Definition dump_top (st : style) (v : pyval) : out := dump st 0 v.
(** The complete text of a serialisable value. *)
Definition dump_text (st : style) (v : pyval) : pystr := fst (dump_top st v).

(** ** Parser *)
Definition is_ws (c : N) : bool := existsb (N.eqb c) [32; 9; 10; 13]%N.
Definition skip_ws (s : pystr) : pystr := lstrip is_ws s.

Definition hex_val (c : N) : option N :=
  if between 48 57 c then Some (c - 48)%N
  else if between 97 102 c then Some (c - 87)%N
  else if between 65 70 c then Some (c - 55)%N
  else None.

Definition read_hex4 (s : pystr) : option (N * pystr) :=
  match s with
  | a :: b :: c :: d :: s' =>
      match hex_val a, hex_val b, hex_val c, hex_val d with
      | Some x, Some y, Some z, Some w => Some ((((x * 16 + y) * 16 + z) * 16 + w)%N, s')
      | _, _, _, _ => None
      end
  | _ => None
  end.

Definition is_high (c : N) : bool := between 55296 56319 c.
Definition is_low (c : N) : bool := between 56320 57343 c.

(** scanstring, after the opening quote; the result is the string and the rest.
    [pend] holds a high surrogate just read from an escape. *)
Fixpoint scan_str (fuel : nat) (s : pystr) : option (pystr * pystr) :=
  match fuel with
  | O => None
  | S f =>
      let put (c : N) (r : option (pystr * pystr)) :=
        match r with Some (t, rest) => Some (c :: t, rest) | None => None end in
      match s with
      | [] => None
      | c :: s1 =>
          if N.eqb c 34 then Some ([], s1)
          else if N.eqb c 92 then
            match s1 with
            | [] => None
            | e :: s2 =>
                if N.eqb e 117 then
                  match read_hex4 s2 with
                  | None => None
                  | Some (u, s3) =>
                      if is_high u then
                        match s3 with
                        | b1 :: b2 :: s4 =>
                            if N.eqb b1 92 && N.eqb b2 117 then
                              match read_hex4 s4 with
                              | Some (u2, s5) =>
                                  if is_low u2
                                  then put (65536 + (u - 55296) * 1024 + (u2 - 56320))%N (scan_str f s5)
                                  else put u (scan_str f s3)
                              | None => put u (scan_str f s3)
                              end
                            else put u (scan_str f s3)
                        | _ => put u (scan_str f s3)
                        end
                      else put u (scan_str f s3)
                  end
                else if N.eqb e 34 then put 34%N (scan_str f s2)
                else if N.eqb e 92 then put 92%N (scan_str f s2)
                else if N.eqb e 47 then put 47%N (scan_str f s2)
                else if N.eqb e 98 then put 8%N (scan_str f s2)
                else if N.eqb e 102 then put 12%N (scan_str f s2)
                else if N.eqb e 110 then put 10%N (scan_str f s2)
                else if N.eqb e 114 then put 13%N (scan_str f s2)
                else if N.eqb e 116 then put 9%N (scan_str f s2)
                else None
            end
          else if N.ltb c 32 then None
          else put c (scan_str f s1)
      end
  end.

(** Digits at the head of a text. *)
Fixpoint span (p : N -> bool) (s : pystr) : pystr * pystr :=
  match s with
  | [] => ([], [])
  | c :: s' => if p c then let (a, b) := span p s' in (c :: a, b) else ([], s)
  end.

Definition N_of_digits (s : pystr) : N := fold_left (fun n c => (n * 10 + (c - 48))%N) s 0%N.

(** json.scanner NUMBER_RE: integer part, then optional fraction, optional exponent. *)
Definition scan_frac (s : pystr) : pystr * pystr :=
  match s with
  | c :: s1 => if N.eqb c 46 then
                 match span is_digit0 s1 with
                 | ([], _) => ([], s)
                 | (ds, s2) => (c :: ds, s2)
                 end
               else ([], s)
  | [] => ([], s)
  end.
Definition scan_exp (s : pystr) : pystr * pystr :=
  match s with
  | c :: s1 => if N.eqb c 101 || N.eqb c 69 then
                 let (sg, s2) := match s1 with
                                 | x :: s2 => if N.eqb x 45 || N.eqb x 43 then ([x], s2) else ([], s1)
                                 | [] => ([], s1)
                                 end in
                 match span is_digit0 s2 with
                 | ([], _) => ([], s)
                 | (ds, s3) => (c :: sg ++ ds, s3)
                 end
               else ([], s)
  | [] => ([], s)
  end.
Definition scan_int (s : pystr) : option (pystr * pystr) :=
  match s with
  | c :: s1 => if N.eqb c 48 then Some ([c], s1)
               else if between 49 57 c then let (ds, s2) := span is_digit0 s1 in Some (c :: ds, s2)
               else None
  | [] => None
  end.

(** A number: sign, integer part and rest; [VFloat] of repr(float(text)) when there is a
    fraction or an exponent. *)
Definition scan_number `{PyRt} (neg : bool) (s : pystr) : option (pyval * pystr) :=
  match scan_int s with
  | None => None
  | Some (i, s1) =>
      let (fr, s2) := scan_frac s1 in
      let (ex, s3) := scan_exp s2 in
      match fr ++ ex with
      | [] => Some (VInt (let z := Z.of_N (N_of_digits i) in if neg then (- z)%Z else z), s3)
      | _ => match f_repr ((if neg then [45%N] else []) ++ i ++ fr ++ ex) with
             | Some t => Some (VFloat t, s3)
             | None => None
             end
      end
  end.

Definition eat (p : pystr) (s : pystr) : option pystr :=
  if starts_with p s then Some (skipn (List.length p) s) else None.

(** scan_once; [None] is JSONDecodeError.  [parse_members]/[parse_elems] are entered
    after the opening bracket (or a comma) and the white space that follows it. *)
Fixpoint parse_value `{PyRt} (fuel : nat) (s : pystr) : option (pyval * pystr) :=
  match fuel with
  | O => None
  | S f =>
      match s with
      | [] => None
      | c :: s1 =>
          if N.eqb c 34 then
            match scan_str (S (List.length s1)) s1 with
            | Some (t, s2) => Some (VStr t, s2) | None => None
            end
          else if N.eqb c 123 then
            match skip_ws s1 with
            | [] => None
            | c2 :: s2 => if N.eqb c2 125 then Some (VDict [], s2)
                          else parse_members f (c2 :: s2) []
            end
          else if N.eqb c 91 then
            match skip_ws s1 with
            | [] => None
            | c2 :: s2 => if N.eqb c2 93 then Some (VList [], s2)
                          else parse_elems f (c2 :: s2) []
            end
          else if N.eqb c 110 then
            match eat (py "null") s with Some s2 => Some (VNone, s2) | None => None end
          else if N.eqb c 116 then
            match eat (py "true") s with Some s2 => Some (VBool true, s2) | None => None end
          else if N.eqb c 102 then
            match eat (py "false") s with Some s2 => Some (VBool false, s2) | None => None end
          else if N.eqb c 78 then
            match eat (py "NaN") s with Some s2 => Some (VFloat (py "NaN"), s2) | None => None end
          else if N.eqb c 73 then
            match eat (py "Infinity") s with Some s2 => Some (VFloat (py "Infinity"), s2) | None => None end
          else if N.eqb c 45 then
            match eat (py "Infinity") s1 with
            | Some s2 => Some (VFloat (py "-Infinity"), s2)
            | None => scan_number true s1
            end
          else scan_number false s
      end
  end
with parse_elems `{PyRt} (fuel : nat) (s : pystr) (acc : list pyval) : option (pyval * pystr) :=
  match fuel with
  | O => None
  | S f =>
      match parse_value f s with
      | None => None
      | Some (v, s1) =>
          match skip_ws s1 with
          | c :: s2 => if N.eqb c 93 then Some (VList (acc ++ [v]), s2)
                       else if N.eqb c 44 then parse_elems f (skip_ws s2) (acc ++ [v])
                       else None
          | [] => None
          end
      end
  end
with parse_members `{PyRt} (fuel : nat) (s : pystr) (acc : list (pystr * pyval)) : option (pyval * pystr) :=
  match fuel with
  | O => None
  | S f =>
      match s with
      | c :: s1 =>
          if N.eqb c 34 then
            match scan_str (S (List.length s1)) s1 with
            | None => None
            | Some (k, s2) =>
                match skip_ws s2 with
                | c2 :: s3 =>
                    if N.eqb c2 58 then
                      match parse_value f (skip_ws s3) with
                      | None => None
                      | Some (v, s4) =>
                          match skip_ws s4 with
                          | c3 :: s5 =>
                              if N.eqb c3 125 then Some (VDict (d_set k v acc), s5)
                              else if N.eqb c3 44 then parse_members f (skip_ws s5) (d_set k v acc)
                              else None
                          | [] => None
                          end
                      end
                    else None
                | [] => None
                end
            end
          else None
      | [] => None
      end
  end.

(** json.loads: leading BOM refused, surrounding white space allowed, nothing else may follow. *)
Definition loads `{PyRt} (s : pystr) : option pyval :=
  match s with
  | c :: _ => if N.eqb c 65279 then None
              else match parse_value (2 * List.length s + 2) (skip_ws s) with
                   | Some (v, rest) => match skip_ws rest with [] => Some v | _ => None end
                   | None => None
                   end
  | [] => None
  end.

(** json.load on the text of a file. *)
Definition load_json `{PyRt} (s : pystr) : res pyval :=
  match loads s with Some v => Ok v | None => Err JSONDecodeError end.
