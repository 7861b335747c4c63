#!/usr/bin/env python3
# Prints a Coq file that compares the str methods of PyBase.v (on random ASCII texts) and MessagesRun.repr with CPython.
# usage: compare_strings.py [number] [seed] > /tmp/S.v; coqc -Q rocq/theories Verif /tmp/S.v   (the last number of each line must be 0)
import random, sys
n = int(sys.argv[1]) if len(sys.argv) > 1 else 3000
rnd = random.Random(int(sys.argv[2]) if len(sys.argv) > 2 else 1)
A = ''.join(map(chr, range(128)))
B = 'aAbB \t\n\x1c\x1f"\'truefalsenullTRUE,:09_'
def text(k): return ''.join(rnd.choice(A if rnd.random() < .2 else B) for _ in range(rnd.randint(0, k)))
def lit(s): return '[' + ';'.join(str(ord(c)) for c in s) + ']'
def b(x): return 'true' if x else 'false'
rows = []
for _ in range(n):
    s, t, u = text(10), rnd.choice(['true', 'null', 'aa', 'a', 'ab']), text(3)
    if rnd.random() < .6: s = s[:3] + rnd.choice([t, t * 2, t[:-1] + t, 'aaa', 'aba']) + s[3:]
    z = rnd.choice([0, 1, -1, 9, 10, -10, 99, 100, rnd.randint(-10**25, 10**25)])
    rows.append('(%s,%s,%s,(%d)%%Z,(%s,%s,%s,%s,%s),(%s,%s,%s,%d%%nat,%s))' % (lit(s), lit(t), lit(u), z,
        lit(s.replace(t, u)), lit(s.strip()), lit(s.strip('"').strip("'").strip()), lit(s.lower()), lit(str(z)),
        b(s.isupper()), b(t in s), b(s.startswith(t)), s.count(','), b(s <= t)))
print('From Verif Require Import PyBase AsciiRt Gdbms.\nLocal Open Scope N_scope.')
print('Definition rows : list (pystr * pystr * pystr * Z * (pystr * pystr * pystr * pystr * pystr) * (bool * bool * bool * nat * bool)) := [%s].' % ';\n'.join(rows))
print('''Definition ok (x : pystr * pystr * pystr * Z * (pystr * pystr * pystr * pystr * pystr) * (bool * bool * bool * nat * bool)) : bool :=
  let '(s, t, u, z, (a, b, c, d, e), (f, g, h, i, j)) := x in
  str_eqb (replace t u s) a && str_eqb (strip (@is_space ascii_rt) s) b &&
  str_eqb (strip (@is_space ascii_rt) (strip (N.eqb 39) (strip (N.eqb 34) s))) c && str_eqb (@str_lower ascii_rt s) d && str_eqb (str_of_Z z) e &&
  Bool.eqb (@str_isupper ascii_rt s) f && Bool.eqb (contains t s) g && Bool.eqb (starts_with t s) h && Nat.eqb (count_ch 44 s) i && Bool.eqb (str_leb s t) j.
Eval vm_compute in (List.length rows, List.length (List.filter (fun x => negb (ok x)) rows)).''')

U = [chr(c) for c in (0x7f, 0x80, 0x85, 0xa0, 0xad, 0xe9, 0xff, 0x100, 0x378, 0x3b1, 0x200b, 0x2028, 0x20ac, 0xd800, 0xe000, 0xfffe, 0xffff, 0x10000, 0x1f600, 0xe0001, 0x10ffff)]
reprs = []
for _ in range(n):
    s = ''.join(rnd.choice([rnd.choice(A), rnd.choice(U), rnd.choice('\'"\\\n')]) for _ in range(rnd.randint(0, 6)))
    reprs.append('(%s,%s)' % (lit(s), lit(repr(s))))
print('Require Import Verif.MessagesRun.')
print('Definition printable (c : N) : bool := existsb (N.eqb c) %s.' % lit([c for c in U if c.isprintable()]))
print('Definition reprs : list (pystr * pystr) := [%s].' % ';\n'.join(reprs))
print('Eval vm_compute in (List.length reprs, List.length (List.filter (fun x => negb (str_eqb (repr printable (fst x)) (snd x))) reprs)).')
