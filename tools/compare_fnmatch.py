#!/usr/bin/env python3
# Prints a Coq file that compares Gdbms.fnmatch with CPython's fnmatch.fnmatchcase on random patterns and names.
# usage: compare_fnmatch.py [number] [seed] > /tmp/F.v; coqc -Q rocq/theories Verif /tmp/F.v
import fnmatch, random, sys
n = int(sys.argv[1]) if len(sys.argv) > 1 else 3000
rnd = random.Random(int(sys.argv[2]) if len(sys.argv) > 2 else 1)
A = '[]!-*?abc.\\^'
def text(k): return ''.join(rnd.choice(A) for _ in range(rnd.randint(0, k)))
def bracket():
    start = rnd.choice(['', '!', ']', '!]', '-', '!-', 'b-a', 'b-!!', ']-!c-a!-', 'c-a!', 'c-a!-', 'a!'])
    return '[' + start + text(5) + ']'
def pattern():
    return ''.join(rnd.choice([lambda: text(2), bracket, bracket, lambda: rnd.choice('*?')])() for _ in range(rnd.randint(0, 3)))
def lst(s): return '[' + ';'.join(str(ord(c)) for c in s) + ']'
print('From Verif Require Import PyBase Gdbms.\nLocal Open Scope N_scope.')
rows, yes = [], 0
for _ in range(n):
    p, s = pattern(), text(4)
    if rnd.random() < .3: s = p
    b = fnmatch.fnmatchcase(s, p); yes += b
    rows.append('(%s,%s,%s)' % (lst(p), lst(s), 'true' if b else 'false'))
print('Definition cases : list (list N * list N * bool) := [%s].' % ';\n'.join(rows))
print('Definition wrong := List.filter (fun c => negb (Bool.eqb (fnmatch (fst (fst c)) (snd (fst c))) (snd c))) cases.')
print('Eval vm_compute in (List.length cases, List.length (List.filter snd cases), List.length wrong, List.firstn 3 wrong).')
