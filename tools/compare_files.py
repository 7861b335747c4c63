#!/usr/bin/env python3
# Prints a Coq file that compares the file operations of the model (OsNames.os_exec), Gdbms.joinpath and
# Gdbms.glob_star with Linux and CPython on random small trees, made in a temporary folder.
# usage: compare_files.py [number] [seed] > /tmp/P.v; coqc -Q rocq/theories Verif /tmp/P.v
import glob, os, pathlib, random, shutil, sys, tempfile
n = int(sys.argv[1]) if len(sys.argv) > 1 else 300
rnd = random.Random(int(sys.argv[2]) if len(sys.argv) > 2 else 1)
LONG = 'é' * 127 + 'xx'          # 256 bytes
JUST = 'é' * 127 + 'x'           # 255 bytes
NAMES = ['a', 'b', '[ab]', 'a*', '.h', '?', '[!a]', 'b]']
top = tempfile.mkdtemp(prefix='cf', dir='/tmp')
root = os.path.join(top, 'r', 's')
def lit(s): return '[' + ';'.join(str(ord(c)) for c in s) + ']'
def pth(l): return '[' + ';'.join(lit(c) for c in l) + ']'
def comps(p): return [c for c in p.split('/') if c]
def snapshot():
    out = []
    for d, ds, fs in os.walk(top):
        out.append((comps(d), None))
        out += [(comps(d) + [f], open(os.path.join(d, f)).read()) for f in fs]
    return out
def entries(l): return '[([[116;109;112]],EDir);' + ';'.join('(%s,%s)' % (pth(p), 'EDir' if t is None else 'EFile ' + lit(t)) for p, t in l) + ']'
def fresh():
    shutil.rmtree(top); os.makedirs(root)
    for _ in range(rnd.randint(1, 7)):
        p = os.path.join(root, *[rnd.choice(NAMES) for _ in range(rnd.randint(1, 3))])
        try:
            if rnd.random() < .5: os.makedirs(p)
            else:
                os.makedirs(os.path.dirname(p), exist_ok=True); open(p, 'x').write(rnd.choice(['', 'xy']))
        except OSError: pass
def walk():
    l, depth = [], 2
    for _ in range(rnd.randint(1, 4)):
        c = rnd.choice(NAMES[:3] + NAMES[:3] + ['..', '..', LONG, JUST])
        if c == '..' and depth == 1: c = 'a'
        depth += -1 if c == '..' else 1
        l.append(c)
    if rnd.random() < .4:        # something that is there
        s = [p for p, _ in snapshot() if len(p) > 4]
        if s: l = rnd.choice(s)[4:]
    return l
def resp(f):
    try: return f()
    except FileNotFoundError: return 'RErr FileNotFoundError'
    except OSError: return 'RErr OSError'
def boolean(b): return 'RBool ' + ('true' if b else 'false')
def unit(x): return 'RUnit'
def names(l): return 'RNames [' + ';'.join(lit(x) for x in sorted(l)) + ']'
OPS = {'CRead': lambda p: 'RText ' + lit(open(p).read()), 'CCreate': lambda p: unit(open(p, 'w').close()),
       'CIsFile': lambda p: boolean(pathlib.Path(p).is_file()), 'CIsDir': lambda p: boolean(pathlib.Path(p).is_dir()),
       'CMkdir': lambda p: unit(pathlib.Path(p).mkdir(parents=True, exist_ok=True)), 'CTouch': lambda p: unit(pathlib.Path(p).touch()),
       'CList': lambda p: names(os.listdir(p)), 'CUnlink': lambda p: unit(os.remove(p)), 'CRmdir': lambda p: unit(pathlib.Path(p).rmdir())}
base = comps(root)
ops, globs, joins = [], [], []
for _ in range(n):
    fresh(); before = snapshot(); l = []
    for _ in range(5):
        o, w = rnd.choice(sorted(OPS)), walk()
        r = resp(lambda: OPS[o]('/' + '/'.join(base + w)))
        l.append('(%s %s, %s)' % (o, pth(base + w), r))
    ops.append('(%s, [%s], %s)' % (entries(before), ';'.join(l), entries(snapshot())))
for _ in range(n):
    fresh()
    w = [rnd.choice(NAMES + ['*', '**', '?*', '[a-b]']) for _ in range(rnd.randint(1, 2))]
    g = sorted(comps(p) for p in glob.glob('/' + '/'.join(base + w) + '/*'))
    globs.append('(%s, %s, [%s])' % (entries(snapshot()), pth(base + w), ';'.join(pth(p) for p in g)))
for _ in range(n):
    s = ''.join(rnd.choice('/.ab ') for _ in range(rnd.randint(0, 7)))
    joins.append('(%s, %s)' % (lit(s), pth(pathlib.PurePosixPath('/home/g').joinpath(s).parts[1:])))
shutil.rmtree(top)
print('From Verif Require Import PyBase FS OsNames Gdbms.\nLocal Open Scope N_scope.')
print('Definition ops : list (fs * list (cmd * resp) * fs) := [%s].' % ';\n'.join(ops))
print('Definition globs : list (fs * path * list path) := [%s].' % ';\n'.join(globs))
print('Definition joins : list (pystr * path) := [%s].' % ';\n'.join(joins))
print('''
Definition entry_eqb (a b : entry) : bool := match a, b with EDir, EDir => true | EFile s, EFile t => str_eqb s t | _, _ => false end.
Definition sub_fs (f g : fs) : bool := forallb (fun pe => match fs_get (fst pe) g with Some e => entry_eqb e (snd pe) | None => false end) f.
Definition list_eqb := fix go (a b : list pystr) := match a, b with [], [] => true | x :: a', y :: b' => str_eqb x y && go a' b' | _, _ => false end.
Definition resp_eqb (a b : resp) : bool :=
  match a, b with
  | RUnit, RUnit => true | RBool x, RBool y => Bool.eqb x y | RText x, RText y => str_eqb x y
  | RNames x, RNames y => list_eqb (sort_strs x) y
  | RErr FileNotFoundError, RErr FileNotFoundError => true | RErr OSError, RErr OSError => true | _, _ => false end.
Fixpoint play (l : list (cmd * resp)) (w : world) : option (cmd * resp * resp) * world :=
  match l with [] => (None, w) | (c, r) :: l' => let (r', w') := os_exec c w in if resp_eqb r' r then play l' w' else (Some (c, r, r'), w') end.
Definition world_of (f : fs) : world := {| w_fs := f; w_in := []; w_out := [] |}.
Definition op_ok (x : fs * list (cmd * resp) * fs) : bool :=
  let '(f, l, g) := x in let (o, w) := play l (world_of f) in match o with None => sub_fs (w_fs w) g && sub_fs g (w_fs w) | Some _ => false end.
Definition glob_ok (x : fs * path * list path) : bool :=
  let '(f, p, l) := x in
  match fst (os_run (glob_star p) (world_of f)) with
  | Ok m => Nat.eqb (List.length m) (List.length l) && forallb (fun q => existsb (path_eqb q) m) l
  | Err _ => false end.
Definition join_ok (x : pystr * path) : bool := list_eqb (joinpath [[104;111;109;101]; [103]] (fst x)) (snd x).
Definition bad_ops := List.filter (fun x => negb (op_ok x)) ops.
Definition bad_globs := List.filter (fun x => negb (glob_ok x)) globs.
Definition bad_joins := List.filter (fun x => negb (join_ok x)) joins.
Eval vm_compute in (List.length ops, List.length bad_ops, List.length globs, List.length (List.filter (fun x => match snd x with [] => false | _ => true end) globs), List.length bad_globs, List.length joins, List.length bad_joins).
Eval vm_compute in (map (fun x => let '(f, l, g) := x in fst (play l (world_of f))) (List.firstn 2 bad_ops), List.firstn 1 bad_globs, List.firstn 2 bad_joins).''')
