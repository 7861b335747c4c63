#!/usr/bin/env python3
"""Seeded bugs: apply one edit to a scratch copy of the model and see which theorems no longer prove.

usage: seed.py BASE WORK MUTATIONS.py [id ...]

BASE is a compiled copy of /verif/rocq outside /verif.  Every proof that fails after the edit is replaced by
Admitted in the scratch copy, the build goes on, and Print Assumptions (already beneath each
property theorem) then tells which property theorems rest on a proof that failed.
One JSON line per edit is printed."""
import json, os, re, shutil, subprocess, sys

HEAD = re.compile(r'^\s*(?:#\[[^\]]*\]\s*)?(?:Local |Global )?(?:Lemma|Theorem|Example|Corollary|Fact|Remark|Instance|Definition|Let)\s+([A-Za-z0-9_\']+)', re.M)

def proofs(text):
    """(name, start of Proof, end of Qed.) of every proof"""
    out = []
    for m in re.finditer(r'\bProof\b', text):
        e = re.compile(r'\b(Qed|Defined|Admitted)\.').search(text, m.start())
        if not e: continue
        names = [h for h in HEAD.finditer(text, 0, m.start())]
        if names: out.append((names[-1].group(1), m.start(), e.end(), e.group(1)))
    return out

def using_map(base):
    """section variables used by each proof, from 'Suggest Proof Using'"""
    f = os.path.join(base, 'using.json')
    if os.path.exists(f): return json.load(open(f))
    d = {}
    th = os.path.join(base, 'theories')
    for v in sorted(os.listdir(th)):
        if not v.endswith('.v'): continue
        t = open(os.path.join(th, v)).read()
        if 'Section ' not in t: continue
        tmp = '/tmp/seed_using'; os.makedirs(tmp, exist_ok=True)
        p = os.path.join(tmp, v)
        open(p, 'w').write('Set Suggest Proof Using.\n' + t)
        r = subprocess.run(['timeout', '900', 'coqc', '-Q', th, 'Verif', '-o', p + 'o', p], capture_output=True, text=True)
        out = r.stdout + r.stderr
        for m in re.finditer(r'The proof of (\S+)\s+should start with one of the following commands:\s+Proof using ([^.]*)\.', out):
            d[v + ':' + m.group(1)] = ' '.join(m.group(2).split())
        sys.stderr.write('%s %d\n' % (v, r.returncode))
    json.dump(d, open(f, 'w'))
    return d

def make(work):
    logs = os.path.join(work, 'logs'); shutil.rmtree(logs, ignore_errors=True); os.makedirs(logs)
    env = dict(os.environ, SEEDLOG=logs)
    subprocess.run(['make', '-k', '-j3', 'COQC=/tmp/seed_coqc'], cwd=work, env=env, stdout=subprocess.DEVNULL, stderr=subprocess.DEVNULL)
    return logs

def admit(work, v, pos, used):
    p = os.path.join(work, 'theories', v)
    t = open(p).read()
    for name, a, b, kind in proofs(t):
        if a <= pos <= b and kind != 'Admitted':
            u = used.get(v + ':' + name)
            new = ('Proof using %s. Admitted.' % u) if u is not None else 'Proof. Admitted.'
            open(p, 'w').write(t[:a] + new + t[b:])
            return name
    return None

def run(mut, base, work, used):
    shutil.rmtree(work, ignore_errors=True)
    subprocess.run(['cp', '-a', base, work], check=True)
    for (f, old, new) in mut['edits']:
        p = os.path.join(work, 'theories', f)
        t = open(p).read()
        if t.count(old) != 1: return dict(id=mut['id'], error='edit does not apply (%d)' % t.count(old))
        open(p, 'w').write(t.replace(old, new))
    failed, broken = [], []
    for it in range(60):
        logs = make(work)
        progress = False
        bad = []
        for l in sorted(os.listdir(logs)):
            v = l[:-4] + '.v'
            out = open(os.path.join(logs, l)).read()
            if out.rstrip().endswith('SEED_OK'): continue
            bad.append(v)
            p = os.path.join(work, 'theories', v)
            src = open(p).read()
            m = re.search(r'File "[^"]*", line (\d+), characters (\d+)-(\d+):\nError', out)
            if m:
                lines = src.encode().split(b'\n')
                pos = len(b'\n'.join(lines[:int(m.group(1)) - 1]).decode()) + 1 + int(m.group(2))
            else:
                c = re.findall(r'^Chars (\d+) - (\d+)', out, re.M)
                pos = len(src.encode()[:int(c[-1][1])].decode()) + 2 if c else 0
            name = admit(work, v, pos, used)
            if name: failed.append(v[:-2] + '.' + name); progress = True
            else: broken.append(v[:-2])
        if not bad: break
        if not progress: break
    unchecked, hit = [], []
    for v in sorted(os.listdir(os.path.join(work, 'theories'))):
        if not (v.startswith('Prop_') and v.endswith('.v')): continue
        src = open(os.path.join(work, 'theories', v)).read()
        names = re.findall(r'Print Assumptions (\w+)\.', src)
        log = os.path.join(work, 'logs_all', v[:-2] + '.log')
        vo = os.path.join(work, 'theories', v + 'o')
        if not os.path.exists(vo) or v[:-2] in broken: unchecked.append(v[:-2]); continue
        if not os.path.exists(log): continue    # not rebuilt: does not depend on the edited file
        blocks = re.findall(r'^(Closed under the global context|Axioms:)', open(log).read(), re.M)
        if len(blocks) != len(names): unchecked.append(v[:-2] + '?'); continue
        hit += [n for n, b in zip(names, blocks) if b == 'Axioms:']
    return dict(id=mut['id'], failed_proofs=failed, theorems=hit, unchecked=unchecked, broken=broken)

if __name__ == '__main__':
    base, work, mfile = sys.argv[1:4]
    open('/tmp/seed_coqc', 'w').write('''#!/bin/bash
# the last argument is the file
f="${!#}"; n=$(basename "$f" .v); mkdir -p logs_all
timeout 600 coqc -time "$@" > "$SEEDLOG/$n.log" 2>&1
r=$?
[ $r = 0 ] && echo SEED_OK >> "$SEEDLOG/$n.log"
cp "$SEEDLOG/$n.log" logs_all/
exit $r
''')
    os.chmod('/tmp/seed_coqc', 0o755)
    used = using_map(base)
    ns = {}
    exec(open(mfile).read(), ns)
    ids = sys.argv[4:]
    for mut in ns['mutations']:
        if ids and mut['id'] not in ids: continue
        r = run(mut, base, work, used)
        print(json.dumps(r), flush=True)
