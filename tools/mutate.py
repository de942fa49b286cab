#!/usr/bin/env python3
"""Seeded-bug testing.  Usage: mutate.py MUTANTS.json [ids...]
Each mutant edits one definition of the model in a scratch copy (/tmp/mut), rebuilds, and
records which proofs break.  A broken proof is admitted in the scratch copy only, so that the
build can go on and Print Assumptions can tell which manifest theorems rested on it."""
import json, os, re, subprocess, sys, shutil
D = os.environ.get('MUT', '/tmp/mut')   # $MUT/base: a built copy of /verif/rocq
S = D + '/rocq'
M = D + '/meter.py' if os.path.exists(D + '/meter.py') else '/verif/tools/meter.py'   # the generator the base was built with
START = re.compile(r'^\s*(?:#\[[^\]]*\]\s*)?(?:Local |Global )?(Lemma|Theorem|Corollary|Fact|Remark|Example|Definition|Fixpoint|Inductive|Let|Instance|Program Definition)\s+([\w\']+)')
def sh(c, **k): return subprocess.run(c, shell=True, capture_output=True, text=True, **k)
def lemma_at(path, line):
    ls = open(path).read().split('\n')
    for i in range(min(line, len(ls)) - 1, -1, -1):
        m = START.match(ls[i])
        if m: return i, m.group(1), m.group(2), ls
    return None
def admit(path, line):
    r = lemma_at(path, line)
    if not r: return None
    i, kind, name, ls = r
    j = i
    while j < len(ls) and not re.search(r'\bProof\b', ls[j]):
        if j > i and START.match(ls[j]): return (name, False)
        j += 1
    k = j
    while k < len(ls) and not re.search(r'\b(Qed|Defined)\.', ls[k]): k += 1
    if k >= len(ls): return (name, False)
    head = ls[j][:ls[j].index('Proof')]
    tail = re.split(r'\b(?:Qed|Defined)\.', ls[k], 1)[1]
    open(path, 'w').write('\n'.join(ls[:j] + [head + 'Proof. Admitted.' + tail] + [''] * (k - j) + ls[k+1:]))
    return (name, True)
def run(mu):
    os.makedirs(D, exist_ok=True)
    sh(f'rm -rf {S} && cp -a {D}/base {S}')
    p = f'{S}/theories/{mu["file"]}'
    t = open(p).read()
    n = t.count(mu['old'])
    if n != 1: return dict(mu, result=f'old text occurs {n} times')
    open(p, 'w').write(t.replace(mu['old'], mu['new']))
    for al in mu.get('also', []):
        q = f'{S}/theories/{al["file"]}'; u = open(q).read()
        if u.count(al['old']) != 1: return dict(mu, result=f'also: old text occurs {u.count(al["old"])} times')
        open(q, 'w').write(u.replace(al['old'], al['new']))
    cp = open(f'{S}/_CoqProject').read().split('\n')
    cp = [l for l in cp if 'Vectors.v' not in l]
    open(f'{S}/_CoqProject', 'w').write('\n'.join(cp))
    if mu['file'] in ('Parser.v', 'Output.v') and any('/Meter.v' in l for l in cp): sh(f'python3 {M} {S}/theories')
    sh(f'cd {S} && coq_makefile -f _CoqProject -o Makefile')
    broken, stuck = [], []
    for it in range(60):
        r = sh(f'cd {S} && make -k -j2 2>&1')
        errs = re.findall(r'File "\./theories/(\w+\.v)", line (\d+), characters [\d-]+:\nError', r.stdout)
        if r.returncode == 0: break
        if not errs: stuck.append(r.stdout[-300:]); break
        prog = False
        for f, l in dict(reversed(errs)).items():
            if f == 'Den.v' and 0: continue
            a = admit(f'{S}/theories/{f}', int(l))
            if a and a[1]: broken.append(f'{f[:-2]}.{a[0]}'); prog = True
            else: stuck.append(f'{f}:{l}:{a}')
        if not prog: break
    man = json.load(open('/verif/MANIFEST.json'))['claims']
    ths = sorted({t for c in man for t in c['theorems']})
    mods = [os.path.basename(l)[:-2] for l in cp if l.endswith('.v') and os.path.exists(f'{S}/{l}o')]
    where = {}
    for m in mods:
        for mm in re.finditer(r'^\s*(?:Lemma|Theorem|Corollary|Fact|Example|Definition)\s+([\w\']+)', open(f'{S}/theories/{m}.v').read(), re.M):
            where.setdefault(mm.group(1), m)
    failed, ok = [], []
    known = [th for th in ths if th in where]
    if not mu.get('mini'): failed += [th for th in ths if th not in where]
    procs = []
    for k in range(3):
        with open(f'{S}/q{k}.v', 'w') as f:
            f.write('From Verif Require Import %s.\n' % ' '.join(mods))
            for th in known[k::3]:
                f.write(f'Goal True. idtac "@@{th}". Abort.\nPrint Assumptions {where[th]}.{th}.\n')
        procs.append(subprocess.Popen(f'cd {S} && coqc -Q theories Verif q{k}.v 2>&1', shell=True, stdout=subprocess.PIPE, text=True))
    for pr in procs:
        parts = re.split(r'^@@([\w\']+)$', pr.communicate()[0], flags=re.M)
        for i in range(1, len(parts), 2):
            (ok if 'Closed under the global context' in parts[i+1] else failed).append(parts[i])
    return dict(mu, broken_proofs=broken, theorems_failed=sorted(failed), stuck=stuck, still=len(ok))
if __name__ == '__main__':
    ms = json.load(open(sys.argv[1])); ids = set(sys.argv[2:])
    for mu in ms:
        if ids and mu['id'] not in ids: continue
        r = run(mu)
        with open('/tmp/mut/results.jsonl', 'a') as f: f.write(json.dumps(r) + '\n')
        print(mu['id'], mu['claim'], r.get('result', ''), 'broken', len(r.get('broken_proofs', [])), 'failed', len(r.get('theorems_failed', [])), r.get('stuck'), flush=True)
