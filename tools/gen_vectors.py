#!/usr/bin/env python3
"""Generate theories/Vectors.v from /repo/src/tests.rs: every test vector of the
project, re-run on the model with vm_compute."""
import re, sys
src = open('/repo/src/tests.rs', encoding='utf8').read()
FL = dict(NO_CALLING_CONVENTION=None)
lib = open('/repo/src/lib.rs', encoding='utf8').read()
def lit(s, i):
    """parse a rust string literal at s[i]; return (value, next)"""
    m = re.compile(r'r(#*)"').match(s, i)
    if m:
        end = '"' + m.group(1)
        j = s.index(end, m.end())
        return s[m.end():j], j + len(end)
    assert s[i] == '"'
    out = []; i += 1
    while s[i] != '"':
        if s[i] == '\\':
            c = s[i+1]
            if c == 'n': out.append('\n'); i += 2
            elif c == 't': out.append('\t'); i += 2
            elif c == 'r': out.append('\r'); i += 2
            elif c == '0': out.append('\0'); i += 2
            elif c in '\\"\'': out.append(c); i += 2
            elif c == 'x': out.append(chr(int(s[i+2:i+4],16))); i += 4
            elif c == 'u':
                j = s.index('}', i); out.append(chr(int(s[i+3:j],16))); i = j+1
            elif c == '\n':
                i += 2
                while s[i] in ' \t\n': i += 1
            else: raise Exception(c)
        else:
            out.append(s[i]); i += 1
    return ''.join(out), i+1
def args(s, i):
    """string args of the call whose '(' is at i-1"""
    res = []
    while True:
        while s[i] in ' \t\n,': i += 1
        if s[i] == '"' or s[i] == 'r':
            v, i = lit(s, i); res.append(v)
        else: return res, i
fns = [(m.start(), m.group(1)) for m in re.finditer(r'^fn (\w+)\(', src, re.M)]
def fn_at(pos):
    r = None
    for p, n in fns:
        if p <= pos: r = n
    return r
optflag = {'test_no_this_type':'NO_THISTYPE','test_no_leading_underscores':'NO_LEADING_UNDERSCORES','test_no_ms_keywords':'NO_MS_KEYWORDS','test_name_only':'NAME_ONLY'}
V = []  # (mode, flags, input, expected)
for m in re.finditer(r'^\s+(test|test_invalid|test_option|test_options|do_test)\(', src, re.M):
    pos = m.start(); f = fn_at(pos)
    if f in ('do_test','test'): continue
    a, end = args(src, m.end())
    k = m.group(1)
    if k == 'test' and len(a) == 2: V.append(('sub','0',a[0],a[1]))
    elif k == 'test_invalid' and len(a) == 1: V.append(('bad','0',a[0],''))
    elif k == 'test_option' and len(a) == 2: V.append(('eq',optflag[f],a[0],a[1]))
    elif k == 'test_options' and len(a) == 8:
        fl = ['0','NO_CALLING_CONVENTION','NO_RETURN_TYPE','NO_ACCESS_SPECIFIER','NO_MEMBER_TYPE','NO_VARIABLE_TYPE']
        for x, y in zip(fl, a[1:7]): V.append(('eq',x,a[0],y))
        V.append(('eq','|'.join(fl[1:]),a[0],a[7]))
    elif k == 'do_test' and len(a) == 2: V.append(('eq','0',a[0],a[1]))
    elif not a: print('skip', f, src[m.start():m.start()+60].strip(), file=sys.stderr)
    else: print('??', f, k, a, file=sys.stderr)
arrs = []
for m in re.finditer(r'let (inputs|outputs): [^=]*= \[', src):
    arrs.append((m.group(1), args(src, m.end())[0]))
assert [a[0] for a in arrs] == ['inputs','outputs']*2, [a[0] for a in arrs]
for i in (0, 2):
    assert len(arrs[i][1]) == len(arrs[i+1][1])
    for x, y in zip(arrs[i][1], arrs[i+1][1]): V.append(('sub','0',x,y))
vals = {}
for m in re.finditer(r'const (NO_\w+|NAME_ONLY) *=\s*([^;]+);', lib):
    vals[m.group(1)] = m.group(2)
def ev(n):
    e = vals[n].strip()
    mm = re.match(r'1 << (\d+)$', e)
    if mm: return 1 << int(mm.group(1))
    return int(e, 0)
def flags(s):
    return 0 if s == '0' else sum(ev(x) for x in s.split('|'))
def q(s): return '"' + s.replace('"','""') + '"'
print('(** Generated by tools/gen_vectors.py from /repo/src/tests.rs; do not edit.\n    The project\'s own %d test vectors, re-run on the model: a regression check that the\n    model computes what the code is tested to compute (tests, not theorems). *)' % len(V))
print('From Verif Require Import Api.\n')
print('''Definition U (s : string) : str := match from_utf8 (L s) with Some t => t | None => [] end.
Arguments U _%string.

Fixpoint prefixb (p s : str) : bool :=
  match p, s with
  | [], _ => true
  | x :: p', y :: s' => N.eqb x y && prefixb p' s'
  | _ :: _, [] => false
  end.
Fixpoint substring_of (p s : str) : bool :=
  prefixb p s || match s with [] => false | _ :: s' => substring_of p s' end.

Definition v_sub (fl : N) (i o : string) : bool :=
  match demangle (env_of fl) (U i) with Ok r => substring_of (U o) r | _ => false end.
Definition v_eq (fl : N) (i o : string) : bool :=
  match demangle (env_of fl) (U i) with Ok r => str_eqb r (U o) | _ => false end.
Definition v_bad (fl : N) (i _o : string) : bool :=
  match demangle (env_of fl) (U i) with Err _ => true | _ => false end.
Arguments v_sub _%N _%string _%string.
Arguments v_eq _%N _%string _%string.
Arguments v_bad _%N _%string _%string.
''')
for n, (k, f, a, b) in enumerate(V):
    if '\0' in a+b: print('NUL', a, file=sys.stderr); continue
    print('Example vec_%04d : v_%s %d %s\n  %s = true.\nProof. vm_compute. reflexivity. Qed.' % (n, k, flags(f), q(a), q(b)))
print(len(V), file=sys.stderr)
