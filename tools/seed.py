#!/usr/bin/env python3
"""Seeded bugs: applies one edit to a scratch copy of the model, rebuilds, and reports which theorems fail.
usage: seed.py muts.json   (list of {def, file, old, new, claim, n?}); appends to seeded/LOG.jsonl.
A lemma whose proof breaks is replaced by Admitted in the scratch copy so that the build goes on; a property theorem counts
as failed when it breaks itself or when Print Assumptions shows that it rests on such a lemma."""
import json, os, re, subprocess, sys, shutil
ROOT = os.path.join(os.path.dirname(os.path.abspath(__file__)), '..')
BASE = os.environ.get('BASE', ROOT + '/rocq')
W = '/tmp/w/mut'
J = os.environ.get('J', '4')
STMT = re.compile(r'^(?:Local |Global )?(Theorem|Lemma|Example|Corollary|Remark|Fact)\s+(\w+)', re.M)

def sh(c, **k):
    return subprocess.run(c, shell=True, capture_output=True, text=True, **k)

def enclosing(path, line):
    s = open(path).read(); pos = sum(len(l) for l in s.splitlines(True)[:line-1])
    best = None
    for m in STMT.finditer(s):
        if m.start() <= pos: best = m
    if not best: return None
    p = s.find('\nProof', best.start()); p1 = s.find('Proof.', best.start())
    nxt = STMT.search(s, best.end())
    end = nxt.start() if nxt else len(s)
    if p1 < 0 or p1 > end: return None
    q = re.compile(r'\b(Qed|Defined)\.').search(s, p1)
    if not q or q.start() > end or not (p1 <= pos + 400): return None
    if pos > q.end(): return None
    in_stmt = pos < s.rfind('\n', 0, p1)+1 and s.count('\n', 0, p1)+1 > line
    return best[2], s, p1, q.end(), in_stmt

def users(f):
    """The files that use f, directly or not: the others cannot fail."""
    dep = {}
    for l in sh('coqdep -Q theories Verif theories/*.v', cwd=W).stdout.splitlines():
        a, _, b = l.partition(':')
        dep[os.path.basename(a.split()[0])[:-1]] = [os.path.basename(x)[:-1] for x in b.split() if x.endswith('.vo')]
    r = {f}
    while True:
        n = {x for x in dep if x in r or any(y in r for y in dep[x])} | {f}
        if n == r: return r
        r = n

def run(mut):
    sh(f'rm -rf {W}; mkdir -p /tmp/w && cp -a {BASE} {W}')
    f = f"{W}/theories/{mut['file']}"
    s = open(f).read(); n = s.count(mut['old'])
    if n == 0 or (n > 1 and 'n' not in mut): return {'error': f'old occurs {n} times'}
    if 'n' in mut:
        parts = s.split(mut['old']); k = mut['n']
        s = mut['old'].join(parts[:k+1]) + mut['new'] + mut['old'].join(parts[k+1:])
    else: s = s.replace(mut['old'], mut['new'])
    open(f, 'w').write(s)
    failed, broken = [], []
    sh('coq_makefile -f _CoqProject -o Makefile', cwd=W)
    for _ in range(120):
        r = sh('ulimit -v 8000000; timeout 3000 make -k -j' + J + ' 2>&1', cwd=W)
        out = r.stdout
        errs = set(re.findall(r'File "\./(theories/\w+\.v)", line (\d+)[^\n]*:\nError', out))
        if not errs:
            if r.returncode: broken.append(out[-400:])
            break
        stop = False
        done = set()
        for fn, ln in sorted(errs):
            if fn in done: continue
            done.add(fn)
            e = enclosing(f'{W}/{fn}', int(ln))
            if e is None or e[4]:
                broken.append(f'{fn}:{ln}'); stop = True; continue
            name, src, a, b, _ = e
            open(f'{W}/{fn}', 'w').write(src[:a] + 'Proof. Admitted.' + src[b:])
            failed.append(name)
        if stop: break
    # which property theorems rest on admitted lemmas
    props = set(x for x in failed if re.match(r'C\d\d', x))
    if not broken:
        near = users(mut['file'])
        for p in sorted(os.listdir(W + '/theories')):
            if re.match(r'Props\w*\.v$', p) and p in near:
                src = open(f'{W}/theories/{p}').read()
                names = re.findall(r'^Print Assumptions (\w+)\.', src, re.M)
                o = sh(f'coqc -Q theories Verif theories/{p}', cwd=W).stdout
                blocks = re.findall(r'(Closed under the global context|Axioms:\n(?:.+\n?)+?(?=Closed|Axioms|\Z))', o)
                for nme, bl in zip(names, blocks):
                    if bl.startswith('Axioms'): props.add(nme)
    return {'lemmas_failed': failed, 'theorems_failed': sorted(props), 'model_does_not_compile': broken}

if __name__ == '__main__':
    for mut in json.load(open(sys.argv[1])):
        r = run(mut)
        print(json.dumps({**mut, **r})[:1500], flush=True)
        if 'error' in r: continue
        with open(f'{ROOT}/seeded/LOG.jsonl', 'a') as g:
            g.write(json.dumps({'definition': mut['def'], 'edit': f"{mut['file']}: {mut['old']}  ->  {mut['new']}", 'claim_broken': mut['claim'],
                                'theorems_failed': r['theorems_failed'], 'lemmas_failed': r['lemmas_failed'],
                                'model_does_not_compile': r['model_does_not_compile'], 'theorems_tightened': mut.get('tightened', [])}, ensure_ascii=False) + '\n')
