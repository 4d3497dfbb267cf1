#!/usr/bin/env python3
"""Apply wrong edits to a scratch copy of the model and see which theorems notice.

usage: mutate.py FILE.json [-j N] [--dry] [--keep] [--all]    FILE.json: list of {file, definition, old, new, edit, claim}
--keep: with the tree of the last batch; --all: go on after the first failure.
Known answer tests (Kat/) are not built: only theorems count.  One JSON line per edit goes to seeded/LOG.jsonl."""
import json, os, re, subprocess, sys, time
V = '/tmp/mutbase/rocq'; M = '/tmp/mut/rocq'; LOG = '/verif/seeded/LOG.jsonl'
J = sys.argv[sys.argv.index('-j') + 1] if '-j' in sys.argv else '3'
ALL = '-k' if '--all' in sys.argv else ''

def sh(c, **k): return subprocess.run(c, shell=True, capture_output=True, text=True, **k)
def lemma_at(path, line):
    L = open(path).read().split('\n')[:line]
    for l in reversed(L):
        m = re.match(r'\s*(?:Theorem|Lemma|Example|Definition|Fixpoint)\s+([\w\']+)', l)
        if m: return m.group(1)
    return '?'
def names(path): return re.findall(r'^Theorem\s+(C\d+\w*)', open(path).read(), re.M)

def run(mu):
    os.makedirs('/tmp/mut', exist_ok=True)
    sh(f'rm -rf {M} && cp -a {V} {M}')
    f = f'{M}/theories/{mu["file"]}'
    s = open(f).read()
    if s.count(mu['old']) < 1: return {'error': 'pattern not found'}
    n = mu.get('nth', 0)
    if n >= s.count(mu['old']): return {'error': 'nth occurrence not found'}
    parts = s.split(mu['old'])
    s = mu['old'].join(parts[:n+1]) + mu['new'] + mu['old'].join(parts[n+1:])
    open(f, 'w').write(s)
    t = time.time()
    try:
        r = sh(f'cd {M} && timeout 3000 nice -n 19 make {ALL} -j{J} COQC="prlimit --cpu=400 coqc" 2>&1')
    except Exception as e:
        return {'error': str(e)}
    out = r.stdout
    failed = []
    for m in re.finditer(r'File "\./theories/([\w/]+\.v)", line (\d+), characters[^\n]*\nError', out):
        failed.append(f'{m.group(1)}:{lemma_at(f"{M}/theories/{m.group(1)}", int(m.group(2)))}')
    for m in re.finditer(r'theories/([\w/]+)\.vo\] (?:Error 137|Killed|CPU time)', out): failed.append(f'{m.group(1)}.v: no proof within 400 s')
    props = []
    for q in sorted(os.listdir(f'{M}/theories/Props')):
        if q.endswith('.v') and (ALL or not failed):
            v = f'{M}/theories/Props/{q}'; vo = v + 'o'
            if not os.path.exists(vo) or os.path.getmtime(vo) < os.path.getmtime(f) : 
                # rebuilt files are newer than the edit; files that do not depend on it keep their old time
                dep = sh(f'cd {M} && make -q theories/Props/{q}o').returncode
                if dep != 0: props.append(q)
    if r.returncode == 124: failed.append('build timed out')
    return {'first_failures': failed, 'props': props, 'seconds': round(time.time() - t)}

if '--keep' not in sys.argv:
  # the tree at the start of the batch, without the lines that only print and without the known answer tests
  sh(f'rm -rf /tmp/mutbase && mkdir /tmp/mutbase && cp -a /verif/rocq {V} && sed -i "s/Print Assumptions [A-Za-z0-9_]*[.]//g" {V}/theories/Props/*.v')
  sh(f'cd {V} && grep -v /Kat/ _CoqProject > p && mv p _CoqProject && coq_makefile -f _CoqProject -o Makefile && make -k -j{J}')
for mu in json.load(open(sys.argv[1])):
    r = run(mu)
    if 'error' in r: print(mu['definition'], r); continue
    th = list(r['first_failures'])
    for q in r['props']: th += [f'Props/{q} not built']
    line = {'definition': f'{mu["file"]}: {mu["definition"]}', 'edit': mu['edit'], 'claim': mu['claim'],
            'failed': th, 'tightened': mu.get('tightened', [])}
    print(('KILLED  ' if th else 'SURVIVED'), mu['definition'], '|', mu['edit'], '|', r['first_failures'], r['seconds'], flush=True)
    if '--dry' not in sys.argv: open(LOG, 'a').write(json.dumps(line) + '\n')
