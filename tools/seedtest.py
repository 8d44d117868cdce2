#!/usr/bin/env python3
"""Seeded-bug tests: apply each edit of seeded/mutations.json to a scratch copy of the model, rebuild, and log which proofs fail.
   usage: seedtest.py [id ...]   (no ids: all that are not in seeded/LOG.jsonl)"""
import json, os, re, subprocess, sys
V = '/verif'; S = '/tmp/seed'; SRC = os.environ.get('SRC', V + '/rocq')  # SRC: a built copy of rocq/
T = S + '/theories'

def blocks(path):
    """(name, first line, last line, statement, text) of every Lemma/Theorem/Example"""
    lines = open(path).read().split('\n'); out = []; i = 0
    while i < len(lines):
        m = re.match(r'\s*(?:#\[[^\]]*\]\s*)?(?:Local |Global )?(?:Lemma|Theorem|Example|Corollary|Fact)\s+(\w+)', lines[i])
        if m:
            j = i; st = []
            while j < len(lines) and not re.search(r'\b(Qed|Defined)\.', lines[j]):
                j += 1
            text = '\n'.join(lines[i:j+1])
            stmt = text.split('Proof')[0]
            out.append((m.group(1), i+1, j+1, stmt, text)); i = j
        i += 1
    return out

def graph():
    L = {}
    for f in sorted(os.listdir(T)):
        if f.endswith('.v'):
            for b in blocks(f'{T}/{f}'): L[b[0]] = (f,) + b
    defs = {}
    for f in sorted(os.listdir(T)):
        if f.startswith('M') and f.endswith('.v'):
            s = open(f'{T}/{f}').read()
            for m in re.finditer(r'(?:Definition|Fixpoint) (\w+)(.*?)(?=\n(?:\(\*|Definition|Fixpoint|Record|Inductive|Notation)|\Z)', s, re.S):
                defs[m.group(1)] = set(re.findall(r'\w+', m.group(2)))
    return L, defs

def dependents(failed, L, defs):
    toks = {n: set(re.findall(r'\w+', b[5])) for n, b in L.items()}
    stm = {n: set(re.findall(r'\w+', b[4])) for n, b in L.items()}
    spec = lambda n: re.search(r'\b(parses|wp|wpa|agree|reads_exactly|data_exactly)\b', L[n][4])
    bad = set(failed); todo = list(failed)
    while todo:
        x = todo.pop()
        fs = (stm[x] & set(defs)) if x in L and spec(x) else set()
        for n in L:
            if n in bad: continue
            if x in toks[n] or (fs and spec(n) and any(fs & defs[g] for g in stm[n] & set(defs))):
                bad.add(n); todo.append(n)
    return sorted(n for n in bad if re.match(r'C\d\d_', n))

def run(mu):
    subprocess.run(f'rm -rf {S} && cp -a {SRC} {S}', shell=True, check=True)
    p = f"{T}/{mu['file']}"; s = open(p).read()
    k = s.count(mu['old'])
    if k != 1 and not mu.get('nth'):
        return {'id': mu['id'], 'error': f'{k} occurrences'}
    if mu.get('nth'):
        parts = s.split(mu['old']); n = mu['nth']
        s = mu['old'].join(parts[:n]) + mu['new'] + mu['old'].join(parts[n:])
    else: s = s.replace(mu['old'], mu['new'])
    open(p, 'w').write(s)
    r = subprocess.run('make -k -j4 2>&1', shell=True, cwd=S, capture_output=True, text=True)
    failed = []; info = []
    for m in re.finditer(r'File "\./theories/(\w+\.v)", line (\d+).*?\n(Error.*?)(?=\nmake|\nFile|\Z)', r.stdout, re.S):
        f, ln = m.group(1), int(m.group(2))
        nm = [b[0] for b in blocks(f'{T}/{f}') if b[1] <= ln <= b[2]]
        failed.append(nm[0] if nm else f'{f}:{ln}'); info.append(f'{f}:{ln}')
    L, defs = graph()
    return {'id': mu['id'], 'rc': r.returncode, 'failed': failed, 'where': info, 'claims_failed': dependents(failed, L, defs), 'tail': r.stdout[-300:] if r.returncode and not failed else ''}

def main():
    mus = json.load(open(V + '/seeded/mutations.json'))
    logp = V + '/seeded/LOG.jsonl'
    done = set()
    if os.path.exists(logp):
        done = {json.loads(l)['id'] for l in open(logp) if l.strip()}
    ids = sys.argv[1:]
    for mu in mus:
        if ids and mu['id'] not in ids: continue
        if not ids and mu['id'] in done: continue
        r = run(mu)
        if 'error' in r: print(r, flush=True); continue
        e = {'id': mu['id'], 'definition': mu['definition'], 'file': mu['file'], 'edit': f"{mu['old']}  ->  {mu['new']}", 'claim_broken': mu['claim'],
             'outcome': 'rejected' if r['rc'] else 'SURVIVED', 'failed_directly': r['failed'], 'theorems_failed': r['claims_failed'], 'theorems_tightened': []}
        print(mu['id'], e['outcome'], r['failed'], r['where'], r['claims_failed'][:8], r['tail'], flush=True)
        with open(logp, 'a') as f: f.write(json.dumps(e) + '\n')

main()
