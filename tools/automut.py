#!/usr/bin/env python3
"""Automatic mutants of the model: small edits of the definitions in theories/M*.v, each built in a scratch copy.
   usage: SRC=built-copy automut.py seed count out.jsonl
   A mutant is 'killed' if a Lemma or Theorem stops compiling, 'example' if only Examples do, 'SURVIVED' if everything compiles,
   'invalid' if the model itself does not compile.  Proofs of Examples that fail are admitted in the scratch copy and the build goes on."""
import json, os, random, re, subprocess, sys
SRC = os.environ['SRC']; S = os.environ.get('SCRATCH', '/tmp/mut/w'); T = S + '/theories'
seed, count, out = int(sys.argv[1]), int(sys.argv[2]), sys.argv[3]
R = random.Random(seed)
KINDS = os.environ.get('KINDS', '')
FILES = os.environ.get('FILES', 'MBitBuffer.v MCommon.v MFraming.v MProfile.v MSyntaxA.v MSyntaxB.v MSps.v MPps.v MSlice.v MSei.v MNal.v MRtp.v MTool.v').split()

def mask(s):
    """blank comments and strings"""
    o = list(s); i = 0; d = 0
    while i < len(s):
        if s.startswith('(*', i): d += 1; o[i] = o[i+1] = ' '; i += 2; continue
        if s.startswith('*)', i) and d: d -= 1; o[i] = o[i+1] = ' '; i += 2; continue
        if d and s[i] != '\n': o[i] = ' '
        i += 1
    return ''.join(o)

def mutants(f):
    s = open(f'{SRC}/theories/{f}').read(); m = mask(s); out = []
    starts = [(x.start(), x.group(2)) for x in re.finditer(r'^(Definition|Fixpoint) (\w+)', m, re.M)]
    ends = [x.start() for x in re.finditer(r'^(Definition|Fixpoint|Record|Inductive|Notation|Lemma|Theorem|Ltac|Local|Section|End|From|Import|Open)\b', m, re.M)] + [len(m)]
    for a, name in starts:
        b = min(e for e in ends if e > a); body = m[a:b]; h = body.find(':=')
        if h < 0: continue
        base = a + h + 2; seg = m[base:b]
        def add(i, j, new, kind): out.append((f, name, base + i, base + j, new, kind))
        for x in re.finditer(r'(?<![\w.\'"])(\d+)(?![\w.\'"])', seg):
            v = int(x.group(1)); add(x.start(), x.end(), str(v + 1), 'const+1')
            if v > 0: add(x.start(), x.end(), str(v - 1), 'const-1')
        for p, q in (('<?', '<=?'), ('<=?', '<?'), ('&&', '||'), ('||', '&&'), ('=? ', '<? '), (' + ', ' - '), (' - ', ' + ')):
            for x in re.finditer(re.escape(p), seg): add(x.start(), x.end(), q, p + '->' + q)
        for x in re.finditer(r'\bnegb ', seg): add(x.start(), x.end(), '', 'drop negb')
        for x in re.finditer(r'\bu(32|64) \(', seg): add(x.start(), x.end(), '(', 'drop wrap')
        for x in re.finditer(r'\bReadBits (\d+)', seg): pass
        for p, q in (('ReadExponentialGolomb', 'ReadSignedExponentialGolomb'), ('ReadSignedExponentialGolomb', 'ReadExponentialGolomb')):
            for x in re.finditer(r'\b%s\b' % p, seg): add(x.start(), x.end(), q, p + '->' + q)
        # two neighbouring reads swapped
        L = [(x.start(), x.end(), x.group(1), x.group(2)) for x in re.finditer(r"^ *(\w+) <- (.*?) ;;$", seg, re.M)]
        for u, v in zip(L, L[1:]):
            if u[1] + 1 == v[0] and u[3] != v[3] : add(u[0], v[1], '  %s <- %s ;;\n  %s <- %s ;;' % (v[2], v[3], u[2], u[3]), 'swap reads')
            if u[1] + 1 == v[0]: add(u[0], v[1], '  %s <- %s ;;\n  %s <- %s ;;' % (v[2], u[3], u[2], v[3]), 'swap names')
        # a check dropped:  assert/guard lines
        for x in re.finditer(r'^ *(?:_ <- )?(?:check|guard|fail_if|assert\w*)\b.*?;;\n', seg, re.M): add(x.start(), x.end(), '', 'drop check')
        # two neighbouring arguments of a constructor swapped; a field or variable replaced by another one of the definition
        for x in re.finditer(r'\bmk\w+((?: +\w+){2,})', seg):
            w = [(x.start(1) + y.start(), y.group()) for y in re.finditer(r'\w+', x.group(1))]
            for (i, u), (j, v) in zip(w, w[1:]):
                if u != v: add(i, j + len(v), v + seg[i + len(u):j] + u, 'swap args')
        fields = sorted(set(x.group(1) for x in re.finditer(r'\((\w{4,}) [a-z]\w*\)', seg)))
        for x in re.finditer(r'\((\w{4,}) [a-z]\w*\)', seg):
            k = fields.index(x.group(1))
            if len(fields) > 1: add(x.start(1), x.end(1), fields[(k + 1) % len(fields)], 'other field')
        names = [x.group(1) for x in re.finditer(r'^ *(\w+) <- ', seg, re.M)]
        for n1, n2 in zip(names, names[1:]):
            for x in list(re.finditer(r'(?<!\w)%s(?!\w)(?! <-)' % re.escape(n1), seg))[:3]:
                if re.search(r'^ *%s <- ' % re.escape(n2), seg[:x.start()], re.M): add(x.start(), x.end(), n2, 'other variable')
        # a presence condition dropped, or its first conjunct
        for x in re.finditer(r'\bwhen \(', seg):
            i = x.end() - 1; d = 0; j = i
            while True:
                d += (seg[j] == '(') - (seg[j] == ')')
                if d == 0: break
                j += 1
            add(i, j + 1, 'true', 'always')
            c = seg[i + 1:j]
            if ' && ' in c and '||' not in c: add(i, j + 1, '(' + c.split(' && ', 1)[1] + ')', 'drop conjunct'); add(i, j + 1, '(' + c.rsplit(' && ', 1)[0] + ')', 'drop conjunct')
        for x in re.finditer(r'\bif (.*?) then', seg): 
            if '\n' not in x.group(1): add(x.start(1), x.end(1), 'negb (%s)' % x.group(1), 'negate if')
    return out

def block_at(path, ln):
    lines = open(path).read().split('\n')
    for i in range(ln - 1, -1, -1):
        m = re.match(r'\s*(?:#\[[^\]]*\]\s*)?(?:Local |Global )?(Lemma|Theorem|Example|Corollary|Fact|Definition|Fixpoint|Ltac|Record)\s+(\w+)', lines[i])
        if m: return m.group(1), m.group(2), i
    return None, None, None

def admit(path, i):
    lines = open(path).read().split('\n'); j = i
    while not re.search(r'\bQed\.', lines[j]): j += 1
    k = i
    while k <= j and 'Proof' not in lines[k]: k += 1
    if k > j: return False
    head = lines[k].split('Proof')[0]
    lines[k:j+1] = [head + 'Proof. Admitted.']; open(path, 'w').write('\n'.join(lines)); return True

def run(mu):
    f, name, a, b, new, kind = mu
    subprocess.run(f'rm -rf {S} && cp -a {SRC} {S}', shell=True, check=True)
    p = f'{T}/{f}'; s = open(p).read(); old = s[a:b]
    line = s.count('\n', 0, a) + 1
    open(p, 'w').write(s[:a] + new + s[b:])
    res = {'file': f, 'definition': name, 'line': line, 'text': s.split('\n')[line - 1].strip(), 'old': old, 'new': new, 'kind': kind}
    examples = []
    for _ in range(12):
        r = subprocess.run('timeout 1500 make -j4 2>&1', shell=True, cwd=S, capture_output=True, text=True)
        if r.returncode == 0: res['outcome'] = 'example' if examples else 'SURVIVED'; break
        fails = re.findall(r'File "\./theories/(\w+\.v)", line (\d+)[^\n]*\n(?!Warning)', r.stdout)
        errs = [(x, int(l)) for x, l in fails]
        kinds = [(x, l) + block_at(f'{T}/{x}', l) for x, l in errs]
        if any(x[0] == 'M' and k in ('Definition', 'Fixpoint', 'Record') for x, l, k, n, i in kinds): res['outcome'] = 'invalid'; break
        th = [n for x, l, k, n, i in kinds if k in ('Lemma', 'Theorem', 'Corollary', 'Fact')]
        if th: res['outcome'] = 'killed'; res['by'] = th; break
        ex = [(x, n, i) for x, l, k, n, i in kinds if k == 'Example']
        if not ex: res['outcome'] = 'other'; res['tail'] = r.stdout[-400:]; break
        ok = False
        for x, n, i in ex: examples.append(n); ok |= admit(f'{T}/{x}', i)
        if not ok: res['outcome'] = 'other'; break
    else: res['outcome'] = 'example'
    res['examples'] = examples
    return res

allm = []
for f in FILES: allm.append([m for m in mutants(f) if not KINDS or m[5] in KINDS.split(',')])
done = set()
if os.path.exists(out):
    for l in open(out): d = json.loads(l); done.add((d['file'], d['line'], d['old'], d['new']))
if __name__ == '__main__':
    print([len(x) for x in allm], flush=True)
    for _ in range(count):
        ms = R.choice([x for x in allm if x])
        defs = sorted({m[1] for m in ms}); d = R.choice(defs); mu = R.choice([m for m in ms if m[1] == d])
        r = run(mu)
        with open(out, 'a') as fo: fo.write(json.dumps(r) + '\n')
        print(r['outcome'], r['file'], r['definition'], r['line'], repr(r['old'][:60]), '->', repr(r['new'][:60]), r.get('by', r['examples'])[:3], flush=True)
