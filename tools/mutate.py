#!/usr/bin/env python3
"""Seed a wrong program: edit one model file in a scratch copy and see which
theorems stop proving.

  mutate.py SCRATCH FILE OLD NEW [NTH]   one edit, the full answer
  mutate.py SCRATCH auto FILE [WORKERS [SAMPLE]]  the edits of `edits` below, first failure only

The scratch copy is checked with .vos (statements) and .vok (proofs) files, so
every file is checked against the edited statements independently of the others.
A lemma whose proof fails is noted and its proof skipped, so that later failures in
the file show as well; a theorem counts as failed when it fails itself or uses, at
any depth, something that does.
"""
import json, os, re, shutil, subprocess, sys
from concurrent.futures import ThreadPoolExecutor

PRISTINE = os.environ.get('MUT_BASE', '/tmp/w/mut0')
SRC = os.environ.get('MUT_SRC') or os.path.join(os.path.dirname(os.path.dirname(os.path.abspath(__file__))), 'rocq')
HEAD = re.compile(r'^\s*(?:Local |Global )?(Lemma|Theorem|Corollary|Example|Remark|Fact|Definition|Fixpoint|Inductive|Record|Variant|Ltac)\s+([\w\']+)', re.M)

def files(root):
    return [l.strip()[9:-2] for l in open(root + '/_CoqProject') if l.startswith('theories/')]

def fresh(root):
    os.makedirs(root + '/theories', exist_ok=True)
    shutil.copy(SRC + '/_CoqProject', root)
    for f in files(root):
        a, b = f'{SRC}/theories/{f}.v', f'{root}/theories/{f}.v'
        if not os.path.exists(b) or open(a).read() != open(b).read():
            shutil.copy(a, b)
    subprocess.run('coq_makefile -f _CoqProject -o Makefile >/dev/null', shell=True, cwd=root, check=True)

def requires(root):
    dep = {}
    for f in files(root):
        t = open(f'{root}/theories/{f}.v').read()
        dep[f] = set()
        for m in re.finditer(r'From Verif Require Import\s+([^.]*)\.', t):
            dep[f] |= set(m.group(1).split())
    return dep

def dependents(dep, f):
    out, todo = set(), [f]
    while todo:
        g = todo.pop()
        for h in dep:
            if g in dep[h] and h not in out:
                out.add(h); todo.append(h)
    return [h for h in dep if h in out]

def strip(t):
    """blank out comments, keeping positions"""
    out, i, d = [], 0, 0
    while i < len(t):
        if t[i:i+2] == '(*': d += 1; out.append('  '); i += 2
        elif t[i:i+2] == '*)' and d: d -= 1; out.append('  '); i += 2
        else: out.append(t[i] if not d or t[i] == '\n' else ' '); i += 1
    return ''.join(out)

def blocks(root):
    """(file, name) -> (kind, identifiers mentioned)"""
    res = {}
    for f in files(root):
        t = strip(open(f'{root}/theories/{f}.v').read())
        ms = list(HEAD.finditer(t))
        for m, n in zip(ms, ms[1:] + [None]):
            body = t[m.end():n.start() if n else len(t)]
            body = re.sub(r'Print Assumptions[^.]*\.', '', body)
            res[f, m.group(2)] = (m.group(1), set(re.findall(r"[\w']+", body)))
    return res

PROVED = ('Lemma', 'Theorem', 'Corollary', 'Remark', 'Fact', 'Example')
def affected(bl, bad, dep):
    """theorems Cnn_... that fail or use a failed lemma of a file they require; bad: (file, name)"""
    bad = set(bad)
    seen = {f: closure(dep, f) | {f} for f in dep}
    grown = True
    while grown:
        grown = False
        names = {}
        for f, n in bad: names.setdefault(n, set()).add(f)
        for (f, n), (k, u) in bl.items():
            if (f, n) in bad or not (k in PROVED or k == 'Ltac'): continue
            if any(b in names and names[b] & seen[f] for b in u): bad.add((f, n)); grown = True
    return sorted(n for f, n in bad if re.match(r'C\d+_', n) and bl.get((f, n), ('',))[0] == 'Theorem')

def run(cmd, root, limit):
    try:
        p = subprocess.run(cmd, shell=True, cwd=root, capture_output=True, text=True, timeout=limit)
        return p.returncode, p.stdout + p.stderr
    except subprocess.TimeoutExpired:
        return 124, 'timeout'

def closure(dep, g):
    out, todo = set(), [g]
    while todo:
        for h in dep[todo.pop()]:
            if h in dep and h not in out: out.add(h); todo.append(h)
    return out

class Vos:
    """statement files, rebuilt when needed after an edit of f"""
    def __init__(self, root, dep, f):
        self.root, self.dep, self.order = root, dep, list(dep)
        self.stale = {f} | set(dependents(dep, f)); self.broken = {}
    def need(self, g, own=False):
        for h in [h for h in self.order if h in closure(self.dep, g) or (own and h == g)]:
            if h not in self.stale: continue
            self.stale.discard(h)
            code, out = run(f'timeout 300 coqc -vos -Q theories Verif theories/{h}.v', self.root, 330)
            if code: self.broken[h] = out[-600:]
            if self.broken: return False
        return not self.broken

def vok(root, f, most=1, limit=150):
    """names of the first [most] failing items of a file"""
    path = f'{root}/theories/{f}.v'
    orig = open(path).read(); bad = []
    kinds = {h.group(2): h.group(1) for h in HEAD.finditer(strip(orig))}
    try:
        while len([b for b in bad if not weak(b, kinds)]) < most and len(bad) < most + 10:
            code, out = run(f'timeout {limit} coqc -time -vok -Q theories Verif theories/{f}.v', root, limit + 30)
            if code == 0: break
            m = re.search(r'line (\d+), characters', out)
            t = open(path).read()
            if m: pos = sum(len(l) for l in t.splitlines(True)[:int(m.group(1)) - 1])
            else:  # the proof does not end: it is the one after the last command that did
                ends = re.findall(r'^Chars \d+ - (\d+)', out, re.M)
                if not ends: bad.append('timeout in ' + f); break
                b = t.encode()[:int(ends[-1])].decode(errors='ignore'); pos = len(b) + len(t[len(b):]) - len(t[len(b):].lstrip())
            hs = [h for h in HEAD.finditer(strip(t)) if h.start() <= pos + 1]
            if not hs: bad.append(f + ':' + str(pos)); break
            h = hs[-1]; bad.append(h.group(2))
            pr = re.compile(r'\bProof\b.*?\b(Qed|Defined)\.', re.S).search(t, h.end())
            if h.group(1) == 'Ltac' or not pr or pr.start() > pos + 400: break
            new = re.sub(r'[^\n]', '', pr.group(0))
            open(path, 'w').write(t[:pr.start()] + 'Admitted.' + new + t[pr.end():])
    finally:
        open(path, 'w').write(orig)
    return bad

def weak(n, kinds):
    """examples and refutations rest on one input: they do not count as noticing an edit"""
    return kinds.get(n) == 'Example' or n.endswith('_refuted')

def weight(bl, names, f):
    return sum(1 for (g, n), (k, u) in bl.items() if g == f and u & names)

def one(root, f, old, new, nth=0, most=1, stop=True, only=None):
    path = f'{root}/theories/{f}.v'
    src = open(f'{SRC}/theories/{f}.v').read()
    parts = src.split(old)
    if len(parts) < nth + 2: return {'error': 'no such text'}
    text = old.join(parts[:nth + 1]) + new + old.join(parts[nth + 1:])
    pos = len(old.join(parts[:nth + 1]))
    hs = [h for h in HEAD.finditer(strip(src)) if h.start() <= pos]
    where = hs[-1].group(2) if hs else '?'
    bl = blocks(root); dep = requires(root)
    open(path, 'w').write(text)
    try:
        v = Vos(root, dep, f)
        if not v.need(f, True): return {'definition': f'{f}.{where}', 'old': old, 'new': new, 'ill_typed': v.broken}
        ds = [d for d in dependents(dep, f) if d[:2] in ('L_', 'P_', 'T_')]
        ds = [d for d in ds if d != 'T_Data']
        ds.sort(key=lambda d: (d[0] != 'L', -weight(bl, {where}, d), d))
        bad, pairs = [], []
        for d in ds:
            kinds = {n: k for (g, n), (k, _) in bl.items() if g == d}
            if not v.need(d):
                g = list(v.broken)[0]; m = re.search(r'line (\d+), characters', v.broken[g])
                b = [f'{g}:{m.group(1) if m else "?"}']; bad += b; break
            b = vok(root, d, most)
            bad += b; pairs += [(d, x) for x in b]
            if stop and [x for x in b if not weak(x, kinds)] and affected(bl, pairs, dep): break
        return {'definition': f'{f}.{where}', 'old': old, 'new': new, 'bad': bad, 'theorems': affected(bl, pairs, dep)}
    finally:
        restore(root)

def restore(root):
    os.makedirs(root + '/theories', exist_ok=True)
    shutil.copy(PRISTINE + '/_CoqProject', root)
    for n in os.listdir(PRISTINE + '/theories'):
        if not n.endswith(('.v', '.vos')): continue
        a, b = f'{PRISTINE}/theories/{n}', f'{root}/theories/{n}'
        x = os.stat(a)
        if os.path.exists(b):
            y = os.stat(b)
            if (x.st_size, x.st_mtime_ns) == (y.st_size, y.st_mtime_ns): continue
        shutil.copy2(a, b)

def edits(f):
    """(old, new, start, end) single-token edits of the definitions of a model file"""
    t = open(f'{SRC}/theories/{f}.v').read(); s = strip(t); out = []
    first = HEAD.search(s).start()
    def add(m, new): out.append((m.start(), m.end(), new))
    for m in re.finditer(r'(?<![\w.\'])(0x[0-9A-Fa-f]+|\d+)(?![\w\'])', s):
        if m.start() < first or s.rfind('level', s.rfind('\n', 0, m.start()), m.start()) >= 0: continue
        v = int(m.group(0), 0)
        add(m, (hex(v ^ 1) if m.group(0).startswith('0x') else str(v + 1)))
        if v > 0: add(m, (hex(v // 2) if m.group(0).startswith('0x') else str(v - 1)))
    for a, b in (('<=?', '<?'), ('<?', '<=?'), ('&&', '||'), ('||', '&&'), ('version_gt', 'version_ge'), ('version_ge', 'version_gt'),
                 ('version_lt', 'version_le'), ('Panic', 'UB'), ('UB', 'Panic'), ('negb', ''), ('true', 'false'), ('false', 'true'),
                 ('overflow_checks', 'flat_memory'), ('=?', '<=?')):
        for m in re.finditer(r'(?<![\w<=])' + re.escape(a) + r'(?![\w])', s):
            if m.start() > first: add(m, b)
    return t, out

def splice(f, a, b, new):
    """an edit by position, as (old, new) texts long enough to be unique"""
    t = open(f'{SRC}/theories/{f}.v').read()
    x, y = t.rfind('\n', 0, a) + 1, t.find('\n', b)
    while t.count(t[x:y]) > 1:
        x = t.rfind('\n', 0, x - 1) + 1
    return t[x:y], t[x:a] + new + t[b:y], t[t.rfind('\n', 0, a) + 1:t.find('\n', b)]

def prepare():
    fresh(PRISTINE)
    subprocess.run('make -j4 vos >/dev/null', shell=True, cwd=PRISTINE, check=True)

if __name__ == '__main__':
    if sys.argv[2] == 'auto':
        root, f = sys.argv[1], sys.argv[3]
        workers = int(sys.argv[4]) if len(sys.argv) > 4 else 4
        prepare()
        t, es = edits(f)
        if len(sys.argv) > 5:
            import random
            random.seed(1); random.shuffle(es); es = es[:int(sys.argv[5])]
        import queue
        pool = queue.Queue()
        for i in range(workers):
            r = f'{root}{i}'; os.makedirs(r, exist_ok=True); restore(r); pool.put(r)
        def job(e):
            old, new, line = splice(f, *e)
            r = pool.get()
            try: res = one(r, f, old, new)
            except Exception as x: res = {'error': repr(x)}
            finally: pool.put(r)
            res['line'] = line.strip(); res['became'] = new.split('\n')[-1].strip() if new.count('\n') else new.strip()
            print(json.dumps(res), flush=True)
        with ThreadPoolExecutor(workers) as ex: list(ex.map(job, es))
    else:
        root, f, old, new = sys.argv[1:5]
        nth = int(sys.argv[5]) if len(sys.argv) > 5 else 0
        prepare(); os.makedirs(root, exist_ok=True); restore(root)
        print(json.dumps(one(root, f, old, new, nth, most=12, stop=False), indent=1))
