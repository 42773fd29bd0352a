#!/usr/bin/env python3
"""Runs seeded bugs against the proofs in a scratch copy.

usage: mutate.py <mutations.json> <base dir with compiled theories> <out.jsonl> [workers]

Each mutation: {"id","file","def","old","new","claim","props":["Cnn",...]}.
The file is edited, everything that depends on it is recompiled in order, and each
proof that breaks is noted and skipped (in the scratch copy only).  A property
theorem fails if its proof uses, directly or not, a broken proof.  With MUT_FAST set,
recompiling stops once a theorem of the property concerned has failed."""
import json, os, re, shutil, subprocess, sys, glob
from concurrent.futures import ThreadPoolExecutor
START = re.compile(r'^\s*(?:Local |Global |#\[[^\]]*\]\s*)?(Lemma|Theorem|Example|Corollary|Fact|Remark|Proposition|Definition|Fixpoint|Inductive|Record|Instance)\s+(\w+)', re.M)

def order(base):
    """the files, each after those it depends on"""
    files = [os.path.basename(x.strip())[:-2] for x in open(os.path.join(base, '_CoqProject')) if x.strip().endswith('.v')]
    d = deps(base, files); out = []; seen = set()
    def visit(f):
        if f in seen or f not in d: return
        seen.add(f)
        for x in d[f]: visit(x)
        out.append(f)
    for f in files: visit(f)
    return out
def deps(base, files):
    d = {}
    for f in files:
        s = open(f'{base}/theories/{f}.v').read()
        d[f] = [x for m in re.finditer(r'From Verif Require (?:Import|Export) ([^.]*)\.', s) for x in m.group(1).split()]
    return d
def graph(base, files):
    g = {}
    for f in files:
        cur = None
        items = []
        for line in open(f'{base}/theories/{f}.glob'):
            m = re.match(r'^(prf|def|thm|rec|ind|inst|ex|constr)\s+(\d+):\d+ \S+ (\S+)', line)
            if m: items.append((int(m.group(2)), 0, (f, m.group(3)), m.group(1))); continue
            m = re.match(r'^R(\d+):\d+ Verif\.(\w+) \S+ (\S+) (\w+)', line)
            if m: items.append((int(m.group(1)), 1, (m.group(2), m.group(3)), m.group(4)))
        items.sort(key=lambda x: (x[0], x[1]))
        for pos, k, name, kind in items:
            if k == 0:
                if kind == 'constr': continue
                cur = name; g.setdefault(cur, set())
            elif cur: g[cur].add(name)
    return g
def props(files, base):
    out = []
    for f in files:
        if f.startswith('Prop'):
            for m in re.finditer(r'^Theorem (C\d\d\w*)', open(f'{base}/theories/{f}.v').read(), re.M): out.append((f, m.group(1)))
    return out
def reach(g, F):
    rev = {}
    for a, bs in g.items():
        for b in bs: rev.setdefault(b, set()).add(a)
    seen = set(F); todo = list(F)
    while todo:
        x = todo.pop()
        for y in rev.get(x, ()):
            if y not in seen: seen.add(y); todo.append(y)
    return seen
def block(src, pos):
    """the statement and proof around [pos]: (start, proof start, end, kind, name)"""
    last = None
    for m in START.finditer(src):
        if m.start() > pos: break
        last = m
    if not last: return None
    m = re.compile(r'\b(Qed|Defined)\.').search(src, last.end())
    p = re.compile(r'\bProof\b').search(src, last.end())
    if not m or not p or p.start() > m.start(): return None
    return last.start(), p.start(), m.end(), last.group(1), last.group(2), m.group(1)
def compile_file(d, f, tmo):
    """[] or list of broken proofs; None if the file cannot be compiled at all"""
    path = f'{d}/theories/{f}.v'
    broken = []
    for _ in range(400):
        log = f'{d}/{f}.time'
        with open(log, 'w') as lf:
            try:
                p = subprocess.run(['bash', '-c', f'ulimit -v 7000000; ulimit -s unlimited; exec timeout {tmo} coqc -time -Q . Verif {f}.v'], cwd=f'{d}/theories', stdout=lf, stderr=subprocess.STDOUT)
                rc = p.returncode
            except Exception: rc = -1
        if rc == 0: return broken
        txt = open(log, errors='replace').read()
        src_b = open(path, 'rb').read()
        src = src_b.decode('utf-8')
        m = None
        for m in re.finditer(r'File "[^"]*", line (\d+), characters (\d+)-\d+:\s*\n(?:Error|.*\nError)', txt): pass
        if m and 'Error' in txt[m.start():]:
            line = int(m.group(1)); pos = sum(len(x) for x in src.splitlines(True)[:line - 1]) + int(m.group(2))
        else:
            ends = [int(x) for x in re.findall(r'Chars \d+ - (\d+) ', txt)]
            pos = len(src_b[:(ends[-1] if ends else 0)].decode('utf-8', 'replace')) + 2
        b = block(src, pos)
        if b is None or b[3] in ('Definition', 'Fixpoint', 'Inductive', 'Record', 'Instance') or b[5] == 'Defined' or not (b[0] <= pos <= b[2]):
            return broken + ['<cannot compile near %s: %s>' % (b[4] if b else pos, txt[-300:])]
        broken.append(b[4])
        src = src[:b[1]] + 'Proof. Admitted.' + src[b[2]:]
        open(path, 'w').write(src)
    return broken + ['<too many>']
def run(mu, base, root):
    d = f'{root}/{mu["id"]}'
    shutil.rmtree(d, ignore_errors=True)
    shutil.copytree(base, d, ignore=shutil.ignore_patterns('*.glob', '*.aux', '.*'))
    files = order(base); dp = deps(base, files)
    path = f'{d}/theories/{mu["file"]}.v'
    s = open(path).read()
    if s.count(mu['old']) < 1 or (s.count(mu['old']) > 1 and not mu.get('all')):
        return dict(mu, error='old text occurs %d times' % s.count(mu['old']))
    open(path, 'w').write(s.replace(mu['old'], mu['new']))
    dirty = {mu['file']}; broken = {}; dead = set()
    g = graph(base, files)
    needed = set(); todo = [f for f, n in props(files, base) if n.startswith(tuple(mu['props']))]
    while todo:
        f = todo.pop()
        if f in needed or f not in dp: continue
        needed.add(f); todo += dp[f]
    # first the files that the theorems of the property rest on
    for f in [f for f in files if f in needed or f == mu['file']] + [f for f in files if f not in needed and f != mu['file']]:
        if f != mu['file'] and not any(x in dirty for x in dp[f]): continue
        dirty.add(f)
        if f == 'Fidelity' or any(x in dead for x in dp[f]):
            if f != 'Fidelity': dead.add(f); continue
        b = compile_file(d, f, 900)
        if b and b[-1].startswith('<'): dead.add(f)
        if b: broken[f] = b
        if b and os.environ.get('MUT_FAST'):
            # enough: a theorem of the property is already known to fail
            r = reach(g, [(f2, n) for f2, bs in broken.items() for n in bs])
            if any((f2, n) in r and n.startswith(tuple(mu['props'])) for f2, n in props(files, base)): break
    F = [(f, n) for f, bs in broken.items() for n in bs if not n.startswith('<')]
    r = reach(g, F)
    failed = [n for f, n in props(files, base) if (f, n) in r]
    maybe = [n for f, n in props(files, base) if f in dead and n not in failed]
    shutil.rmtree(d, ignore_errors=True)
    return dict(mu, broken=broken, failed=failed, undetermined=maybe, weak=not any(n.startswith(tuple(mu['props'])) for n in failed))
def main():
    muts = json.load(open(sys.argv[1])); base = sys.argv[2]; out = sys.argv[3]; nw = int(sys.argv[4]) if len(sys.argv) > 4 else 2
    done = set()
    if os.path.exists(out): done = {json.loads(l)['id'] for l in open(out)}
    root = '/tmp/mutwork'; os.makedirs(root, exist_ok=True)
    with ThreadPoolExecutor(nw) as ex:
        for fut in [ex.submit(lambda m=m: (m, run(m, base, root))) for m in muts if m['id'] not in done]:
            m, r = fut.result()
            with open(out, 'a') as o: o.write(json.dumps(r, ensure_ascii=False) + '\n')
            print(r['id'], 'WEAK' if r.get('weak') else '', r.get('error', ''), len(r.get('failed', [])), list(r.get('broken', {}).items())[:2], flush=True)
main()
