#!/usr/bin/env python3
"""Seeded-bug runner.  usage: mutate.py [-j N] [-a] <mutations.json> <id>...   (work happens in /tmp/mut, never in the repository)
Each mutation replaces `old` by `new` once in a file of a scratch copy.  Statements are compiled first (coqc -vos), then the
proofs of every file are checked on their own (coqc -vok).  A proof that fails is replaced by Admitted in the scratch copy and the
file is checked again, so that every failing proof is found.  Proofs that mention no name involving the edited item are skipped.
The property theorems that rest on a failed proof are found by following names through the proof texts.  One JSON line per
mutation is printed."""
import json, os, re, subprocess, sys, glob, shutil
from concurrent.futures import ThreadPoolExecutor
SRC = os.environ.get('MUT_SRC', '/verif/rocq')
J = 4
ALL = False
def sh(c, **k): return subprocess.run(c, shell=True, capture_output=True, text=True, **k)
HEAD = re.compile(rb'^[ \t]*(?:#\[[^\]]*\]\s*)?(?:Local |Global )?(Theorem|Lemma|Corollary|Example|Fact|Instance|Definition|Remark|Ltac|Fixpoint)\s+([\w\']+)', re.M)
def patch(path, pos):
    """admit the proof containing character position pos; returns the lemma name or None"""
    s = open(path, 'rb').read()
    heads = [(m.start(), m.group(2).decode()) for m in HEAD.finditer(s) if m.start() <= pos]
    if not heads: return None
    st, name = heads[-1]
    m = re.compile(rb'(?<![\w.])Proof\.|(?<=\s)Proof using[^.]*\.').search(s, st)
    e = re.compile(rb'(?<![\w])(Qed|Defined)\.').search(s, st)
    if not m or not e or m.start() > e.start() or pos < m.start(): return None
    open(path, 'wb').write(s[:m.start()] + b'Admitted.' + s[e.end():])
    return name
def errpos(path, t):
    m = re.search(r'File "[^"]*", line (\d+), characters (\d+)-(\d+):\nError', t)
    if m:
        lines = open(path, 'rb').read().split(b'\n')
        return sum(len(x) + 1 for x in lines[:int(m.group(1)) - 1]) + int(m.group(2))
    tm = re.findall(r'^Chars (\d+) - (\d+) ', t, re.M)
    return int(tm[-1][1]) + 1 if tm else -1
def items(d):
    """name -> list of (file, text of the whole item)"""
    r = {}
    for f in glob.glob(d + '/theories/*.v'):
        s = open(f, 'rb').read(); hs = list(HEAD.finditer(s))
        for i, m in enumerate(hs):
            e = hs[i + 1].start() if i + 1 < len(hs) else len(s)
            r.setdefault(m.group(2).decode(), []).append((os.path.basename(f)[:-2], s[m.end():e].decode(errors='replace')))
    return r
HEAD2 = re.compile(rb'^[ \t]*(?:#\[[^\]]*\]\s*)?(?:Local |Global )?(Theorem|Lemma|Corollary|Example|Fact|Instance|Definition|Remark|Ltac|Fixpoint|Record|Inductive|Notation|Let|Class|Variant)\s+([\w\']+|")', re.M)
def affected(d, file, pos):
    """names whose meaning involves the item at pos of file: definitions by their text, lemmas by their statement"""
    its = []; start = None
    for f in glob.glob(d + '/theories/*.v'):
        s = open(f, 'rb').read(); hs = list(HEAD2.finditer(s))
        for i, m in enumerate(hs):
            e = hs[i + 1].start() if i + 1 < len(hs) else len(s)
            t = s[m.end():e].decode(errors='replace'); n = m.group(2).decode()
            if m.group(1) not in (b'Definition', b'Ltac', b'Fixpoint', b'Record', b'Inductive', b'Notation', b'Let', b'Class', b'Variant') or re.search(r'\bQed\.', t): t = re.split(r'\bProof\b', t)[0]
            its.append((n, set(re.findall(r"[A-Za-z_][\w']*", t))))
            if os.path.basename(f) == file and m.start() <= pos < e: start = n
    a = {start}
    while True:
        n = {x for x, w in its if x not in a and len(x) > 1 and w & a}
        if not n: return a
        a |= n
def focus(path, a):
    """admit the Qed proofs that mention no affected name; False if nothing is left to check"""
    s = open(path, 'rb').read(); hs = list(HEAD2.finditer(s)); out = b''; p = 0; keep = False
    for i, m in enumerate(hs):
        e = hs[i + 1].start() if i + 1 < len(hs) else len(s)
        t = s[m.start():e]
        if set(re.findall(r"[A-Za-z_][\w']*", t.decode(errors='replace'))) & a: keep = True
        else:
            b = re.compile(rb'(?<![\w.])Proof\.|(?<=\s)Proof using[^.]*\.').search(t); q = re.compile(rb'(?<![\w])Qed\.').search(t)
            if b and q and b.start() < q.start(): out += s[p:m.start() + b.start()] + b'Admitted.'; p = m.start() + q.end()
    open(path, 'wb').write(out + s[p:])
    return keep
BASE = '/tmp/mut/base'
def base():
    os.makedirs(BASE + '/theories', exist_ok=True)
    sh('cp -au %s/_CoqProject %s/ && cp -au %s/theories/*.v %s/theories/' % (SRC, BASE, SRC, BASE))
    sh('cd %s && coq_makefile -f _CoqProject -o Makefile && timeout 3000 make -j%d vos' % (BASE, J))
def run(mu, tmo=240):
    d = '/tmp/mut/' + mu['id']
    shutil.rmtree(d, ignore_errors=True); os.makedirs(d + '/theories'); os.makedirs(d + '/log')
    sh('cp -a %s/_CoqProject %s/Makefile* %s/ && cp -a %s/theories/*.v %s/theories/*.vos %s/theories/' % (BASE, BASE, d, BASE, BASE, d))
    p = d + '/theories/' + mu['file']
    s = open(p).read()
    if mu['old'] not in s: return dict(id=mu['id'], error='old text not found')
    i = -1
    for _ in range(mu.get('nth', 0) + 1): i = s.index(mu['old'], i + 1)
    open(p, 'w').write(s[:i] + mu['new'] + s[i + len(mu['old']):])
    its = items(d); aff = affected(d, mu['file'], len(s[:i].encode()))
    failed = []; broken = []
    for _ in range(8):
        r = sh('cd %s && timeout 1500 make -k -j%d vos 2>&1' % (d, J)).stdout
        errs = re.findall(r'File "\./theories/(\w+)\.v", line (\d+), characters (\d+)-(\d+):\n(?:Error|.*\n?Error)', r)
        prog = False
        for b, ln, ch, _ in errs:
            path = d + '/theories/' + b + '.v'
            lines = open(path, 'rb').read().split(b'\n')
            nm = patch(path, sum(len(x) + 1 for x in lines[:int(ln) - 1]) + int(ch))
            if nm: failed.append(b + '.' + nm); prog = True
            elif b not in broken: broken.append(b)
        if not prog: break
    dep = sh('cd %s && coqdep -Q theories Verif -f _CoqProject 2>/dev/null' % d).stdout
    g = {}
    for l in dep.split('\n'):
        m = re.match(r'theories/(\w+)\.vos?\b.*?:(.*)', l)
        if m and m.group(1) not in g: g[m.group(1)] = set(re.findall(r'theories/(\w+)\.vo', m.group(2)))
    cone = {mu['file'][:-2]}
    while True:
        n = {f for f in g if f not in cone and g[f] & cone}
        if not n: break
        cone |= n
    d0 = d + '_base'
    shutil.rmtree(d0, ignore_errors=True)
    sh('mkdir -p %s/theories && cp -a %s/theories/*.vos %s/theories/' % (d0, BASE, d0))
    def check1(dd, b):
        out = []; path = dd + '/theories/' + b + '.v'
        if not focus(path, aff): return out, False
        for _ in range(25):
            r = subprocess.run('cd %s/theories && timeout %d coqc -time -vok -Q . Verif %s.v' % (dd, tmo, b), shell=True, capture_output=True)
            t = (r.stdout + b'\n' + r.stderr).decode(errors='replace')
            if r.returncode == 0: return out, False
            pos = errpos(path, t)
            nm = patch(path, pos) if pos >= 0 else None
            if not nm: return out, True
            out.append(b + '.' + nm)
        return out, True
    def check(b):
        if not os.path.exists(d + '/theories/' + b + '.vos'): return b, [], True
        out, br = check1(d, b)
        if out or br:  # what fails without the edit as well is an artefact of skipping proofs
            shutil.copy(BASE + '/theories/' + b + '.v', d0 + '/theories/')
            out0, br0 = check1(d0, b)
            out = [x for x in out if x not in out0]; br = br and not br0
        return b, out, br
    names = set(its)
    use = {}
    for n, l in its.items():
        w = set()
        for f, t in l: w |= {x for x in re.findall(r"[A-Za-z_][\w']*", t) if x in names and len(x) > 3 and x != n}
        use[n] = w
    def resting(failed, broken):
        """names that rest on a failed proof"""
        rests = set(x.split('.', 1)[1] for x in failed) | {n for n, l in its.items() if any(f in broken for f, _ in l)}
        while True:
            n = {x for x in names if x not in rests and use[x] & rests}
            if not n: break
            rests |= n
        return rests
    depth = {mu['file'][:-2]: 0}
    while len(depth) < len(cone):
        for f in cone:
            if f not in depth and all(x in depth for x in g.get(f, ()) if x in cone): depth[f] = 1 + max(depth[x] for x in g[f] if x in cone)
    todo = sorted(cone, key=lambda f: (depth[f], f))
    # files nearest to the edit first, until a property theorem rests on a failed proof (all: every file)
    while todo:
        batch, todo = todo[:2 * J], todo[2 * J:]
        with ThreadPoolExecutor(J) as ex:
            for b, out, br in ex.map(check, batch):
                failed += out
                if br and b not in broken: broken.append(b)
        rests = resting(failed, broken)
        if not ALL and any(f.startswith('Properties_') for n in rests for f, _ in its[n]): break
    shutil.rmtree(d0, ignore_errors=True)
    rests = resting(failed, broken)
    thms = sorted(n for n in rests if any(f.startswith('Properties_') for f, _ in its[n]))
    res = dict(id=mu['id'], file=mu['file'], unchecked=len(todo), failed_proofs=failed, broken=broken, property_theorems=thms)
    shutil.rmtree(d, ignore_errors=True)
    return res
if __name__ == '__main__':
    a = sys.argv[1:]
    if a[0] == '-j': J = int(a[1]); a = a[2:]
    if a[0] == '-a': ALL = True; a = a[1:]
    mus = json.load(open(a[0])); by = {m['id']: m for m in mus}
    base()
    for i in a[1:] or list(by):
        print(json.dumps(run(by[i])), flush=True)
