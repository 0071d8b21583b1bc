#!/usr/bin/env python3
"""Mutation testing.  usage: mutate.py MUTANTS.json [name...]

Works in a scratch copy ($MUT, default /tmp/mut/rocq).  Each mutant is
  {"name", "file", "definition", "edit": [[old, new], ...], "claim"}.
The edit is applied to the model file; the statements are recompiled (coqc -vos) and then the proofs of every file
that mentions the edited definition, directly or not (coqc -vok).  A proof that fails is replaced by Admitted and its
file checked again, until all failures are known.  A theorem of Properties*.v is reported when its proof fails or
uses, directly or not, a lemma whose proof failed.  Prints one JSON line per mutant.
With FIRST=1 files are checked cheapest first (seconds per file in $TIMES) and the check ends with the first failure that a
theorem of the property named in the claim depends on; files that match $SKIP are left out; a proof over $LIMIT seconds counts as failed."""
import json, os, re, subprocess, sys, time
from concurrent.futures import ThreadPoolExecutor, as_completed
SRC = os.environ.get('SRC', os.path.join(os.path.dirname(os.path.abspath(__file__)), '..', 'rocq'))
MUT = os.environ.get('MUT', '/tmp/mut/rocq')
JOBS = int(os.environ.get('JOBS', '3'))
TH = os.path.join(MUT, 'theories')
FIRST = bool(os.environ.get('FIRST')); SKIP = os.environ.get('SKIP'); LIMIT = int(os.environ.get('LIMIT', '3600'))
COST = {}
if os.environ.get('TIMES'):
    for l in open(os.environ['TIMES']): COST[os.path.basename(l.split()[1])] = float(l.split()[0])
HEAD = re.compile(r'^\s*(?:Local |Global )?(Lemma|Theorem|Example|Corollary|Fact|Remark)\s+([\w\']+)', re.M)
ITEM = re.compile(r'^(?:Local |Global )?(Lemma|Theorem|Example|Definition|Fixpoint|Inductive|Record|Ltac|Notation|CoFixpoint|Function)\s+([\w\']+)', re.M)

def sh(c):
    return subprocess.run(c, shell=True, cwd=MUT, stdout=subprocess.PIPE, stderr=subprocess.STDOUT, text=True)

def files():
    return [l.strip()[len('theories/'):] for l in open(os.path.join(SRC, '_CoqProject')) if l.strip().endswith('.v')]

def items():
    """name -> (file, words of its text); names defined twice are merged"""
    d = {}
    for f in files():
        s = re.sub(r'\(\*.*?\*\)', '', open(os.path.join(SRC, 'theories', f)).read(), flags=re.S)
        ms = list(ITEM.finditer(s))
        for i, m in enumerate(ms):
            t = s[m.start():ms[i + 1].start() if i + 1 < len(ms) else len(s)]
            w = set(re.findall(r"[A-Za-z_][\w']*", t))
            names = [m.group(2)]
            if m.group(1) in ('Inductive', 'Record'):
                names += re.findall(r"(?:\||\{|;)\s*([\w']+)", t)
            for n in names:
                a, b = d.get(n, (set(), set()))
                d[n] = (a | {f}, b | w)
    return d

def requires():
    """file -> files it requires, directly or not, and itself"""
    d = {}
    for f in files():
        s = open(os.path.join(SRC, 'theories', f)).read()
        d[f] = {w + '.v' for t in re.findall(r'From Verif Require (?:Import|Export) ([^.]*)\.', s) for w in t.split()}
    return {f: closure([f], d) for f in d}

def closure(start, edges):
    seen = set(start); todo = list(start)
    while todo:
        for y in edges.get(todo.pop(), ()):
            if y not in seen: seen.add(y); todo.append(y)
    return seen

def restore():
    for f in files():
        a = open(os.path.join(SRC, 'theories', f)).read(); p = os.path.join(TH, f)
        if not os.path.exists(p) or open(p).read() != a: open(p, 'w').write(a)

def admit(f, line, name=None):
    p = os.path.join(TH, f); s = open(p).read()
    off = len(''.join(s.splitlines(True)[:line - 1])) + 1
    heads = [m for m in HEAD.finditer(s) if m.start() <= off and name in (None, m.group(2))]
    if not heads: return None
    m = heads[-1]; rest = s[m.start():]
    q = re.search(r'\b(Qed|Defined)\.', rest)
    pr = re.search(r'\bProof\b', rest)
    if not q or not pr or pr.start() > q.start(): return None
    if not name and s.count('\n', m.start() + q.start(), off) > 1: return None
    s = s[:m.start()] + rest[:pr.start()] + 'Admitted.' + rest[q.end():]
    open(p, 'w').write(s)
    return m.group(2)

stop = False
def check(f):
    """all failing proofs of a file"""
    failed = []
    for _ in range(150):
        if stop: return failed, None
        out = sh('timeout %d coqc -q -vok -Q theories Verif theories/%s 2>&1' % (LIMIT, f))
        if out.returncode == 124: return failed, f + ': over the time limit'
        if out.returncode == 0: return failed, None
        m = re.search(r'File "\./theories/(\w+\.v)", line (\d+), characters [\d-]+:\s*\n(?:Error|.*\nError)', out.stdout)
        n = admit(f, int(m.group(2))) if m else None
        if n is None: return failed, f + ': ' + out.stdout[-600:]
        failed.append(n)
    return failed, 'too many'

def main():
    muts = json.load(open(sys.argv[1])); only = sys.argv[2:]
    its = items()
    uses = {n: w & its.keys() for n, (_, w) in its.items()}
    used = {}
    for n, ws in uses.items():
        for w in ws: used.setdefault(w, set()).add(n)
    props = [n for n, (fs, _) in its.items() if any(x.startswith('Properties') for x in fs) and re.match(r'C\d\d_', n)]
    order = files(); req = requires()
    def hits(failed):
        F = set(failed)
        return sorted(n for n in props if any(its[f][0] & req[g] for f in closure([n], uses) & F for g in its[n][0]))
    def ids(claim):
        r = set(re.findall(r'C\d\d', claim))
        for a, b in re.findall(r'C(\d\d)-C(\d\d)', claim): r |= {'C%02d' % i for i in range(int(a), int(b) + 1)}
        return r
    def enough(failed, claim): return any(not ids(claim) or n[:3] in ids(claim) for n in hits(failed))
    restore(); sh('coq_makefile -f _CoqProject -o Makefile')
    for m in muts:
        if only and m['name'] not in only: continue
        t0 = time.time()
        restore()
        p = os.path.join(TH, m['file']); s = open(p).read(); bad = None
        for a, b in m['edit']:
            if s.count(a) != 1: bad = 'edit matches %d times: %s' % (s.count(a), a); break
            s = s.replace(a, b)
        if bad: print(json.dumps({'name': m['name'], 'error': bad}), flush=True); continue
        open(p, 'w').write(s)
        aff = closure([m['definition']], used)
        fs = [f for f in order if any(f in its[n][0] for n in aff) and re.search(r'\bQed\.', open(os.path.join(TH, f)).read())]
        if SKIP: fs = [f for f in fs if not re.search(SKIP, f)]
        vos = 'make -j%d %s 2>&1' % (JOBS, ' '.join('theories/%ss' % (f + 'o') for f in fs) if SKIP else 'vos')
        out = sh(vos)
        failed, errs = [], []
        while out.returncode:      # proofs in sections are run with the statements
            e = re.search(r'File "\./theories/(\w+\.v)", line (\d+), characters [\d-]+:\s*\n(?:Error|.*\nError)', out.stdout)
            i = e and re.match(r':?\s*\(in proof ([\w\']+)\)', out.stdout[e.end():])
            n = admit(e.group(1), int(e.group(2)), i and i.group(1)) if e else None
            if n is None: break
            failed.append(n)
            if FIRST and enough(failed, m['claim']): fs = []; break
            out = sh(vos)
        if out.returncode and (fs or not failed): print(json.dumps({'name': m['name'], 'error': 'vos: ' + out.stdout[-800:]}), flush=True); continue
        heavy = ['ColumnProps.v', 'Properties3.v', 'Properties1.v', 'ReprFacts.v', 'Properties2.v', 'Properties4.v', 'NumProps.v']
        fs.sort(key=lambda f: heavy.index(f) if f in heavy else 99)
        if FIRST: fs.sort(key=lambda f: COST.get(f, 5))
        global stop
        stop = False
        with ThreadPoolExecutor(JOBS) as ex:
            for job in as_completed([ex.submit(check, f) for f in fs]):
                a, e = job.result()
                failed += a
                if e: errs.append(e)
                if FIRST and a and enough(failed, m['claim']): stop = True
        hit = hits(failed)
        print(json.dumps({'name': m['name'], 'definition': m['definition'], 'claim': m['claim'], 'failed': failed, 'theorems': hit,
                          'files': len(fs), 'first': FIRST, 'error': errs or None, 'secs': round(time.time() - t0)}), flush=True)
    restore()
main()
