#!/usr/bin/env python3
"""Mutation testing of the Python text.  usage: srcmutate.py MUTANTS.json [name...]

Each mutant {"name", "file", "definition", "edit", "claim", "only"} changes a file of a copy of /repo/src/arinc424; the trees are
written again (pyast.py) into a scratch copy of rocq/ ($MUT, default /tmp/mut/rocq) and all proofs about the text are
checked (statements with -vos, proofs with -vok).  A proof that fails, or takes more than LIMIT seconds or 5 GB,
is replaced by Admitted and its file checked again.  A theorem of Properties*.v is reported when its proof fails or uses,
directly or not, a lemma whose proof failed.  C68 holds for any text and its trees, so it is left out, except for mutants with
"only": "text" or "trees", where one of the two stays as it is and only C68 is checked.  Prints one JSON line per mutant."""
import json, os, re, shutil, subprocess, sys, time
from concurrent.futures import ThreadPoolExecutor
HERE = os.path.dirname(os.path.abspath(__file__))
SRC = os.environ.get('SRC', os.path.join(HERE, '..', 'rocq'))
MUT = os.environ.get('MUT', '/tmp/mut/rocq')
JOBS = int(os.environ.get('JOBS', '3'))
LIMIT = int(os.environ.get('LIMIT', '240'))
TH = os.path.join(MUT, 'theories')
REPO = os.path.join(MUT, 'repo')
HEAD = re.compile(r'^\s*(?:Local |Global )?(Lemma|Theorem|Example|Corollary|Fact|Remark)\s+([\w\']+)', re.M)
ITEM = re.compile(r'^(?:Local |Global )?(Lemma|Theorem|Example|Definition|Fixpoint|Inductive|Record|Ltac|Notation|CoFixpoint|Function)\s+([\w\']+)', re.M)
GEN = ['SrcDecoder.v', 'SrcDefinitions.v', 'SrcRecord.v', 'SrcInit.v', 'Source.v']
TEXT = ['PyText.v', 'SrcText.v']

def sh(c):
    return subprocess.run(['bash', '-c', 'ulimit -v 5000000; ' + c], cwd=MUT, stdout=subprocess.PIPE, stderr=subprocess.STDOUT, text=True)
def files():
    return [l.strip()[len('theories/'):] for l in open(os.path.join(SRC, '_CoqProject')) if l.strip().endswith('.v')]
def text(f):
    return re.sub(r'^Print Assumptions.*$', '', open(os.path.join(SRC, 'theories', f)).read(), flags=re.M)
def restore(fs):
    for f in fs:
        a = text(f); p = os.path.join(TH, f)
        if not os.path.exists(p) or open(p).read() != a: open(p, 'w').write(a)
def closure(start, edges):
    seen = set(start); todo = list(start)
    while todo:
        for y in edges.get(todo.pop(), ()):
            if y not in seen: seen.add(y); todo.append(y)
    return seen
def items():
    d = {}
    for f in files():
        s = re.sub(r'\(\*.*?\*\)', '', text(f), flags=re.S)
        ms = list(ITEM.finditer(s))
        for i, m in enumerate(ms):
            t = s[m.start():ms[i + 1].start() if i + 1 < len(ms) else len(s)]
            w = set(re.findall(r"[A-Za-z_][\w']*", t))
            a, b = d.get(m.group(2), (set(), set()))
            d[m.group(2)] = (a | {f}, b | w)
    return d
def admit(f, off):
    p = os.path.join(TH, f); s = open(p, 'rb').read()[:].decode()
    heads = [m for m in HEAD.finditer(s) if m.start() <= off]
    if not heads: return None
    m = heads[-1]; rest = s[m.start():]
    q = re.search(r'\b(Qed|Defined)\.', rest); pr = re.search(r'\bProof\b', rest)
    if not q or not pr or pr.start() > q.start(): return None
    if s.count('\n', m.start() + q.start(), off) > 1: return None
    open(p, 'w').write(s[:m.start()] + rest[:pr.start()] + 'Admitted.' + rest[q.end():])
    return m.group(2)
def check(f):
    failed = []
    for _ in range(60):
        out = sh('timeout %d coqc -q -time -vok -Q theories Verif theories/%s 2>&1' % (LIMIT, f))
        if out.returncode == 0: return failed, None
        ends = re.findall(r'^Chars \d+ - (\d+) ', out.stdout, flags=re.M)
        n = None
        m = re.search(r'File "\./theories/(\w+\.v)", line (\d+), characters [\d-]+:\s*\n(?:Error|.*\nError)', out.stdout)
        if m:
            s = open(os.path.join(TH, f)).read(); n = admit(f, len(''.join(s.splitlines(True)[:int(m.group(2)) - 1])) + 1)
        elif ends:
            s = open(os.path.join(TH, f)).read()
            n = admit(f, int(ends[-1]) + 2)
        if n is None: return failed, f + ': ' + out.stdout[-400:]
        failed.append(n)
    return failed, 'too many'
def main():
    muts = json.load(open(sys.argv[1])); only = sys.argv[2:]
    its = items()
    uses = {n: w & its.keys() for n, (_, w) in its.items()}
    used = {}
    for n, ws in uses.items():
        for w in ws: used.setdefault(w, set()).add(n)
    props = [n for n, (fs, _) in its.items() if any(x.startswith('Properties') for x in fs) and re.match(r'C\d\d_', n)]
    order = files()
    about = [f for f in order if f not in GEN + TEXT + ['Properties13.v'] and re.search(r'\bSource\b|\bSrc[A-Z]\w*\b', text(f)) and 'Qed.' in text(f)]
    restore(order); sh('coq_makefile -f _CoqProject -o Makefile')
    for m in muts:
        if only and m['name'] not in only: continue
        t0 = time.time(); restore(order)
        shutil.rmtree(REPO, ignore_errors=True); shutil.copytree('/repo/src', REPO + '/src')
        p = os.path.join(REPO, 'src/arinc424', m['file']); s = open(p).read(); bad = None
        for a, b in m['edit']:
            if s.count(a) != 1: bad = 'edit matches %d times: %s' % (s.count(a), a); break
            s = s.replace(a, b)
        if bad: print(json.dumps({'name': m['name'], 'error': bad}), flush=True); continue
        open(p, 'w').write(s)
        out_dir = os.path.join(MUT, 'dump'); shutil.rmtree(out_dir, ignore_errors=True); os.makedirs(out_dir)
        r = subprocess.run(['python3', os.path.join(HERE, 'pyast.py')], env=dict(os.environ, REPO=REPO, OUT=out_dir), stdout=subprocess.PIPE, stderr=subprocess.STDOUT, text=True)
        if r.returncode: print(json.dumps({'name': m['name'], 'error': 'dump: ' + r.stdout[-400:]}), flush=True); continue
        subprocess.run(['python3', os.path.join(HERE, 'pytext.py')], env=dict(os.environ, REPO=REPO, OUT=out_dir), stdout=subprocess.DEVNULL)
        for g in {'text': TEXT, 'trees': GEN}.get(m.get('only'), GEN + TEXT):
            a = open(os.path.join(out_dir, g)).read()
            if a != open(os.path.join(TH, g)).read(): open(os.path.join(TH, g), 'w').write(a)
        out = sh('make -k -j%d vos 2>&1' % JOBS)
        failed, errs = [], []
        if out.returncode: errs.append('vos: ' + out.stdout[-400:])
        with ThreadPoolExecutor(JOBS) as ex:
            for a, e in ex.map(check, ['SrcText.v', 'Properties13.v'] if m.get('only') else about):
                failed += a
                if e: errs.append(e)
        hit = sorted(n for n in props if closure([n], uses) & set(failed))
        print(json.dumps({'name': m['name'], 'definition': m['definition'], 'claim': m['claim'], 'failed': failed, 'theorems': hit,
                          'files': 2 if m.get('only') else len(about), 'error': errs or None, 'secs': round(time.time() - t0)}), flush=True)
    restore(order)
main()
