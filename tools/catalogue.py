#!/usr/bin/env python3
"""Writes rocq/theories/SpecLayouts.v: the record catalogue used as a specification.

Independent of gen.py: works on the source lines with regular expressions, goes by section code
(not by class), and states columns the way the standard does, 1-based and inclusive."""
import re, os, glob
REPO = '/repo/src/arinc424'
OUT = os.path.join(os.path.dirname(os.path.abspath(__file__)), '..', 'rocq', 'theories', 'SpecLayouts.v')
src = {os.path.basename(f)[:-3]: re.sub(r'(?m)^\s*#.*$', '', open(f).read()) for f in glob.glob(REPO + '/definitions/*.py')}
rec = open(REPO + '/record.py').read()
secs = re.findall(r"records\['(..)'\] = (\w+)\((\w*)\)", rec)
by = {}
for s, c, a in secs: by.setdefault((c, a or 'False'), []).append(s)

def cells(text, arg):
    out = []
    for m in re.finditer(r'Field\(\s*("[^"]*"|self\.id_name),\s*(.*?),\s*decoder\.field_(\d+)\)', text, re.S):
        name, e, ref = m.groups()
        name = ('Heliport Identifier' if arg == 'True' else 'Airport Identifier') if name == 'self.id_name' else name[1:-1]
        e = re.sub(r'\s+', ' ', e)
        t = re.fullmatch(r'(.*) if self\.enroute is True else (.*)', e)
        if t: e = t.group(1) if arg == 'True' else t.group(2)
        k = re.fullmatch(r'r\[(\d+)\]', e)
        if k: out.append('fld "%s" %d %d F%s' % (name, int(k[1]) + 1, int(k[1]) + 1, ref)); continue
        k = re.fullmatch(r'r\[(\d+):(\d+)\]', e)
        if k: out.append('fld "%s" %d %d F%s' % (name, int(k[1]) + 1, int(k[2]), ref)); continue
        k = re.fullmatch(r'r\[(\d+)\]\s*\+\s*r\[(\d+)\]', e)
        assert k, e
        out.append('fld2 "%s" %d %d F%s' % (name, int(k[1]) + 1, int(k[2]) + 1, ref))
    return out

o = []
n = 0
defs = []
conts = []
for (c, a), ss in by.items():
    text = src[c]
    text = text[re.search(r'class %s\(\)' % c, text).start():]
    text = re.split(r'\nclass ', text)[0]
    parts = re.split(r'\n  def (\w+)\(', text)
    body = dict(zip(parts[1::2], parts[2::2]))
    ci = re.search(r'cont_idx = (\d+)', parts[0]); ai = re.search(r'app_idx = (\d+)', parts[0])
    conts.append((ss, int(ci[1]) + 1 if ci else None, int(ai[1]) + 1 if ai else None))
    lays = {m: cells(t, a) for m, t in body.items() if 'Field(' in t}
    S = '[' + '; '.join('"%s"' % s for s in ss) + ']'
    rd = body['read']
    def ent(prim, app, m):
        global n
        n += 1
        assert lays[m]
        cid = 'cat_%s_%d' % (ss[0].strip(), n)
        defs.append('(* %s, %s.py, %s *)\nDefinition %s : list cell := [\n  %s].\n' % (' '.join(ss), c, m, cid, ';\n  '.join(lays[m])))
        o.append('  Entry %s %s %s %s' % (S, prim, app, cid))
    if 'read' in lays: ent('None', 'None', 'read'); continue
    if 'match' not in rd:
        ent('None', 'None', re.search(r'return self\.(\w+)\(line\)', rd)[1]); continue
    if c == 'EnrouteAirwaysRestriction':
        x, y = rd.split('\n    else:')
        for p, t in (('(Some true)', x), ('(Some false)', y)):
            for k, m in re.findall(r"case '(..)':\s*return self\.(\w+)\(line\)", t): ent(p, '(Some "%s")' % k, m)
        continue
    ent('(Some true)', 'None', re.search(r'if primary:\s*return self\.(\w+)\(line\)', rd)[1])
    for k, m in re.findall(r"case (?:'(.)'|_):\s*return self\.(\w+)\(line\)", rd):
        ent('(Some false)', '(Some "%s")' % k if k else 'None', m)
with open(OUT, 'w') as f:
    f.write('''(* GENERATED by tools/catalogue.py.  The record catalogue: for each section code, which columns
   (1-based, inclusive, as in the standard) make up which field, and the ARINC 424 paragraph
   (FNNN: 5.NNN) by which the field is decoded. *)
From Coq Require Import List String.
From Verif Require Import Decoder.
Import ListNotations.
Open Scope string_scope.
Open Scope list_scope.

Record cell := Cell { c_name : string; c_cols : list nat; c_fn : fn }.
Definition fld (name : string) (first last : nat) (f : fn) : cell := Cell name (seq first (last + 1 - first)) f.
Definition fld2 (name : string) (i j : nat) (f : fn) : cell := Cell name [i; j] f.

(* A layout: the section codes it is for, whether it is for primary records (None: either), for which
   application type (None: any), and its fields. *)
Record entry := Entry { e_sections : list string; e_primary : option bool; e_app : option string; e_cells : list cell }.

''')
    f.write('(* Continuation record number column and application type column(s), by section code. *)\n')
    f.write('Definition cont_columns : list (string * option nat * list nat) := [\n')
    R = []
    for ss, ci, ai in conts:
        for s in ss:
            apps = '[16; 17]' if s == 'EU' else '[%s]' % (ai if ai else '')
            R.append('  ("%s", %s, %s)' % (s, 'Some %d' % ci if ci else 'None', apps))
    f.write(';\n'.join(sorted(R)) + '].\n\n')
    f.write('\n'.join(defs) + '\n')
    f.write('Definition catalogue : list entry := [\n' + ';\n'.join(o) + '].\n')
print(n)
