#!/usr/bin/env python3
"""Writes rocq/theories/SpecNames.v: what the catalogue (SpecLayouts.v) says about names, columns, decoders and widths."""
import re, os, collections
T = os.path.join(os.path.dirname(os.path.abspath(__file__)), '..', 'rocq', 'theories')
t = open(T + '/SpecLayouts.v').read()
lay = {}
for m in re.finditer(r'Definition (cat_\w+) : list cell := \[(.*?)\]\.', t, re.S):
    lay[m.group(1)] = [(c.group(2), (int(c.group(3)), int(c.group(4)), c.group(1) == 'fld2'), c.group(5))
                       for c in re.finditer(r'(fld2?) "([^"]*)" (\d+) (\d+) (\w+)', m.group(2))]
ents = [(re.findall(r'"([^"]*)"', m.group(1)), m.group(2), m.group(3), lay[m.group(4)])
        for m in re.finditer(r'Entry \[([^\]]*)\] (None|\(Some \w+\)) (None|\(Some "[^"]*"\)) (cat_\w+)', t)]
out = ['''(* GENERATED by tools/names.py.  Regularities of the layouts, and where they are broken. *)
From Coq Require Import List String NArith.
From Verif Require Import PyBase Decoder.
Import ListNotations.
Open Scope string_scope.
Open Scope list_scope.
''']
cols = collections.defaultdict(set)
for ss, _, _, cs in ents:
    for s in ss:
        for n, k, f in cs: cols[s, n].add(k)
moving = sorted(k for k, v in cols.items() if len(v) > 1)
out.append('(* section and name of fields that stand in different columns, in different layouts or in one *)\nDefinition moving : list (string * string) := [\n  '
           + ';\n  '.join('("%s", "%s")' % k for k in moving) + '].\n')
base = lambda n: re.sub(r' \([0-9]+\)$', '', n)
fns = collections.defaultdict(set)
for ss, _, _, cs in ents:
    for n, k, f in cs: fns[base(n)].add(f)
out.append('(* names of fields that are decoded in more than one way; numbers such as (2) do not count *)\nDefinition ambiguous : list (string * list fn) := [\n  '
           + ';\n  '.join('("%s", [%s])' % (n, '; '.join(sorted(v))) for n, v in sorted(fns.items()) if len(v) > 1) + '].\n')
W = collections.defaultdict(collections.Counter)
width = lambda k: 2 if k[2] else k[1] - k[0] + 1
for ss, _, _, cs in ents:
    for n, k, f in cs: W[f][width(k)] += len(ss)
main, exc = {}, set()
for f, c in W.items():
    w, n = c.most_common(1)[0]
    if sum(c.values()) >= 3 and n >= 0.7 * sum(c.values()): main[f] = w
for ss, _, _, cs in ents:
    for s in ss:
        for n, k, f in cs:
            if f in main and width(k) != main[f]: exc.add((s, n, f, width(k)))
out.append('(* how many columns the values of a decoder have: decoders used at least three times, nearly always with one width *)\nDefinition widths : list (fn * nat) := [\n  '
           + '; '.join('(%s, %d)' % x for x in sorted(main.items())) + '].\n')
out.append('(* where they have another number of columns: section, name, decoder, width *)\nDefinition odd_widths : list (string * string * fn * nat) := [\n  '
           + ';\n  '.join('("%s", "%s", %s, %d)' % x for x in sorted(exc)) + '].\n')
dis = []
for ss, p, a, cs in ents:
    if any(y[1][0] <= x[1][0] for x, y in zip(cs, cs[1:])):
        dis += ['(("%s", %s, %s))' % (s, p.strip('()'), a.strip('()')) for s in ss]
print(dis)
open(T + '/SpecNames.v', 'w').write('\n'.join(out))
