#!/usr/bin/env python3
"""Writes rocq/theories/SpecCodes.v: the code lists of the standard as the library has them, extracted by
regular expressions from the text of decoder.py (tools/gen.py, which made the model, uses ast instead)."""
import re
src = open('/repo/src/arinc424/decoder.py', encoding='utf-8').read()
bodies = {}
for m in re.finditer(r'^def field_(\d+)\(.*?\):\n((?:(?:  .*)?\n)*)', src, re.M):
    bodies[m.group(1)] = m.group(2)
Q = r"""(?:'([^']*)'|"([^"]*)")"""
def unq(a, b):
    return (a or b).replace('\\n', '\n')
def coq(s):
    return '"' + s.replace('"', '""') + '"'
def cases(text):
    return [(unq(*m.group(1, 2)), unq(*m.group(3, 4)))
            for m in re.finditer(r'case ' + Q + r':\s*(?:return |s\.write\(|s \+= )' + Q + r'\)?\s*\n', text)]
def keys(text):
    return [(unq(*m.group(1, 2)), unq(*m.group(3, 4)))
            for m in re.finditer(r"\w+\[" + Q + r"\] = " + Q, text)]
def ifs(text):
    r = []
    for m in re.finditer(r"if ((?:value == '.'(?: or )?)+):\s*return '([^']*)'", text):
        r += [(c, m.group(2)) for c in re.findall(r"value == '(.)'", m.group(1))]
    return r
out = []
def table(name, rows, comment):
    assert rows, name
    out.append(f"(* {comment} *)\nDefinition {name} : list (string * string) := [\n  "
               + ";\n  ".join(f"({coq(a)}, {coq(b)})" for a, b in rows) + "].\n")
def title(n):
    m = re.search(r'^# (5\.[^\n]*)\n(?:# [^\n]*\n)*(?:LegTypeDesc[^\n]*\n|\n)*def field_' + n + r'\(', src, re.M)
    return m.group(1).encode('ascii', 'ignore').decode() if m else '5.' + n.lstrip('0')
simple = []
for n, f in [('002', ifs), ('003', cases), ('004', keys), ('016', cases), ('020', ifs), ('049', cases), ('091', cases),
             ('101', keys), ('102', cases), ('104', keys), ('106', keys), ('108', cases), ('112', cases), ('113', cases),
             ('117', ifs), ('165', ifs), ('177', cases), ('179', cases), ('181', keys), ('182', cases), ('198', keys),
             ('199', keys), ('270', cases)]:
    table('codes_' + n, f(bodies[n]), title(n)); simple.append(n)
table('codes_021', keys(src[src.index('LegTypeDesc = '):src.index('def field_021')]), '5.21 Path and Termination (PATH TERM)')
# 5.7 by section
merged = []
for p in re.findall(r"((?:el)?if record\.ident[^\n]*):\n((?:    [^\n]*\n)*)", bodies['007']):
    ids = re.findall(r"'(..)'", p[0]); merged.append((ids, keys(p[1])))
for ids, rows in merged:
    table('codes_007_' + ids[0], rows, '5.7 Route Type, sections ' + ', '.join(ids))
out.append("Definition route_types : list (list string * list (string * string)) := [\n  "
  + ";\n  ".join('([' + '; '.join(coq(i) for i in ids) + f'], codes_007_{ids[0]})' for ids, _ in merged) + "].\n")
for n in ['017', '042', '196']:
    for i, p in enumerate(re.split(r'match value\[\d\]:', bodies[n])[1:]):
        rows = cases(p)
        if n == '017':
            rows = [(a, b.rstrip('\n')) for a, b in rows]
            assert all(b for _, b in rows)
        table(f'codes_{n}_{i+1}', [r for r in rows if r[0] != '_'], f'{title(n)}, column {i+1}')
table('codes_118_1', cases(bodies['118']), title('118') + ', column 1')
ident = [n for n, b in bodies.items() if re.fullmatch(r'\s*return value\s*', b)
         or re.fullmatch(r'(?:\s*#[^\n]*\n)*\s*return value\s*', b)]
feet = [n for n, b in bodies.items() if re.fullmatch(r'''\s*return value\.lstrip\('0'\) \+ " ft" if value\.isnumeric\(\) else value\s*''', b)]
def fnlist(name, l, c):
    ls = []; cur = ''
    for n in l:
        if len(cur) > 100: ls.append(cur); cur = ''
        cur += f'F{n}; '
    ls.append(cur)
    out.append(f"(* {c} *)\nDefinition {name} : list fn := [\n  " + "\n  ".join(x.strip() for x in ls).rstrip('; ') + "].\n")
fnlist('shown_as_is', ident, 'paragraphs whose fields are shown as they stand')
fnlist('altitude_fns', feet, 'altitudes, elevations and distances in feet')
open('/verif/rocq/theories/SpecCodes.v', 'w').write(
'''(* GENERATED by tools/codes.py.  The code lists of the fields: code and meaning. *)
From Coq Require Import List String.
From Verif Require Import Decoder.
Import ListNotations.
Open Scope string_scope.
Open Scope list_scope.

''' + "\n".join(out))
print(len(ident), len(feet), len(bodies), {i[0]: len(r) for i, r in merged})
