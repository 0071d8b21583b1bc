#!/usr/bin/env python3
"""Writes rocq/theories/KnownAnswers.v: the model run on /repo/data and on the README's example."""
import glob, os, re
REPO = '/repo'
out = ['''(* Known answers (generated by tools/known.py).  tests/test_decode.py runs read_file on every file of
   data/ARINC-424-18 and expects no exception; README.md:36-74 shows the table of one record. *)
From Coq Require Import List String NArith ZArith Bool Arith.
From Verif Require Import PyBase Decoder Record Api.
Import ListNotations.
Open Scope string_scope.
Open Scope list_scope.
Local Open Scope nat_scope.

(* a disk with one file *)
Definition disk (text : str) : world := World (fun _ => Ok text) (fun _ => Err OSError).
Definition count (o : list event) : nat := List.length (filter (fun e => match e with EvTable _ => true | _ => false end) o).
(* number of tables printed, number of other lines printed, result *)
Definition run (text : string) : nat * nat * result unit :=
  let '(o, r) := read_file (disk (lit text)) [] true in (count o, List.length o - count o, r).
''']
def q(s): return '"' + s.replace('"', '""') + '"'
tot = 0
# lines with a continuation record number or application type no layout exists for
REFUSED = {'airport_communications': 2, 'mls': 1, 'restrictive_airspace': 2}
for p in sorted(glob.glob(REPO + '/data/ARINC-424-18/*')):
    t = open(p, newline='').read()
    assert all(ord(c) < 128 for c in t), p
    n = os.path.basename(p)
    ls = [l.strip() for l in t.split('\n')]
    k = sum(1 for l in ls if len(l) == 132 and l[0] in 'ST' and l[-9:].isdigit())
    tot += k
    out.append('(* data/ARINC-424-18/%s: %d lines of 132 characters *)\nDefinition %s : string :=\n%s.' % (n, k, n, q(t)))
    out.append('Example test_%s : run %s = (%d, 0, Ok tt).\nProof. vm_compute. reflexivity. Qed.\n' % (n, n, k - REFUSED.get(n, 0)))
r = open(REPO + '/README.md').read()
line = re.search(r'arinc424\.parse\("(.*?)"\)', r).group(1)
rows = [m for m in re.findall(r"^\| (.*?) +\| '(.*?)' +\| (.*?) *\|$", r, re.M)]
out.append('Definition readme_line : string := %s.' % q(line))
out.append('Definition readme_rows : list (string * string * string) := [\n  %s].' % ';\n  '.join('(%s, %s, %s)' % tuple(map(q, x)) for x in rows))
out.append('''(* PrettyTable fills each cell with blanks: compared without them *)
Fixpoint unpad (s : str) : str :=
  match s with [] => [] | c :: s' => match unpad s' with [] => if (c =? 32)%N then [] else [c] | t => c :: t end end.
Definition cell (d : dval) : str := match d with DStr s => s | DFloat x => repr_fl x | DNone => lit "None" end.
Definition shown (row : table_row) : str * str * str := let '(n, v, d) := row in (n, v, unpad (cell d)).
Example readme_table : match parse (lit readme_line) true with
  | ([EvTable rows], Ok true) => map shown rows = map (fun x => let '(n, v, d) := x in (lit n, lit "'" ++ lit v ++ lit "'", lit d)) readme_rows
  | _ => False
  end.
Proof. vm_compute. reflexivity. Qed.''')
open(os.path.join(os.path.dirname(__file__), '..', 'rocq', 'theories', 'KnownAnswers.v'), 'w').write('\n'.join(out) + '\n')
print(tot, len(rows))
