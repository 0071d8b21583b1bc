#!/usr/bin/env python3
"""Writes rocq/theories/PyText.v: the files of /repo/src/arinc424/, byte by byte, as lists of lines (a double quote is
doubled, as Coq wants it), and SrcText.v: each is parsed into the tree of Src*.v.  REPO=... to read another copy."""
import glob, os
REPO = os.environ.get('REPO', '/repo')
OUT = os.environ.get('OUT') or os.path.join(os.path.dirname(os.path.abspath(__file__)), '..', 'rocq', 'theories')
ROOT = os.path.join(REPO, 'src', 'arinc424')
mods = [('decoder.py', 'decoder', 'arinc424.decoder', 'arinc424')]
for p in sorted(glob.glob(os.path.join(ROOT, 'definitions', '*.py'))):
    n = os.path.basename(p)[:-3]
    if n != '__init__': mods.append(('definitions/%s.py' % n, n, 'arinc424.definitions.' + n, 'arinc424.definitions'))
mods += [('record.py', 'record', 'arinc424.record', 'arinc424'), ('__init__.py', 'init', 'arinc424', 'arinc424')]
with open(os.path.join(OUT, 'PyText.v'), 'wb') as f:
    f.write(b"""(* GENERATED by tools/pytext.py: the text of the files in /repo/src/arinc424, one string per line, a double quote written
   twice.  A file whose last character is a newline has an empty last line here. *)
From Coq Require Import List String.
Import ListNotations.
Local Open Scope string_scope.
""")
    for rel, name, _, _ in mods:
        b = open(os.path.join(ROOT, rel), 'rb').read()
        f.write(b'\n(* src/arinc424/%s *)\nDefinition text_%s : list string := [\n' % (rel.encode(), name.encode()))
        f.write(b';\n'.join(b'"' + l.replace(b'"', b'""') + b'"' for l in b.split(b'\n')) + b'].\n')
    f.write(b'\n(* every module: its name, the package relative imports start from, its text *)\nDefinition files : list (string * string * list string) := [\n  %s].\n'
            % b';\n  '.join(b'("%s", "%s", text_%s)' % (m.encode(), k.encode(), n.encode()) for _, n, m, k in mods))
with open(os.path.join(OUT, 'SrcText.v'), 'w') as f:
    f.write("""(* GENERATED by tools/pytext.py: parsing the text of a file (PyText.v) gives its tree (Src*.v). *)
From Coq Require Import List String.
From Verif Require Import PySyntax PyLex PyParse PyText SrcDecoder SrcDefinitions SrcRecord SrcInit Source.
Import ListNotations.
Local Open Scope string_scope.

""")
    for _, n, _, k in mods:
        f.write('Lemma text_%s_tree : parse_python "%s" (join text_%s) = Some py_%s.\nProof. vm_compute. reflexivity. Qed.\n' % (n, k, n, n))
    f.write("""
Lemma texts_trees : map (fun f => (fst (fst f), parse_python (snd (fst f)) (join (snd f)))) files = map (fun m => (fst m, Some (snd m))) source.
Proof.
  unfold files, source. cbn [map fst snd].
  rewrite %s. reflexivity.
Qed.
""" % ', '.join('text_%s_tree' % n for _, n, _, _ in mods))
