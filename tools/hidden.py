#!/usr/bin/env python3
"""Writes rocq/theories/SpecColumns.v: columns no field shows, layouts with repeated names, overlapping columns.

Computed from the definitions sources by way of catalogue.py's output, column by column."""
import re, os
D = os.path.join(os.path.dirname(os.path.abspath(__file__)), '..', 'rocq', 'theories')
src = open(os.path.join(D, 'SpecLayouts.v')).read()
cats = {}
for m in re.finditer(r'Definition (cat_\w+) : list cell := \[(.*?)\]\.', src, re.S):
    cs = []
    for c in re.finditer(r'(fld2?) "([^"]*)" (\d+) (\d+) F\d+', m.group(2)):
        a, b = int(c.group(3)), int(c.group(4))
        cs.append((c.group(2), list(range(a, b + 1)) if c.group(1) == 'fld' else [a, b]))
    cats[m.group(1)] = cs
entries = [(re.findall(r'"([^"]*)"', m.group(1)), m.group(2), m.group(3), cats[m.group(4)])
           for m in re.finditer(r'Entry \[(.*?)\] (\(Some \w+\)|None) (\(Some "[^"]*"\)|None) (\w+)', src)]
def ranges(l):
    out = []
    for k in l:
        if out and out[-1][1] == k - 1: out[-1][1] = k
        else: out.append([k, k])
    return out
def key(e, s): return '("%s", %s, %s)' % (s, e[1].strip('()'), e[2].strip('()'))
hidden, dup, over = [], [], []
for e in entries:
    cov = {}
    for c in e[3]:
        for k in c[1]: cov[k] = cov.get(k, 0) + 1
    names = [c[0] for c in e[3]]
    r = ranges([k for k in range(1, 133) if k not in cov])
    hidden.append('  (* %s *) [%s]' % (', '.join(key(e, s) for s in e[0]), '; '.join('(%d, %d)' % tuple(x) for x in r)))
    o = [k for k in sorted(cov) if cov[k] > 1]
    for s in e[0]:
        if len(set(names)) < len(names): dup.append('  ' + key(e, s))
        if o: over.append('  (%s, %s)' % (key(e, s), '[' + '; '.join(map(str, o)) + ']'))
open(os.path.join(D, 'SpecColumns.v'), 'w').write('''(* Which columns of a record its fields show, and which names its fields have.  The tables are written by tools/hidden.py. *)
From Coq Require Import List String NArith.
From Verif Require Import PyBase Decoder Layouts Record SpecLayouts Spec SpecJson.
Import ListNotations.
Open Scope string_scope.
Open Scope list_scope.
Local Open Scope nat_scope.

(* column k is shown in some field of the layout *)
Definition shown_in (cells : list cell) (k : nat) : Prop := exists c, In c cells /\\ In k (c_cols c).
(* column k is shown in two fields of the layout *)
Definition shown_twice (cells : list cell) (k : nat) : Prop :=
  exists a c1 b c2 d, cells = a ++ c1 :: b ++ c2 :: d /\\ In k (c_cols c1) /\\ In k (c_cols c2).
(* section code, primary or not, application type: what a layout is for *)
Definition layout_key : Type := string * option bool * option string.
Definition has_key (e : entry) (key : layout_key) : Prop :=
  In (fst (fst key)) (e_sections e) /\\ e_primary e = snd (fst key) /\\ e_app e = snd key.

(* the columns no field shows (ranges, both ends included), for the layouts of the catalogue in order *)
Definition hidden_columns : list (list (nat * nat)) := [
%s].
Definition within (rs : list (nat * nat)) (k : nat) : Prop := exists a b, In (a, b) rs /\\ a <= k <= b.
(* layouts in which two fields have the same name *)
Definition repeating : list layout_key := [
%s].
(* layouts in which two fields show the same column, and those columns *)
Definition overlapping : list (layout_key * list nat) := [
%s].
''' % (';\n'.join(hidden), ';\n'.join(dup), ';\n'.join(over)))
