(* repr() of a str and of a list of str.  Not code of /repo: the part of CPython's str it calls
   (unicode_repr in Objects/unicodeobject.c), through str(e) at /repo/src/arinc424/decoder.py:760 and
   through f"{filters}" at /repo/src/arinc424/__init__.py:37. *)
From Coq Require Import List String NArith Bool.
From Verif Require Import UnicodePrintable PyStr.
Import ListNotations.
Open Scope list_scope.
Open Scope N_scope.

Definition printable_char (c : N) : bool := in_ranges printable_ranges c.
Definition hexit (d : N) : N := if d <? 10 then 48 + d else 87 + d.
(* the last k hexadecimal digits of c, lower case *)
Fixpoint hexits (k : nat) (c : N) : str :=
  match k with O => [] | S k' => hexits k' (c / 16) ++ [hexit (c mod 16)] end.
(* the quote: an apostrophe, unless the text has one and has no quotation mark *)
Definition repr_quote (s : str) : N :=
  if existsb (N.eqb 39) s && negb (existsb (N.eqb 34) s) then 34 else 39.
Definition repr_char (q c : N) : str :=
  if (c =? q) || (c =? 92) then [92; c]
  else if c =? 9 then lit "\t"
  else if c =? 10 then lit "\n"
  else if c =? 13 then lit "\r"
  else if (c <? 32) || (c =? 127) then lit "\x" ++ hexits 2 c
  else if c <? 127 then [c]
  else if printable_char c then [c]
  else if c <? 256 then lit "\x" ++ hexits 2 c
  else if c <? 65536 then lit "\u" ++ hexits 4 c
  else lit "\U" ++ hexits 8 c.
Definition repr_str (s : str) : str :=
  let q := repr_quote s in q :: flat_map (repr_char q) s ++ [q].
(* list_repr in Objects/listobject.c *)
Fixpoint repr_items (l : list str) : str :=
  match l with
  | [] => []
  | [s] => repr_str s
  | s :: l' => repr_str s ++ lit ", " ++ repr_items l'
  end.
Definition repr_list (l : list str) : str := lit "[" ++ repr_items l ++ lit "]".
