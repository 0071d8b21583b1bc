(* Python str as used by arinc424: a list of code points, with exactly the
   builtin operations the code calls.  Not code of /repo: the part of the Python
   runtime that /repo/src/arinc424/record.py and decoder.py rely on.  Each definition
   says which call sites it models. *)
From Coq Require Import List String Ascii NArith Bool Arith.
From Verif Require Import Unicode.
Import ListNotations.

(* A Python str: its code points, 0 .. 0x10FFFF. *)
Definition str := list N.

(* String literals of the source (all of them are ASCII). *)
Definition lit (s : string) : str := map N_of_ascii (list_ascii_of_string s).

Fixpoint str_eqb (a b : str) : bool :=
  match a, b with
  | [], [] => true
  | x :: a', y :: b' => N.eqb x y && str_eqb a' b'
  | _, _ => false
  end.

(* Exceptions that can leave the library; their arguments (message tuples) are not modelled.
   ValueError: raised explicitly and by int()/float()/str.index; IndexError: s[i] out of range;
   SystemExit: exit(), decoder.py:497; OSError: open()/readlines() on a directory or a missing path. *)
Inductive exn := ValueError | IndexError | SystemExit | OSError.

Inductive result (A : Type) := Ok (a : A) | Err (e : exn).
Arguments Ok {A} a.
Arguments Err {A} e.

Definition bindR {A B} (m : result A) (k : A -> result B) : result B :=
  match m with Ok a => k a | Err e => Err e end.

(* ---- character classes (tables in Unicode.v) ---- *)
Definition in_ranges (t : list (N * N)) (c : N) : bool :=
  existsb (fun r => N.leb (fst r) c && N.leb c (snd r)) t.

Definition space_char   (c : N) : bool := in_ranges space_ranges c.
Definition numeric_char (c : N) : bool := in_ranges numeric_ranges c.
Definition alpha_char   (c : N) : bool := in_ranges alpha_ranges c.
Definition alnum_char   (c : N) : bool := alpha_char c || numeric_char c.

(* str.isXXX(): every character is in the class and there is at least one character. *)
Definition all_nonempty (p : N -> bool) (s : str) : bool :=
  match s with [] => false | _ => forallb p s end.
Definition isnumeric (s : str) : bool := all_nonempty numeric_char s.
Definition isalpha   (s : str) : bool := all_nonempty alpha_char s.
Definition isalnum   (s : str) : bool := all_nonempty alnum_char s.

(* ---- indexing and slicing ---- *)
(* s[i], i a non-negative literal: a one-character str or IndexError. *)
Definition index (s : str) (i : nat) : result str :=
  match nth_error s i with Some c => Ok [c] | None => Err IndexError end.
(* s[a:b], literals 0 <= a <= b: silently truncated at the end of s. *)
Definition slice (a b : nat) (s : str) : str := firstn (b - a) (skipn a s).
(* s[a:] *)
Definition slice_from (a : nat) (s : str) : str := skipn a s.
(* s[:b] *)
Definition slice_to (b : nat) (s : str) : str := firstn b s.
(* s[-k:], k >= 1: the last k characters, or all of s when it is shorter. *)
Definition slice_last (k : nat) (s : str) : str := skipn (List.length s - k) s.

(* ---- stripping ---- *)
Fixpoint drop_while (p : N -> bool) (s : str) : str :=
  match s with
  | [] => []
  | c :: s' => if p c then drop_while p s' else s
  end.
Definition drop_while_end (p : N -> bool) (s : str) : str := rev (drop_while p (rev s)).
(* s.strip() *)
Definition strip (s : str) : str := drop_while_end space_char (drop_while space_char s).
(* s.lstrip('0') *)
Definition lstrip0 (s : str) : str := drop_while (N.eqb 48) s.

(* ---- searching ---- *)
Fixpoint prefixb (p s : str) : bool :=
  match p, s with
  | [], _ => true
  | x :: p', y :: s' => N.eqb x y && prefixb p' s'
  | _, _ => false
  end.
(* s.startswith(p) *)
Definition startswith (s p : str) : bool := prefixb p s.
(* s.endswith(p) *)
Definition endswith (s p : str) : bool := prefixb (rev p) (rev s).
(* p in s  (str.__contains__) *)
Fixpoint contains (s p : str) : bool :=
  prefixb p s || match s with [] => false | _ :: s' => contains s' p end.

(* d[k] / match on string literals: first matching key. *)
Fixpoint assoc {A} (k : str) (t : list (str * A)) : option A :=
  match t with
  | [] => None
  | (k', v) :: t' => if str_eqb k k' then Some v else assoc k t'
  end.
(* k in [..] *)
Definition mem_str (k : str) (l : list str) : bool := existsb (str_eqb k) l.
