(* Effects of the library: what it prints and how it ends. *)
From Coq Require Import List NArith.
From Verif Require Export PyStr PyNum.
Import ListNotations.

(* What field.decode returns: a str, a float (fields 062, 135, 269), or None (fields 009, 065). *)
Inductive dval := DStr (s : str) | DFloat (x : fl) | DNone.

(* One table row handed to PrettyTable.add_row, record.py:170: name, the quoted raw value, decoded. *)
Definition table_row : Type := str * str * dval.

(* Things written to standard output: EvTable stands for print(table), EvColored for print(colored(text, colour)).
   The characters they become are in Console.v. *)
Inductive event :=
| EvPrint (s : str)
| EvTable (rows : list table_row)
| EvColored (colour text : str).

(* A computation that prints and then returns or raises. *)
Definition M (A : Type) : Type := list event * result A.
Definition ret {A} (a : A) : M A := ([], Ok a).
Definition raise {A} (e : exn) : M A := ([], Err e).
Definition say (s : str) : M unit := ([EvPrint s], Ok tt).
Definition emit (ev : event) : M unit := ([ev], Ok tt).
Definition bind {A B} (m : M A) (k : A -> M B) : M B :=
  match m with
  | (o, Ok a) => let '(o', r) := k a in (o ++ o', r)
  | (o, Err e) => (o, Err e)
  end.
Definition lift {A} (r : result A) : M A := ([], r).
Notation "x <- m ;; k" := (bind m (fun x => k)) (at level 61, m at next level, right associativity).
Notation "m ;;; k" := (bind m (fun _ => k)) (at level 61, right associativity).

(* The parts of a Record that decode functions look at: record.ident, record.raw. *)
Record recview := RecView { rv_ident : str; rv_raw : str }.
