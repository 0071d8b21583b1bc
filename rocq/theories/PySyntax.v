(* Abstract syntax of the part of Python that /repo/src/arinc424 is written in, as produced by Python's own
   ast.parse (tools/pyast.py).  Left out by the translation: comments, docstrings, annotations, line numbers. *)
From Coq Require Import List String ZArith.
Import ListNotations.

Inductive binop := OpAdd | OpSub | OpMul | OpDiv.
Inductive cmpop := CmpEq | CmpNe | CmpGt | CmpGe | CmpIs | CmpIn | CmpNotIn.

Inductive expr :=
| EStr (s : string)
| EInt (z : Z)
| EBool (b : bool)
| ENone
| EName (x : string)
| EAttr (e : expr) (a : string)                                   (* e.a *)
| EItem (e i : expr)                                              (* e[i] *)
| ESlice (e : expr) (lo hi : option expr)                         (* e[lo:hi] *)
| ECall (f : expr) (args : list expr) (kws : list (string * expr))
| EBin (op : binop) (a b : expr)
| ENeg (e : expr)
| ENot (e : expr)
| EAnd (a b : expr)
| EOr (a b : expr)
| ECmp (op : cmpop) (a b : expr)
| EIfExp (c a b : expr)                                           (* a if c else b *)
| EList (l : list expr)
| ETuple (l : list expr)
| EDict (l : list (expr * expr))
| EFString (parts : list expr).                                   (* texts and {expressions} *)

Inductive pattern := PValue (e : expr) | PWild.

Inductive stmt :=
| SExpr (e : expr)
| SAssign (target e : expr)
| SAug (target : expr) (op : binop) (e : expr)                    (* target op= e *)
| SReturn (e : option expr)
| SRaise (e : expr)
| SIf (c : expr) (a b : list stmt)
| SMatch (e : expr) (cases : list (pattern * list stmt))
| SFor (x : string) (e : expr) (body : list stmt)
| SWith (e : expr) (x : string) (body : list stmt)
| STry (body : list stmt) (excs : list string) (x : string) (handler : list stmt)
| SContinue
| SDef (f : string) (params : list (string * option expr)) (body : list stmt)
| SClass (c : string) (body : list stmt)
| SImport (m x : string)                                          (* import m as x *)
| SFrom (m n x : string).                                         (* from m import n as x *)

Definition pymodule : Type := list stmt.
