(* Numerals, written without the model's number code. *)
From Coq Require Import List NArith.
From Verif Require Import PyStr Spec.
Import ListNotations.
Local Open Scope N_scope.

(* one or more characters 0-9 *)
Definition digit_string (s : str) : Prop := s <> [] /\ Forall (fun c => 48 <= c <= 57) s.
(* the number it writes in base ten *)
Fixpoint number_from (a : N) (s : str) : N :=
  match s with [] => a | c :: s' => number_from (10 * a + (c - 48)) s' end.
Definition number (s : str) : N := number_from 0 s.
(* no superfluous zero in front *)
Definition plain (s : str) : Prop := s = [48] \/ column s 1 <> Some 48.
(* s writes n / 10^k with k decimals: "12.34" is is_decimal 2 1234 *)
Definition is_decimal (k : nat) (n : N) (s : str) : Prop :=
  exists a b, s = a ++ [46] ++ b /\ digit_string a /\ plain a /\ digit_string b /\ List.length b = k /\ number (a ++ b) = n.
(* s writes n *)
Definition is_natural (n : N) (s : str) : Prop := digit_string s /\ plain s /\ number s = n.
