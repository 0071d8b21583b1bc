(* repr of a float: the shortest decimal that reads back as the same float (Python Library Reference, float.__repr__). *)
From Coq Require Import List String NArith ZArith.
From Verif Require Import PyStr PyNum SpecNum SpecFloat SpecPyNum.
Import ListNotations.
Open Scope string_scope.
Open Scope list_scope.
Local Open Scope Z_scope.

(* the finite binary64 numbers other than zero; every float is one of these, a zero, an infinity or NaN *)
Definition finite_double (m : positive) (e : Z) : Prop := double (Zpos m) e /\ (2 ^ 52 <= Zpos m \/ e = -1074) /\ e <= 971.
Definition a_double (x : fl) : Prop := match x with FFin _ m e => finite_double m e | _ => True end.

Definition zeros (k : Z) : str := repeat 48%N (Z.to_nat k).
(* an exponent: sign and at least two digits *)
Definition exponent_text (x : Z) (t : str) : Prop := exists b, zero_filled 2 (Z.abs_N x) b /\ t = (if x <? 0 then lit "e-" else lit "e+") ++ b.
(* t writes n * 10^k: the digits of n, the point where it belongs if that is near them, an exponent otherwise *)
Inductive written (n : N) (k : Z) : str -> Prop :=
| written_small : forall ds, is_natural n ds -> let x := Z.of_nat (List.length ds) + k in
    -4 < x <= 0 -> written n k (lit "0." ++ zeros (- x) ++ ds)
| written_inside : forall a b, is_natural n (a ++ b) -> (0 < List.length a <= 16)%nat -> (0 < List.length b)%nat -> k = - Z.of_nat (List.length b) ->
    written n k (a ++ lit "." ++ b)
| written_whole : forall ds, is_natural n ds -> 0 <= k -> Z.of_nat (List.length ds) + k <= 16 ->
    written n k (ds ++ zeros k ++ lit ".0")
| written_exponent1 : forall d t, is_natural n [d] -> let x := 1 + k in
    x <= -4 \/ 16 < x -> exponent_text (x - 1) t -> written n k ([d] ++ t)
| written_exponent : forall d ds t, is_natural n (d :: ds) -> ds <> [] -> let x := Z.of_nat (List.length (d :: ds)) + k in
    x <= -4 \/ 16 < x -> exponent_text (x - 1) t -> written n k ([d] ++ lit "." ++ ds ++ t).

(* |n * 10^k - m * 2^e| <= |n' * 10^k' - m * 2^e|, over the common denominator *)
Definition error (n : N) (k : Z) (m : positive) (e : Z) : Z :=
  Z.abs (Z.of_N n * 10 ^ Z.max k 0 * 2 ^ Z.max (- e) 0 - Zpos m * 2 ^ Z.max e 0 * 10 ^ Z.max (- k) 0).
Definition no_farther (n : N) (k : Z) (n' : N) (k' : Z) (m : positive) (e : Z) : Prop :=
  error n k m e * 10 ^ Z.max (- k') 0 <= error n' k' m e * 10 ^ Z.max (- k) 0.
(* no more digits *)
Definition no_longer (n n' : N) : Prop := forall j, (n' < 10 ^ j -> n < 10 ^ j)%N.
(* n * 10^k = n' * 10^k' *)
Definition same_decimal (n : N) (k : Z) (n' : N) (k' : Z) : Prop :=
  Z.of_N n * 10 ^ Z.max k 0 * 10 ^ Z.max (- k') 0 = Z.of_N n' * 10 ^ Z.max k' 0 * 10 ^ Z.max (- k) 0.
(* n * 10^k reads back as the float, has as few digits as possible, is then as near as possible, and of two equally near ones
   the even one: its last place is a zero if the other one has more places *)
Definition shortest_decimal (neg : bool) (m : positive) (e : Z) (n : N) (k : Z) : Prop :=
  denotes (Finite neg n k) (FFin neg m e) /\
  forall n' k', denotes (Finite neg n' k') (FFin neg m e) ->
    no_longer n n' /\
    (no_longer n' n -> no_farther n k n' k' m e) /\
    (no_longer n' n -> no_farther n' k' n k m e -> same_decimal n k n' k' \/ k' < k \/ N.even n = true).
(* repr(x) = t *)
Definition shows_float (x : fl) (t : str) : Prop :=
  match x with
  | FZero neg => t = minus neg ++ lit "0.0"
  | FInf neg => t = minus neg ++ lit "inf"
  | FNan => t = lit "nan"
  | FFin neg m e => exists n k b, shortest_decimal neg m e n k /\ (n mod 10 <> 0)%N /\ written n k b /\ t = minus neg ++ b
  end.
