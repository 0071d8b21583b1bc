(* Rounding to binary64, round to nearest, ties to even (IEEE 754). *)
From Coq Require Import ZArith.
From Verif Require Import PyNum.
Local Open Scope Z_scope.

(* the non-negative doubles are m * 2^e; the largest exponent is looked at afterwards *)
Definition double (m e : Z) : Prop := 0 <= m < 2 ^ 53 /\ -1074 <= e.
(* m * 2^e as a multiple of 2^-1074 *)
Definition units (m e : Z) : Z := m * 2 ^ (e + 1074).
(* the distance from m * 2^e to p / q, as a multiple of 1 / (2^1074 * q) *)
Definition distance (p q m e : Z) : Z := Z.abs (units m e * q - p * 2 ^ 1074).
(* m * 2^e is the double nearest to p / q, written with 53 digits if that is possible; halfway the even m *)
Definition nearest (p q m e : Z) : Prop :=
  double m e /\ (2 ^ 52 <= m \/ e = -1074) /\
  (forall m' e', double m' e' -> distance p q m e <= distance p q m' e') /\
  (forall m' e', double m' e' -> units m' e' <> units m e -> distance p q m' e' = distance p q m e -> Z.even m = true).
(* x is (-1)^neg * p / q rounded: infinite from 2^1024 on *)
Definition rounded (neg : bool) (p q : Z) (x : fl) : Prop :=
  exists m e, nearest p q m e /\
  x = match m with Zpos k => if 971 <? e then FInf neg else FFin neg k e | _ => FZero neg end.
