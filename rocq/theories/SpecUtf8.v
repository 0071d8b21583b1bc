(* UTF-8 as the Unicode standard defines it (section 3.9, D92): code points to bytes. *)
From Coq Require Import List NArith.
From Verif Require Import PyStr.
Import ListNotations.
Local Open Scope N_scope.

Inductive encoding : N -> list N -> Prop :=
| one_byte : forall c, c < 128 -> encoding c [c]
| two_bytes : forall c, 128 <= c < 2048 -> encoding c [192 + c / 64; 128 + c mod 64]
| three_bytes : forall c, 2048 <= c < 65536 -> ~ (55296 <= c <= 57343) -> encoding c [224 + c / 4096; 128 + c / 64 mod 64; 128 + c mod 64]
| four_bytes : forall c, 65536 <= c < 1114112 -> encoding c [240 + c / 262144; 128 + c / 4096 mod 64; 128 + c / 64 mod 64; 128 + c mod 64].
(* the bytes bs encode the text t *)
Definition utf8 (t : str) (bs : list N) : Prop := exists parts, Forall2 encoding t parts /\ bs = List.concat parts.
