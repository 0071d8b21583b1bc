(* Python numerals: what int(text) and float(text) accept and mean (Python Library Reference, `int` and `float`). *)
From Coq Require Import List String NArith ZArith.
From Verif Require Import PyStr PyNum SpecNum SpecFloat.
Import ListNotations.
Open Scope string_scope.
Open Scope list_scope.

(* a decimal digit of some script (Unicode category Nd) *)
Definition decimal_char (c : N) : Prop := decimal_val c <> None.
Definition decimal_string (s : str) : Prop := s <> [] /\ Forall decimal_char s.
(* whitespace around a number: the ASCII controls 28 to 31, which count as whitespace elsewhere, do not *)
Definition number_space (c : N) : Prop := space_char c = true /\ ~ (28 <= c <= 31)%N.
Definition to_lower (c : N) : N := if (N.leb 65 c && N.leb c 90)%bool then (c + 32)%N else c.

(* digits; a '_' may stand between two of them *)
Inductive digits : str -> list N -> Prop :=
| digits_one : forall c d, decimal_val c = Some d -> digits [c] [d]
| digits_more : forall c d s ds, decimal_val c = Some d -> digits s ds -> digits (c :: s) (d :: ds)
| digits_underscore : forall c d s ds, decimal_val c = Some d -> digits s ds -> digits (c :: 95%N :: s) (d :: ds).
Definition base_ten (ds : list N) : N := fold_left (fun a d => (10 * a + d)%N) ds 0%N.
Inductive sign : str -> bool -> Prop :=
| sign_none : sign [] false | sign_plus : sign (lit "+") false | sign_minus : sign (lit "-") true.
Definition signed (neg : bool) (n : N) : Z := if neg then (- Z.of_N n)%Z else Z.of_N n.
(* text with spaces around it *)
Definition spaced (t s : str) : Prop := exists w w', s = w ++ t ++ w' /\ Forall number_space w /\ Forall number_space w'.

(* int(s) = z *)
Definition int_reads (s : str) (z : Z) : Prop :=
  exists sg neg body ds, spaced (sg ++ body) s /\ sign sg neg /\ digits body ds /\ z = signed neg (base_ten ds).

(* digits with an optional point; ds the digits, k the number of them behind the point *)
Inductive pointed : str -> list N -> nat -> Prop :=
| point_none : forall a ds, digits a ds -> pointed a ds 0
| point_last : forall a ds, digits a ds -> pointed (a ++ lit ".") ds 0
| point_first : forall b ds, digits b ds -> pointed (lit "." ++ b) ds (List.length ds)
| point_inside : forall a da b db, digits a da -> digits b db -> pointed (a ++ lit "." ++ b) (da ++ db) (List.length db).
Inductive exponent : str -> Z -> Prop :=
| exp_none : exponent [] 0%Z
| exp_some : forall e sg neg body ds, to_lower e = 101%N -> sign sg neg -> digits body ds ->
    exponent (e :: sg ++ body) (signed neg (base_ten ds)).
(* what a text accepted by float() stands for: (-1)^neg * n * 10^x, or a special value *)
Inductive quantity := Finite (neg : bool) (n : N) (x : Z) | Infinite (neg : bool) | NotANumber.
Inductive float_body : str -> bool -> quantity -> Prop :=
| float_number : forall m ds k ex x neg, pointed m ds k -> exponent ex x -> float_body (m ++ ex) neg (Finite neg (base_ten ds) (x - Z.of_nat k))
| float_infinite : forall w neg, In (map to_lower w) [lit "inf"; lit "infinity"] -> float_body w neg (Infinite neg)
| float_nan : forall w neg, map to_lower w = lit "nan" -> float_body w neg NotANumber.
Definition float_literal (s : str) (r : quantity) : Prop :=
  exists sg neg body, spaced (sg ++ body) s /\ sign sg neg /\ float_body body neg r.
(* the float for a quantity: the nearest double *)
Definition denotes (r : quantity) (x : fl) : Prop :=
  match r with
  | Finite neg 0 _ => x = FZero neg
  | Finite neg n e => rounded neg (Z.of_N n * 10 ^ Z.max e 0) (10 ^ Z.max (- e) 0) x
  | Infinite neg => x = FInf neg
  | NotANumber => x = FNan
  end.
(* float(s) = x *)
Definition float_reads (s : str) (x : fl) : Prop := exists r, float_literal s r /\ denotes r x.

(* x / d = y *)
Definition divided (x : fl) (d : Z) (y : fl) : Prop :=
  match x with
  | FFin neg m e => rounded neg (Zpos m * 2 ^ Z.max e 0) (d * 2 ^ Z.max (- e) 0) y
  | _ => y = x
  end.
(* n is the integer nearest to p / q; halfway the even one *)
Definition nearest_integer (p q n : Z) : Prop :=
  (forall k, (Z.abs (n * q - p) <= Z.abs (k * q - p))%Z) /\
  (forall k, k <> n -> Z.abs (k * q - p) = Z.abs (n * q - p) -> Z.even n = true).
Definition minus (neg : bool) : str := if neg then lit "-" else [].
(* "{:.kf}".format(x) = t *)
Definition fixed_places (k : nat) (x : fl) (t : str) : Prop :=
  match x with
  | FZero neg => exists b, is_decimal k 0 b /\ t = minus neg ++ b
  | FInf neg => t = minus neg ++ lit "inf"
  | FNan => t = lit "nan"
  | FFin neg m e => exists n b, nearest_integer (Zpos m * 10 ^ Z.of_nat k * 2 ^ Z.max e 0) (2 ^ Z.max (- e) 0) n /\
      is_decimal k (Z.to_N n) b /\ t = minus neg ++ b
  end.
(* "{:0w}".format(z) = t: at least w characters, the sign being one of them *)
Definition zero_filled (w : nat) (n : N) (t : str) : Prop :=
  digit_string t /\ number t = n /\ (List.length t = w \/ ((w < List.length t)%nat /\ plain t)).
Definition padded (w : nat) (z : Z) (t : str) : Prop :=
  match z with Zneg n => exists b, t = lit "-" ++ b /\ zero_filled (w - 1)%nat (Npos n) b | _ => zero_filled w (Z.to_N z) t end.
(* a field holding a number with k decimals, its point left out: the number shown is t *)
Definition scaled (v : str) (k : nat) (t : str) : Prop :=
  exists x y, float_reads v x /\ divided x (10 ^ Z.of_nat k) y /\ fixed_places k y t.
