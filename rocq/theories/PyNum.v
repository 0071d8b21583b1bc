(* Python int() and float() parsing, float division and formatting, as used by
   /repo/src/arinc424/decoder.py.  Not code of /repo: the part of the CPython runtime it calls. *)
From Coq Require Import List String NArith ZArith Bool Arith DecimalN.
From Verif Require Import Unicode PyStr.
Import ListNotations.
Open Scope Z_scope.

(* ---- decimal numerals ---- *)
Fixpoint uint_str (u : Decimal.uint) : str :=
  match u with
  | Decimal.Nil => []
  | Decimal.D0 u => 48%N :: uint_str u | Decimal.D1 u => 49%N :: uint_str u
  | Decimal.D2 u => 50%N :: uint_str u | Decimal.D3 u => 51%N :: uint_str u
  | Decimal.D4 u => 52%N :: uint_str u | Decimal.D5 u => 53%N :: uint_str u
  | Decimal.D6 u => 54%N :: uint_str u | Decimal.D7 u => 55%N :: uint_str u
  | Decimal.D8 u => 56%N :: uint_str u | Decimal.D9 u => 57%N :: uint_str u
  end.
(* str(n) for a non-negative int *)
Definition str_of_N (n : N) : str := uint_str (N.to_uint n).
(* str(z) for an int *)
Definition str_of_Z (z : Z) : str :=
  if z <? 0 then 45%N :: str_of_N (Z.to_N (- z)) else str_of_N (Z.to_N z).
(* left-pad with '0' to width w *)
Definition zpad (w : nat) (s : str) : str := repeat 48%N (w - List.length s) ++ s.
(* "{:03}".format(z): zero fill to width 3, the sign counted and kept in front (decoder.py:555) *)
Definition fmt03 (z : Z) : str :=
  if z <? 0 then 45%N :: zpad 2 (str_of_N (Z.to_N (- z))) else zpad 3 (str_of_N (Z.to_N z)).

Definition is_digit (c : N) : bool := (48 <=? c)%N && (c <=? 57)%N.
(* value of a list of ASCII digit characters, most significant first *)
Definition digits_val (ds : str) : Z := fold_left (fun a c => 10 * a + (Z.of_N c - 48)) ds 0.

(* Unicode decimal digit value (unicodedata.decimal): every range of decimal_ranges is a
   sequence of complete runs 0..9. *)
Fixpoint decimal_in (t : list (N * N)) (c : N) : option N :=
  match t with
  | [] => None
  | (a, b) :: t' => if (a <=? c)%N && (c <=? b)%N then Some ((c - a) mod 10)%N else decimal_in t' c
  end.
Definition decimal_val (c : N) : option N := decimal_in decimal_ranges c.

(* CPython _PyUnicode_TransformDecimalAndSpaceToASCII: what int() and float() do first. *)
Definition to_ascii1 (c : N) : N :=
  if (c <? 127)%N then c
  else if space_char c then 32%N
  else match decimal_val c with Some d => (48 + d)%N | None => 63%N end.
Definition to_ascii (s : str) : str := map to_ascii1 s.
(* C isspace, used by PyLong_FromString and PyFloat_FromString to trim *)
Definition c_space (c : N) : bool := ((9 <=? c)%N && (c <=? 13)%N) || (c =? 32)%N.
Definition strip_c (s : str) : str := drop_while_end c_space (drop_while c_space s).

(* optional leading sign: (is negative, rest) *)
Definition take_sign (s : str) : bool * str :=
  match s with
  | c :: s' => if (c =? 43)%N then (false, s') else if (c =? 45)%N then (true, s') else (false, s)
  | [] => (false, s)
  end.

(* Remove underscores; None unless every '_' stands between two digits (PEP 515). *)
Fixpoint drop_underscores (prev_digit : bool) (s : str) : option str :=
  match s with
  | [] => Some []
  | c :: s' =>
      if (c =? 95)%N then
        match s' with
        | d :: _ => if prev_digit && is_digit d then drop_underscores false s' else None
        | [] => None
        end
      else option_map (cons c) (drop_underscores (is_digit c) s')
  end.

(* int(s), base 10; None is ValueError (decoder.py:481, 555, 758).
   Not modelled: the 4300-digit limit of CPython >= 3.11; the code only parses up to 4 characters. *)
Definition py_int (s : str) : option Z :=
  let '(neg, d) := take_sign (strip_c (to_ascii s)) in
  match drop_underscores false d with
  | Some ds => if all_nonempty is_digit ds
               then Some (if neg then - digits_val ds else digits_val ds) else None
  | None => None
  end.

(* ---- binary64 ---- *)
(* FFin neg m e is (-1)^neg * m * 2^e. *)
Inductive fl := FZero (neg : bool) | FInf (neg : bool) | FNan | FFin (neg : bool) (m : positive) (e : Z).

(* nearest integer to p/q (q > 0), ties to even *)
Definition rne (p q : Z) : Z :=
  let k := p / q in let r := p mod q in
  match (2 * r) ?= q with
  | Lt => k
  | Gt => k + 1
  | Eq => if Z.even k then k else k + 1
  end.

(* x * 2^max(e,0) and x * 2^max(-e,0): p/q/2^e is mul2neg p e / mul2pos q e, in integers. *)
Definition mul2pos (x e : Z) : Z := x * 2 ^ Z.max e 0.
Definition mul2neg (x e : Z) : Z := x * 2 ^ Z.max (- e) 0.

(* Round p/q (p, q > 0) to the nearest binary64, ties to even (IEEE 754 roundTiesToEven:
   what both strtod and float division deliver). *)
Definition round_q (neg : bool) (p q : Z) : fl :=
  let e1 := Z.log2 p - Z.log2 q - 53 in
  let e2 := if mul2pos q e1 * 2 ^ 53 <=? mul2neg p e1 then e1 + 1 else e1 in
  let e := Z.max e2 (-1074) in
  let m := rne (mul2neg p e) (mul2pos q e) in
  let '(m, e) := if m =? 2 ^ 53 then (2 ^ 52, e + 1) else (m, e) in
  if 971 <? e then FInf neg else
  match m with
  | Zpos pm => FFin neg pm e
  | _ => FZero neg
  end.

(* (-1)^neg * m * 10^e10, m >= 0, correctly rounded *)
Definition dec_to_fl (neg : bool) (m e10 : Z) : fl :=
  if m =? 0 then FZero neg
  else if 0 <=? e10 then round_q neg (m * 10 ^ e10) 1
  else round_q neg m (10 ^ (- e10)).

(* x / d for a positive int d (decoder.py:443, 452, 454, 499, 637, 737, 1047, 1283, 2040) *)
Definition fl_div (x : fl) (d : Z) : fl :=
  match x with
  | FFin neg m e => round_q neg (mul2pos (Zpos m) e) (mul2neg d e)
  | _ => x
  end.

Definition lower (c : N) : N := if (65 <=? c)%N && (c <=? 90)%N then (c + 32)%N else c.
Fixpoint span (p : N -> bool) (s : str) : str * str :=
  match s with
  | [] => ([], [])
  | c :: s' => if p c then let '(a, b) := span p s' in (c :: a, b) else ([], s)
  end.

(* [e|E [sign] digits] up to the end of the string *)
Definition parse_exp (s : str) : option Z :=
  match s with
  | [] => Some 0
  | c :: s' =>
      if (lower c =? 101)%N then
        let '(neg, ds) := take_sign s' in
        if all_nonempty is_digit ds then Some (if neg then - digits_val ds else digits_val ds) else None
      else None
  end.
(* digits [. digits] [exponent], at least one digit in the mantissa *)
Definition parse_decimal (neg : bool) (s : str) : option fl :=
  let '(ip, r) := span is_digit s in
  let '(fp, r) := match r with
                  | c :: r' => if (c =? 46)%N then span is_digit r' else ([], r)
                  | [] => ([], [])
                  end in
  match ip ++ fp with
  | [] => None
  | ds => match parse_exp r with
          | Some x => Some (dec_to_fl neg (digits_val ds) (x - Z.of_nat (List.length fp)))
          | None => None
          end
  end.
(* float(s); None is ValueError (decoder.py:443, 452, 454, 499, 637, 737, 1047, 1283, 2040) *)
Definition py_float (s : str) : option fl :=
  match drop_underscores false (strip_c (to_ascii s)) with
  | None => None
  | Some t =>
      let '(neg, u) := take_sign t in
      let l := map lower u in
      if str_eqb l (lit "inf") || str_eqb l (lit "infinity") then Some (FInf neg)
      else if str_eqb l (lit "nan") then Some FNan
      else parse_decimal neg u
  end.

(* ---- formatting ---- *)
Definition sign_str (neg : bool) : str := if neg then [45%N] else [].
(* n written with k digits after the point: n / 10^k *)
Definition fixed_str (k : nat) (n : Z) : str :=
  str_of_N (Z.to_N (n / 10 ^ Z.of_nat k)) ++ 46%N ::
  zpad k (str_of_N (Z.to_N (n mod 10 ^ Z.of_nat k))).
(* "{:.kf}".format(x), k >= 1: the exact value rounded half-even to k places *)
Definition fmt_fixed (k : nat) (x : fl) : str :=
  match x with
  | FZero neg => sign_str neg ++ fixed_str k 0
  | FInf neg => sign_str neg ++ lit "inf"
  | FNan => lit "nan"
  | FFin neg m e => sign_str neg ++ fixed_str k (rne (mul2pos (Zpos m * 10 ^ Z.of_nat k) e) (mul2neg 1 e))
  end.

(* repr(x): shortest decimal that reads back as x.  Used when a decoder returns the float
   itself (fields 062, 135, 269) and the table cell shows str(value). *)
Definition pow10_floor (p q : Z) : Z :=
  (* largest k with 10^k <= p/q, for p, q > 0: estimate from the bit length, then adjust *)
  let est := ((Z.log2 p - Z.log2 q) * 1233) / 4096 - 1 in
  let ge k := if 0 <=? k then q * 10 ^ k <=? p else q <=? p * 10 ^ (- k) in
  if ge (est + 2) then est + 2 else if ge (est + 1) then est + 1 else est.
Definition strip_trailing0 (s : str) : str := drop_while_end (N.eqb 48) s.
Definition fl_eqb (x y : fl) : bool :=
  match x, y with
  | FFin s m e, FFin s' m' e' => Bool.eqb s s' && (m =? m')%positive && (e =? e')
  | FZero s, FZero s' => Bool.eqb s s' | FInf s, FInf s' => Bool.eqb s s'
  | FNan, FNan => true | _, _ => false
  end.
(* digits and decimal exponent x of the shortest representation d.ddd * 10^x: of the two nd-digit decimals
   around p/q the nearer one if it reads back, else the other one, else more digits (David Gay's dtoa, mode 0) *)
Fixpoint shortest (fuel : nat) (nd : Z) (m : positive) (e p q : Z) : str * Z :=
  let x := pow10_floor p q in
  let s := nd - 1 - x in                         (* scale so that nd digits are integral *)
  let p' := if 0 <=? s then p * 10 ^ s else p in
  let q' := if 0 <=? s then q else q * 10 ^ (- s) in
  let near := rne p' q' in
  let far := if near =? p' / q' then near + 1 else p' / q' in
  let back d := fl_eqb (dec_to_fl false d (x - (nd - 1))) (FFin false m e) in
  let result d := if d =? 10 ^ nd then (str_of_Z (10 ^ (nd - 1)), x + 1) else (str_of_Z d, x) in
  match fuel with
  | O => result near
  | S fuel' => if back near then result near else if back far then result far
               else shortest fuel' (nd + 1) m e p q
  end.
Definition exp_str (x : Z) : str :=
  (if x <? 0 then [45%N] else [43%N]) ++ zpad 2 (str_of_N (Z.to_N (Z.abs x))).
Definition repr_digits (ds : str) (x : Z) : str :=
  let ds := strip_trailing0 ds in
  let n := Z.of_nat (List.length ds) in
  if (-4 <=? x) && (x <? 16) then
    if x <? 0 then lit "0." ++ repeat 48%N (Z.to_nat (- x - 1)) ++ ds
    else if n <=? x + 1 then ds ++ repeat 48%N (Z.to_nat (x + 1 - n)) ++ lit ".0"
    else firstn (Z.to_nat (x + 1)) ds ++ 46%N :: skipn (Z.to_nat (x + 1)) ds
  else
    match ds with
    | [d] => [d; 101%N] ++ exp_str x
    | d :: r => [d; 46%N] ++ r ++ 101%N :: exp_str x
    | [] => []
    end.
Definition repr_fl (x : fl) : str :=
  match x with
  | FZero neg => sign_str neg ++ lit "0.0"
  | FInf neg => sign_str neg ++ lit "inf"
  | FNan => lit "nan"
  | FFin neg m e =>
      let p := mul2pos (Zpos m) e in let q := mul2neg 1 e in
      let '(ds, k) := shortest 16 1 m e p q in sign_str neg ++ repr_digits ds k
  end.
