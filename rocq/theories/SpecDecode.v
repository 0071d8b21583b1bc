(* What the fields mean: the behaviour of the decoders, in terms of the code lists of SpecCodes.v and the
   numerals of SpecNum.v. *)
From Coq Require Import List String NArith ZArith.
From Verif Require Import PyBase Decoder SpecLayouts Spec SpecNum SpecCodes.
From Verif Require Export SpecPyNum.
Import ListNotations.
Open Scope string_scope.
Open Scope list_scope.
Local Open Scope nat_scope.

(* the field is shown as this text, and nothing is printed *)
Definition shows (f : fn) (v : str) (r : recview) (text : str) : Prop := run_fn f v r = ([], Ok (DStr text)).
(* decoding raises e, and nothing is printed *)
Definition fails (f : fn) (v : str) (r : recview) (e : exn) : Prop := run_fn f v r = ([], Err e).

(* ---- code lists ---- *)
(* what becomes of a value that is not in the list *)
Inductive otherwise :=
| Itself                                (* shown as it stands *)
| Unknown                               (* <UNKNOWN> *)
| Between (before after : string)       (* shown between two texts *)
| Refused.                              (* ValueError *)
Record code_field := CodeField {
  cf_fn : fn; cf_codes : list (string * string);
  cf_blank : bool;                      (* is an all-blank value shown as it stands? *)
  cf_other : otherwise }.
Definition code_fields : list code_field := [
  CodeField F002 codes_002 false Refused;
  CodeField F003 codes_003 false Unknown;
  CodeField F004 codes_004 true Unknown;
  CodeField F016 codes_016 false (Between "" " - Continuation");
  CodeField F020 codes_020 false Refused;
  CodeField F049 codes_049 false Itself;
  CodeField F091 codes_091 false (Between "Unknown Application Type: " "");
  CodeField F101 codes_101 false Unknown;
  CodeField F102 codes_102 false Itself;
  CodeField F104 codes_104 false Unknown;
  CodeField F106 codes_106 true Unknown;
  CodeField F108 codes_108 false Refused;
  CodeField F112 codes_112 false Itself;
  CodeField F113 codes_113 false Itself;
  CodeField F117 codes_117 false Itself;
  CodeField F165 codes_165 false Itself;
  CodeField F177 codes_177 false (Between "Unsupported Value: """ """");
  CodeField F179 codes_179 false (Between "Unsupported Value: """ """");
  CodeField F181 codes_181 false Unknown;
  CodeField F182 codes_182 false Refused;
  CodeField F198 codes_198 false Unknown;
  CodeField F199 codes_199 true Unknown;
  CodeField F270 (codes_270 ++ [(" ", " ")]) false Refused].
Definition listed (codes : list (string * string)) (v : str) : Prop := exists code text, In (code, text) codes /\ v = lit code.

(* ---- numbers ---- *)
(* the year of a cycle date: 1951 to 2050 *)
Definition cycle_year (yy : N) (year : N) : Prop := (1951 <= year <= 2050 /\ year mod 100 = yy)%N.

(* the nautical time zone letters: hours to add to local time to get UTC.  Z is UTC; A to M (without J) lie
   east of it, N to Y west *)
Definition zone_letters : list (string * Z) :=
  [("Z", 0%Z); ("A", (-1)%Z); ("B", (-2)%Z); ("C", (-3)%Z); ("D", (-4)%Z); ("E", (-5)%Z); ("F", (-6)%Z);
   ("G", (-7)%Z); ("H", (-8)%Z); ("I", (-9)%Z); ("K", (-10)%Z); ("L", (-11)%Z); ("M", (-12)%Z);
   ("N", 1%Z); ("O", 2%Z); ("P", 3%Z); ("Q", 4%Z); ("R", 5%Z); ("S", 6%Z); ("T", 7%Z); ("U", 8%Z); ("V", 9%Z);
   ("W", 10%Z); ("X", 11%Z); ("Y", 12%Z)].
(* the letter is shown as "GMT +h:" or "GMT -h:" with the right h *)
Definition zone_text (hours : Z) (minutes text : str) : Prop :=
  exists h, is_natural (Z.to_N (Z.abs hours)) h /\
    text = lit (if Z.ltb hours 0 then "GMT -" else "GMT +") ++ h ++ lit ":" ++ minutes.

(* ---- what int() and float() accept ---- *)
(* two characters that int() accepts *)
Definition two_char_int (a b : N) : Prop :=
  ((decimal_char a \/ number_space a \/ a = 43%N \/ a = 45%N) /\ decimal_char b) \/ (decimal_char a /\ number_space b).
(* alphanumeric text that float() accepts: digits, digits E digits, or a special value *)
Definition alnum_float (s : str) : Prop :=
  decimal_string s \/
  (exists a e b, s = a ++ [e] ++ b /\ decimal_string a /\ to_lower e = 101%N /\ decimal_string b) \/
  In (map to_lower s) [lit "inf"; lit "infinity"; lit "nan"].
(* what the library prints for the zone letters, before the minutes *)
Definition zone_prefixes : list (string * string) :=
  [("A", "GMT --12:"); ("B", "GMT --11:"); ("C", "GMT --10:"); ("D", "GMT --9:"); ("E", "GMT --8:"); ("F", "GMT --7:");
   ("G", "GMT --6:"); ("H", "GMT --5:"); ("I", "GMT --4:"); ("J", "GMT --3:"); ("K", "GMT --2:"); ("L", "GMT --1:");
   ("M", "GMT +0:"); ("N", "GMT +1:"); ("O", "GMT +2:"); ("P", "GMT +3:"); ("Q", "GMT +4:"); ("R", "GMT +5:");
   ("S", "GMT +6:"); ("T", "GMT +7:"); ("U", "GMT +8:"); ("V", "GMT +9:"); ("W", "GMT +10:"); ("X", "GMT +11:");
   ("Y", "GMT +12:"); ("Z", "GMT +13:")].

(* ---- codes with a meaning per column ---- *)
(* the meaning of character c by a code list: at most one text *)
Definition meaning (codes : list (string * string)) (c : N) (texts : list str) : Prop :=
  (exists code text, In (code, text) codes /\ [c] = lit code /\ texts = [lit text]) \/
  (~ listed codes [c] /\ texts = []).
(* texts one per line *)
Fixpoint one_per_line (texts : list str) : str :=
  match texts with
  | [] => []
  | [t] => t
  | t :: ts => t ++ [10%N] ++ one_per_line ts
  end.
(* the meaning of the first column, or else of the second, or else the default *)
Definition first_of (texts : list str) (default : string) : str :=
  match texts with t :: _ => t | [] => lit default end.

(* 5.82 second column *)
Definition usage_codes : list (string * string) := [("B", "HI and LO Altitude"); ("H", "HI Altitude"); ("L", "LO Altitude"); (" ", "Terminal Use Only")].
(* 5.12: what a sequence number of so many characters is for *)
Definition sequence_texts : list (nat * string) :=
  [(1, "MSA Table, TAA Table, Cruise Table"); (2, "VHF Navaid Limitation Continuation Records");
   (3, "SID/STAR/Approach and Company Routes"); (4, "Enroute Airways, Preferred Routes, FIR/UIR, and Restrictive Airspace")].

(* ---- when decoding fails ---- *)
Definition all_alnum (t : str) : Prop := Forall (fun c => alnum_char c = true) t.
Definition all_alpha (t : str) : Prop := Forall (fun c => alpha_char c = true) t.
Definition all_numeric (t : str) : Prop := Forall (fun c => numeric_char c = true) t.
Definition ends_in_T (t : str) : Prop := exists a, t = a ++ lit "T".
Definition not_a_float (t : str) : Prop := ~ exists x, float_reads t x.
Definition not_an_int (t : str) : Prop := ~ exists z, int_reads t z.
(* the fewest characters the decoder of a paragraph needs *)
Definition width (f : fn) : nat :=
  match f with
  | F010 | F039 | F178 => 1
  | F032 | F042 | F082 | F118 | F196 => 2
  | F017 => 4
  | _ => 0
  end.
(* values on which decoding raises ValueError; t is the value without surrounding whitespace *)
Definition refuses (f : fn) (v : str) : Prop :=
  match f with
  | F002 => ~ listed codes_002 v
  | F008 => forall t, trimmed v t -> t = [] \/ ~ all_alnum t
  | F020 => ~ listed codes_020 v
  | F021 | F022 => forall t, trimmed v t -> ~ all_alpha t
  | F023 | F024 | F025 => forall t, trimmed v t -> ~ all_alnum t \/ 4 < List.length t
  | F026 => forall t, trimmed v t -> t <> [] /\ (~ all_alnum t \/ 4 < List.length t \/ (~ ends_in_T t /\ ~ alnum_float t))
  | F027 => forall t, trimmed v t -> t <> [] /\
      ((exists t', t = lit "T" ++ t' /\ not_a_float t') \/ ((forall t', t <> lit "T" ++ t') /\ not_a_float t))
  | F032 => exists a b rest, v = a :: b :: rest /\ ~ two_char_int a b
  | F034 => forall t, trimmed v t -> t <> [] /\ all_numeric t /\ ~ decimal_string t
  | F039 => ~ whitespace v /\ exists c d, v = c :: d /\ not_an_int d
  | F045 | F062 | F103 | F135 => v <> [] /\ all_numeric v /\ ~ decimal_string v
  | F072 => ~ whitespace v /\ ~ all_numeric v
  | F082 => exists a b rest, v = a :: b :: rest /\ ~ In [b] [lit "B"; lit "H"; lit "L"; lit " "] /\ [a] <> lit "R"
  | F108 => ~ listed codes_108 v
  | F178 => exists c mm, v = c :: mm /\ alpha_char c = true /\ ~ (65 <= c <= 90)%N /\ mm <> [] /\ all_numeric mm
  | F182 => ~ listed codes_182 v
  | F269 => ~ whitespace v /\ not_a_float v
  | F270 => ~ listed codes_270 v /\ v <> lit " "
  | _ => False
  end.
(* values on which decoding calls exit() *)
Definition exits (f : fn) (v : str) : Prop :=
  f = F034 /\ forall t, trimmed v t -> t <> [] /\ ~ all_numeric t.
(* values on which decoding prints a diagnostic and goes on *)
Definition talks (f : fn) (v : str) : Prop :=
  match f with
  | F065 => ~ whitespace v /\ (forall m t rest, v = m :: t :: rest -> ~ decimal_char m \/ ~ decimal_char t)
  | F118 => exists a rest, v = a :: rest /\ ~ listed codes_118_1 [a]
  | _ => False
  end.
