(* Python's literals for strings and for lists of strings (The Python Language Reference 2.4.1, 6.2.5),
   written without looking at repr().  Not covered: prefixes, triple quotes, octal and \N escapes,
   the rarer one-letter escapes, adjacent literals. *)
From Coq Require Import List String NArith.
From Verif Require Import PyStr SpecPyNum.
Import ListNotations.
Open Scope list_scope.
Open Scope N_scope.

Definition text (s : str) : Prop := Forall (fun c => c < 1114112) s.
Inductive hex_val : N -> N -> Prop :=
| hex_09 : forall c, 48 <= c <= 57 -> hex_val c (c - 48)
| hex_af : forall c, 97 <= c <= 102 -> hex_val c (c - 87)
| hex_AF : forall c, 65 <= c <= 70 -> hex_val c (c - 55).
Fixpoint positional (ds : list N) (a : N) : N :=
  match ds with [] => a | d :: ds' => positional ds' (16 * a + d) end.
Definition hex_number (t : str) (n : N) : Prop := exists ds, Forall2 hex_val t ds /\ n = positional ds 0.

(* one character of the value, inside quotes q *)
Inductive literal_char (q : N) : str -> N -> Prop :=
| lc_plain : forall c, c <> q -> c <> 92 -> c <> 10 -> c <> 13 -> literal_char q [c] c
| lc_self : forall c, In c [92; 39; 34] -> literal_char q [92; c] c
| lc_letter : forall e c, In (e, c) [(110, 10); (114, 13); (116, 9)] -> literal_char q [92; e] c
| lc_hex : forall e k t c, In (e, k) [(120, 2%nat); (117, 4%nat); (85, 8%nat)] -> List.length t = k -> hex_number t c -> c < 1114112 ->
    literal_char q (92 :: e :: t) c.
Inductive literal_body (q : N) : str -> str -> Prop :=
| lb_end : literal_body q [] []
| lb_char : forall p c t s, literal_char q p c -> literal_body q t s -> literal_body q (p ++ t) (c :: s).
Definition literal (t s : str) : Prop := exists q b, In q [39; 34] /\ t = [q] ++ b ++ [q] /\ literal_body q b s.
(* [a, b, c] *)
Inductive literal_items : str -> list str -> Prop :=
| li_last : forall t s, literal t s -> literal_items t [s]
| li_more : forall t s ts l, literal t s -> literal_items ts l -> literal_items (t ++ lit ", " ++ ts) (s :: l).
Definition list_literal (t : str) (l : list str) : Prop :=
  (t = lit "[]" /\ l = []) \/ (exists b, t = lit "[" ++ b ++ lit "]" /\ literal_items b l).

(* ---- what str(e) says about a holding time that is none (field_065) ---- *)
(* what str(e) says about a value: the first character that is no digit, or that there is only one *)
Inductive complaint : str -> str -> Prop :=
| no_minutes : forall m rest t, ~ decimal_char m -> (text [m] -> literal t [m]) -> complaint (m :: rest) (lit "invalid literal for int() with base 10: " ++ t)
| no_tenths : forall m, decimal_char m -> complaint [m] (lit "string index out of range")
| bad_tenths : forall m x rest t, decimal_char m -> ~ decimal_char x -> (text [x] -> literal t [x]) ->
    complaint (m :: x :: rest) (lit "invalid literal for int() with base 10: " ++ t).
