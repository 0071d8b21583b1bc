(* How tokens are spelled, and how a text is made of them: nothing else than spaces, line ends and comments comes between. *)
From Coq Require Import List String Ascii ZArith Bool.
From Verif Require Import PyLex.
Import ListNotations.
Local Open Scope string_scope.
Local Open Scope list_scope.

Fixpoint all_chars (P : ascii -> Prop) (s : string) : Prop := match s with EmptyString => True | String c s' => P c /\ all_chars P s' end.
Definition code (c : ascii) : N := N_of_ascii c.
Definition digit (c : ascii) : Prop := (48 <= code c <= 57)%N.
Definition letter (c : ascii) : Prop := (97 <= code c <= 122 \/ 65 <= code c <= 90 \/ code c = 95)%N.
Definition visible (c : ascii) : Prop := (32 <= code c <= 126)%N.
(* the number written by digits, from the left *)
Inductive decimal : string -> Z -> Prop :=
| decimal_one : forall d, digit d -> decimal (String d "") (Z.of_N (code d) - 48)
| decimal_more : forall s z d, decimal s z -> digit d -> decimal (s ++ String d "") (10 * z + (Z.of_N (code d) - 48)).
(* the characters between quotes q, and their value *)
Inductive quoted (q : ascii) : string -> string -> Prop :=
| quoted_nil : quoted q "" ""
| quoted_char : forall c s v, visible c -> c <> q -> c <> backslash -> quoted q s v -> quoted q (String c s) (String c v)
| quoted_newline : forall s v, quoted q s v -> quoted q (String backslash (String "n" s)) (String newline v)
| quoted_escape : forall c s v, c = backslash \/ c = quote \/ c = dquote -> quoted q s v -> quoted q (String backslash (String c s)) (String c v).

(* tokens that are seen in the text *)
Definition seen (t : token) : bool := match t with TNewline | TIndent | TDedent => false | _ => true end.

Inductive spelled : token -> string -> Prop :=
| spelled_name : forall c s, letter c -> all_chars (fun d => letter d \/ digit d) s -> spelled (TName (String c s)) (String c s)
| spelled_int : forall s z, decimal s z -> spelled (TInt z) s
| spelled_str : forall q s v, q = quote \/ q = dquote -> quoted q s v -> spelled (TStr v) (String q (s ++ String q ""))
| spelled_long : forall q s, q = quote \/ q = dquote -> all_chars (fun c => (visible c /\ c <> backslash) \/ c = newline) s ->
    spelled (TStr s) (String q (String q (String q (s ++ String q (String q (String q ""))))))
| spelled_fstr : forall q s ps, q = quote \/ q = dquote -> spelled_parts q s ps -> spelled (TFStr ps) (String "f" (String q (s ++ String q "")))
| spelled_op : forall o, In o (operators1 ++ operators2 ++ operators3) -> spelled (TOp o) o
with spelled_parts : ascii -> string -> list fpart -> Prop :=
| parts_end : forall q, spelled_parts q "" []
| parts_text : forall q t s ps, t <> "" -> all_chars (fun c => visible c /\ c <> backslash /\ c <> q /\ c <> "{"%char /\ c <> "}"%char) t ->
    spelled_parts q s ps -> spelled_parts q (t ++ s) (FText t :: ps)
| parts_expr : forall q e ts s ps, laid_out e (filter seen ts) -> spelled_parts q s ps -> spelled_parts q (String "{" (e ++ String "}" s)) (FExpr ts :: ps)
(* a text and the tokens seen in it *)
with laid_out : string -> list token -> Prop :=
| laid_end : laid_out "" []
| laid_space : forall s ts, laid_out s ts -> laid_out (String " " s) ts
| laid_newline : forall s ts, laid_out s ts -> laid_out (String newline s) ts
| laid_comment : forall c s ts, all_chars (fun d => d <> newline) c -> s = "" \/ (exists s', s = String newline s') -> laid_out s ts -> laid_out (String "#" (c ++ s)) ts
| laid_token : forall t w s ts, spelled t w -> laid_out s ts -> laid_out (w ++ s) (t :: ts).
