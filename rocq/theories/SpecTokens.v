(* The tokens of a Python text, after chapter 2 of the Python Language Reference, without saying how to find them:
   tokens and what may follow them, logical lines, indentation. *)
From Coq Require Import List String Ascii ZArith.
From Verif Require Import PyLex SpecLex.
Import ListNotations.
Local Open Scope string_scope.
Local Open Scope list_scope.

Definition name_char (c : ascii) : Prop := letter c \/ digit c.
(* the text does not go on with such a character *)
Definition no_next (P : ascii -> Prop) (rest : string) : Prop := match rest with String c _ => ~ P c | EmptyString => True end.
Definition begins (w s : string) : Prop := exists r, s = (w ++ r)%string.
Definition operators : list string := operators1 ++ operators2 ++ operators3.
Definition three (q : ascii) (s : string) : string := String q (String q (String q s)).
Definition is_text (p : fpart) : Prop := match p with FText _ => True | FExpr _ => False end.

(* depth of brackets before and after a token *)
Definition bracket (t : token) (d d' : nat) : Prop :=
  match t with
  | TOp o => if opens o then d' = S d else if closes o then d = S d' else d' = d
  | _ => d' = d
  end.

(* a token, how it is written, and what follows it in the line: the longest possible token is read *)
Inductive token_text : token -> string -> string -> Prop :=
| text_name : forall c s rest, letter c -> all_chars name_char s -> no_next (fun d => name_char d \/ d = quote \/ d = dquote) rest ->
    token_text (TName (String c s)) (String c s) rest
| text_int : forall s z rest, decimal s z -> (s = "0" \/ forall u, s <> String "0" u) -> no_next (fun d => name_char d \/ d = "."%char) rest -> token_text (TInt z) s rest
| text_str : forall q s v rest, q = quote \/ q = dquote -> quoted q s v -> (s = "" -> no_next (eq q) rest) -> token_text (TStr v) (String q (s ++ String q "")) rest
| text_long : forall q s rest, q = quote \/ q = dquote -> all_chars (fun c => (visible c /\ c <> backslash) \/ c = newline) s ->
    (forall a b, (s ++ String q (String q ""))%string <> (a ++ three q b)%string) -> token_text (TStr s) (three q (s ++ three q "")) rest
| text_fstr : forall q s ps rest, q = quote \/ q = dquote -> s <> "" -> parts_text q s ps -> token_text (TFStr ps) (String "f" (String q (s ++ String q ""))) rest
| text_op : forall o rest, In o operators -> (forall o', In o' operators -> begins o' (o ++ rest) -> String.length o' <= String.length o) -> token_text (TOp o) o rest
(* the parts of an f-string *)
with parts_text : ascii -> string -> list fpart -> Prop :=
| parts_nil : forall q, parts_text q "" []
| parts_chars : forall q t s ps, t <> "" -> all_chars (fun c => visible c /\ c <> backslash /\ c <> q /\ c <> "{"%char /\ c <> "}"%char) t ->
    (forall p ps', ps = p :: ps' -> ~ is_text p) -> parts_text q s ps -> parts_text q (t ++ s) (FText t :: ps)
| parts_braces : forall q e ts s ps, all_chars (fun c => visible c /\ c <> backslash /\ c <> q /\ c <> "{"%char /\ c <> "}"%char /\ c <> "#"%char) e -> logical 0 e ts ->
    parts_text q s ps -> parts_text q (String "{" (e ++ String "}" s)) (FExpr ts :: ps)
(* a logical line without its indentation and line end: d brackets are open *)
with logical : nat -> string -> list token -> Prop :=
| logical_end : logical 0 "" []
| logical_space : forall d s ts, logical d s ts -> logical d (String " " s) ts
| logical_newline : forall d s ts, logical (S d) s ts -> logical (S d) (String newline s) ts
| logical_comment : forall d c s ts, all_chars (fun e => e <> newline) c -> s = "" \/ (exists s', s = String newline s') -> logical d s ts -> logical d (String "#" (c ++ s)) ts
| logical_token : forall d d' t w s ts, token_text t w s -> bracket t d d' -> logical d' s ts -> logical d (w ++ s) (t :: ts).

(* the lines of a text: indentation and tokens; blank lines and comments are no lines *)
Fixpoint spaces (k : nat) : string := match k with 0 => "" | S k => String " " (spaces k) end.
Inductive lines_text : string -> list (nat * list token) -> Prop :=
| lines_end : forall k c, c = "" \/ (exists c', c = String "#" c' /\ all_chars (fun e => e <> newline) c') -> lines_text (spaces k ++ c) []
| lines_blank : forall k c s ls, c = "" \/ (exists c', c = String "#" c' /\ all_chars (fun e => e <> newline) c') -> lines_text s ls -> lines_text (spaces k ++ c ++ String newline s) ls
| lines_line : forall k w ts s ls, w <> "" -> no_next (fun c => c = " "%char \/ c = "#"%char \/ c = newline) w -> logical 0 w ts -> lines_text s ls ->
    lines_text (spaces k ++ w ++ String newline s) ((k, ts) :: ls)
| lines_last : forall k w ts, w <> "" -> no_next (fun c => c = " "%char \/ c = "#"%char \/ c = newline) w -> logical 0 w ts -> lines_text (spaces k ++ w) [(k, ts)].
(* lines of a block that stands k spaces in: a line there, or a block further in, which ends with the text or before a line of this block *)
Inductive block : nat -> list (nat * list token) -> list token -> Prop :=
| block_end : forall k, block k [] []
| block_line : forall k l ls ts, block k ls ts -> block k ((k, l) :: ls) (l ++ TNewline :: ts)
| block_inner : forall k k' l inner ls ts us, k < k' -> block k' ((k', l) :: inner) ts -> ls = [] \/ (exists l' ls', ls = (k, l') :: ls') -> block k ls us ->
    block k ((k', l) :: inner ++ ls) (TIndent :: ts ++ TDedent :: us).
Definition tokens_of (text : string) (ts : list token) : Prop := exists ls, lines_text text ls /\ block 0 ls ts.
