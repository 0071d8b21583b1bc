(* Lexical analysis of Python, as in chapter 2 of the Python Language Reference, for the part of the language the package
   uses: physical lines become NEWLINE, INDENT and DEDENT tokens, brackets join lines, comments and blank lines disappear.
   What the package does not use (tabs, backslash joining, numbers other than decimal integers, string prefixes other than
   f, escapes other than those below, non-ASCII text outside comments) is refused. *)
From Coq Require Import List String Ascii ZArith Bool Arith.
Import ListNotations.
Local Open Scope string_scope.
Local Open Scope char_scope.

Inductive token :=
| TName (s : string)                      (* identifiers and keywords, 2.3 *)
| TInt (z : Z)                            (* 2.4.5 *)
| TStr (s : string)                       (* the value of a string literal, 2.4.1 *)
| TFStr (parts : list fpart)              (* 2.4.3 *)
| TOp (s : string)                        (* operators and delimiters, 2.5 and 2.6 *)
| TNewline | TIndent | TDedent            (* 2.1.1, 2.1.8 *)
with fpart := FText (s : string) | FExpr (ts : list token).

Definition newline : ascii := "010".
Definition backslash : ascii := "092".
Definition quote : ascii := "039".
Definition dquote : ascii := "034".
Definition between (a c b : ascii) : bool := Ascii.leb a c && Ascii.leb c b.
Definition is_digit (c : ascii) : bool := between "0" c "9".
Definition is_start (c : ascii) : bool := between "a" c "z" || between "A" c "Z" || Ascii.eqb c "_".
Definition is_name (c : ascii) : bool := is_start c || is_digit c.
Definition is_ascii (c : ascii) : bool := between " " c "~".

(* the longest prefix of such characters, and the rest *)
Fixpoint span (p : ascii -> bool) (s : string) : string * string :=
  match s with
  | EmptyString => (EmptyString, EmptyString)
  | String c s' => if p c then let '(a, b) := span p s' in (String c a, b) else (EmptyString, s)
  end.
Definition skip_comment (s : string) : string := snd (span (fun c => negb (Ascii.eqb c newline)) s).

Fixpoint number (acc : Z) (s : string) : Z :=
  match s with
  | EmptyString => acc
  | String c s' => number (10 * acc + Z.of_N (N_of_ascii c - 48))%Z s'
  end.
(* no zeros in front of a number, no letter or point after it *)
Definition good_number (ds rest : string) : bool :=
  match ds with String "0" (String _ _) => false | _ => true end &&
  match rest with String c _ => negb (is_name c) && negb (Ascii.eqb c ".") | EmptyString => true end.

(* the value of the characters up to the closing quote q, and what follows it *)
Fixpoint short_string (q : ascii) (s : string) : option (string * string) :=
  match s with
  | EmptyString => None
  | String c s' =>
    if Ascii.eqb c q then Some (EmptyString, s')
    else if Ascii.eqb c backslash then
      match s' with
      | String e s'' =>
        let put x := match short_string q s'' with Some (v, r) => Some (String x v, r) | None => None end in
        if Ascii.eqb e "n" then put newline
        else if Ascii.eqb e backslash || Ascii.eqb e quote || Ascii.eqb e dquote then put e else None
      | EmptyString => None
      end
    else if is_ascii c then match short_string q s' with Some (v, r) => Some (String c v, r) | None => None end
    else None
  end.
Fixpoint long_string (q : ascii) (s : string) : option (string * string) :=
  match s with
  | EmptyString => None
  | String c s' =>
    match s' with
    | String c1 (String c2 r) => if Ascii.eqb c q && Ascii.eqb c1 q && Ascii.eqb c2 q then Some (EmptyString, r) else
      if (is_ascii c || Ascii.eqb c newline) && negb (Ascii.eqb c backslash) then match long_string q s' with Some (v, r') => Some (String c v, r') | None => None end else None
    | _ => None
    end
  end.

Definition operators3 : list string := ["**="; "//="; ">>="; "<<="; "..."]%string.
Definition operators2 : list string := ["**"; "//"; "<<"; ">>"; "<="; ">="; "=="; "!="; "->"; "+="; "-="; "*="; "/="; "%="; "@="; "&="; "|="; "^="; ":="]%string.
Definition operators1 : list string := ["+"; "-"; "*"; "/"; "%"; "@"; "&"; "|"; "^"; "~"; "<"; ">"; "("; ")"; "["; "]"; "{"; "}"; ","; ":"; "."; ";"; "="]%string.
Fixpoint drop (n : nat) (s : string) : string := match n, s with S n, String _ s' => drop n s' | _, _ => s end.
(* the longest operator that the text begins with *)
Definition operator (s : string) : option (string * string) :=
  let try n ops := if existsb (String.eqb (substring 0 n s)) ops then Some (substring 0 n s) else None in
  match try 3 operators3, try 2 operators2, try 1 operators1 with
  | Some o, _, _ => Some (o, drop 3 s)
  | _, Some o, _ => Some (o, drop 2 s)
  | _, _, Some o => Some (o, drop 1 s)
  | _, _, _ => None
  end.
Definition opens (o : string) : bool := existsb (String.eqb o) ["("; "["; "{"]%string.
Definition closes (o : string) : bool := existsb (String.eqb o) [")"; "]"; "}"]%string.

(* 2.1.8: a line further in than the last opens a block; one further out closes blocks until it stands as far in as an open one *)
Fixpoint dedent (k : nat) (ind : list nat) : option (list token * list nat) :=
  match ind with
  | i :: ind' => if Nat.eqb k i then Some ([], ind) else if Nat.ltb k i then match dedent k ind' with Some (ts, r) => Some (TDedent :: ts, r) | None => None end else None
  | [] => None
  end.
Definition indentation (k : nat) (ind : list nat) : option (list token * list nat) :=
  match ind with
  | i :: _ => if Nat.ltb i k then Some ([TIndent], k :: ind) else dedent k ind
  | [] => None
  end.

(* the parts of an f-string: texts and the expressions in braces *)
Fixpoint fparts (lexer : string -> option (list token)) (n : nat) (q : ascii) (s : string) : option (list fpart * string) :=
  match n with
  | 0 => None
  | S n =>
    match s with
    | EmptyString => None
    | String c s' =>
      if Ascii.eqb c q then Some ([], s')
      else if Ascii.eqb c "{" then
        let '(e, r) := span (fun c => is_ascii c && negb (existsb (Ascii.eqb c) [backslash; q; "{"; "}"; "#"])) s' in
        match r with
        | String "}" r' =>
          match lexer e, fparts lexer n q r' with Some ts, Some (ps, r'') => Some (FExpr ts :: ps, r'') | _, _ => None end
        | _ => None
        end
      else
        let '(t, r) := span (fun c => is_ascii c && negb (existsb (Ascii.eqb c) [backslash; q; "{"; "}"])) s in
        match t, fparts lexer n q r with String _ _, Some (ps, r') => Some (FText t :: ps, r') | _, _ => None end
    end
  end.

(* depth: how many brackets are open; ind: how far in the open blocks are; start: at the start of a line *)
Fixpoint lex (n : nat) (s : string) (depth : nat) (ind : list nat) (start : bool) : option (list token) :=
  match n with
  | 0 => None
  | S n =>
    let cons t r := match r with Some ts => Some (t :: ts) | None => None end in
    if start then
      let '(sp, r) := span (Ascii.eqb " ") s in
      match r with
      | EmptyString => Some (map (fun _ => TDedent) (tl ind))
      | String c r' =>
        if Ascii.eqb c newline then lex n r' 0 ind true
        else if Ascii.eqb c "#" then match skip_comment r with String _ r'' => lex n r'' 0 ind true | EmptyString => Some (map (fun _ => TDedent) (tl ind)) end
        else match indentation (String.length sp) ind with
             | Some (ts, ind') => match lex n r 0 ind' false with Some us => Some (ts ++ us)%list | None => None end
             | None => None
             end
      end
    else
      match s with
      | EmptyString => match depth with 0 => Some (TNewline :: map (fun _ => TDedent) (tl ind)) | _ => None end
      | String c s' =>
        if Ascii.eqb c newline then match depth with 0 => cons TNewline (lex n s' 0 ind true) | _ => lex n s' depth ind false end
        else if Ascii.eqb c " " then lex n s' depth ind false
        else if Ascii.eqb c "#" then lex n (skip_comment s) depth ind false
        else if is_digit c then
          let '(ds, r) := span is_digit s in
          if good_number ds r then cons (TInt (number 0 ds)) (lex n r depth ind false) else None
        else if Ascii.eqb c quote || Ascii.eqb c dquote then
          match (match s' with String c1 (String c2 r) => if Ascii.eqb c1 c && Ascii.eqb c2 c then long_string c r else short_string c s' | _ => short_string c s' end) with
          | Some (v, r) => cons (TStr v) (lex n r depth ind false)
          | None => None
          end
        else if is_start c then
          let '(x, r) := span is_name s in
          match r with
          | String q r' =>
            if Ascii.eqb q quote || Ascii.eqb q dquote then
              match (if String.eqb x "f" then fparts (fun e => lex_flat n e) n q r' else None) with
              | Some (ps, r'') => match r' with String q1 _ => if Ascii.eqb q1 q then None else cons (TFStr ps) (lex n r'' depth ind false) | EmptyString => None end
              | None => None
              end
            else cons (TName x) (lex n r depth ind false)
          | EmptyString => cons (TName x) (lex n r depth ind false)
          end
        else
          match operator s with
          | Some (o, r) =>
            if opens o then cons (TOp o) (lex n r (S depth) ind false)
            else if closes o then match depth with 0 => None | S d => cons (TOp o) (lex n r d ind false) end
            else cons (TOp o) (lex n r depth ind false)
          | None => None
          end
      end
  end
(* the expression in an f-string *)
with lex_flat (n : nat) (s : string) : option (list token) :=
  match n with
  | 0 => None
  | S n => match lex n s 0 [0] false with Some ts => Some (removelast ts) | None => None end
  end.

Definition tokens (s : string) : option (list token) := lex (2 * String.length s + 2) s 0 [0] true.
(* lines are separated by newlines *)
Fixpoint join (ls : list string) : string :=
  match ls with
  | [] => EmptyString
  | [l] => l
  | l :: ls' => (l ++ String newline (join ls'))%string
  end.
