(* A parser for the grammar of PyGrammar.v, by recursive descent.  n bounds the depth of the recursion. *)
From Coq Require Import List String Ascii ZArith Bool Arith.
From Verif Require Import PySyntax PyLex PyGrammar.
Import ListNotations.
Local Open Scope string_scope.
Local Open Scope list_scope.

Definition is_op (o : string) (t : token) : bool := match t with TOp x => String.eqb x o | _ => false end.
Definition is_word (w : string) (t : token) : bool := match t with TName x => String.eqb x w | _ => false end.
Definition op (o : string) (ts : list token) : option (list token) := match ts with TOp x :: r => if String.eqb x o then Some r else None | _ => None end.
Definition word (w : string) (ts : list token) : option (list token) := match ts with TName x :: r => if String.eqb x w then Some r else None | _ => None end.
Definition keyword (x : string) : bool := existsb (String.eqb x) keywords.
Definition name (ts : list token) : option (string * list token) := match ts with TName x :: r => if keyword x then None else Some (x, r) | _ => None end.
Definition comparison (ts : list token) : option (cmpop * list token) :=
  match ts with
  | TOp o :: r =>
    if String.eqb o "==" then Some (CmpEq, r) else if String.eqb o "!=" then Some (CmpNe, r)
    else if String.eqb o ">" then Some (CmpGt, r) else if String.eqb o ">=" then Some (CmpGe, r) else None
  | TName o :: r =>
    if String.eqb o "is" then Some (CmpIs, r) else if String.eqb o "in" then Some (CmpIn, r)
    else if String.eqb o "not" then match word "in" r with Some r' => Some (CmpNotIn, r') | None => None end else None
  | _ => None
  end.

(* no more arguments by position *)
Definition kws_next (ts : list token) : bool := match ts with TOp o :: _ => String.eqb o ")" | TName _ :: TOp o :: _ => String.eqb o "=" | _ => false end.

(* what is looked for: an expression of a level, or what may follow one already read *)
Inductive goal := G (l : level) | RestSum (a : expr) | RestTerm (a : expr) | RestPrim (a : expr).

Fixpoint p (n : nat) (g : goal) (ts : list token) {struct n} : option (expr * list token) :=
  match n with
  | 0 => None
  | S n =>
    match g with
    | G Test =>
      match p n (G Or) ts with
      | Some (a, r) =>
        match word "if" r with
        | Some r1 => match p n (G Or) r1 with
          | Some (c, r2) => match word "else" r2 with
            | Some r3 => match p n (G Test) r3 with Some (b, r4) => Some (EIfExp c a b, r4) | None => None end
            | None => None end
          | None => None end
        | None => Some (a, r)
        end
      | None => None
      end
    | G Or =>
      match p n (G And) ts with
      | Some (a, r) => match word "or" r with Some r1 => match p n (G Or) r1 with Some (b, r2) => Some (EOr a b, r2) | None => None end | None => Some (a, r) end
      | None => None
      end
    | G And =>
      match p n (G Not) ts with
      | Some (a, r) => match word "and" r with Some r1 => match p n (G And) r1 with Some (b, r2) => Some (EAnd a b, r2) | None => None end | None => Some (a, r) end
      | None => None
      end
    | G Not =>
      match word "not" ts with
      | Some r => match p n (G Not) r with Some (a, r1) => Some (ENot a, r1) | None => None end
      | None => p n (G Cmp) ts
      end
    | G Cmp =>
      match p n (G Sum) ts with
      | Some (a, r) => match comparison r with Some (o, r1) => match p n (G Sum) r1 with Some (b, r2) => Some (ECmp o a b, r2) | None => None end | None => Some (a, r) end
      | None => None
      end
    | G Sum => match p n (G Term) ts with Some (a, r) => p n (RestSum a) r | None => None end
    | RestSum a =>
      match op "+" ts, op "-" ts with
      | Some r, _ => match p n (G Term) r with Some (b, r1) => p n (RestSum (EBin OpAdd a b)) r1 | None => None end
      | _, Some r => match p n (G Term) r with Some (b, r1) => p n (RestSum (EBin OpSub a b)) r1 | None => None end
      | _, _ => Some (a, ts)
      end
    | G Term => match p n (G Factor) ts with Some (a, r) => p n (RestTerm a) r | None => None end
    | RestTerm a =>
      match op "*" ts, op "/" ts with
      | Some r, _ => match p n (G Factor) r with Some (b, r1) => p n (RestTerm (EBin OpMul a b)) r1 | None => None end
      | _, Some r => match p n (G Factor) r with Some (b, r1) => p n (RestTerm (EBin OpDiv a b)) r1 | None => None end
      | _, _ => Some (a, ts)
      end
    | G Factor =>
      match op "-" ts with
      | Some r => match p n (G Factor) r with Some (a, r1) => Some (ENeg a, r1) | None => None end
      | None => p n (G Prim) ts
      end
    | G Prim => match p n (G Atom) ts with Some (a, r) => p n (RestPrim a) r | None => None end
    | RestPrim a =>
      match op "." ts with
      | Some r => match name r with Some (x, r1) => p n (RestPrim (EAttr a x)) r1 | None => None end
      | None =>
      match op "(" ts with
      | Some r => match p_args n r with
        | Some (es, ks, r1) => match op ")" r1 with Some r2 => p n (RestPrim (ECall a es ks)) r2 | None => None end
        | None => None end
      | None =>
      match op "[" ts with
      | Some r =>
        match p_opt n ":" r with
        | Some (lo, r1) =>
          match op ":" r1 with
          | Some r2 => match p_opt n "]" r2 with
            | Some (hi, r3) => match op "]" r3 with Some r4 => p n (RestPrim (ESlice a lo hi)) r4 | None => None end
            | None => None end
          | None => match lo, op "]" r1 with Some i, Some r2 => p n (RestPrim (EItem a i)) r2 | _, _ => None end
          end
        | None => None end
      | None => Some (a, ts)
      end end end
    | G Atom =>
      match ts with
      | TInt z :: r => Some (EInt z, r)
      | TStr s :: r => Some (EStr s, r)
      | TFStr ps :: r => match p_parts n ps with Some es => Some (EFString es, r) | None => None end
      | TName x :: r =>
        if String.eqb x "True" then Some (EBool true, r) else if String.eqb x "False" then Some (EBool false, r)
        else if String.eqb x "None" then Some (ENone, r) else if keyword x then None else Some (EName x, r)
      | TOp o :: r =>
        if String.eqb o "(" then
          match op ")" r with
          | Some r1 => Some (ETuple [], r1)
          | None => match p n (G Test) r with
            | Some (e, r1) =>
              match op ")" r1, op "," r1 with
              | Some r2, _ => Some (e, r2)
              | _, Some r2 => match p_items n ")" r2 with
                | Some (es, r3) => match op ")" r3 with Some r4 => Some (ETuple (e :: es), r4) | None => None end
                | None => None end
              | _, _ => None
              end
            | None => None end
          end
        else if String.eqb o "[" then
          match p_items n "]" r with
          | Some (es, r1) => match op "]" r1 with Some r2 => Some (EList es, r2) | None => None end
          | None => None end
        else if String.eqb o "{" then
          match p_pairs n r with
          | Some (ps, r1) => match op "}" r1 with Some r2 => Some (EDict ps, r2) | None => None end
          | None => None end
        else None
      | _ => None
      end
    end
  end
with p_items (n : nat) (close : string) (ts : list token) {struct n} : option (list expr * list token) :=
  match n with
  | 0 => None
  | S n =>
    match op close ts with
    | Some _ => Some ([], ts)
    | None => match p n (G Test) ts with
      | Some (e, r) => match op "," r with
        | Some r1 => match p_items n close r1 with Some (es, r2) => Some (e :: es, r2) | None => None end
        | None => Some ([e], r) end
      | None => None end
    end
  end
with p_pairs (n : nat) (ts : list token) {struct n} : option (list (expr * expr) * list token) :=
  match n with
  | 0 => None
  | S n =>
    match op "}" ts with
    | Some _ => Some ([], ts)
    | None => match p n (G Test) ts with
      | Some (k, r) => match op ":" r with
        | Some r1 => match p n (G Test) r1 with
          | Some (v, r2) => match op "," r2 with
            | Some r3 => match p_pairs n r3 with Some (ps, r4) => Some ((k, v) :: ps, r4) | None => None end
            | None => Some ([(k, v)], r2) end
          | None => None end
        | None => None end
      | None => None end
    end
  end
with p_args (n : nat) (ts : list token) {struct n} : option (list expr * list (string * expr) * list token) :=
  match n with
  | 0 => None
  | S n =>
    if kws_next ts then match p_kws n ts with Some (ks, r) => Some ([], ks, r) | None => None end
    else match p n (G Test) ts with
      | Some (e, r) => match op "," r with
        | Some r1 => match p_args n r1 with Some (es, ks, r2) => Some (e :: es, ks, r2) | None => None end
        | None => Some ([e], [], r) end
      | None => None end
  end
with p_kws (n : nat) (ts : list token) {struct n} : option (list (string * expr) * list token) :=
  match n with
  | 0 => None
  | S n =>
    match op ")" ts with
    | Some _ => Some ([], ts)
    | None => match name ts with
      | Some (x, r) => match op "=" r with
        | Some r1 => match p n (G Test) r1 with
          | Some (e, r2) => match op "," r2 with
            | Some r3 => match p_kws n r3 with Some (ks, r4) => Some ((x, e) :: ks, r4) | None => None end
            | None => Some ([(x, e)], r2) end
          | None => None end
        | None => None end
      | None => None end
    end
  end
with p_opt (n : nat) (close : string) (ts : list token) {struct n} : option (option expr * list token) :=
  match n with
  | 0 => None
  | S n =>
    match op close ts with
    | Some _ => Some (None, ts)
    | None => match p n (G Test) ts with Some (e, r) => Some (Some e, r) | None => None end
    end
  end
with p_parts (n : nat) (ps : list fpart) {struct n} : option (list expr) :=
  match n with
  | 0 => None
  | S n =>
    match ps with
    | [] => Some []
    | FText s :: ps' => match p_parts n ps' with Some es => Some (EStr s :: es) | None => None end
    | FExpr ts :: ps' => match p n (G Test) ts, p_parts n ps' with Some (e, []), Some es => Some (e :: es) | _, _ => None end
    end
  end.

Definition targetb (e : expr) : bool := match e with EName _ | EAttr _ _ | EItem _ _ | ESlice _ _ _ => true | _ => false end.
Definition augment (ts : list token) : option (binop * list token) :=
  match ts with
  | TOp o :: r =>
    if String.eqb o "+=" then Some (OpAdd, r) else if String.eqb o "-=" then Some (OpSub, r)
    else if String.eqb o "*=" then Some (OpMul, r) else if String.eqb o "/=" then Some (OpDiv, r) else None
  | _ => None
  end.
Definition newl (ts : list token) : option (list token) := match ts with TNewline :: r => Some r | _ => None end.

Fixpoint p_dotted (n : nat) (ts : list token) : option (string * list token) :=
  match n with
  | 0 => None
  | S n => match name ts with
    | Some (x, r) => match op "." r with
      | Some r1 => match p_dotted n r1 with Some (m, r2) => Some ((x ++ "." ++ m)%string, r2) | None => None end
      | None => Some (x, r) end
    | None => None end
  end.
Fixpoint p_names (n : nat) (ts : list token) : option (list string * list token) :=
  match n with
  | 0 => None
  | S n => match name ts with
    | Some (x, r) => match op "," r with
      | Some r1 => match p_names n r1 with Some (xs, r2) => Some (x :: xs, r2) | None => None end
      | None => Some ([x], r) end
    | None => None end
  end.
Definition p_note (o : string) (n : nat) (ts : list token) : option (list token) :=
  match op o ts with
  | Some r => match p n (G Test) r with Some (_, r1) => Some r1 | None => None end
  | None => Some ts
  end.
Definition p_default (n : nat) (ts : list token) : option (option expr * list token) :=
  match op "=" ts with
  | Some r => match p n (G Test) r with Some (e, r1) => Some (Some e, r1) | None => None end
  | None => Some (None, ts)
  end.
Fixpoint p_params (n : nat) (ts : list token) : option (list (string * option expr) * list token) :=
  match n with
  | 0 => None
  | S n =>
    match op ")" ts with
    | Some _ => Some ([], ts)
    | None => match name ts with
      | Some (x, r) => match p_note ":" n r with
        | Some r1 => match p_default n r1 with
          | Some (d, r2) => match op "," r2 with
            | Some r3 => match p_params n r3 with Some (ps, r4) => Some ((x, d) :: ps, r4) | None => None end
            | None => Some ([(x, d)], r2) end
          | None => None end
        | None => None end
      | None => None end
    end
  end.
Definition p_pattern (ts : list token) : option (pattern * list token) :=
  match ts with
  | TName x :: r => if String.eqb x "_" then Some (PWild, r) else None
  | TStr s :: r => Some (PValue (EStr s), r)
  | TInt z :: r => Some (PValue (EInt z), r)
  | _ => None
  end.
Definition p_except (n : nat) (ts : list token) : option (list string * list token) :=
  match op "(" ts with
  | Some r => match p_names n r with
    | Some (xs, r1) => match op ")" r1 with Some r2 => Some (xs, r2) | None => None end
    | None => None end
  | None => match name ts with Some (x, r) => Some ([x], r) | None => None end
  end.
Definition p_as (ts : list token) : option (string * string * list token) :=
  match name ts with
  | Some (n, r) => match word "as" r with
    | Some r1 => match name r1 with Some (x, r2) => Some (n, x, r2) | None => None end
    | None => Some (n, n, r) end
  | None => None
  end.
(* statements of one line *)
Definition p_simple (n : nat) (ts : list token) : option (stmt * list token) :=
  match p n (G Test) ts with
  | Some (a, r) =>
    match op "=" r, augment r with
    | Some r1, _ => match p n (G Test) r1 with Some (e, r2) => match newl r2 with Some r3 => if targetb a then Some (SAssign a e, r3) else None | None => None end | None => None end
    | _, Some (o, r1) => match p n (G Test) r1 with Some (e, r2) => match newl r2 with Some r3 => if targetb a then Some (SAug a o e, r3) else None | None => None end | None => None end
    | _, _ => match newl r with Some r1 => Some (SExpr a, r1) | None => None end
    end
  | None => None
  end.
Definition p_return (n : nat) (ts : list token) : option (stmt * list token) :=
  match newl ts with
  | Some r => Some (SReturn None, r)
  | None => match p n (G Test) ts with Some (e, r) => match newl r with Some r1 => Some (SReturn (Some e), r1) | None => None end | None => None end
  end.
Definition p_raise (n : nat) (ts : list token) : option (stmt * list token) :=
  match p n (G Test) ts with Some (e, r) => match newl r with Some r1 => Some (SRaise e, r1) | None => None end | None => None end.
Definition p_import (n : nat) (ts : list token) : option (stmt * list token) :=
  match ts with
  | TName x :: TNewline :: r => if keyword x then None else Some (SImport x x, r)
  | _ => match p_dotted n ts with
    | Some (m, r) => match word "as" r with
      | Some r1 => match name r1 with
        | Some (x, r2) => match newl r2 with Some r3 => Some (SImport m x, r3) | None => None end
        | None => None end
      | None => None end
    | None => None end
  end.
Definition p_from (pkg : string) (n : nat) (ts : list token) : option (stmt * list token) :=
  let '(here, ts') := match op "." ts with Some r => (true, r) | None => (false, ts) end in
  match p_dotted n ts' with
  | Some (m, r) => match word "import" r with
    | Some r1 => match p_as r1 with
      | Some (x, y, r2) => match newl r2 with Some r3 => Some (SFrom (if here then pkg ++ "." ++ m else m) x y, r3) | None => None end
      | None => None end
    | None => None end
  | None => None
  end.

Fixpoint p_stmt (pkg : string) (n : nat) (ts : list token) {struct n} : option (stmt * list token) :=
  match n with
  | 0 => None
  | S n =>
    match ts with
    | TName w :: r =>
      if String.eqb w "return" then p_return n r
      else if String.eqb w "raise" then p_raise n r
      else if String.eqb w "continue" then match newl r with Some r1 => Some (SContinue, r1) | None => None end
      else if String.eqb w "import" then p_import n r
      else if String.eqb w "from" then p_from pkg n r
      else if String.eqb w "if" then
        match p n (G Test) r with
        | Some (c, r1) => match p_block pkg n r1 with
          | Some (a, r2) => match p_else pkg n r2 with Some (b, r3) => Some (SIf c a b, r3) | None => None end
          | None => None end
        | None => None end
      else if String.eqb w "match" then
        match p n (G Test) r with
        | Some (e, TOp o :: TNewline :: TIndent :: r1) =>
          if String.eqb o ":" then match p_cases pkg n r1 with Some (cs, TDedent :: r2) => Some (SMatch e cs, r2) | _ => None end else None
        | _ => None end
      else if String.eqb w "for" then
        match name r with
        | Some (x, r1) => match word "in" r1 with
          | Some r2 => match p n (G Test) r2 with
            | Some (e, r3) => match p_block pkg n r3 with Some (b, r4) => Some (SFor x e b, r4) | None => None end
            | None => None end
          | None => None end
        | None => None end
      else if String.eqb w "with" then
        match p n (G Test) r with
        | Some (e, r1) => match word "as" r1 with
          | Some r2 => match name r2 with
            | Some (x, r3) => match p_block pkg n r3 with Some (b, r4) => Some (SWith e x b, r4) | None => None end
            | None => None end
          | None => None end
        | None => None end
      else if String.eqb w "try" then
        match p_block pkg n r with
        | Some (b, r1) => match word "except" r1 with
          | Some r2 => match p_except n r2 with
            | Some (xs, r3) => match word "as" r3 with
              | Some r4 => match name r4 with
                | Some (x, r5) => match p_block pkg n r5 with Some (h, r6) => Some (STry b xs x h, r6) | None => None end
                | None => None end
              | None => None end
            | None => None end
          | None => None end
        | None => None end
      else if String.eqb w "def" then
        match name r with
        | Some (f, r1) => match op "(" r1 with
          | Some r2 => match p_params n r2 with
            | Some (ps, r3) => match op ")" r3 with
              | Some r4 => match p_note "->" n r4 with
                | Some r5 => match p_block pkg n r5 with Some (b, r6) => Some (SDef f ps (without_doc b), r6) | None => None end
                | None => None end
              | None => None end
            | None => None end
          | None => None end
        | None => None end
      else if String.eqb w "class" then
        match name r with
        | Some (c, r1) =>
          match op "(" r1 with
          | Some r2 => match op ")" r2 with
            | Some r3 => match p_block pkg n r3 with Some (b, r4) => Some (SClass c (without_doc b), r4) | None => None end
            | None => None end
          | None => match p_block pkg n r1 with Some (b, r2) => Some (SClass c (without_doc b), r2) | None => None end
          end
        | None => None end
      else p_simple n ts
    | _ => p_simple n ts
    end
  end
with p_block (pkg : string) (n : nat) (ts : list token) {struct n} : option (list stmt * list token) :=
  match n with
  | 0 => None
  | S n =>
    match ts with
    | TOp o :: TNewline :: TIndent :: r =>
      if String.eqb o ":" then match p_stmts pkg n r with Some (s :: ss, TDedent :: r1) => Some (s :: ss, r1) | _ => None end else None
    | _ => None
    end
  end
with p_stmts (pkg : string) (n : nat) (ts : list token) {struct n} : option (list stmt * list token) :=
  match n with
  | 0 => None
  | S n =>
    match ts with
    | [] | TDedent :: _ => Some ([], ts)
    | _ => match p_stmt pkg n ts with
      | Some (s, r) => match p_stmts pkg n r with Some (ss, r1) => Some (s :: ss, r1) | None => None end
      | None => None end
    end
  end
(* what may come after the block of if and elif *)
with p_else (pkg : string) (n : nat) (ts : list token) {struct n} : option (list stmt * list token) :=
  match n with
  | 0 => None
  | S n =>
    match word "else" ts, word "elif" ts with
    | Some r, _ => p_block pkg n r
    | _, Some r => match p n (G Test) r with
      | Some (c, r1) => match p_block pkg n r1 with
        | Some (a, r2) => match p_else pkg n r2 with Some (b, r3) => Some ([SIf c a b], r3) | None => None end
        | None => None end
      | None => None end
    | _, _ => Some ([], ts)
    end
  end
with p_cases (pkg : string) (n : nat) (ts : list token) {struct n} : option (list (pattern * list stmt) * list token) :=
  match n with
  | 0 => None
  | S n =>
    match word "case" ts with
    | Some r => match p_pattern r with
      | Some (q, r1) => match p_block pkg n r1 with
        | Some (b, r2) => match word "case" r2 with
          | Some _ => match p_cases pkg n r2 with Some (cs, r3) => Some ((q, b) :: cs, r3) | None => None end
          | None => Some ([(q, b)], r2) end
        | None => None end
      | None => None end
    | None => None end
  end.

Definition parse_python (pkg : string) (text : string) : option pymodule :=
  match tokens text with
  | Some ts => match p_stmts pkg (50 + 2 * List.length ts) ts with Some (b, []) => Some (without_doc b) | _ => None end
  | None => None
  end.
