(* The grammar of the part of Python the package is written in, after the full grammar specification of the Python Language
   Reference: which trees of PySyntax.v a sequence of tokens stands for.  Left out of the trees: docstrings, annotations.
   More restricted than Python: match and case are reserved, comparisons are not chained, one target per assignment, one
   handler per try, one name per import. *)
From Coq Require Import List String ZArith.
From Verif Require Import PySyntax PyLex.
Import ListNotations.
Local Open Scope string_scope.
Local Open Scope list_scope.

Definition keywords : list string := [
  "False"; "None"; "True"; "and"; "as"; "assert"; "async"; "await"; "break"; "class"; "continue"; "def"; "del"; "elif"; "else"; "except"; "finally"; "for"; "from";
  "global"; "if"; "import"; "in"; "is"; "lambda"; "nonlocal"; "not"; "or"; "pass"; "raise"; "return"; "try"; "while"; "with"; "yield"; "match"; "case"].
Definition identifier (x : string) : Prop := ~ In x keywords.

Inductive level := Test | Or | And | Not | Cmp | Sum | Term | Factor | Prim | Atom.
Definition comparisons : list (cmpop * list token) := [
  (CmpEq, [TOp "=="]); (CmpNe, [TOp "!="]); (CmpGt, [TOp ">"]); (CmpGe, [TOp ">="]); (CmpIs, [TName "is"]); (CmpIn, [TName "in"]); (CmpNotIn, [TName "not"; TName "in"])].

(* expressions, from the loosest binding to the tightest *)
Inductive gr : level -> list token -> expr -> Prop :=
| gr_test : forall ts e, gr Or ts e -> gr Test ts e
| gr_if : forall t1 t2 t3 a c b, gr Or t1 a -> gr Or t2 c -> gr Test t3 b -> gr Test (t1 ++ TName "if" :: t2 ++ TName "else" :: t3) (EIfExp c a b)
| gr_or1 : forall ts e, gr And ts e -> gr Or ts e
| gr_or : forall t1 t2 a b, gr And t1 a -> gr Or t2 b -> gr Or (t1 ++ TName "or" :: t2) (EOr a b)
| gr_and1 : forall ts e, gr Not ts e -> gr And ts e
| gr_and : forall t1 t2 a b, gr Not t1 a -> gr And t2 b -> gr And (t1 ++ TName "and" :: t2) (EAnd a b)
| gr_not1 : forall ts e, gr Cmp ts e -> gr Not ts e
| gr_not : forall ts e, gr Not ts e -> gr Not (TName "not" :: ts) (ENot e)
| gr_cmp1 : forall ts e, gr Sum ts e -> gr Cmp ts e
| gr_cmp : forall t1 o t2 op a b, gr Sum t1 a -> gr Sum t2 b -> In (op, o) comparisons -> gr Cmp (t1 ++ o ++ t2) (ECmp op a b)
| gr_sum1 : forall ts e, gr Term ts e -> gr Sum ts e
| gr_add : forall t1 t2 a b, gr Sum t1 a -> gr Term t2 b -> gr Sum (t1 ++ TOp "+" :: t2) (EBin OpAdd a b)
| gr_sub : forall t1 t2 a b, gr Sum t1 a -> gr Term t2 b -> gr Sum (t1 ++ TOp "-" :: t2) (EBin OpSub a b)
| gr_term1 : forall ts e, gr Factor ts e -> gr Term ts e
| gr_mul : forall t1 t2 a b, gr Term t1 a -> gr Factor t2 b -> gr Term (t1 ++ TOp "*" :: t2) (EBin OpMul a b)
| gr_div : forall t1 t2 a b, gr Term t1 a -> gr Factor t2 b -> gr Term (t1 ++ TOp "/" :: t2) (EBin OpDiv a b)
| gr_factor1 : forall ts e, gr Prim ts e -> gr Factor ts e
| gr_neg : forall ts e, gr Factor ts e -> gr Factor (TOp "-" :: ts) (ENeg e)
| gr_prim1 : forall ts e, gr Atom ts e -> gr Prim ts e
| gr_attr : forall ts e x, gr Prim ts e -> identifier x -> gr Prim (ts ++ [TOp "."; TName x]) (EAttr e x)
| gr_call : forall ts us e args kws, gr Prim ts e -> gr_args us args kws -> gr Prim (ts ++ TOp "(" :: us ++ [TOp ")"]) (ECall e args kws)
| gr_item : forall ts us e i, gr Prim ts e -> gr Test us i -> gr Prim (ts ++ TOp "[" :: us ++ [TOp "]"]) (EItem e i)
| gr_slice : forall ts us vs e lo hi, gr Prim ts e -> gr_opt us lo -> gr_opt vs hi -> gr Prim (ts ++ TOp "[" :: us ++ TOp ":" :: vs ++ [TOp "]"]) (ESlice e lo hi)
| gr_name : forall x, identifier x -> gr Atom [TName x] (EName x)
| gr_true : gr Atom [TName "True"] (EBool true)
| gr_false : gr Atom [TName "False"] (EBool false)
| gr_none : gr Atom [TName "None"] ENone
| gr_int : forall z, gr Atom [TInt z] (EInt z)
| gr_str : forall s, gr Atom [TStr s] (EStr s)
| gr_fstr : forall ps es, gr_parts ps es -> gr Atom [TFStr ps] (EFString es)
| gr_paren : forall ts e, gr Test ts e -> gr Atom (TOp "(" :: ts ++ [TOp ")"]) e
| gr_unit : gr Atom [TOp "("; TOp ")"] (ETuple [])
| gr_tuple : forall ts us e es, gr Test ts e -> gr_items us es -> gr Atom (TOp "(" :: ts ++ TOp "," :: us ++ [TOp ")"]) (ETuple (e :: es))
| gr_list : forall us es, gr_items us es -> gr Atom (TOp "[" :: us ++ [TOp "]"]) (EList es)
| gr_dict : forall us ps, gr_pairs us ps -> gr Atom (TOp "{" :: us ++ [TOp "}"]) (EDict ps)
(* a list separated by commas, perhaps with one at its end *)
with gr_items : list token -> list expr -> Prop :=
| items_nil : gr_items [] []
| items_one : forall ts e, gr Test ts e -> gr_items ts [e]
| items_cons : forall ts us e es, gr Test ts e -> gr_items us es -> gr_items (ts ++ TOp "," :: us) (e :: es)
with gr_pairs : list token -> list (expr * expr) -> Prop :=
| pairs_nil : gr_pairs [] []
| pairs_one : forall ts us k v, gr Test ts k -> gr Test us v -> gr_pairs (ts ++ TOp ":" :: us) [(k, v)]
| pairs_cons : forall ts us vs k v ps, gr Test ts k -> gr Test us v -> gr_pairs vs ps -> gr_pairs (ts ++ TOp ":" :: us ++ TOp "," :: vs) ((k, v) :: ps)
(* arguments: by position, then by name *)
with gr_args : list token -> list expr -> list (string * expr) -> Prop :=
| args_kws : forall ts ks, gr_kws ts ks -> gr_args ts [] ks
| args_one : forall ts e, gr Test ts e -> gr_args ts [e] []
| args_cons : forall ts us e es ks, gr Test ts e -> gr_args us es ks -> gr_args (ts ++ TOp "," :: us) (e :: es) ks
with gr_kws : list token -> list (string * expr) -> Prop :=
| kws_nil : gr_kws [] []
| kws_one : forall x ts e, identifier x -> gr Test ts e -> gr_kws (TName x :: TOp "=" :: ts) [(x, e)]
| kws_cons : forall x ts us e ks, identifier x -> gr Test ts e -> gr_kws us ks -> gr_kws (TName x :: TOp "=" :: ts ++ TOp "," :: us) ((x, e) :: ks)
with gr_opt : list token -> option expr -> Prop :=
| opt_none : gr_opt [] None
| opt_some : forall ts e, gr Test ts e -> gr_opt ts (Some e)
with gr_parts : list fpart -> list expr -> Prop :=
| parts_nil : gr_parts [] []
| parts_text : forall s ps es, gr_parts ps es -> gr_parts (FText s :: ps) (EStr s :: es)
| parts_expr : forall ts ps e es, gr Test ts e -> gr_parts ps es -> gr_parts (FExpr ts :: ps) (e :: es).

(* what can be assigned to *)
Definition target (e : expr) : Prop := match e with EName _ | EAttr _ _ | EItem _ _ | ESlice _ _ _ => True | _ => False end.
Definition augmented : list (binop * string) := [(OpAdd, "+="); (OpSub, "-="); (OpMul, "*="); (OpDiv, "/=")].

Inductive gr_dotted : list token -> string -> Prop :=
| dotted_one : forall x, identifier x -> gr_dotted [TName x] x
| dotted_cons : forall x ts m, identifier x -> gr_dotted ts m -> gr_dotted (TName x :: TOp "." :: ts) (x ++ "." ++ m).
Inductive gr_names : list token -> list string -> Prop :=
| names_one : forall x, identifier x -> gr_names [TName x] [x]
| names_cons : forall x ts xs, identifier x -> gr_names ts xs -> gr_names (TName x :: TOp "," :: ts) (x :: xs).
(* annotations *)
Inductive gr_note (o : string) : list token -> Prop :=
| note_none : gr_note o []
| note_some : forall ts e, gr Test ts e -> gr_note o (TOp o :: ts).
Inductive gr_params : list token -> list (string * option expr) -> Prop :=
| params_nil : gr_params [] []
| params_one : forall x ns ts d, identifier x -> gr_note ":" ns -> gr_default ts d -> gr_params (TName x :: ns ++ ts) [(x, d)]
| params_cons : forall x ns ts us d ps, identifier x -> gr_note ":" ns -> gr_default ts d -> gr_params us ps -> gr_params (TName x :: ns ++ ts ++ TOp "," :: us) ((x, d) :: ps)
with gr_default : list token -> option expr -> Prop :=
| default_none : gr_default [] None
| default_some : forall ts e, gr Test ts e -> gr_default (TOp "=" :: ts) (Some e).
Inductive gr_pattern : list token -> pattern -> Prop :=
| pattern_any : gr_pattern [TName "_"] PWild
| pattern_str : forall s, gr_pattern [TStr s] (PValue (EStr s))
| pattern_int : forall z, gr_pattern [TInt z] (PValue (EInt z)).
Inductive gr_except : list token -> list string -> Prop :=
| except_one : forall x, identifier x -> gr_except [TName x] [x]
| except_many : forall ts xs, gr_names ts xs -> gr_except (TOp "(" :: ts ++ [TOp ")"]) xs.
Inductive gr_as : list token -> string -> string -> Prop :=
| as_same : forall n, identifier n -> gr_as [TName n] n n
| as_other : forall n x, identifier n -> identifier x -> gr_as [TName n; TName "as"; TName x] n x.

(* a text on its own at the start of a module, class or function is its documentation *)
Definition without_doc (b : list stmt) : list stmt := match b with SExpr (EStr _) :: b' => b' | _ => b end.

(* statements; pkg is the package that relative imports start from *)
Inductive gr_stmt (pkg : string) : list token -> stmt -> Prop :=
| stmt_expr : forall ts e, gr Test ts e -> gr_stmt pkg (ts ++ [TNewline]) (SExpr e)
| stmt_assign : forall ts us a e, gr Test ts a -> target a -> gr Test us e -> gr_stmt pkg (ts ++ TOp "=" :: us ++ [TNewline]) (SAssign a e)
| stmt_aug : forall ts us a op o e, gr Test ts a -> target a -> In (op, o) augmented -> gr Test us e -> gr_stmt pkg (ts ++ TOp o :: us ++ [TNewline]) (SAug a op e)
| stmt_return0 : gr_stmt pkg [TName "return"; TNewline] (SReturn None)
| stmt_return : forall ts e, gr Test ts e -> gr_stmt pkg (TName "return" :: ts ++ [TNewline]) (SReturn (Some e))
| stmt_raise : forall ts e, gr Test ts e -> gr_stmt pkg (TName "raise" :: ts ++ [TNewline]) (SRaise e)
| stmt_continue : gr_stmt pkg [TName "continue"; TNewline] SContinue
| stmt_import : forall x, identifier x -> gr_stmt pkg [TName "import"; TName x; TNewline] (SImport x x)
| stmt_import_as : forall ts m x, gr_dotted ts m -> identifier x -> gr_stmt pkg (TName "import" :: ts ++ [TName "as"; TName x; TNewline]) (SImport m x)
| stmt_from : forall ts us m n x, gr_dotted ts m -> gr_as us n x -> gr_stmt pkg (TName "from" :: ts ++ TName "import" :: us ++ [TNewline]) (SFrom m n x)
| stmt_from_here : forall ts us m n x, gr_dotted ts m -> gr_as us n x -> gr_stmt pkg (TName "from" :: TOp "." :: ts ++ TName "import" :: us ++ [TNewline]) (SFrom (pkg ++ "." ++ m) n x)
| stmt_if : forall ts us vs c a b, gr Test ts c -> gr_block pkg us a -> gr_else pkg vs b -> gr_stmt pkg (TName "if" :: ts ++ us ++ vs) (SIf c a b)
| stmt_match : forall ts us e cs, gr Test ts e -> gr_cases pkg us cs -> gr_stmt pkg (TName "match" :: ts ++ TOp ":" :: TNewline :: TIndent :: us ++ [TDedent]) (SMatch e cs)
| stmt_for : forall x ts us e b, identifier x -> gr Test ts e -> gr_block pkg us b -> gr_stmt pkg (TName "for" :: TName x :: TName "in" :: ts ++ us) (SFor x e b)
| stmt_with : forall ts x us e b, gr Test ts e -> identifier x -> gr_block pkg us b -> gr_stmt pkg (TName "with" :: ts ++ TName "as" :: TName x :: us) (SWith e x b)
| stmt_try : forall ts us vs x b xs h, gr_block pkg ts b -> gr_except us xs -> identifier x -> gr_block pkg vs h ->
    gr_stmt pkg (TName "try" :: ts ++ TName "except" :: us ++ TName "as" :: TName x :: vs) (STry b xs x h)
| stmt_def : forall f ts us vs ps b, identifier f -> gr_params ts ps -> gr_note "->" us -> gr_block pkg vs b ->
    gr_stmt pkg (TName "def" :: TName f :: TOp "(" :: ts ++ TOp ")" :: us ++ vs) (SDef f ps (without_doc b))
| stmt_class0 : forall c ts b, identifier c -> gr_block pkg ts b -> gr_stmt pkg (TName "class" :: TName c :: ts) (SClass c (without_doc b))
| stmt_class : forall c ts b, identifier c -> gr_block pkg ts b -> gr_stmt pkg (TName "class" :: TName c :: TOp "(" :: TOp ")" :: ts) (SClass c (without_doc b))
with gr_block (pkg : string) : list token -> list stmt -> Prop :=
| block_indented : forall ts s ss, gr_stmts pkg ts (s :: ss) -> gr_block pkg (TOp ":" :: TNewline :: TIndent :: ts ++ [TDedent]) (s :: ss)
with gr_stmts (pkg : string) : list token -> list stmt -> Prop :=
| stmts_nil : gr_stmts pkg [] []
| stmts_cons : forall ts us s ss, gr_stmt pkg ts s -> gr_stmts pkg us ss -> gr_stmts pkg (ts ++ us) (s :: ss)
with gr_else (pkg : string) : list token -> list stmt -> Prop :=
| else_none : gr_else pkg [] []
| else_else : forall ts b, gr_block pkg ts b -> gr_else pkg (TName "else" :: ts) b
| else_elif : forall ts us vs c a b, gr Test ts c -> gr_block pkg us a -> gr_else pkg vs b -> gr_else pkg (TName "elif" :: ts ++ us ++ vs) [SIf c a b]
with gr_cases (pkg : string) : list token -> list (pattern * list stmt) -> Prop :=
| cases_one : forall ts us p b, gr_pattern ts p -> gr_block pkg us b -> gr_cases pkg (TName "case" :: ts ++ us) [(p, b)]
| cases_cons : forall ts us vs p b cs, gr_pattern ts p -> gr_block pkg us b -> gr_cases pkg vs cs -> gr_cases pkg (TName "case" :: ts ++ us ++ vs) ((p, b) :: cs).

(* a file: its characters, their tokens, the statements *)
Definition module_text (pkg : string) (text : string) (m : pymodule) : Prop :=
  exists ts b, tokens text = Some ts /\ gr_stmts pkg ts b /\ m = without_doc b.
