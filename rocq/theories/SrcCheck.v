(* Checks of the text of the program (Source.v), computed. *)
From Coq Require Import List String Bool.
From Verif Require Import PySyntax PyEval Source.
Import ListNotations.
Open Scope string_scope.
Open Scope list_scope.

(* The interpreter looks names up in the text of a module, without executing its def, class and import
   statements in order, and looks a name up among the globals when no local variable has it.  That is what
   Python does for a text that passes these checks. *)
Fixpoint distinct_names (l : list string) : bool := match l with [] => true | x :: l' => negb (existsb (String.eqb x) l') && distinct_names l' end.
Definition bound (c : stmt) : list string :=
  match c with
  | SDef f _ _ => [f] | SClass c _ => [c] | SImport _ y => [y] | SFrom _ _ y => [y] | SAssign (EName x) _ => [x] | _ => []
  end.
(* variables that a statement of a function assigns *)
Fixpoint assigned (c : stmt) : list string :=
  let block := fix block (cs : list stmt) : list string := match cs with [] => [] | c :: cs' => assigned c ++ block cs' end in
  match c with
  | SAssign (EName x) _ | SAug (EName x) _ _ => [x]
  | SIf _ a b => block a ++ block b
  | SMatch _ cases => (fix all (cs : list (pattern * list stmt)) : list string := match cs with [] => [] | (_, b) :: cs' => block b ++ all cs' end) cases
  | SFor x _ b | SWith _ x b => x :: block b
  | STry b _ x h => block b ++ x :: block h
  | _ => []
  end.
Fixpoint names_in (e : expr) : list string :=
  let all := fix all (es : list expr) : list string := match es with [] => [] | e :: es' => names_in e ++ all es' end in
  match e with
  | EName x => [x]
  | EAttr e _ | ENeg e | ENot e => names_in e
  | EItem a b | EBin _ a b | EAnd a b | EOr a b | ECmp _ a b => names_in a ++ names_in b
  | ESlice a lo hi => names_in a ++ (match lo with Some e => names_in e | None => [] end) ++ (match hi with Some e => names_in e | None => [] end)
  | ECall f args kws => names_in f ++ all args ++ (fix kw (es : list (string * expr)) : list string := match es with [] => [] | (_, e) :: es' => names_in e ++ kw es' end) kws
  | EIfExp a b c => names_in a ++ names_in b ++ names_in c
  | EList l | ETuple l | EFString l => all l
  | EDict l => (fix ps (es : list (expr * expr)) : list string := match es with [] => [] | (a, b) :: es' => names_in a ++ names_in b ++ ps es' end) l
  | _ => []
  end.
Definition none_of (a b : list string) : bool := forallb (fun x => negb (existsb (String.eqb x) b)) a.
Definition all_of (a b : list string) : bool := forallb (fun x => existsb (String.eqb x) b) a.
Definition params_of (ps : list (string * option expr)) : list string := map fst ps.
(* a function assigns no name that is also a global or builtin, apart from its parameters *)
Definition locals_apart (globals : list string) (c : stmt) : bool :=
  match c with
  | SDef _ ps b =>
      distinct_names (params_of ps) &&
      none_of (filter (fun x => negb (existsb (String.eqb x) (params_of ps))) (flat_map assigned b)) (globals ++ builtins)
  | SClass _ b => forallb (fun c => match c with
      | SDef _ ps b =>
          distinct_names (params_of ps) &&
          none_of (filter (fun x => negb (existsb (String.eqb x) (params_of ps))) (flat_map assigned b)) (globals ++ builtins)
      | SAssign (EName _) e => match const e with Some _ => true | None => false end
      | _ => false
      end) b && distinct_names (flat_map bound b)
  | _ => true
  end.
(* the statements of a module use only names bound before, and import only modules imported before or of Python's library *)
Fixpoint in_order (before : list string) (all_modules before_names : list string) (b : list stmt) : bool :=
  match b with
  | [] => true
  | c :: b' =>
      match c with
      | SAssign t e => all_of (names_in e) (before_names ++ builtins) && match t with EName _ => true | _ => all_of (names_in t) before_names end
      | SExpr e => all_of (names_in e) (before_names ++ builtins)
      | SImport n _ | SFrom n _ _ => existsb (String.eqb n) before || negb (existsb (String.eqb n) all_modules)
      | SDef _ _ _ | SClass _ _ => true
      | _ => false
      end && in_order before all_modules (bound c ++ before_names) b'
  end.
Fixpoint modules_ok (before all_modules : list string) (ms : list (string * pymodule)) : bool :=
  match ms with
  | [] => true
  | (m, b) :: ms' =>
      distinct_names (flat_map bound b) && forallb (locals_apart (flat_map bound b)) b && in_order before all_modules [] b &&
      modules_ok (m :: before) all_modules ms'
  end.
Definition text_ok (ms : list (string * pymodule)) : bool := distinct_names (map fst ms) && modules_ok [] (map fst ms) ms.
Lemma source_ok : text_ok source = true.
Proof. vm_compute. reflexivity. Qed.
