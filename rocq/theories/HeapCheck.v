(* What the text of a program must satisfy for PyEval.v and PyHeap.v to agree on it; computed for the package. *)
From Coq Require Import List String Bool.
From Verif Require Import PySyntax PyEval SrcCheck PyHeap Source.
Import ListNotations.
Open Scope string_scope.
Open Scope list_scope.

Definition has (l : list string) (x : string) : bool := existsb (String.eqb x) l.
(* variables whose object an expression may change: receivers of methods and variables with an index *)
Fixpoint touched (e : expr) : list string :=
  let all := fix all (es : list expr) : list string := match es with [] => [] | e :: es' => touched e ++ all es' end in
  match e with
  | EAttr e _ | ENeg e | ENot e => touched e
  | EItem c i => (match c with EName x => [x] | _ => [] end) ++ touched c ++ touched i
  | EBin _ a b | EAnd a b | EOr a b | ECmp _ a b => touched a ++ touched b
  | ESlice a lo hi => touched a ++ (match lo with Some e => touched e | None => [] end) ++ (match hi with Some e => touched e | None => [] end)
  | ECall f args kws =>
      (match f with EAttr (EName x) _ => [x] | _ => [] end) ++ touched f ++ all args ++
      (fix kw (es : list (string * expr)) : list string := match es with [] => [] | (_, e) :: es' => touched e ++ kw es' end) kws
  | EIfExp a b c => touched a ++ touched b ++ touched c
  | EList l | ETuple l | EFString l => all l
  | EDict l => (fix ps (es : list (expr * expr)) : list string := match es with [] => [] | (a, b) :: es' => touched a ++ touched b ++ ps es' end) l
  | _ => []
  end.
Definition touched_all (es : list expr) : list string := flat_map touched es.
Definition touched_kws (es : list (string * expr)) : list string := flat_map (fun p => touched (snd p)) es.

Section Check.
(* the variables of all modules *)
Variable gn : list string.
(* a plain name among the arguments is no variable of a module, and is not changed by an argument to its right *)
Fixpoint args_ok (es : list expr) (later : list string) : bool :=
  match es with
  | [] => true
  | e :: es' => match e with EName x => negb (has gn x) && negb (has (touched_all es' ++ later) x) | _ => true end && args_ok es' later
  end.
(* an index that cannot raise an exception *)
Fixpoint calm (e : expr) : bool := match e with EInt _ | EStr _ | EName _ => true | EAttr e _ => calm e | _ => false end.
Fixpoint eok (e : expr) : bool :=
  let all := fix all (es : list expr) : bool := match es with [] => true | e :: es' => eok e && all es' end in
  match e with
  | EAttr e a => eok e && negb (has gn a)
  | ENeg e | ENot e => eok e
  | EItem a b => eok a && eok b && match a with EName _ => calm b | _ => true end
  | EBin _ a b | EAnd a b | EOr a b | ECmp _ a b => eok a && eok b
  | ESlice a lo hi => eok a && (match lo with Some e => eok e | None => true end) && (match hi with Some e => eok e | None => true end)
  | ECall f args kws =>
      eok f && all args && (fix kw (es : list (string * expr)) : bool := match es with [] => true | (_, e) :: es' => eok e && kw es' end) kws &&
      args_ok args (touched_kws kws)
  | EIfExp a b c => eok a && eok b && eok c
  | EList l | ETuple l | EFString l => all l
  | EDict l => (fix ps (es : list (expr * expr)) : bool := match es with [] => true | (a, b) :: es' => eok a && eok b && ps es' end) l
  | _ => true
  end.
(* the names bound by the module, the parameters of the function *)
Variable bnd pn : list string.
Fixpoint sok (c : stmt) : bool :=
  let block := fix block (cs : list stmt) : bool := match cs with [] => true | c :: cs' => sok c && block cs' end in
  match c with
  | SExpr e | SReturn (Some e) | SRaise e => eok e
  | SAssign t e => eok e && match t with EItem _ i => eok i && calm i | _ => true end
  | SAug _ _ e => eok e
  | SIf e a b => eok e && block a && block b
  | SMatch e cases => eok e && (fix all (cs : list (pattern * list stmt)) : bool := match cs with [] => true | (_, b) :: cs' => block b && all cs' end) cases
  | SFor _ e b => eok e && block b
  | SWith e x b =>
      eok e && (match e with ECall (EName f) _ _ => String.eqb f "open" && negb (has bnd "open") | _ => false end) && negb (has pn x) && block b
  | STry b _ x h => negb (has pn x) && block b && block h
  | _ => true
  end.
End Check.
Definition fn_ok (gn bnd : list string) (ps : list (string * option expr)) (body : list stmt) : bool :=
  distinct_names (map fst ps) && none_of (local_names ps body) (bnd ++ builtins) && forallb (sok gn bnd (map fst ps)) body.
Definition def_ok (gn bnd : list string) (c : stmt) : bool := match c with SDef _ ps body => fn_ok gn bnd ps body | _ => true end.
Definition variables (b : list stmt) : list string := flat_map (fun c => match c with SAssign (EName x) _ => [x] | _ => [] end) b.
Definition prog_ok (prog : list (string * pymodule)) : bool :=
  let gn := flat_map (fun mb => variables (snd mb)) prog in
  forallb (fun mb => let bnd := flat_map bound (snd mb) in
    forallb (fun c => def_ok gn bnd c && match c with SClass _ cb => forallb (def_ok gn bnd) cb | _ => true end) (snd mb)) prog.
Lemma source_prog_ok : prog_ok source = true.
Proof. vm_compute. reflexivity. Qed.
