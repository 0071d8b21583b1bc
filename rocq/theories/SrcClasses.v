(* The classes of definitions/ in the source read a line as the model's cls_read does. *)
From Coq Require Import List String NArith ZArith Bool Lia.
From Verif Require Import PyBase PyRepr StrFacts DecoderTables Decoder Layouts Json Record Api Utf8 PySyntax PyEval FnNum SrcDecoder Source SrcFacts SrcStart.
Import ListNotations.
Open Scope string_scope.
Open Scope list_scope.
Local Open Scope nat_scope.

(* ---- lists of fields ---- *)
Definition nat_of (z : Z) : option nat := if Z.geb z 0 then Some (Z.to_nat z) else None.
Definition is_r (e : expr) : bool := match e with EName x => String.eqb x "r" | _ => false end.
Definition is_self (e : expr) : bool := match e with EName x => String.eqb x "self" | _ => false end.
Fixpoint src_of (attrs : list (string * value)) (e : expr) : option src :=
  match e with
  | EItem v (EInt z) => if is_r v then option_map At (nat_of z) else None
  | ESlice v (Some (EInt a)) (Some (EInt b)) =>
      if is_r v then match nat_of a, nat_of b with Some i, Some j => Some (Sl i j) | _, _ => None end else None
  | EBin OpAdd (EItem v (EInt a)) (EItem w (EInt b)) =>
      if is_r v && is_r w then match nat_of a, nat_of b with Some i, Some j => Some (AtAt i j) | _, _ => None end else None
  | EIfExp (ECmp CmpIs (EAttr v x) (EBool true)) a b =>
      if is_self v then match get x attrs with Some (VBool t) => if t then src_of attrs a else src_of attrs b | _ => None end else None
  | _ => None
  end.
Definition name_of (attrs : list (string * value)) (e : expr) : option str :=
  match e with
  | EStr t => Some (lit t)
  | EAttr v x => if is_self v then match get x attrs with Some (VStr t) => Some t | _ => None end else None
  | _ => None
  end.
Definition fn_of (x : string) : option fn := find (fun f => String.eqb x (fn_name f)) all_fns.
Definition row_of (attrs : list (string * value)) (e : expr) : option row :=
  match e with
  | ECall (EName y) [n; s; EAttr (EName x) d] [] =>
      if String.eqb y "Field" && String.eqb x "decoder" then
        match name_of attrs n, src_of attrs s, fn_of d with
        | Some n, Some s, Some f => Some (Row n s f)
        | _, _, _ => None
        end
      else None
  | _ => None
  end.
Fixpoint rows_of (attrs : list (string * value)) (es : list expr) : option (list row) :=
  match es with
  | [] => Some []
  | e :: es' => match row_of attrs e, rows_of attrs es' with Some w, Some ws => Some (w :: ws) | _, _ => None end
  end.
Definition out_of_range (e : exn) : exc := Exc e (Some (lit "string index out of range")).
(* the local variables of a method that reads the line r *)
Definition reading (self : value) (r : str) (tl : locals) : locals := ("self", (KRef, self)) :: ("r", (KRef, VStr r)) :: tl.

Lemma nat_of_inv : forall z i, nat_of z = Some i -> Z.geb z 0 = true /\ Z.to_nat z = i.
Proof. intros z i. unfold nat_of. destruct (Z.geb z 0); [intro H; injection H as <-; auto|discriminate]. Qed.
Lemma eval_item : forall files rn m self r tl z i o g kx k, nat_of z = Some i ->
  eval source files rn m (EItem (EName "r") (EInt z)) (St (reading self r tl) o g) kx k =
  match index r i with Ok c => k (VStr c) (St (reading self r tl) o g) | Err e => kx (out_of_range e) (St (reading self r tl) o g) end.
Proof.
  intros files rn m self r tl z i o g kx k H. apply nat_of_inv in H. destruct H as [H <-].
  cbn [eval eval_obj]. lazy beta iota delta [or_stuck name_value get loc option_map fst snd String.eqb Ascii.eqb Bool.eqb get_item reading]. rewrite H.
  destruct (index r (Z.to_nat z)); reflexivity.
Qed.
Lemma is_r_eq : forall e, is_r e = true -> e = EName "r".
Proof. intros e H. destruct e; try discriminate. apply String.eqb_eq in H. subst. reflexivity. Qed.
Lemma is_self_eq : forall e, is_self e = true -> e = EName "self".
Proof. intros e H. destruct e; try discriminate. apply String.eqb_eq in H. subst. reflexivity. Qed.
Lemma eval_src_of : forall attrs files rn m c r tl o g kx e s k, src_of attrs e = Some s ->
  eval source files rn m e (St (reading (VInst m c attrs) r tl) o g) kx k =
  match eval_src r s with
  | Ok t => k (VStr t) (St (reading (VInst m c attrs) r tl) o g)
  | Err x => kx (out_of_range x) (St (reading (VInst m c attrs) r tl) o g)
  end.
Proof.
  intros attrs files rn m c r tl o g kx. fix IH 1. intros e s k.
  destruct e; try discriminate; cbn [src_of].
  - (* r[i] *)
    destruct e2; try discriminate. destruct (is_r e1) eqn:R; [|discriminate]. apply is_r_eq in R. subst e1.
    destruct (nat_of z) as [i|] eqn:E; [|discriminate]. intro H. injection H as <-. exact (eval_item files rn m _ r tl z i o g kx k E).
  - (* r[i:j] *)
    destruct lo as [lo|]; [|discriminate]. destruct lo; try discriminate. destruct hi as [hi|]; [|discriminate]. destruct hi; try discriminate.
    destruct (is_r e) eqn:R; [|discriminate]. apply is_r_eq in R. subst e.
    destruct (nat_of z) as [i|] eqn:E; [|discriminate]. destruct (nat_of z0) as [j|] eqn:F; [|discriminate]. intro H. injection H as <-.
    apply nat_of_inv in E. apply nat_of_inv in F. destruct E as [E <-]. destruct F as [F <-].
    cbn [eval eval_obj]. lazy beta iota delta [or_stuck name_value get loc option_map fst snd String.eqb Ascii.eqb Bool.eqb reading mutable py_slice]. rewrite E, F. reflexivity.
  - (* r[i] + r[j] *)
    destruct op; try discriminate. destruct e1 as [| | | | | |v i| | | | | | | | | | | | |]; try discriminate. destruct i; try discriminate.
    destruct e2 as [| | | | | |w i| | | | | | | | | | | | |]; try discriminate. destruct i; try discriminate.
    destruct (is_r v) eqn:R; [|discriminate]. apply is_r_eq in R. subst v. destruct (is_r w) eqn:R; [|discriminate]. apply is_r_eq in R. subst w. cbn [andb].
    destruct (nat_of z) as [i|] eqn:E; [|discriminate]. destruct (nat_of z0) as [j|] eqn:F; [|discriminate]. intro H. injection H as <-.
    cbn [eval_src]. unfold bindR.
    change (eval source files rn m (EItem (EName "r") (EInt z)) (St (reading (VInst m c attrs) r tl) o g) kx
      (fun x s => eval source files rn m (EItem (EName "r") (EInt z0)) s kx (fun y s => or_stuck "operator" (binary OpAdd x y) (fun r => k r s))) = 
      match match index r i with Ok x => match index r j with Ok y => Ok (x ++ y) | Err e => Err e end | Err e => Err e end with
      | Ok t => k (VStr t) (St (reading (VInst m c attrs) r tl) o g)
      | Err x => kx (out_of_range x) (St (reading (VInst m c attrs) r tl) o g)
      end).
    rewrite (eval_item _ _ _ _ _ _ _ _ _ _ _ _ E). destruct (index r i); [|reflexivity]. rewrite (eval_item _ _ _ _ _ _ _ _ _ _ _ _ F). destruct (index r j); reflexivity.
  - (* a if self.x is True else b *)
    destruct e1; try discriminate. destruct op; try discriminate. destruct e1_1; try discriminate. destruct e1_2; try discriminate. destruct b; try discriminate.
    destruct (is_self e1_1) eqn:S; [|discriminate]. apply is_self_eq in S. subst e1_1.
    destruct (get a attrs) as [[]|] eqn:G; try discriminate. intro H.
    cbn [eval eval_obj]. lazy beta iota delta [name_value get loc option_map fst snd String.eqb Ascii.eqb Bool.eqb reading or_stuck getattr]. unfold inst_attr. rewrite G.
    cbn [compare py_is truth]. destruct b; cbn [Bool.eqb]; cbn beta iota; apply (IH _ s k H).
Qed.
Lemma eval_name_of : forall attrs files rn m c r tl o g kx e t k, name_of attrs e = Some t ->
  eval source files rn m e (St (reading (VInst m c attrs) r tl) o g) kx k = k (VStr t) (St (reading (VInst m c attrs) r tl) o g).
Proof.
  intros attrs files rn m c r tl o g kx e t k. destruct e; try discriminate; cbn [name_of].
  - intro H. injection H as <-. reflexivity.
  - destruct (is_self e) eqn:S; [|discriminate]. apply is_self_eq in S. subst e. destruct (get a attrs) as [[]|] eqn:G; try discriminate. intro H. injection H as <-.
    cbn [eval eval_obj]. lazy beta iota delta [name_value get loc option_map fst snd String.eqb Ascii.eqb Bool.eqb reading or_stuck getattr]. unfold inst_attr. rewrite G. reflexivity.
Qed.
(* the modules that import Field and decoder *)
Definition has_decoder (m : string) (tl : locals) : Prop :=
  get "Field" tl = None /\ get "decoder" tl = None /\
  static source m (module_body source m) "Field" = Some (VClass "arinc424.decoder" "Field") /\
  static source m (module_body source m) "decoder" = Some (VMod "arinc424.decoder").
Lemma static_fn : forall f, static source "arinc424.decoder" py_decoder (fn_name f) = Some (VFun "arinc424.decoder" (fn_name f)).
Proof. intro f. destruct f; vm_compute; reflexivity. Qed.
Lemma fn_of_name : forall x f, fn_of x = Some f -> x = fn_name f.
Proof. intros x f H. apply find_some in H. apply String.eqb_eq. apply H. Qed.
Lemma eval_decoder : forall files rn m self r tl o g kx f k, has_decoder m tl ->
  eval source files rn m (EAttr (EName "decoder") (fn_name f)) (St (reading self r tl) o g) kx k = k (VFun "arinc424.decoder" (fn_name f)) (St (reading self r tl) o g).
Proof.
  intros files rn m self r tl o g kx f k [_ [G [_ H]]]. cbn [eval eval_obj].
  assert (E : name_value source m "decoder" (St (reading self r tl) o g) = Some (VMod "arinc424.decoder")).
  { unfold name_value. cbn [loc reading get String.eqb Ascii.eqb Bool.eqb]. rewrite G. unfold global. rewrite H. reflexivity. }
  rewrite E. unfold or_stuck at 1, getattr, mod_attr. change (get "arinc424.decoder" source) with (Some py_decoder). cbv beta iota. rewrite static_fn. reflexivity.
Qed.
Lemma field_init : find_def (class_body source "arinc424.decoder" "Field") "__init__" =
  Some ([("self", None); ("name", None); ("value", None); ("decode_fn", None)],
    [SAssign (EAttr (EName "self") "name") (EName "name"); SAssign (EAttr (EName "self") "value") (EName "value");
     SAssign (EAttr (EName "self") "decode_fn") (EName "decode_fn")]).
Proof. reflexivity. Qed.
Lemma set_attr : forall files rn m x y a n c attrs kd v l o g kx kr kc k,
  get x l = Some (kd, VInst n c attrs) -> writable kd = true -> (exists ky, get y l = Some (ky, v)) -> mutable v = false ->
  exec source files rn m false (SAssign (EAttr (EName x) a) (EName y)) (St l o g) kx kr kc k = k (St (set x (kd, VInst n c (set a v attrs)) l) o g).
Proof.
  intros files rn m x y a n c attrs kd v l o g kx kr kc k Hx W [ky Hy] Mv. cbn [exec eval]. unfold name_value. cbn [loc]. rewrite Hy. cbn [or_stuck]. rewrite Mv.
  cbn [loc]. rewrite Hx, W. reflexivity.
Qed.
Lemma new_field : forall files n a v f s kx k,
  call_value source files (src_run files (S n)) (VClass "arinc424.decoder" "Field") [VStr a; VStr v; VFun "arinc424.decoder" (fn_name f)] [] s kx k =
  k (fval (Field a v f)) s.
Proof.
  intros files n a v f [l o g] kx k. cbn [call_value]. rewrite field_init. cbv beta iota. rewrite src_run_S. cbn [bind_params option_map hold_first out glob].
  rewrite src_block_cons, (set_attr _ _ _ _ "name" _ _ _ _ _ (VStr a)) by (first [reflexivity | eexists; reflexivity]).
  rewrite src_block_cons, (set_attr _ _ _ _ "value" _ _ _ _ _ (VStr v)) by (first [reflexivity | eexists; reflexivity]).
  rewrite src_block_cons, (set_attr _ _ _ _ "decode_fn" _ _ _ _ _ (VFun "arinc424.decoder" (fn_name f))) by (first [reflexivity | eexists; reflexivity]).
  rewrite src_block_nil. reflexivity.
Qed.
Lemma eval_obj_other : forall prog ev m e s k, (match e with EName _ => false | _ => true end) = true -> eval_obj prog ev m e s k = ev e s k.
Proof. intros prog ev m e s k H. destruct e; (discriminate || reflexivity). Qed.
Lemma eval_call : forall prog files rn m x args s kx k,
  eval prog files rn m (ECall (EName x) args []) s kx k =
  eval prog files rn m (EName x) s kx (fun g s => eval_list (eval_obj prog (fun e s k => eval prog files rn m e s kx k) m) args s (fun vs s => call_value prog files rn g vs [] s kx k)).
Proof. reflexivity. Qed.
Lemma eval_row : forall attrs files n m c r tl o g kx e w k, has_decoder m tl -> row_of attrs e = Some w ->
  eval source files (src_run files (S n)) m e (St (reading (VInst m c attrs) r tl) o g) kx k =
  match eval_src r (row_src w) with
  | Ok t => k (fval (Field (row_name w) t (row_fn w))) (St (reading (VInst m c attrs) r tl) o g)
  | Err x => kx (out_of_range x) (St (reading (VInst m c attrs) r tl) o g)
  end.
Proof.
  intros attrs files n m c r tl o g kx e w k D H. destruct e; try discriminate. destruct e; try discriminate.
  destruct args as [|en [|es [|ed [|? ?]]]]; try discriminate; try (destruct ed; try discriminate; destruct ed; discriminate).
  destruct ed as [| | | | |ed d| | | | | | | | | | | | | |]; try discriminate. destruct ed; try discriminate. destruct kws; [|discriminate].
  cbn [row_of] in H. destruct (String.eqb x "Field" && String.eqb x0 "decoder") eqn:B; [|discriminate].
  apply andb_prop in B. destruct B as [B1 B2]. apply String.eqb_eq in B1, B2. subst x x0.
  destruct (name_of attrs en) as [a|] eqn:En; [|discriminate]. destruct (src_of attrs es) as [s|] eqn:Es; [|discriminate]. destruct (fn_of d) as [f|] eqn:Ed; [|discriminate].
  injection H as <-. cbn [row_name row_src row_fn]. apply fn_of_name in Ed. subst d.
  assert (E : forall K, eval source files (src_run files (S n)) m (EName "Field") (St (reading (VInst m c attrs) r tl) o g) kx K =
    K (VClass "arinc424.decoder" "Field") (St (reading (VInst m c attrs) r tl) o g)).
  { intro K. cbn [eval eval_obj]. unfold name_value. cbn [loc reading get String.eqb Ascii.eqb Bool.eqb]. rewrite (proj1 D). unfold global. rewrite (proj1 (proj2 (proj2 D))). reflexivity. }
  assert (N : (match en with EName _ => false | _ => true end) = true) by (destruct en; (reflexivity || discriminate)).
  assert (S : (match es with EName _ => false | _ => true end) = true) by (destruct es; (reflexivity || discriminate)).
  rewrite eval_call, E. unfold eval_list. rewrite (eval_obj_other _ _ _ _ _ _ N). rewrite (eval_name_of _ _ _ _ _ _ _ _ _ _ _ _ _ En). rewrite (eval_obj_other _ _ _ _ _ _ S), (eval_src_of _ _ _ _ _ _ _ _ _ _ _ _ _ Es).
  destruct (eval_src r s) as [t|x]; [|reflexivity]. rewrite eval_obj_other by reflexivity. rewrite (eval_decoder _ _ _ _ _ _ _ _ _ _ _ D). apply new_field.
Qed.
Lemma eval_list_cons : forall ev e es s k, eval_list ev (e :: es) s k = ev e s (fun v s => eval_list ev es s (fun vs s => k (v :: vs) s)).
Proof. reflexivity. Qed.
(* [Field(...), Field(...), ...] *)
Lemma eval_rows : forall attrs files n m c r tl o g kx es ws k, has_decoder m tl -> rows_of attrs es = Some ws ->
  eval source files (src_run files (S n)) m (EList es) (St (reading (VInst m c attrs) r tl) o g) kx k =
  match build ws r with
  | Ok fs => k (fvals fs) (St (reading (VInst m c attrs) r tl) o g)
  | Err x => kx (out_of_range x) (St (reading (VInst m c attrs) r tl) o g)
  end.
Proof.
  intros attrs files n m c r tl o g kx es ws k D H.
  assert (G : forall es ws (k : list value -> st -> ans), rows_of attrs es = Some ws ->
    eval_list (fun e s k => eval source files (src_run files (S n)) m e s kx k) es (St (reading (VInst m c attrs) r tl) o g) k =
    match build ws r with
    | Ok fs => k (map fval fs) (St (reading (VInst m c attrs) r tl) o g)
    | Err x => kx (out_of_range x) (St (reading (VInst m c attrs) r tl) o g)
    end).
  { clear - D. intros es. induction es as [|e es IH]; intros ws k H.
    - injection H as <-. reflexivity.
    - cbn [rows_of] in H. destruct (row_of attrs e) as [w|] eqn:E; [|discriminate]. destruct (rows_of attrs es) as [ws'|] eqn:F; [|discriminate]. injection H as <-.
      rewrite eval_list_cons. cbv beta.
      rewrite (eval_row _ _ _ _ _ _ _ _ _ _ _ _ _ D E). cbn [build]. unfold bindR. destruct (eval_src r (row_src w)) as [t|x]; [|reflexivity].
      rewrite (IH ws' _ eq_refl). destruct (build ws' r); reflexivity. }
  exact (G es ws (fun vs s => k (VList vs) s) H).
Qed.
(* a method whose body is such a list *)
Lemma run_rows : forall attrs files n m c r o l g kx es ws k, has_decoder m [] -> rows_of attrs es = Some ws ->
  src_run files (S (S n)) m [("self", None); ("r", None)] [SReturn (Some (EList es))] KRef [VInst m c attrs; VStr r] (St l o g) kx k =
  match build ws r with
  | Ok fs => k (fvals fs) (St (reading (VInst m c attrs) r []) o g)
  | Err x => kx (out_of_range x) (St (reading (VInst m c attrs) r []) o g)
  end.
Proof. intros. rewrite src_run_S. cbn [bind_params option_map hold_first out glob]. rewrite src_block_cons. apply eval_rows; assumption. Qed.
Lemma block_rows : forall attrs files n m c r tl o g kx es ws kr kc k, has_decoder m tl -> rows_of attrs es = Some ws ->
  src_block files (S n) m false [SReturn (Some (EList es))] (St (("self", (KRef, VInst m c attrs)) :: ("r", (KRef, VStr r)) :: tl) o g) kx kr kc k =
  match build ws r with
  | Ok fs => kr (fvals fs) (St (reading (VInst m c attrs) r tl) o g)
  | Err x => kx (out_of_range x) (St (reading (VInst m c attrs) r tl) o g)
  end.
Proof. intros. rewrite src_block_cons. apply eval_rows; assumption. Qed.

(* ---- the classes ---- *)
(* d.a(args), d an object of a class of definitions/ *)
Definition method (d : cls) (a : string) : list (string * option expr) * list stmt :=
  match find_def (class_body source (cls_module d) (cls_title d)) a with Some x => x | None => ([], []) end.
Lemma methods : forall d, get "read" (cls_attrs d) = None /\
  find_def (class_body source (cls_module d) (cls_title d)) "read" = Some (method d "read").
Proof. intro d. destruct d; repeat split. Qed.
Definition reads (d : cls) : Prop := forall files n line p l o leg rs kx k, leg_ok leg ->
  answers fvals (lift (cls_read d line p)) l o rs kx k
    (src_run files (S (S (S n))) (cls_module d) (fst (method d "read")) (snd (method d "read")) KRef [cls_val d; VStr line; VBool p] (St l o (globs leg rs))
      (fun e s' => kx e (leave (St l o (globs leg rs)) s')) (fun v s' => k v (leave (St l o (globs leg rs)) s'))).
Ltac class_step :=
  lazymatch goal with
  | |- answers _ _ _ _ _ _ _ (src_run _ (S (S _)) ?m _ [SReturn (Some (EList ?es))] KRef [VInst ?m ?c ?attrs; VStr ?r] _ _ _) =>
      let x := eval lazy -[lit] in (rows_of attrs es) in
      lazymatch x with
      | Some ?ws => rewrite (run_rows attrs _ _ m c r _ _ _ _ es ws _) by (first [repeat split; reflexivity | lazy -[lit]; reflexivity])
      end; run_in
  | |- answers _ _ _ _ _ _ _ (src_block _ (S _) ?m _ [SReturn (Some (EList ?es))] (St (("self", (KRef, VInst ?m ?c ?attrs)) :: ("r", (KRef, VStr ?r)) :: ?tl) _ _) _ _ _ _) =>
      let x := eval lazy -[lit] in (rows_of attrs es) in
      lazymatch x with
      | Some ?ws => rewrite (block_rows attrs _ _ m c r tl _ _ _ es ws _) by (first [repeat split; reflexivity | lazy -[lit]; reflexivity])
      end; run_in
  | _ => step
  end.
Ltac class_finish leg L :=
  lazymatch goal with
  | E : ?m = _ |- answers _ ?m _ _ _ _ _ ?a =>
      let b := fresh "b" in remember a as b; revert E; run_in; use_conditions;
      try match goal with H : build _ _ = _ |- _ => rewrite H end;
      intro E; subst m b; answer leg L
  end.
Ltac class_reads :=
  let L := fresh "L" in
  intros files n line p l o leg rs kx k L; set (b := snd _); set (ps := fst _); lazy in b; lazy in ps; subst b ps; unfold cls_val; rewrite src_run_S;
  match goal with |- answers _ ?t _ _ _ _ _ _ => let m := fresh "m" in remember t as m end; run_in;
  repeat class_step; class_finish leg L.
Theorem source_reads : forall d, reads d.
Proof. intro d. destruct d as [| | | | | | | | | | | | | | | | | | | | | | |[]| | | | | | |[]| |[]]; class_reads. Qed.
