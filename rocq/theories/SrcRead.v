(* Record.read, primary, hasCont and validate of the source, on any Record object. *)
From Coq Require Import List String NArith ZArith Bool.
From Verif Require Import PyBase PyRepr StrFacts DecoderTables Decoder Layouts Json Record Api Utf8 PySyntax PyEval Source SrcFacts SrcStart SrcClasses SrcAttrs.
Import ListNotations.
Open Scope string_scope.
Open Scope list_scope.
Local Open Scope nat_scope.

(* a method of Record *)
Definition rec_method (a : string) : list (string * option expr) * list stmt :=
  match find_def (class_body source "arinc424.record" "Record") a with Some x => x | None => ([], []) end.
(* what a method leaves: output, the object as it is afterwards, value or exception *)
Definition self_answers {A} (toval : A -> value) (m : list event * rec * result A) (o : list event)
    (kx : exc -> st -> ans) (k : value -> st -> ans) (a : ans) : Prop :=
  exists leg L, leg_ok leg /\
    match m with
    | (o', r, Ok x) => get "self" L = Some (KSelf, rec_val r) /\ a = k (toval x) (St L (o ++ o') (globs leg recs))
    | (o', r, Err e) => get "self" L = Some (KSelf, rec_val r) /\ exists x, e_kind x = e /\ a = kx x (St L (o ++ o') (globs leg recs))
    end.

(* the interpreter, leaving objects' attributes and methods alone *)
Ltac run_rec :=
  lazy -[lit str_eqb strip isalnum isalpha isnumeric index slice slice_from slice_to slice_last py_int py_float fl_div fmt_fixed fmt03
         List.app assoc contains startswith endswith lstrip0 find_sub repr_str str_of_Z repr_list List.length self_answers answers leg_ok
         for_loop decode_utf8 contents entries readlines path_join dumps dumps_pretty py_dict str_items same_strs dec_val
         fn_name fval fvals recs_items build src_run src_block Z.of_nat Z.eqb Z.gtb Z.ltb Z.add Z.sub Z.mul Nat.eqb Nat.ltb nth_error
         cls_val cls_read inst_attr call_method in_list map mod_attr source global Z.geb Z.to_nat class_body cls_module cls_title cls_attrs cls_cont_idx cls_app_idx cls_application_type cls_name cls_continuations mem_str validate orb].
Lemma own_attr : forall prog m c attrs a v, get a attrs = Some v -> inst_attr prog m c attrs a = Some v.
Proof. intros prog m c attrs a v H. unfold inst_attr. rewrite H. reflexivity. Qed.
Lemma call_self : forall files n a ps body attrs kd args s kx k,
  find_def (class_body source "arinc424.record" "Record") a = Some (ps, body) -> get a attrs = None -> existsb mutable args = false ->
  call_method source files (src_run files n) (Some ("self", kd)) (VInst "arinc424.record" "Record" attrs) a args s kx k =
  if writable kd then
    src_run files n "arinc424.record" ps body KSelf (VInst "arinc424.record" "Record" attrs :: args) s
      (fun e s' => or_stuck "self" (self_value ps s') (fun v' => kx e (bind_local "self" kd v' (leave s s'))))
      (fun r s' => or_stuck "self" (self_value ps s') (fun v' => k r (bind_local "self" kd v' (leave s s'))))
  else src_run files n "arinc424.record" ps body KRef (VInst "arinc424.record" "Record" attrs :: args) s (fun e s' => kx e (leave s s')) (fun r s' => k r (leave s s')).
Proof. intros files n a ps body attrs kd args s kx k H G E. cbn [call_method]. rewrite G, H, E. reflexivity. Qed.
Lemma attr_cont_idx : forall d, inst_attr source (cls_module d) (cls_title d) (cls_attrs d) "cont_idx" = index_val (cls_cont_idx d).
Proof. intro d. exact (proj1 (source_attributes d)). Qed.
Lemma attr_app_idx : forall d, inst_attr source (cls_module d) (cls_title d) (cls_attrs d) "app_idx" = index_val (cls_app_idx d).
Proof. intro d. exact (proj1 (proj2 (source_attributes d))). Qed.
Lemma attr_name : forall d i, cls_cont_idx d = Some i -> inst_attr source (cls_module d) (cls_title d) (cls_attrs d) "name" = Some (VStr (cls_name d)).
Proof. intros d i H. destruct (source_attributes d) as (_ & _ & [E|(_ & _ & E)] & _); [exact E|congruence]. Qed.
Lemma attr_continuations : forall d i, cls_app_idx d = Some i ->
  inst_attr source (cls_module d) (cls_title d) (cls_attrs d) "continuations" = Some (VList (map VStr (cls_continuations d))).
Proof. intros d i H. destruct (source_attributes d) as (_ & _ & _ & [E|(_ & _ & E)]); [exact E|congruence]. Qed.
Ltac cls_attribute :=
  match goal with
  | |- context [inst_attr source (cls_module ?d) _ _ "cont_idx"] => rewrite (attr_cont_idx d); split_on (cls_cont_idx d)
  | |- context [inst_attr source (cls_module ?d) _ _ "app_idx"] => rewrite (attr_app_idx d); split_on (cls_app_idx d)
  | H : cls_cont_idx ?d = Some ?i |- context [inst_attr source (cls_module ?d) _ _ "name"] => rewrite (attr_name d i H)
  | H : cls_app_idx ?d = Some ?i |- context [inst_attr source (cls_module ?d) _ _ "continuations"] => rewrite (attr_continuations d i H)
  end.
(* methods of the object of a class *)
Lemma call_class : forall files n d a args s kx k, get a (cls_attrs d) = None ->
  find_def (class_body source (cls_module d) (cls_title d)) a = Some (method d a) ->
  call_method source files (src_run files n) None (cls_val d) a args s kx k =
  src_run files n (cls_module d) (fst (method d a)) (snd (method d a)) KRef (cls_val d :: args) s (fun e s' => kx e (leave s s')) (fun r s' => k r (leave s s')).
Proof. intros files n d a args s kx k G H. unfold cls_val. cbn [call_method]. rewrite G, H. destruct (method d a). reflexivity. Qed.
Lemma class_read : forall d files n line p l o leg rs kx k, leg_ok leg ->
  exists leg' x, leg_ok leg' /\ (forall e, cls_read d line p = Err e -> e_kind x = e) /\
    call_method source files (src_run files (S (S (S n)))) None (cls_val d) "read" [VStr line; VBool p] (St l o (globs leg rs)) kx k =
    match cls_read d line p with Ok fs => k (fvals fs) (St l o (globs leg' rs)) | Err _ => kx x (St l o (globs leg' rs)) end.
Proof.
  intros d files n line p l o leg rs kx k L. rewrite call_class; [|exact (proj1 (methods d))|exact (proj2 (methods d))].
  destruct (source_reads d files n line p l o leg rs kx k L) as (leg' & L' & H).
  unfold lift in H. rewrite List.app_nil_r in H. destruct (cls_read d line p) as [fs|e].
  - exists leg', (Exc ValueError None). split; [exact L'|]. split; [discriminate|exact H].
  - destruct H as (x & X & H). exists leg', x. split; [exact L'|]. split; [intros ? [= <-]; exact X|exact H].
Qed.
Lemma class_application_type : forall d files n line l o leg rs kx k i, leg_ok leg -> cls_app_idx d = Some i ->
  exists leg' x, leg_ok leg' /\ (forall e, cls_application_type d line = Err e -> e_kind x = e) /\
    call_method source files (src_run files (S n)) None (cls_val d) "application_type" [VStr line] (St l o (globs leg rs)) kx k =
    match cls_application_type d line with Ok t => k (VStr t) (St l o (globs leg' rs)) | Err _ => kx x (St l o (globs leg' rs)) end.
Proof.
  intros d files n line l o leg rs kx k i L I. destruct (application_types d) as (G & F & A). assert (T : has_application_type d = true) by (apply A; congruence).
  rewrite call_class; [|exact G|exact (F T)].
  destruct (source_application_types d T files n line l o leg rs kx k L) as (leg' & L' & H).
  unfold lift in H. rewrite List.app_nil_r in H. destruct (cls_application_type d line) as [fs|e].
  - exists leg', (Exc ValueError None). split; [exact L'|]. split; [discriminate|exact H].
  - destruct H as (x & X & H). exists leg', x. split; [exact L'|]. split; [intros ? [= <-]; exact X|exact H].
Qed.
Lemma geb_of_nat : forall n, Z.geb (Z.of_nat n) 0 = true.
Proof. intro n. rewrite Z.geb_leb. apply Z.leb_le, Nat2Z.is_nonneg. Qed.
Lemma in_list_strs : forall x l, in_list x (map VStr l) = Some (mem_str x l).
Proof.
  intros x l. induction l as [|y l IH]; [reflexivity|]. cbn [map in_list]. unfold mem_str in *. cbn [existsb]. destruct (str_eqb x y); [reflexivity|exact IH].
Qed.
Ltac numbers :=
  repeat match goal with |- context [Z.to_nat (Zpos ?p)] => let z := eval lazy in (Z.to_nat (Zpos p)) in change (Z.to_nat (Zpos p)) with z end.
(* the next condition *)
Ltac rec_on y :=
  lazymatch y with
  | match ?z with _ => _ end => rec_on z
  | assoc ?key recs_items => rewrite (recs_assoc key); split_on (assoc key records); cbv beta iota delta [option_map]
  | inst_attr source "arinc424.record" "Record" ?attrs ?a =>
      let v := eval lazy beta iota zeta delta [get String.eqb Ascii.eqb Bool.eqb] in (get a attrs) in
      lazymatch v with Some ?v => rewrite (own_attr source "arinc424.record" "Record" attrs a v eq_refl); run_rec end
  | inst_attr source (cls_module ?d) _ _ ?a => cls_attribute; run_rec
  | global source ?m ?x ?s =>
      let v := eval lazy -[lit fvals cls_val recs_items cls_module cls_title cls_attrs] in (global source m x s) in change (global source m x s) with v; run_rec
  | cls_val ?d => change (cls_val d) with (VInst (cls_module d) (cls_title d) (cls_attrs d)); run_rec
  | Z.geb (Z.of_nat ?n) 0 => rewrite (geb_of_nat n), ?Nat2Z.id; cbv beta iota
  | Z.geb ?a ?b => let z := eval lazy in y in change y with z; numbers; cbv beta iota
  | in_list _ (map VStr _) => rewrite in_list_strs; cbv beta iota
  | lit ?x => let z := eval lazy in (lit x) in change (lit x) with z; cbv beta iota
  | _ => decide_on y
  end.
Ltac rec_step :=
  let a := lazymatch goal with |- self_answers _ _ _ _ _ ?a => a | |- ?a = _ => a end in
      lazymatch a with
      | match ?x with _ => _ end => rec_on x
      | call_method _ _ (src_run ?files ?n) (Some ("self", ?kd)) (VInst "arinc424.record" "Record" ?attrs) ?a ?args ?s ?kx ?k =>
          let x := eval lazy in (find_def (class_body source "arinc424.record" "Record") a) in
          lazymatch x with Some (?ps, ?body) => rewrite (call_self files n a ps body attrs kd args s kx k eq_refl eq_refl eq_refl); run_rec end
      | call_method _ _ _ None _ "read" [_; VBool (orb ?p ?q)] _ _ _ => split_on (orb p q)
      | call_method _ _ (src_run ?files (S (S (S ?n)))) None (VInst (cls_module ?d) _ _) "read" [VStr ?line; VBool ?p] (St ?l ?o _) ?kx ?k =>
          lazymatch goal with
          | L : leg_ok ?leg |- _ =>
              let leg' := fresh "leg" in let L' := fresh "L" in let H := fresh "H" in let x := fresh "x" in let X := fresh "X" in
              destruct (class_read d files n line p l o leg recs kx k L) as (leg' & x & L' & X & H);
              lazymatch type of H with ?b = _ => change a with b; rewrite H; clear H L end;
              destruct (cls_read d line p) as [[|f fs']|?] eqn:?;
              [change (fvals []) with (VList []) | change (fvals (f :: fs')) with (VList (fval f :: map fval fs')) | idtac]; run_rec
          end
      | call_method _ _ (src_run ?files (S ?n)) None (VInst (cls_module ?d) _ _) "application_type" [VStr ?line] (St ?l ?o _) ?kx ?k =>
          lazymatch goal with
          | L : leg_ok ?leg, I : cls_app_idx d = Some ?i |- _ =>
              let leg' := fresh "leg" in let L' := fresh "L" in let H := fresh "H" in let x := fresh "x" in let X := fresh "X" in
              destruct (class_application_type d files n line l o leg recs kx k i L I) as (leg' & x & L' & X & H);
              lazymatch type of H with ?b = _ => change a with b; rewrite H; clear H L end;
              destruct (cls_application_type d line) eqn:?; run_rec
          end
      | call_method _ _ _ _ (VStr _) _ _ _ _ _ =>
          let x := eval lazy beta iota zeta delta [call_method String.eqb Ascii.eqb Bool.eqb] in a in change a with x; run_rec
      | src_run _ _ "arinc424.record" _ _ _ _ _ _ _ => rewrite src_run_S; run_rec
      | src_block _ _ _ _ [] _ _ _ _ _ => rewrite src_block_nil; cbv beta
      | src_block _ _ _ _ (SIf _ _ _ :: _) _ _ _ _ _ => rewrite src_block_if; run_rec
      | src_block _ _ _ _ (_ :: _) _ _ _ _ _ => rewrite src_block_cons; run_rec
      end.
(* the model, evaluated under the conditions found *)
Ltac rec_conditions :=
  repeat (match goal with
          | H : ?x = _ |- context [?x] => rewrite H
          end; cbn [negb andb fst snd ident raw continuation fields definition]).
(* a method that only looks at the object, returning v *)
Definition looks (attrs : list (string * value)) (a : string) (args : list value) (v : value) : Prop :=
  forall files n l o leg kx k,
    call_method source files (src_run files (S n)) (Some ("self", KSelf)) (VInst "arinc424.record" "Record" attrs) a args (St l o (globs leg recs)) kx k =
    k v (St (set "self" (KSelf, VInst "arinc424.record" "Record" attrs) l) o (globs leg recs)).
Lemma rec_methods : forall a, existsb (String.eqb a) ["__init__"; "primary"; "hasCont"; "validate"; "read"; "decode"; "json"] = true ->
  find_def (class_body source "arinc424.record" "Record") a = Some (fst (rec_method a), snd (rec_method a)).
Proof.
  intros a H. apply existsb_exists in H. destruct H as (x & I & E). apply String.eqb_eq in E. subst x.
  cbn [In] in I. repeat (destruct I as [<-|I]; [reflexivity|]). destruct I.
Qed.
Ltac look :=
  intros files n l o leg kx k;
  lazymatch goal with |- call_method _ _ _ _ _ ?a _ _ _ _ = _ => rewrite (call_self files (S n) a _ _ _ _ _ _ _ _ (rec_methods a eq_refl)) by reflexivity end; cbn [writable];
  set (b := snd (rec_method _)); set (ps := fst (rec_method _)); lazy in b; lazy in ps; subst b ps; rewrite src_run_S;
  match goal with |- _ = ?y => remember y as m end; run_rec.
Lemma validate_looks : forall i w c fs d line,
  looks [("ident", VStr i); ("raw", VStr w); ("continuation", VStr c); ("fields", fs); ("definition", d)] "validate" [VStr line] (VBool (validate line)).
Proof.
  intros i w c fs d line. look. repeat rec_step; subst m; unfold validate; rec_conditions; reflexivity.
Qed.
Lemma primary_looks : forall i w c fs mo t attrs,
  looks [("ident", VStr i); ("raw", VStr w); ("continuation", VStr c); ("fields", fs); ("definition", VInst mo t attrs)] "primary" []
    (VBool (str_eqb c (lit "0") || str_eqb c (lit "1"))).
Proof.
  intros i w c fs mo t attrs. look. repeat rec_step; subst m; rec_conditions; reflexivity.
Qed.
Ltac rewrite_goal H :=
  let T := type of H in
  let T := eval unfold looks in T in
  lazymatch goal with |- self_answers _ _ _ _ _ ?a => lazymatch T with ?x = _ => change a with x; rewrite H end end.
(* with these methods, and without going into the last statements of read *)
Ltac read_step :=
  lazymatch goal with
  | |- self_answers _ _ _ _ _ (call_method _ _ (src_run ?files (S ?n)) (Some ("self", KSelf)) (VInst _ _ ?attrs) "validate" [VStr ?line] (St ?l ?o [(_, _, VDict _ ?leg); _]) ?kx ?k) =>
      lazymatch attrs with [(_, VStr ?i); (_, VStr ?w); (_, VStr ?c); (_, ?fs); (_, ?d)] => rewrite_goal (validate_looks i w c fs d line files n l o leg kx k); run_rec end
  | |- self_answers _ _ _ _ _ (call_method _ _ (src_run ?files (S ?n)) (Some ("self", KSelf)) (VInst _ _ ?attrs) "primary" [] (St ?l ?o [(_, _, VDict _ ?leg); _]) ?kx ?k) =>
      lazymatch attrs with
      | [(_, VStr ?i); (_, VStr ?w); (_, VStr ?c); (_, ?fs); (_, VInst ?mo ?t ?b)] => rewrite_goal (primary_looks i w c fs mo t b files n l o leg kx k); run_rec
      | [(_, VStr ?i); (_, VStr ?w); (_, VStr ?c); (_, ?fs); (_, cls_val ?d)] => change (cls_val d) with (VInst (cls_module d) (cls_title d) (cls_attrs d))
      end
  | _ => rec_step
  end.
Ltac rec_answer :=
  lazymatch goal with
  | L : leg_ok ?leg |- self_answers _ _ _ _ _ ?a =>
      lazymatch a with _ _ (St ?l _ _) =>
        unfold self_answers; exists leg, l; split; [exact L|]; rewrite ?List.app_nil_r, <- ?List.app_assoc; split; [reflexivity|];
        first [reflexivity | eexists; split; [|reflexivity]; solve [reflexivity | eauto]]
      end
  end.
Ltac rec_finish :=
  unfold read_definition, read_fields, set_continuation, set_fields, set_raw, set_ident, set_definition, primary, bad_continuation, truthy_J;
  cbn [ident raw continuation fields definition negb andb]; rec_conditions; cbn [ident raw continuation fields definition]; rec_answer.
(* the last statements of read *)
Definition tail_of_read : list stmt := skipn 6 (snd (rec_method "read")).
Lemma read_tail : forall d files n r line i1 i2 o leg kx k, leg_ok leg -> definition r = Some d ->
  self_answers VBool (read_definition d line r) o kx k
    (src_block files (S (S (S n))) "arinc424.record" false tail_of_read
      (St [("self", (KSelf, rec_val r)); ("line", (KRef, VStr line)); ("identifier_1", (KRef, i1)); ("identifier_2", (KRef, i2))] o (globs leg recs))
      kx k (fun _ => Stuck "continue") (fun s' => k VNone s')).
Proof.
  intros d files n [i w c fs d'] line i1 i2 o leg kx k L D. cbn [definition] in D. subst d'.
  set (b := tail_of_read). lazy in b. subst b. unfold rec_val, def_val. cbn [ident raw continuation fields definition].
  match goal with |- self_answers _ ?t _ _ _ _ => remember t as m end.
  repeat read_step; subst m; rec_finish.
Qed.

(* ---- the methods ---- *)
Definition runs {A} (a : string) (args : list value) (toval : A -> value) (model : rec -> list event * rec * result A) : Prop :=
  forall files n r l o leg kx k, leg_ok leg ->
    self_answers toval (model r) o kx k
      (src_run files (S (S (S (S n)))) "arinc424.record" (fst (rec_method a)) (snd (rec_method a)) KSelf (rec_val r :: args) (St l o (globs leg recs)) kx k).
Ltac rec_start :=
  intros files n [i w c fs d] l o leg kx k L; set (b := snd (rec_method _)); set (ps := fst (rec_method _)); lazy in b; lazy in ps; subst b ps;
  rewrite src_run_S; unfold rec_val; cbn [ident raw continuation fields definition bind_params option_map hold_first out glob];
  match goal with |- self_answers _ ?t _ _ _ _ => remember t as m end.
Theorem source_read : forall line, runs "read" [VStr line] VBool (fun r => read r line).
Proof.
  intro line. rec_start.
  repeat lazymatch goal with
  | |- self_answers _ _ _ _ _ (src_block _ _ _ _ (SIf (ECall (EName "hasattr") _ _) _ _ :: _) _ _ _ _ _) => fail
  | _ => read_step
  end; subst m; unfold read, record_class, bindR; rec_conditions.
  all: unfold set_definition, set_ident, set_raw; cbn [ident raw continuation fields definition].
  all: try rec_answer.
  - apply read_tail. exact L. reflexivity.
  - apply read_tail. exact L. reflexivity.
Qed.
