(* The class attributes of definitions/*.py and the methods application_type. *)
From Coq Require Import List String NArith ZArith Bool.
From Verif Require Import PyBase PyRepr StrFacts DecoderTables Decoder Layouts Json Record Api Utf8 PySyntax PyEval Source SrcFacts SrcClasses.
Import ListNotations.
Open Scope string_scope.
Open Scope list_scope.
Local Open Scope nat_scope.

(* d.a *)
Definition cls_attr (d : cls) (a : string) : option value := inst_attr source (cls_module d) (cls_title d) (cls_attrs d) a.
Definition index_val (o : option nat) : option value := option_map (fun i => VInt (Z.of_nat i)) o.

Theorem source_attributes : forall d,
  cls_attr d "cont_idx" = index_val (cls_cont_idx d) /\
  cls_attr d "app_idx" = index_val (cls_app_idx d) /\
  (cls_attr d "name" = Some (VStr (cls_name d)) \/ cls_attr d "name" = None /\ cls_name d = [] /\ cls_cont_idx d = None) /\
  (cls_attr d "continuations" = Some (VList (map VStr (cls_continuations d))) \/
   cls_attr d "continuations" = None /\ cls_continuations d = [] /\ cls_app_idx d = None).
Proof. intro d. destruct d; vm_compute; repeat split; first [left; reflexivity | right; repeat split; reflexivity]. Qed.

Definition applies (d : cls) : Prop := forall files n line l o leg rs kx k, leg_ok leg ->
  answers VStr (lift (cls_application_type d line)) l o rs kx k
    (src_run files (S n) (cls_module d) (fst (method d "application_type")) (snd (method d "application_type")) KRef [cls_val d; VStr line] (St l o (globs leg rs))
      (fun e s' => kx e (leave (St l o (globs leg rs)) s')) (fun v s' => k v (leave (St l o (globs leg rs)) s'))).
Definition has_application_type (d : cls) : bool := match find_def (class_body source (cls_module d) (cls_title d)) "application_type" with Some _ => true | None => false end.
Lemma application_types : forall d, get "application_type" (cls_attrs d) = None /\
  (has_application_type d = true -> find_def (class_body source (cls_module d) (cls_title d)) "application_type" = Some (method d "application_type")) /\
  (cls_app_idx d <> None -> has_application_type d = true).
Proof. intro d. destruct d; repeat split; first [discriminate | intro H; exfalso; apply H; reflexivity]. Qed.
Ltac apply_type :=
  let L := fresh "L" in
  intros files n line l o leg rs kx k L; set (b := snd _); set (ps := fst _); lazy in b; lazy in ps; subst b ps; unfold cls_val; rewrite src_run_S;
  match goal with |- answers _ ?t _ _ _ _ _ _ => let m := fresh "m" in remember t as m end; run_in;
  repeat step;
  lazymatch goal with
  | E : ?m = _ |- answers _ ?m _ _ _ _ _ ?a =>
      let b := fresh "b" in remember a as b; revert E; run_in; try match goal with H : index _ _ = _ |- _ => rewrite H end;
      intro E; subst m b; answer leg L
  end.
Theorem source_application_types : forall d, has_application_type d = true -> applies d.
Proof.
  intros d A. destruct d as [| | | | | | | | | | | | | | | | | | | | | | |[]| | | | | | |[]| |[]]; try discriminate A; clear A; apply_type.
Qed.
