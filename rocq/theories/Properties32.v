(* C90: what becomes of a line that is read into an object that was used before. *)
From Coq Require Import List String NArith Bool Arith Lia.
From Verif Require Import PyBase Decoder Layouts SpecLayouts Record Api Spec SpecRecord SpecApi StrFacts ReadFacts ReadProps ReadProps2 ReadProps3 RecordProps RecordProps2 ApiProps Samples Properties1 Properties30 Properties31.
Import ListNotations.
Open Scope string_scope.
Open Scope list_scope.
Local Open Scope nat_scope.

(* ================= C90 ================= *)
Lemma layout_same : forall s app b b', In s sections -> fst (type_columns (lit s)) = None -> s <> "EU" -> layout_for (lit s) b app = layout_for (lit s) b' app.
Proof.
  intros s app b b' H C N.
  assert (E : entries_for (lit s) true = entries_for (lit s) false).
  { revert C. each_section H.
    all: match goal with |- context [type_columns ?c] => let v := eval vm_compute in (fst (type_columns c)) in change (fst (type_columns c)) with v end.
    all: intro C; try discriminate C; try (exfalso; apply N; reflexivity); clear C N.
    all: vm_compute; reflexivity. }
  rewrite !layout_for_entries. destruct b, b'; rewrite ?E; reflexivity.
Qed.
(* What the object held before decides neither the result, nor what is printed, nor what is read, whatever the line, with one exception: airway restrictions, where
   it matters whether the object held the continuation number 0 or 1. *)
Theorem C90_read : forall r r' line, ~ section_is line (lit "EU") \/ zero_or_one (continuation r) = zero_or_one (continuation r') ->
  returned (read r line) = returned (read r' line) /\ printed (read r line) = printed (read r' line) /\
  (returned (read r line) = Ok true -> fields (after (read r line)) = fields (after (read r' line)) /\ ident (after (read r line)) = ident (after (read r' line)) /\
    raw (after (read r line)) = raw (after (read r' line)) /\ definition (after (read r line)) = definition (after (read r' line))).
Proof.
  intros r r' line D. destruct (validate line) eqn:V; [|unfold read; rewrite V; repeat split; discriminate]. rewrite !(read_expected _ line V). unfold expected_read.
  destruct (section_of line) as [code|] eqn:S; [|repeat split; discriminate]. cbv zeta. apply section_of_is in S as SI. destruct SI as [[s [Hs ->]] SI].
  destruct (fst (type_columns (lit s))) as [k|] eqn:TC.
  - destruct (isalnum (columns (strip line) [k])); [|repeat split; discriminate]. unfold expected_fields. cbn [continuation]. destruct (layout_for _ _ _); [repeat split|]. destruct (raising (lit s)); repeat split; discriminate.
  - unfold expected_fields. cbn [continuation].
    assert (E : layout_for (lit s) (zero_or_one (continuation r)) (columns line (snd (type_columns (lit s)))) = layout_for (lit s) (zero_or_one (continuation r')) (columns line (snd (type_columns (lit s))))).
    { destruct D as [D|D]; [apply layout_same; [exact Hs|exact TC|]; intros ->; apply D; apply section_of_is; exact S|]. rewrite D. reflexivity. }
    revert E. generalize (layout_for (lit s) (zero_or_one (continuation r)) (columns line (snd (type_columns (lit s))))) (layout_for (lit s) (zero_or_one (continuation r')) (columns line (snd (type_columns (lit s))))).
    generalize (record_class (lit s)). intros d o o' <-. destruct o as [cells|].
    + unfold returned, printed, after, set_fields. cbn [fst snd fields ident raw definition]. repeat split.
    + destruct (raising (lit s)); unfold returned, printed; cbn [fst snd]; (split; [reflexivity|]; split; [reflexivity|]; discriminate).
Qed.
Print Assumptions C90_read.
(* one object for all lines of a file, whatever a program does about exceptions *)
Fixpoint read_all (r : rec) (ls : list str) : list (list event * result bool) :=
  match ls with [] => [] | l :: ls => (printed (read r l), returned (read r l)) :: read_all (after (read r l)) ls end.
Theorem C90_one_object : forall ls r, Forall (fun l => ~ section_is l (lit "EU")) ls -> read_all r ls = map (fun l => (printed (read new_record l), returned (read new_record l))) ls.
Proof.
  intros ls r F. revert r. induction F as [|l ls N _ IH]; intro r; [reflexivity|]. cbn [read_all map]. rewrite IH. destruct (C90_read r new_record l (or_introl N)) as (-> & -> & _). reflexivity.
Qed.
Print Assumptions C90_one_object.
(* a seasonal closure: ValueError, or True if the object held a first record *)
Theorem C90_restrictions_refuted : ~ (forall r r' line, returned (read r line) = returned (read r' line)).
Proof. intro H. specialize (H new_record (after (read new_record l_sea)) l_restriction_sc). vm_compute in H. discriminate H. Qed.
Print Assumptions C90_restrictions_refuted.
Example C90_ex : read_all new_record [l_sea; l_restriction_sc; l_airway_x; l_sea_contx; lit " " ++ l_sea; l_acv] = [([], Ok true); ([], Ok true); ([], Err ValueError); ([], Ok false); ([], Ok false); ([], Ok true)] /\
  returned (read new_record l_restriction_sc) = Err ValueError /\ ~ section_is l_sea (lit "EU") /\
  List.length (fields (after (read (after (read new_record l_sea)) l_acv))) = List.length (fields (after (read new_record l_acv))) /\ fields (after (read new_record l_acv)) <> [].
Proof.
  split; [vm_compute; reflexivity|]. split; [vm_compute; reflexivity|]. split; [intro S; apply section_of_is in S; vm_compute in S; discriminate S|]. split; [vm_compute; reflexivity|]. vm_compute. discriminate.
Qed.
