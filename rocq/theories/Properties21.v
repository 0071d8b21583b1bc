(* C79: every layout can be written, with any values. *)
From Coq Require Import List String NArith Bool Arith Lia.
From Verif Require Import PyBase Decoder Layouts Record Api SpecLayouts Spec SpecRecord SpecColumns SpecEdit SpecWrite StrFacts ReadFacts ReadProps RecordProps EditProps WriteProps Samples Properties1.
Import ListNotations.
Open Scope string_scope.
Open Scope list_scope.
Local Open Scope nat_scope.

(* ================= C79 ================= *)
Lemma restriction_primary_iff : forall e, restriction_primary e = true <-> In "EU" (e_sections e) /\ e_primary e = Some true.
Proof.
  intro e. unfold restriction_primary. rewrite andb_true_iff, existsb_exists. split.
  - intros [(s & I & E) P]. apply String.eqb_eq in E as <-. split; [exact I|]. destruct (e_primary e) as [[|]|]; try discriminate P. reflexivity.
  - intros [I ->]. split; [exists "EU"; split; [exact I|reflexivity]|reflexivity].
Qed.
(* each layout of the catalogue is read from some line, by a new record *)
Theorem C79_every_layout : forall e, In e catalogue -> ~ (In "EU" (e_sections e) /\ e_primary e = Some true) ->
  exists t r, read new_record t = ([], r, Ok true) /\ record_line t t /\ layout_of t r (e_cells e).
Proof. intros e I N. apply c79_fresh; [exact I|]. destruct (restriction_primary e) eqn:R; [|reflexivity]. apply restriction_primary_iff in R. contradiction. Qed.
Print Assumptions C79_every_layout.
(* but for those of the primary airway restrictions, that no new record reads from any line *)
Theorem C79_every_layout_refuted : exists e, In e catalogue /\ forall line t o r, record_line line t -> read new_record line = (o, r, Ok true) -> ~ layout_of t r (e_cells e).
Proof.
  assert (H : existsb restriction_primary catalogue = true) by (vm_compute; reflexivity). apply existsb_exists in H as (e & I & R).
  exists e. split; [exact I|]. intros line t o r. apply c79_never; assumption.
Qed.
Print Assumptions C79_every_layout_refuted.
(* these are read only into a record that has read another one before *)
Theorem C79_after_another : forall e, In e catalogue -> In "EU" (e_sections e) -> e_primary e = Some true ->
  (forall line t o r, record_line line t -> read new_record line = (o, r, Ok true) -> ~ layout_of t r (e_cells e)) /\
  exists t0 r0 t r, record_line t0 t0 /\ read new_record t0 = ([], r0, Ok true) /\ read r0 t = ([], r, Ok true) /\ record_line t t /\ layout_of t r (e_cells e).
Proof.
  intros e I A B. assert (R : restriction_primary e = true) by (apply restriction_primary_iff; auto). split; [intros; eapply c79_never; eassumption|apply c79_after; assumption].
Qed.
Print Assumptions C79_after_another.
(* whatever values are chosen for the fields of a record, there is a line from which they are read *)
Theorem C79_any_values : forall r line t o r' cells vs, record_line line t -> read r line = (o, r', Ok true) -> layout_of t r' cells -> fills cells vs -> same_keys t (ident r') cells vs ->
  exists t' r'', read r t' = (o, r'', Ok true) /\ record_line t' t' /\ ident r'' = ident r' /\ continuation r'' = continuation r' /\ raw r'' = t' /\ layout_of t' r'' cells /\ fields r'' = fields_with cells vs /\
    forall k, ~ shown_in cells k -> column t' k = column t k.
Proof. exact c79_values. Qed.
Print Assumptions C79_any_values.
(* one line, given the columns that no field shows *)
Theorem C79_one_line : forall r1 r2 line1 line2 t1 t2 o1 o2 r1' r2' cells, record_line line1 t1 -> record_line line2 t2 -> read r1 line1 = (o1, r1', Ok true) -> read r2 line2 = (o2, r2', Ok true) ->
  layout_of t1 r1' cells -> layout_of t2 r2' cells -> fields r1' = fields r2' -> (forall k, ~ shown_in cells k -> column t1 k = column t2 k) -> t1 = t2.
Proof.
  intros r1 r2 line1 line2 t1 t2 o1 o2 r1' r2' cells L1 L2 R1 R2 Y1 Y2 F H.
  apply (c79_once t1 t2 cells); [exact (record_line_length _ _ L1)|exact (record_line_length _ _ L2)| |intros c I; exact (proj1 (layout_fine _ _ _ c Y1 I))|exact H].
  assert (N : forall t, changed_in [] t t) by (intro t; split; auto). assert (K : forall t code, keeps_keys t code []) by (intros t code k []).
  rewrite <- (proj1 (c72_changed _ _ _ _ _ _ _ _ L1 R1 Y1 (N t1) (K _ _))), <- (proj1 (c72_changed _ _ _ _ _ _ _ _ L2 R2 Y2 (N t2) (K _ _))). exact F.
Qed.
Print Assumptions C79_one_line.
(* the values that may be chosen are those that some line has *)
Theorem C79_fills : forall e vs, In e catalogue -> (fills (e_cells e) vs <-> exists t, List.length t = 132 /\ vs = map (fun c => columns t (c_cols c)) (e_cells e)).
Proof.
  intros e vs I. assert (B : forall c, In c (e_cells e) -> Forall (fun k => 1 <= k <= 132) (c_cols c)) by (intros c J; exact (proj1 (fine_cols _ _ I J))). split.
  - intro F. set (t := write (repeat 32%N 132) (combine (e_cells e) vs)). exists t. split; [unfold t; rewrite write_length; apply repeat_length|].
    pose proof (write_values (repeat 32%N 132) _ _ (repeat_length _ _) B F) as W. fold t in W. destruct (forall2_combine _ _ _ _ _ (proj1 F)) as (_ & MF).
    apply (f_equal (map f_value)) in W. unfold fields_with in W. rewrite !map_map in W. cbn [field_of f_value] in W. rewrite W. clear - F. destruct F as (F & _). induction F as [|c v cs vs _ _ IH]; [reflexivity|]. cbn. f_equal. exact IH.
  - intros (t & L & ->). apply c79_line. rewrite L. exact B.
Qed.
Print Assumptions C79_fills.
Definition l_other : str := lit "SXXXP XXXXXXAXXXXXXXX0XXXXXXXXXXXXXXXXXXXXXXXXXXXXXXXXXXXXXXXXXXXXXXXXXXXXXXXXXXXXXXXXXXXXXXXXXXXXXXXXXXXXXXXXXXXXXXXXXXXXX045698808".
Definition other_values : list str := map (fun c => columns l_other (c_cols c)) cat_PA_56.
Example C79_ex : List.length catalogue = 101 /\ List.length (filter restriction_primary catalogue) = 4 /\
  fills cat_PA_56 other_values /\ fields (after (read new_record l_other)) = fields_with cat_PA_56 other_values /\
  In (Field (lit "Airport Name") (repeat 88%N 30) F071) (fields_with cat_PA_56 other_values) /\
  fields (after (read new_record l_sea)) <> fields_with cat_PA_56 other_values.
Proof.
  split; [vm_compute; reflexivity|]. split; [vm_compute; reflexivity|]. split.
  - apply c79_line. intros c I. assert (E : exists e, In e catalogue /\ e_cells e = cat_PA_56).
    { exists (Entry ["PA"] (Some true) None cat_PA_56). split; [|reflexivity]. unfold catalogue. repeat (first [left; reflexivity|right]). }
    destruct E as (e & E & C). rewrite <- C in I. replace (List.length l_other) with 132 by (vm_compute; reflexivity). exact (proj1 (fine_cols _ _ E I)).
  - split; [vm_compute; reflexivity|]. split; [vm_compute; tauto|]. intro H. vm_compute in H. discriminate H.
Qed.
