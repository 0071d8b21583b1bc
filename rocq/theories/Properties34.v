(* C92: records with characters lost or added. *)
From Coq Require Import List String NArith Bool Arith Lia.
From Verif Require Import PyBase Decoder Layouts Record Api Spec SpecRecord SpecApi StrFacts ReadFacts ReadProps ApiProps Samples Properties1 Properties5 Properties29.
Import ListNotations.
Open Scope string_scope.
Open Scope list_scope.
Local Open Scope nat_scope.

(* ================= C92 ================= *)
Theorem C92_lost : forall a s b output, record_line (a ++ s ++ b) (a ++ s ++ b) -> s <> [] -> parse (a ++ b) output = ([], Ok false).
Proof.
  intros a s b output R N. apply short_parse. apply record_line_length in R. rewrite !List.app_length in *. destruct s; [congruence|]. cbn [List.length] in R. lia.
Qed.
Print Assumptions C92_lost.
Lemma leads : forall u x, u <> [] -> no_leading_space u -> no_leading_space (u ++ x).
Proof. intros [|c u] x N H; [congruence|]. exact H. Qed.
Lemma trails : forall x u, u <> [] -> no_trailing_space u -> no_trailing_space (x ++ u).
Proof. intros x u N H. destruct (exists_last N) as (b & c & ->). rewrite List.app_assoc. apply last_space, (last_space b), H. Qed.
Lemma middle : forall s, ~ whitespace s -> exists p u q, s = p ++ u ++ q /\ whitespace p /\ whitespace q /\ u <> [] /\ no_leading_space u /\ no_trailing_space u.
Proof.
  intros s N. destruct (strip_trimmed s) as (A & B & p & q & P & Q & E). exists p, (strip s), q. repeat (split; [assumption|]). split; [|auto]. intro Z. apply N, strip_nil_iff, Z.
Qed.
Lemma too_long : forall line t output, trimmed line t -> 132 < List.length t -> parse line output = ([], Ok false).
Proof. intros line t output T L. apply (c01_parse line t output T). intro F. apply framed_length in F. lia. Qed.
(* within the record anything, before or after it anything but white space *)
Theorem C92_added : forall a s b output, record_line (a ++ b) (a ++ b) -> s <> [] -> (a <> [] /\ b <> []) \/ ~ whitespace s -> parse (a ++ s ++ b) output = ([], Ok false).
Proof.
  intros a s b output R N D. pose proof (record_line_length _ _ R) as L. destruct R as (_ & LE & TR & _). rewrite List.app_length in L.
  assert (SL : 1 <= List.length s) by (destruct s; [congruence|cbn; lia]).
  assert (inner : a <> [] -> b <> [] -> parse (a ++ s ++ b) output = ([], Ok false)).
  { intros A B. apply (too_long _ (a ++ s ++ b)); [|rewrite !List.app_length; lia]. split; [|split; [|exists [], []; rewrite List.app_nil_r; repeat split; constructor]].
    - destruct a; [congruence|exact LE].
    - destruct (exists_last B) as (x & c & ->). rewrite !List.app_assoc. apply last_space. apply (last_space (a ++ x)). rewrite <- List.app_assoc. exact TR. }
  destruct D as [[A B]|W]; [apply inner; assumption|]. destruct (middle s W) as (p & u & q & -> & P & Q & NU & LU & TU).
  assert (UL : 1 <= List.length u) by (destruct u; [congruence|cbn; lia]).
  destruct a as [|x a]; [|destruct b as [|y b]].
  - cbn [app] in *. apply (too_long _ (u ++ q ++ b)); [|rewrite !List.app_length; cbn [List.length] in L; lia]. split; [apply leads; assumption|]. split; [rewrite List.app_assoc; apply trails; [intros ->; discriminate L|exact TR]|].
    exists p, []. rewrite List.app_nil_r, <- !List.app_assoc. repeat split; [exact P|constructor].
  - rewrite !List.app_nil_r in *. apply (too_long _ ((x :: a) ++ p ++ u)); [|rewrite !List.app_length; cbn [List.length] in *; lia]. split; [exact LE|]. split; [rewrite List.app_assoc; apply trails; assumption|].
    exists [], q. rewrite <- !List.app_assoc. repeat split; [constructor|exact Q].
  - apply inner; discriminate.
Qed.
Print Assumptions C92_added.
(* white space after the record changes nothing (C04); before it, it does: the line is read with its columns moved (C05), or refused *)
Theorem C92_blank_refuted : ~ (forall s t output, record_line t t -> s <> [] -> parse (s ++ t) output = ([], Ok false) \/ parse (s ++ t) output = parse t output).
Proof.
  intro H. specialize (H (lit " ") (lit "SEEUR" ++ skipn 5 l_sea) true ltac:(sample) ltac:(discriminate)). vm_compute in H. destruct H as [H|H]; discriminate H.
Qed.
Print Assumptions C92_blank_refuted.
Example C92_ex : parse (firstn 60 l_sea ++ skipn 61 l_sea) true = ([], Ok false) /\ parse (firstn 60 l_sea ++ lit " " ++ skipn 60 l_sea) true = ([], Ok false) /\ parse (l_sea ++ lit "0") true = ([], Ok false) /\
  parse (lit "S" ++ l_sea) true = ([], Ok false) /\ snd (parse (l_sea ++ lit " ") true) = Ok true /\
  (* the same loss with a blank to make up for it is not noticed *)
  snd (parse (firstn 60 l_sea ++ skipn 61 (firstn 100 l_sea) ++ lit " " ++ skipn 100 l_sea) true) <> Ok false.
Proof. repeat match goal with |- _ /\ _ => split end; vm_compute; try reflexivity. discriminate. Qed.
