(* C78: searching in what search has printed. *)
From Coq Require Import List String NArith ZArith Bool Arith Lia.
From Verif Require Import PyBase Record Api Console Spec SpecNum SpecApi SpecAgain StrFacts ReadFacts ApiProps AgainProps Samples Properties5.
Import ListNotations.
Open Scope string_scope.
Open Scope list_scope.
Local Open Scope nat_scope.

(* ================= C78 ================= *)
(* a file with what search has printed about a file, and another question *)
Theorem C78_again : forall w file w' file' fl fl' t ls ts colours, open_text w file = Ok t -> lines_of t ls -> Forall no_leading_space ls -> asked_on_one_line fl ->
  open_text w' file' = Ok (console colours (output_of (search w file fl))) -> picked (fun t => matches fl t /\ matches fl' t) ls ts ->
  exists ev, summary fl' (List.length ts) ev /\ search w' file' fl' = (map EvPrint ts ++ [ev], Ok tt).
Proof. intros w file w' file' fl fl' t ls ts colours O L N A O' P. exists (found (List.length ts) fl'). split; [apply found_summary|]. exact (c78_again w file w' file' fl fl' t ls ts colours O L N A O' P). Qed.
Print Assumptions C78_again.
(* there are such records if no line makes read raise *)
Theorem C78_picked : forall fl fl' ls, Forall reads ls -> exists ts, picked (fun t => matches fl t /\ matches fl' t) ls ts.
Proof. intros fl fl' ls H. apply picked_exists; [|exact H]. intro t. destruct (matches_dec fl t), (matches_dec fl' t); tauto. Qed.
Print Assumptions C78_picked.
(* the order of the questions does not matter, nor does asking twice *)
Theorem C78_order : forall w file w1 f1 w2 f2 w3 f3 fl fl' t ls c1 c2, open_text w file = Ok t -> lines_of t ls -> Forall no_leading_space ls -> Forall reads ls ->
  asked_on_one_line fl -> asked_on_one_line fl' ->
  open_text w1 f1 = Ok (console c1 (output_of (search w file fl))) -> open_text w2 f2 = Ok (console c2 (output_of (search w file fl'))) ->
  open_text w3 f3 = Ok (console c1 (output_of (search w1 f1 fl'))) ->
  same_findings fl' (search w1 f1 fl') fl (search w2 f2 fl) /\ search w3 f3 fl' = search w1 f1 fl'.
Proof.
  intros w file w1 f1 w2 f2 w3 f3 fl fl' t ls c1 c2 O L N R A A' O1 O2 O3. destruct (C78_picked fl fl' ls R) as (ts & P).
  assert (P' : picked (fun t => matches fl' t /\ matches fl t) ls ts) by (clear - P; induction P; [constructor|apply picked_yes|apply (picked_no _ _ _ t)|apply picked_other]; tauto).
  pose proof (c78_again w file w1 f1 fl fl' t ls ts c1 O L N A O1 P) as E1. pose proof (c78_again w file w2 f2 fl' fl t ls ts c2 O L N A' O2 P') as E2.
  split; [right; eexists _, _, _, _; split; [exact E1|]; split; [exact E2|]; split; apply found_summary|].
  rewrite E1 in O3 |- *. cbn [output_of fst] in O3.
  assert (OL : Forall (fun e => one_line (event_line c1 e)) (map EvPrint ts) /\ Forall no_leading_space ts /\ picked (fun t => matches fl' t /\ matches fl' t) ts ts).
  { pose proof (lines_one_line _ _ L) as OL. clear - P OL N. induction P as [|l ls t ts R T [M1 M2] P IH|l ls t ts R T M P IH|l ls ts R P IH]; try (inversion OL; inversion N; subst; auto; fail); [repeat split; constructor|].
    inversion OL as [|? ? X1 X2]; inversion N as [|? ? Y1 Y2]; subst. destruct (IH Y2 X2) as (I1 & I2 & I3). pose proof (trimmed_unique _ _ T) as E.
    assert (T' : trimmed t t) by (destruct T as (X & Y & _); split; [exact X|split; [exact Y|]]; exists [], []; repeat split; try constructor; rewrite app_nil_r; reflexivity).
    split; [constructor; [cbn [event_line]; rewrite E; apply strip_one_line; exact X1|exact I1]|]. split; [constructor; [apply T|exact I2]|].
    apply picked_yes; auto. rewrite <- R. f_equal. rewrite E. symmetry. apply again_read; assumption. }
  destruct OL as (OL & NL & PP). destruct (colored_line c1 (List.length ts) fl' A') as [K1 K2].
  assert (L3 : lines_of (console c1 (map EvPrint ts ++ [found (List.length ts) fl'])) (map (event_line c1) (map EvPrint ts ++ [found (List.length ts) fl']))).
  { apply console_lines_of. apply Forall_app. split; [exact OL|repeat constructor; exact K1]. }
  assert (ML : map (event_line c1) (map EvPrint ts ++ [found (List.length ts) fl']) = ts ++ [event_line c1 (found (List.length ts) fl')]).
  { rewrite map_app, map_map. cbn [event_line]. rewrite map_id. reflexivity. }
  rewrite ML in L3. rewrite (search_found w3 f3 fl' _ _ (map (fun t => ([EvPrint t], 1)) ts ++ [([], 0)]) O3 L3).
  - rewrite !map_app, concat_app, list_sum_app, !map_map. cbn [map fst snd List.concat list_sum fold_right]. rewrite !app_nil_r, Nat.add_0_r.
    assert (Z : list_sum (map (fun _ => 1) ts) = List.length ts) by (clear; induction ts as [|t ts IH]; [reflexivity|cbn [map list_sum fold_right]; change (fold_right Nat.add 0 (map (fun _ => 1) ts)) with (list_sum (map (fun _ => 1) ts)); rewrite IH; reflexivity]).
    rewrite Z. assert (Y : List.concat (map (fun x => [EvPrint x]) ts) = map EvPrint ts) by (clear; induction ts as [|t ts IH]; [reflexivity|cbn; rewrite IH; reflexivity]). rewrite Y. reflexivity.
  - apply Forall2_app.
    + clear - PP. remember ts as us eqn:U in PP at 1. assert (X : forall us ts, picked (fun t => matches fl' t /\ matches fl' t) us ts -> List.length ts <= List.length us) by (clear; intros us ts H; induction H; cbn; lia).
      subst us. induction ts as [|t ts IH]; [constructor|]. cbn [map]. inversion PP as [|? ? ? ? R T [M _] P|? ? ? ? R T M P|? ? ? R P]; subst; [constructor; [apply rep_found; assumption|apply IH; assumption]|apply X in P; cbn in P; lia|apply X in P; cbn in P; lia].
    + constructor; [|constructor]. cbn [fst snd]. pose proof (no_record_read _ K2) as Q.
      replace (@nil event) with (printed (read new_record (event_line c1 (found (List.length ts) fl')))) by (rewrite Q; reflexivity). apply rep_none. rewrite Q. reflexivity.
Qed.
Print Assumptions C78_order.
(* reading a file with what search has printed is reading a file of the records found *)
Theorem C78_read : forall w file w' file' w'' file'' fl t t' ls ts colours output, open_text w file = Ok t -> lines_of t ls -> asked_on_one_line fl ->
  open_text w' file' = Ok (console colours (output_of (search w file fl))) -> picked (matches fl) ls ts -> open_text w'' file'' = Ok t' -> lines_of t' ts ->
  read_file w' file' output = read_file w'' file'' output.
Proof. exact c78_read. Qed.
Print Assumptions C78_read.
(* not so for lines that start with white space: this one is found, but what is printed is not found again *)
Definition l_shifted : str := lit " SSAP KSEAK1ASEA     110000119Y N47265700W122182910E019900429250SEA K11800018000CU00Y NAS    SEATTLE-TACOMA INTL            045698808".
Theorem C78_leading_space_refuted : exists w file w' file' fl, asked_on_one_line fl /\ open_text w file = Ok l_shifted /\
  open_text w' file' = Ok (console false (output_of (search w file fl))) /\
  search w file fl = ([EvPrint (tl l_shifted); EvColored (lit "green") (lit "Found 1 records that contain SEA")], Ok tt) /\
  search w' file' fl = ([EvColored (lit "red") (lit "Found 0 records that contain SEA")], Ok tt).
Proof.
  exists (disk l_shifted), (lit "d/f"), (disk (console false (output_of (search (disk l_shifted) (lit "d/f") (FStr (lit "SEA")))))), (lit "d/f"), (FStr (lit "SEA")).
  split; [apply one_line_b; reflexivity|]. split; [reflexivity|]. split; [reflexivity|]. split; vm_compute; reflexivity.
Qed.
Print Assumptions C78_leading_space_refuted.
(* nor for a question of several lines: it is repeated in the summary, where it may be found *)
Theorem C78_question_refuted : exists w file w' file' fl fl', open_text w' file' = Ok (console false (output_of (search w file fl))) /\
  search w file fl = ([found 0 fl], Ok tt) /\ search w' file' fl' = ([EvPrint l_sea; found 1 fl'], Ok tt).
Proof.
  exists (disk []), (lit "d/f"), (disk (console false (output_of (search (disk []) (lit "d/f") (FStr (10%N :: l_sea)))))), (lit "d/f"), (FStr (10%N :: l_sea)), (FStr (lit "SEATTLE")).
  split; [reflexivity|]. split; vm_compute; reflexivity.
Qed.
Print Assumptions C78_question_refuted.
Example C78_ex : picked (fun t => matches (FStr (lit "SEA")) t /\ matches (FList [lit "INTL"]) t) [l_sea; l_acv; lit "HDR not a record"; l_sea_cont] [l_sea] /\
  search (disk (console true (output_of (search (disk t_mixed) (lit "d/f") (FStr (lit "SEA")))))) (lit "d/f") (FList [lit "INTL"]) =
    ([EvPrint l_sea; EvColored (lit "green") (lit "Found 1 records that contain ['INTL']")], Ok tt).
Proof.
  split; [|vm_compute; reflexivity].
  assert (T : forall l, strip l = l -> trimmed l l) by (intros l H; rewrite <- H at 2; apply strip_trimmed).
  assert (C : forall s l, contains l (lit s) = true -> matches (FStr (lit s)) l) by (intros s l H; apply contains_iff; exact H).
  apply picked_yes; [vm_compute; reflexivity|apply T; vm_compute; reflexivity| |].
  - split; [apply C; vm_compute; reflexivity|]. constructor; [apply (C "INTL"); vm_compute; reflexivity|constructor].
  - apply (picked_no _ _ _ l_acv); [vm_compute; reflexivity|apply T; vm_compute; reflexivity| |].
    { intros [M _]. apply contains_iff in M. vm_compute in M. discriminate. }
    apply picked_other; [vm_compute; reflexivity|]. apply (picked_no _ _ _ l_sea_cont); [vm_compute; reflexivity|apply T; vm_compute; reflexivity| |constructor].
    intros [_ M]. inversion M as [|? ? M1 _]; subst. apply contains_iff in M1. vm_compute in M1. discriminate.
Qed.
