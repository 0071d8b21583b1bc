(* C77: callers with several Record objects and several names for them, in the interpreter with a heap. *)
From Coq Require Import List String NArith ZArith Bool Lia.
From Verif Require Import PyBase PyRepr StrFacts Utf8Props SpecLayouts Spec ReadProps2 ReadProps3 SpecRecord RecordProps DecoderTables Decoder Layouts Json Record Api Utf8 PySyntax PyEval Source SrcFacts SrcStart SrcCheck SrcClasses SrcRead SrcMethods SrcSession SrcApi SrcApi2 Samples.
From Verif Require Import PyHeap HeapRep HeapCheck HeapInv HeapSim HeapCalls HeapMethods HeapEval HeapExec HeapRun Properties11 HeapWorld.
Import ListNotations.
Open Scope string_scope.
Open Scope list_scope.
Local Open Scope nat_scope.

(* ================= C77: objects with identity ================= *)
(* whatever is done in whatever order: the text of the package, run with objects that have addresses, does what the model says *)
Theorem C77_session : forall files n l, heap_session files (7 + n) l = acts files [] [] [] l.
Proof.
  intros files n l. unfold heap_session. change (7 + n) with (S (S (5 + n))). rewrite heap_import. change (S (S (5 + n))) with (7 + n). apply (acts_stand files n l (G hg0) [] [] [] leg0 []). constructor.
  - exact leg0_ok.
  - exact base0.
  - constructor.
  - constructor.
  - intro x. reflexivity.
Qed.
Print Assumptions C77_session.
(* two names for one object: what is done through one is seen through the other *)
Theorem C77_two_names : forall files n x y q1 q2, x <> y -> is_method q1 = true -> is_method q2 = true -> exists v1 v2 o,
  heap_session files (7 + n) [Make x; On x q1; On x q2] = Some ([Ok VNone; v1; v2], o) /\
  heap_session files (7 + n) [Make x; Let y x; On y q1; On x q2] = Some ([Ok VNone; Ok VNone; v1; v2], o).
Proof.
  intros files n x y q1 q2 N M1 M2.
  destruct (reply files new_record q1) as [[o1 r1] v1] eqn:R1. destruct (reply files r1 q2) as [[o2 r2] v2] eqn:R2. exists v1, v2, (o1 ++ o2). rewrite !C77_session.
  assert (E : String.eqb y x = false) by (apply String.eqb_neq; congruence). assert (E' : String.eqb x y = false) by (apply String.eqb_neq; exact N).
  split; cbn; rewrite ?String.eqb_refl, ?E, ?E'; cbn; rewrite ?String.eqb_refl, ?E, ?E', ?M1; cbn; rewrite R1; cbn; rewrite ?M2, ?String.eqb_refl, ?E, ?E'; cbn; rewrite R2; reflexivity.
Qed.
Print Assumptions C77_two_names.
(* an object that the caller does not touch stays what it was, whatever is done with others *)
Definition untouched (y : string) (a : action) : bool :=
  match a with Make x => negb (String.eqb x y) | Let x z => negb (String.eqb x y) && negb (String.eqb z y) | Call _ => true | On x _ => negb (String.eqb x y) end.
Lemma replace_other : forall A (l : list A) i j a, i <> j -> nth_error (replace i a l) j = nth_error l j.
Proof. intros A. induction l as [|b l IH]; intros [|i] [|j] a N; try reflexivity; try lia. cbn. apply IH. lia. Qed.
Lemma acts_apart : forall files l y q env rs o i r vs o', forallb (untouched y) l = true -> get y env = Some i -> nth_error rs i = Some r -> (forall x, get x env = Some i -> x = y) ->
  acts files env rs o (l ++ [On y q]) = Some (vs, o') -> exists vs' o'', vs = vs' ++ [snd (reply files r q)] /\ o' = o'' ++ fst (fst (reply files r q)).
Proof.
  intros files l. induction l as [|a l IH]; intros y q env rs o i r vs o' U Gy Nr D H.
  - cbn [List.app acts act] in H. destruct (is_method q); [|discriminate H]. rewrite Gy, Nr in H. destruct (reply files r q) as [[o1 r1] v]. injection H as <- <-. exists [], o. split; reflexivity.
  - cbn [forallb] in U. apply andb_true_iff in U. destruct U as [Ua U]. cbn [List.app acts] in H. destruct (act files env rs a) as [[[[o1 env1] rs1] v]|] eqn:Ea; [|discriminate H].
    destruct (acts files env1 rs1 (o ++ o1) (l ++ [On y q])) as [[vs1 o2]|] eqn:E; [|discriminate H]. injection H as <- <-.
    assert (K : get y env1 = Some i /\ nth_error rs1 i = Some r /\ forall x, get x env1 = Some i -> x = y).
    { assert (Li : i < List.length rs) by (apply nth_error_Some; congruence). destruct a as [x|x z|q'|x q']; cbn [act untouched] in *.
      - injection Ea as <- <- <- <-. apply negb_true_iff, String.eqb_neq in Ua. split; [rewrite get_set_other by congruence; exact Gy|]. split; [rewrite nth_error_app1; assumption|].
        intros x' Q. destruct (String.eqb_spec x' x) as [->|Ne]; [rewrite get_set_same in Q; injection Q as Q; lia|]. rewrite get_set_other in Q by exact Ne. exact (D x' Q).
      - apply andb_true_iff in Ua. destruct Ua as [U1 U2]. apply negb_true_iff, String.eqb_neq in U1, U2. destruct (get z env) as [j|] eqn:Gz; [|discriminate Ea]. injection Ea as <- <- <- <-.
        split; [rewrite get_set_other by congruence; exact Gy|]. split; [exact Nr|]. intros x' Q. destruct (String.eqb_spec x' x) as [->|Ne]; [rewrite get_set_same in Q; injection Q as ->; destruct (U2 (D z Gz))|]. rewrite get_set_other in Q by exact Ne. exact (D x' Q).
      - destruct (is_call q'); [|discriminate Ea]. destruct (reply files new_record q') as [[? ?] ?]. injection Ea as <- <- <- <-. repeat split; assumption.
      - apply negb_true_iff, String.eqb_neq in Ua. destruct (is_method q'); [|discriminate Ea]. destruct (get x env) as [j|] eqn:Gx; [|discriminate Ea]. destruct (nth_error rs j) as [r'|] eqn:Nj; [|discriminate Ea].
        destruct (reply files r' q') as [[? ?] ?]. injection Ea as <- <- <- <-. split; [exact Gy|]. split; [|exact D]. rewrite replace_other; [exact Nr|]. intros ->. exact (Ua (D x Gx)). }
    destruct K as (K1 & K2 & K3). destruct (IH y q env1 rs1 (o ++ o1) i r vs1 o2 U K1 K2 K3 E) as (vs' & o'' & -> & ->). exists (v :: vs'), o''. split; reflexivity.
Qed.
Theorem C77_apart : forall files n y q1 q2 l vs o, forallb (untouched y) l = true -> is_method q1 = true -> is_method q2 = true ->
  heap_session files (7 + n) (Make y :: On y q1 :: l ++ [On y q2]) = Some (vs, o) ->
  exists v1 v2 o12 vs' o', heap_session files (7 + n) [Make y; On y q1; On y q2] = Some ([Ok VNone; v1; v2], o12) /\ vs = Ok VNone :: v1 :: vs' ++ [v2] /\
    o = o' ++ fst (fst (reply files (snd (fst (reply files new_record q1))) q2)).
Proof.
  intros files n y q1 q2 l vs o U M1 M2. rewrite !C77_session. cbn [acts act]. rewrite M1. cbn [set get]. rewrite String.eqb_refl. cbn [List.length List.app nth_error replace].
  destruct (reply files new_record q1) as [[o1 r1] v1]. cbn [fst snd replace]. intro H. destruct (acts files [(y, 0)] [r1] o1 (l ++ [On y q2])) as [[vs1 o2]|] eqn:E; [|discriminate H]. injection H as <- <-.
  destruct (acts_apart files l y q2 [(y, 0)] [r1] o1 0 r1 vs1 o2 U) as (vs' & o'' & -> & ->); [cbn; rewrite String.eqb_refl; reflexivity|reflexivity| |exact E|].
  - intros x Q. cbn in Q. destruct (String.eqb_spec x y); [assumption|discriminate Q].
  - cbn [get]. rewrite M2, String.eqb_refl. cbn [nth_error]. destruct (reply files r1 q2) as [[o3 r3] v2]. cbn [fst snd]. eexists _, _, _, _, _. split; [reflexivity|]. split; reflexivity.
Qed.
Print Assumptions C77_apart.
Example C77_ex : heap_session one_file 7 [Make "a"; Let "b" "a"; Make "c"; On "b" (QRead l_sea); On "a" QPrimary; On "c" QPrimary; On "c" (QRead l_airway_x); On "a" QHasCont; On "b" QPrimary; Make "a"; On "a" QPrimary; On "b" QPrimary] =
  Some ([Ok VNone; Ok VNone; Ok VNone; Ok (VBool true); Ok (VBool true); Ok (VBool false); Err ValueError; Ok (VBool true); Ok (VBool true); Ok VNone; Ok (VBool false); Ok (VBool true)], []).
Proof. vm_compute. reflexivity. Qed.
