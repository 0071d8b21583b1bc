(* Callers, as in HeapWorld.v, with a console that takes a number of prints and no more. *)
From Coq Require Import List String NArith ZArith Bool Arith Lia.
From Verif Require Import PyBase Record Api Utf8 PySyntax PyEval Source SrcCheck SrcSession PyHeap HeapWorld PyCrash CrashProps.
Import ListNotations.
Open Scope string_scope.
Open Scope list_scope.
Local Open Scope nat_scope.

Section World.
Variable files : disk.
Variable room : nat.
Variable err : exc.
Variable depth : nat.
Notation prim := (failing source files room err).
Definition crash_method (w : hval) (a : string) (vars : list (string * hval)) (s : hst) : hres hval :=
  finally (geval source prim (grun source prim depth) "caller" ("r" :: map fst vars) (ECall (EAttr (EName "r") a) (map EName (map fst vars)) [])
             (HSt (("r", w) :: vars) (hout s) (hglob s) (heap s)))
          (fun s' => HSt (hloc s) (hout s') (hglob s') (heap s')).
Definition crash_act (s : hst) (a : action) : hres hval :=
  match a with
  | Make x => hbind (gcall_value source prim (grun source prim depth) (HClass "arinc424.record" "Record") [] [] s) (fun w s => HOk HNone (hbind_local x w s))
  | Let x y => match get y (hloc s) with Some w => HOk HNone (hbind_local x w s) | None => HStuck y end
  | Call q => match call_of q with Some (f, args) => gcall_value source prim (grun source prim depth) (HFun "arinc424" f) args [] s | None => HStuck "call" end
  | On x q =>
      match get x (hloc s), method_of q with
      | Some w, Some (a, vars) => crash_method w a vars s
      | _, _ => HStuck x
      end
  end.
Fixpoint crash_acts (s : hst) (l : list action) : option (list (result value) * list event) :=
  match l with
  | [] => Some ([], hout s)
  | a :: l' =>
      match crash_act s a with
      | HStuck _ => None
      | HOk w s' => match plain w, crash_acts s' l' with Some v, Some (vs, o) => Some (Ok v :: vs, o) | _, _ => None end
      | HRaise e s' => match crash_acts s' l' with Some (vs, o) => Some (Err (e_kind e) :: vs, o) | None => None end
      end
  end.
(* import arinc424; then the actions *)
Definition crash_session (l : list action) : option (list (result value) * list event) :=
  match gimport_all source prim depth source (HSt [] [] [] []) with
  | HOk _ s => crash_acts s l
  | _ => None
  end.

Hypothesis source_calm : calm_prog source source = true.
Notation related := (crash room err).
Lemma act_crash : forall s a, related s (heap_act files depth s a) (crash_act s a).
Proof.
  intros s [x|x y|q|x q]; cbn [heap_act crash_act].
  - apply crash_bind; [apply crash_call; [exact source_calm|apply crash_run; exact source_calm]|]. intros w s1. apply crash_ok; reflexivity.
  - destruct (get y (hloc s)); [|exact (fun _ => I)]. apply crash_ok; reflexivity.
  - destruct (call_of q) as [[f args]|]; [|exact (fun _ => I)]. apply crash_call; [exact source_calm|apply crash_run; exact source_calm].
  - destruct (get x (hloc s)) as [w|]; [|exact (fun _ => I)]. destruct (method_of q) as [[a vars]|]; [|exact (fun _ => I)]. unfold heap_method, crash_method.
    apply crash_finally; [reflexivity|reflexivity|]. eapply crash_out; [| |apply crash_eval; [exact source_calm|apply crash_run; exact source_calm]]; [reflexivity|exact (fun v => v)].
Qed.
Lemma acts_grow : forall l s vs o, Inv s -> heap_acts files depth s l = Some (vs, o) -> exists d, o = hout s ++ d.
Proof.
  induction l as [|a l IH]; intros s vs o V H; cbn [heap_acts] in H; [injection H as _ <-; exists []; rewrite app_nil_r; reflexivity|].
  pose proof (act_crash s a V) as K. destruct (heap_act files depth s a) as [w s1|e s1|w]; [| |discriminate H]; destruct K as [V1 [[d G] _]].
  - destruct (plain w); [|discriminate H]. destruct (heap_acts files depth s1 l) as [[vs1 o1]|] eqn:E; [|discriminate H]. injection H as _ <-. destruct (IH _ _ _ V1 E) as (d' & ->). exists (d ++ d'). rewrite G, app_assoc. reflexivity.
  - destruct (heap_acts files depth s1 l) as [[vs1 o1]|] eqn:E; [|discriminate H]. injection H as _ <-. destruct (IH _ _ _ V1 E) as (d' & ->). exists (d ++ d'). rewrite G, app_assoc. reflexivity.
Qed.
Lemma acts_enough : forall l s vs o, Inv s -> heap_acts files depth s l = Some (vs, o) -> List.length o <= room -> crash_acts s l = Some (vs, o).
Proof.
  induction l as [|a l IH]; intros s vs o V H L; [exact H|]. cbn [heap_acts crash_acts] in *. pose proof (act_crash s a V) as K.
  assert (W : forall s1 vs1 o1, Inv s1 -> heap_acts files depth s1 l = Some (vs1, o1) -> List.length o1 <= room -> within room s1).
  { intros s1 vs1 o1 V2 E L1. destruct (acts_grow _ _ _ _ V2 E) as (d & ->). rewrite app_length in L1. unfold within. lia. }
  destruct (heap_act files depth s a) as [w s1|e s1|w]; [| |discriminate H]; destruct K as [V1 [[d G] K]].
  - destruct (plain w) eqn:P; [|discriminate H]. destruct (heap_acts files depth s1 l) as [[vs1 o1]|] eqn:E; [|discriminate H]. injection H as <- <-. pose proof (W _ _ _ V1 E L) as W1.
    assert (W0 : within room s) by (unfold within in *; rewrite G, app_length in W1; lia). rewrite (proj1 (K W0) W1), P, (IH _ _ _ V1 E L). reflexivity.
  - destruct (heap_acts files depth s1 l) as [[vs1 o1]|] eqn:E; [|discriminate H]. injection H as <- <-. pose proof (W _ _ _ V1 E L) as W1.
    assert (W0 : within room s) by (unfold within in *; rewrite G, app_length in W1; lia). rewrite (proj1 (K W0) W1), (IH _ _ _ V1 E L). reflexivity.
Qed.
Lemma acts_fail : forall l a s vs o vs' o', Inv s -> heap_acts files depth s l = Some (vs, o) -> heap_acts files depth s (l ++ [a]) = Some (vs', o') -> List.length o <= room < List.length o' ->
  crash_acts s (l ++ [a]) = Some (vs ++ [Err (e_kind err)], firstn room o').
Proof.
  induction l as [|b l IH]; intros a s vs o vs' o' V H H' L.
  - cbn [heap_acts] in H. injection H as <- <-. cbn [List.app heap_acts crash_acts] in *. pose proof (act_crash s a V) as K.
    destruct (heap_act files depth s a) as [w s1|e s1|w]; [| |discriminate H']; destruct K as [_ [_ K]].
    + destruct (plain w); [|discriminate H']. injection H' as <- <-. destruct (proj2 (K (proj1 L))) as (s2 & -> & ->); [unfold within; lia|reflexivity].
    + injection H' as <- <-. destruct (proj2 (K (proj1 L))) as (s2 & -> & ->); [unfold within; lia|reflexivity].
  - cbn [List.app heap_acts crash_acts] in *. pose proof (act_crash s b V) as K.
    assert (W : forall s1 vs1 o1, Inv s1 -> heap_acts files depth s1 l = Some (vs1, o1) -> List.length o1 <= room -> within room s1).
    { intros s1 vs1 o1 V2 E L1. destruct (acts_grow _ _ _ _ V2 E) as (d & ->). rewrite app_length in L1. unfold within. lia. }
    destruct (heap_act files depth s b) as [w s1|e s1|w]; [| |discriminate H]; destruct K as [V1 [[d G] K]].
    + destruct (plain w) eqn:P; [|discriminate H]. destruct (heap_acts files depth s1 l) as [[vs1 o1]|] eqn:E; [|discriminate H]. destruct (heap_acts files depth s1 (l ++ [a])) as [[vs2 o2]|] eqn:E'; [|discriminate H'].
      injection H as <- <-. injection H' as <- <-. pose proof (W _ _ _ V1 E (proj1 L)) as W1.
      assert (W0 : within room s) by (unfold within in *; rewrite G, app_length in W1; lia). rewrite (proj1 (K W0) W1), P, (IH _ _ _ _ _ _ V1 E E' L). reflexivity.
    + destruct (heap_acts files depth s1 l) as [[vs1 o1]|] eqn:E; [|discriminate H]. destruct (heap_acts files depth s1 (l ++ [a])) as [[vs2 o2]|] eqn:E'; [|discriminate H'].
      injection H as <- <-. injection H' as <- <-. pose proof (W _ _ _ V1 E (proj1 L)) as W1.
      assert (W0 : within room s) by (unfold within in *; rewrite G, app_length in W1; lia). rewrite (proj1 (K W0) W1), (IH _ _ _ _ _ _ V1 E E' L). reflexivity.
Qed.
End World.
(* the one try statement of the package has a body that prints nothing *)
Lemma source_calm : calm_prog source source = true.
Proof. vm_compute. reflexivity. Qed.
Lemma start_inv : Inv (HSt [] [] [] []).
Proof. intro m. reflexivity. Qed.
Lemma import_crash : forall files room err n, crash room err (HSt [] [] [] []) (HOk tt hs0) (gimport_all source (failing source files room err) (S (S n)) source (HSt [] [] [] [])).
Proof. intros files room err n. rewrite <- (heap_import files n). apply crash_import; exact source_calm. Qed.
Lemma crash_import_same : forall files room err n, gimport_all source (failing source files room err) (S (S n)) source (HSt [] [] [] []) = HOk tt hs0.
Proof.
  intros files room err n. destruct (import_crash files room err n start_inv) as [_ [_ K]].
  apply K; unfold within; vm_compute; apply Nat.le_0_l.
Qed.
Lemma hs0_inv : Inv hs0.
Proof. exact (proj1 (import_crash (Disk (fun _ => Err OSError) (fun _ => Err OSError)) 0 (Exc OSError None) 0 start_inv)). Qed.
Lemma heap_session_is : forall files n l, heap_session files (S (S n)) l = heap_acts files (S (S n)) hs0 l.
Proof. intros files n l. unfold heap_session. rewrite heap_import. reflexivity. Qed.
Lemma crash_session_is : forall files room err n l, crash_session files room err (S (S n)) l = crash_acts files room err (S (S n)) hs0 l.
Proof. intros files room err n l. unfold crash_session. rewrite crash_import_same. reflexivity. Qed.
Lemma session_enough : forall files room err n l vs o, heap_session files (S (S n)) l = Some (vs, o) -> List.length o <= room -> crash_session files room err (S (S n)) l = Some (vs, o).
Proof. intros files room err n l vs o H L. rewrite heap_session_is in H. rewrite crash_session_is. apply acts_enough; [exact source_calm|exact hs0_inv|exact H|exact L]. Qed.
Lemma session_fail : forall files room err n l a vs o vs' o', heap_session files (S (S n)) l = Some (vs, o) -> heap_session files (S (S n)) (l ++ [a]) = Some (vs', o') ->
  List.length o <= room < List.length o' -> crash_session files room err (S (S n)) (l ++ [a]) = Some (vs ++ [Err (e_kind err)], firstn room o').
Proof. intros files room err n l a vs o vs' o' H H' L. rewrite heap_session_is in H, H'. rewrite crash_session_is. eapply acts_fail; [exact source_calm|exact hs0_inv|exact H|exact H'|exact L]. Qed.
