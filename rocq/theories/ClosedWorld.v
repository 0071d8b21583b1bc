(* The state that a session leaves, and that no file is open in it. *)
From Coq Require Import List String NArith ZArith Bool Arith Lia.
From Verif Require Import PyBase Record Api Utf8 PySyntax PyEval Source SrcCheck SrcSession Properties11 PyHeap HeapWorld PyCrash CrashProps CrashWorld ClosedProps.
Import ListNotations.
Open Scope string_scope.
Open Scope list_scope.
Local Open Scope nat_scope.

(* the state after the actions of a caller, each of which may have returned or raised *)
Fixpoint state_after (files : disk) (room : nat) (err : exc) (depth : nat) (s : hst) (l : list action) : option hst :=
  match l with
  | [] => Some s
  | a :: l' =>
      match crash_act files room err depth s a with
      | HOk _ s' | HRaise _ s' => state_after files room err depth s' l'
      | HStuck _ => None
      end
  end.
Definition goes_on {A} (files : disk) (room : nat) (err : exc) (depth : nat) (R : hres A) (l : list action) : option hst :=
  match R with HOk _ s => state_after files room err depth s l | _ => None end.
(* import arinc424, then the actions *)
Definition session_state (files : disk) (room : nat) (err : exc) (depth : nat) (l : list action) : option hst :=
  goes_on files room err depth (gimport_all source (failing source files room err) depth source (HSt [] [] [] [])) l.
Lemma source_tidy : forallb (fun p => forallb tidy (snd p)) source = true.
Proof. vm_compute. reflexivity. Qed.

Section World.
Variable files : disk.
Variable room : nat.
Variable err : exc.
Variable depth : nat.
Lemma filters_safe : forall fl, safe (hfilters fl) = true.
Proof. intros [s|l|t]; try reflexivity. cbn [hfilters safe]. apply strs_safe. reflexivity. Qed.
Lemma call_args_safe : forall q f args, call_of q = Some (f, args) -> svs args.
Proof.
  intros q f args H. destruct q; try discriminate H; cbn [call_of] in H; injection H as <- <-.
  - constructor; [reflexivity|]. destruct output; [constructor; [reflexivity|constructor]|constructor].
  - repeat constructor. apply filters_safe.
  - constructor; [reflexivity|]. destruct output; [constructor; [reflexivity|constructor]|constructor].
  - repeat constructor.
Qed.
Lemma method_args_safe : forall q a vars, method_of q = Some (a, vars) -> Forall (fun p => safe (snd p) = true) vars.
Proof. intros q a vars H. destruct q; try discriminate H; cbn [method_of] in H; injection H as <- <-; repeat constructor; try (destruct output; repeat constructor). Qed.
Lemma names_open : forall l, existsb (String.eqb "open") l = false -> forallb no_open (map EName l) = true.
Proof. induction l as [|x l IH]; intro H; [reflexivity|]. cbn [existsb] in H. apply orb_false_iff in H as [H1 H2]. cbn [map forallb no_open]. rewrite String.eqb_sym, H1. exact (IH H2). Qed.
Lemma method_names : forall q a vars, method_of q = Some (a, vars) -> existsb (String.eqb "open") (map fst vars) = false.
Proof. intros q a vars H. destruct q; try discriminate H; cbn [method_of] in H; injection H as <- <-; try reflexivity; destruct output; reflexivity. Qed.
Lemma act_good : forall s a, safe_st s -> good sv s (crash_act files room err depth s a).
Proof.
  intros s [x|x y|q|x q] S; cbn [crash_act].
  - eapply good_bind; [apply (call_good source source_tidy); [apply (run_good source source_tidy)|reflexivity|constructor|exact S]|]. intros w s1 W S1. split; [reflexivity|]. split; [apply local_safe; assumption|apply keeps_heap; reflexivity].
  - destruct (get y (hloc s)) eqn:G; [|exact I]. split; [reflexivity|]. split; [apply local_safe; [exact S|eapply get_safe; [exact (safe_loc _ S)|exact G]]|apply keeps_heap; reflexivity].
  - destruct (call_of q) as [[f args]|] eqn:C; [|exact I]. apply (call_good source source_tidy); [apply (run_good source source_tidy)|reflexivity|eapply call_args_safe; exact C|exact S].
  - destruct (get x (hloc s)) as [w|] eqn:G; [|exact I]. destruct (method_of q) as [[a vars]|] eqn:C; [|exact I]. unfold crash_method. 
    set (s0 := HSt (("r", w) :: vars) (hout s) (hglob s) (heap s)).
    assert (S0 : safe_st s0) by (destruct S as [L Gl H]; constructor; [constructor; [eapply get_safe; [exact L|exact G]|eapply method_args_safe; exact C]|exact Gl|exact H]).
    assert (N : no_open (ECall (EAttr (EName "r") a) (map EName (map fst vars)) []) = true) by (cbn [no_open String.eqb Ascii.eqb Bool.eqb negb andb forallb]; rewrite (names_open _ (method_names _ _ _ C)); reflexivity).
    pose proof (eval_good source source_tidy files room err (grun source (failing source files room err) depth) (run_good source source_tidy files room err depth) "caller" ("r" :: map fst vars) _ N s0 S0) as K.
    destruct (geval source _ _ "caller" _ _ s0) as [v s1|e s1|y]; [| |exact I]; cbn [finally].
    + destruct K as (K1 & K2 & K3). split; [exact K1|]. split; [constructor; [exact (safe_loc _ S)|exact (safe_glob _ K2)|exact (safe_heap _ K2)]|exact K3].
    + destruct K as (K2 & K3). split; [constructor; [exact (safe_loc _ S)|exact (safe_glob _ K2)|exact (safe_heap _ K2)]|exact K3].
Qed.
Lemma after_good : forall l s s', safe_st s -> state_after files room err depth s l = Some s' -> keeps s s'.
Proof.
  induction l as [|a l IH]; intros s s' S H; cbn [state_after] in H; [injection H as <-; apply keeps_refl|]. pose proof (act_good s a S) as K. destruct (crash_act files room err depth s a) as [w s1|e s1|y]; [| |discriminate H].
  - destruct K as (_ & K2 & K3). eapply keeps_trans; [exact K3|]. exact (IH _ _ K2 H).
  - destruct K as (K2 & K3). eapply keeps_trans; [exact K3|]. exact (IH _ _ K2 H).
Qed.
Lemma after_exists : forall l s vs o, crash_acts files room err depth s l = Some (vs, o) -> exists s', state_after files room err depth s l = Some s' /\ hout s' = o.
Proof.
  induction l as [|a l IH]; intros s vs o H; cbn [crash_acts state_after] in *; [injection H as _ <-; exists s; split; reflexivity|]. destruct (crash_act files room err depth s a) as [w s1|e s1|y]; [| |discriminate H].
  - destruct (plain w); [|discriminate H]. destruct (crash_acts files room err depth s1 l) as [[vs1 o1]|] eqn:E; [|discriminate H]. injection H as _ <-. exact (IH _ _ _ E).
  - destruct (crash_acts files room err depth s1 l) as [[vs1 o1]|] eqn:E; [|discriminate H]. injection H as _ <-. exact (IH _ _ _ E).
Qed.
Lemma goes_on_good : forall A (R : hres A) l s, good (fun _ => True) (HSt [] [] [] []) R -> goes_on files room err depth R l = Some s -> forall a bs, at_ s a <> Some (OFile bs).
Proof.
  intros A [u s1|e s1|y] l s K H a bs B; try discriminate H. destruct K as (_ & K2 & K3). cbn [goes_on] in H.
  destruct (K3 a (after_good l s1 s K2 H a (ex_intro _ bs B))) as [bs' Q]. unfold at_ in Q. cbn [heap] in Q. destruct a; discriminate Q.
Qed.
Lemma session_good : forall l s, session_state files room err depth l = Some s -> forall a bs, at_ s a <> Some (OFile bs).
Proof.
  intros l s. unfold session_state. apply goes_on_good. apply (import_good source source_tidy files room err depth source (HSt [] [] [] []) source_tidy). constructor; constructor.
Qed.
Lemma goes_on_exists : forall A (R : hres A) l vs o, match R with HOk _ s => crash_acts files room err depth s l | _ => None end = Some (vs, o) -> exists s, goes_on files room err depth R l = Some s /\ hout s = o.
Proof. intros A [u s1|e s1|y] l vs o H; try discriminate H. eapply after_exists. exact H. Qed.
Lemma session_exists : forall l vs o, crash_session files room err depth l = Some (vs, o) -> exists s, session_state files room err depth l = Some s /\ hout s = o.
Proof.
  intros l vs o. unfold crash_session, session_state. generalize (gimport_all source (failing source files room err) depth source (HSt [] [] [] [])). intro R. apply goes_on_exists.
Qed.
End World.
