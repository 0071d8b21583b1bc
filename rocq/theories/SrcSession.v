(* What a caller of the package sees: expressions such as r.read(line), evaluated with the source. *)
From Coq Require Import List String NArith ZArith Bool.
From Verif Require Import PyBase PyRepr StrFacts DecoderTables Decoder Layouts Json Record Api Utf8 PySyntax PyEval Source SrcFacts SrcDecoderProps4 SrcStart SrcClasses SrcAttrs SrcRead SrcMethods.
Import ListNotations.
Open Scope string_scope.
Open Scope list_scope.
Local Open Scope nat_scope.

(* the caller's variables: an object of the package, and texts and truth values; the package's own variables are
   `records`, and LegTypeDesc, to which look-ups of unknown keys add *)
Definition session (x : string) (kd : kind) (v : value) (vars : list (string * value)) (o : list event) (leg : list (str * value)) : st :=
  St ((x, (kd, v)) :: map (fun yv => (fst yv, (KRef, snd yv))) vars) o (globs leg recs).
(* x.a(arguments), the arguments being variables *)
Definition ask (files : disk) (depth : nat) (x a : string) (args : list string) (s : st) : ans :=
  eval source files (run source files depth) "caller" (ECall (EAttr (EName x) a) (map EName args) []) s Raised Done.
(* the answer that m describes: what is printed, what object the variable x holds then, and the value or the kind of exception *)
Definition gives {A} (toval : A -> value) (m : list event * value * result A) (x : string) (kd : kind) (vars : list (string * value)) (o : list event) (a : ans) : Prop :=
  match m with
  | (o', v, Ok y) => exists leg, leg_ok leg /\ a = Done (toval y) (session x kd v vars (o ++ o') leg)
  | (o', v, Err e) => exists leg exc, leg_ok leg /\ e_kind exc = e /\ a = Raised exc (session x kd v vars (o ++ o') leg)
  end.
Definition on_record {A} (m : list event * rec * result A) : list event * value * result A := let '(o, r, y) := m in (o, rec_val r, y).
Lemma call_own : forall files n y a ps body attrs args s kx k,
  find_def (class_body source "arinc424.record" "Record") a = Some (ps, body) -> get a attrs = None -> existsb mutable args = false ->
  call_method source files (src_run files n) (Some (y, KOwn)) (VInst "arinc424.record" "Record" attrs) a args s kx k =
  src_run files n "arinc424.record" ps body KSelf (VInst "arinc424.record" "Record" attrs :: args) s
    (fun e s' => or_stuck "self" (self_value ps s') (fun v' => kx e (bind_local y KOwn v' (leave s s'))))
    (fun r s' => or_stuck "self" (self_value ps s') (fun v' => k r (bind_local y KOwn v' (leave s s')))).
Proof. intros files n y a ps body attrs args s kx k H G E. cbn [call_method]. rewrite G, H, E. reflexivity. Qed.
Lemma session_call : forall A (toval : A -> value) a xs args vars model files n r o leg,
  existsb (String.eqb a) ["primary"; "hasCont"; "validate"; "read"; "decode"; "json"] = true ->
  (forall s, s = session "r" KOwn (rec_val r) vars o leg ->
     ask files (S (S (S (S n)))) "r" a xs s = call_method source files (src_run files (S (S (S (S n))))) (Some ("r", KOwn)) (rec_val r) a args s Raised Done) ->
  existsb mutable args = false ->
  runs a args toval model -> leg_ok leg ->
  gives toval (on_record (model r)) "r" KOwn vars o (ask files (S (S (S (S n)))) "r" a xs (session "r" KOwn (rec_val r) vars o leg)).
Proof.
  intros A toval a xs args vars model files n r o leg I E U R L. rewrite (E _ eq_refl).
  assert (I' : existsb (String.eqb a) ["__init__"; "primary"; "hasCont"; "validate"; "read"; "decode"; "json"] = true) by (cbn [existsb] in *; rewrite I; apply orb_true_r).
  assert (G : get a [("ident", VStr (ident r)); ("raw", VStr (raw r)); ("continuation", VStr (continuation r)); ("fields", fvals (fields r)); ("definition", def_val (definition r))] = None).
  { apply existsb_exists in I. destruct I as (y & I & Y). apply String.eqb_eq in Y. subst y. cbn [In] in I. repeat (destruct I as [<-|I]; [reflexivity|]). destruct I. }
  unfold rec_val at 1, rec_obj. rewrite (call_own _ _ _ a _ _ _ args _ _ _ (rec_methods a I') G U). fold (rec_obj (ident r) (raw r) (continuation r) (fvals (fields r)) (def_val (definition r))). fold (rec_val r).
  assert (P : forall L o g v, get "self" L = Some (KSelf, v) -> self_value (fst (rec_method a)) (St L o g) = Some v).
  { intros L0 o0 g0 v0 H. assert (F : match fst (rec_method a) with (x, _) :: _ => x | [] => "" end = "self").
    { apply existsb_exists in I. destruct I as (y & I & Y). apply String.eqb_eq in Y. subst y. cbn [In] in I. repeat (destruct I as [<-|I]; [reflexivity|]). destruct I. }
    unfold self_value. destruct (fst (rec_method a)) as [|[x0 ?] ?]; [discriminate|]. subst x0. cbn [loc]. rewrite H. reflexivity. }
  set (s := session "r" KOwn (rec_val r) vars o leg). set (kx := fun e s' => or_stuck _ _ _). set (k := fun r0 s' => or_stuck _ _ _).
  destruct (R files n r (loc s) o leg kx k L) as (leg' & L' & K & H).
  change (St (loc s) o (globs leg recs)) with s in H. destruct (model r) as [[o' r'] [y|e]]; cbn [on_record gives].
  - destruct H as [S1 H]. exists leg'. split; [exact K|]. rewrite H. unfold k. rewrite (P _ _ _ _ S1). reflexivity.
  - destruct H as [S1 (x & X & H)]. exists leg', x. split; [exact K|]. split; [exact X|]. rewrite H. unfold kx. rewrite (P _ _ _ _ S1). reflexivity.
Qed.
Ltac by_session H :=
  match goal with |- gives ?toval _ _ _ ?vars ?o (ask ?files (S (S (S (S ?n)))) _ ?a ?xs (session _ _ (rec_val ?r) _ _ ?leg)) =>
    let m := type of H in
    lazymatch m with runs _ ?args _ ?model =>
      apply (session_call _ toval a xs args vars model files n r o leg); [reflexivity|intros s ->; reflexivity|reflexivity|exact H|assumption]
    end
  end.
Definition no_files : disk := Disk (fun _ => Err OSError) (fun _ => Err OSError).
