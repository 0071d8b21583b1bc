(* PyHeap.v does what PyEval.v does: functions, to any depth of calls. *)
From Coq Require Import List String Ascii NArith ZArith Bool Lia.
From Verif Require Import PyBase PyRepr Json Record Api Utf8 PySyntax PyEval SrcCheck PyHeap HeapRep HeapCheck HeapInv HeapSim HeapCalls HeapMethods HeapEval HeapExec.
Import ListNotations.
Open Scope string_scope.
Open Scope list_scope.
Local Open Scope nat_scope.

Section Run.
Variable prog : list (string * pymodule).
Variable files : disk.
Variable hg : list (string * string * hval).
Hypothesis ok : prog_ok prog = true.
Notation base := (base prog hg).
Notation arg_in := (arg_in hg).
Notation G := (G hg).
Notation gn := (gn prog).

(* parameters *)
Definition param (P : value -> hval -> Prop) (p : string * (kind * value)) (q : string * hval) : Prop := fst p = fst q /\ fst (snd p) = KRef /\ P (snd (snd p)) (snd q).
Lemma params : forall (P : value -> hval -> Prop), (forall e v, const e = Some v -> exists w, hconst e = Some w /\ P v w) ->
  forall ps args hargs l, Forall2 P args hargs -> bind_params ps args = Some l ->
  exists hl, hbind_params ps hargs = Some hl /\ map fst l = map fst ps /\ Forall2 (param P) l hl.
Proof.
  intros P K ps. induction ps as [|[x d] ps IH]; intros args hargs l F E.
  - destruct F; [|discriminate E]. injection E as <-. exists []. repeat split. constructor.
  - destruct F as [|v w args hargs Pv F].
    + cbn in E. destruct d as [d|]; [|discriminate E]. destruct (const d) as [v|] eqn:Cd; [|discriminate E]. destruct (bind_params ps []) as [l'|] eqn:B; [|discriminate E]. injection E as <-.
      destruct (IH [] [] l' (Forall2_nil _) B) as (hl & H1 & H2 & H3). destruct (K d v Cd) as (w & H4 & H5). exists ((x, w) :: hl). cbn. rewrite H4, H1, H2. repeat split. constructor; [repeat split; exact H5|exact H3].
    + assert (E' : option_map (cons (x, (KRef, v))) (bind_params ps args) = Some l) by (destruct d; exact E). destruct (bind_params ps args) as [l'|] eqn:B; [|discriminate E']. injection E' as <-.
      destruct (IH args hargs l' F B) as (hl & H1 & H2 & H3). exists ((x, w) :: hl). cbn [map fst]. rewrite H2. split; [destruct d; cbn; rewrite H1; reflexivity|]. split; [reflexivity|]. constructor; [repeat split; exact Pv|exact H3].
Qed.
Lemma param_get : forall P l hl x kd v, Forall2 (param P) l hl -> get x l = Some (kd, v) -> kd = KRef /\ exists w, get x hl = Some w /\ P v w.
Proof.
  intros P l hl x kd v F. induction F as [|[y [ky u]] [z w] l hl (E1 & E2 & E3) F IH]; [discriminate|]. cbn in *. subst z ky. destruct (String.eqb x y); [|exact IH]. intro Q. injection Q as <- <-. split; [reflexivity|]. exists w. split; [reflexivity|exact E3].
Qed.
Lemma get_fst : forall A x (v : A) l, get x l = Some v -> In x (map fst l).
Proof. intros A x v l. apply get_in. Qed.
Lemma has_names : forall (ps : list (string * option expr)) body x, In x (map fst ps) -> has (local_names ps body) x = true.
Proof. intros ps body x H. apply has_in. unfold local_names. apply in_or_app. left. exact H. Qed.

(* the variables of the called function at the start *)
Lemma start_inv : forall ps body kd args hargs X self s hs l, distinct_names (map fst ps) = true -> base X s hs -> callee hg X self kd args hargs hs -> bind_params ps args = Some l ->
  exists hl, hbind_params ps hargs = Some hl /\
    Inv prog hg (local_names ps body) (map fst ps) X (fun a => G a \/ is_self self a) (St (hold_first kd l) (out s) (glob s)) (HSt hl (hout hs) (hglob hs) (heap hs)) /\
    match self with Some r => exists x v ps' d, ps = (x, d) :: ps' /\ get x (hold_first kd l) = Some (KSelf, v) /\ get x hl = Some (HRef r) | None => True end.
Proof.
  intros ps body kd args hargs X self s hs l D B CE BP. pose proof (distinct_nodup _ D) as ND. pose proof (b_G _ _ _ _ _ B) as GX.
  assert (B' : forall l1 l2, base X (St l1 (out s) (glob s)) (HSt l2 (hout hs) (hglob hs) (heap hs))) by (intros l1 l2; eapply base_loc; [exact B|reflexivity..]).
  destruct self as [r|]; cbn [callee] in CE.
  - destruct CE as (-> & v0 & rest & hrest & o & -> & -> & M0 & At & O & Xr & NG & F). destruct ps as [|[x d] ps]; [discriminate BP|].
    assert (BP' : option_map (cons (x, (KRef, v0))) (bind_params ps rest) = Some l) by (destruct d; exact BP). destruct (bind_params ps rest) as [l'|] eqn:BQ; [|discriminate BP']. injection BP' as <-.
    destruct (params (fun v w => arg_in (heap hs) X v w /\ w <> HRef r)) with (ps := ps) (args := rest) (hargs := hrest) (l := l') as (hl & H1 & H2 & H3); [|exact F|exact BQ|].
    { intros e v E. destruct (expr_const_rep (heap hs) X e v E) as (w & Ew & Rw). exists w. split; [exact Ew|]. split; [apply arg_rep; assumption|]. intros ->. destruct (mutable v) eqn:M.
      - apply rep_mutable in Rw; [|exact M]. destruct Rw as (a & o' & Ea & Na & _). injection Ea as <-. contradiction.
      - exact (rep_ref _ _ _ _ M Rw r eq_refl). }
    exists ((x, HRef r) :: hl). cbn [hbind_params]. split; [destruct d; rewrite H1; reflexivity|]. cbn [map fst] in ND. inversion ND as [|? ? Nx ND']; subst.
    split; [|exists x, v0, ps, d; cbn; rewrite String.eqb_refl; repeat split]. cbn [hold_first].
    assert (L1 : forall y ky v, get y ((x, (KSelf, v0)) :: l') = Some (ky, v) -> (y = x /\ ky = KSelf /\ v = v0) \/ (y <> x /\ In y (map fst ps) /\ ky = KRef /\ exists w, get y hl = Some w /\ arg_in (heap hs) X v w /\ w <> HRef r)).
    { intros y ky v Q. cbn in Q. destruct (String.eqb_spec y x) as [->|Ne].
      - injection Q as <- <-. left. repeat split.
      - right. split; [exact Ne|]. destruct (param_get _ _ _ _ _ _ H3 Q) as (-> & w & K1 & K2). apply get_in in Q. rewrite H2 in Q. repeat split; try assumption. exists w. split; assumption. }
    constructor.
    + apply B'.
    + intros a [H|H]; [exact (GX a H)|]. unfold is_self in H. injection H as <-. exact Xr.
    + intros a H. left. exact H.
    + cbn [loc map fst]. rewrite H2. exact ND.
    + intros y ky v Q. cbn [loc hloc heap] in *. destruct (L1 y ky v Q) as [(-> & -> & ->)|(Ne & Iy & -> & w & K1 & K2 & K3)].
      * split; [apply has_names; left; reflexivity|]. split; [intros _; apply has_in; left; reflexivity|]. exists (HRef r). cbn. rewrite String.eqb_refl. split; [reflexivity|]. unfold var_in. rewrite M0. cbn.
        exists r, o. repeat split; try assumption. right. reflexivity.
      * split; [apply has_names; right; exact Iy|]. split; [discriminate|]. exists w. cbn [get]. destruct (String.eqb_spec y x); [contradiction|]. split; [exact K1|]. unfold var_in, HeapInv.arg_in in *. cbn [writable].
        destruct (mutable v); [|split; [reflexivity|exact K2]]. destruct K2 as (a & o' & -> & K4 & K5 & K6). exists a, o'. repeat split; try assumption. intros [H|H]; [exact (K6 H)|]. unfold is_self in H. congruence.
    + intros y z ky vy kz vz a Qy Wy Hy Qz Wz Hz. cbn [loc] in *. destruct (L1 _ _ _ Qy) as [(-> & _)|(_ & _ & -> & _)]; [|discriminate Wy]. destruct (L1 _ _ _ Qz) as [(-> & _)|(_ & _ & -> & _)]; [|discriminate Wz]. reflexivity.
  - destruct CE as (-> & F). destruct (params (arg_in (heap hs) X)) with (ps := ps) (args := args) (hargs := hargs) (l := l) as (hl & H1 & H2 & H3); [|exact F|exact BP|].
    { intros e v E. destruct (expr_const_rep (heap hs) X e v E) as (w & Ew & Rw). exists w. split; [exact Ew|]. apply arg_rep; assumption. }
    exists hl. split; [exact H1|]. split; [|exact Logic.I].
    assert (E : hold_first KRef l = l) by (destruct H3 as [|[y [ky u]] q l hl (_ & K & _) H3]; [reflexivity|]; cbn in K |- *; subst ky; reflexivity). rewrite E.
    constructor.
    + apply B'.
    + intros a [H|H]; [exact (GX a H)|discriminate H].
    + intros a H. left. exact H.
    + cbn [loc]. rewrite H2. exact ND.
    + intros y ky v Q. cbn [loc hloc heap] in *. destruct (param_get _ _ _ _ _ _ H3 Q) as (-> & w & K1 & K2). apply get_in in Q. rewrite H2 in Q.
      split; [apply has_names; exact Q|]. split; [discriminate|]. exists w. split; [exact K1|]. unfold var_in, HeapInv.arg_in in *. cbn [writable].
      destruct (mutable v); [|split; [reflexivity|exact K2]]. destruct K2 as (a & o' & -> & K4 & K5 & K6). exists a, o'. repeat split; try assumption. intros [H|H]; [exact (K6 H)|]. discriminate H.
    + intros y z ky vy kz vz a Qy Wy Hy Qz Wz Hz. cbn [loc] in *. destruct (param_get _ _ _ _ _ _ H3 Qy) as (-> & _). discriminate Wy.
Qed.

Lemma run_step : forall n, run_ok prog files hg n -> run_ok prog files hg (S n).
Proof.
  intros n RUN m ps body kd args hargs X self s hs kx k FO B CE Go. unfold fn_ok in FO. apply andb_true_iff in FO. destruct FO as [FO Bo]. apply andb_true_iff in FO. destruct FO as [D LV].
  cbn [run hrun] in *. destruct (bind_params ps args) as [l|] eqn:BP; [|contradiction]. destruct (start_inv ps body kd args hargs X self s hs l D B CE BP) as (hl & HB & I & SF). rewrite HB.
  set (C := fun a => G a \/ is_self self a) in *. set (s0 := St (hold_first kd l) (out s) (glob s)) in *. set (hs0 := HSt hl (hout hs) (hglob hs) (heap hs)) in *.
  unfold exec_block, hexec_block in *.
  assert (BK : block_ok prog m (local_names ps body) (map fst ps) body).
  { split; [apply Forall_forall; intros c Hc; exact (proj1 (forallb_forall _ _) Bo c Hc)|]. intros x Hx. apply has_in. unfold local_names. apply in_or_app. right. exact Hx. }
  assert (FC : Forall (csim prog files hg n m (local_names ps body) (map fst ps)) body) by (apply Forall_forall; intros c _; apply exec_sim; assumption).
  pose proof (block_sim prog files hg n m (local_names ps body) (map fst ps) body X C s0 hs0 kx k _ _ FC BK I Go) as H.
  assert (AF : forall X' C' s' hs', sstep prog hg (local_names ps body) (map fst ps) X C s0 hs0 X' C' s' hs' -> after prog hg X self ps hs X' s' (HSt (hloc hs) (hout hs') (hglob hs') (heap hs'))).
  { intros X' C' s' hs' [a1 a2 a3 a4 a5 a6]. pose proof a1 as [i1 i2 i3 i4 i5 i6]. constructor.
    - eapply base_loc; [exact i1|reflexivity..].
    - exact a2.
    - reflexivity.
    - exact a4.
    - destruct self as [r|]; [|exact Logic.I]. destruct SF as (x & v & ps' & d & -> & Gx & Hx). destruct (a5 x v Gx) as (v' & Gx' & Hx'). exists v'. cbn [self_value]. rewrite Gx'.
      destruct (i5 x KSelf v' Gx') as (_ & _ & w & K1 & K2). rewrite Hx' in K1. unfold hs0 in K1. cbn [hloc] in K1. rewrite Hx in K1. injection K1 as <-. unfold var_in in K2. cbn [writable] in K2. destruct (mutable v') eqn:M; [|destruct K2; discriminate].
      destruct K2 as (a & o & Ea & K3 & K4 & _). injection Ea as <-. exists o. repeat split; assumption. }
  destruct (hexec_list (hexec prog files (hrun prog files n) m (local_names ps body) false) body hs0) as [[|w|] hs'|e hs'|why]; [| | | |exact H].
  - destruct H as (s' & X' & C' & E & S). exists VNone, s', X'. split; [exact E|]. split; [exact Logic.I|]. eapply AF; exact S.
  - destruct H as (v & s' & X' & C' & E & S & Q). exists v, s', X'. split; [exact E|]. split; [exact Q|]. eapply AF; exact S.
  - destruct H as (s' & X' & C' & E & S). rewrite E in Go. exact Go.
  - destruct H as (s' & X' & C' & E & S). exists s', X'. split; [exact E|]. eapply AF; exact S.
Qed.
Theorem runs_ok : forall n, run_ok prog files hg n.
Proof. induction n as [|n IH]; [intros m ps body kd args hargs X self s hs kx k _ _ _ []|apply run_step; exact IH]. Qed.
End Run.
