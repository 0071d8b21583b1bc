(* PyHeap.v does what PyEval.v does: statements and functions. *)
From Coq Require Import List String Ascii NArith ZArith Bool Lia.
From Verif Require Import PyBase PyRepr Json Record Api Utf8 PySyntax PyEval SrcCheck PyHeap HeapRep HeapCheck HeapInv HeapSim HeapCalls HeapMethods HeapEval.
Import ListNotations.
Open Scope string_scope.
Open Scope list_scope.
Local Open Scope nat_scope.

Section Exec.
Variable prog : list (string * pymodule).
Variable files : disk.
Variable hg : list (string * string * hval).
Hypothesis ok : prog_ok prog = true.
Notation base := (base prog hg).
Notation arg_in := (arg_in hg).
Notation G := (G hg).
Notation gn := (gn prog).
Variable n : nat.
Hypothesis RUN : run_ok prog files hg n.
Notation R := (run prog files n).
Notation HR := (hrun prog files n).
Section Fn.
Variable m : string.
Variable lv pn : list string.
Notation bnd := (flat_map bound (module_body prog m)).
Hypothesis lv_ok : none_of lv (bnd ++ builtins) = true.
Notation Inv := (Inv prog hg lv pn).
Notation estep := (estep prog hg lv pn).
Notation sim := (sim prog hg lv pn).
Notation gives := (gives prog hg lv pn).
Notation newobj := (newobj prog hg lv pn).
Notation EV := (eval prog files R m).
Notation HE := (heval prog files HR m lv).
Notation EX := (exec prog files R m false).
Notation HX := (hexec prog files HR m lv false).

(* ---- steps of statements ---- *)
Record sstep (X C : nat -> Prop) (s : st) (hs : hst) (X' C' : nat -> Prop) (s' : st) (hs' : hst) : Prop := {
  s_inv : Inv X' C' s' hs';
  s_X : ext X X' (List.length (heap hs));
  s_C : ext C C' (List.length (heap hs));
  s_frame : frame C hs hs';
  s_self : forall y v, get y (loc s) = Some (KSelf, v) -> exists v', get y (loc s') = Some (KSelf, v') /\ get y (hloc hs') = get y (hloc hs);
  s_own : forall y a, owner s' hs' y a -> a < List.length (heap hs) -> owner s hs y a }.
Lemma sstep_e : forall X C T s hs s' hs', estep X C T s hs s' hs' -> sstep X C s hs X C s' hs'.
Proof.
  intros X C T s hs s' hs' [e1 e2 e3 e4]. constructor; [exact e1|apply ext_refl|apply ext_refl|eapply frame_mono; [exact e4|intros a [H _]; exact H]| |].
  - intros y v Q. specialize (e3 y). rewrite Q in e3. destruct (get y (loc s')) as [[kd u]|]; [|discriminate e3]. injection e3 as ->. exists u. split; [reflexivity|]. rewrite e2. reflexivity.
  - intros y a O _. eapply owner_back; eassumption.
Qed.
Lemma sstep_refl : forall X C s hs, Inv X C s hs -> sstep X C s hs X C s hs.
Proof. intros X C s hs I. eapply (sstep_e X C []). apply estep_refl. exact I. Qed.
Lemma sstep_trans : forall X C s hs X1 C1 s1 hs1 X2 C2 s2 hs2, sstep X C s hs X1 C1 s1 hs1 -> sstep X1 C1 s1 hs1 X2 C2 s2 hs2 -> sstep X C s hs X2 C2 s2 hs2.
Proof.
  intros X C s hs X1 C1 s1 hs1 X2 C2 s2 hs2 [a1 a2 a3 a4 a5 a6] [b1 b2 b3 b4 b5 b6]. pose proof (proj1 a4) as L. constructor.
  - exact b1.
  - eapply ext_trans; eassumption.
  - eapply ext_trans; eassumption.
  - eapply frame_trans; [exact a4|exact b4|auto|]. intros a H. exact (proj2 a3 a H).
  - intros y v Q. destruct (a5 y v Q) as (v1 & Q1 & H1). destruct (b5 y v1 Q1) as (v2 & Q2 & H2). exists v2. split; [exact Q2|congruence].
  - intros y a O La. apply a6; [|exact La]. apply b6; [exact O|lia].
Qed.
(* an answer of the first interpreter and one of the second *)
Definition ssim (X C : nat -> Prop) (s : st) (hs : hst) (r : hres flow) (kx : exc -> st -> ans) (kr : value -> st -> ans) (kc k : st -> ans) (a : ans) : Prop :=
  match r with
  | HOk Next hs' => exists s' X' C', a = k s' /\ sstep X C s hs X' C' s' hs'
  | HOk (Return w) hs' => exists v s' X' C', a = kr v s' /\ sstep X C s hs X' C' s' hs' /\ rep (heap hs') X' v w
  | HOk Continue hs' => exists s' X' C', a = kc s' /\ sstep X C s hs X' C' s' hs'
  | HRaise e hs' => exists s' X' C', a = kx e s' /\ sstep X C s hs X' C' s' hs'
  | HStuck _ => False
  end.
Lemma s_after : forall X C s hs X1 C1 s1 hs1 r kx kr kc k a, sstep X C s hs X1 C1 s1 hs1 -> ssim X1 C1 s1 hs1 r kx kr kc k a -> ssim X C s hs r kx kr kc k a.
Proof.
  intros X C s hs X1 C1 s1 hs1 r kx kr kc k a S H. destruct r as [[|w|] hs'|e hs'|]; cbn in *; [| | | |exact H].
  - destruct H as (s' & X' & C' & E & H). exists s', X', C'. split; [exact E|eapply sstep_trans; eassumption].
  - destruct H as (v & s' & X' & C' & E & H & Q). exists v, s', X', C'. split; [exact E|]. split; [eapply sstep_trans; eassumption|exact Q].
  - destruct H as (s' & X' & C' & E & H). exists s', X', C'. split; [exact E|eapply sstep_trans; eassumption].
  - destruct H as (s' & X' & C' & E & H). exists s', X', C'. split; [exact E|eapply sstep_trans; eassumption].
Qed.
Lemma s_bind : forall A B X C T s hs (Q : A -> B -> st -> hst -> Prop) (r : hres B) (f : B -> hst -> hres flow) kx kr kc k k1 a, going a -> (going a -> sim X C T s hs Q r kx k1 a) ->
  (forall v w s1 hs1, estep X C T s hs s1 hs1 -> Q v w s1 hs1 -> going (k1 v s1) -> ssim X C s1 hs1 (f w hs1) kx kr kc k (k1 v s1)) ->
  ssim X C s hs (hbind r f) kx kr kc k a.
Proof.
  intros A B X C T s hs Q r f kx kr kc k k1 a Go S1 S2. specialize (S1 Go). destruct r as [w hs1|e hs1|why]; cbn [hbind]; [| |exact S1].
  - destruct S1 as (v & s1 & -> & E & H). eapply s_after; [eapply sstep_e; exact E|]. exact (S2 v w s1 hs1 E H Go).
  - destruct S1 as (s1 & E & H). exists s1, X, C. split; [exact E|eapply sstep_e; exact H].
Qed.
Lemma s_next : forall X C s hs X' C' s' hs' kx kr kc k, sstep X C s hs X' C' s' hs' -> ssim X C s hs (HOk Next hs') kx kr kc k (k s').
Proof. intros X C s hs X' C' s' hs' kx kr kc k S. exists s', X', C'. split; [reflexivity|exact S]. Qed.

(* ---- assignments ---- *)
Lemma base_loc : forall X s hs s' hs', base X s hs -> out s' = out s -> glob s' = glob s -> hout hs' = hout hs -> hglob hs' = hglob hs -> heap hs' = heap hs -> base X s' hs'.
Proof. intros X s hs s' hs' B E1 E2 E3 E4 E5. eapply base_weaken; [exact B|auto|exact (b_G _ _ _ _ _ B)|assumption..]. Qed.
Lemma Inv_bind : forall X C s hs x kd v w, Inv X C s hs -> has lv x = true -> kd <> KSelf -> var_in hg (heap hs) X C kd v w ->
  (writable kd = true -> forall y a, owner s hs y a -> w <> HRef a) -> Inv X C (bind_local x kd v s) (hbind_local x w hs).
Proof.
  intros X C s hs x kd v w I L K V D. pose proof I as [i1 i2 i3 i4 i5 i6]. constructor; try assumption.
  - eapply base_loc; [exact i1| | | | |]; reflexivity.
  - cbn. apply nodup_set. exact i4.
  - intros y ky u Q. cbn in Q |- *. destruct (String.eqb_spec y x) as [->|N].
    + rewrite get_set_same in Q. injection Q as <- <-. split; [exact L|]. split; [intro E; destruct (K E)|]. exists w. rewrite get_set_same. split; [reflexivity|exact V].
    + rewrite get_set_other in Q by exact N. rewrite get_set_other by exact N. exact (i5 y ky u Q).
  - intros y z ky vy kz vz a Qy Wy Hy Qz Wz Hz. cbn in *. destruct (String.eqb_spec y x) as [->|Ny], (String.eqb_spec z x) as [->|Nz]; [reflexivity| | |].
    + rewrite get_set_same in Qy, Hy. rewrite get_set_other in Qz, Hz by exact Nz. injection Qy as <- <-. injection Hy as ->. destruct (D Wy z a); [exists kz, vz; repeat split; assumption|reflexivity].
    + rewrite get_set_same in Qz, Hz. rewrite get_set_other in Qy, Hy by exact Ny. injection Qz as <- <-. injection Hz as ->. destruct (D Wz y a); [exists ky, vy; repeat split; assumption|reflexivity].
    + rewrite get_set_other in Qy, Hy by exact Ny. rewrite get_set_other in Qz, Hz by exact Nz. eapply i6; eassumption.
Qed.
Lemma self_kept : forall (s : st) (hs : hst) x kd v w, (forall u, get x (loc s) <> Some (KSelf, u)) ->
  forall y u, get y (loc s) = Some (KSelf, u) -> exists u', get y (loc (bind_local x kd v s)) = Some (KSelf, u') /\ get y (hloc (hbind_local x w hs)) = get y (hloc hs).
Proof.
  intros s hs x kd v w N y u Q. assert (Ne : y <> x) by (intros ->; exact (N u Q)). exists u. cbn. rewrite !get_set_other by exact Ne. split; [exact Q|reflexivity].
Qed.
Lemma sstep_ref : forall X C s hs x v w, Inv X C s hs -> has lv x = true -> (forall u, get x (loc s) <> Some (KSelf, u)) -> rep (heap hs) X v w ->
  sstep X C s hs X C (bind_local x KRef v s) (hbind_local x w hs).
Proof.
  intros X C s hs x v w I L N H. constructor; [|apply ext_refl|apply ext_refl|split; [apply le_n|reflexivity]|apply self_kept; exact N|].
  - apply Inv_bind; [exact I|exact L|discriminate| |discriminate]. unfold var_in. destruct (mutable v) eqn:M; [|split; [reflexivity|exact H]]. apply rep_mutable in H; [|exact M].
    destruct H as (a & o & -> & K1 & K2 & K3). exists a, o. repeat split; try assumption. intro Ca. exact (K1 (i_CX _ _ _ _ _ _ _ _ I a Ca)).
  - intros y a (ky & vy & Q & W & Hy) La. cbn in Q, Hy. destruct (String.eqb_spec y x) as [->|Ne].
    + rewrite get_set_same in Q. injection Q as <- <-. discriminate W.
    + rewrite get_set_other in Q, Hy by exact Ne. exists ky, vy. repeat split; assumption.
Qed.
Lemma sstep_new : forall L X C s hs x v w, Inv X C s hs -> has lv x = true -> (forall u, get x (loc s) <> Some (KSelf, u)) -> mutable v = true -> newobj L X C v w s hs ->
  exists a o, w = HRef a /\ at_ hs a = Some o /\ L <= a /\ obj_rep (heap hs) (add X a) v o /\ ~ G a /\
    Inv (add X a) (add C a) (bind_local x KOwn v s) (hbind_local x w hs) /\ (forall y, ~ owner s hs y a).
Proof.
  intros L X C s hs x v w I Lx N M (a & o & -> & At & La & Na & O & I'). exists a, o. split; [reflexivity|]. split; [exact At|]. split; [exact La|]. split; [exact O|].
  assert (NG : ~ G a) by (intro Ga; exact (Na (b_G _ _ _ _ _ (i_base _ _ _ _ _ _ _ _ I) a Ga))). split; [exact NG|].
  assert (NO : forall y, ~ owner s hs y a).
  { intros y (ky & vy & Q & W & Hy). destruct (i_loc _ _ _ _ _ _ _ _ I y ky vy Q) as (_ & _ & w' & K1 & K2). rewrite Hy in K1. injection K1 as <-. unfold var_in in K2. rewrite W in K2.
    destruct (mutable vy); [|destruct K2; discriminate]. destruct K2 as (b & ob & Eb & _ & _ & Cb & _). injection Eb as <-. exact (Na (i_CX _ _ _ _ _ _ _ _ I a Cb)). }
  split; [|exact NO]. apply Inv_bind; [exact I'|exact Lx|discriminate| |].
  - unfold var_in. rewrite M. exists a, o. split; [reflexivity|]. split; [exact At|]. split; [exact O|]. split; [right; reflexivity|exact NG].
  - intros _ y b Ob Eb. injection Eb as <-. exact (NO y Ob).
Qed.
(* binding a new object, seen from an earlier state *)
Lemma sstep_own : forall X C T s0 hs0 s hs x v w, estep X C T s0 hs0 s hs -> has lv x = true -> (forall u, get x (loc s) <> Some (KSelf, u)) -> mutable v = true ->
  newobj (List.length (heap hs0)) X C v w s hs ->
  exists a, w = HRef a /\ List.length (heap hs0) <= a /\ sstep X C s0 hs0 (add X a) (add C a) (bind_local x KOwn v s) (hbind_local x w hs).
Proof.
  intros X C T s0 hs0 s hs x v w E Lx N M NW. pose proof (sstep_e _ _ _ _ _ _ _ E) as [a1 a2 a3 a4 a5 a6]. destruct (sstep_new _ X C s hs x v w a1 Lx N M NW) as (a & o & -> & At & La & O & NG & I' & NO). exists a. split; [reflexivity|]. split; [exact La|].
  constructor; [exact I'| | | | |].
  - split; [left; assumption|]. intros b [H|H]; [left; exact H|right; lia].
  - split; [left; assumption|]. intros b [H|H]; [left; exact H|right; lia].
  - exact a4.
  - intros y u Q. destruct (a5 y u Q) as (u' & Q' & H'). destruct (self_kept s hs x KOwn v (HRef a) N y u' Q') as (u2 & Q2 & H2). exists u2. split; [exact Q2|congruence].
  - intros y b (ky & vy & Q & W & Hy) Lb. cbn in Q, Hy. destruct (String.eqb_spec y x) as [->|Ne].
    + rewrite get_set_same in Hy. injection Hy as ->. lia.
    + rewrite get_set_other in Q, Hy by exact Ne. apply a6; [exists ky, vy; repeat split; assumption|exact Lb].
Qed.
Lemma sstep_drop : forall X C s hs x hs', Inv X C s hs -> has pn x = false -> hout hs' = hout hs -> hglob hs' = hglob hs -> heap hs' = heap hs -> (forall y, y <> x -> get y (hloc hs') = get y (hloc hs)) ->
  sstep X C s hs X C (drop_local x s) hs'.
Proof.
  intros X C s hs x hs' I Nx E1 E2 E3 E4. pose proof I as [i1 i2 i3 i4 i5 i6].
  assert (NE : forall y kd v, get y (loc (drop_local x s)) = Some (kd, v) -> y <> x /\ get y (loc s) = Some (kd, v)).
  { intros y kd v Q. cbn in Q. destruct (String.eqb_spec y x) as [->|Ne]; [rewrite get_unset_same in Q by exact i4; discriminate Q|]. rewrite get_unset_other in Q by exact Ne. split; assumption. }
  constructor; [|apply ext_refl|apply ext_refl| | |].
  - constructor; try assumption.
    + eapply base_loc; [exact i1|reflexivity|reflexivity|assumption..].
    + cbn. apply nodup_unset. exact i4.
    + intros y kd v Q. destruct (NE y kd v Q) as [Ne Q']. rewrite E4, E3 by exact Ne. exact (i5 y kd v Q').
    + intros y z ky vy kz vz a Qy Wy Hy Qz Wz Hz. destruct (NE _ _ _ Qy) as [Ny Qy'], (NE _ _ _ Qz) as [Nz Qz']. rewrite E4 in Hy, Hz by assumption. eapply i6; eassumption.
  - split; [rewrite E3; lia|]. intros a _ _. unfold at_. rewrite E3. reflexivity.
  - intros y v Q. destruct (i5 y KSelf v Q) as (_ & Py & _). specialize (Py eq_refl). assert (Ne : y <> x) by (intros ->; congruence). exists v. cbn. rewrite get_unset_other by exact Ne. split; [exact Q|]. apply E4. exact Ne.
  - intros y a (ky & vy & Q & W & Hy) _. destruct (NE _ _ _ Q) as [Ne Q']. rewrite E4 in Hy by exact Ne. exists ky, vy. repeat split; assumption.
Qed.

(* ---- blocks ---- *)
Definition csim (c : stmt) : Prop := forall X C s hs kx kr kc k, Inv X C s hs -> sok gn bnd pn c = true -> (forall x, In x (assigned c) -> has lv x = true) ->
  going (EX c s kx kr kc k) -> ssim X C s hs (HX c hs) kx kr kc k (EX c s kx kr kc k).
Notation XL kx kr kc := (exec_list (fun c s k => exec prog files R m false c s kx kr kc k)).
Notation HXL := (hexec_list HX).
Definition block_ok (b : list stmt) : Prop := Forall (fun c => sok gn bnd pn c = true) b /\ forall x, In x (flat_map assigned b) -> has lv x = true.
Lemma block_sim : forall b X C s hs kx kr kc k, Forall csim b -> block_ok b -> Inv X C s hs -> going (XL kx kr kc b s k) ->
  ssim X C s hs (HXL b hs) kx kr kc k (XL kx kr kc b s k).
Proof.
  induction b as [|c b IH]; intros X C s hs kx kr kc k F [O A] I Go.
  - cbn [exec_list hexec_list]. apply (s_next X C s hs X C). apply sstep_refl. exact I.
  - inversion F as [|? ? F1 F2]; subst. inversion O as [|? ? O1 O2]; subst. cbn [exec_list hexec_list] in *.
    assert (A1 : forall x, In x (assigned c) -> has lv x = true) by (intros x Hx; apply A; cbn; apply in_or_app; left; exact Hx).
    assert (A2 : block_ok b) by (split; [exact O2|]; intros x Hx; apply A; cbn; apply in_or_app; right; exact Hx).
    pose proof (F1 X C s hs kx kr kc _ I O1 A1 Go) as H. destruct (HX c hs) as [[|w|] hs'|e hs'|why]; cbn [hbind]; [| | | |exact H].
    + destruct H as (s' & X' & C' & E & H). rewrite E in *. eapply s_after; [exact H|]. apply IH; [exact F2|exact A2|exact (s_inv _ _ _ _ _ _ _ _ H)|exact Go].
    + exact H.
    + exact H.
    + exact H.
Qed.
Lemma finally_sim : forall X C s hs r d hd kx kr kc k a, ssim X C s hs r (fun e s => kx e (d s)) (fun v s => kr v (d s)) (fun s => kc (d s)) (fun s => k (d s)) a ->
  (forall X' C' s' hs', sstep X C s hs X' C' s' hs' -> sstep X C s hs X' C' (d s') (hd hs') /\ forall v w, rep (heap hs') X' v w -> rep (heap (hd hs')) X' v w) ->
  ssim X C s hs (finally r hd) kx kr kc k a.
Proof.
  intros X C s hs r d hd kx kr kc k a H D. destruct r as [[|w|] hs'|e hs'|why]; cbn [finally]; [| | | |exact H].
  - destruct H as (s' & X' & C' & E & H). destruct (D _ _ _ _ H) as [D1 D2]. exists (d s'), X', C'. split; [exact E|exact D1].
  - destruct H as (v & s' & X' & C' & E & H & Q). destruct (D _ _ _ _ H) as [D1 D2]. exists v, (d s'), X', C'. split; [exact E|]. split; [exact D1|]. apply D2. exact Q.
  - destruct H as (s' & X' & C' & E & H). destruct (D _ _ _ _ H) as [D1 D2]. exists (d s'), X', C'. split; [exact E|exact D1].
  - destruct H as (s' & X' & C' & E & H). destruct (D _ _ _ _ H) as [D1 D2]. exists (d s'), X', C'. split; [exact E|exact D1].
Qed.

(* ---- what the check says ---- *)
Lemma sok_if : forall e a b, sok gn bnd pn (SIf e a b) = true -> eok gn e = true /\ Forall (fun c => sok gn bnd pn c = true) a /\ Forall (fun c => sok gn bnd pn c = true) b.
Proof.
  intros e a b H. cbn [sok] in H. apply andb_true_iff in H. destruct H as [H H3]. apply andb_true_iff in H. destruct H as [H1 H2]. split; [exact H1|].
  assert (K : forall l, (fix block (cs : list stmt) : bool := match cs with [] => true | c :: cs' => sok gn bnd pn c && block cs' end) l = true -> Forall (fun c => sok gn bnd pn c = true) l).
  { induction l as [|c l IH]; [constructor|]. intro K. apply andb_true_iff in K. destruct K. constructor; auto. }
  split; apply K; assumption.
Qed.
Lemma sok_block : forall b, (fix block (cs : list stmt) : bool := match cs with [] => true | c :: cs' => sok gn bnd pn c && block cs' end) b = true -> Forall (fun c => sok gn bnd pn c = true) b.
Proof. intros b H. apply (sok_if ENone b []). cbn [sok eok]. rewrite H. reflexivity. Qed.
Lemma assigned_if : forall e a b, assigned (SIf e a b) = flat_map assigned a ++ flat_map assigned b.
Proof.
  assert (K : forall l, (fix block (cs : list stmt) : list string := match cs with [] => [] | c :: cs' => assigned c ++ block cs' end) l = flat_map assigned l).
  { induction l as [|c l IH]; [reflexivity|]. cbn [flat_map]. rewrite <- IH. reflexivity. }
  intros e a b. cbn [assigned]. rewrite !K. reflexivity.
Qed.
Lemma assigned_block : forall b, (fix block (cs : list stmt) : list string := match cs with [] => [] | c :: cs' => assigned c ++ block cs' end) b = flat_map assigned b.
Proof. intro b. pose proof (assigned_if ENone b []) as H. cbn [assigned flat_map] in H. rewrite !app_nil_r in H. exact H. Qed.
Ltac parts H := repeat match type of H with (_ && _)%bool = true => let H' := fresh "O" in apply andb_true_iff in H; destruct H as [H H'] end.

(* ---- statements ---- *)
Lemma vs : forall e, vsim prog files hg n m lv pn e.
Proof. intro e. apply esim_v. apply eval_sim; assumption. Qed.
Lemma not_self : forall x (s : st), match get x (loc s) with Some (KSelf, _) => False | _ => True end -> forall u, get x (loc s) <> Some (KSelf, u).
Proof. intros x s H u E. rewrite E in H. exact H. Qed.
Lemma assign_going : forall x (s : st) kd v (k : st -> ans), going (match get x (loc s) with Some (KSelf, _) => Stuck x | _ => k (bind_local x kd v s) end) ->
  (forall u, get x (loc s) <> Some (KSelf, u)) /\ match get x (loc s) with Some (KSelf, _) => Stuck x | _ => k (bind_local x kd v s) end = k (bind_local x kd v s).
Proof. intros x s kd v k H. destruct (get x (loc s)) as [[[| |] u]|]; try contradiction; (split; [discriminate|reflexivity]). Qed.
Lemma self_going : forall x (s : st) (z : ans), going (match get x (loc s) with Some (KSelf, _) => Stuck x | _ => z end) ->
  (forall u, get x (loc s) <> Some (KSelf, u)) /\ match get x (loc s) with Some (KSelf, _) => Stuck x | _ => z end = z.
Proof. intros x s z H. destruct (get x (loc s)) as [[[| |] u]|]; try contradiction; (split; [discriminate|reflexivity]). Qed.
Lemma cs_expr : forall e, csim (SExpr e).
Proof.
  intros e X C s hs kx kr kc k I O A Go. cbn [sok exec hexec] in *. eapply s_bind; [exact Go|intro Go'; apply vs; assumption|]. intros v w s1 hs1 E _ _. apply (s_next X C s1 hs1 X C). apply sstep_refl. exact (e_inv _ _ _ _ _ _ _ _ _ _ _ E).
Qed.
Lemma cs_assign_name : forall x e, csim (SAssign (EName x) e).
Proof.
  intros x e X C s hs kx kr kc k I O A Go. cbn [sok exec hexec] in *. parts O. assert (Lx : has lv x = true) by (apply A; left; reflexivity).
  pose proof (eval_sim prog files hg ok n RUN m lv pn lv_ok e X C s hs kx _ I O Go) as H. destruct (HE e hs) as [w hs1|ex hs1|why]; cbn [hbind]; [| |exact H].
  - destruct H as (v & s1 & E & E1 & Q1 & Q2). rewrite E in *. destruct (assign_going _ _ _ _ _ Go) as [N ->]. pose proof (e_inv _ _ _ _ _ _ _ _ _ _ _ E1) as I1.
    destruct (mutable v) eqn:M; cbn [andb].
    + destruct (makes_object prog m e s1) eqn:MO.
      * destruct (sstep_own X C _ s hs s1 hs1 x v w E1 Lx N M (Q2 eq_refl eq_refl)) as (a & -> & La & S). eapply s_next. exact S.
      * eapply s_next. eapply sstep_trans; [eapply sstep_e; exact E1|]. apply sstep_ref; assumption.
    + eapply s_next. eapply sstep_trans; [eapply sstep_e; exact E1|]. apply sstep_ref; assumption.
  - destruct H as (s1 & E & E1). exists s1, X, C. split; [exact E|]. eapply sstep_e. exact E1.
Qed.
(* an object changes *)
Lemma s_change : forall X C s hs y kd v v' a o kx kr kc k, Inv X C s hs -> get y (loc s) = Some (kd, v) -> get y (hloc hs) = Some (HRef a) -> writable kd = true ->
  mutable v' = true -> obj_rep (heap hs) X v' o -> ssim X C s hs (HOk Next (hput a o hs)) kx kr kc k (k (bind_local y kd v' s)).
Proof.
  intros X C s hs y kd v v' a o kx kr kc k I Q H W M O. destruct (sim_change prog hg lv pn X C s hs y kd v v' VNone HNone a o Raised Done I Q H W M O Logic.I) as (r & s' & E & E1 & _). injection E as <- <-.
  eapply s_next. eapply sstep_e. exact E1.
Qed.
Lemma local_obj : forall X C s hs x kd v, Inv X C s hs -> get x (loc s) = Some (kd, v) -> mutable v = true ->
  exists a o, get x (hloc hs) = Some (HRef a) /\ hname prog m lv x hs = Some (HRef a) /\ at_ hs a = Some o /\ obj_rep (heap hs) X v o.
Proof.
  intros X C s hs x kd v I Q M. destruct (i_loc _ _ _ _ _ _ _ _ I x kd v Q) as (L & _ & w & K1 & K2). unfold var_in in K2. rewrite M in K2. destruct K2 as (a & o & -> & K3 & K4 & _). exists a, o.
  split; [exact K1|]. split; [unfold hname; change (existsb (String.eqb x) lv) with (has lv x); rewrite L; exact K1|]. split; assumption.
Qed.
Lemma cs_assign_attr : forall x a e, csim (SAssign (EAttr (EName x) a) e).
Proof.
  intros x a e X C s hs kx kr kc k I O A Go. cbn [sok exec hexec heval] in *. parts O. eapply s_bind; [exact Go|intro Go'; apply vs; assumption|]. intros v w s1 hs1 E Q1 Go1. cbn beta in *.
  pose proof (e_inv _ _ _ _ _ _ _ _ _ _ _ E) as I1. destruct (get x (loc s1)) as [[kd u]|] eqn:Q; [|contradiction]. destruct u; try contradiction.
  - destruct (writable kd) eqn:W; [|contradiction]. destruct (local_obj _ _ _ _ _ _ _ I1 Q eq_refl) as (r & o & H1 & H2 & H3 & H4). rewrite H2. cbn [hsome hbind]. rewrite H3. destruct o; try contradiction. destruct H4 as (<- & <- & H4).
    eapply s_change; [exact I1|exact Q|exact H1|exact W|reflexivity|]. split; [reflexivity|]. split; [reflexivity|]. apply set_rep; [exact Q1|exact H4].
  - destruct v; try contradiction. destruct (writable kd && (a =? "align")%string && str_eqb s0 str_l) eqn:W; [|contradiction]. apply andb_true_iff in W. destruct W as [W W3]. apply andb_true_iff in W. destruct W as [W W2].
    destruct (local_obj _ _ _ _ _ _ _ I1 Q eq_refl) as (r & o & H1 & H2 & H3 & H4). rewrite H2. cbn [hsome hbind]. rewrite H3. destruct o; try contradiction. destruct H4 as [_ <-]. unfold value_rep in Q1. apply rep_vstr in Q1. subst w. rewrite W2, W3. cbn [andb].
    eapply s_change; [exact I1|exact Q|exact H1|exact W|reflexivity|split; reflexivity].
Qed.
Lemma cs_assign_item : forall x i e, csim (SAssign (EItem (EName x) i) e).
Proof.
  intros x i e X C s hs kx kr kc k I O A Go. cbn [sok exec] in *. parts O.
  change (HX (SAssign (EItem (EName x) i) e) hs) with (hbind (HE e hs) (fun w s => hbind (HE (EName x) s) (fun r s => hbind (HE i s) (fun iw s =>
        match r, iw with
        | HRef r, HStr key => match at_ s r with Some (ODict f items) => HOk Next (hput r (ODict f ((key, w) :: items)) s) | _ => HStuck "item" end
        | _, _ => HStuck "item"
        end)))).
  apply andb_true_iff in O0. destruct O0 as [Oi Cm].
  eapply s_bind; [exact Go|intro Go'; apply vs; assumption|]. intros v w s1 hs1 E1 Q1 Go1. cbn beta in *. pose proof (e_inv _ _ _ _ _ _ _ _ _ _ _ E1) as I1.
  pose proof (vs i X C s1 hs1 kx _ I1 Oi Go1) as S1. destruct (calm_same prog files n m lv i hs1 Cm) as [[iw Hw]|[why Hw]]; rewrite Hw in S1; [|contradiction]. destruct S1 as (iv & s2 & E & E2 & Q2). rewrite E in *.
  pose proof (e_inv _ _ _ _ _ _ _ _ _ _ _ E2) as I2. destruct (name_value prog m x s2) as [cv|] eqn:Nv; [|contradiction]. destruct cv; try contradiction. destruct iv; try contradiction.
  destruct (name_rep prog hg m lv pn lv_ok X C s2 hs1 x _ I2 Nv) as (cw & Hn & Hd & Or). cbn [heval]. rewrite Hn. cbn [hsome hbind]. rewrite Hw. cbn [hbind]. unfold held in Hd. cbn [mutable] in Hd. destruct Hd as (r & o & -> & K & Ob).
  unfold value_rep in Q2. apply rep_vstr in Q2. subst iw. unfold at_. rewrite K. destruct o; try contradiction. destruct Ob as [Ob1 Ob2].
  assert (Ob' : obj_rep (heap hs1) X (VDict factory ((s0, v) :: items)) (ODict factory0 ((s0, w) :: items0))) by (split; [exact Ob1|]; constructor; [split; [reflexivity|exact Q1]|exact Ob2]).
  eapply s_after; [eapply sstep_e; exact E2|]. unfold store in *. unfold origin in Or. unfold name_value in Nv. destruct (get x (loc s2)) as [[kd u]|] eqn:Q.
  - injection Nv as ->. destruct (writable kd) eqn:W; [|contradiction]. cbn [or_stuck]. destruct (Or eq_refl) as (a & Ea & Hl & _). injection Ea as <-. eapply s_change; [exact I2|exact Q|exact Hl|exact W|reflexivity|exact Ob'].
  - destruct (Or eq_refl) as (a & Ea & Gg & Hgg & _ & Gd). injection Ea as <-. rewrite Gg in *. cbn [or_stuck].
    assert (Gr : G r) by (exists m, x; exact Hgg). eapply (s_next X C s2 hs1 X C). constructor; [|apply ext_refl|apply ext_refl| | |].
    + eapply Inv_put_glob; [exact I2|exact Gg|exact Hgg|reflexivity|exact Gd|exact Ob'].
    + eapply frame_mono; [apply frame_put|]. intros b ->. exact (i_GC _ _ _ _ _ _ _ _ I2 r Gr).
    + intros y u Qy. exists u. split; [exact Qy|reflexivity].
    + intros y b Ow _. exact Ow.
Qed.
Lemma cs_aug : forall x op e, csim (SAug (EName x) op e).
Proof.
  intros x op e X C s hs kx kr kc k I O A Go. cbn [sok] in O. assert (Lx : has lv x = true) by (apply A; left; reflexivity).
  change (HX (SAug (EName x) op e) hs) with (hbind (HE (EName x) hs) (fun a s => hbind (HE e s) (fun b s => hsome "operator" (hbinary op a b) (fun w => HOk Next (hbind_local x w s))))).
  change (EX (SAug (EName x) op e) s kx kr kc k) with (EV (EName x) s kx (fun a s => EV e s kx (fun b s => or_stuck "operator" (binary op a b) (fun v => match get x (loc s) with Some (KSelf, _) => Stuck x | _ => k (bind_local x KRef v s) end)))) in *.
  eapply s_bind; [exact Go|intro Go'; apply vs; [exact I|reflexivity|exact Go']|]. intros a aw s1 hs1 E1 Q1 Go1. cbn beta in *. pose proof (e_inv _ _ _ _ _ _ _ _ _ _ _ E1) as I1.
  eapply s_bind; [exact Go1|intro Go'; apply vs; assumption|]. intros b bw s2 hs2 E2 Q2 Go2. cbn beta in *. pose proof (e_inv _ _ _ _ _ _ _ _ _ _ _ E2) as I2.
  destruct (binary op a b) as [r|] eqn:B; [|contradiction]. destruct (binary_rep (heap hs2) X op a aw b bw r (rep_step _ _ _ _ _ _ _ _ _ _ _ _ _ I1 E2 Q1) Q2 B) as (q & -> & K). cbn [or_stuck hsome] in *.
  destruct (assign_going _ _ _ _ _ Go2) as [N ->]. eapply s_next. apply sstep_ref; assumption.
Qed.
Lemma cs_return : forall o, csim (SReturn o).
Proof.
  intros [e|] X C s hs kx kr kc k I O A Go.
  - cbn [sok exec hexec] in *. pose proof (vs e X C s hs kx kr I O Go) as H. destruct (HE e hs) as [w hs1|ex hs1|why]; cbn [hbind]; [| |exact H].
    + destruct H as (v & s1 & E & E1 & Q). exists v, s1, X, C. split; [exact E|]. split; [eapply sstep_e; exact E1|exact Q].
    + destruct H as (s1 & E & E1). exists s1, X, C. split; [exact E|eapply sstep_e; exact E1].
  - cbn [exec hexec]. exists VNone, s, X, C. split; [reflexivity|]. split; [apply sstep_refl; exact I|exact Logic.I].
Qed.
Lemma cs_raise : forall e, csim (SRaise e).
Proof.
  intros e X C s hs kx kr kc k I O A Go. cbn [sok exec hexec] in *. eapply s_bind; [exact Go|intro Go'; apply vs; assumption|]. intros v w s1 hs1 E1 Q1 Go1. cbn beta in *. destruct v; try contradiction. unfold value_rep in Q1. apply rep_vexc in Q1. subst w.
  exists s1, X, C. split; [reflexivity|]. apply sstep_refl. exact (e_inv _ _ _ _ _ _ _ _ _ _ _ E1).
Qed.
Lemma cs_if : forall e a b, Forall csim a -> Forall csim b -> csim (SIf e a b).
Proof.
  intros e a b Fa Fb X C s hs kx kr kc k I O A Go. apply sok_if in O. destruct O as (Oe & Oa & Ob). rewrite assigned_if in A. cbn [exec hexec] in *.
  eapply s_bind; [exact Go|intro Go'; apply vs; assumption|]. intros v w s1 hs1 E1 Q1 Go1. cbn beta in *. pose proof (e_inv _ _ _ _ _ _ _ _ _ _ _ E1) as I1.
  destruct (truth v) as [t|] eqn:T; [|contradiction]. rewrite (truth_rep _ _ _ _ _ Q1 T). cbn [or_stuck hsome] in *.
  destruct t; apply block_sim; try assumption; (split; [assumption|]); intros x Hx; apply A; apply in_or_app; [left|right]; exact Hx.
Qed.
Lemma cs_match : forall e cases, Forall (fun p => Forall csim (snd p)) cases -> csim (SMatch e cases).
Proof.
  intros e cases F X C s hs kx kr kc k I O A Go. cbn [sok exec hexec assigned] in *. apply andb_true_iff in O. destruct O as [Oe Oc].
  eapply s_bind; [exact Go|intro Go'; apply vs; assumption|]. clear Go. intros v w s1 hs1 E1 Q1. cbn beta. pose proof (e_inv _ _ _ _ _ _ _ _ _ _ _ E1) as I1. clear E1 I.
  induction cases as [|[p b] cases IH]; intro Go.
  - apply (s_next X C s1 hs1 X C). apply sstep_refl. exact I1.
  - inversion F as [|? ? F1 F2]; subst. cbn [snd] in F1. apply andb_true_iff in Oc. destruct Oc as [Ob Oc]. apply sok_block in Ob. rewrite assigned_block in A.
    assert (Bk : block_ok b) by (split; [exact Ob|]; intros x Hx; apply A; apply in_or_app; left; exact Hx).
    assert (A' : forall x, In x ((fix all (cs : list (pattern * list stmt)) : list string := match cs with [] => [] | (_, b) :: cs' =>
       (fix block (cs : list stmt) : list string := match cs with [] => [] | c :: cs' => assigned c ++ block cs' end) b ++ all cs' end) cases) -> has lv x = true) by (intros x Hx; apply A; apply in_or_app; right; exact Hx).
    destruct p as [p|].
    + destruct (const p) as [pv|] eqn:P; [|contradiction]. destruct (expr_const_rep (heap hs1) X p pv P) as (pw & -> & Rp). cbn [or_stuck hsome] in *. destruct (py_eq v pv) as [t|] eqn:Eq; [|contradiction]. cbn [or_stuck] in *.
      rewrite (eq_rep _ _ _ _ _ _ _ Q1 (rep_held _ _ _ _ Rp) Eq). cbn [hsome]. destruct t; [apply block_sim; assumption|]. apply IH; assumption.
    + apply block_sim; assumption.
Qed.
Lemma cs_for : forall x e b, Forall csim b -> csim (SFor x e b).
Proof.
  intros x e b F X C s hs kx kr kc k I O A Go. cbn [sok exec hexec assigned] in *. apply andb_true_iff in O. destruct O as [Oe Ob]. apply sok_block in Ob. rewrite assigned_block in A.
  assert (Lx : has lv x = true) by (apply A; left; reflexivity). assert (Bk : block_ok b) by (split; [exact Ob|]; intros y Hy; apply A; right; exact Hy).
  eapply s_bind; [exact Go|intro Go'; apply vs; assumption|]. clear Go. intros v w s1 hs1 E1 Q1 Go. cbn beta in *. pose proof (e_inv _ _ _ _ _ _ _ _ _ _ _ E1) as I1. clear E1 I s hs.
  destruct v; try contradiction. unfold value_rep in Q1. apply rep_list in Q1. destruct Q1 as (ws & -> & Q1). revert X C s1 hs1 ws Q1 I1 Go. induction l as [|v l IH]; intros X C s hs ws Q1 I Go.
  - inversion Q1; subst. apply (s_next X C s hs X C). apply sstep_refl. exact I.
  - inversion Q1 as [|? w ? ws' H1 H2]; subst. cbn [for_loop hfor] in *. destruct (self_going _ _ _ Go) as [N E]. rewrite E in Go |- *. clear E.
    pose proof (sstep_ref X C s hs x v w I Lx N H1) as S1. pose proof (s_inv _ _ _ _ _ _ _ _ S1) as I1. apply (s_after _ _ _ _ _ _ _ _ _ _ _ _ _ _ S1).
    match type of Go with going (exec_list (fun c s k => exec _ _ _ _ _ c s ?a1 ?a2 ?a3 k) _ _ ?a4) => pose proof (block_sim b X C _ _ a1 a2 a3 a4 F Bk I1 Go) as H end.
    assert (MV : forall X' C' s' hs', sstep X C (bind_local x KRef v s) (hbind_local x w hs) X' C' s' hs' -> Forall2 (rep (heap hs') X') l ws').
    { intros X' C' s' hs' S. eapply reps_move; [|exact H2]. apply (frame_agree C X X' (hbind_local x w hs)); [exact (s_frame _ _ _ _ _ _ _ _ S)|exact (i_CX _ _ _ _ _ _ _ _ I)|exact (proj2 (s_X _ _ _ _ _ _ _ _ S))]. }
    destruct (HXL b (hbind_local x w hs)) as [[|r|] hs'|ex hs'|why]; cbn [hbind]; [| | | |exact H].
    + destruct H as (s' & X' & C' & E & H). rewrite E in Go |- *. eapply s_after; [exact H|]. apply IH; [eapply MV; exact H|exact (s_inv _ _ _ _ _ _ _ _ H)|exact Go].
    + exact H.
    + destruct H as (s' & X' & C' & E & H). rewrite E in Go |- *. eapply s_after; [exact H|]. apply IH; [eapply MV; exact H|exact (s_inv _ _ _ _ _ _ _ _ H)|exact Go].
    + exact H.
Qed.
Lemma open_makes : forall X C s hs args kws, Inv X C s hs -> negb (has bnd "open") = true -> makes_object prog m (ECall (EName "open") args kws) s = true.
Proof.
  intros X C s hs args kws I N. cbn [makes_object]. unfold name_value. destruct (get "open" (loc s)) as [[kd v]|] eqn:Q.
  - destruct (i_loc _ _ _ _ _ _ _ _ I _ _ _ Q) as (L & _). apply has_in in L. destruct (none_of_in _ _ _ lv_ok L). apply in_or_app. right. vm_compute. tauto.
  - unfold global. apply negb_true_iff in N. destruct (static prog m (module_body prog m) "open") as [u|] eqn:E; [pose proof (proj2 (has_in _ _) (static_bound _ _ _ _ _ E)); congruence|].
    pose proof (b_glob _ _ _ _ _ (i_base _ _ _ _ _ _ _ _ I) m "open") as Gb. destruct (get_glob m "open" (glob s)); [|reflexivity]. destruct Gb as (a & o & _ & _ & _ & _ & _ & K & _). pose proof (proj2 (has_in _ _) K). congruence.
Qed.
Lemma cs_with : forall e x b, Forall csim b -> csim (SWith e x b).
Proof.
  intros e x b F X C s hs kx kr kc k I O A Go. cbn [sok exec hexec assigned] in *. apply andb_true_iff in O. destruct O as [O Ob]. apply andb_true_iff in O. destruct O as [O Px]. apply andb_true_iff in O. destruct O as [Oe Op].
  apply sok_block in Ob. rewrite assigned_block in A. apply negb_true_iff in Px.
  assert (Lx : has lv x = true) by (apply A; left; reflexivity). assert (Bk : block_ok b) by (split; [exact Ob|]; intros y Hy; apply A; right; exact Hy).
  assert (Mk : forall X C s hs, Inv X C s hs -> makes_object prog m e s = true).
  { intros X' C' s' hs' I'. destruct e; try discriminate Op. destruct e; try discriminate Op. apply andb_true_iff in Op. destruct Op as [Op1 Op2]. apply String.eqb_eq in Op1. subst x0. eapply open_makes; eassumption. }
  pose proof (eval_sim prog files hg ok n RUN m lv pn lv_ok e X C s hs kx _ I Oe Go) as H. destruct (HE e hs) as [w hs1|ex hs1|why]; cbn [hbind]; [| |exact H].
  - destruct H as (v & s1 & E & E1 & Q1 & Q2). rewrite E in *. clear E. pose proof (e_inv _ _ _ _ _ _ _ _ _ _ _ E1) as I1. destruct v; try contradiction.
    assert (N : forall u, get x (loc s1) <> Some (KSelf, u)) by (intros u Q; destruct (i_loc _ _ _ _ _ _ _ _ I1 _ _ _ Q) as (_ & P & _); specialize (P eq_refl); congruence).
    pose proof (Q2 (Mk _ _ _ _ I1) eq_refl) as NW. destruct (sstep_own X C _ s hs s1 hs1 x (VFile bs) w E1 Lx N eq_refl NW) as (r & -> & Lr & S1).
    destruct NW as (r' & o & Er & At & _ & Nr & Or & _). injection Er as <-. rewrite At. destruct o; try contradiction. apply (s_after _ _ _ _ _ _ _ _ _ _ _ _ _ _ S1).
    pose proof (s_inv _ _ _ _ _ _ _ _ S1) as I2. set (sb := bind_local x KOwn (VFile bs) s1) in *. set (hb := hbind_local x (HRef r) hs1) in *.
    assert (Ox : owner sb hb x r) by (exists KOwn, (VFile bs); unfold sb, hb; cbn; rewrite !get_set_same; repeat split).
    apply finally_sim with (d := drop_local x).
    + apply block_sim; assumption.
    + intros X' C' s' hs' S. pose proof (s_inv _ _ _ _ _ _ _ _ S) as I3. pose proof I3 as [i1 i2 i3 i4 i5 i6].
      assert (Cr : C' r) by (apply (proj1 (s_C _ _ _ _ _ _ _ _ S)); right; reflexivity). assert (Xr : X' r) by exact (i2 r Cr).
      assert (NG : ~ G r) by (intro H; exact (Nr (b_G _ _ _ _ _ (i_base _ _ _ _ _ _ _ _ I1) r H))).
      assert (Ag : agree (heap hs') X' (heap (hput r OClosed hs')) X') by (eapply frame_agree; [apply frame_put| |left; assumption]; intros a ->; exact Xr).
      split; [|intros v w H; eapply rep_move; eassumption].
      eapply sstep_trans; [exact S|]. 
      assert (NE : forall y kd v, get y (loc (drop_local x s')) = Some (kd, v) -> y <> x /\ get y (loc s') = Some (kd, v)).
      { intros y kd v Q. cbn in Q. destruct (String.eqb_spec y x) as [->|Ne]; [rewrite get_unset_same in Q by exact i4; discriminate Q|]. rewrite get_unset_other in Q by exact Ne. split; assumption. }
      constructor; [|apply ext_refl|apply ext_refl| | |].
      * eapply (Inv_after _ _ _ _ X' C' X' C' s' hs' _ _ (fun a => a = r)); [exact I3|apply frame_put|intros a ->; exact Xr|apply ext_refl|apply ext_refl|exact i2| |reflexivity| |].
        -- eapply base_move; [exact i1|apply frame_put|intros a ->; split; assumption|apply ext_refl| |exact (b_out _ _ _ _ _ i1)|reflexivity|reflexivity]. intros a Xa. cbn. rewrite update_length. exact (b_hot _ _ _ _ _ i1 a Xa).
        -- cbn. apply nodup_unset. exact i4.
        -- intros y kd v Q. destruct (NE y kd v Q) as [Ne Q']. left. split; [exact Q'|]. intros Mu a Ha ->. destruct (writable kd) eqn:W.
           ++ assert (Oy : owner s' hs' y r) by (exists kd, v; repeat split; assumption). apply (s_own _ _ _ _ _ _ _ _ S) in Oy; [|unfold hb; cbn; exact (at_lt _ _ _ At)].
              destruct Oy as (k1 & v1 & A1 & A2 & A3). destruct Ox as (k2 & v2 & B1 & B2 & B3). apply Ne. exact (i_dist _ _ _ _ _ _ _ _ I2 y x k1 v1 k2 v2 r A1 A2 A3 B1 B2 B3).
           ++ destruct (i5 y kd v Q') as (_ & _ & w & K1 & K2). rewrite Ha in K1. injection K1 as <-. unfold var_in in K2. rewrite Mu, W in K2. destruct K2 as (b' & o' & Eb & _ & _ & K3). injection Eb as <-. contradiction.
      * eapply frame_mono; [apply frame_put|]. intros a ->. exact Cr.
      * intros y v Q. destruct (i5 y KSelf v Q) as (_ & Py & _). specialize (Py eq_refl). assert (Ne : y <> x) by (intros ->; congruence). exists v. cbn. rewrite get_unset_other by exact Ne. split; [exact Q|reflexivity].
      * intros y a (ky & vy & Q & W & Hy) _. destruct (NE _ _ _ Q) as [Ne Q']. exists ky, vy. repeat split; assumption.
  - destruct H as (s1 & E & E1). exists s1, X, C. split; [exact E|]. eapply sstep_e. exact E1.
Qed.
Lemma cs_try : forall b excs x h, Forall csim b -> Forall csim h -> csim (STry b excs x h).
Proof.
  intros b excs x h Fb Fh X C s hs kx kr kc k I O A Go. cbn [sok exec hexec assigned] in *. apply andb_true_iff in O. destruct O as [O Oh]. apply andb_true_iff in O. destruct O as [Px Ob]. apply negb_true_iff in Px.
  apply sok_block in Ob, Oh. rewrite !assigned_block in A.
  assert (Lx : has lv x = true) by (apply A; apply in_or_app; right; left; reflexivity).
  assert (Bb : block_ok b) by (split; [exact Ob|]; intros y Hy; apply A; apply in_or_app; left; exact Hy).
  assert (Bh : block_ok h) by (split; [exact Oh|]; intros y Hy; apply A; apply in_or_app; right; right; exact Hy).
  match type of Go with going (exec_list (fun c s k => exec _ _ _ _ _ c s ?a1 ?a2 ?a3 k) _ _ ?a4) => pose proof (block_sim b X C _ _ a1 a2 a3 a4 Fb Bb I Go) as H end.
  destruct (HXL b hs) as [[|w|] hs1|ex hs1|why]; [exact H|exact H|exact H| |exact H]. destruct H as (s1 & X1 & C1 & E & S1). rewrite E in *. clear E. pose proof (s_inv _ _ _ _ _ _ _ _ S1) as I1.
  destruct (catches excs ex).
  - eapply s_after; [exact S1|].
    assert (N : forall u, get x (loc s1) <> Some (KSelf, u)) by (intros u Q; destruct (i_loc _ _ _ _ _ _ _ _ I1 _ _ _ Q) as (_ & P & _); specialize (P eq_refl); congruence).
    pose proof (sstep_ref X1 C1 s1 hs1 x (VExc ex) (HExc ex) I1 Lx N eq_refl) as S2. eapply s_after; [exact S2|]. apply finally_sim with (d := drop_local x).
    + apply block_sim; try assumption. exact (s_inv _ _ _ _ _ _ _ _ S2).
    + intros X' C' s' hs' S. split; [|intros v w H; exact H]. eapply sstep_trans; [exact S|]. apply sstep_drop; [exact (s_inv _ _ _ _ _ _ _ _ S)|exact Px|reflexivity|reflexivity|reflexivity|].
      intros y Ne. cbn. apply get_unset_other. exact Ne.
  - exists s1, X1, C1. split; [reflexivity|exact S1].
Qed.
Lemma cs_stuck : forall c, (forall s kx kr kc k, going (EX c s kx kr kc k) -> False) -> csim c.
Proof. intros c H X C s hs kx kr kc k I O A Go. destruct (H _ _ _ _ _ Go). Qed.
Lemma cs_continue : csim SContinue.
Proof. intros X C s hs kx kr kc k I O A Go. exists s, X, C. split; [reflexivity|apply sstep_refl; exact I]. Qed.
Lemma cs_assign : forall t e, csim (SAssign t e).
Proof.
  intros t e. destruct t; try (apply cs_stuck; intros s0 kx kr kc k H; exact H).
  - apply cs_assign_name.
  - destruct t; try (apply cs_stuck; intros s0 kx kr kc k H; exact H). apply cs_assign_attr.
  - destruct t1; try (apply cs_stuck; intros s0 kx kr kc k H; exact H). apply cs_assign_item.
Qed.
Lemma cs_aug' : forall t op e, csim (SAug t op e).
Proof. intros t op e. destruct t; try (apply cs_stuck; intros s0 kx kr kc k H; exact H). apply cs_aug. Qed.
Lemma exec_sim : forall c, csim c.
Proof.
  refine (fix IH (c : stmt) : csim c :=
    let IL := fix go (l : list stmt) : Forall csim l := match l with [] => Forall_nil _ | c :: l' => Forall_cons _ (IH c) (go l') end in
    match c with
    | SExpr e => cs_expr e
    | SAssign t e => cs_assign t e
    | SAug t op e => cs_aug' t op e
    | SReturn o => cs_return o
    | SRaise e => cs_raise e
    | SIf e a b => cs_if e a b (IL a) (IL b)
    | SMatch e cases => cs_match e cases
        ((fix go (l : list (pattern * list stmt)) : Forall (fun p => Forall csim (snd p)) l :=
            match l with [] => Forall_nil _ | (p, b) :: l' => Forall_cons (p, b) (IL b) (go l') end) cases)
    | SFor x e b => cs_for x e b (IL b)
    | SWith e x b => cs_with e x b (IL b)
    | STry b excs x h => cs_try b excs x h (IL b) (IL h)
    | SContinue => cs_continue
    | SDef f ps b => cs_stuck (SDef f ps b) (fun _ _ _ _ _ H => H)
    | SClass q b => cs_stuck (SClass q b) (fun _ _ _ _ _ H => H)
    | SImport q x => cs_stuck (SImport q x) (fun _ _ _ _ _ H => H)
    | SFrom q f x => cs_stuck (SFrom q f x) (fun _ _ _ _ _ H => H)
    end).
Qed.
End Fn.
End Exec.
