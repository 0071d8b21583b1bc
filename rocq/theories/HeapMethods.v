(* PyHeap.v does what PyEval.v does: methods and items. *)
From Coq Require Import List String Ascii NArith ZArith Bool Lia.
From Verif Require Import PyBase PyRepr Json Record Api Utf8 PySyntax PyEval SrcCheck PyHeap HeapRep HeapCheck HeapInv HeapSim HeapCalls.
Import ListNotations.
Open Scope string_scope.
Open Scope list_scope.
Local Open Scope nat_scope.

Section Methods.
Variable prog : list (string * pymodule).
Variable files : disk.
Variable hg : list (string * string * hval).
Hypothesis ok : prog_ok prog = true.
Notation base := (base prog hg).
Notation arg_in := (arg_in hg).
Notation G := (G hg).
Notation gn := (gn prog).
Notation after := (after prog hg).
Variable n : nat.
Hypothesis RUN : run_ok prog files hg n.
Notation R := (run prog files n).
Notation HR := (hrun prog files n).
Section Fn.
Variable m : string.
Variable lv pn : list string.
Hypothesis lv_ok : none_of lv (flat_map bound (module_body prog m) ++ builtins) = true.
Notation Inv := (Inv prog hg lv pn).
Notation estep := (estep prog hg lv pn).
Notation sim := (sim prog hg lv pn).

(* a receiver: a variable, or the value of an expression *)
Definition receiver (X : nat -> Prop) (x : option (string * kind)) (v : value) (w : hval) (s : st) (hs : hst) : Prop :=
  match x with Some (y, kd) => get y (loc s) = Some (kd, v) /\ get y (hloc hs) = Some w | None => rep (heap hs) X v w end.
Definition changes (x : option (string * kind)) : list string := match x with Some (y, _) => [y] | None => [] end.
Lemma receiver_arg : forall X C x v w s hs, Inv X C s hs -> receiver X x v w s hs -> arg_in (heap hs) X v w.
Proof.
  intros X C [[y kd]|] v w s hs I H.
  - destruct H as [Q H]. destruct (i_loc _ _ _ _ _ _ _ _ I y kd v Q) as (_ & _ & w' & K1 & K2). rewrite H in K1. injection K1 as <-. unfold var_in in K2. unfold HeapInv.arg_in. destruct (mutable v) eqn:M; [|exact (proj2 K2)].
    destruct K2 as (a & o & -> & K3 & K4 & K5). exists a, o. repeat split; try assumption. eapply not_G; eassumption.
  - apply arg_rep; [|exact H]. exact (b_G _ _ _ _ _ (i_base _ _ _ _ _ _ _ _ I)).
Qed.
Lemma sim_val : forall X C T s hs v w kx k, Inv X C s hs -> rep (heap hs) X v w -> sim X C T s hs (value_rep X) (HOk w hs) kx k (k v s).
Proof. intros. apply sim_ok; assumption. Qed.
(* the receiver is changed *)
Lemma sim_change : forall X C s hs y kd v v' r w a o kx k, Inv X C s hs -> get y (loc s) = Some (kd, v) -> get y (hloc hs) = Some (HRef a) -> writable kd = true ->
  mutable v' = true -> obj_rep (heap hs) X v' o -> rep (heap hs) X r w ->
  sim X C [y] s hs (value_rep X) (HOk w (hput a o hs)) kx k (k r (bind_local y kd v' s)).
Proof.
  intros X C s hs y kd v v' r w a o kx k I Q H W M O Rr. exists r, (bind_local y kd v' s). split; [reflexivity|].
  assert (Ca : C a).
  { destruct (i_loc _ _ _ _ _ _ _ _ I y kd v Q) as (_ & _ & w' & K1 & K2). rewrite H in K1. injection K1 as <-. unfold var_in in K2. rewrite W in K2. destruct (mutable v); [|destruct K2; discriminate].
    destruct K2 as (b & o' & E & _ & _ & K3 & _). injection E as <-. exact K3. }
  split.
  - constructor.
    + eapply Inv_put; eassumption.
    + reflexivity.
    + intro z. cbn. destruct (String.eqb_spec z y) as [->|N]; [rewrite get_set_same, Q; reflexivity|rewrite get_set_other by exact N; reflexivity].
    + eapply frame_mono; [apply frame_put|]. intros b ->. split; [exact Ca|]. right. exists y. split; [cbn; rewrite seqb_refl; reflexivity|]. exists kd, v. repeat split; assumption.
  - unfold value_rep. eapply rep_move; [|exact Rr]. eapply frame_agree; [apply frame_put| |left; assumption]. intros b ->. exact (i_CX _ _ _ _ _ _ _ _ I a Ca).
Qed.
Lemma sim_changed : forall X C x v s hs v' r w a o (why : string) kx k, Inv X C s hs -> receiver X x v (HRef a) s hs -> mutable v' = true -> obj_rep (heap hs) X v' o -> rep (heap hs) X r w ->
  going (match x with Some (y, kd) => if writable kd then k r (bind_local y kd v' s) else Stuck why | None => Stuck why end) ->
  sim X C (changes x) s hs (value_rep X) (HOk w (hput a o hs)) kx k (match x with Some (y, kd) => if writable kd then k r (bind_local y kd v' s) else Stuck why | None => Stuck why end).
Proof.
  intros X C [[y kd]|] v s hs v' r w a o why kx k I Rc M O Rr Go; [|contradiction]. destruct Rc as [Q H]. destruct (writable kd) eqn:W; [|contradiction]. eapply sim_change; eassumption.
Qed.
Lemma self_after : forall X C ps s hs X' s' hs' y kd v r v' o', Inv X C s hs -> get y (loc s) = Some (kd, v) -> get y (hloc hs) = Some (HRef r) -> writable kd = true ->
  after X (Some r) ps hs X' s' hs' -> mutable v' = true -> at_ hs' r = Some o' -> obj_rep (heap hs') X' v' o' ->
  estep X C [y] s hs (bind_local y kd v' (leave s s')) hs'.
Proof.
  intros X C ps s hs X' s' hs' y kd v r v' o' I Q H W [a1 a2 a3 a4 _] M At O.
  destruct (i_loc _ _ _ _ _ _ _ _ I y kd v Q) as (_ & _ & w' & K1 & K2). rewrite H in K1. injection K1 as <-. unfold var_in in K2. rewrite W in K2. destruct (mutable v) eqn:Mv; [|destruct K2; discriminate].
  destruct K2 as (b & o0 & E & _ & _ & Cr & NGr). injection E as <-.
  assert (GX := b_G _ _ _ _ _ (i_base _ _ _ _ _ _ _ _ I)). assert (CX := i_CX _ _ _ _ _ _ _ _ I).
  constructor.
  - eapply (Inv_after _ _ _ _ X C X C s hs _ hs' (fun a => G a \/ is_self (Some r) a)); [exact I|exact a4| |apply ext_refl|apply ext_refl|exact CX| |exact a3|cbn; apply nodup_set; exact (i_nodup _ _ _ _ _ _ _ _ I)|].
    + intros a [Ga|Sa]; [exact (GX a Ga)|]. injection Sa as <-. exact (CX r Cr).
    + eapply base_weaken; [exact a1|exact (proj1 a2)|exact GX| | | | |]; reflexivity.
    + intros x kx u Qx. cbn in Qx. destruct (String.eqb_spec x y) as [->|N].
      * rewrite get_set_same in Qx. injection Qx as <- <-. right. split; [exists v; exact Q|]. exists (HRef r). split; [exact H|]. unfold var_in. rewrite M, W. exists r, o'. split; [reflexivity|]. split; [exact At|].
        split; [eapply obj_weaken; [exact (proj1 a2)|exact O]|split; assumption].
      * rewrite get_set_other in Qx by exact N. left. split; [exact Qx|]. intros Mu a Ha [Ga|Sa]; [eapply not_G; eassumption|]. injection Sa as <-.
        destruct (writable kx) eqn:Wx; [apply N; exact (i_dist _ _ _ _ _ _ _ _ I x y kx u kd v r Qx Wx Ha Q W H)|].
        destruct (i_loc _ _ _ _ _ _ _ _ I x kx u Qx) as (_ & _ & w & J1 & J2). rewrite Ha in J1. injection J1 as <-. unfold var_in in J2. rewrite Mu, Wx in J2. destruct J2 as (b & ob & Eb & _ & _ & J3). injection Eb as <-. contradiction.
  - exact a3.
  - intro z. cbn. destruct (String.eqb_spec z y) as [->|N]; [rewrite get_set_same, Q; reflexivity|rewrite get_set_other by exact N; reflexivity].
  - eapply frame_mono; [exact a4|]. intros a [Ga|Sa]; [split; [exact (i_GC _ _ _ _ _ _ _ _ I a Ga)|left; exact Ga]|]. injection Sa as <-. split; [exact Cr|]. right. exists y. split; [cbn; rewrite seqb_refl; reflexivity|]. exists kd, v. repeat split; assumption.
Qed.
Lemma reps_of_args : forall h X args hargs r, existsb mutable args = false -> Forall2 (arg_in h X) args hargs -> Forall2 (fun v w => arg_in h X v w /\ w <> HRef r) args hargs.
Proof.
  intros h X args hargs r E F. induction F as [|v w l l' H F IH]; [constructor|]. cbn in E. apply orb_false_iff in E. destruct E as [E1 E2]. constructor; [|exact (IH E2)]. split; [exact H|].
  apply arg_imm in H; [|exact E1]. eapply rep_ref; eassumption.
Qed.
Lemma sim_none : forall A B X C s hs (Q : A -> B -> st -> hst -> Prop) r kx k a T, sim X C [] s hs Q r kx k a -> sim X C T s hs Q r kx k a.
Proof. intros A B X C s hs Q r kx k a T H. eapply sim_mono; [exact H|discriminate|auto]. Qed.

Lemma call_method_sim : forall X C s hs x v w a args hargs kx k, Inv X C s hs -> receiver X x v w s hs -> Forall2 (arg_in (heap hs) X) args hargs ->
  going (call_method prog files R x v a args s kx k) ->
  sim X C (changes x) s hs (value_rep X) (hcall_method prog files HR w a hargs hs) kx k (call_method prog files R x v a args s kx k).
Proof.
  intros X C s hs x v w a args hargs kx k I Rc F. pose proof (receiver_arg X C x v w s hs I Rc) as Ra. destruct v; try contradiction.
  - apply arg_str in Ra. subst w. cbn [call_method hcall_method].
    destruct (String.eqb a "strip"). { destruct args; [|contradiction]. inversion F; subst. intro Go. apply sim_val; [exact I|reflexivity]. }
    destruct (String.eqb a "isalnum"). { destruct args; [|contradiction]. inversion F; subst. intro Go. apply sim_val; [exact I|reflexivity]. }
    destruct (String.eqb a "isalpha"). { destruct args; [|contradiction]. inversion F; subst. intro Go. apply sim_val; [exact I|reflexivity]. }
    destruct (String.eqb a "isnumeric"). { destruct args; [|contradiction]. inversion F; subst. intro Go. apply sim_val; [exact I|reflexivity]. }
    destruct (String.eqb a "endswith").
    { destruct args as [|v [|]]; try contradiction; [|destruct v; contradiction]. apply args_one in F. destruct F as (w & -> & H). destruct v; try contradiction; intro Go. apply arg_str in H. subst w. apply sim_val; [exact I|reflexivity]. }
    destruct (String.eqb a "startswith").
    { destruct args as [|v [|]]; try contradiction; [|destruct v as [| | | | | |ll| | | | | | | | | | | | | | |]; try contradiction; destruct ll as [|u1 [|u2 [|]]]; try contradiction; try (destruct u1; contradiction); try (destruct u1; try contradiction; destruct u2; contradiction)].
      apply args_one in F. destruct F as (w & -> & H). destruct v as [| | | | | |l| | | | | | | | | | | | | | |]; try contradiction. apply arg_imm in H; [|reflexivity]. apply rep_tuple in H. destruct H as (l' & -> & H).
      destruct l as [|u1 [|u2 [|]]]; try contradiction; try (destruct u1; contradiction); try (destruct u1; try contradiction; destruct u2; contradiction). destruct u1; try contradiction. destruct u2; try contradiction.
      inversion H as [|? w1 ? l1 H1 H2]; subst. inversion H2 as [|? w2 ? l2 H3 H4]; subst. inversion H4; subst. apply rep_vstr in H1, H3. subst. intro Go. apply sim_val; [exact I|reflexivity]. }
    destruct (String.eqb a "lstrip").
    { destruct args as [|v [|]]; try contradiction; [|destruct v; contradiction]. apply args_one in F. destruct F as (w & -> & H). destruct v; try contradiction. apply arg_str in H. subst w. destruct (str_eqb s1 (lit "0")); [|contradiction]. intro Go. apply sim_val; [exact I|reflexivity]. }
    destruct (String.eqb a "index").
    { destruct args as [|v [|]]; try contradiction; [|destruct v; contradiction]. apply args_one in F. destruct F as (w & -> & H). destruct v; try contradiction. apply arg_str in H. subst w. intro Go. destruct (find_sub s0 s1 0); [apply sim_val; [exact I|reflexivity]|apply sim_raise; exact I]. }
    contradiction.
  - pose proof Ra as (r & o & -> & K & O & NG). cbn [hcall_method]. unfold at_ at 1. rewrite K. destruct o; try contradiction. destruct O as (<- & <- & O). cbn [call_method].
    pose proof (get_rep _ _ a _ _ O) as Gr. destruct (get a attrs) as [f|], (get a attrs0) as [fw|]; try contradiction.
    + intro Go. apply sim_none. eapply sim_mono; [apply call_value_sim; [exact ok|exact RUN|exact I|exact Gr|exact F|constructor|exact Go]|auto|]. intros v' w' s' hs' _ [H _]. exact H.
    + destruct (find_def (class_body prog m0 c) a) as [[ps body]|] eqn:Fd; [|contradiction].
      assert (KREF : forall kx' k', kx' = (fun e s' => kx e (leave s s')) -> k' = (fun v s' => k v (leave s s')) -> going (R m0 ps body KRef (VInst m0 c attrs :: args) s kx' k') ->
        sim X C (changes x) s hs (value_rep X) (HR m0 ps body (HRef r :: hargs) hs) kx k (R m0 ps body KRef (VInst m0 c attrs :: args) s kx' k')).
      { intros kx' k' -> -> Go.
        pose proof (RUN m0 ps body KRef (VInst m0 c attrs :: args) (HRef r :: hargs) X None s hs _ _ (method_ok _ ok _ _ _ _ _ Fd) (i_base _ _ _ _ _ _ _ _ I) (conj eq_refl (Forall2_cons _ _ Ra F)) Go) as H.
        apply sim_none. destruct (HR m0 ps body (HRef r :: hargs) hs) as [w hs'|e hs'|why]; [| |exact H].
        + destruct H as (v & s' & X' & E & Hr & Ha). rewrite E. exists v, (leave s s'). split; [reflexivity|]. split; [eapply call_after; eassumption|]. eapply rep_weaken; [exact (proj1 (a_ext _ _ _ _ _ _ _ _ _ Ha))|exact Hr].
        + destruct H as (s' & X' & E & Ha). rewrite E. exists (leave s s'). split; [reflexivity|]. eapply call_after; eassumption. }
      destruct x as [[y kd]|]; [|intro Go; apply KREF; try reflexivity; exact Go].
      destruct (writable kd) eqn:W; [|intro Go; apply KREF; try reflexivity; exact Go]. clear KREF.
      destruct (existsb mutable args) eqn:Em; [contradiction|]. intro Go. destruct Rc as [Q H].
      assert (Xr : X r).
      { destruct (i_loc _ _ _ _ _ _ _ _ I y kd _ Q) as (_ & _ & w' & K1 & K2). rewrite H in K1. injection K1 as <-. unfold var_in in K2. rewrite W in K2. cbn [mutable] in K2. destruct K2 as (b & o' & E & _ & _ & K3 & _). injection E as <-. exact (i_CX _ _ _ _ _ _ _ _ I r K3). }
      assert (Cl : callee hg X (Some r) KSelf (VInst m0 c attrs :: args) (HRef r :: hargs) hs).
      { split; [reflexivity|]. exists (VInst m0 c attrs), args, hargs, (OInst m0 c attrs0). repeat (split; [first [reflexivity|assumption|repeat split; assumption]|]). apply reps_of_args; assumption. }
      match type of Go with going (R _ _ _ _ _ _ ?f1 ?f2) =>
        pose proof (RUN m0 ps body KSelf (VInst m0 c attrs :: args) (HRef r :: hargs) X (Some r) s hs f1 f2 (method_ok _ ok _ _ _ _ _ Fd) (i_base _ _ _ _ _ _ _ _ I) Cl Go) as HH end.
      destruct (HR m0 ps body (HRef r :: hargs) hs) as [w hs'|e hs'|why]; [| |exact HH].
      * destruct HH as (v & s' & X' & E & Hr & Ha). rewrite E in Go |- *. destruct (a_self _ _ _ _ _ _ _ _ _ Ha) as (v' & o' & Es & Mv & At & Ob). rewrite Es in Go |- *. cbn [or_stuck].
        eexists v, _. split; [reflexivity|]. split; [eapply self_after; eassumption|]. eapply rep_weaken; [exact (proj1 (a_ext _ _ _ _ _ _ _ _ _ Ha))|exact Hr].
      * destruct HH as (s' & X' & E & Ha). rewrite E in Go |- *. destruct (a_self _ _ _ _ _ _ _ _ _ Ha) as (v' & o' & Es & Mv & At & Ob). rewrite Es in Go |- *. cbn [or_stuck].
        eexists. split; [reflexivity|]. eapply self_after; eassumption.
  - pose proof Ra as (r & o & -> & K & O & NG). cbn [hcall_method]. unfold at_ at 1. rewrite K. destruct o; try contradiction. destruct O as [O1 O2]. cbn [call_method].
    destruct factory, factory0; try contradiction. destruct (String.eqb a "update"); [|contradiction].
    destruct args as [|v [|]]; try contradiction; [|destruct v; try contradiction; destruct factory; contradiction]. apply args_one in F. destruct F as (w & -> & H). destruct v; try contradiction. destruct factory; [contradiction|].
    destruct H as (r' & o' & -> & K' & O' & _). unfold at_. rewrite K'. destruct o'; try contradiction. destruct O' as [O1' O2']. destruct factory; [contradiction|].
    intro Go. eapply sim_changed; [exact I|exact Rc|reflexivity| |exact Logic.I|exact Go]. split; [exact Logic.I|]. apply Forall2_app; assumption.
  - pose proof Ra as (r & o & -> & K & O & NG). cbn [hcall_method]. unfold at_ at 1. rewrite K. destruct o; try contradiction. cbn in O. subst s1. cbn [call_method].
    destruct (String.eqb a "write").
    { destruct args as [|v [|]]; try contradiction; [|destruct v; contradiction]. apply args_one in F. destruct F as (w & -> & H). destruct v; try contradiction. apply arg_str in H. subst w. intro Go. eapply sim_changed; [exact I|exact Rc|reflexivity|reflexivity|reflexivity|exact Go]. }
    destruct (String.eqb a "getvalue"); [|contradiction]. destruct args; [|contradiction]. inversion F; subst. intro Go. apply sim_val; [exact I|reflexivity].
  - pose proof Ra as (r & o & -> & K & O & NG). cbn [hcall_method]. unfold at_ at 1. rewrite K. destruct o; try contradiction. destruct O as [<- <-]. cbn [call_method].
    destruct (String.eqb a "add_row").
    { destruct args as [|v [|]]; try contradiction; [|destruct v as [| | | | |ll| | | | | | | | | | | | | | | |]; try contradiction; destruct ll as [|u1 [|u2 [|u3 [|]]]]; try contradiction; try (destruct u1; contradiction); try (destruct u1; try contradiction; destruct u2; contradiction)].
      apply args_one in F. destruct F as (w & -> & H). destruct v as [| | | | |l| | | | | | | | | | | | | | | |]; try contradiction. apply arg_imm in H; [|reflexivity]. apply rep_list in H. destruct H as (l' & -> & H).
      destruct l as [|u1 [|u2 [|u3 [|]]]]; try contradiction; try (destruct u1; contradiction); try (destruct u1; try contradiction; destruct u2; contradiction). destruct u1; try contradiction. destruct u2; try contradiction.
      inversion H as [|? w1 ? l1 H1 H2]; subst. inversion H2 as [|? w2 ? l2 H3 H4]; subst. inversion H4 as [|? w3 ? l3 H5 H6]; subst. inversion H6; subst. apply rep_vstr in H1, H3. subst.
      destruct (to_dval u3) as [d|] eqn:E; [|contradiction]. rewrite (to_dval_rep _ _ _ _ _ H5 E). intro Go. eapply sim_changed; [exact I|exact Rc|reflexivity|split; reflexivity|exact Logic.I|exact Go]. }
    destruct (String.eqb a "get_string"); [|contradiction]. destruct args; [|contradiction]. inversion F; subst. destruct left; [|contradiction]. intro Go. apply sim_val; [exact I|reflexivity].
  - pose proof Ra as (r & o & -> & K & O & NG). cbn [hcall_method]. unfold at_ at 1. rewrite K. destruct o; try contradiction. cbn in O. subst bs0. cbn [call_method].
    destruct (String.eqb a "readlines"); [|contradiction]. destruct args; [|contradiction]. inversion F; subst. destruct (decode_utf8 bs); intro Go; [|apply sim_raise; exact I].
    eapply sim_changed; [exact I|exact Rc|reflexivity|reflexivity| |exact Go]. apply rep_list. eexists. split; [reflexivity|apply lines_rep].
Qed.

(* ---- c[i] ---- *)
Lemma lit_call : forall q f c s hs kx k, find_def (module_body prog q) f = Some ([], [SReturn (Some c)]) -> lit_expr c = true -> going (call_value prog files R (VFun q f) [] [] s kx k) ->
  exists v w, call_value prog files R (VFun q f) [] [] s kx k = k v s /\ hcall_value prog files HR (HFun q f) [] [] hs = HOk w hs /\ mutable v = false /\ forall h X, rep h X v w.
Proof.
  intros q f c s hs kx k Fd L. cbn [call_value hcall_value]. rewrite Fd. clear RUN. destruct n as [|n']; [contradiction|]. intros _. destruct s as [l o g], hs as [hl ho hgl hh].
  destruct c; try discriminate L; (eexists _, _; split; [reflexivity|]; split; [reflexivity|]; split; [reflexivity|]; intros h X; first [reflexivity|exact Logic.I]).
Qed.
Definition item_of (X C : nat -> Prop) (x : option string) (v : value) (w : hval) (s : st) (hs : hst) : Prop :=
  match x with Some y => name_value prog m y s = Some v /\ hname prog m lv y hs = Some w /\ held (heap hs) X v w /\ origin prog hg m C s hs y v w | None => rep (heap hs) X v w end.
Definition item_changes (x : option string) : list string := match x with Some y => [y] | None => [] end.
Lemma get_item_sim : forall X C s hs x v w i iw kx k, Inv X C s hs -> item_of X C x v w s hs -> rep (heap hs) X i iw ->
  going (get_item prog files R m x v i s kx k) ->
  sim X C (item_changes x) s hs (value_rep X) (hget_item prog files HR w iw hs) kx k (get_item prog files R m x v i s kx k).
Proof.
  intros X C s hs x v w i iw kx k I It Hi. assert (Hd : held (heap hs) X v w) by (destruct x; [apply It|apply rep_held; exact It]).
  destruct v; try contradiction; destruct i; try contradiction.
  - change (rep (heap hs) X (VStr s0) w) in Hd. apply rep_vstr in Hd. apply rep_vint in Hi. subst w iw. cbn [get_item hget_item]. destruct (Z.geb z 0); [|contradiction].
    destruct (index s0 (Z.to_nat z)); intro Go; [apply sim_val; [exact I|reflexivity]|apply sim_raise; exact I].
  - destruct Hd as (r & o & -> & K & O). apply rep_vstr in Hi. subst iw. cbn [get_item hget_item]. unfold at_ at 1. rewrite K. destruct o; try contradiction. destruct O as [O1 O2].
    pose proof (assoc_rep _ _ s0 _ _ O2) as As. destruct (assoc s0 items) as [u|], (assoc s0 items0) as [uw|]; try contradiction; [intro Go; apply sim_val; [exact I|exact As]|].
    destruct factory as [g|]; [|contradiction]. destruct x as [y|]; [|contradiction]. destruct factory0 as [gw|]; [|contradiction]. destruct It as (Nv & Hn & _ & Or).
    unfold origin in Or. unfold name_value in Nv. destruct (get y (loc s)) as [[kd u]|] eqn:Q.
    + injection Nv as ->. destruct (Or eq_refl) as (a & E & Hl & Ow). injection E as <-. intro Go.
      eapply sim_bind; [exact Go|intro Go'; apply call_value_sim; [exact ok|exact RUN|exact I|exact O1|constructor|constructor|exact Go']|discriminate|exact (fun y H => H)|].
      intros v' w' s1 hs1 E1 [Hv _] Go1. cbn beta in *. pose proof (e_kinds _ _ _ _ _ _ _ _ _ _ _ E1 y) as Kd. rewrite Q in Kd. destruct (get y (loc s1)) as [[kd1 u1]|] eqn:Q1; [|discriminate Kd]. injection Kd as ->.
      unfold store in *. rewrite Q1 in *. destruct (writable kd) eqn:W; [|contradiction]. cbn [or_stuck] in *. destruct Ow as [Cr NG].
      assert (At : at_ hs1 r = Some (ODict (Some gw) items0)).
      { rewrite (proj2 (e_frame _ _ _ _ _ _ _ _ _ _ _ E1)); [exact K|apply nth_error_Some; unfold at_ in *; congruence|]. intros [_ [H|(z & H & _)]]; [exact (NG H)|discriminate H]. }
      rewrite At. assert (A := estep_agree _ _ _ _ _ _ _ _ _ _ _ I E1).
      eapply sim_change; [exact (e_inv _ _ _ _ _ _ _ _ _ _ _ E1)|exact Q1|rewrite (e_hloc _ _ _ _ _ _ _ _ _ _ _ E1); exact Hl|exact W|reflexivity| |exact Hv].
      split; [eapply rep_move; eassumption|]. constructor; [split; [reflexivity|exact Hv]|eapply kvs_move; eassumption].
    + destruct (Or eq_refl) as (a & E & Gg & Hgg & _ & Gd). injection E as <-. destruct Gd as (q & f & c & -> & Fd & Lt). apply rep_vfun in O1. subst gw. intro Go.
      destruct (lit_call q f c s hs kx _ Fd Lt Go) as (v' & w' & E1 & E2 & Mv & Hv). rewrite E1 in *. rewrite E2. cbn [hbind]. unfold at_. rewrite K.
      unfold store in *. rewrite Q, Gg in *. cbn [or_stuck] in *. exists v', (St (loc s) (out s) (set_glob m y (VDict (Some (VFun q f)) ((s0, v') :: items)) (glob s))). split; [reflexivity|].
      assert (Gr : G r) by (exists m, y; exact Hgg). split.
      * constructor.
        -- eapply Inv_put_glob; [exact I|exact Gg|exact Hgg|reflexivity|exists q, f, c; repeat split; assumption|]. split; [split; reflexivity|]. constructor; [split; [reflexivity|apply Hv]|exact O2].
        -- reflexivity.
        -- reflexivity.
        -- eapply frame_mono; [apply frame_put|]. intros b ->. split; [exact (i_GC _ _ _ _ _ _ _ _ I r Gr)|left; exact Gr].
      * apply Hv.
Qed.
End Fn.
End Methods.
