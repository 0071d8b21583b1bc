(* PyHeap.v does what PyEval.v does: calls, methods and items. *)
From Coq Require Import List String Ascii NArith ZArith Bool Lia.
From Verif Require Import PyBase PyRepr Json Record Api Utf8 PySyntax PyEval SrcCheck PyHeap HeapRep HeapCheck HeapInv HeapSim.
Import ListNotations.
Open Scope string_scope.
Open Scope list_scope.
Local Open Scope nat_scope.

Section Calls.
Variable prog : list (string * pymodule).
Variable files : disk.
Variable hg : list (string * string * hval).
Hypothesis ok : prog_ok prog = true.
Notation base := (base prog hg).
Notation arg_in := (arg_in hg).
Notation G := (G hg).
Notation gn := (gn prog).
Notation after := (after prog hg).

Lemma get_prog : forall A x (l : list (string * A)) b, get x l = Some b -> In (x, b) l.
Proof. intros A x l b. induction l as [|[y c] l IH]; cbn; [discriminate|]. destruct (String.eqb_spec x y); [intro E; injection E as ->; left; congruence|right; auto]. Qed.
Lemma find_def_in : forall b f ps body, find_def b f = Some (ps, body) -> In (SDef f ps body) b.
Proof.
  intros b f ps body. induction b as [|c b IH]; [discriminate|]. destruct c; cbn; try (intro E; right; exact (IH E)). destruct (String.eqb_spec f f0); [|intro E; right; exact (IH E)].
  intro E. injection E as -> ->. subst. left. reflexivity.
Qed.
Lemma find_class_in : forall b c body, find_class b c = Some body -> In (SClass c body) b.
Proof.
  intros b f body. induction b as [|c b IH]; [discriminate|]. destruct c; cbn; try (intro E; right; exact (IH E)). destruct (String.eqb_spec f c); [|intro E; right; exact (IH E)].
  intro E. injection E as ->. subst. left. reflexivity.
Qed.
Lemma function_ok : forall c f ps body, find_def (module_body prog c) f = Some (ps, body) -> fn_ok gn (flat_map bound (module_body prog c)) ps body = true.
Proof.
  intros c f ps body E. unfold module_body in *. destruct (get c prog) as [b|] eqn:Gp; [|discriminate E]. apply get_prog in Gp. apply find_def_in in E.
  unfold prog_ok in ok. rewrite forallb_forall in ok. specialize (ok _ Gp). cbn [snd] in ok. rewrite forallb_forall in ok. specialize (ok _ E). apply andb_true_iff in ok. exact (proj1 ok).
Qed.
Lemma method_ok : forall c q f ps body, find_def (class_body prog c q) f = Some (ps, body) -> fn_ok gn (flat_map bound (module_body prog c)) ps body = true.
Proof.
  intros c q f ps body E. unfold class_body in E. destruct (find_class (module_body prog c) q) as [cb|] eqn:Fc; [|discriminate E]. unfold module_body in *.
  destruct (get c prog) as [b|] eqn:Gp; [|discriminate Fc]. apply get_prog in Gp. apply find_def_in in E. apply find_class_in in Fc.
  unfold prog_ok in ok. rewrite forallb_forall in ok. specialize (ok _ Gp). cbn [snd] in ok. rewrite forallb_forall in ok. specialize (ok _ Fc). apply andb_true_iff in ok.
  destruct ok as [_ K]. rewrite forallb_forall in K. exact (K _ E).
Qed.

Variable n : nat.
Hypothesis RUN : run_ok prog files hg n.
Notation R := (run prog files n).
Notation HR := (hrun prog files n).
Section Fn.
Variable m : string.
Variable lv pn : list string.
Hypothesis lv_ok : none_of lv (flat_map bound (module_body prog m) ++ builtins) = true.
Notation Inv := (Inv prog hg lv pn).
Notation estep := (estep prog hg lv pn).
Notation sim := (sim prog hg lv pn).
Notation gives := (gives prog hg lv pn).
Notation newobj := (newobj prog hg lv pn).

Definition is_maker (f : value) : bool := match f with VClass _ _ | VPrim _ _ => true | _ => false end.
Definition value_rep (X : nat -> Prop) (v : value) (w : hval) (s : st) (hs : hst) : Prop := rep (heap hs) X v w.

Lemma prim_kws_sim : forall X C s hs q f args hargs kw kws hkws kx k, Inv X C s hs -> Forall2 (arg_in (heap hs) X) args hargs -> Forall2 (kv_rep (heap hs) X) (kw :: kws) hkws ->
  going (prim files q f args (kw :: kws) s kx k) ->
  sim X C [] s hs (gives (List.length (heap hs)) X C all_makers) (hprim prog files q f hargs hkws hs) kx k (prim files q f args (kw :: kws) s kx k).
Proof.
  intros X C s hs q f args hargs [a v] kws hkws kx k I F K. inversion K as [|? [a' w] ? hkws' [E H] K']; subst. cbn in E, H. subst a'.
  destruct (String.eqb a "field_names") eqn:E1; [|destruct (String.eqb a "sort_keys") eqn:E2].
  - apply String.eqb_eq in E1. subst a. cbn [prim hprim]. destruct v; try contradiction. destruct kws as [|]; [|contradiction]. inversion K'; subst. apply rep_list in H. destruct H as (l' & -> & H).
    destruct ((q =? "prettytable")%string && (f =? "PrettyTable")%string); [|contradiction]. destruct args; [|contradiction]. inversion F; subst. destruct (strs l) as [ns|] eqn:Es; [|contradiction].
    rewrite (strs_rep _ _ _ _ _ H Es). destruct (same_strs ns table_header); [|contradiction]. intro Go. apply sim_new; [exact I|reflexivity|split; reflexivity].
  - apply String.eqb_eq in E2. subst a. cbn [prim hprim]. destruct v; try contradiction. destruct b; [|contradiction]. apply rep_vbool in H. subst w.
    destruct kws as [|[a v] kws]; [contradiction|]. inversion K' as [|? [a' w] ? hkws'' [E H] K'']; subst. cbn in E, H. subst a'.
    destruct (String.eqb a "indent") eqn:E2.
    2: { clear - E2. intro Go. exfalso. revert Go E2. repeat match goal with |- going (match ?t with _ => _ end) -> _ => is_var t; destruct t; try contradiction end; intros Go E2; discriminate E2. }
    apply String.eqb_eq in E2. subst a. destruct v; try contradiction. destruct (Z.eq_dec z 4) as [->|Nz].
    2: { intro Go. exfalso. revert Go Nz. clear. repeat match goal with |- going (match ?t with _ => _ end) -> _ => is_var t; destruct t; try contradiction end; intros Go E2; exact (E2 eq_refl). }
    apply rep_vint in H. subst w.
    destruct kws as [|[a v] kws]; [contradiction|]. inversion K'' as [|? [a' w] ? hkws''' [E H] K''']; subst. cbn in E, H. subst a'.
    destruct (String.eqb a "separators") eqn:E2.
    2: { clear - E2. intro Go. exfalso. revert Go E2. repeat match goal with |- going (match ?t with _ => _ end) -> _ => is_var t; destruct t; try contradiction end; intros Go E2; discriminate E2. }
    apply String.eqb_eq in E2. subst a. destruct v; try contradiction. destruct l as [|u1 [|u2 [|]]]; try contradiction; try (destruct u1; contradiction); try (destruct u1; try contradiction; destruct u2; contradiction).
    destruct u1; try contradiction. destruct u2; try contradiction. destruct kws; [|contradiction]. inversion K'''; subst. apply rep_tuple in H. destruct H as (l' & -> & H).
    inversion H as [|? w1 ? l1 H1 H2]; subst. inversion H2 as [|? w2 ? l2 H3 H4]; subst. inversion H4; subst. apply rep_vstr in H1, H3. subst.
    destruct ((q =? "json")%string && (f =? "dumps")%string); [|contradiction]. destruct args as [|v [|]]; try contradiction; [|destruct v; try contradiction; destruct factory; contradiction].
    apply args_one in F. destruct F as (w & -> & Ha). destruct v; try contradiction. destruct factory; [contradiction|].
    destruct (str_items items) as [d|] eqn:E; [|contradiction]. destruct Ha as (a & o & -> & Ka & O & _). unfold at_. rewrite Ka. destruct o; try contradiction. destruct O as [O1 O2]. destruct factory; [contradiction|].
    rewrite (str_items_rep _ _ _ _ _ O2 E). destruct (str_eqb s0 (lit ",") && str_eqb s1 (lit ": ")); [|contradiction]. intro Go. apply sim_plain; [exact I|reflexivity|reflexivity].
  - intro Go. exfalso. unfold prim in Go. cbv zeta in Go. clear - Go E1 E2. revert Go E1 E2. repeat match goal with |- going (match ?t with _ => _ end) -> _ => is_var t; destruct t; try contradiction end; intros Go E1 E2; try discriminate E1; discriminate E2.
Qed.
Lemma prim_sim : forall X C s hs q f args hargs kws hkws kx k, Inv X C s hs -> Forall2 (arg_in (heap hs) X) args hargs -> Forall2 (kv_rep (heap hs) X) kws hkws -> (q =? "builtins")%string && (f =? "hasattr")%string = false ->
  going (prim files q f args kws s kx k) ->
  sim X C [] s hs (gives (List.length (heap hs)) X C all_makers) (hprim prog files q f hargs hkws hs) kx k (prim files q f args kws s kx k).
Proof.
  intros X C s hs q f args hargs [|kw kws] hkws kx k I F K N Go; [|apply prim_kws_sim; assumption]. inversion K; subst. apply prim_plain_sim; assumption.
Qed.
Lemma hasattr_sim : forall X C s hs q f args hargs kx k, Inv X C s hs -> Forall2 (arg_in (heap hs) X) args hargs -> (q =? "builtins")%string && (f =? "hasattr")%string = true ->
  going (hasattr_call prog args s k) ->
  sim X C [] s hs (gives (List.length (heap hs)) X C all_makers) (hprim prog files q f hargs [] hs) kx k (hasattr_call prog args s k).
Proof.
  intros X C s hs q f args hargs kx k I F E. apply andb_true_iff in E. destruct E as [E1 E2]. apply String.eqb_eq in E1, E2. subst q f. change (hprim prog files "builtins" "hasattr" hargs [] hs) with
    (match hargs with
     | [HRef r; HStr a] =>
         match at_ hs r with
         | Some (OInst m c attrs) =>
             if str_eqb a (lit "cont_idx") then HOk (HBool (match hinst_attr prog m c attrs "cont_idx" with Some _ => true | None => false end)) hs
             else if str_eqb a (lit "app_idx") then HOk (HBool (match hinst_attr prog m c attrs "app_idx" with Some _ => true | None => false end)) hs
             else HStuck "hasattr"
         | _ => HStuck "hasattr"
         end
     | _ => HStuck "hasattr"
     end).
  unfold hasattr_call. destruct args as [|v [|u [|]]]; try contradiction; try (destruct v; try contradiction; destruct u; contradiction).
  apply args_two in F. destruct F as (w & x & -> & H & H'). destruct v; try contradiction. destruct u; try contradiction. apply arg_str in H'. subst x.
  destruct H as (a & o & -> & K & O & _). unfold at_. rewrite K. destruct o; try contradiction. destruct O as (<- & <- & O). intro Go.
  pose proof (inst_attr_rep prog (heap hs) X m0 c _ _ "cont_idx" O) as Q1. pose proof (inst_attr_rep prog (heap hs) X m0 c _ _ "app_idx" O) as Q2.
  destruct (str_eqb s0 (lit "cont_idx")); [|destruct (str_eqb s0 (lit "app_idx")); [|contradiction]].
  - destruct (inst_attr prog m0 c attrs "cont_idx") as [v|]; [destruct Q1 as (w & -> & _)|rewrite Q1]; apply sim_plain; try exact I; reflexivity.
  - destruct (inst_attr prog m0 c attrs "app_idx") as [v|]; [destruct Q2 as (w & -> & _)|rewrite Q2]; apply sim_plain; try exact I; reflexivity.
Qed.

(* ---- back from a call ---- *)
Lemma not_G : forall X C s hs x kd v a, Inv X C s hs -> get x (loc s) = Some (kd, v) -> mutable v = true -> get x (hloc hs) = Some (HRef a) -> ~ G a.
Proof.
  intros X C s hs x kd v a I Q M H. destruct (i_loc _ _ _ _ _ _ _ _ I x kd v Q) as (_ & _ & w & K1 & K2). rewrite H in K1. injection K1 as <-. unfold var_in in K2. rewrite M in K2.
  destruct K2 as (b & o & E & _ & _ & K3). injection E as <-. destruct (writable kd); [exact (proj2 K3)|]. intro Ga. exact (K3 (i_GC _ _ _ _ _ _ _ _ I a Ga)).
Qed.
Lemma call_after : forall X C ps s hs X' s' hs', Inv X C s hs -> after X None ps hs X' s' hs' -> estep X C [] s hs (leave s s') hs'.
Proof.
  intros X C ps s hs X' s' hs' I [a1 a2 a3 a4 _]. assert (F : frame G hs hs') by (eapply frame_mono; [exact a4|]; intros a [H|H]; [exact H|discriminate H]).
  constructor.
  - eapply (Inv_after _ _ _ _ X C X C s hs (leave s s') hs' G); [exact I|exact F|exact (b_G _ _ _ _ _ (i_base _ _ _ _ _ _ _ _ I))|apply ext_refl|apply ext_refl|exact (i_CX _ _ _ _ _ _ _ _ I)| |exact a3|exact (i_nodup _ _ _ _ _ _ _ _ I)|].
    + eapply base_weaken; [exact a1|exact (proj1 a2)|exact (b_G _ _ _ _ _ (i_base _ _ _ _ _ _ _ _ I))| | | | |]; reflexivity.
    + intros x kd v Q. left. split; [exact Q|]. intros M a H. eapply not_G; eassumption.
  - exact a3.
  - reflexivity.
  - eapply frame_mono; [exact F|]. intros a Ga. split; [exact (i_GC _ _ _ _ _ _ _ _ I a Ga)|left; exact Ga].
Qed.
Lemma rep_weaken : forall h (X X' : nat -> Prop) v w, (forall a, X a -> X' a) -> rep h X' v w -> rep h X v w.
Proof. intros h X X' v w H K. eapply rep_move; [|exact K]. intros a N L. split; [reflexivity|]. intro Q. exact (N (H a Q)). Qed.
Lemma obj_weaken : forall h (X X' : nat -> Prop) v w, (forall a, X a -> X' a) -> obj_rep h X' v w -> obj_rep h X v w.
Proof. intros h X X' v w H K. eapply obj_move; [|exact K]. intros a N L. split; [reflexivity|]. intro Q. exact (N (H a Q)). Qed.
Lemma arg_move : forall X X' hs hs' v w, agree (heap hs) X (heap hs') X' -> (forall a, a < List.length (heap hs) -> ~ G a -> nth_error (heap hs') a = nth_error (heap hs) a) -> arg_in (heap hs) X v w -> arg_in (heap hs') X' v w.
Proof.
  intros X X' hs hs' v w A K H. unfold HeapInv.arg_in in *. destruct (mutable v); [|eapply rep_move; eassumption]. destruct H as (a & o & -> & E & O & N). exists a, o. split; [reflexivity|].
  split; [rewrite K; [exact E|apply nth_error_Some; congruence|exact N]|]. split; [eapply obj_move; eassumption|exact N].
Qed.
Lemma arg_old : forall h X v a, arg_in h X v (HRef a) -> a < List.length h.
Proof.
  intros h X v a H. unfold HeapInv.arg_in in H. destruct (mutable v) eqn:M; [|destruct (rep_ref _ _ _ _ M H a eq_refl)]. destruct H as (b & o & E & K & _). injection E as <-. apply nth_error_Some. congruence.
Qed.

Lemma call_value_sim : forall X C s hs f w args hargs kws hkws kx k, Inv X C s hs -> rep (heap hs) X f w -> Forall2 (arg_in (heap hs) X) args hargs -> Forall2 (kv_rep (heap hs) X) kws hkws ->
  going (call_value prog files R f args kws s kx k) ->
  sim X C [] s hs (gives (List.length (heap hs)) X C (fun _ => is_maker f)) (hcall_value prog files HR w hargs hkws hs) kx k (call_value prog files R f args kws s kx k).
Proof.
  intros X C s hs f w args hargs kws hkws kx k I Hf F K. destruct f; try contradiction.
  - apply rep_vfun in Hf. subst w. cbn [call_value hcall_value]. destruct kws; [|contradiction]. inversion K; subst. destruct (find_def (module_body prog m0) f) as [[ps body]|] eqn:Fd; [|contradiction]. intro Go.
    pose proof (RUN m0 ps body KRef args hargs X None s hs (fun e s' => kx e (leave s s')) (fun v s' => k v (leave s s')) (function_ok _ _ _ _ Fd) (i_base _ _ _ _ _ _ _ _ I) (conj eq_refl F) Go) as H.
    destruct (HR m0 ps body hargs hs) as [w hs'|e hs'|why]; [| |exact H].
    + destruct H as (v & s' & X' & E & Hr & Ha). rewrite E. exists v, (leave s s'). split; [reflexivity|]. split; [eapply call_after; eassumption|]. split; [eapply rep_weaken; [exact (proj1 (a_ext _ _ _ _ _ _ _ _ _ Ha))|exact Hr]|discriminate].
    + destruct H as (s' & X' & E & Ha). rewrite E. exists (leave s s'). split; [reflexivity|]. eapply call_after; eassumption.
  - apply rep_vclass in Hf. subst w. cbn [call_value hcall_value]. destruct kws; [|contradiction]. inversion K; subst. destruct (find_def (class_body prog m0 c) "__init__") as [[ps body]|] eqn:Fd.
    + intro Go. unfold hnew. set (r := List.length (heap hs)). set (hs0 := halloc (OInst m0 c []) hs).
      pose proof (Inv_new_hot _ _ _ _ X C s hs (OInst m0 c []) I) as I0. fold r hs0 in I0.
      assert (A0 : agree (heap hs) X (heap hs0) (add X r)).
      { eapply frame_agree; [apply (frame_new (OInst m0 c []) hs (fun _ => False))|contradiction|]. intros b [H|H]; [left; exact H|right; unfold r in H; lia]. }
      assert (NX : ~ X r) by (intro H; pose proof (b_hot _ _ _ _ _ (i_base _ _ _ _ _ _ _ _ I) r H); unfold r in *; lia).
      assert (Cl : callee hg (add X r) (Some r) KSelf (VInst m0 c [] :: args) (HRef r :: hargs) hs0).
      { split; [reflexivity|]. exists (VInst m0 c []), args, hargs, (OInst m0 c []). split; [reflexivity|]. split; [reflexivity|]. split; [reflexivity|]. split; [apply at_new|].
        split; [repeat split; constructor|]. split; [right; reflexivity|]. split; [intro Gr; apply NX; exact (b_G _ _ _ _ _ (i_base _ _ _ _ _ _ _ _ I) r Gr)|].
        clear - F A0. induction F as [|v w l l' H F IH]; constructor; [|exact IH]. split.
        - eapply arg_move; [exact A0| |exact H]. intros a L _. apply nth_error_app1. exact L.
        - intros ->. apply arg_old in H. unfold r in H. lia. }
      match type of Go with going (R _ _ _ _ _ _ ?f1 ?f2) =>
        pose proof (RUN m0 ps body KSelf (VInst m0 c [] :: args) (HRef r :: hargs) (add X r) (Some r) s hs0 f1 f2 (method_ok _ _ _ _ _ Fd) (i_base _ _ _ _ _ _ _ _ I0) Cl Go) as H end.
      destruct (HR m0 ps body (HRef r :: hargs) hs0) as [w hs'|e hs'|why]; [| |exact H].
      * destruct H as (v & s' & X' & E & Hr & Ha). rewrite E in Go |- *. destruct (a_self _ _ _ _ _ _ _ _ _ Ha) as (v' & o' & Es & Mv & At & Ob). rewrite Es in Go |- *. cbn [or_stuck hbind].
        exists v', (leave s s'). split; [reflexivity|].
        assert (FG : frame G hs hs').
        { eapply frame_trans; [apply (frame_new (OInst m0 c []) hs (fun _ => False))|exact (a_frame _ _ _ _ _ _ _ _ _ Ha)|contradiction|]. intros a [H|H]; [left; exact H|right]. unfold is_self in H. injection H as <-. unfold r. lia. }
        assert (NO : newobj r X C v' (HRef r) (leave s s') hs').
        { exists r, o'. split; [reflexivity|]. split; [exact At|]. split; [lia|]. split; [exact NX|]. split; [eapply obj_weaken; [exact (proj1 (a_ext _ _ _ _ _ _ _ _ _ Ha))|exact Ob]|].
          eapply (Inv_after _ _ _ _ X C (add X r) (add C r) s hs (leave s s') hs' G); [exact I|exact FG|exact (b_G _ _ _ _ _ (i_base _ _ _ _ _ _ _ _ I))|apply ext_add|apply ext_add|exact (i_CX _ _ _ _ _ _ _ _ I0)| |exact (a_hloc _ _ _ _ _ _ _ _ _ Ha)|exact (i_nodup _ _ _ _ _ _ _ _ I)|].
          - eapply base_weaken; [exact (a_base _ _ _ _ _ _ _ _ _ Ha)|exact (proj1 (a_ext _ _ _ _ _ _ _ _ _ Ha))|exact (b_G _ _ _ _ _ (i_base _ _ _ _ _ _ _ _ I0))| | | | |]; reflexivity.
          - intros x kd u Q. left. split; [exact Q|]. intros M a H. eapply not_G; eassumption. }
        split; [|split; [eapply newobj_rep; eassumption|intros _ _; exact NO]].
        constructor.
        -- eapply (Inv_after _ _ _ _ X C X C s hs (leave s s') hs' G); [exact I|exact FG|exact (b_G _ _ _ _ _ (i_base _ _ _ _ _ _ _ _ I))|apply ext_refl|apply ext_refl|exact (i_CX _ _ _ _ _ _ _ _ I)| |exact (a_hloc _ _ _ _ _ _ _ _ _ Ha)|exact (i_nodup _ _ _ _ _ _ _ _ I)|].
           ++ eapply base_weaken; [exact (a_base _ _ _ _ _ _ _ _ _ Ha)|intros a Xa; apply (proj1 (a_ext _ _ _ _ _ _ _ _ _ Ha)); left; exact Xa|exact (b_G _ _ _ _ _ (i_base _ _ _ _ _ _ _ _ I))| | | | |]; reflexivity.
           ++ intros x kd u Q. left. split; [exact Q|]. intros M a H. eapply not_G; eassumption.
        -- exact (a_hloc _ _ _ _ _ _ _ _ _ Ha).
        -- reflexivity.
        -- eapply frame_mono; [exact FG|]. intros a Ga. split; [exact (i_GC _ _ _ _ _ _ _ _ I a Ga)|left; exact Ga].
      * destruct H as (s' & X' & E & Ha). rewrite E. cbn [hbind]. exists (leave s s'). split; [reflexivity|].
        assert (FG : frame G hs hs').
        { eapply frame_trans; [apply (frame_new (OInst m0 c []) hs (fun _ => False))|exact (a_frame _ _ _ _ _ _ _ _ _ Ha)|contradiction|]. intros a [H|H]; [left; exact H|right]. unfold is_self in H. injection H as <-. unfold r. lia. }
        constructor.
        -- eapply (Inv_after _ _ _ _ X C X C s hs (leave s s') hs' G); [exact I|exact FG|exact (b_G _ _ _ _ _ (i_base _ _ _ _ _ _ _ _ I))|apply ext_refl|apply ext_refl|exact (i_CX _ _ _ _ _ _ _ _ I)| |exact (a_hloc _ _ _ _ _ _ _ _ _ Ha)|exact (i_nodup _ _ _ _ _ _ _ _ I)|].
           ++ eapply base_weaken; [exact (a_base _ _ _ _ _ _ _ _ _ Ha)|intros a Xa; apply (proj1 (a_ext _ _ _ _ _ _ _ _ _ Ha)); left; exact Xa|exact (b_G _ _ _ _ _ (i_base _ _ _ _ _ _ _ _ I))| | | | |]; reflexivity.
           ++ intros x kd u Q. left. split; [exact Q|]. intros M a H. eapply not_G; eassumption.
        -- exact (a_hloc _ _ _ _ _ _ _ _ _ Ha).
        -- reflexivity.
        -- eapply frame_mono; [exact FG|]. intros a Ga. split; [exact (i_GC _ _ _ _ _ _ _ _ I a Ga)|left; exact Ga].
    + destruct args; [|contradiction]. inversion F; subst. intro Go. apply sim_new; [exact I|reflexivity|repeat split; constructor].
  - apply rep_vprim in Hf. subst w. cbn [call_value hcall_value is_maker]. destruct ((m0 =? "builtins")%string && (f =? "hasattr")%string) eqn:E; intro Go.
    + destruct kws; [|contradiction]. inversion K; subst. apply hasattr_sim; assumption.
    + apply prim_sim; assumption.
Qed.
End Fn.
End Calls.
