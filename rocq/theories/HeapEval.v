(* PyHeap.v does what PyEval.v does: expressions. *)
From Coq Require Import List String Ascii NArith ZArith Bool Lia.
From Verif Require Import PyBase PyRepr Json Record Api Utf8 PySyntax PyEval SrcCheck PyHeap HeapRep HeapCheck HeapInv HeapSim HeapCalls HeapMethods.
Import ListNotations.
Open Scope string_scope.
Open Scope list_scope.
Local Open Scope nat_scope.

(* ---- what the check says ---- *)
Lemma touched_list : forall l, touched (EList l) = touched_all l.
Proof. induction l as [|e l IH]; [reflexivity|]. change (touched (EList (e :: l))) with (touched e ++ touched (EList l)). rewrite IH. reflexivity. Qed.
Lemma touched_kw : forall l, touched (ECall ENone [] l) = touched_kws l.
Proof. induction l as [|[a e] l IH]; [reflexivity|]. change (touched (ECall ENone [] ((a, e) :: l))) with (touched e ++ touched (ECall ENone [] l)). rewrite IH. reflexivity. Qed.
Lemma touched_call : forall f args kws, touched (ECall f args kws) = (match f with EAttr (EName x) _ => [x] | _ => [] end) ++ touched f ++ touched_all args ++ touched_kws kws.
Proof. intros. rewrite <- touched_list, <- touched_kw. reflexivity. Qed.
Lemma eok_list : forall g l, eok g (EList l) = true -> Forall (fun e => eok g e = true) l.
Proof.
  intros g. induction l as [|e l IH]; [constructor|]. change (eok g (EList (e :: l))) with (eok g e && eok g (EList l)). intro H. apply andb_true_iff in H. destruct H. constructor; auto.
Qed.
Lemma eok_call : forall g f args kws, eok g (ECall f args kws) = true ->
  eok g f = true /\ Forall (fun e => eok g e = true) args /\ Forall (fun p => eok g (snd p) = true) kws /\ args_ok g args (touched_kws kws) = true.
Proof.
  intros g f args kws H. cbn [eok] in H. apply andb_true_iff in H. destruct H as [H H4]. apply andb_true_iff in H. destruct H as [H H3]. apply andb_true_iff in H. destruct H as [H1 H2].
  split; [exact H1|]. split; [exact (eok_list g args H2)|]. split; [|exact H4]. revert H3. clear. induction kws as [|[a e] l IH]; [constructor|]. intro H. apply andb_true_iff in H. destruct H. constructor; auto.
Qed.
Lemma has_l : forall a b y, has a y = true -> has (a ++ b) y = true.
Proof. intros a b y H. rewrite has_app, H. reflexivity. Qed.
Lemma has_r : forall a b y, has b y = true -> has (a ++ b) y = true.
Proof. intros a b y H. rewrite has_app, H. apply orb_true_r. Qed.

Ltac inh := first [assumption|apply has_l; inh|apply has_r; inh].

Section Eval.
Variable prog : list (string * pymodule).
Variable files : disk.
Variable hg : list (string * string * hval).
Hypothesis ok : prog_ok prog = true.
Notation base := (base prog hg).
Notation arg_in := (arg_in hg).
Notation G := (G hg).
Notation gn := (gn prog).
Variable n : nat.
Hypothesis RUN : run_ok prog files hg n.
Notation R := (run prog files n).
Notation HR := (hrun prog files n).
Section Fn.
Variable m : string.
Variable lv pn : list string.
Hypothesis lv_ok : none_of lv (flat_map bound (module_body prog m) ++ builtins) = true.
Notation Inv := (Inv prog hg lv pn).
Notation estep := (estep prog hg lv pn).
Notation sim := (sim prog hg lv pn).
Notation gives := (gives prog hg lv pn).
Notation EV := (eval prog files R m).
Notation HE := (heval prog files HR m lv).
Notation ev kx := (fun (e : expr) (s : st) (k : value -> st -> ans) => eval prog files R m e s kx k).

Definition esim (e : expr) : Prop := forall X C s hs kx k, Inv X C s hs -> eok gn e = true -> going (EV e s kx k) ->
  sim X C (touched e) s hs (gives (List.length (heap hs)) X C (makes_object prog m e)) (HE e hs) kx k (EV e s kx k).
Definition vsim (e : expr) : Prop := forall X C s hs kx k, Inv X C s hs -> eok gn e = true -> going (EV e s kx k) ->
  sim X C (touched e) s hs (value_rep X) (HE e hs) kx k (EV e s kx k).
Definition opt_sim (o : option expr) : Prop := match o with Some e => vsim e | None => True end.
Definition sub_sim (f : expr) : Prop := match f with EAttr e _ => vsim e | _ => True end.
Lemma esim_v : forall e, esim e -> vsim e.
Proof. intros e H X C s hs kx k I O Go. eapply sim_mono; [exact (H X C s hs kx k I O Go)|auto|]. intros v w s' hs' _ [K _]. exact K. Qed.
(* an expression that is no display or call *)
Lemma vsim_e : forall e, (forall s, makes_object prog m e s = false) -> vsim e -> esim e.
Proof. intros e N H X C s hs kx k I O Go. eapply sim_mono; [exact (H X C s hs kx k I O Go)|auto|]. intros v w s' hs' _ K. split; [exact K|]. rewrite N. discriminate. Qed.
Lemma gives_le : forall L L' X C mk v w s hs, L' <= L -> gives L X C mk v w s hs -> gives L' X C mk v w s hs.
Proof. intros L L' X C mk v w s hs H [K1 K2]. split; [exact K1|]. intros A B. eapply newobj_le; [exact H|auto]. Qed.
Lemma estep_le : forall X C T s hs s' hs', estep X C T s hs s' hs' -> List.length (heap hs) <= List.length (heap hs').
Proof. intros X C T s hs s' hs' E. exact (proj1 (e_frame _ _ _ _ _ _ _ _ _ _ _ E)). Qed.
Lemma rep_step : forall X C T s hs s' hs' v w, Inv X C s hs -> estep X C T s hs s' hs' -> rep (heap hs) X v w -> rep (heap hs') X v w.
Proof. intros. eapply rep_move; [eapply estep_agree; eassumption|assumption]. Qed.

(* an operand that may be a plain name *)
Definition held_rep (X : nat -> Prop) (v : value) (w : hval) (s : st) (hs : hst) : Prop := held (heap hs) X v w.
Lemma obj_sim : forall e X C s hs kx k, vsim e -> Inv X C s hs -> eok gn e = true -> going (eval_obj prog (ev kx) m e s k) ->
  sim X C (touched e) s hs (held_rep X) (HE e hs) kx k (eval_obj prog (ev kx) m e s k).
Proof.
  intros e X C s hs kx k H I O Go.
  assert (D : (exists x, e = EName x) \/ eval_obj prog (ev kx) m e s k = EV e s kx k) by (destruct e; try (right; reflexivity); left; eexists; reflexivity).
  destruct D as [[x ->]|D].
  - cbn [eval_obj heval] in *. destruct (name_value prog m x s) as [v|] eqn:E; [|contradiction]. destruct (name_rep prog hg m lv pn lv_ok X C s hs x v I E) as (w & -> & Hd & _). cbn [hsome or_stuck]. apply sim_ok; assumption.
  - rewrite D in *. eapply sim_mono; [exact (H X C s hs kx k I O Go)|auto|]. intros v w s' hs' _ K. apply rep_held. exact K.
Qed.

(* ---- arguments ---- *)
Definition stays (X C : nat -> Prop) (later : list string) (v : value) (w : hval) (s : st) (hs : hst) : Prop :=
  forall s' hs', estep X C later s hs s' hs' -> arg_in (heap hs') X v w.
Lemma rep_stays : forall X C later v w s hs, Inv X C s hs -> rep (heap hs) X v w -> stays X C later v w s hs.
Proof. intros X C later v w s hs I H s' hs' E. apply arg_rep; [exact (b_G _ _ _ _ _ (i_base _ _ _ _ _ _ _ _ I))|]. eapply rep_step; eassumption. Qed.
Lemma name_stays : forall X C later x v w s hs, Inv X C s hs -> negb (has gn x) = true -> negb (has later x) = true -> held (heap hs) X v w -> origin prog hg m C s hs x v w -> stays X C later v w s hs.
Proof.
  intros X C later x v w s hs I N1 N2 Hd Or. destruct (mutable v) eqn:M; [|apply rep_stays; [exact I|]; unfold held in Hd; rewrite M in Hd; exact Hd].
  intros s' hs' E. unfold origin in Or. apply negb_true_iff in N1, N2. destruct (get x (loc s)) as [[kd u]|] eqn:Q; [|destruct (Or M) as (a & _ & _ & _ & K & _); apply (proj2 (has_in _ _)) in K; congruence].
  destruct (Or M) as (a & -> & Hl & Ow). unfold held in Hd. rewrite M in Hd. destruct Hd as (b & o & Eb & K & Ob). injection Eb as <-.
  assert (NG : ~ G a) by (destruct (writable kd); [apply Ow|intro H; exact (Ow (i_GC _ _ _ _ _ _ _ _ I a H))]).
  assert (NM : ~ may hg C later s hs a).
  { intros [Ca [Ga|(y & Hy & (ky & vy & Qy & Wy & Ly))]]; [exact (NG Ga)|]. destruct (writable kd) eqn:W; [|exact (Ow Ca)].
    pose proof (i_dist _ _ _ _ _ _ _ _ I x y kd u ky vy a Q W Hl Qy Wy Ly). subst y. congruence. }
  unfold HeapInv.arg_in. rewrite M. exists a, o. split; [reflexivity|]. split; [|split; [|exact NG]].
  - pose proof (proj2 (e_frame _ _ _ _ _ _ _ _ _ _ _ E)) as F. unfold at_ in F. rewrite F; [exact K|apply nth_error_Some; congruence|exact NM].
  - eapply obj_move; [eapply estep_agree; eassumption|exact Ob].
Qed.
Lemma arg_sim : forall e later X C s hs kx k, vsim e -> Inv X C s hs -> eok gn e = true -> match e with EName x => negb (has gn x) && negb (has later x) | _ => true end = true ->
  going (eval_obj prog (ev kx) m e s k) ->
  sim X C (touched e) s hs (stays X C later) (HE e hs) kx k (eval_obj prog (ev kx) m e s k).
Proof.
  intros e later X C s hs kx k H I O A Go.
  assert (D : (exists x, e = EName x) \/ eval_obj prog (ev kx) m e s k = EV e s kx k) by (destruct e; try (right; reflexivity); left; eexists; reflexivity).
  destruct D as [[x ->]|D].
  - cbn [eval_obj heval] in *. destruct (name_value prog m x s) as [v|] eqn:E; [|contradiction]. destruct (name_rep prog hg m lv pn lv_ok X C s hs x v I E) as (w & -> & Hd & Or). cbn [hsome or_stuck].
    apply andb_true_iff in A. destruct A as [A1 A2]. apply sim_ok; [exact I|]. eapply name_stays; eassumption.
  - rewrite D in *. eapply sim_mono; [exact (H X C s hs kx k I O Go)|auto|]. intros v w s' hs' E K. apply rep_stays; [exact (e_inv _ _ _ _ _ _ _ _ _ _ _ E)|exact K].
Qed.
Definition stay_all (X C : nat -> Prop) (later : list string) (vs : list value) (ws : list hval) (s : st) (hs : hst) : Prop :=
  forall s' hs', estep X C later s hs s' hs' -> Forall2 (arg_in (heap hs') X) vs ws.
Lemma args_sim : forall es later X C s hs kx k, Forall vsim es -> Inv X C s hs -> Forall (fun e => eok gn e = true) es -> args_ok gn es later = true ->
  going (eval_list (eval_obj prog (ev kx) m) es s k) ->
  sim X C (touched_all es) s hs (stay_all X C later) (heval_list HE es hs) kx k (eval_list (eval_obj prog (ev kx) m) es s k).
Proof.
  induction es as [|e es IH]; intros later X C s hs kx k V I O A Go.
  - apply (sim_ok prog hg lv pn _ _ X C (touched_all []) s hs (stay_all X C later) [] [] kx k I). intros s' hs' _. constructor.
  - inversion V as [|? ? V1 V2]; subst. inversion O as [|? ? O1 O2]; subst. cbn [args_ok] in A. apply andb_true_iff in A. destruct A as [A1 A2]. cbn [eval_list heval_list] in *.
    eapply sim_bind; [exact Go|intro Go'; apply (arg_sim e (touched_all es ++ later)); eassumption|intros y Hy; apply has_l; exact Hy|intros y Hy; apply has_r; exact Hy|].
    intros v w s1 hs1 E1 Q1 Go1. cbn beta in *.
    eapply sim_bind with (T1 := touched_all es) (T2 := []); [exact Go1|intro Go'; apply (IH later); try eassumption; exact (e_inv _ _ _ _ _ _ _ _ _ _ _ E1)|auto|discriminate|].
    intros vs ws s2 hs2 E2 Q2 Go2. cbn beta in *. apply (sim_ok prog hg lv pn _ _ X C [] s2 hs2 (stay_all X C later) (v :: vs) (w :: ws) kx k (e_inv _ _ _ _ _ _ _ _ _ _ _ E2)).
    intros s3 hs3 E3. constructor; [|exact (Q2 s3 hs3 E3)]. apply (Q1 s3 hs3). eapply estep_trans; eapply estep_mono; try eassumption; intros y Hy; [apply has_l|apply has_r]; exact Hy.
Qed.
Definition reps_rep (X : nat -> Prop) (vs : list value) (ws : list hval) (s : st) (hs : hst) : Prop := Forall2 (rep (heap hs) X) vs ws.
Lemma list_sim : forall es X C s hs kx k, Forall vsim es -> Inv X C s hs -> Forall (fun e => eok gn e = true) es -> going (eval_list (ev kx) es s k) ->
  sim X C (touched_all es) s hs (reps_rep X) (heval_list HE es hs) kx k (eval_list (ev kx) es s k).
Proof.
  induction es as [|e es IH]; intros X C s hs kx k V I O Go.
  - apply (sim_ok prog hg lv pn _ _ X C (touched_all []) s hs (reps_rep X) [] [] kx k I). constructor.
  - inversion V as [|? ? V1 V2]; subst. inversion O as [|? ? O1 O2]; subst. cbn [eval_list heval_list] in *.
    eapply sim_bind; [exact Go|intro Go'; apply V1; eassumption|intros y Hy; apply has_l; exact Hy|intros y Hy; apply has_r; exact Hy|].
    intros v w s1 hs1 E1 Q1 Go1. cbn beta in *. pose proof (e_inv _ _ _ _ _ _ _ _ _ _ _ E1) as I1.
    eapply sim_bind with (T1 := touched_all es) (T2 := []); [exact Go1|intro Go'; apply IH; eassumption|auto|discriminate|].
    intros vs ws s2 hs2 E2 Q2 Go2. cbn beta in *. apply (sim_ok prog hg lv pn _ _ X C [] s2 hs2 (reps_rep X) (v :: vs) (w :: ws) kx k (e_inv _ _ _ _ _ _ _ _ _ _ _ E2)).
    constructor; [eapply rep_step; eassumption|exact Q2].
Qed.
Definition kws_rep {A} (X : nat -> Prop) (vs : list (A * value)) (ws : list (A * hval)) (s : st) (hs : hst) : Prop := Forall2 (kv_rep (heap hs) X) vs ws.
Lemma kws_sim : forall es X C s hs kx k, Forall (fun p => vsim (snd p)) es -> Inv X C s hs -> Forall (fun p => eok gn (snd p) = true) es -> going (eval_kws (ev kx) es s k) ->
  sim X C (touched_kws es) s hs (kws_rep X) (heval_kws HE es hs) kx k (eval_kws (ev kx) es s k).
Proof.
  induction es as [|[a e] es IH]; intros X C s hs kx k V I O Go.
  - apply (sim_ok prog hg lv pn _ _ X C (touched_kws []) s hs (kws_rep X) [] [] kx k I). constructor.
  - inversion V as [|? ? V1 V2]; subst. inversion O as [|? ? O1 O2]; subst. cbn [eval_kws heval_kws snd] in *.
    eapply sim_bind; [exact Go|intro Go'; apply V1; eassumption|intros y Hy; apply has_l; exact Hy|intros y Hy; apply has_r; exact Hy|].
    intros v w s1 hs1 E1 Q1 Go1. cbn beta in *. pose proof (e_inv _ _ _ _ _ _ _ _ _ _ _ E1) as I1.
    eapply sim_bind with (T1 := touched_kws es) (T2 := []); [exact Go1|intro Go'; apply IH; eassumption|auto|discriminate|].
    intros vs ws s2 hs2 E2 Q2 Go2. cbn beta in *. apply (sim_ok prog hg lv pn _ _ X C [] s2 hs2 (kws_rep X) ((a, v) :: vs) ((a, w) :: ws) kx k (e_inv _ _ _ _ _ _ _ _ _ _ _ E2)).
    constructor; [split; [reflexivity|eapply rep_step; eassumption]|exact Q2].
Qed.

(* ---- calls ---- *)
Definition call_e (g : value) (args : list expr) (kws : list (string * expr)) (s : st) (kx : exc -> st -> ans) (k : value -> st -> ans) : ans :=
  eval_list (eval_obj prog (ev kx) m) args s (fun vs s => eval_kws (ev kx) kws s (fun ks s => call_value prog files R g vs ks s kx k)).
Definition hcall_e (g : hval) (args : list expr) (kws : list (string * expr)) (s : hst) : hres hval :=
  hbind (heval_list HE args s) (fun vs s => hbind (heval_kws HE kws s) (fun ks s => hcall_value prog files HR g vs ks s)).
Lemma call_sim : forall g gw args kws X C s hs kx k, Forall vsim args -> Forall (fun p => vsim (snd p)) kws -> Inv X C s hs ->
  Forall (fun e => eok gn e = true) args -> Forall (fun p => eok gn (snd p) = true) kws -> args_ok gn args (touched_kws kws) = true ->
  rep (heap hs) X g gw -> going (call_e g args kws s kx k) ->
  sim X C (touched_all args ++ touched_kws kws) s hs (gives (List.length (heap hs)) X C (fun _ => is_maker g)) (hcall_e gw args kws hs) kx k (call_e g args kws s kx k).
Proof.
  intros g gw args kws X C s hs kx k V1 V2 I O1 O2 A Hg Go. unfold call_e, hcall_e in *.
  eapply sim_bind; [exact Go|intro Go'; apply (args_sim args (touched_kws kws)); eassumption|intros y Hy; apply has_l; exact Hy|intros y Hy; apply has_r; exact Hy|].
  intros vs ws s1 hs1 E1 Q1 Go1. cbn beta in *. pose proof (e_inv _ _ _ _ _ _ _ _ _ _ _ E1) as I1.
  eapply sim_bind with (T1 := touched_kws kws) (T2 := []); [exact Go1|intro Go'; apply kws_sim; eassumption|auto|discriminate|].
  intros ks hks s2 hs2 E2 Q2 Go2. cbn beta in *. pose proof (e_inv _ _ _ _ _ _ _ _ _ _ _ E2) as I2.
  eapply sim_mono; [apply call_value_sim; [exact ok|exact RUN|exact I2| |exact (Q1 s2 hs2 E2)|exact Q2|exact Go2]|auto|].
  - eapply rep_step; [exact I1|exact E2|]. eapply rep_step; [exact I|exact E1|exact Hg].
  - intros v w s' hs' _ H. eapply gives_le; [|exact H]. pose proof (estep_le _ _ _ _ _ _ _ E1). pose proof (estep_le _ _ _ _ _ _ _ E2). lia.
Qed.
(* the same function afterwards *)
Lemma hname_same : forall X C T s hs s' hs' x, Inv X C s hs -> estep X C T s hs s' hs' -> hname prog m lv x hs' = hname prog m lv x hs.
Proof.
  intros X C T s hs s' hs' x I E. unfold hname, hglobal. rewrite (e_hloc _ _ _ _ _ _ _ _ _ _ _ E), (b_hg _ _ _ _ _ (i_base _ _ _ _ _ _ _ _ (e_inv _ _ _ _ _ _ _ _ _ _ _ E))), (b_hg _ _ _ _ _ (i_base _ _ _ _ _ _ _ _ I)). reflexivity.
Qed.
Definition fixed (v : value) : bool := match v with VClass _ _ | VPrim _ _ | VMod _ => true | _ => false end.
Lemma held_fixed : forall h h' X v v' w, fixed v' = true -> held h X v w -> held h' X v' w -> v = v'.
Proof.
  intros h h' X v v' w F H H'. unfold held in *. assert (M : mutable v' = false) by (destruct v'; try reflexivity; discriminate F). rewrite M in H'.
  assert (M' : mutable v = false). { destruct (mutable v) eqn:Mv; [|reflexivity]. destruct H as (a & o & -> & _). destruct (rep_ref _ _ _ _ M H' a eq_refl). } rewrite M' in H.
  destruct v'; try discriminate F; destruct w; try contradiction; destruct v; try contradiction; try discriminate M'; cbn in H, H'; try (destruct H, H'); congruence.
Qed.
Lemma name_fixed : forall X C T s hs s' hs' x v v', Inv X C s hs -> estep X C T s hs s' hs' -> name_value prog m x s = Some v -> name_value prog m x s' = Some v' -> fixed v' = true -> v = v'.
Proof.
  intros X C T s hs s' hs' x v v' I E N N' F. destruct (name_rep prog hg m lv pn lv_ok X C s hs x v I N) as (w & H1 & H2 & _).
  destruct (name_rep prog hg m lv pn lv_ok X C s' hs' x v' (e_inv _ _ _ _ _ _ _ _ _ _ _ E) N') as (w' & H1' & H2' & _).
  rewrite (hname_same _ _ _ _ _ _ _ x I E), H1 in H1'. injection H1' as <-. eapply held_fixed; eassumption.
Qed.
(* methods *)
Lemma hcall_attr0 : forall e a args kws hs, HE (ECall (EAttr e a) args kws) hs =
  match e with
  | EStr t => if String.eqb a "format" then hbind (heval_list HE args hs) (fun vs s => hsome t (hformat t vs) (fun r => HOk (HStr r) s)) else HStuck a
  | _ => hbind (HE e hs) (fun w s => match w with
    | HMod q => hsome a (hmod_attr prog q a s) (fun g => hcall_e g args kws s)
    | _ => match kws with [] => hbind (heval_list HE args s) (fun vs s => hcall_method prog files HR w a vs s) | _ => HStuck a end
    end)
  end.
Proof. reflexivity. Qed.
Lemma hcall_attr : forall e a args kws hs, (forall t, e <> EStr t) -> HE (ECall (EAttr e a) args kws) hs =
  hbind (HE e hs) (fun w s => match w with
    | HMod q => hsome a (hmod_attr prog q a s) (fun g => hcall_e g args kws s)
    | _ => match kws with [] => hbind (heval_list HE args s) (fun vs s => hcall_method prog files HR w a vs s) | _ => HStuck a end
    end).
Proof. intros e a args kws hs N. rewrite hcall_attr0. generalize HE. intro h. destruct e; try reflexivity. destruct (N s eq_refl). Qed.
Lemma call_attr0 : forall e a args kws s kx k, EV (ECall (EAttr e a) args kws) s kx k =
  match e with
  | EStr t => if String.eqb a "format" then eval_list (eval_obj prog (ev kx) m) args s (fun vs s => or_stuck t (format t vs) (fun r => k (VStr r) s)) else Stuck a
  | EName x =>
    match get x (loc s) with
    | Some kv =>
        match kws with
        | [] => if is_mod (snd kv) then Stuck a
                else eval_list (eval_obj prog (ev kx) m) args s (fun vs s => or_stuck x (get x (loc s)) (fun kv => call_method prog files R (Some (x, fst kv)) (snd kv) a vs s kx k))
        | _ => Stuck a
        end
    | None => or_stuck x (global prog m x s) (fun v => match v with VMod q => or_stuck a (mod_attr prog q a s) (fun g => call_e g args kws s kx k) | _ => Stuck a end)
    end
  | _ => EV e s kx (fun v s => match v with
    | VMod q => or_stuck a (mod_attr prog q a s) (fun g => call_e g args kws s kx k)
    | _ => match kws with [] => eval_list (eval_obj prog (ev kx) m) args s (fun vs s => call_method prog files R None v a vs s kx k) | _ => Stuck a end
    end)
  end.
Proof. reflexivity. Qed.
Lemma call_attr : forall e a args kws s kx k, (forall t, e <> EStr t) -> (forall x, e <> EName x) -> EV (ECall (EAttr e a) args kws) s kx k =
  EV e s kx (fun v s => match v with
    | VMod q => or_stuck a (mod_attr prog q a s) (fun g => call_e g args kws s kx k)
    | _ => match kws with [] => eval_list (eval_obj prog (ev kx) m) args s (fun vs s => call_method prog files R None v a vs s kx k) | _ => Stuck a end
    end).
Proof. intros e a args kws s kx k N N'. rewrite call_attr0. unfold call_e. generalize EV. intro h. destruct e; try reflexivity; [destruct (N s0 eq_refl)|destruct (N' x eq_refl)]. Qed.
Lemma call_name_attr : forall x a args kws s kx k, EV (ECall (EAttr (EName x) a) args kws) s kx k =
  match get x (loc s) with
  | Some kv =>
      match kws with
      | [] => if is_mod (snd kv) then Stuck a
              else eval_list (eval_obj prog (ev kx) m) args s (fun vs s => or_stuck x (get x (loc s)) (fun kv => call_method prog files R (Some (x, fst kv)) (snd kv) a vs s kx k))
      | _ => Stuck a
      end
  | None => or_stuck x (global prog m x s) (fun v => match v with VMod q => or_stuck a (mod_attr prog q a s) (fun g => call_e g args kws s kx k) | _ => Stuck a end)
  end.
Proof. intros. rewrite call_attr0. reflexivity. Qed.
Lemma call0 : forall f args kws s kx k, EV (ECall f args kws) s kx k =
  match f with EAttr e a => EV (ECall (EAttr e a) args kws) s kx k | _ => EV f s kx (fun g s => call_e g args kws s kx k) end.
Proof. reflexivity. Qed.
Lemma call_other : forall f args kws s kx k, (forall e a, f <> EAttr e a) -> EV (ECall f args kws) s kx k = EV f s kx (fun g s => call_e g args kws s kx k).
Proof. intros f args kws s kx k N. rewrite call0. unfold call_e. generalize EV. intro h. destruct f; try reflexivity. destruct (N f a eq_refl). Qed.
Lemma hcall0 : forall f args kws s, HE (ECall f args kws) s =
  match f with EAttr e a => HE (ECall (EAttr e a) args kws) s | _ => hbind (HE f s) (fun g s => hcall_e g args kws s) end.
Proof. reflexivity. Qed.
Lemma hcall_other : forall f args kws hs, (forall e a, f <> EAttr e a) -> HE (ECall f args kws) hs = hbind (HE f hs) (fun g s => hcall_e g args kws s).
Proof. intros f args kws hs N. rewrite hcall0. unfold hcall_e. generalize HE. intro h. destruct f; try reflexivity. destruct (N f a eq_refl). Qed.
(* a function of a module *)
Lemma mod_call : forall q a args kws X C s hs kx k, Forall vsim args -> Forall (fun p => vsim (snd p)) kws -> Inv X C s hs ->
  Forall (fun e => eok gn e = true) args -> Forall (fun p => eok gn (snd p) = true) kws -> args_ok gn args (touched_kws kws) = true -> negb (has gn a) = true ->
  going (or_stuck a (mod_attr prog q a s) (fun g => call_e g args kws s kx k)) ->
  sim X C (touched_all args ++ touched_kws kws) s hs (gives (List.length (heap hs)) X C (fun _ => match mod_attr prog q a s with Some g => is_maker g | None => false end))
    (hsome a (hmod_attr prog q a hs) (fun g => hcall_e g args kws hs)) kx k (or_stuck a (mod_attr prog q a s) (fun g => call_e g args kws s kx k)).
Proof.
  intros q a args kws X C s hs kx k V1 V2 I O1 O2 A N Go. destruct (mod_attr prog q a s) as [g|] eqn:E; [|contradiction]. cbn [or_stuck] in *.
  destruct (mod_attr_rep prog hg X s hs q a g (i_base _ _ _ _ _ _ _ _ I) E) as (w & -> & Hd & Mu). cbn [hsome]. apply call_sim; try assumption.
  unfold held in Hd. destruct (mutable g); [|exact Hd]. apply negb_true_iff in N. pose proof (proj2 (has_in _ _) (Mu eq_refl)). congruence.
Qed.
Lemma es_call : forall f args kws, esim f -> sub_sim f -> Forall vsim args -> Forall (fun p => vsim (snd p)) kws -> esim (ECall f args kws).
Proof.
  intros f args kws Hf Hs V1 V2 X C s hs kx k I O Go. apply eok_call in O. destruct O as (Of & O1 & O2 & A). rewrite touched_call.
  assert (D : (exists t a, f = EAttr (EStr t) a) \/ (exists x a, f = EAttr (EName x) a) \/ (exists e a, f = EAttr e a /\ (forall t, e <> EStr t) /\ (forall x, e <> EName x)) \/ (exists x, f = EName x) \/
    ((forall e a, f <> EAttr e a) /\ forall x, f <> EName x)).
  { destruct f; try (right; right; right; right; split; intros; discriminate).
    - right; right; right; left. eexists; reflexivity.
    - destruct f; try (right; right; left; eexists _, _; split; [reflexivity|split; intros; discriminate]); [left; eexists _, _; reflexivity|right; left; eexists _, _; reflexivity]. }
  destruct D as [(t & a & ->)|[(x & a & ->)|[(e & a & -> & N1 & N2)|[[x ->]|[N1 N2]]]]].
  - cbn [eval heval] in *. destruct (String.eqb a "format"); [|contradiction].
    assert (MK : forall s', makes_object prog m (ECall (EAttr (EStr t) a) args kws) s' = false) by reflexivity.
    eapply sim_bind with (T1 := touched_all args) (T2 := []); [exact Go|intro Go'; apply (args_sim args (touched_kws kws)); eassumption|intros y Hy; inh|discriminate|].
    intros vs ws s1 hs1 E1 Q1 Go1. cbn beta in *. pose proof (e_inv _ _ _ _ _ _ _ _ _ _ _ E1) as I1. destruct (format t vs) as [r|] eqn:F; [|contradiction]. cbn [or_stuck].
    rewrite (format_rep _ _ _ _ _ _ _ (Q1 s1 hs1 (estep_refl _ _ _ _ _ _ _ _ _ I1)) F). cbn [hsome]. apply sim_plain; [exact I1|reflexivity|reflexivity].
  - rewrite hcall_attr by discriminate. rewrite call_name_attr in Go |- *. cbn [heval]. cbn [eok] in Of.
    destruct (get x (loc s)) as [[kd v]|] eqn:Q.
    + destruct kws; [|contradiction]. cbn [snd] in *. destruct (is_mod v) eqn:Md; [contradiction|].
      assert (Nv : name_value prog m x s = Some v) by (unfold name_value; rewrite Q; reflexivity).
      destruct (name_rep prog hg m lv pn lv_ok X C s hs x v I Nv) as (w & Hn & Hd & Or). rewrite Hn. cbn [hsome hbind].
      assert (Hl : get x (hloc hs) = Some w).
      { destruct (i_loc _ _ _ _ _ _ _ _ I x kd v Q) as (L & _ & w' & H & _). unfold hname in Hn. change (existsb (String.eqb x) lv) with (has lv x) in Hn. rewrite L, H in Hn. congruence. }
      assert (W : forall q, w <> HMod q). { intros q ->. unfold held in Hd. destruct v; try discriminate Md; cbn in Hd; try contradiction; destruct Hd as (? & ? & E & _); discriminate E. }
      assert (Nm : forall s' hs', estep X C ([x] ++ touched_all args) s hs s' hs' -> makes_object prog m (ECall (EAttr (EName x) a) args []) s' = true -> False).
      { intros s' hs' E MO. cbn [makes_object] in MO. destruct (name_value prog m x s') as [v'|] eqn:Nv'; [|discriminate MO]. destruct v'; try discriminate MO.
        pose proof (name_fixed _ _ _ _ _ _ _ _ _ _ I E Nv Nv' eq_refl). subst v. discriminate Md. }
      assert (S1 : sim X C ([x] ++ touched_all args) s hs (value_rep X) (hbind (heval_list HE args hs) (fun vs s => hcall_method prog files HR w a vs s)) kx k
        (eval_list (eval_obj prog (ev kx) m) args s (fun vs s => or_stuck x (get x (loc s)) (fun kv => call_method prog files R (Some (x, fst kv)) (snd kv) a vs s kx k)))).
      { eapply sim_bind with (T1 := touched_all args) (T2 := [x]); [exact Go|intro Go'; apply (args_sim args []); eassumption|intros y Hy; apply has_r; exact Hy|intros y Hy; apply has_l; exact Hy|].
        intros vs ws s1 hs1 E1 Q1 Go1. cbn beta in *. pose proof (e_inv _ _ _ _ _ _ _ _ _ _ _ E1) as I1. destruct (get x (loc s1)) as [[kd1 v1]|] eqn:Qx; [|contradiction]. cbn [or_stuck fst snd] in *.
        apply (call_method_sim prog files hg ok n RUN lv pn X C s1 hs1 (Some (x, kd1)) v1 w a vs ws kx k I1); [|exact (Q1 s1 hs1 (estep_refl _ _ _ _ _ _ _ _ _ I1))|exact Go1].
        split; [exact Qx|]. rewrite (e_hloc _ _ _ _ _ _ _ _ _ _ _ E1). exact Hl. }
      assert (S2 : sim X C ([x] ++ touched_all args) s hs (gives (List.length (heap hs)) X C (makes_object prog m (ECall (EAttr (EName x) a) args [])))
        (hbind (heval_list HE args hs) (fun vs s => hcall_method prog files HR w a vs s)) kx k
        (eval_list (eval_obj prog (ev kx) m) args s (fun vs s => or_stuck x (get x (loc s)) (fun kv => call_method prog files R (Some (x, fst kv)) (snd kv) a vs s kx k)))).
      { eapply sim_mono; [exact S1|auto|]. intros v' w' s' hs' E K. split; [exact K|]. intro MO. destruct (Nm s' hs' E MO). }
      assert (Te : forall y, has ([x] ++ touched_all args) y = true -> has ([x] ++ touched (EAttr (EName x) a) ++ touched_all args ++ touched_kws []) y = true) by (intros y Hy; cbn [touched touched_kws flat_map app]; rewrite app_nil_r; exact Hy).
      assert (S3 := sim_mono prog hg lv pn _ _ X C _ ([x] ++ touched (EAttr (EName x) a) ++ touched_all args ++ touched_kws []) s hs _ _ _ kx k _ S2 Te (fun v w s' hs' _ H => H)).
      destruct w; try exact S3. destruct (W m0 eq_refl).
    + destruct (global prog m x s) as [v|] eqn:Gl; [|contradiction]. cbn [or_stuck] in *. destruct v; try contradiction.
      assert (Nv : name_value prog m x s = Some (VMod m0)) by (unfold name_value; rewrite Q; exact Gl).
      destruct (name_rep prog hg m lv pn lv_ok X C s hs x _ I Nv) as (w & Hn & Hd & Or). rewrite Hn. cbn [hsome hbind]. unfold held in Hd. cbn [mutable] in Hd. apply rep_vmod in Hd. subst w.
      eapply sim_mono; [eapply mod_call; try eassumption|intros y Hy; inh|]. intros v w s' hs' E K. destruct K as [K1 K2]. split; [exact K1|]. intros MO Mu. apply K2; [|exact Mu]. cbn [makes_object] in MO.
      destruct (name_value prog m x s') as [v'|] eqn:Nv'; [|discriminate MO]. destruct v'; try discriminate MO. pose proof (name_fixed _ _ _ _ _ _ _ _ _ _ I E Nv Nv' eq_refl) as Em. injection Em as <-.
      destruct (mod_attr prog m0 a s') as [g|] eqn:Ma; [|discriminate MO]. destruct g; try discriminate MO. rewrite (mod_attr_prim prog hg X s s' hs' m0 a _ _ (i_base _ _ _ _ _ _ _ _ (e_inv _ _ _ _ _ _ _ _ _ _ _ E)) Ma). reflexivity.
  - rewrite hcall_attr by assumption. rewrite call_attr in Go |- * by assumption. cbn [eok] in Of. apply andb_true_iff in Of. destruct Of as [Oe Na].
    assert (MK : forall s', makes_object prog m (ECall (EAttr e a) args kws) s' = false) by (intro s'; destruct e; try reflexivity; destruct (N2 x eq_refl)).
    eapply sim_mono with (T := touched e ++ touched_all args ++ touched_kws kws) (Q := value_rep X); [|intros y Hy; apply has_r; exact Hy|intros v w s' hs' _ K; split; [exact K|rewrite MK; discriminate]].
    eapply sim_bind with (T1 := touched e) (T2 := touched_all args ++ touched_kws kws); [exact Go|intro Go'; apply Hs; eassumption|intros y Hy; apply has_l; exact Hy|intros y Hy; apply has_r; exact Hy|].
    intros v w s1 hs1 E1 Q1 Go1. cbn beta in *. pose proof (e_inv _ _ _ _ _ _ _ _ _ _ _ E1) as I1. destruct (is_mod v) eqn:Md.
    + destruct v; try discriminate Md. unfold value_rep in Q1. apply rep_vmod in Q1. subst w. eapply sim_mono; [apply mod_call; eassumption|auto|]. intros v w s' hs' _ [K _]. exact K.
    + assert (W : forall q, w <> HMod q) by (intros q ->; unfold value_rep in Q1; destruct v; try discriminate Md; try contradiction).
      assert (S1 : sim X C (touched_all args ++ touched_kws kws) s1 hs1 (value_rep X) (match kws with [] => hbind (heval_list HE args hs1) (fun vs s => hcall_method prog files HR w a vs s) | _ => HStuck a end) kx k
        (match kws with [] => eval_list (eval_obj prog (ev kx) m) args s1 (fun vs s => call_method prog files R None v a vs s kx k) | _ => Stuck a end)).
      { assert (Go2 : going (match kws with [] => eval_list (eval_obj prog (ev kx) m) args s1 (fun vs s => call_method prog files R None v a vs s kx k) | _ => Stuck a end)) by (destruct v; try discriminate Md; exact Go1).
        clear Go1. destruct kws; [|contradiction].
        eapply sim_bind with (T1 := touched_all args) (T2 := []); [exact Go2|intro Go'; apply (args_sim args []); eassumption|intros y Hy; apply has_l; exact Hy|discriminate|].
        intros vs ws s2 hs2 E2 Q2 Go3. cbn beta in *. pose proof (e_inv _ _ _ _ _ _ _ _ _ _ _ E2) as I2.
        apply (call_method_sim prog files hg ok n RUN lv pn X C s2 hs2 None v w a vs ws kx k I2); [|exact (Q2 s2 hs2 (estep_refl _ _ _ _ _ _ _ _ _ I2))|exact Go3].
        cbn [receiver]. eapply rep_step; [exact I1|exact E2|exact Q1]. }
      destruct w; try (destruct (W m0 eq_refl)); destruct v; try discriminate Md; exact S1.
  - rewrite hcall_other by discriminate. rewrite call_other in Go |- * by discriminate. cbn [eval heval] in *. destruct (name_value prog m x s) as [g|] eqn:Nv; [|contradiction]. cbn [or_stuck] in *.
    destruct (mutable g) eqn:Mu; [contradiction|]. destruct (name_rep prog hg m lv pn lv_ok X C s hs x g I Nv) as (w & Hn & Hd & Or). rewrite Hn. cbn [hsome hbind]. unfold held in Hd. rewrite Mu in Hd.
    eapply sim_mono; [eapply call_sim; eassumption|auto|]. intros v w' s' hs' E [K1 K2]. split; [exact K1|]. intros MO Mv. apply K2; [|exact Mv]. cbn [makes_object] in MO.
    destruct (name_value prog m x s') as [v'|] eqn:Nv'; [|discriminate MO]. destruct v'; try discriminate MO; rewrite (name_fixed _ _ _ _ _ _ _ _ _ _ I E Nv Nv' eq_refl); reflexivity.
  - rewrite hcall_other by assumption. rewrite call_other in Go |- * by assumption.
    assert (MK : forall s', makes_object prog m (ECall f args kws) s' = false) by (intro s'; destruct f; try reflexivity; [destruct (N2 x eq_refl)|destruct (N1 f a eq_refl)]).
    eapply sim_mono with (T := touched f ++ touched_all args ++ touched_kws kws) (Q := value_rep X); [|intros y Hy; apply has_r; exact Hy|intros v w s' hs' _ K; split; [exact K|rewrite MK; discriminate]].
    eapply sim_bind with (T1 := touched f) (T2 := touched_all args ++ touched_kws kws); [exact Go|intro Go'; apply (esim_v f Hf); eassumption|intros y Hy; apply has_l; exact Hy|intros y Hy; apply has_r; exact Hy|].
    intros v w s1 hs1 E1 Q1 Go1. cbn beta in *. pose proof (e_inv _ _ _ _ _ _ _ _ _ _ _ E1) as I1. eapply sim_mono; [apply call_sim; eassumption|auto|]. intros v' w' s' hs' _ [K _]. exact K.
Qed.

(* ---- the other expressions ---- *)
Lemma es_name : forall x, esim (EName x).
Proof.
  intro x. apply vsim_e; [reflexivity|]. intros X C s hs kx k I O Go. cbn [eval heval] in *. destruct (name_value prog m x s) as [v|] eqn:Nv; [|contradiction]. cbn [or_stuck] in *. destruct (mutable v) eqn:Mu; [contradiction|].
  destruct (name_rep prog hg m lv pn lv_ok X C s hs x v I Nv) as (w & -> & Hd & Or). cbn [hsome]. unfold held in Hd. rewrite Mu in Hd. apply sim_ok; [exact I|exact Hd].
Qed.
Lemma es_attr : forall e a, vsim e -> esim (EAttr e a).
Proof.
  intros e a H. apply vsim_e; [reflexivity|]. intros X C s hs kx k I O Go. cbn [eok] in O. apply andb_true_iff in O. destruct O as [O Na].
  change (HE (EAttr e a) hs) with (hbind (HE e hs) (fun w s => hsome a (hgetattr prog w a s) (fun r => HOk r s))).
  change (EV (EAttr e a) s kx k) with (eval_obj prog (ev kx) m e s (fun v s => or_stuck a (getattr prog v a s) (fun r => k r s))) in *.
  eapply sim_bind with (T1 := touched e) (T2 := []); [exact Go|intro Go'; apply obj_sim; eassumption|auto|discriminate|].
  intros v w s1 hs1 E1 Q1 Go1. cbn beta in *. pose proof (e_inv _ _ _ _ _ _ _ _ _ _ _ E1) as I1. destruct (getattr prog v a s1) as [r|] eqn:Ga; [|contradiction].
  destruct (getattr_rep prog hg X s1 hs1 v w a r (i_base _ _ _ _ _ _ _ _ I1) Q1 Na Ga) as (q & -> & K). cbn [or_stuck hsome]. apply sim_ok; [exact I1|exact K].
Qed.
Lemma calm_same : forall e hs, calm e = true -> (exists w, HE e hs = HOk w hs) \/ exists why, HE e hs = HStuck why.
Proof.
  induction e; intros hs H; try discriminate H; cbn [heval].
  - left. eexists. reflexivity.
  - left. eexists. reflexivity.
  - destruct (hname prog m lv x hs); [left|right]; eexists; reflexivity.
  - cbn [calm] in H. destruct (IHe hs H) as [[w ->]|[why ->]]; [|right; eexists; reflexivity]. cbn [hbind]. destruct (hgetattr prog w a hs); [left|right]; eexists; reflexivity.
Qed.
Lemma es_item : forall c i, vsim c -> vsim i -> esim (EItem c i).
Proof.
  intros c i Hc Hi. apply vsim_e; [reflexivity|]. intros X C s hs kx k I O Go. cbn [eok] in O. apply andb_true_iff in O. destruct O as [O Cm]. apply andb_true_iff in O. destruct O as [Oc Oi].
  change (HE (EItem c i) hs) with (hbind (HE c hs) (fun cw s => hbind (HE i s) (fun iw s => hget_item prog files HR cw iw s))).
  assert (D : (exists x, c = EName x) \/ ((forall x, c <> EName x) /\ EV (EItem c i) s kx k = EV c s kx (fun cv s => EV i s kx (fun iv s => get_item prog files R m None cv iv s kx k)))).
  { destruct c; try (right; split; [discriminate|reflexivity]). left. eexists. reflexivity. }
  destruct D as [[x ->]|[N D]].
  - change (EV (EItem (EName x) i) s kx k) with (EV i s kx (fun iv s => or_stuck x (name_value prog m x s) (fun c => get_item prog files R m (Some x) c iv s kx k))) in *.
    pose proof (Hi X C s hs kx _ I Oi Go) as S1. destruct (calm_same i hs Cm) as [[iw Hw]|[why Hw]]; rewrite Hw in S1; [|contradiction]. destruct S1 as (iv & s1 & E & E1 & Q1). rewrite E in *.
    pose proof (e_inv _ _ _ _ _ _ _ _ _ _ _ E1) as I1. destruct (name_value prog m x s1) as [cv|] eqn:Nv; [|contradiction]. cbn [or_stuck] in *.
    destruct (name_rep prog hg m lv pn lv_ok X C s1 hs x cv I1 Nv) as (w & Hn & Hd & Or). cbn [heval]. rewrite Hn. cbn [hsome hbind]. rewrite Hw. cbn [hbind].
    assert (S2 : sim X C [x] s1 hs (value_rep X) (hget_item prog files HR w iw hs) kx k (get_item prog files R m (Some x) cv iv s1 kx k)).
    { eapply (get_item_sim prog files hg ok n RUN m lv pn X C s1 hs (Some x)); [exact I1| |exact Q1|exact Go]. repeat split; assumption. }
    assert (Mo : forall s2 hs2, estep X C [x] s1 hs s2 hs2 -> estep X C (touched (EItem (EName x) i)) s hs s2 hs2).
    { intros s2 hs2 E2. eapply estep_trans; [eapply estep_mono; [exact E1|]|eapply estep_mono; [exact E2|]]; intros y Hy; cbn [touched]; [apply has_r; apply has_r|apply has_l]; exact Hy. }
    destruct (hget_item prog files HR w iw hs).
    + destruct S2 as (v & s2 & E' & E2 & Q2). exists v, s2. auto.
    + destruct S2 as (s2 & E' & E2). exists s2. auto.
    + exact S2.
  - rewrite D in *. assert (T : touched (EItem c i) = touched c ++ touched i) by (destruct c; try reflexivity; destruct (N x eq_refl)). rewrite T.
    eapply sim_bind; [exact Go|intro Go'; apply Hc; eassumption|intros y Hy; apply has_l; exact Hy|intros y Hy; apply has_r; exact Hy|].
    intros cv cw s1 hs1 E1 Q1 Go1. cbn beta in *. pose proof (e_inv _ _ _ _ _ _ _ _ _ _ _ E1) as I1.
    eapply sim_bind with (T1 := touched i) (T2 := []); [exact Go1|intro Go'; apply Hi; eassumption|auto|discriminate|].
    intros iv iw s2 hs2 E2 Q2 Go2. cbn beta in *. pose proof (e_inv _ _ _ _ _ _ _ _ _ _ _ E2) as I2.
    apply (get_item_sim prog files hg ok n RUN m lv pn X C s2 hs2 None); [exact I2|cbn [item_of]; eapply rep_step; [exact I1|exact E2|exact Q1]|exact Q2|exact Go2].
Qed.
Definition bound_e (o : option expr) (s : st) (kx : exc -> st -> ans) (k : option Z -> st -> ans) : ans :=
  match o with None => k None s | Some e => EV e s kx (fun v s => match v with VInt z => k (Some z) s | _ => Stuck "slice" end) end.
Definition hbound_e (o : option expr) (s : hst) : hres (option Z) :=
  match o with None => HOk None s | Some e => hbind (HE e s) (fun v s => match v with HInt z => HOk (Some z) s | _ => HStuck "slice" end) end.
Definition touched_o (o : option expr) : list string := match o with Some e => touched e | None => [] end.
Definition same_z (a b : option Z) (s : st) (hs : hst) : Prop := a = b.
Lemma bound_sim : forall o X C s hs kx k, match o with Some e => vsim e /\ eok gn e = true | None => True end -> Inv X C s hs -> going (bound_e o s kx k) ->
  sim X C (touched_o o) s hs same_z (hbound_e o hs) kx k (bound_e o s kx k).
Proof.
  intros [e|] X C s hs kx k H I Go; cbn [bound_e hbound_e touched_o] in *.
  - destruct H as [H O]. eapply sim_bind with (T1 := touched e) (T2 := []); [exact Go|intro Go'; apply H; eassumption|auto|discriminate|].
    intros v w s1 hs1 E1 Q1 Go1. cbn beta in *. destruct v; try contradiction. unfold value_rep in Q1. apply rep_vint in Q1. subst w.
    apply (sim_ok prog hg lv pn _ _ X C [] s1 hs1 same_z (Some z) (Some z) kx k (e_inv _ _ _ _ _ _ _ _ _ _ _ E1)). reflexivity.
  - apply (sim_ok prog hg lv pn _ _ X C [] s hs same_z None None kx k I). reflexivity.
Qed.
Lemma es_slice : forall c lo hi, vsim c -> opt_sim lo -> opt_sim hi -> esim (ESlice c lo hi).
Proof.
  intros c lo hi Hc Hl Hh. apply vsim_e; [reflexivity|]. intros X C s hs kx k I O Go. cbn [eok] in O. apply andb_true_iff in O. destruct O as [O Oh]. apply andb_true_iff in O. destruct O as [Oc Ol].
  change (HE (ESlice c lo hi) hs) with (hbind (HE c hs) (fun cw s => hbind (hbound_e lo s) (fun a s => hbind (hbound_e hi s) (fun b s =>
    match cw with HStr t => hsome "slice" (py_slice t a b) (fun r => HOk (HStr r) s) | _ => HStuck "slice" end)))).
  change (EV (ESlice c lo hi) s kx k) with (EV c s kx (fun cv s => bound_e lo s kx (fun a s => bound_e hi s kx (fun b s =>
    match cv with VStr t => or_stuck "slice" (py_slice t a b) (fun r => k (VStr r) s) | _ => Stuck "slice" end)))) in *.
  change (touched (ESlice c lo hi)) with (touched c ++ touched_o lo ++ touched_o hi).
  eapply sim_bind; [exact Go|intro Go'; apply Hc; eassumption|intros y Hy; apply has_l; exact Hy|intros y Hy; apply has_r; exact Hy|].
  intros cv cw s1 hs1 E1 Q1 Go1. cbn beta in *. pose proof (e_inv _ _ _ _ _ _ _ _ _ _ _ E1) as I1.
  eapply sim_bind; [exact Go1|intro Go'; apply bound_sim; [destruct lo; [split; assumption|exact Logic.I]|exact I1|exact Go']|intros y Hy; apply has_l; exact Hy|intros y Hy; apply has_r; exact Hy|].
  intros za zb s2 hs2 E2 Q2 Go2. cbn beta in *. pose proof (e_inv _ _ _ _ _ _ _ _ _ _ _ E2) as I2. unfold same_z in Q2. subst zb.
  eapply sim_bind with (T1 := touched_o hi) (T2 := []); [exact Go2|intro Go'; apply bound_sim; [destruct hi; [split; assumption|exact Logic.I]|exact I2|exact Go']|auto|discriminate|].
  intros zc zd s3 hs3 E3 Q3 Go3. cbn beta in *. pose proof (e_inv _ _ _ _ _ _ _ _ _ _ _ E3) as I3. unfold same_z in Q3. subst zd.
  destruct cv; try contradiction. unfold value_rep in Q1. apply rep_vstr in Q1. subst cw. destruct (py_slice s0 za zc); [|contradiction]. cbn [or_stuck hsome]. apply sim_ok; [exact I3|reflexivity].
Qed.
Lemma es_bin : forall op a b, vsim a -> vsim b -> esim (EBin op a b).
Proof.
  intros op a b Ha Hb. apply vsim_e; [reflexivity|]. intros X C s hs kx k I O Go. cbn [eok] in O. apply andb_true_iff in O. destruct O as [Oa Ob]. cbn [eval heval touched] in *.
  eapply sim_bind; [exact Go|intro Go'; apply Ha; eassumption|intros y Hy; apply has_l; exact Hy|intros y Hy; apply has_r; exact Hy|].
  intros x xw s1 hs1 E1 Q1 Go1. cbn beta in *. pose proof (e_inv _ _ _ _ _ _ _ _ _ _ _ E1) as I1.
  eapply sim_bind with (T1 := touched b) (T2 := []); [exact Go1|intro Go'; apply Hb; eassumption|auto|discriminate|].
  intros y yw s2 hs2 E2 Q2 Go2. cbn beta in *. pose proof (e_inv _ _ _ _ _ _ _ _ _ _ _ E2) as I2. destruct (binary op x y) as [r|] eqn:B; [|contradiction].
  destruct (binary_rep (heap hs2) X op x xw y yw r (rep_step _ _ _ _ _ _ _ _ _ I1 E2 Q1) Q2 B) as (q & -> & K). cbn [or_stuck hsome]. apply sim_ok; [exact I2|exact K].
Qed.
Lemma es_neg : forall a, vsim a -> esim (ENeg a).
Proof.
  intros a Ha. apply vsim_e; [reflexivity|]. intros X C s hs kx k I O Go. cbn [eok] in O. cbn [eval heval touched] in *.
  eapply sim_bind with (T1 := touched a) (T2 := []); [exact Go|intro Go'; apply Ha; eassumption|auto|discriminate|].
  intros x xw s1 hs1 E1 Q1 Go1. cbn beta in *. pose proof (e_inv _ _ _ _ _ _ _ _ _ _ _ E1) as I1. destruct x; try contradiction. unfold value_rep in Q1. apply rep_vint in Q1. subst xw. apply sim_ok; [exact I1|reflexivity].
Qed.
Lemma es_not : forall a, vsim a -> esim (ENot a).
Proof.
  intros a Ha. apply vsim_e; [reflexivity|]. intros X C s hs kx k I O Go. cbn [eok] in O. cbn [eval heval touched] in *.
  eapply sim_bind with (T1 := touched a) (T2 := []); [exact Go|intro Go'; apply Ha; eassumption|auto|discriminate|].
  intros x xw s1 hs1 E1 Q1 Go1. cbn beta in *. pose proof (e_inv _ _ _ _ _ _ _ _ _ _ _ E1) as I1. destruct (truth x) as [t|] eqn:T; [|contradiction]. rewrite (truth_rep _ _ _ _ _ Q1 T). cbn [or_stuck hsome]. apply sim_ok; [exact I1|reflexivity].
Qed.
Lemma es_and : forall a b, vsim a -> vsim b -> esim (EAnd a b).
Proof.
  intros a b Ha Hb. apply vsim_e; [reflexivity|]. intros X C s hs kx k I O Go. cbn [eok] in O. apply andb_true_iff in O. destruct O as [Oa Ob]. cbn [eval heval touched] in *.
  eapply sim_bind; [exact Go|intro Go'; apply Ha; eassumption|intros y Hy; apply has_l; exact Hy|intros y Hy; apply has_r; exact Hy|].
  intros x xw s1 hs1 E1 Q1 Go1. cbn beta in *. pose proof (e_inv _ _ _ _ _ _ _ _ _ _ _ E1) as I1. destruct (truth x) as [t|] eqn:T; [|contradiction]. rewrite (truth_rep _ _ _ _ _ Q1 T). cbn [or_stuck hsome] in *.
  destruct t; [apply Hb; assumption|]. apply sim_ok; [exact I1|exact Q1].
Qed.
Lemma es_or : forall a b, vsim a -> vsim b -> esim (EOr a b).
Proof.
  intros a b Ha Hb. apply vsim_e; [reflexivity|]. intros X C s hs kx k I O Go. cbn [eok] in O. apply andb_true_iff in O. destruct O as [Oa Ob]. cbn [eval heval touched] in *.
  eapply sim_bind; [exact Go|intro Go'; apply Ha; eassumption|intros y Hy; apply has_l; exact Hy|intros y Hy; apply has_r; exact Hy|].
  intros x xw s1 hs1 E1 Q1 Go1. cbn beta in *. pose proof (e_inv _ _ _ _ _ _ _ _ _ _ _ E1) as I1. destruct (truth x) as [t|] eqn:T; [|contradiction]. rewrite (truth_rep _ _ _ _ _ Q1 T). cbn [or_stuck hsome] in *.
  destruct t; [|apply Hb; assumption]. apply sim_ok; [exact I1|exact Q1].
Qed.
Lemma es_ifexp : forall c a b, vsim c -> vsim a -> vsim b -> esim (EIfExp c a b).
Proof.
  intros c a b Hc Ha Hb. apply vsim_e; [reflexivity|]. intros X C s hs kx k I O Go. cbn [eok] in O. apply andb_true_iff in O. destruct O as [O Ob]. apply andb_true_iff in O. destruct O as [Oc Oa]. cbn [eval heval touched] in *.
  eapply sim_bind; [exact Go|intro Go'; apply Hc; eassumption|intros y Hy; apply has_l; exact Hy|intros y Hy; apply has_r; exact Hy|].
  intros x xw s1 hs1 E1 Q1 Go1. cbn beta in *. pose proof (e_inv _ _ _ _ _ _ _ _ _ _ _ E1) as I1. destruct (truth x) as [t|] eqn:T; [|contradiction]. rewrite (truth_rep _ _ _ _ _ Q1 T). cbn [or_stuck hsome] in *.
  destruct t.
  - eapply sim_mono; [apply Ha; assumption|intros y Hy; apply has_l; exact Hy|intros v w s' hs' _ K; exact K].
  - eapply sim_mono; [apply Hb; assumption|intros y Hy; apply has_r; exact Hy|intros v w s' hs' _ K; exact K].
Qed.
Lemma es_cmp : forall op a b, vsim a -> vsim b -> esim (ECmp op a b).
Proof.
  intros op a b Ha Hb. apply vsim_e; [reflexivity|]. intros X C s hs kx k I O Go. cbn [eok] in O. apply andb_true_iff in O. destruct O as [Oa Ob]. cbn [eval heval touched] in *.
  eapply sim_bind; [exact Go|intro Go'; apply Ha; eassumption|intros y Hy; apply has_l; exact Hy|intros y Hy; apply has_r; exact Hy|].
  intros x xw s1 hs1 E1 Q1 Go1. cbn beta in *. pose proof (e_inv _ _ _ _ _ _ _ _ _ _ _ E1) as I1.
  eapply sim_bind with (T1 := touched b) (T2 := []); [exact Go1|intro Go'; apply obj_sim; eassumption|auto|discriminate|].
  intros y yw s2 hs2 E2 Q2 Go2. cbn beta in *. pose proof (e_inv _ _ _ _ _ _ _ _ _ _ _ E2) as I2. destruct (compare op x y) as [r|] eqn:B; [|contradiction].
  rewrite (compare_rep hs2 X op x xw y yw r (rep_step _ _ _ _ _ _ _ _ _ I1 E2 Q1) Q2 B). cbn [or_stuck hsome]. apply sim_ok; [exact I2|reflexivity].
Qed.
Lemma es_list : forall l, Forall vsim l -> esim (EList l).
Proof.
  intros l H. apply vsim_e; [reflexivity|]. intros X C s hs kx k I O Go. apply eok_list in O. rewrite touched_list. cbn [eval heval] in *.
  eapply sim_bind with (T1 := touched_all l) (T2 := []); [exact Go|intro Go'; apply list_sim; eassumption|auto|discriminate|].
  intros vs ws s1 hs1 E1 Q1 Go1. cbn beta in *. pose proof (e_inv _ _ _ _ _ _ _ _ _ _ _ E1) as I1. apply sim_ok; [exact I1|]. apply rep_list. exists ws. split; [reflexivity|exact Q1].
Qed.
Lemma es_tuple : forall l, Forall vsim l -> esim (ETuple l).
Proof.
  intros l H. apply vsim_e; [reflexivity|]. intros X C s hs kx k I O Go. change (eok gn (ETuple l)) with (eok gn (EList l)) in O. apply eok_list in O. change (touched (ETuple l)) with (touched (EList l)). rewrite touched_list. cbn [eval heval] in *.
  eapply sim_bind with (T1 := touched_all l) (T2 := []); [exact Go|intro Go'; apply list_sim; eassumption|auto|discriminate|].
  intros vs ws s1 hs1 E1 Q1 Go1. cbn beta in *. pose proof (e_inv _ _ _ _ _ _ _ _ _ _ _ E1) as I1. apply sim_ok; [exact I1|]. apply rep_tuple. exists ws. split; [reflexivity|exact Q1].
Qed.
Lemma es_fstring : forall l, Forall vsim l -> esim (EFString l).
Proof.
  intros l H. apply vsim_e; [reflexivity|]. intros X C s hs kx k I O Go. change (eok gn (EFString l)) with (eok gn (EList l)) in O. apply eok_list in O. change (touched (EFString l)) with (touched (EList l)). rewrite touched_list. cbn [eval heval] in *.
  eapply sim_bind with (T1 := touched_all l) (T2 := []); [exact Go|intro Go'; apply list_sim; eassumption|auto|discriminate|].
  intros vs ws s1 hs1 E1 Q1 Go1. cbn beta in *. pose proof (e_inv _ _ _ _ _ _ _ _ _ _ _ E1) as I1. destruct (show_all vs) as [ts|] eqn:Sh; [|contradiction]. rewrite (show_all_rep _ _ _ _ _ Q1 Sh). cbn [or_stuck hsome].
  apply sim_ok; [exact I1|reflexivity].
Qed.
(* displays of dictionaries *)
Definition pairs_e (kx : exc -> st -> ans) (k : value -> st -> ans) :=
  fix pairs (es : list (expr * expr)) (acc : list (str * value)) (s : st) : ans :=
    match es with
    | [] => k (VDict None acc) s
    | (a, b) :: es' => EV a s kx (fun x s => EV b s kx (fun y s => match x with VStr t => pairs es' ((t, y) :: acc) s | _ => Stuck "key" end))
    end.
Definition hpairs_e :=
  fix pairs (es : list (expr * expr)) (acc : list (str * hval)) (s : hst) : hres (list (str * hval)) :=
    match es with
    | [] => HOk acc s
    | (a, b) :: es' => hbind (HE a s) (fun x s => hbind (HE b s) (fun y s => match x with HStr t => pairs es' ((t, y) :: acc) s | _ => HStuck "key" end))
    end.
Lemma pairs_sim : forall l X C s hs acc hacc kx k, Forall (fun p => vsim (fst p) /\ vsim (snd p)) l -> Inv X C s hs -> eok gn (EDict l) = true -> Forall2 (kv_rep (heap hs) X) acc hacc ->
  going (pairs_e kx k l acc s) ->
  sim X C (touched (EDict l)) s hs (kws_rep X) (hpairs_e l hacc hs) kx (fun items s => k (VDict None items) s) (pairs_e kx k l acc s).
Proof.
  induction l as [|[a b] l IH]; intros X C s hs acc hacc kx k V I O A Go.
  - apply (sim_ok prog hg lv pn _ _ X C _ s hs (kws_rep X) acc hacc kx (fun items s => k (VDict None items) s) I). exact A.
  - inversion V as [|? ? [Va Vb] V2]; subst. change (eok gn (EDict ((a, b) :: l))) with (eok gn a && eok gn b && eok gn (EDict l)) in O. apply andb_true_iff in O. destruct O as [O Ol]. apply andb_true_iff in O. destruct O as [Oa Ob].
    change (touched (EDict ((a, b) :: l))) with (touched a ++ touched b ++ touched (EDict l)). cbn [pairs_e hpairs_e] in *.
    eapply sim_bind; [exact Go|intro Go'; apply Va; eassumption|intros y Hy; apply has_l; exact Hy|intros y Hy; apply has_r; exact Hy|].
    intros x xw s1 hs1 E1 Q1 Go1. cbn beta in *. pose proof (e_inv _ _ _ _ _ _ _ _ _ _ _ E1) as I1.
    eapply sim_bind; [exact Go1|intro Go'; apply Vb; eassumption|intros y Hy; apply has_l; exact Hy|intros y Hy; apply has_r; exact Hy|].
    intros y yw s2 hs2 E2 Q2 Go2. cbn beta in *. pose proof (e_inv _ _ _ _ _ _ _ _ _ _ _ E2) as I2. destruct x; try contradiction. unfold value_rep in Q1. apply rep_vstr in Q1. subst xw.
    apply IH; [exact V2|exact I2|exact Ol| |exact Go2]. constructor; [split; [reflexivity|exact Q2]|]. eapply kvs_move; [eapply estep_agree; [exact I1|exact E2]|]. eapply kvs_move; [eapply estep_agree; [exact I|exact E1]|]. exact A.
Qed.
Lemma es_dict : forall l, Forall (fun p => vsim (fst p) /\ vsim (snd p)) l -> esim (EDict l).
Proof.
  intros l V X C s hs kx k I O Go. change (EV (EDict l) s kx k) with (pairs_e kx k l [] s) in *.
  change (HE (EDict l) hs) with (hbind (hpairs_e l [] hs) (fun items s => hnew (ODict None items) s (fun a s => HOk (HRef a) s))).
  eapply sim_bind with (T1 := touched (EDict l)) (T2 := []); [exact Go|intro Go'; apply pairs_sim; [exact V|exact I|exact O|constructor|exact Go']|auto|discriminate|].
  intros items hitems s1 hs1 E1 Q1 Go1. cbn beta in *. pose proof (e_inv _ _ _ _ _ _ _ _ _ _ _ E1) as I1.
  eapply sim_mono with (T := []) (Q := gives (List.length (heap hs1)) X C (makes_object prog m (EDict l))); [apply sim_new; [exact I1|reflexivity|split; [exact Logic.I|exact Q1]]|auto|]. intros v w s' hs' _ H. eapply gives_le; [exact (estep_le _ _ _ _ _ _ _ E1)|exact H].
Qed.
Lemma es_plain : forall e v w, (forall s, makes_object prog m e s = false) -> (forall hs, HE e hs = HOk w hs) -> (forall s kx k, EV e s kx k = k v s) -> (forall h X, rep h X v w) -> esim e.
Proof. intros e v w N H1 H2 H. apply vsim_e; [exact N|]. intros X C s hs kx k I O Go. rewrite H1, H2. apply sim_ok; [exact I|apply H]. Qed.

Lemma eval_sim : forall e, esim e.
Proof.
  refine (fix IH (e : expr) : esim e :=
    let IL := fix go (l : list expr) : Forall vsim l := match l with [] => Forall_nil _ | e :: l' => Forall_cons _ (esim_v e (IH e)) (go l') end in
    match e with
    | EStr t => es_plain (EStr t) (VStr (lit t)) (HStr (lit t)) (fun _ => eq_refl) (fun _ => eq_refl) (fun _ _ _ => eq_refl) (fun _ _ => eq_refl)
    | EInt z => es_plain (EInt z) (VInt z) (HInt z) (fun _ => eq_refl) (fun _ => eq_refl) (fun _ _ _ => eq_refl) (fun _ _ => eq_refl)
    | EBool b => es_plain (EBool b) (VBool b) (HBool b) (fun _ => eq_refl) (fun _ => eq_refl) (fun _ _ _ => eq_refl) (fun _ _ => eq_refl)
    | ENone => es_plain ENone VNone HNone (fun _ => eq_refl) (fun _ => eq_refl) (fun _ _ _ => eq_refl) (fun _ _ => Logic.I)
    | EName x => es_name x
    | EAttr e a => es_attr e a (esim_v e (IH e))
    | EItem c i => es_item c i (esim_v c (IH c)) (esim_v i (IH i))
    | ESlice c lo hi => es_slice c lo hi (esim_v c (IH c))
        (match lo return opt_sim lo with Some e => esim_v e (IH e) | None => Logic.I end)
        (match hi return opt_sim hi with Some e => esim_v e (IH e) | None => Logic.I end)
    | ECall f args kws => es_call f args kws (IH f)
        (match f return sub_sim f with EAttr e _ => esim_v e (IH e) | _ => Logic.I end) (IL args)
        ((fix go (l : list (string * expr)) : Forall (fun p => vsim (snd p)) l :=
            match l with [] => Forall_nil _ | (a, e) :: l' => Forall_cons (a, e) (esim_v e (IH e)) (go l') end) kws)
    | EBin op a b => es_bin op a b (esim_v a (IH a)) (esim_v b (IH b))
    | ENeg a => es_neg a (esim_v a (IH a))
    | ENot a => es_not a (esim_v a (IH a))
    | EAnd a b => es_and a b (esim_v a (IH a)) (esim_v b (IH b))
    | EOr a b => es_or a b (esim_v a (IH a)) (esim_v b (IH b))
    | ECmp op a b => es_cmp op a b (esim_v a (IH a)) (esim_v b (IH b))
    | EIfExp c a b => es_ifexp c a b (esim_v c (IH c)) (esim_v a (IH a)) (esim_v b (IH b))
    | EList l => es_list l (IL l)
    | ETuple l => es_tuple l (IL l)
    | EDict l => es_dict l
        ((fix go (l : list (expr * expr)) : Forall (fun p => vsim (fst p) /\ vsim (snd p)) l :=
            match l with [] => Forall_nil _ | (a, b) :: l' => Forall_cons (a, b) (conj (esim_v a (IH a)) (esim_v b (IH b))) (go l') end) l)
    | EFString l => es_fstring l (IL l)
    end).
Qed.
End Fn.
End Eval.
