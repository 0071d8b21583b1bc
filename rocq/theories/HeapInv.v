(* How a state of PyEval.v and one of PyHeap.v correspond, and the steps that keep it so. *)
From Coq Require Import List String Ascii NArith ZArith Bool Lia.
From Verif Require Import PyBase PyRepr Json Record Api Utf8 PySyntax PyEval SrcCheck PyHeap HeapRep HeapCheck.
Import ListNotations.
Open Scope string_scope.
Open Scope list_scope.
Local Open Scope nat_scope.

Lemma seqb_refl : forall x, String.eqb x x = true.
Proof. intro x. apply String.eqb_refl. Qed.
Lemma get_set_same : forall A x (v : A) l, get x (set x v l) = Some v.
Proof. intros A x v l. induction l as [|[y w] l IH]; cbn; [rewrite seqb_refl; reflexivity|]. destruct (String.eqb x y) eqn:E; cbn; rewrite E; [reflexivity|exact IH]. Qed.
Lemma get_set_other : forall A x y (v : A) l, x <> y -> get x (set y v l) = get x l.
Proof.
  intros A x y v l N. induction l as [|[z w] l IH]; cbn.
  - destruct (String.eqb_spec x y); [contradiction|reflexivity].
  - destruct (String.eqb_spec y z); cbn.
    + subst z. destruct (String.eqb_spec x y); [contradiction|reflexivity].
    + destruct (String.eqb x z); [reflexivity|exact IH].
Qed.
Lemma get_in : forall A x (v : A) l, get x l = Some v -> In x (map fst l).
Proof. intros A x v l. induction l as [|[y w] l IH]; cbn; [discriminate|]. destruct (String.eqb_spec x y); [left; congruence|right; auto]. Qed.
Lemma get_unset_same : forall A x (l : list (string * A)), NoDup (map fst l) -> get x (unset x l) = None.
Proof.
  intros A x l D. induction l as [|[y w] l IH]; [reflexivity|]. cbn in *. inversion D; subst. destruct (String.eqb_spec x y).
  - subst y. destruct (get x l) as [v|] eqn:E; [|reflexivity]. apply get_in in E. contradiction.
  - cbn. destruct (String.eqb_spec x y); [contradiction|auto].
Qed.
Lemma get_unset_other : forall A x y (l : list (string * A)), x <> y -> get x (unset y l) = get x l.
Proof.
  intros A x y l N. induction l as [|[z w] l IH]; [reflexivity|]. cbn. destruct (String.eqb_spec y z).
  - subst z. destruct (String.eqb_spec x y); [contradiction|reflexivity].
  - cbn. destruct (String.eqb x z); [reflexivity|exact IH].
Qed.
Lemma in_set : forall A x y (v : A) l, In y (map fst (set x v l)) -> y = x \/ In y (map fst l).
Proof. intros A x y v l. induction l as [|[z w] l IH]; cbn; [intuition|]. destruct (String.eqb_spec x z); cbn; intuition. Qed.
Lemma in_unset : forall A x y (l : list (string * A)), In y (map fst (unset x l)) -> In y (map fst l).
Proof. intros A x y l. induction l as [|[z w] l IH]; cbn; [intuition|]. destruct (String.eqb_spec x z); cbn; intuition. Qed.
Lemma nodup_set : forall A x (v : A) l, NoDup (map fst l) -> NoDup (map fst (set x v l)).
Proof.
  intros A x v l D. induction l as [|[z w] l IH]; cbn; [constructor; [intros []|constructor]|]. cbn in D. inversion D; subst. destruct (String.eqb_spec x z); cbn; [exact D|].
  constructor; [|auto]. intro I. apply in_set in I. destruct I as [->|I]; contradiction.
Qed.
Lemma nodup_unset : forall A x (l : list (string * A)), NoDup (map fst l) -> NoDup (map fst (unset x l)).
Proof. intros A x l D. induction l as [|[z w] l IH]; cbn; [constructor|]. cbn in D. inversion D; subst. destruct (String.eqb_spec x z); cbn; [assumption|]. constructor; [|auto]. intro I. apply in_unset in I. contradiction. Qed.
Lemma get_set_glob_same : forall m x v g w, get_glob m x g = Some w -> get_glob m x (set_glob m x v g) = Some v.
Proof. intros m x v g w. induction g as [|[[m' y] u] g IH]; cbn; [discriminate|]. destruct (String.eqb m m' && String.eqb x y) eqn:E; cbn; rewrite E; [reflexivity|exact IH]. Qed.
Lemma get_set_glob_other : forall m x m' x' v g, (m, x) <> (m', x') -> get_glob m x (set_glob m' x' v g) = get_glob m x g.
Proof.
  intros m x m' x' v g N. assert (K : String.eqb m m' && String.eqb x x' = false).
  { destruct (String.eqb_spec m m'), (String.eqb_spec x x'); try reflexivity. subst. contradiction. }
  induction g as [|[[n y] u] g IH]; cbn; [rewrite K; reflexivity|].
  destruct (String.eqb m' n && String.eqb x' y) eqn:E; cbn.
  - apply andb_true_iff in E. destruct E as [E1 E2]. apply String.eqb_eq in E1, E2. subst. rewrite K. reflexivity.
  - destruct (String.eqb m n && String.eqb x y); [reflexivity|exact IH].
Qed.
Lemma update_same : forall h a o o', nth_error h a = Some o' -> nth_error (update a o h) a = Some o.
Proof. induction h as [|x h IH]; intros [|a] o o' E; cbn in *; try discriminate E; [reflexivity|exact (IH a o o' E)]. Qed.
Lemma update_other : forall h a b o, a <> b -> nth_error (update a o h) b = nth_error h b.
Proof. induction h as [|x h IH]; intros [|a] [|b] o N; cbn; try reflexivity; [contradiction|apply IH; congruence]. Qed.
Lemma update_length : forall h a o, List.length (update a o h) = List.length h.
Proof. induction h as [|x h IH]; intros [|a] o; cbn; [reflexivity|reflexivity|reflexivity|rewrite IH; reflexivity]. Qed.
Lemma has_in : forall l x, has l x = true <-> In x l.
Proof.
  intros l x. unfold has. rewrite existsb_exists. split; [intros (y & I & E); apply String.eqb_eq in E; subst; exact I|intro I; exists x; split; [exact I|apply seqb_refl]].
Qed.
Lemma none_of_in : forall a b x, none_of a b = true -> In x a -> ~ In x b.
Proof. intros a b x N I J. unfold none_of in N. rewrite forallb_forall in N. specialize (N x I). apply negb_true_iff in N. apply (has_in b x) in J. unfold has in J. congruence. Qed.
Lemma distinct_nodup : forall l, distinct_names l = true -> NoDup l.
Proof.
  induction l as [|x l IH]; intro H; [constructor|]. cbn in H. apply andb_true_iff in H. destruct H as [H1 H2]. constructor; [|auto]. intro I. apply negb_true_iff in H1. apply (has_in l x) in I. unfold has in I. congruence.
Qed.

Definition add (X : nat -> Prop) (a : nat) : nat -> Prop := fun b => X b \/ b = a.
Definition ext (X X' : nat -> Prop) (n : nat) : Prop := (forall a, X a -> X' a) /\ (forall a, X' a -> X a \/ n <= a).
Lemma ext_refl : forall X n, ext X X n.
Proof. intros X n. split; auto. Qed.
Lemma ext_trans : forall X Y Z n n', n <= n' -> ext X Y n -> ext Y Z n' -> ext X Z n.
Proof. intros X Y Z n n' L [A B] [D E]. split; [auto|]. intros a H. destruct (E a H) as [H'|H']; [exact (B a H')|right; lia]. Qed.
Definition going (a : ans) : Prop := match a with Stuck _ => False | _ => True end.
Definition lit_expr (e : expr) : bool := match e with EStr _ | EInt _ | EBool _ | ENone => true | _ => false end.
(* heap objects that may differ: P *)
Definition frame (P : nat -> Prop) (hs hs' : hst) : Prop :=
  List.length (heap hs) <= List.length (heap hs') /\ forall a, a < List.length (heap hs) -> ~ P a -> at_ hs' a = at_ hs a.
Lemma frame_refl : forall P hs, frame P hs hs.
Proof. intros P hs. split; [lia|reflexivity]. Qed.
Lemma frame_trans : forall (P Q R : nat -> Prop) hs hs1 hs2, frame P hs hs1 -> frame Q hs1 hs2 -> (forall a, P a -> R a) -> (forall a, Q a -> R a \/ List.length (heap hs) <= a) -> frame R hs hs2.
Proof.
  intros P Q R hs hs1 hs2 [L1 F1] [L2 F2] PR QR. split; [lia|]. intros a L N. rewrite F2; [apply F1; [exact L|]|lia|].
  - intro H. exact (N (PR a H)).
  - intro H. destruct (QR a H); [contradiction|lia].
Qed.
Lemma frame_mono : forall (P Q : nat -> Prop) hs hs', frame P hs hs' -> (forall a, P a -> Q a) -> frame Q hs hs'.
Proof. intros P Q hs hs' [L F] H. split; [exact L|]. intros a A N. apply F; [exact A|]. intro K. exact (N (H a K)). Qed.
Lemma at_lt : forall hs a o, at_ hs a = Some o -> a < List.length (heap hs).
Proof. intros hs a o E. apply nth_error_Some. unfold at_ in E. congruence. Qed.
Lemma frame_agree : forall (P X X' : nat -> Prop) hs hs', frame P hs hs' -> (forall a, P a -> X a) -> (forall a, X' a -> X a \/ List.length (heap hs) <= a) -> agree (heap hs) X (heap hs') X'.
Proof. intros P X X' hs hs' [L F] PX XX a N A. split; [apply F; [exact A|intro K; exact (N (PX a K))]|]. intro K. destruct (XX a K); [contradiction|lia]. Qed.

Section Inv.
Variable prog : list (string * pymodule).
Variable hg : list (string * string * hval).
Definition gn : list string := flat_map (fun mb => variables (snd mb)) prog.
(* the addresses of the variables of the modules *)
Definition G (a : nat) : Prop := exists m x, hget_glob m x hg = Some (HRef a).
(* the function of a default dictionary returns a literal *)
Definition good (v : value) : Prop :=
  match v with
  | VDict (Some g) _ => exists n f c, g = VFun n f /\ find_def (module_body prog n) f = Some ([], [SReturn (Some c)]) /\ lit_expr c = true
  | _ => True
  end.
Record base (X : nat -> Prop) (s : st) (hs : hst) : Prop := {
  b_out : hout hs = out s;
  b_hg : hglob hs = hg;
  b_glob : forall m x,
    match get_glob m x (glob s) with
    | None => hget_glob m x hg = None
    | Some v => exists a o, hget_glob m x hg = Some (HRef a) /\ at_ hs a = Some o /\ mutable v = true /\ obj_rep (heap hs) X v o /\
                  In x gn /\ In x (flat_map bound (module_body prog m)) /\ good v
    end;
  b_dist : forall m x m' x' a, hget_glob m x hg = Some (HRef a) -> hget_glob m' x' hg = Some (HRef a) -> (m, x) = (m', x');
  b_hot : forall a, X a -> a < List.length (heap hs);
  b_G : forall a, G a -> X a }.

(* a variable, an operand, an argument *)
Definition var_in (h : list obj) (X C : nat -> Prop) (kd : kind) (v : value) (w : hval) : Prop :=
  if mutable v then exists a o, w = HRef a /\ nth_error h a = Some o /\ obj_rep h X v o /\ (if writable kd then C a /\ ~ G a else ~ C a)
  else writable kd = false /\ rep h X v w.
Definition held (h : list obj) (X : nat -> Prop) (v : value) (w : hval) : Prop :=
  if mutable v then exists a o, w = HRef a /\ nth_error h a = Some o /\ obj_rep h X v o else rep h X v w.
Definition arg_in (h : list obj) (X : nat -> Prop) (v : value) (w : hval) : Prop :=
  if mutable v then exists a o, w = HRef a /\ nth_error h a = Some o /\ obj_rep h X v o /\ ~ G a else rep h X v w.

Variable m : string.
Variable lv pn : list string.
Record Inv (X C : nat -> Prop) (s : st) (hs : hst) : Prop := {
  i_base : base X s hs;
  i_CX : forall a, C a -> X a;
  i_GC : forall a, G a -> C a;
  i_nodup : NoDup (map fst (loc s));
  i_loc : forall x kd v, get x (loc s) = Some (kd, v) ->
    has lv x = true /\ (kd = KSelf -> has pn x = true) /\ exists w, get x (hloc hs) = Some w /\ var_in (heap hs) X C kd v w;
  i_dist : forall x y kx vx ky vy a, get x (loc s) = Some (kx, vx) -> writable kx = true -> get x (hloc hs) = Some (HRef a) ->
    get y (loc s) = Some (ky, vy) -> writable ky = true -> get y (hloc hs) = Some (HRef a) -> x = y }.

Lemma base_move : forall X X' s s' hs hs' P, base X s hs -> frame P hs hs' -> (forall a, P a -> X a /\ ~ G a) ->
  ext X X' (List.length (heap hs)) -> (forall a, X' a -> a < List.length (heap hs')) ->
  hout hs' = out s' -> hglob hs' = hglob hs -> glob s' = glob s -> base X' s' hs'.
Proof.
  intros X X' s s' hs hs' P B F PX E H O Hg Eg. destruct B as [b1 b2 b3 b4 b5 b6]. constructor; try assumption.
  - congruence.
  - intros n x. rewrite Eg. specialize (b3 n x). destruct (get_glob n x (glob s)) as [v|]; [|exact b3]. destruct b3 as (a & o & K1 & K2 & K3 & K4 & K5). exists a, o.
    split; [exact K1|]. split; [|split; [exact K3|split; [|exact K5]]].
    + rewrite (proj2 F); [exact K2|exact (at_lt _ _ _ K2)|]. intro Q. apply (proj2 (PX a Q)). exists n, x. exact K1.
    + eapply obj_move; [|exact K4]. eapply frame_agree; [exact F|intros b Q; exact (proj1 (PX b Q))|exact (proj2 E)].
  - intros a Ga. apply (proj1 E). apply b6. exact Ga.
Qed.
(* after something has happened elsewhere *)
Lemma Inv_after : forall X C X' C' s hs s' hs' P, Inv X C s hs -> frame P hs hs' -> (forall a, P a -> X a) ->
  ext X X' (List.length (heap hs)) -> ext C C' (List.length (heap hs)) -> (forall a, C' a -> X' a) -> base X' s' hs' -> hloc hs' = hloc hs ->
  NoDup (map fst (loc s')) ->
  (forall x kd v, get x (loc s') = Some (kd, v) ->
     (get x (loc s) = Some (kd, v) /\ (mutable v = true -> forall a, get x (hloc hs) = Some (HRef a) -> ~ P a)) \/
     (exists v0, get x (loc s) = Some (kd, v0)) /\ exists w, get x (hloc hs) = Some w /\ var_in (heap hs') X' C' kd v w) ->
  Inv X' C' s' hs'.
Proof.
  intros X C X' C' s hs s' hs' P I F PX EX EC CX B L D K. destruct I as [i1 i2 i3 i4 i5 i6]. constructor.
  - exact B.
  - exact CX.
  - intros a Ga. apply (proj1 EC). apply i3. exact Ga.
  - exact D.
  - intros x kd v Q. rewrite L. destruct (K x kd v Q) as [[Q0 N]|[[v0 Q0] R]].
    + destruct (i5 x kd v Q0) as (J1 & J2 & w & J3 & J4). split; [exact J1|]. split; [exact J2|]. exists w. split; [exact J3|]. revert N J4. unfold var_in.
      assert (A : agree (heap hs) X (heap hs') X') by (eapply frame_agree; [exact F|exact PX|exact (proj2 EX)]).
      destruct (mutable v); [|intros _ [W R]; split; [exact W|]; eapply rep_move; eassumption]. intros N (a & o & -> & T1 & T2 & T3). exists a, o. specialize (N eq_refl a J3).
      assert (A' : a < List.length (heap hs)) by (apply nth_error_Some; congruence).
      split; [reflexivity|]. split; [rewrite <- T1; apply (proj2 F); assumption|]. split; [eapply obj_move; eassumption|].
      destruct (writable kd); [destruct T3; split; [apply (proj1 EC); assumption|assumption]|]. intro C'a. destruct (proj2 EC a C'a); [contradiction|lia].
    + destruct (i5 x kd v0 Q0) as (J1 & J2 & _). split; [exact J1|]. split; [exact J2|]. exact R.
  - intros x y kx vx ky vy a Qx Wx Hx Qy Wy Hy. rewrite L in Hx, Hy.
    assert (Kx : exists u, get x (loc s) = Some (kx, u)) by (destruct (K _ _ _ Qx) as [[? _]|[? _]]; [eexists; eassumption|assumption]).
    assert (Ky : exists u, get y (loc s) = Some (ky, u)) by (destruct (K _ _ _ Qy) as [[? _]|[? _]]; [eexists; eassumption|assumption]).
    destruct Kx as [ux Kx], Ky as [uy Ky]. exact (i6 x y kx ux ky uy a Kx Wx Hx Ky Wy Hy).
Qed.
Lemma frame_put : forall r o hs, frame (fun a => a = r) hs (hput r o hs).
Proof. intros r o hs. split; cbn; [rewrite update_length; lia|]. intros a A N. unfold at_. cbn. apply update_other. congruence. Qed.
Lemma frame_new : forall o hs P, frame P hs (halloc o hs).
Proof. intros o hs P. split; cbn; [rewrite app_length; lia|]. intros a A N. unfold at_. cbn. apply nth_error_app1. exact A. Qed.
Lemma at_new : forall o hs, at_ (halloc o hs) (List.length (heap hs)) = Some o.
Proof. intros o hs. unfold at_. cbn. rewrite nth_error_app2, PeanoNat.Nat.sub_diag; [reflexivity|lia]. Qed.
(* a new object; its address may be reserved *)
Lemma Inv_new : forall X C s hs o, Inv X C s hs -> Inv X C s (halloc o hs).
Proof.
  intros X C s hs o I. assert (F := frame_new o hs (fun _ => False)). assert (EX := ext_refl X (List.length (heap hs))). assert (EC := ext_refl C (List.length (heap hs))).
  eapply (Inv_after X C X C s hs s (halloc o hs)); try eassumption.
  - contradiction.
  - exact (i_CX _ _ _ _ I).
  - eapply base_move; try eassumption; try reflexivity; [exact (i_base _ _ _ _ I)|contradiction| |exact (b_out _ _ _ (i_base _ _ _ _ I))].
    intros a A. cbn. rewrite app_length. pose proof (b_hot _ _ _ (i_base _ _ _ _ I) a A). lia.
  - reflexivity.
  - exact (i_nodup _ _ _ _ I).
  - intros x kd v Q. left. split; [exact Q|]. intros _ a _ [].
Qed.
Lemma ext_add : forall X n, ext X (add X n) n.
Proof. intros X n. split; [left; assumption|]. intros a [H| ->]; [left; exact H|right; lia]. Qed.
Lemma Inv_new_hot : forall X C s hs o, Inv X C s hs -> Inv (add X (List.length (heap hs))) (add C (List.length (heap hs))) s (halloc o hs).
Proof.
  intros X C s hs o I. assert (F := frame_new o hs (fun _ => False)). set (n := List.length (heap hs)). assert (EX := ext_add X n). assert (EC := ext_add C n).
  assert (CX := i_CX _ _ _ _ I). eapply (Inv_after X C _ _ s hs s (halloc o hs)); try eassumption.
  - contradiction.
  - intros a [H|H]; [left; exact (CX a H)|right; exact H].
  - eapply base_move; try eassumption; try reflexivity; [exact (i_base _ _ _ _ I)|contradiction| |exact (b_out _ _ _ (i_base _ _ _ _ I))].
    intros a A. cbn. rewrite app_length. cbn. destruct A as [A| ->]; [pose proof (b_hot _ _ _ (i_base _ _ _ _ I) a A); lia|unfold n; lia].
  - reflexivity.
  - exact (i_nodup _ _ _ _ I).
  - intros x kd v Q. left. split; [exact Q|]. intros _ a _ [].
Qed.
(* output *)
Lemma Inv_emit : forall X C s hs ev, Inv X C s hs -> Inv X C (emit_ev ev s) (hemit ev hs).
Proof.
  intros X C s hs ev I. destruct I as [i1 i2 i3 i4 i5 i6]. constructor; try assumption. destruct i1 as [b1 b2 b3 b4 b5 b6]. constructor; try assumption. cbn. rewrite b1. reflexivity.
Qed.
(* changing the object of a variable *)
Lemma Inv_put : forall X C s hs x kd v v' r o, Inv X C s hs -> get x (loc s) = Some (kd, v) -> writable kd = true -> get x (hloc hs) = Some (HRef r) ->
  mutable v' = true -> obj_rep (heap hs) X v' o -> Inv X C (bind_local x kd v' s) (hput r o hs).
Proof.
  intros X C s hs x kd v v' r o I Q W H M R. pose proof I as [i1 i2 i3 i4 i5 i6].
  destruct (i5 x kd v Q) as (J1 & J2 & w & J3 & J4). rewrite H in J3. injection J3 as <-. unfold var_in in J4. rewrite W in J4.
  destruct (mutable v) eqn:Mv; [|destruct J4; discriminate]. destruct J4 as (a & o0 & J5 & J6 & J7 & J8 & J9). injection J5 as <-.
  assert (F := frame_put r o hs). assert (PX : forall a, a = r -> X a) by (intros a ->; exact (i2 _ J8)).
  assert (A : agree (heap hs) X (heap (hput r o hs)) X) by (eapply frame_agree; [exact F|exact PX|left; assumption]).
  eapply (Inv_after X C X C s hs); [exact I|exact F|exact PX|apply ext_refl|apply ext_refl|exact i2| |reflexivity| |].
  - eapply base_move; [exact i1|exact F| |apply ext_refl| |exact (b_out _ _ _ i1)|reflexivity|reflexivity].
    + intros a ->. split; [exact (i2 _ J8)|exact J9].
    + intros a Xa. cbn. rewrite update_length. exact (b_hot _ _ _ i1 a Xa).
  - apply nodup_set. exact i4.
  - intros y ky u Qy. cbn in Qy. destruct (String.eqb_spec y x) as [->|Ne].
    + rewrite get_set_same in Qy. injection Qy as <- <-. right. split; [exists v; exact Q|]. exists (HRef r). split; [exact H|]. unfold var_in. rewrite M, W.
      exists r, o. split; [reflexivity|]. split; [cbn; eapply update_same; exact J6|]. split; [eapply obj_move; eassumption|split; assumption].
    + rewrite (get_set_other _ _ _ _ _ Ne) in Qy. left. split; [exact Qy|]. intros Mu a Ha ->. destruct (writable ky) eqn:Wy.
      * apply Ne. exact (i6 y x ky u kd v r Qy Wy Ha Q W H).
      * destruct (i5 y ky u Qy) as (_ & _ & w & K1 & K2). rewrite Ha in K1. injection K1 as <-. unfold var_in in K2. rewrite Mu, Wy in K2. destruct K2 as (b & o1 & K3 & _ & _ & K4). injection K3 as <-. contradiction.
Qed.
(* changing a dictionary that is a variable of a module *)
Lemma Inv_put_glob : forall X C s hs n x v v' r o, Inv X C s hs -> get_glob n x (glob s) = Some v -> hget_glob n x hg = Some (HRef r) ->
  mutable v' = true -> good v' -> obj_rep (heap hs) X v' o -> Inv X C (St (loc s) (out s) (set_glob n x v' (glob s))) (hput r o hs).
Proof.
  intros X C s hs n x v v' r o I Q H M Gd R. pose proof I as [i1 i2 i3 i4 i5 i6]. pose proof i1 as [b1 b2 b3 b4 b5 b6].
  assert (Gr : G r) by (exists n, x; exact H). assert (F := frame_put r o hs). assert (PX : forall a, a = r -> X a) by (intros a ->; exact (b6 _ Gr)).
  assert (A : agree (heap hs) X (heap (hput r o hs)) X) by (eapply frame_agree; [exact F|exact PX|left; assumption]).
  eapply (Inv_after X C X C s hs); [exact I|exact F|exact PX|apply ext_refl|apply ext_refl|exact i2| |reflexivity|exact i4|].
  - constructor; try assumption.
    + intros n' y. cbn [glob]. destruct (String.eqb_spec n' n) as [->|Nn]; [destruct (String.eqb_spec y x) as [->|Nx]|].
      * rewrite (get_set_glob_same _ _ _ _ _ Q). specialize (b3 n x). rewrite Q in b3. destruct b3 as (a & o0 & K1 & K2 & K3 & K4 & K5 & K6 & K7). rewrite H in K1. injection K1 as <-.
        exists r, o. repeat split; try assumption; [eapply update_same; exact K2|eapply obj_move; eassumption].
      * rewrite get_set_glob_other by congruence. specialize (b3 n y). destruct (get_glob n y (glob s)); [|exact b3]. destruct b3 as (a & o0 & K1 & K2 & K3 & K4 & K5 & K6 & K7).
        exists a, o0. repeat split; try assumption; [|eapply obj_move; eassumption]. rewrite (proj2 F); [exact K2|exact (at_lt _ _ _ K2)|]. intros ->. pose proof (b4 _ _ _ _ _ K1 H). congruence.
      * rewrite get_set_glob_other by congruence. specialize (b3 n' y). destruct (get_glob n' y (glob s)); [|exact b3]. destruct b3 as (a & o0 & K1 & K2 & K3 & K4 & K5 & K6 & K7).
        exists a, o0. repeat split; try assumption; [|eapply obj_move; eassumption]. rewrite (proj2 F); [exact K2|exact (at_lt _ _ _ K2)|]. intros ->. pose proof (b4 _ _ _ _ _ K1 H). congruence.
    + intros a Xa. cbn. rewrite update_length. exact (b5 a Xa).
  - intros y ky u Qy. left. split; [exact Qy|]. intros Mu a Ha ->. destruct (i5 y ky u Qy) as (_ & _ & w & K1 & K2). rewrite Ha in K1. injection K1 as <-. unfold var_in in K2. rewrite Mu in K2.
    destruct K2 as (b & o1 & K3 & _ & _ & K4). injection K3 as <-. destruct (writable ky); [destruct K4; contradiction|]. apply K4. apply i3. exact Gr.
Qed.

(* ---- names ---- *)
Hypothesis lv_ok : none_of lv (flat_map bound (module_body prog m) ++ builtins) = true.
Definition imm (v : value) : hval :=
  match v with VFun m f => HFun m f | VClass m c => HClass m c | VMod m => HMod m | VPrim m f => HPrim m f | _ => HNone end.
Definition is_imm (v : value) : Prop := match v with VFun _ _ | VClass _ _ | VMod _ | VPrim _ _ => True | _ => False end.
Lemma rep_imm : forall h X v, is_imm v -> rep h X v (imm v).
Proof. intros h X v H. destruct v; try contradiction; cbn; auto. Qed.
Lemma imm_mutable : forall v, is_imm v -> mutable v = false.
Proof. intros v H. destruct v; try contradiction; reflexivity. Qed.
Lemma import_rep : forall n f, match import_from prog n f with Some v => is_imm v /\ himport_from prog n f = Some (imm v) | None => himport_from prog n f = None end.
Proof.
  intros n f. unfold import_from, himport_from. destruct (get n prog) as [b|]; [|split; [exact Logic.I|reflexivity]].
  destruct (find_def b f); [split; [exact Logic.I|reflexivity]|]. destruct (find_class b f); [split; [exact Logic.I|reflexivity]|reflexivity].
Qed.
Lemma static_rep : forall n b x, match static prog n b x with Some v => is_imm v /\ hstatic prog n b x = Some (imm v) | None => hstatic prog n b x = None end.
Proof.
  intros n b x. induction b as [|c b IH]; [reflexivity|]. destruct c; try exact IH; cbn.
  - destruct (String.eqb x f); [split; [exact Logic.I|reflexivity]|exact IH].
  - destruct (String.eqb x c); [split; [exact Logic.I|reflexivity]|exact IH].
  - destruct (String.eqb x x0); [split; [exact Logic.I|reflexivity]|exact IH].
  - destruct (String.eqb x x0); [apply import_rep|exact IH].
Qed.
Lemma static_bound : forall n b x v, static prog n b x = Some v -> In x (flat_map bound b).
Proof.
  intros n b x v. induction b as [|c b IH]; [discriminate|]. intro E. cbn. apply in_or_app. destruct c; try (right; exact (IH E)); cbn in E |- *.
  - destruct (String.eqb_spec x f); [left; left; congruence|right; exact (IH E)].
  - destruct (String.eqb_spec x c); [left; left; congruence|right; exact (IH E)].
  - destruct (String.eqb_spec x x0); [left; left; congruence|right; exact (IH E)].
  - destruct (String.eqb_spec x x0); [left; left; congruence|right; exact (IH E)].
Qed.
Lemma local_free : forall X s hs x v, base X s hs -> has lv x = true -> global prog m x s = Some v -> False.
Proof.
  intros X s hs x v B L E. apply has_in in L. pose proof (none_of_in _ _ _ lv_ok L) as N. unfold global in E.
  destruct (static prog m (module_body prog m) x) as [u|] eqn:S1; [apply N; apply in_or_app; left; exact (static_bound _ _ _ _ S1)|].
  pose proof (b_glob _ _ _ B m x) as Q. destruct (get_glob m x (glob s)) as [u|]; [destruct Q as (a & o & _ & _ & _ & _ & _ & K & _); apply N; apply in_or_app; left; exact K|].
  destruct (existsb (String.eqb x) builtins) eqn:Bi; [|discriminate E]. apply N. apply in_or_app. right. apply has_in. exact Bi.
Qed.
(* where a name leads *)
Definition origin (C : nat -> Prop) (s : st) (hs : hst) (x : string) (v : value) (w : hval) : Prop :=
  match get x (loc s) with
  | Some (kd, _) => mutable v = true -> exists a, w = HRef a /\ get x (hloc hs) = Some w /\ (if writable kd then C a /\ ~ G a else ~ C a)
  | None => mutable v = true -> exists a, w = HRef a /\ get_glob m x (glob s) = Some v /\ hget_glob m x hg = Some w /\ In x gn /\ good v
  end.
Lemma global_rep : forall X s hs n x v, base X s hs -> global prog n x s = Some v ->
  exists w, hglobal prog n x hs = Some w /\ held (heap hs) X v w /\
    (mutable v = true -> exists a, w = HRef a /\ get_glob n x (glob s) = Some v /\ hget_glob n x hg = Some w /\ In x gn /\ good v).
Proof.
  intros X s hs n x v B E. unfold global, hglobal in *. rewrite (b_hg _ _ _ B). pose proof (static_rep n (module_body prog n) x) as SR.
  destruct (static prog n (module_body prog n) x) as [u|].
  - injection E as ->. destruct SR as [I ->]. exists (imm v). split; [reflexivity|]. split; [unfold held; rewrite (imm_mutable v I); apply rep_imm; exact I|]. rewrite (imm_mutable v I). discriminate.
  - rewrite SR. pose proof (b_glob _ _ _ B n x) as Q. destruct (get_glob n x (glob s)) as [u|] eqn:Gg.
    + injection E as ->. destruct Q as (a & o & K1 & K2 & K3 & K4 & K5 & K6 & K7). rewrite K1. exists (HRef a). split; [reflexivity|]. split; [unfold held; rewrite K3; exists a, o; repeat split; assumption|].
      intros _. exists a. repeat split; assumption.
    + rewrite Q. destruct (existsb (String.eqb x) builtins); [|discriminate E]. injection E as <-. exists (HPrim "builtins" x). split; [reflexivity|]. split; [split; reflexivity|discriminate].
Qed.
Lemma name_rep : forall X C s hs x v, Inv X C s hs -> name_value prog m x s = Some v ->
  exists w, hname prog m lv x hs = Some w /\ held (heap hs) X v w /\ origin C s hs x v w.
Proof.
  intros X C s hs x v I E. unfold name_value, hname, origin in *. change (existsb (String.eqb x) lv) with (has lv x). destruct (get x (loc s)) as [[kd u]|] eqn:Q.
  - injection E as ->. destruct (i_loc _ _ _ _ I x kd v Q) as (L & _ & w & H & V). rewrite L, H. exists w. split; [reflexivity|]. unfold var_in, held in *.
    destruct (mutable v) eqn:M.
    + destruct V as (a & o & -> & V1 & V2 & V3). split; [exists a, o; repeat split; assumption|]. intros _. exists a. repeat split; assumption.
    + destruct V as [_ V]. split; [exact V|]. discriminate.
  - destruct (has lv x) eqn:L; [destruct (local_free X s hs x v (i_base _ _ _ _ I) L E)|]. destruct (global_rep X s hs m x v (i_base _ _ _ _ I) E) as (w & H1 & H2 & H3). exists w. repeat split; assumption.
Qed.
Lemma mod_attr_rep : forall X s hs n a v, base X s hs -> mod_attr prog n a s = Some v ->
  exists w, hmod_attr prog n a hs = Some w /\ held (heap hs) X v w /\ (mutable v = true -> In a gn).
Proof.
  intros X s hs n a v B E. unfold mod_attr, hmod_attr in *. rewrite (b_hg _ _ _ B). destruct (get n prog) as [b|] eqn:Gp.
  - pose proof (static_rep n b a) as SR. destruct (static prog n b a) as [u|].
    + injection E as ->. destruct SR as [I ->]. exists (imm v). split; [reflexivity|]. unfold held. rewrite (imm_mutable v I). split; [apply rep_imm; exact I|discriminate].
    + rewrite SR. pose proof (b_glob _ _ _ B n a) as Q. rewrite E in Q. destruct Q as (r & o & K1 & K2 & K3 & K4 & K5 & _). exists (HRef r). split; [exact K1|]. unfold held. rewrite K3. split; [exists r, o; repeat split; assumption|intros _; exact K5].
  - destruct (String.eqb n "os" && String.eqb a "path"); [injection E as <-; exists (HMod "os.path"); repeat split; discriminate|].
    destruct (String.eqb n "string" && String.eqb a "ascii_uppercase"); [injection E as <-; exists (HStr uppercase); repeat split; discriminate|].
    injection E as <-. exists (HPrim n a). repeat split; discriminate.
Qed.
(* the same library function in another state *)
Lemma mod_attr_prim : forall X s s' hs n a q f, base X s' hs -> mod_attr prog n a s' = Some (VPrim q f) -> mod_attr prog n a s = Some (VPrim q f).
Proof.
  intros X s s' hs n a q f B E. unfold mod_attr in *. destruct (get n prog) as [b|]; [|exact E]. destruct (static prog n b a); [exact E|].
  pose proof (b_glob _ _ _ B n a) as Q. rewrite E in Q. destruct Q as (r & o & _ & _ & K & _). discriminate K.
Qed.
End Inv.
