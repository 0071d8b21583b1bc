(* The values of PyEval.v and those of PyHeap.v: which value a reference stands for in a heap. *)
From Coq Require Import List String Ascii NArith ZArith Bool Lia.
From Verif Require Import PyBase PyRepr Json Record Api Utf8 PySyntax PyEval SrcCheck PyHeap.
Import ListNotations.
Open Scope string_scope.
Open Scope list_scope.
Local Open Scope nat_scope.

(* ---- induction over values ---- *)
Fixpoint value_rect' (P : value -> Prop)
  (Hsimple : forall v, (forall l, v <> VList l) -> (forall l, v <> VTuple l) -> (forall m c l, v <> VInst m c l) -> (forall f l, v <> VDict f l) -> P v)
  (Hlist : forall l, Forall P l -> P (VList l)) (Htuple : forall l, Forall P l -> P (VTuple l))
  (Hinst : forall m c l, Forall (fun p => P (snd p)) l -> P (VInst m c l))
  (Hdict : forall f l, (forall g, f = Some g -> P g) -> Forall (fun p => P (snd p)) l -> P (VDict f l)) (v : value) {struct v} : P v.
Proof.
  pose (self := value_rect' P Hsimple Hlist Htuple Hinst Hdict).
  destruct v; try (apply Hsimple; intros; discriminate).
  - apply Hlist. exact ((fix go (l : list value) : Forall P l := match l with [] => Forall_nil _ | v :: l' => Forall_cons _ (self v) (go l') end) l).
  - apply Htuple. exact ((fix go (l : list value) : Forall P l := match l with [] => Forall_nil _ | v :: l' => Forall_cons _ (self v) (go l') end) l).
  - apply Hinst. exact ((fix go (l : list (string * value)) : Forall (fun p => P (snd p)) l := match l with [] => Forall_nil _ | p :: l' => Forall_cons _ (self (snd p)) (go l') end) attrs).
  - apply Hdict.
    + intros g E. destruct factory as [f|]; [|discriminate E]. injection E as <-. exact (self f).
    + exact ((fix go (l : list (str * value)) : Forall (fun p => P (snd p)) l := match l with [] => Forall_nil _ | p :: l' => Forall_cons _ (self (snd p)) (go l') end) items).
Qed.

Section Rep.
Variable h : list obj.
(* addresses that must not be met *)
Variable X : nat -> Prop.
Fixpoint rep (v : value) (w : hval) {struct v} : Prop :=
  let reps := fix reps (l : list value) (l' : list hval) {struct l} : Prop :=
    match l, l' with [], [] => True | v :: l, w :: l' => rep v w /\ reps l l' | _, _ => False end in
  let rattrs := fix rattrs (l : list (string * value)) (l' : list (string * hval)) {struct l} : Prop :=
    match l, l' with [], [] => True | (x, v) :: l, (y, w) :: l' => (x = y /\ rep v w) /\ rattrs l l' | _, _ => False end in
  let ritems := fix ritems (l : list (str * value)) (l' : list (str * hval)) {struct l} : Prop :=
    match l, l' with [], [] => True | (x, v) :: l, (y, w) :: l' => (x = y /\ rep v w) /\ ritems l l' | _, _ => False end in
  match v, w with
  | VNone, HNone => True
  | VBool b, HBool c => b = c
  | VInt z, HInt z' => z = z'
  | VFloat x, HFloat y => x = y
  | VStr s, HStr t => s = t
  | VList l, HList l' => reps l l'
  | VTuple l, HTuple l' => reps l l'
  | VFun m f, HFun n g => m = n /\ f = g
  | VClass m f, HClass n g => m = n /\ f = g
  | VMod m, HMod n => m = n
  | VPrim m f, HPrim n g => m = n /\ f = g
  | VContains s, HContains t => s = t
  | VTableText r, HTableText q => r = q
  | VColored c t, HColored d u => c = d /\ t = u
  | VEntry n, HEntry k => n = k
  | VExc e, HExc e' => e = e'
  | VOther t, HOther u => t = u
  | VInst m c attrs, HRef a =>
      ~ X a /\ match nth_error h a with Some (OInst m' c' attrs') => m = m' /\ c = c' /\ rattrs attrs attrs' | _ => False end
  | VDict f items, HRef a =>
      ~ X a /\ match nth_error h a with
               | Some (ODict f' items') => match f, f' with None, None => True | Some g, Some g' => rep g g' | _, _ => False end /\ ritems items items'
               | _ => False
               end
  | VIO s, HRef a => ~ X a /\ nth_error h a = Some (OIO s)
  | VTable l rows, HRef a => ~ X a /\ nth_error h a = Some (OTable l rows)
  | VFile bs, HRef a => ~ X a /\ nth_error h a = Some (OFile bs)
  | _, _ => False
  end.
Definition kv_rep {A} (p : A * value) (q : A * hval) : Prop := fst p = fst q /\ rep (snd p) (snd q).
(* an object that can change, apart from where it is *)
Definition obj_rep (v : value) (o : obj) : Prop :=
  match v, o with
  | VInst m c attrs, OInst m' c' attrs' => m = m' /\ c = c' /\ Forall2 kv_rep attrs attrs'
  | VDict f items, ODict f' items' =>
      match f, f' with None, None => True | Some g, Some g' => rep g g' | _, _ => False end /\ Forall2 kv_rep items items'
  | VIO s, OIO t => s = t
  | VTable l rows, OTable l' rows' => l = l' /\ rows = rows'
  | VFile bs, OFile bs' => bs = bs'
  | _, _ => False
  end.
Lemma rep_list : forall l w, rep (VList l) w <-> exists l', w = HList l' /\ Forall2 rep l l'.
Proof.
  intros l w. split.
  - intro H. destruct w as [| | | | |l'| | | | | | | | | | | |]; try contradiction. exists l'. split; [reflexivity|]. revert l' H. induction l as [|v l IH]; intros [|w l'] H; cbn in H; try contradiction; constructor; [exact (proj1 H)|exact (IH _ (proj2 H))].
  - intros (l' & -> & H). revert l' H. induction l as [|v l IH]; intros l' H; inversion H; subst; cbn; [exact Logic.I|]. split; [assumption|]. apply IH. assumption.
Qed.
Lemma rep_tuple : forall l w, rep (VTuple l) w <-> exists l', w = HTuple l' /\ Forall2 rep l l'.
Proof.
  intros l w. split.
  - intro H. destruct w as [| | | | | |l'| | | | | | | | | | |]; try contradiction. exists l'. split; [reflexivity|]. revert l' H. induction l as [|v l IH]; intros [|w l'] H; cbn in H; try contradiction; constructor; [exact (proj1 H)|exact (IH _ (proj2 H))].
  - intros (l' & -> & H). revert l' H. induction l as [|v l IH]; intros l' H; inversion H; subst; cbn; [exact Logic.I|]. split; [assumption|]. apply IH. assumption.
Qed.
Lemma kv_fix : forall A (l : list (A * value)) l',
  (fix rattrs (l : list (A * value)) (l' : list (A * hval)) {struct l} : Prop :=
    match l, l' with [], [] => True | (x, v) :: l, (y, w) :: l' => (x = y /\ rep v w) /\ rattrs l l' | _, _ => False end) l l' <-> Forall2 kv_rep l l'.
Proof.
  intros A. induction l as [|[x v] l IH]; intros [|[y w] l']; split; intro H; try contradiction; try (inversion H; fail).
  - constructor.
  - exact Logic.I.
  - destruct H as [H1 H2]. constructor; [exact H1|]. apply IH. exact H2.
  - inversion H; subst. split; [assumption|]. apply IH. assumption.
Qed.
Lemma rep_mutable : forall v w, mutable v = true -> (rep v w <-> exists a o, w = HRef a /\ ~ X a /\ nth_error h a = Some o /\ obj_rep v o).
Proof.
  intros v w M. destruct v; try discriminate M; split.
  - intro H. destruct w; try contradiction. cbn [rep] in H. destruct H as [H1 H2]. destruct (nth_error h a) as [[m' c' l'| | | | |]|] eqn:E; try contradiction.
    exists a, (OInst m' c' l'). repeat split; try assumption; try apply H2. apply (kv_fix string). apply H2.
  - intros (a & o & -> & H1 & E & H2). cbn [rep]. split; [exact H1|]. rewrite E. destruct o; try contradiction. destruct H2 as (? & ? & H2). repeat split; try assumption. apply (kv_fix string). exact H2.
  - intro H. destruct w; try contradiction. cbn [rep] in H. destruct H as [H1 H2]. destruct (nth_error h a) as [[ |f' l'| | | |]|] eqn:E; try contradiction.
    exists a, (ODict f' l'). repeat split; try assumption; try apply H2. apply (kv_fix str). apply H2.
  - intros (a & o & -> & H1 & E & H2). cbn [rep]. split; [exact H1|]. rewrite E. destruct o; try contradiction. destruct H2 as (? & H2). split; try assumption. apply (kv_fix str). exact H2.
  - intro H. destruct w; try contradiction. cbn [rep] in H. exists a, (OIO s). repeat split; apply H.
  - intros (a & o & -> & H1 & E & H2). cbn [rep]. split; [exact H1|]. destruct o; try contradiction. cbn in H2. subst. exact E.
  - intro H. destruct w; try contradiction. cbn [rep] in H. exists a, (OTable left rows). repeat split; apply H.
  - intros (a & o & -> & H1 & E & H2). cbn [rep]. split; [exact H1|]. destruct o; try contradiction. destruct H2. subst. exact E.
  - intro H. destruct w; try contradiction. cbn [rep] in H. exists a, (OFile bs). repeat split; apply H.
  - intros (a & o & -> & H1 & E & H2). cbn [rep]. split; [exact H1|]. destruct o; try contradiction. cbn in H2. subst. exact E.
Qed.
Lemma rep_ref : forall v w, mutable v = false -> rep v w -> forall a, w <> HRef a.
Proof. intros v w M H a ->. destruct v; try discriminate M; exact H. Qed.
Lemma rep_not_ref : forall v w, rep v w -> (forall a, w <> HRef a) -> mutable v = false.
Proof. intros v w H N. destruct (mutable v) eqn:M; [|reflexivity]. apply (rep_mutable v w M) in H. destruct H as (a & o & E & _). exfalso. exact (N a E). Qed.
End Rep.

(* ---- another heap and other forbidden addresses ---- *)
Definition agree (h : list obj) (X : nat -> Prop) (h' : list obj) (X' : nat -> Prop) : Prop :=
  forall a, ~ X a -> a < List.length h -> nth_error h' a = nth_error h a /\ ~ X' a.
Lemma forall2_move : forall A B (P Q : A -> B -> Prop) l l', Forall (fun a => forall b, P a b -> Q a b) l -> Forall2 P l l' -> Forall2 Q l l'.
Proof. intros A B P Q l l' H F. induction F; inversion H; subst; constructor; auto. Qed.
Lemma rep_move : forall h X h' X', agree h X h' X' -> forall v w, rep h X v w -> rep h' X' v w.
Proof.
  intros h X h' X' A. induction v as [v S1 S2 S3 S4|l IH|l IH|m c l IH|f l IHf IH] using value_rect'; intros w H.
  - destruct v; try exact H.
    + destruct (S1 l eq_refl).
    + destruct (S2 l eq_refl).
    + destruct (S3 m c attrs eq_refl).
    + destruct (S4 factory items eq_refl).
    + destruct w; try contradiction. cbn in H |- *. destruct H as [H1 H2]. assert (L : a < List.length h) by (apply nth_error_Some; congruence). destruct (A a H1 L) as [E N]. split; [exact N|congruence].
    + destruct w; try contradiction. cbn in H |- *. destruct H as [H1 H2]. assert (L : a < List.length h) by (apply nth_error_Some; congruence). destruct (A a H1 L) as [E N]. split; [exact N|congruence].
    + destruct w; try contradiction. cbn in H |- *. destruct H as [H1 H2]. assert (L : a < List.length h) by (apply nth_error_Some; congruence). destruct (A a H1 L) as [E N]. split; [exact N|congruence].
  - apply rep_list in H. destruct H as (l' & -> & H). apply rep_list. exists l'. split; [reflexivity|]. exact (forall2_move _ _ _ _ _ _ IH H).
  - apply rep_tuple in H. destruct H as (l' & -> & H). apply rep_tuple. exists l'. split; [reflexivity|]. exact (forall2_move _ _ _ _ _ _ IH H).
  - apply rep_mutable in H; [|reflexivity]. destruct H as (a & o & -> & H1 & E & H2). apply rep_mutable; [reflexivity|].
    assert (L : a < List.length h) by (apply nth_error_Some; congruence). destruct (A a H1 L) as [E' N]. exists a, o. split; [reflexivity|]. split; [exact N|]. split; [congruence|].
    destruct o; try contradiction. destruct H2 as (? & ? & H2). repeat split; try assumption.
    refine (forall2_move _ _ _ _ _ _ _ H2). eapply Forall_impl; [|exact IH]. intros [x v] P [y w] [Q1 Q2]. split; [exact Q1|exact (P _ Q2)].
  - apply rep_mutable in H; [|reflexivity]. destruct H as (a & o & -> & H1 & E & H2). apply rep_mutable; [reflexivity|].
    assert (L : a < List.length h) by (apply nth_error_Some; congruence). destruct (A a H1 L) as [E' N]. exists a, o. split; [reflexivity|]. split; [exact N|]. split; [congruence|].
    destruct o; try contradiction. destruct H2 as (H0 & H2). split.
    + destruct f as [g|], factory as [g'|]; try contradiction; [|exact Logic.I]. exact (IHf g eq_refl _ H0).
    + refine (forall2_move _ _ _ _ _ _ _ H2). eapply Forall_impl; [|exact IH]. intros [x v] P [y w] [Q1 Q2]. split; [exact Q1|exact (P _ Q2)].
Qed.
Lemma reps_move : forall h X h' X', agree h X h' X' -> forall l l', Forall2 (rep h X) l l' -> Forall2 (rep h' X') l l'.
Proof. intros h X h' X' A l l' F. induction F; constructor; [eapply rep_move; eassumption|assumption]. Qed.
Lemma kvs_move : forall h X h' X', agree h X h' X' -> forall T (l : list (T * value)) l', Forall2 (kv_rep h X) l l' -> Forall2 (kv_rep h' X') l l'.
Proof. intros h X h' X' A T l l' F. induction F as [|p q l l' [H1 H2] F IH]; constructor; [|assumption]. split; [exact H1|]. eapply rep_move; eassumption. Qed.
Lemma obj_move : forall h X h' X', agree h X h' X' -> forall v o, obj_rep h X v o -> obj_rep h' X' v o.
Proof.
  intros h X h' X' A v o H. destruct v, o; try exact H; try contradiction.
  - destruct H as (? & ? & H). repeat split; try assumption. eapply kvs_move; eassumption.
  - destruct H as (H0 & H). split; [|eapply kvs_move; eassumption]. destruct factory, factory0; try contradiction; [|exact Logic.I]. eapply rep_move; eassumption.
Qed.
Lemma agree_refl : forall h X, agree h X h X.
Proof. intros h X a N L. split; [reflexivity|exact N]. Qed.

(* ---- the parts of a value ---- *)
Section Shapes.
Variable h : list obj.
Variable X : nat -> Prop.
Notation rep := (rep h X).
Lemma rep_str : forall v s, rep v (HStr s) <-> v = VStr s.
Proof. intros v s. split; [destruct v; cbn; try contradiction; congruence|intros ->; reflexivity]. Qed.
Lemma rep_vstr : forall s w, rep (VStr s) w <-> w = HStr s.
Proof. intros s w. split; [destruct w; cbn; try contradiction; congruence|intros ->; reflexivity]. Qed.
Lemma rep_vint : forall z w, rep (VInt z) w <-> w = HInt z.
Proof. intros s w. split; [destruct w; cbn; try contradiction; congruence|intros ->; reflexivity]. Qed.
Lemma rep_vbool : forall z w, rep (VBool z) w <-> w = HBool z.
Proof. intros s w. split; [destruct w; cbn; try contradiction; congruence|intros ->; reflexivity]. Qed.
Lemma rep_vfloat : forall z w, rep (VFloat z) w <-> w = HFloat z.
Proof. intros s w. split; [destruct w; cbn; try contradiction; congruence|intros ->; reflexivity]. Qed.
Lemma rep_vexc : forall z w, rep (VExc z) w <-> w = HExc z.
Proof. intros s w. split; [destruct w; cbn; try contradiction; congruence|intros ->; reflexivity]. Qed.
Lemma rep_vmod : forall z w, rep (VMod z) w <-> w = HMod z.
Proof. intros s w. split; [destruct w; cbn; try contradiction; congruence|intros ->; reflexivity]. Qed.
Lemma rep_vfun : forall m f w, rep (VFun m f) w <-> w = HFun m f.
Proof. intros m f w. split; [destruct w; cbn; try contradiction; intros []; congruence|intros ->; split; reflexivity]. Qed.
Lemma rep_vclass : forall m f w, rep (VClass m f) w <-> w = HClass m f.
Proof. intros m f w. split; [destruct w; cbn; try contradiction; intros []; congruence|intros ->; split; reflexivity]. Qed.
Lemma rep_vprim : forall m f w, rep (VPrim m f) w <-> w = HPrim m f.
Proof. intros m f w. split; [destruct w; cbn; try contradiction; intros []; congruence|intros ->; split; reflexivity]. Qed.

Lemma strs_rep : forall l l' r, Forall2 rep l l' -> strs l = Some r -> hstrs l' = Some r.
Proof.
  intros l l' r F. revert r. induction F as [|v w l l' H F IH]; intros r E; cbn in *; [exact E|].
  destruct v; try discriminate E. apply rep_vstr in H. subst w. destruct (strs l) as [q|]; [|discriminate E]. rewrite (IH q eq_refl). exact E.
Qed.
Lemma show_rep : forall v w t, rep v w -> show v = Some t -> hshow w = Some t.
Proof.
  intros v w t H E. destruct v; try discriminate E; cbn in E.
  - apply rep_vint in H. subst w. exact E.
  - apply rep_vstr in H. subst w. exact E.
  - apply rep_list in H. destruct H as (l' & -> & F). cbn. destruct (strs l) as [q|] eqn:Q; [|discriminate E]. rewrite (strs_rep _ _ _ F Q). exact E.
  - apply rep_vexc in H. subst w. exact E.
  - destruct w; try contradiction. cbn in H. subst. exact E.
Qed.
Lemma show_all_rep : forall l l' r, Forall2 rep l l' -> show_all l = Some r -> hshow_all l' = Some r.
Proof.
  intros l l' r F. revert r. induction F as [|v w l l' H F IH]; intros r E; cbn in *; [exact E|].
  destruct (show v) as [t|] eqn:Q; [|discriminate E]. rewrite (show_rep _ _ _ H Q). destruct (show_all l) as [q|]; [|discriminate E]. rewrite (IH q eq_refl). exact E.
Qed.
Lemma in_list_rep : forall x l l' r, Forall2 rep l l' -> in_list x l = Some r -> hin_list x l' = Some r.
Proof.
  intros x l l' r F. induction F as [|v w l l' H F IH]; intros E; cbn in *; [exact E|].
  destruct v; try discriminate E. apply rep_vstr in H. subst w. destruct (str_eqb x s); [exact E|exact (IH E)].
Qed.
Lemma all_true_rep : forall l l' r, Forall2 rep l l' -> all_true l = Some r -> hall_true l' = Some r.
Proof.
  intros l l' r F. induction F as [|v w l l' H F IH]; intros E; cbn in *; [exact E|].
  destruct v; try discriminate E. apply rep_vbool in H. subst w. destruct b; [exact (IH E)|exact E].
Qed.
Lemma map_contains_rep : forall t l l' r, Forall2 rep l l' -> map_contains t l = Some r -> exists r', hmap_contains t l' = Some r' /\ Forall2 rep r r'.
Proof.
  intros t l l' r F. revert r. induction F as [|v w l l' H F IH]; intros r E; cbn in *; [injection E as <-; exists []; split; [reflexivity|constructor]|].
  destruct v; try discriminate E. apply rep_vstr in H. subst w. destruct (map_contains t l) as [q|]; [|discriminate E]. destruct (IH q eq_refl) as (q' & -> & G). injection E as <-.
  eexists. split; [reflexivity|]. constructor; [reflexivity|exact G].
Qed.
Lemma str_items_rep : forall l l' r, Forall2 (kv_rep h X) l l' -> str_items l = Some r -> hstr_items l' = Some r.
Proof.
  intros l l' r F. revert r. induction F as [|[k v] [k' w] l l' [H1 H2] F IH]; intros r E; cbn in *; [exact E|]. subst k'.
  destruct v; try discriminate E. apply rep_vstr in H2. subst w. destruct (str_items l) as [q|]; [|discriminate E]. rewrite (IH q eq_refl). exact E.
Qed.
Lemma to_dval_rep : forall v w d, rep v w -> to_dval v = Some d -> hto_dval w = Some d.
Proof. intros v w d H E. destruct v; try discriminate E; destruct w; try contradiction; cbn in *; subst; exact E. Qed.
Lemma binary_rep : forall op v1 w1 v2 w2 r, rep v1 w1 -> rep v2 w2 -> binary op v1 v2 = Some r -> exists q, hbinary op w1 w2 = Some q /\ rep r q.
Proof.
  intros op v1 w1 v2 w2 r H1 H2 E. destruct op, v1; try discriminate E; destruct v2; try discriminate E; destruct w1; try contradiction; destruct w2; try contradiction; cbn in *; subst.
  - injection E as <-. eexists. split; [reflexivity|]. reflexivity.
  - injection E as <-. eexists. split; [reflexivity|]. reflexivity.
  - injection E as <-. eexists. split; [reflexivity|]. reflexivity.
  - injection E as <-. eexists. split; [reflexivity|]. reflexivity.
  - destruct (Z.gtb z0 0); [|discriminate E]. injection E as <-. eexists. split; [reflexivity|]. reflexivity.
Qed.
Lemma assoc_rep : forall k l l', Forall2 (kv_rep h X) l l' ->
  match assoc k l, assoc k l' with Some v, Some w => rep v w | None, None => True | _, _ => False end.
Proof.
  intros k l l' F. induction F as [|[x v] [y w] l l' [H1 H2] F IH]; [exact Logic.I|]. cbn in H1, H2. subst y. unfold assoc in *. cbn. destruct (str_eqb k x); [exact H2|exact IH].
Qed.
Lemma get_rep : forall k l l', Forall2 (kv_rep h X) l l' ->
  match get k l, get k l' with Some v, Some w => rep v w | None, None => True | _, _ => False end.
Proof.
  intros k l l' F. induction F as [|[x v] [y w] l l' [H1 H2] F IH]; [exact Logic.I|]. cbn in H1, H2. subst y. cbn. destruct (String.eqb k x); [exact H2|exact IH].
Qed.
Lemma set_rep : forall k v w l l', rep v w -> Forall2 (kv_rep h X) l l' -> Forall2 (kv_rep h X) (set k v l) (set k w l').
Proof.
  intros k v w l l' R F. induction F as [|[x v'] [y w'] l l' [H1 H2] F IH]; cbn; [constructor; [split; [reflexivity|exact R]|constructor]|].
  cbn in H1, H2. subst y. destruct (String.eqb k x); constructor; try assumption; split; try reflexivity; assumption.
Qed.
(* literals *)
Fixpoint expr_const_rep (e : expr) {struct e} : forall v, const e = Some v -> exists w, hconst e = Some w /\ rep v w.
Proof.
  intros v E. destruct e; try discriminate E.
  - injection E as <-. eexists. split; [reflexivity|]. reflexivity.
  - injection E as <-. eexists. split; [reflexivity|]. reflexivity.
  - injection E as <-. eexists. split; [reflexivity|]. reflexivity.
  - injection E as <-. eexists. split; [reflexivity|]. exact Logic.I.
  - cbn [const hconst] in *.
    set (F := fix consts (l : list expr) : option (list value) := match l with
      | [] => Some []
      | e :: l' => match const e, consts l' with Some v, Some vs => Some (v :: vs) | _, _ => None end end) in E.
    set (G := fix consts (l : list expr) : option (list hval) := match l with
      | [] => Some []
      | e :: l' => match hconst e, consts l' with Some v, Some vs => Some (v :: vs) | _, _ => None end end).
    assert (K : forall vs, F l = Some vs -> exists ws, G l = Some ws /\ Forall2 rep vs ws).
    { clear E v. induction l as [|e l IH]; intros vs E.
      - injection E as <-. exists []. split; [reflexivity|constructor].
      - cbn in E. destruct (const e) as [v|] eqn:C; [|discriminate E]. destruct (expr_const_rep e v C) as (w & C' & R).
        fold F in E. destruct (F l) as [vs'|]; [|discriminate E]. injection E as <-. destruct (IH vs' eq_refl) as (ws & Q & R').
        exists (w :: ws). split; [cbn; rewrite C'; fold G; rewrite Q; reflexivity|]. constructor; assumption. }
    destruct (F l) as [vs|]; [|discriminate E]. injection E as <-. destruct (K vs eq_refl) as (ws & -> & R). eexists. split; [reflexivity|]. apply rep_list. exists ws. split; [reflexivity|exact R].
Qed.
Lemma find_const_rep : forall b a, match find_const b a with Some v => exists w, hfind_const b a = Some w /\ rep v w | None => True end.
Proof.
  intros b a. destruct (find_const b a) as [v|] eqn:E; [|exact Logic.I]. revert v E. induction b as [|c b IH]; intros v E; [discriminate E|].
  destruct c; try exact (IH v E). destruct target; try exact (IH v E). cbn in *. destruct (String.eqb a x); [exact (expr_const_rep _ v E)|exact (IH v E)].
Qed.
End Shapes.
Lemma const_none : forall e, const e = None -> hconst e = None.
Proof.
  fix IH 1. intros e E. destruct e; try discriminate E; try reflexivity. cbn [const hconst] in *. revert E.
  set (F := fix consts (l : list expr) : option (list value) := match l with
      | [] => Some []
      | e :: l' => match const e, consts l' with Some v, Some vs => Some (v :: vs) | _, _ => None end end).
  set (G := fix consts (l : list expr) : option (list hval) := match l with
      | [] => Some []
      | e :: l' => match hconst e, consts l' with Some v, Some vs => Some (v :: vs) | _, _ => None end end).
  intro E. assert (K : F l = None -> G l = None).
  { clear E. induction l as [|e l IHl]; intro E; [discriminate E|]. cbn in *. fold F in E. fold G. destruct (const e) as [v|] eqn:C.
    - destruct (F l); [discriminate E|]. rewrite (IHl eq_refl). destruct (hconst e); reflexivity.
    - rewrite (IH e C). reflexivity. }
  destruct (F l); [discriminate E|]. rewrite (K eq_refl). reflexivity.
Qed.
Lemma find_const_none : forall b a, find_const b a = None -> hfind_const b a = None.
Proof.
  induction b as [|c b IH]; intros a E; [reflexivity|]. destruct c; try exact (IH a E). destruct target; try exact (IH a E). cbn in *. destruct (String.eqb a x); [exact (const_none _ E)|exact (IH a E)].
Qed.
