(* PyHeap.v does what PyEval.v does, expressions: evaluating them in corresponding states. *)
From Coq Require Import List String Ascii NArith ZArith Bool Lia.
From Verif Require Import PyBase PyRepr Json Record Api Utf8 PySyntax PyEval SrcCheck PyHeap HeapRep HeapCheck HeapInv.
Import ListNotations.
Open Scope string_scope.
Open Scope list_scope.
Local Open Scope nat_scope.

Lemma has_app : forall a b x, has (a ++ b) x = has a x || has b x.
Proof. intros. unfold has. apply existsb_app. Qed.
Lemma hbind_assoc : forall A B D (r : hres A) (f : A -> hst -> hres B) (g : B -> hst -> hres D), hbind (hbind r f) g = hbind r (fun a s => hbind (f a s) g).
Proof. intros. destruct r; reflexivity. Qed.

Section Sim.
Variable prog : list (string * pymodule).
Variable files : disk.
Variable hg : list (string * string * hval).
Hypothesis ok : prog_ok prog = true.
Notation base := (base prog hg).
Notation arg_in := (arg_in hg).
Notation G := (G hg).
Notation gn := (gn prog).

Lemma base_weaken : forall (X X' : nat -> Prop) s s' hs hs', base X' s hs -> (forall a, X a -> X' a) -> (forall a, G a -> X a) ->
  out s' = out s -> glob s' = glob s -> hout hs' = hout hs -> hglob hs' = hglob hs -> heap hs' = heap hs -> base X s' hs'.
Proof.
  intros X X' s s' hs hs' [b1 b2 b3 b4 b5 b6] XX GX E1 E2 E3 E4 E5. constructor; try congruence; try assumption.
  - intros n x. rewrite E2. specialize (b3 n x). destruct (get_glob n x (glob s)) as [v|]; [|exact b3]. destruct b3 as (a & o & K1 & K2 & K3 & K4 & K5). exists a, o. unfold at_ in *. rewrite E5.
    repeat split; try assumption; try apply K5. eapply obj_move; [|exact K4]. intros b N L. split; [reflexivity|]. intro H. exact (N (XX b H)).
  - intros a H. rewrite E5. apply b5. apply XX. exact H.
Qed.

(* ---- running functions; the address of self, if it may be changed ---- *)
Definition is_self (self : option nat) (a : nat) : Prop := self = Some a.
Definition callee (X : nat -> Prop) (self : option nat) (kd : kind) (args : list value) (hargs : list hval) (hs : hst) : Prop :=
  match self with
  | None => kd = KRef /\ Forall2 (arg_in (heap hs) X) args hargs
  | Some r => kd = KSelf /\ exists v0 rest hrest o, args = v0 :: rest /\ hargs = HRef r :: hrest /\ mutable v0 = true /\ at_ hs r = Some o /\
      obj_rep (heap hs) X v0 o /\ X r /\ ~ G r /\ Forall2 (fun v w => arg_in (heap hs) X v w /\ w <> HRef r) rest hrest
  end.
Record after (X : nat -> Prop) (self : option nat) (ps : list (string * option expr)) (hs : hst) (X' : nat -> Prop) (s' : st) (hs' : hst) : Prop := {
  a_base : base X' s' hs';
  a_ext : ext X X' (List.length (heap hs));
  a_hloc : hloc hs' = hloc hs;
  a_frame : frame (fun a => G a \/ is_self self a) hs hs';
  a_self : match self with
           | Some r => exists v' o', self_value ps s' = Some v' /\ mutable v' = true /\ at_ hs' r = Some o' /\ obj_rep (heap hs') X' v' o'
           | None => True
           end }.
Definition run_ok (n : nat) : Prop := forall m ps body kd args hargs X self s hs kx k,
  fn_ok gn (flat_map bound (module_body prog m)) ps body = true ->
  base X s hs -> callee X self kd args hargs hs ->
  going (run prog files n m ps body kd args s kx k) ->
  match hrun prog files n m ps body hargs hs with
  | HOk w hs' => exists v s' X', run prog files n m ps body kd args s kx k = k v s' /\ rep (heap hs') X' v w /\ after X self ps hs X' s' hs'
  | HRaise e hs' => exists s' X', run prog files n m ps body kd args s kx k = kx e s' /\ after X self ps hs X' s' hs'
  | HStuck _ => False
  end.

Variable n : nat.
Hypothesis RUN : run_ok n.
Notation R := (run prog files n).
Notation HR := (hrun prog files n).

Section Fn.
Variable m : string.
Variable lv pn : list string.
Hypothesis lv_ok : none_of lv (flat_map bound (module_body prog m) ++ builtins) = true.
Notation Inv := (Inv prog hg lv pn).

(* ---- steps ---- *)
Definition owner (s : st) (hs : hst) (y : string) (a : nat) : Prop :=
  exists kd v, get y (loc s) = Some (kd, v) /\ writable kd = true /\ get y (hloc hs) = Some (HRef a).
Definition may (C : nat -> Prop) (T : list string) (s : st) (hs : hst) (a : nat) : Prop := C a /\ (G a \/ exists y, has T y = true /\ owner s hs y a).
Record estep (X C : nat -> Prop) (T : list string) (s : st) (hs : hst) (s' : st) (hs' : hst) : Prop := {
  e_inv : Inv X C s' hs';
  e_hloc : hloc hs' = hloc hs;
  e_kinds : forall y, option_map fst (get y (loc s')) = option_map fst (get y (loc s));
  e_frame : frame (may C T s hs) hs hs' }.
Lemma owner_back : forall s hs s' hs' y a, hloc hs' = hloc hs -> (forall y, option_map fst (get y (loc s')) = option_map fst (get y (loc s))) -> owner s' hs' y a -> owner s hs y a.
Proof.
  intros s hs s' hs' y a E K (kd & v & Q & W & H). specialize (K y). rewrite Q in K. destruct (get y (loc s)) as [[kd' v']|] eqn:Q'; [|discriminate K]. injection K as <-.
  exists kd, v'. split; [exact Q'|]. split; [exact W|]. rewrite <- E. exact H.
Qed.
Lemma estep_refl : forall X C T s hs, Inv X C s hs -> estep X C T s hs s hs.
Proof. intros. constructor; try reflexivity; [assumption|apply frame_refl]. Qed.
Lemma estep_mono : forall X C T T' s hs s' hs', estep X C T s hs s' hs' -> (forall y, has T y = true -> has T' y = true) -> estep X C T' s hs s' hs'.
Proof.
  intros X C T T' s hs s' hs' [e1 e2 e3 e4] M. constructor; try assumption. eapply frame_mono; [exact e4|]. intros a [H1 [H2|(y & H2 & H3)]]; split; try assumption; [left; assumption|right].
  exists y. split; [exact (M y H2)|exact H3].
Qed.
Lemma estep_trans : forall X C T s hs s1 hs1 s2 hs2, estep X C T s hs s1 hs1 -> estep X C T s1 hs1 s2 hs2 -> estep X C T s hs s2 hs2.
Proof.
  intros X C T s hs s1 hs1 s2 hs2 [e1 e2 e3 e4] [f1 f2 f3 f4]. constructor; try assumption.
  - congruence.
  - intro y. rewrite f3. apply e3.
  - eapply frame_trans; [exact e4|exact f4|auto|]. intros a [H1 H2]. left. split; [exact H1|]. destruct H2 as [H2|(y & H2 & H3)]; [left; exact H2|right]. exists y. split; [exact H2|].
    eapply owner_back; eassumption.
Qed.
Lemma estep_agree : forall X C T s hs s' hs', Inv X C s hs -> estep X C T s hs s' hs' -> agree (heap hs) X (heap hs') X.
Proof.
  intros X C T s hs s' hs' I E. eapply frame_agree; [exact (e_frame _ _ _ _ _ _ _ E)| |left; assumption]. intros a [H _]. exact (i_CX _ _ _ _ _ _ _ _ I a H).
Qed.

(* an answer of the first interpreter and one of the second *)
Definition sim {A B} (X C : nat -> Prop) (T : list string) (s : st) (hs : hst) (Q : A -> B -> st -> hst -> Prop)
    (r : hres B) (kx : exc -> st -> ans) (k : A -> st -> ans) (a : ans) : Prop :=
  match r with
  | HOk w hs' => exists v s', a = k v s' /\ estep X C T s hs s' hs' /\ Q v w s' hs'
  | HRaise e hs' => exists s', a = kx e s' /\ estep X C T s hs s' hs'
  | HStuck _ => False
  end.
Lemma sim_bind : forall A1 B1 A2 B2 X C T1 T2 T s hs (Q1 : A1 -> B1 -> st -> hst -> Prop) (Q2 : A2 -> B2 -> st -> hst -> Prop) (r : hres B1) (f : B1 -> hst -> hres B2) kx k1 k2 a,
  going a -> (going a -> sim X C T1 s hs Q1 r kx k1 a) ->
  (forall y, has T1 y = true -> has T y = true) -> (forall y, has T2 y = true -> has T y = true) ->
  (forall v w s1 hs1, estep X C T1 s hs s1 hs1 -> Q1 v w s1 hs1 -> going (k1 v s1) -> sim X C T2 s1 hs1 Q2 (f w hs1) kx k2 (k1 v s1)) ->
  sim X C T s hs Q2 (hbind r f) kx k2 a.
Proof.
  intros A1 B1 A2 B2 X C T1 T2 T s hs Q1 Q2 r f kx k1 k2 a Go S1 M1 M2 S2. specialize (S1 Go). destruct r as [w hs1|e hs1|why]; cbn [hbind].
  - destruct S1 as (v & s1 & -> & E & Q). specialize (S2 v w s1 hs1 E Q Go). destruct (f w hs1) as [w2 hs2|e hs2|why].
    + destruct S2 as (v2 & s2 & E2 & E3 & Q'). exists v2, s2. split; [exact E2|]. split; [|exact Q']. eapply estep_trans; eapply estep_mono; eassumption.
    + destruct S2 as (s2 & E2 & E3). exists s2. split; [exact E2|]. eapply estep_trans; eapply estep_mono; eassumption.
    + exact S2.
  - destruct S1 as (s1 & E2 & E). exists s1. split; [exact E2|]. eapply estep_mono; eassumption.
  - exact S1.
Qed.
Lemma sim_ok : forall A B X C T s hs (Q : A -> B -> st -> hst -> Prop) v w kx k, Inv X C s hs -> Q v w s hs -> sim X C T s hs Q (HOk w hs) kx k (k v s).
Proof. intros A B X C T s hs Q v w kx k I H. exists v, s. split; [reflexivity|]. split; [apply estep_refl; exact I|exact H]. Qed.
Lemma sim_raise : forall A B X C T s hs (Q : A -> B -> st -> hst -> Prop) e kx k, Inv X C s hs -> sim X C T s hs Q (HRaise e hs) kx k (kx e s).
Proof. intros A B X C T s hs Q e kx k I. exists s. split; [reflexivity|]. apply estep_refl; exact I. Qed.
Lemma sim_mono : forall A B X C T T' s hs (Q Q' : A -> B -> st -> hst -> Prop) r kx k a, sim X C T s hs Q r kx k a -> (forall y, has T y = true -> has T' y = true) ->
  (forall v w s' hs', estep X C T s hs s' hs' -> Q v w s' hs' -> Q' v w s' hs') -> sim X C T' s hs Q' r kx k a.
Proof.
  intros A B X C T T' s hs Q Q' r kx k a S M QQ. destruct r; cbn in *.
  - destruct S as (v & s' & E & E2 & H). exists v, s'. split; [exact E|]. split; [eapply estep_mono; eassumption|eapply QQ; eassumption].
  - destruct S as (s' & E & E2). exists s'. split; [exact E|]. eapply estep_mono; eassumption.
  - exact S.
Qed.

(* a new object that nothing else leads to *)
Definition newobj (L : nat) (X C : nat -> Prop) (v : value) (w : hval) (s : st) (hs : hst) : Prop :=
  exists a o, w = HRef a /\ at_ hs a = Some o /\ L <= a /\ ~ X a /\ obj_rep (heap hs) (add X a) v o /\ Inv (add X a) (add C a) s hs.
Lemma newobj_rep : forall L X C v w s hs, mutable v = true -> newobj L X C v w s hs -> rep (heap hs) X v w.
Proof.
  intros L X C v w s hs M (a & o & -> & E & _ & N & O & _). apply rep_mutable; [exact M|]. exists a, o. split; [reflexivity|]. split; [exact N|]. split; [exact E|].
  eapply obj_move; [|exact O]. intros b Nb Lb. split; [reflexivity|]. intro H. apply Nb. left. exact H.
Qed.
Lemma newobj_le : forall L L' X C v w s hs, L' <= L -> newobj L X C v w s hs -> newobj L' X C v w s hs.
Proof. intros L L' X C v w s hs H (a & o & E & K1 & K2 & K3). exists a, o. split; [exact E|]. split; [exact K1|]. split; [lia|exact K3]. Qed.
(* what a call or display gives *)
Definition gives (L : nat) (X C : nat -> Prop) (maker : st -> bool) (v : value) (w : hval) (s : st) (hs : hst) : Prop :=
  rep (heap hs) X v w /\ (maker s = true -> mutable v = true -> newobj L X C v w s hs).
Lemma gives_plain : forall L X C mk v w s hs, mutable v = false -> rep (heap hs) X v w -> gives L X C mk v w s hs.
Proof. intros L X C mk v w s hs M H. split; [exact H|]. intros _ M'. congruence. Qed.
Lemma sim_new : forall X C T s hs mk kx k v o, Inv X C s hs -> mutable v = true -> obj_rep (heap hs) X v o ->
  sim X C T s hs (gives (List.length (heap hs)) X C mk) (hnew o hs (fun a s => HOk (HRef a) s)) kx k (k v s).
Proof.
  intros X C T s hs mk kx k v o I M O. unfold hnew. cbn [sim]. exists v, s. split; [reflexivity|]. set (a := List.length (heap hs)).
  assert (Na : ~ X a) by (intro H; pose proof (b_hot _ _ _ _ _ (i_base _ _ _ _ _ _ _ _ I) a H); unfold a in *; lia).
  assert (NO : newobj a X C v (HRef a) s (halloc o hs)).
  { exists a, o. split; [reflexivity|]. split; [apply at_new|]. split; [lia|]. split; [exact Na|]. split; [|apply Inv_new_hot; exact I].
    eapply obj_move; [|exact O]. eapply frame_agree; [apply (frame_new o hs (fun _ => False))|contradiction|]. intros b [H|H]; [left; exact H|right; unfold a in H; lia]. }
  split.
  - constructor; try reflexivity; [apply Inv_new; exact I|apply frame_new].
  - split; [eapply newobj_rep; eassumption|]. intros _ _. exact NO.
Qed.
Lemma arg_rep : forall h (X : nat -> Prop) v w, (forall a, G a -> X a) -> rep h X v w -> arg_in h X v w.
Proof.
  intros h X v w GX H. unfold HeapInv.arg_in. destruct (mutable v) eqn:M; [|exact H]. apply rep_mutable in H; [|exact M]. destruct H as (a & o & -> & H1 & H2 & H3). exists a, o. repeat split; try assumption. intro K. exact (H1 (GX a K)).
Qed.
Lemma arg_held : forall h X v w, arg_in h X v w -> held h X v w.
Proof. intros h X v w H. unfold HeapInv.arg_in, held in *. destruct (mutable v); [|exact H]. destruct H as (a & o & H1 & H2 & H3 & _). exists a, o. repeat split; assumption. Qed.
Lemma rep_held : forall h X v w, rep h X v w -> held h X v w.
Proof. intros h X v w H. unfold held. destruct (mutable v) eqn:M; [|exact H]. apply rep_mutable in H; [|exact M]. destruct H as (a & o & E & _ & H2 & H3). exists a, o. repeat split; assumption. Qed.

(* ---- operations on operands ---- *)
Lemma truth_rep : forall hs X v w b, rep (heap hs) X v w -> truth v = Some b -> htruth hs w = Some b.
Proof.
  intros hs X v w b H E. destruct v; try discriminate E.
  - destruct w; try contradiction. exact E.
  - apply rep_vbool in H. subst w. exact E.
  - apply rep_vint in H. subst w. exact E.
  - apply rep_vstr in H. subst w. exact E.
  - apply rep_list in H. destruct H as (l' & -> & F). inversion F; subst; exact E.
  - apply rep_tuple in H. destruct H as (l' & -> & F). inversion F; subst; exact E.
  - apply rep_mutable in H; [|reflexivity]. destruct H as (a & o & -> & _ & K & O). unfold htruth, at_. rewrite K. destruct o; try contradiction. exact E.
Qed.
Lemma eq_rep : forall hs X v1 w1 v2 w2 b, rep (heap hs) X v1 w1 -> held (heap hs) X v2 w2 -> py_eq v1 v2 = Some b -> heq hs w1 w2 = Some b.
Proof.
  intros hs X v1 w1 v2 w2 b H1 H2 E. destruct v1; try discriminate E; destruct v2; try discriminate E; unfold held in H2; cbn [mutable] in H2.
  - apply rep_vbool in H1, H2. subst. exact E.
  - apply rep_vint in H1, H2. subst. exact E.
  - apply rep_vstr in H1, H2. subst. exact E.
  - apply rep_mutable in H1; [|reflexivity]. destruct H1 as (a & o & -> & _ & K & O). apply rep_vint in H2. subst. unfold heq, at_. rewrite K. destruct o; try contradiction. exact E.
Qed.
Lemma in_rep : forall hs X v1 w1 v2 w2 b, rep (heap hs) X v1 w1 -> held (heap hs) X v2 w2 -> py_in v1 v2 = Some b -> hin hs w1 w2 = Some b.
Proof.
  intros hs X v1 w1 v2 w2 b H1 H2 E. destruct v1; try discriminate E. apply rep_vstr in H1. subst. destruct v2; try discriminate E; unfold held in H2; cbn [mutable] in H2.
  - apply rep_vstr in H2. subst. exact E.
  - apply rep_list in H2. destruct H2 as (l' & -> & F). exact (in_list_rep _ _ _ _ _ _ F E).
  - destruct H2 as (a & o & -> & K & O). unfold hin, at_. rewrite K. destruct o; try contradiction. destruct O as [_ O]. pose proof (assoc_rep _ _ s _ _ O) as Q. cbn in E.
    destruct (assoc s items), (assoc s items0); try contradiction; exact E.
Qed.
Lemma compare_rep : forall hs X op v1 w1 v2 w2 b, rep (heap hs) X v1 w1 -> held (heap hs) X v2 w2 -> compare op v1 v2 = Some b -> hcompare hs op w1 w2 = Some b.
Proof.
  intros hs X op v1 w1 v2 w2 b H1 H2 E. destruct op; cbn [compare hcompare] in *.
  - eapply eq_rep; eassumption.
  - destruct (py_eq v1 v2) eqn:Q; [|discriminate E]. rewrite (eq_rep _ _ _ _ _ _ _ H1 H2 Q). exact E.
  - destruct v1; try discriminate E; destruct v2; try discriminate E. unfold held in H2; cbn [mutable] in H2. apply rep_vint in H1, H2. subst. exact E.
  - destruct v1; try discriminate E; destruct v2; try discriminate E. unfold held in H2; cbn [mutable] in H2. apply rep_vint in H1, H2. subst. exact E.
  - assert (V : exists y, v2 = VBool y) by (destruct v2; destruct v1; try discriminate E; eexists; reflexivity). destruct V as (y & ->). unfold held in H2; cbn [mutable] in H2. apply rep_vbool in H2. subst w2.
    destruct v1; destruct w1; try contradiction; try exact E. cbn in H1. subst. exact E.
  - eapply in_rep; eassumption.
  - destruct (py_in v1 v2) eqn:Q; [|discriminate E]. rewrite (in_rep _ _ _ _ _ _ _ H1 H2 Q). exact E.
Qed.
Lemma inst_attr_rep : forall h X c q attrs attrs' a, Forall2 (kv_rep h X) attrs attrs' ->
  match inst_attr prog c q attrs a with Some v => exists w, hinst_attr prog c q attrs' a = Some w /\ rep h X v w | None => hinst_attr prog c q attrs' a = None end.
Proof.
  intros h X c q attrs attrs' a F. unfold inst_attr, hinst_attr. pose proof (get_rep h X a _ _ F) as Gr. destruct (get a attrs) as [v|], (get a attrs') as [w|]; try contradiction.
  - exists w. split; [reflexivity|exact Gr].
  - destruct (find_const (class_body prog c q) a) as [v|] eqn:E; [|exact (find_const_none _ _ E)]. pose proof (find_const_rep h X (class_body prog c q) a) as K. rewrite E in K. exact K.
Qed.
Lemma getattr_rep : forall X s hs v w a r, base X s hs -> held (heap hs) X v w -> negb (has gn a) = true -> getattr prog v a s = Some r ->
  exists q, hgetattr prog w a hs = Some q /\ rep (heap hs) X r q.
Proof.
  intros X s hs v w a r B H Na E. destruct v; try discriminate E; unfold held in H; cbn [mutable] in H; cbn [getattr] in E.
  - apply rep_vstr in H. subst w. cbn. destruct (String.eqb a "__contains__"); [|discriminate E]. injection E as <-. eexists. split; reflexivity.
  - apply rep_vmod in H. subst w. destruct (mod_attr_rep prog hg X s hs _ a r B E) as (w & E1 & E2 & E3). exists w. split; [exact E1|]. unfold held in E2. destruct (mutable r); [|exact E2].
    apply negb_true_iff in Na. pose proof (proj2 (has_in _ _) (E3 eq_refl)). congruence.
  - destruct H as (b & o & -> & K & O). destruct o; try contradiction. destruct O as (<- & <- & O). cbn. unfold at_. rewrite K. pose proof (inst_attr_rep (heap hs) X m0 c _ _ a O) as Q. rewrite E in Q. exact Q.
  - destruct w; try contradiction. cbn in H. subst. cbn. destruct (String.eqb a "name"); [|discriminate E]. injection E as <-. eexists. split; reflexivity.
Qed.
Lemma format_one_rep : forall h X spec v w t, arg_in h X v w -> format_one spec v = Some t -> hformat_one spec w = Some t.
Proof.
  intros h X spec v w t H E. unfold format_one, hformat_one in *. destruct (String.eqb spec "").
  - assert (M : mutable v = false) by (destruct v; try reflexivity; discriminate E). unfold HeapInv.arg_in in H. rewrite M in H. eapply show_rep; eassumption.
  - destruct v; try discriminate E; unfold HeapInv.arg_in in H; cbn [mutable] in H.
    + apply rep_vint in H. subst w. exact E.
    + apply rep_vfloat in H. subst w. exact E.
Qed.
Lemma format_rep : forall h X t vs ws r, Forall2 (arg_in h X) vs ws -> format t vs = Some r -> hformat t ws = Some r.
Proof.
  intros h X t vs ws r F E. unfold format, hformat in *. destruct (format_pieces (pieces t "") vs) as [q|] eqn:Q; [|discriminate E].
  assert (K : forall ps vs ws q, Forall2 (arg_in h X) vs ws -> format_pieces ps vs = Some q -> hformat_pieces ps ws = Some q).
  { clear. induction ps as [|[x|spec] ps IH]; intros vs ws q F E.
    - destruct vs; [|discriminate E]. inversion F; subst. exact E.
    - cbn in E |- *. destruct (format_pieces ps vs) as [q'|] eqn:Q; [|destruct vs; discriminate E]. rewrite (IH _ _ _ F Q). destruct vs; inversion F; subst; exact E.
    - destruct vs as [|v vs]; [discriminate E|]. inversion F as [|? w ? ws' H F']; subst. cbn in E |- *. destruct (format_one spec v) as [t|] eqn:O; [|discriminate E]. rewrite (format_one_rep _ _ _ _ _ _ H O).
      destruct (format_pieces ps vs) as [q'|] eqn:Q; [|discriminate E]. rewrite (IH _ _ _ F' Q). exact E. }
  rewrite (K _ _ _ _ F Q). exact E.
Qed.

(* ---- Python's library ---- *)
Lemma arg_imm : forall h X v w, mutable v = false -> arg_in h X v w -> rep h X v w.
Proof. intros h X v w M H. unfold HeapInv.arg_in in H. rewrite M in H. exact H. Qed.
Lemma arg_str : forall h X t w, arg_in h X (VStr t) w -> w = HStr t.
Proof. intros h X t w H. apply arg_imm in H; [|reflexivity]. apply rep_vstr in H. exact H. Qed.
Lemma args_one : forall h X v ws, Forall2 (arg_in h X) [v] ws -> exists w, ws = [w] /\ arg_in h X v w.
Proof. intros h X v ws F. inversion F as [|? w ? l H F']; subst. inversion F'; subst. exists w. split; [reflexivity|exact H]. Qed.
Lemma args_two : forall h X v u ws, Forall2 (arg_in h X) [v; u] ws -> exists w x, ws = [w; x] /\ arg_in h X v w /\ arg_in h X u x.
Proof. intros h X v u ws F. inversion F as [|? w ? l H F']; subst. apply args_one in F'. destruct F' as (x & -> & H'). exists w, x. repeat split; assumption. Qed.
Lemma frame_emit : forall P ev hs, frame P hs (hemit ev hs).
Proof. intros P ev hs. split; [cbn; lia|reflexivity]. Qed.
Lemma sim_emit : forall X C T s hs mk ev kx k L, Inv X C s hs -> sim X C T s hs (gives L X C mk) (HOk HNone (hemit ev hs)) kx k (k VNone (emit_ev ev s)).
Proof.
  intros X C T s hs mk ev kx k L I. exists VNone, (emit_ev ev s). split; [reflexivity|]. split; [|apply gives_plain; [reflexivity|exact Logic.I]]. constructor; try reflexivity; [apply Inv_emit; exact I|apply frame_emit].
Qed.
Lemma sim_plain : forall X C T s hs mk v w kx k L, Inv X C s hs -> mutable v = false -> rep (heap hs) X v w -> sim X C T s hs (gives L X C mk) (HOk w hs) kx k (k v s).
Proof. intros. apply sim_ok; [assumption|]. apply gives_plain; assumption. Qed.
Lemma entries_rep : forall h X ns, Forall2 (rep h X) (map VEntry ns) (map HEntry ns).
Proof. intros h X ns. induction ns; cbn; constructor; [reflexivity|assumption]. Qed.
Lemma lines_rep : forall h X ns, Forall2 (rep h X) (map VStr ns) (map HStr ns).
Proof. intros h X ns. induction ns; cbn; constructor; [reflexivity|assumption]. Qed.

Definition all_makers (s : st) : bool := true.
Lemma prim_plain_sim : forall X C s hs q f args hargs kx k, Inv X C s hs -> Forall2 (arg_in (heap hs) X) args hargs -> (q =? "builtins")%string && (f =? "hasattr")%string = false ->
  going (prim files q f args [] s kx k) ->
  sim X C [] s hs (gives (List.length (heap hs)) X C all_makers) (hprim prog files q f hargs [] hs) kx k (prim files q f args [] s kx k).
Proof.
  intros X C s hs q f args hargs kx k I F NH. unfold prim, hprim. rewrite NH.
  destruct ((q =? "builtins")%string && (f =? "print")%string).
  { destruct args as [|v [|]]; try contradiction; [|destruct v; try contradiction; destruct left; contradiction]. apply args_one in F. destruct F as (w & -> & H). destruct v; try contradiction; intro Go.
    - apply arg_str in H. subst w. apply sim_emit. exact I.
    - destruct left; [|contradiction]. destruct H as (a & o & -> & K & O & _). unfold at_. rewrite K. destruct o; try contradiction. destruct O as [<- <-]. apply sim_emit. exact I.
    - destruct w; try contradiction. destruct H as [<- <-]. apply sim_emit. exact I. }
  destruct ((q =? "builtins")%string && (f =? "len")%string).
  { destruct args as [|v [|]]; try contradiction; [|destruct v; contradiction]. apply args_one in F. destruct F as (w & -> & H). destruct v; try contradiction; intro Go. apply arg_str in H. subst w. apply sim_plain; [exact I|reflexivity|reflexivity]. }
  destruct ((q =? "builtins")%string && (f =? "int")%string).
  { destruct args as [|v [|]]; try contradiction; [|destruct v; contradiction]. apply args_one in F. destruct F as (w & -> & H). destruct v; try contradiction; intro Go. apply arg_str in H. subst w.
    destruct (py_int s0); [apply sim_plain; [exact I|reflexivity|reflexivity]|apply sim_raise; exact I]. }
  destruct ((q =? "builtins")%string && (f =? "float")%string).
  { destruct args as [|v [|]]; try contradiction; [|destruct v; contradiction]. apply args_one in F. destruct F as (w & -> & H). destruct v; try contradiction; intro Go. apply arg_str in H. subst w.
    destruct (py_float s0); [apply sim_plain; [exact I|reflexivity|reflexivity]|apply sim_raise; exact I]. }
  destruct ((q =? "builtins")%string && (f =? "str")%string).
  { destruct args as [|v [|]]; try contradiction. apply args_one in F. destruct F as (w & -> & H). destruct (show v) as [t|] eqn:E; [|contradiction]. intro Go.
    assert (M : mutable v = false) by (destruct v; try reflexivity; discriminate E). apply arg_imm in H; [|exact M]. rewrite (show_rep _ _ _ _ _ H E). apply sim_plain; [exact I|reflexivity|reflexivity]. }
  destruct ((q =? "builtins")%string && (f =? "exit")%string).
  { destruct args; try contradiction. inversion F; subst. intro Go. apply sim_raise. exact I. }
  destruct ((q =? "builtins")%string && (f =? "ValueError")%string).
  { intro Go. replace (match hargs with [HStr t] => Some t | _ => None end) with (match args with [VStr t] => Some t | _ => None end); [apply sim_plain; [exact I|reflexivity|reflexivity]|].
    destruct args as [|v [|u args]]; [inversion F; subst; reflexivity| |].
    - apply args_one in F. destruct F as (w & -> & H). destruct v; try (destruct w; try reflexivity; cbn in H; try contradiction; try destruct H as (? & ? & H & _); discriminate H).
      apply arg_str in H. subst. reflexivity.
    - inversion F as [|? w ? l H F']; subst. inversion F' as [|? x ? l' H' F'']; subst. destruct v, w; reflexivity. }
  destruct ((q =? "builtins")%string && (f =? "isinstance")%string).
  { destruct args as [|v [|u args]]; try contradiction. destruct u; try contradiction.
    assert (K : forall w, arg_in (heap hs) X v w -> (match v with VStr _ => true | _ => false end) = (match w with HStr _ => true | _ => false end) /\ (match v with VList _ => true | _ => false end) = (match w with HList _ => true | _ => false end)).
    { intros w H. destruct v; try (destruct w; try contradiction; split; reflexivity); destruct H as (? & ? & -> & _); split; reflexivity. }
    inversion F as [|? w ? l H F']; subst. inversion F' as [|? x ? l' H' F'']; subst. apply arg_imm in H'; [|reflexivity]. apply rep_vprim in H'. subst x. destruct (K w H) as [K1 K2]. clear K H.
    intro Go. revert Go.
    repeat match goal with |- context [match ?t with _ => _ end] => is_var t; (match type of t with string => destruct t | ascii => destruct t | bool => destruct t end); try contradiction end.
    - destruct args; [|contradiction]. inversion F''; subst. intro Go. rewrite K1. apply sim_plain; [exact I|reflexivity|reflexivity].
    - destruct args; [|contradiction]. inversion F''; subst. intro Go. rewrite K2. apply sim_plain; [exact I|reflexivity|reflexivity]. }
  destruct ((q =? "builtins")%string && (f =? "all")%string).
  { destruct args as [|v [|]]; try contradiction; [|destruct v; contradiction]. apply args_one in F. destruct F as (w & -> & H). destruct v; try contradiction. apply arg_imm in H; [|reflexivity]. apply rep_list in H. destruct H as (l' & -> & H).
    destruct (all_true l) as [b|] eqn:E; [|contradiction]. intro Go. rewrite (all_true_rep _ _ _ _ _ H E). apply sim_plain; [exact I|reflexivity|reflexivity]. }
  destruct ((q =? "builtins")%string && (f =? "map")%string).
  { destruct args as [|v [|u [|]]]; try contradiction; try (destruct v; try contradiction; destruct u; contradiction).
    apply args_two in F. destruct F as (w & x & -> & H & H'). destruct v; try contradiction. destruct u; try contradiction. apply arg_imm in H; [|reflexivity]. destruct w; try contradiction. cbn in H. subst s1.
    apply arg_imm in H'; [|reflexivity]. apply rep_list in H'. destruct H' as (l' & -> & H'). destruct (map_contains s0 l) as [r|] eqn:E; [|contradiction]. intro Go.
    destruct (map_contains_rep _ _ _ _ _ _ H' E) as (r' & -> & K). apply sim_plain; [exact I|reflexivity|]. apply rep_list. exists r'. split; [reflexivity|exact K]. }
  destruct ((q =? "builtins")%string && (f =? "open")%string).
  { destruct args as [|v [|]]; try contradiction; [|destruct v; contradiction]. apply args_one in F. destruct F as (w & -> & H). destruct v; try contradiction; intro Go. apply arg_str in H. subst w.
    destruct (contents files s0) as [bs|e]; [apply sim_new; [exact I|reflexivity|reflexivity]|apply sim_raise; exact I]. }
  destruct ((q =? "collections")%string && (f =? "defaultdict")%string).
  { destruct args as [|v [|]]; try contradiction; [|destruct v; contradiction]. apply args_one in F. destruct F as (w & -> & H). destruct v; try contradiction; intro Go. apply arg_imm in H; [|reflexivity]. apply rep_vfun in H. subst w.
    apply sim_new; [exact I|reflexivity|]. split; [split; reflexivity|constructor]. }
  destruct ((q =? "io")%string && (f =? "StringIO")%string).
  { destruct args; try contradiction. inversion F; subst. intro Go. apply sim_new; [exact I|reflexivity|reflexivity]. }
  destruct ((q =? "json")%string && (f =? "dumps")%string).
  { destruct args as [|v [|]]; try contradiction; [|destruct v; try contradiction; destruct factory; contradiction]. apply args_one in F. destruct F as (w & -> & H). destruct v; try contradiction. destruct factory; [contradiction|].
    destruct (str_items items) as [d|] eqn:E; [|contradiction]. intro Go. destruct H as (a & o & -> & K & O & _). unfold at_. rewrite K. destruct o; try contradiction. destruct O as [O1 O2]. destruct factory; [contradiction|].
    rewrite (str_items_rep _ _ _ _ _ O2 E). apply sim_plain; [exact I|reflexivity|reflexivity]. }
  destruct ((q =? "termcolor")%string && (f =? "colored")%string).
  { destruct args as [|v [|u [|]]]; try contradiction; try (destruct v; try contradiction; destruct u; contradiction).
    apply args_two in F. destruct F as (w & x & -> & H & H'). destruct v; try contradiction. destruct u; try contradiction. apply arg_str in H, H'. subst. intro Go. apply sim_plain; [exact I|reflexivity|split; reflexivity]. }
  destruct ((q =? "os")%string && (f =? "scandir")%string).
  { destruct args as [|v [|]]; try contradiction; [|destruct v; contradiction]. apply args_one in F. destruct F as (w & -> & H). destruct v; try contradiction; intro Go. apply arg_str in H. subst w.
    destruct (entries files s0) as [ns|e]; [|apply sim_raise; exact I]. apply sim_plain; [exact I|reflexivity|]. apply rep_list. eexists. split; [reflexivity|apply entries_rep]. }
  destruct ((q =? "os.path")%string && (f =? "join")%string).
  { destruct args as [|v [|u [|]]]; try contradiction; try (destruct v; try contradiction; destruct u; contradiction).
    apply args_two in F. destruct F as (w & x & -> & H & H'). destruct v; try contradiction. destruct u; try contradiction. apply arg_str in H, H'. subst. intro Go. apply sim_plain; [exact I|reflexivity|reflexivity]. }
  contradiction.
Qed.
End Fn.
End Sim.
