(* Files are closed: whatever a program whose open stands only at the head of with statements does, afterwards no file is
   open that was not open before. *)
From Coq Require Import List String Ascii NArith ZArith Bool Arith Lia.
From Verif Require Import PyBase PyRepr Json Record Api Utf8 PySyntax PyEval SrcCheck PyHeap PyCrash CrashProps.
Import ListNotations.
Open Scope string_scope.
Open Scope list_scope.
Local Open Scope nat_scope.

(* ---- the text: the name open is used only in  with open(...) as x ---- *)
Fixpoint no_open (e : expr) : bool :=
  match e with
  | EStr _ | EInt _ | EBool _ | ENone => true
  | EName x => negb (String.eqb x "open")
  | EAttr e _ | ENeg e | ENot e => no_open e
  | EItem a b | EBin _ a b | EAnd a b | EOr a b | ECmp _ a b => no_open a && no_open b
  | ESlice c lo hi => no_open c && match lo with Some e => no_open e | None => true end && match hi with Some e => no_open e | None => true end
  | ECall f args kws => no_open f && forallb no_open args && forallb (fun p => no_open (snd p)) kws
  | EIfExp a b c => no_open a && no_open b && no_open c
  | EList l | ETuple l | EFString l => forallb no_open l
  | EDict l => forallb (fun p => no_open (fst p) && no_open (snd p)) l
  end.
Definition opens (e : expr) : bool := match e with ECall (EName x) [a] [] => String.eqb x "open" && no_open a | _ => no_open e end.
Fixpoint tidy (c : stmt) : bool :=
  match c with
  | SExpr e | SReturn (Some e) | SRaise e => no_open e
  | SAssign t e | SAug t _ e => no_open t && no_open e
  | SReturn None | SContinue => true
  | SIf e a b => no_open e && forallb tidy a && forallb tidy b
  | SMatch e cases => no_open e && forallb (fun p => forallb tidy (snd p)) cases
  | SFor _ e b => no_open e && forallb tidy b
  | SWith e _ b => opens e && forallb tidy b
  | STry b _ _ h => forallb tidy b && forallb tidy h
  | SDef _ _ b | SClass _ b => forallb tidy b
  | SImport m _ | SFrom m _ _ => negb (String.eqb m "builtins")
  end.

(* ---- states: nobody holds open ---- *)
Fixpoint safe (w : hval) : bool :=
  match w with
  | HList l | HTuple l => forallb safe l
  | HPrim m f => negb (String.eqb m "builtins" && String.eqb f "open")
  | HMod m => negb (String.eqb m "builtins")
  | _ => true
  end.
Definition safe_obj (o : obj) : Prop :=
  match o with
  | OInst _ _ attrs => Forall (fun p => safe (snd p) = true) attrs
  | ODict f items => match f with Some g => safe g = true | None => True end /\ Forall (fun p => safe (snd p) = true) items
  | _ => True
  end.
Record safe_st (s : hst) : Prop := {
  safe_loc : Forall (fun p => safe (snd p) = true) (hloc s);
  safe_glob : Forall (fun p => safe (snd p) = true) (hglob s);
  safe_heap : Forall safe_obj (heap s) }.
Definition opened (s : hst) (a : nat) : Prop := exists bs, at_ s a = Some (OFile bs).
Definition keeps (s s' : hst) : Prop := forall a, opened s' a -> opened s a.
Definition good {A} (P : A -> Prop) (s : hst) (R : hres A) : Prop :=
  match R with HStuck _ => True | HOk v s' => P v /\ safe_st s' /\ keeps s s' | HRaise _ s' => safe_st s' /\ keeps s s' end.
Definition sv (w : hval) : Prop := safe w = true.
Definition svs (l : list hval) : Prop := Forall sv l.
Definition skws {K} (l : list (K * hval)) : Prop := Forall (fun p => safe (snd p) = true) l.
Definition sflow (f : flow) : Prop := match f with Return w => sv w | _ => True end.

Lemma keeps_refl : forall s, keeps s s. Proof. intros s a H. exact H. Qed.
Lemma keeps_trans : forall a b c, keeps a b -> keeps b c -> keeps a c. Proof. intros a b c H K x O. apply H, K, O. Qed.
Lemma svs_forallb : forall l, forallb safe l = true <-> svs l.
Proof. intro l. unfold svs. rewrite Forall_forall. apply forallb_forall. Qed.
Lemma good_ok : forall A (P : A -> Prop) v s, P v -> safe_st s -> good P s (HOk v s).
Proof. intros. split; [assumption|]. split; [assumption|apply keeps_refl]. Qed.
Lemma good_raise : forall A (P : A -> Prop) e s, safe_st s -> good P s (HRaise e s).
Proof. intros. split; [assumption|apply keeps_refl]. Qed.
Lemma good_from : forall A (P : A -> Prop) s s1 R, keeps s s1 -> good P s1 R -> good P s R.
Proof. intros A P s s1 [v s2|e s2|w] K H; [| |exact I]; [destruct H as (H1 & H2 & H3)|destruct H as (H2 & H3)]; repeat split; try assumption; try exact (safe_loc _ H2); try exact (safe_glob _ H2); try exact (safe_heap _ H2); eapply keeps_trans; eassumption. Qed.
Lemma good_weak : forall A (P Q : A -> Prop) s R, (forall a, P a -> Q a) -> good P s R -> good Q s R.
Proof. intros A P Q s [v s2|e s2|w] H K; [|exact K|exact I]. destruct K as (K1 & K2). split; [apply H, K1|exact K2]. Qed.
Lemma good_bind : forall A B (P : A -> Prop) (Q : B -> Prop) R f s, good P s R -> (forall a s1, P a -> safe_st s1 -> good Q s1 (f a s1)) -> good Q s (hbind R f).
Proof.
  intros A B P Q [v s1|e s1|w] f s H K; [|exact H|exact I]. destruct H as (H1 & H2 & H3). cbn [hbind]. eapply good_from; [exact H3|]. apply K; assumption.
Qed.
Lemma good_some : forall A B w (o : option A) (k : A -> hres B) (Q : B -> Prop) s, (forall a, o = Some a -> good Q s (k a)) -> good Q s (hsome w o k).
Proof. intros A B w [a|] k Q s H; [apply H; reflexivity|exact I]. Qed.
Lemma good_finally : forall A (P : A -> Prop) R f s, (forall s1, safe_st s1 -> safe_st (f s1) /\ keeps s1 (f s1)) -> good P s R -> good P s (finally R f).
Proof.
  intros A P [v s1|e s1|w] f s F H; [| |exact I]; cbn [finally].
  - destruct H as (H1 & H2 & H3). destruct (F _ H2) as (F1 & F2). split; [exact H1|]. split; [exact F1|eapply keeps_trans; eassumption].
  - destruct H as (H2 & H3). destruct (F _ H2) as (F1 & F2). split; [exact F1|eapply keeps_trans; eassumption].
Qed.

(* ---- changes of the state ---- *)
Lemma nth_update : forall h n o a, nth_error (update n o h) a = if Nat.eqb a n then match nth_error h a with Some _ => Some o | None => None end else nth_error h a.
Proof.
  induction h as [|x h IH]; intros [|n] o [|a]; try reflexivity.
  - cbn. destruct (Nat.eqb a n); reflexivity.
  - cbn. rewrite IH. reflexivity.
Qed.
Lemma update_safe : forall h n o, Forall safe_obj h -> safe_obj o -> Forall safe_obj (update n o h).
Proof. induction h as [|x h IH]; intros [|n] o H O; try constructor; inversion H; subst; try assumption. apply IH; assumption. Qed.
Lemma put_safe : forall r o s, safe_obj o -> safe_st s -> safe_st (hput r o s).
Proof. intros r o s O [L G H]. constructor; try assumption. apply update_safe; assumption. Qed.
Lemma put_keeps : forall r o s, (forall bs, o <> OFile bs) \/ opened s r -> keeps s (hput r o s).
Proof.
  intros r o s C a [bs H]. unfold at_, hput in H. cbn [heap] in H. rewrite nth_update in H. destruct (Nat.eqb_spec a r) as [->|N]; [|exists bs; exact H].
  destruct C as [C|C]; [|exact C]. destruct (nth_error (heap s) r); [|discriminate H]. injection H as H. destruct (C _ H).
Qed.
Lemma put_good : forall A (P : A -> Prop) v r o s, P v -> safe_obj o -> (forall bs, o <> OFile bs) \/ opened s r -> safe_st s -> good P s (HOk v (hput r o s)).
Proof. intros. split; [assumption|]. split; [apply put_safe; assumption|apply put_keeps; assumption]. Qed.
Lemma alloc_safe : forall o s, safe_obj o -> safe_st s -> safe_st (halloc o s).
Proof. intros o s O [L G H]. constructor; try assumption. apply Forall_app. split; [exact H|repeat constructor; exact O]. Qed.
Lemma alloc_keeps : forall o s a, opened (halloc o s) a -> opened s a \/ a = List.length (heap s).
Proof.
  intros o s a [bs H]. unfold at_, halloc in H. cbn [heap] in H. destruct (Nat.lt_ge_cases a (List.length (heap s))) as [L|L]; [rewrite nth_error_app1 in H by exact L; left; exists bs; exact H|].
  right. assert (a < List.length (heap s ++ [o])) by (apply nth_error_Some; congruence). rewrite app_length in H0. cbn in H0. lia.
Qed.
Lemma new_good : forall A (P : A -> Prop) o s k, safe_obj o -> (forall bs, o <> OFile bs) -> safe_st s -> (forall a s1, safe_st s1 -> good P s1 (k a s1)) -> good P s (hnew o s k).
Proof.
  intros A P o s k O N S K. unfold hnew. eapply good_from; [|apply K; apply alloc_safe; assumption]. intros a H. destruct (alloc_keeps _ _ _ H) as [H1| ->]; [exact H1|].
  destruct H as [bs H]. unfold at_, halloc in H. cbn [heap] in H. rewrite nth_error_app2, Nat.sub_diag in H by lia. injection H as H. destruct (N _ H).
Qed.
Lemma set_safe : forall (l : list (string * hval)) x w, Forall (fun p => safe (snd p) = true) l -> safe w = true -> Forall (fun p => safe (snd p) = true) (set x w l).
Proof. induction l as [|[y v] l IH]; intros x w H W; cbn [set]; [repeat constructor; exact W|]. inversion H; subst. destruct (String.eqb x y); constructor; try assumption. apply IH; assumption. Qed.
Lemma unset_safe : forall (l : list (string * hval)) x, Forall (fun p => safe (snd p) = true) l -> Forall (fun p => safe (snd p) = true) (unset x l).
Proof. induction l as [|[y v] l IH]; intros x H; cbn [unset]; [constructor|]. inversion H; subst. destruct (String.eqb x y); [assumption|]. constructor; [assumption|]. apply IH; assumption. Qed.
Lemma setg_safe : forall l m x w, Forall (fun p : string * string * hval => safe (snd p) = true) l -> safe w = true -> Forall (fun p => safe (snd p) = true) (hset_glob m x w l).
Proof. induction l as [|[[n y] v] l IH]; intros m x w H W; cbn [hset_glob]; [repeat constructor; exact W|]. inversion H; subst. destruct (String.eqb m n && String.eqb x y); constructor; try assumption. apply IH; assumption. Qed.
Lemma get_safe : forall (l : list (string * hval)) x w, Forall (fun p => safe (snd p) = true) l -> get x l = Some w -> safe w = true.
Proof. induction l as [|[y v] l IH]; intros x w H G; cbn [get] in G; [discriminate G|]. inversion H; subst. destruct (String.eqb x y); [injection G as <-; assumption|]. eapply IH; eassumption. Qed.
Lemma getg_safe : forall l m x w, Forall (fun p : string * string * hval => safe (snd p) = true) l -> hget_glob m x l = Some w -> safe w = true.
Proof. induction l as [|[[n y] v] l IH]; intros m x w H G; cbn [hget_glob] in G; [discriminate G|]. inversion H; subst. destruct (String.eqb m n && String.eqb x y); [injection G as <-; assumption|]. eapply IH; eassumption. Qed.
Lemma assoc_safe : forall (l : list (str * hval)) x w, Forall (fun p => safe (snd p) = true) l -> assoc x l = Some w -> safe w = true.
Proof. induction l as [|[y v] l IH]; intros x w H G; cbn [assoc] in G; [discriminate G|]. inversion H; subst. destruct (str_eqb x y); [injection G as <-; assumption|]. eapply IH; eassumption. Qed.
Lemma at_safe : forall s a o, safe_st s -> at_ s a = Some o -> safe_obj o.
Proof. intros s a o [_ _ H] A. rewrite Forall_forall in H. apply H. eapply nth_error_In. exact A. Qed.
Lemma local_safe : forall x w s, safe_st s -> safe w = true -> safe_st (hbind_local x w s).
Proof. intros x w s [L G H] W. constructor; try assumption. apply set_safe; assumption. Qed.

(* ---- constants, names ---- *)
Lemma const_safe : forall e w, hconst e = Some w -> safe w = true.
Proof.
  apply (expr_all (fun e => forall w, hconst e = Some w -> safe w = true)); cbn [hconst]; intros; try discriminate; try (injection H as <-; reflexivity).
  revert w H0. set (consts := fix consts (l : list expr) := match l with [] => Some [] | e :: l' => match hconst e, consts l' with Some v, Some vs => Some (v :: vs) | _, _ => None end end).
  assert (X : forall vs, consts l = Some vs -> svs vs).
  { induction H as [|e l E F IH]; intros vs Q; cbn in Q; [injection Q as <-; constructor|]. fold consts in Q. destruct (hconst e) as [v|] eqn:V; [|discriminate Q]. destruct (consts l) as [vs1|]; [|discriminate Q]. injection Q as <-. constructor; [exact (E v eq_refl)|apply IH; reflexivity]. }
  intros w Q. destruct (consts l) as [vs|]; [|discriminate Q]. injection Q as <-. cbn [safe]. apply svs_forallb. apply X. reflexivity.
Qed.

Lemma find_const_safe : forall b a w, hfind_const b a = Some w -> safe w = true.
Proof.
  induction b as [|c b IH]; intros a w H; [discriminate H|]. destruct c; cbn [hfind_const] in H; try (eapply IH; eassumption). destruct target; try (eapply IH; eassumption). destruct (String.eqb a x); [eapply const_safe; eassumption|eapply IH; eassumption].
Qed.
Lemma def_tidy : forall b f ps body, forallb tidy b = true -> find_def b f = Some (ps, body) -> forallb tidy body = true.
Proof.
  induction b as [|c b IH]; intros f ps body H F; [discriminate F|]. cbn [forallb] in H. apply andb_true_iff in H as [H1 H2]. destruct c; cbn [find_def] in F; try (eapply IH; eassumption).
  destruct (String.eqb f f0); [injection F as <- <-; exact H1|eapply IH; eassumption].
Qed.
Lemma class_tidy : forall b c body, forallb tidy b = true -> find_class b c = Some body -> forallb tidy body = true.
Proof.
  induction b as [|d b IH]; intros c body H F; [discriminate F|]. cbn [forallb] in H. apply andb_true_iff in H as [H1 H2]. destruct d; cbn [find_class] in F; try (eapply IH; eassumption).
  destruct (String.eqb c c0); [injection F as <-; exact H1|eapply IH; eassumption].
Qed.

Section Program.
Variable prog : list (string * pymodule).
Hypothesis prog_tidy : forallb (fun p => forallb tidy (snd p)) prog = true.
Lemma get_tidy : forall m b, get m prog = Some b -> forallb tidy b = true.
Proof.
  revert prog_tidy. induction prog as [|[n c] p IH]; intros H m b G; [discriminate G|]. cbn [forallb snd] in H. apply andb_true_iff in H as [H1 H2]. cbn [get] in G. destruct (String.eqb m n); [injection G as <-; exact H1|eapply IH; eassumption].
Qed.
Lemma module_tidy : forall m, forallb tidy (module_body prog m) = true.
Proof. intro m. unfold module_body. destruct (get m prog) eqn:G; [eapply get_tidy; exact G|reflexivity]. Qed.
Lemma body_tidy : forall m c, forallb tidy (class_body prog m c) = true.
Proof. intros m c. unfold class_body. destruct (find_class (module_body prog m) c) eqn:G; [eapply class_tidy; [apply module_tidy|exact G]|reflexivity]. Qed.
Lemma import_safe : forall m n w, String.eqb m "builtins" = false -> himport_from prog m n = Some w -> safe w = true.
Proof.
  intros m n w N H. unfold himport_from in H. destruct (get m prog) as [b|]; [|injection H as <-; cbn [safe]; rewrite N; reflexivity].
  destruct (find_def b n); [injection H as <-; reflexivity|]. destruct (find_class b n); [injection H as <-; reflexivity|discriminate H].
Qed.
Lemma static_safe : forall m b x w, forallb tidy b = true -> hstatic prog m b x = Some w -> safe w = true.
Proof.
  intros m. induction b as [|c b IH]; intros x w T H; [discriminate H|]. cbn [forallb] in T. apply andb_true_iff in T as [T1 T2]. destruct c; cbn [hstatic] in H; try (eapply IH; eassumption).
  - destruct (String.eqb x f); [injection H as <-; reflexivity|eapply IH; eassumption].
  - destruct (String.eqb x c); [injection H as <-; reflexivity|eapply IH; eassumption].
  - destruct (String.eqb x x0); [injection H as <-; exact T1|eapply IH; eassumption].
  - destruct (String.eqb x x0); [|eapply IH; eassumption]. eapply import_safe; [|exact H]. cbn [tidy] in T1. apply negb_true_iff in T1. exact T1.
Qed.
Lemma name_safe : forall m lv x s w, safe_st s -> hname prog m lv x s = Some w -> safe w = true \/ x = "open" /\ w = HPrim "builtins" "open".
Proof.
  intros m lv x s w S H. unfold hname in H. destruct (existsb (String.eqb x) lv); [left; eapply get_safe; [exact (safe_loc _ S)|exact H]|]. unfold hglobal in H.
  destruct (hstatic prog m (module_body prog m) x) eqn:E; [left; injection H as <-; eapply static_safe; [apply module_tidy|exact E]|].
  destruct (hget_glob m x (hglob s)) eqn:G; [left; injection H as <-; eapply getg_safe; [exact (safe_glob _ S)|exact G]|].
  destruct (existsb (String.eqb x) builtins); [|discriminate H]. injection H as <-. cbn [safe]. destruct (String.eqb_spec x "open") as [->|N]; [right; split; reflexivity|left; reflexivity].
Qed.
Lemma mod_attr_safe : forall m a s w, safe_st s -> String.eqb m "builtins" = false -> hmod_attr prog m a s = Some w -> safe w = true.
Proof.
  intros m a s w S N H. unfold hmod_attr in H. destruct (get m prog) as [b|] eqn:G.
  - destruct (hstatic prog m b a) eqn:E; [injection H as <-; eapply static_safe; [eapply get_tidy; exact G|exact E]|]. eapply getg_safe; [exact (safe_glob _ S)|exact H].
  - destruct (String.eqb m "os" && String.eqb a "path"); [injection H as <-; reflexivity|]. destruct (String.eqb m "string" && String.eqb a "ascii_uppercase"); injection H as <-; cbn [safe]; [reflexivity|rewrite N; reflexivity].
Qed.
Lemma inst_attr_safe : forall m c attrs a w, Forall (fun p => safe (snd p) = true) attrs -> hinst_attr prog m c attrs a = Some w -> safe w = true.
Proof. intros m c attrs a w F H. unfold hinst_attr in H. destruct (get a attrs) eqn:G; [injection H as <-; eapply get_safe; eassumption|eapply find_const_safe; exact H]. Qed.
Lemma getattr_safe : forall w a s r, safe_st s -> safe w = true -> hgetattr prog w a s = Some r -> safe r = true.
Proof.
  intros w a s r S W H. destruct w; try discriminate H; cbn [hgetattr] in H.
  - destruct (String.eqb a "__contains__"); [injection H as <-; reflexivity|discriminate H].
  - eapply mod_attr_safe; [exact S| |exact H]. cbn [safe] in W. apply negb_true_iff in W. exact W.
  - destruct (at_ s a0) as [[]|] eqn:E; try discriminate H. eapply inst_attr_safe; [exact (at_safe _ _ _ S E)|exact H].
  - destruct (String.eqb a "name"); [injection H as <-; reflexivity|discriminate H].
Qed.

(* ---- the library ---- *)
Variable files : disk.
Variable room : nat.
Variable err : exc.
Notation prim := (failing prog files room err).
Lemma strs_safe : forall A (f : A -> hval) l, (forall a, safe (f a) = true) -> forallb safe (map f l) = true.
Proof. intros A f l H. induction l as [|a l IH]; [reflexivity|]. cbn. rewrite H. exact IH. Qed.
Lemma contains_safe : forall t l r, hmap_contains t l = Some r -> forallb safe r = true.
Proof.
  intros t. induction l as [|w l IH]; intros r H; cbn [hmap_contains] in H; [injection H as <-; reflexivity|]. destruct w; try discriminate H. destruct (hmap_contains t l) as [r1|]; [|discriminate H]. injection H as <-. cbn. apply IH. reflexivity.
Qed.
Lemma emit_good : forall A (P : A -> Prop) v ev s, P v -> safe_st s -> good P s (HOk v (hemit ev s)).
Proof. intros A P v ev s H [L G K]. split; [exact H|]. split; [constructor; assumption|]. intros a O. exact O. Qed.
Ltac plainly S := repeat (first
  [ exact I
  | apply good_ok; [reflexivity|exact S]
  | apply good_raise; exact S
  | apply emit_good; [reflexivity|exact S]
  | apply new_good; [cbn; repeat constructor|discriminate|exact S|intros; apply good_ok; [reflexivity|assumption]]
  | match goal with |- good _ _ (match ?x with _ => _ end) => destruct x eqn:? end ]).
Lemma hprim_good : forall m f args kws s, String.eqb m "builtins" && String.eqb f "open" = false -> safe_st s -> good sv s (hprim prog files m f args kws s).
Proof.
  intros m f args kws s N S. unfold hprim. destruct kws as [|kw kws].
  - rewrite N. plainly S.
    all: apply good_ok; [|exact S].
    all: unfold sv; cbn [safe].
    all: try (eapply contains_safe; eassumption).
    all: apply strs_safe; reflexivity.
  - plainly S.
Qed.
Lemma prim_good : forall m f args kws s, String.eqb m "builtins" && String.eqb f "open" = false -> safe_st s -> good sv s (prim m f args kws s).
Proof.
  intros m f args kws s N S. unfold failing. pose proof (hprim_good m f args kws s N S) as H. destruct (hprim prog files m f args kws s); try exact H. destruct (_ && _ && _); [apply good_raise; exact S|exact H].
Qed.
(* open makes one new open file, and returns it *)
Definition newfile (s : hst) (R : hres hval) : Prop :=
  match R with
  | HStuck _ => True
  | HOk w s' => safe_st s' /\ forall a, opened s' a -> opened s a \/ w = HRef a
  | HRaise _ s' => safe_st s' /\ keeps s s'
  end.
Lemma prim_open : forall args kws s, safe_st s -> newfile s (prim "builtins" "open" args kws s).
Proof.
  intros args kws s S. unfold failing, hprim. destruct kws as [|kw kws].
  - cbn [String.eqb Ascii.eqb Bool.eqb andb]. destruct args as [|w [|]]; [exact I| |destruct w; exact I]. destruct w; try exact I. destruct (contents files s0) as [bs|e]; [|split; [exact S|apply keeps_refl]].
    unfold hnew. split; [apply alloc_safe; [exact I|exact S]|]. intros a O. destruct (alloc_keeps _ _ _ O) as [K| ->]; [left; exact K|right; reflexivity].
  - repeat (first [exact I | match goal with |- newfile _ (match (match ?x with _ => _ end) with _ => _ end) => destruct x end]).
Qed.

(* ---- calls ---- *)
Section Calls.
Variable run : string -> list (string * option expr) -> list stmt -> list hval -> hst -> hres hval.
Hypothesis run_good : forall m ps body args s, forallb tidy body = true -> svs args -> safe_st s -> good sv s (run m ps body args s).
Lemma call_good : forall f args kws s, safe f = true -> svs args -> safe_st s -> good sv s (gcall_value prog prim run f args kws s).
Proof.
  intros f args kws s F A S. destruct f; try exact I; cbn [gcall_value].
  - destruct kws; [|exact I]. destruct (find_def (module_body prog m) f) as [[ps body]|] eqn:D; [|exact I]. apply run_good; [eapply def_tidy; [apply module_tidy|exact D]|exact A|exact S].
  - destruct kws; [|exact I]. destruct (find_def (class_body prog m c) "__init__") as [[ps body]|] eqn:D.
    + apply new_good; [constructor|discriminate|exact S|]. intros a s1 S1. eapply good_bind; [apply run_good; [eapply def_tidy; [apply body_tidy|exact D]|constructor; [reflexivity|exact A]|exact S1]|]. intros w s2 _ S2. apply good_ok; [reflexivity|exact S2].
    + destruct args; [|exact I]. apply new_good; [constructor|discriminate|exact S|]. intros a s1 S1. apply good_ok; [reflexivity|exact S1].
  - apply prim_good; [|exact S]. cbn [safe] in F. apply negb_true_iff in F. exact F.
Qed.
Lemma method_good : forall w a args s, safe w = true -> svs args -> safe_st s -> good sv s (gcall_method prog prim run w a args s).
Proof.
  intros w a args s W A S. destruct w as [| | | |t| | | | | | | |r| | | | |]; try exact I.
  - unfold gcall_method. plainly S.
  - cbn [gcall_method]. destruct (at_ s r) as [[m c attrs|f items|t|l rows|bs|]|] eqn:E; try exact I; pose proof (at_safe _ _ _ S E) as O.
    + destruct (get a attrs) eqn:G; [apply call_good; [eapply get_safe; [exact O|exact G]|exact A|exact S]|]. destruct (find_def (class_body prog m c) a) as [[ps body]|] eqn:D; [|exact I].
      apply run_good; [eapply def_tidy; [apply body_tidy|exact D]|constructor; assumption|exact S].
    + destruct f; [exact I|]. destruct (String.eqb a "update"); [|exact I]. destruct args as [|[] [|]]; try exact I. destruct (at_ s a0) as [[]|] eqn:E2; try exact I. destruct factory; [exact I|]. pose proof (at_safe _ _ _ S E2) as O2.
      apply put_good; [reflexivity| |left; discriminate|exact S]. split; [exact I|]. apply Forall_app. split; [exact (proj2 O2)|exact (proj2 O)].
    + plainly S. apply put_good; [reflexivity|exact I|left; discriminate|exact S].
    + plainly S. apply put_good; [reflexivity|exact I|left; discriminate|exact S].
    + plainly S. apply put_good; [|exact I|right; exists bs; exact E|exact S]. unfold sv. cbn [safe]. apply strs_safe. reflexivity.
Qed.
Lemma item_good : forall c i s, safe_st s -> good sv s (gget_item prog prim run c i s).
Proof.
  intros c i s S. destruct c as [| | | |t| | | | | | | |r| | | | |]; try exact I; destruct i as [| |z| |key| | | | | | | | | | | | |]; try exact I; cbn [gget_item].
  - plainly S.
  - destruct (at_ s r) as [[| f items | | | |]|] eqn:E; try exact I. pose proof (at_safe _ _ _ S E) as [O1 O2]. destruct (assoc key items) eqn:G; [apply good_ok; [exact (assoc_safe _ _ _ O2 G)|exact S]|]. destruct f as [g|]; [|exact I].
    eapply good_bind; [apply call_good; [exact O1|constructor|exact S]|]. intros v s1 V S1. destruct (at_ s1 r) as [[| f' items' | | | |]|] eqn:E1; try exact I. pose proof (at_safe _ _ _ S1 E1) as [P1 P2].
    apply put_good; [exact V| |left; discriminate|exact S1]. split; [exact P1|]. constructor; [exact V|exact P2].
Qed.

(* ---- expressions ---- *)
Section Function.
Variable m : string.
Variable lv : list string.
Notation GE := (geval prog prim run m lv).
Definition egood (e : expr) : Prop := no_open e = true -> forall s, safe_st s -> good sv s (GE e s).
Lemma list_good : forall l, Forall egood l -> forallb no_open l = true -> forall s, safe_st s -> good svs s (heval_list GE l s).
Proof.
  intros l F. induction F as [|e l E F IH]; intros N s S; [apply good_ok; [constructor|exact S]|]. cbn [forallb] in N. apply andb_true_iff in N as [N1 N2]. cbn [heval_list]. eapply good_bind; [apply E; assumption|]. intros v s1 V S1.
  eapply good_bind; [apply IH; assumption|]. intros vs s2 VS S2. apply good_ok; [constructor; assumption|exact S2].
Qed.
Lemma kws_good : forall l, Forall (fun p => egood (snd p)) l -> forallb (fun p => no_open (snd p)) l = true -> forall s, safe_st s -> good (fun _ => True) s (heval_kws GE l s).
Proof.
  intros l F. induction F as [|[a e] l E F IH]; intros N s S; [apply good_ok; [exact I|exact S]|]. cbn [forallb snd] in N. apply andb_true_iff in N as [N1 N2]. cbn [heval_kws]. eapply good_bind; [apply E; assumption|]. intros v s1 V S1.
  eapply good_bind; [apply IH; assumption|]. intros vs s2 VS S2. apply good_ok; [exact I|exact S2].
Qed.
Lemma args_good : forall g args kws s, safe g = true -> Forall egood args -> Forall (fun p => egood (snd p)) kws -> forallb no_open args = true -> forallb (fun p => no_open (snd p)) kws = true -> safe_st s ->
  good sv s (hbind (heval_list GE args s) (fun vs s => hbind (heval_kws GE kws s) (fun ks s => gcall_value prog prim run g vs ks s))).
Proof.
  intros g args kws s G A K NA NK S. eapply good_bind; [apply list_good; assumption|]. intros vs s1 V S1. eapply good_bind; [apply kws_good; assumption|]. intros ks s2 _ S2. apply call_good; assumption.
Qed.
Lemma binary_safe : forall op a b w, hbinary op a b = Some w -> safe w = true.
Proof.
  intros op a b w H. destruct op, a, b; try discriminate H; cbn [hbinary] in H; try (injection H as <-; reflexivity). destruct (Z.gtb z 0); [injection H as <-; reflexivity|discriminate H].
Qed.
Ltac two H := apply andb_true_iff in H; let H1 := fresh in let H2 := fresh in destruct H as [H1 H2].
Lemma eval_good : forall e, egood e.
Proof.
  apply expr_all; unfold egood; cbn [geval no_open].
  - intros; apply good_ok; [reflexivity|assumption].
  - intros; apply good_ok; [reflexivity|assumption].
  - intros; apply good_ok; [reflexivity|assumption].
  - intros; apply good_ok; [reflexivity|assumption].
  - intros x N s S. apply good_some. intros w H. apply good_ok; [|exact S]. destruct (name_safe m lv x s w S H) as [W|[-> _]]; [exact W|discriminate N].
  - intros e a E N s S. eapply good_bind; [apply E; assumption|]. intros w s1 W S1. apply good_some. intros r H. apply good_ok; [|exact S1]. eapply getattr_safe; eassumption.
  - intros c i E1 E2 N s S. two N. eapply good_bind; [apply E1; assumption|]. intros w s1 W S1. eapply good_bind; [apply E2; assumption|]. intros i' s2 _ S2. apply item_good. exact S2.
  - intros c lo hi E B1 B2 N s S. two N. two H. eapply good_bind; [apply E; assumption|]. intros w s1 W S1. apply (good_bind _ _ (fun _ => True)).
    { destruct lo as [e|]; [|apply good_ok; [exact I|exact S1]]. eapply good_bind; [apply B1; assumption|]. intros v s2 _ S2. destruct v; try exact I. apply good_ok; [exact I|exact S2]. }
    intros a s2 _ S2. apply (good_bind _ _ (fun _ => True)).
    { destruct hi as [e|]; [|apply good_ok; [exact I|exact S2]]. eapply good_bind; [apply B2; assumption|]. intros v s3 _ S3. destruct v; try exact I. apply good_ok; [exact I|exact S3]. }
    intros b s3 _ S3. destruct w; try exact I. apply good_some. intros r _. apply good_ok; [reflexivity|exact S3].
  - intros f args kws F SB A K N s S. two N. two H. 
    assert (Dflt : good sv s (hbind (GE f s) (fun g s => hbind (heval_list GE args s) (fun vs s => hbind (heval_kws GE kws s) (fun ks s => gcall_value prog prim run g vs ks s))))).
    { eapply good_bind; [apply F; assumption|]. intros g s1 G S1. apply args_good; assumption. }
    destruct f as [| | | | |e a| | | | | | | | | | | | | |]; try exact Dflt. clear Dflt F. cbn [sub_all no_open] in SB, H1.
    assert (Meth : good sv s (hbind (GE e s) (fun w s => match w with HMod n => hsome a (hmod_attr prog n a s) (fun g => hbind (heval_list GE args s) (fun vs s => hbind (heval_kws GE kws s) (fun ks s => gcall_value prog prim run g vs ks s)))
              | _ => match kws with [] => hbind (heval_list GE args s) (fun vs s => gcall_method prog prim run w a vs s) | _ => HStuck a end end))).
    { eapply good_bind; [apply SB; assumption|]. intros w s1 W S1.
      assert (D : good sv s1 (match kws with [] => hbind (heval_list GE args s1) (fun vs s => gcall_method prog prim run w a vs s) | _ => HStuck a end)).
      { destruct kws; [|exact I]. eapply good_bind; [apply list_good; assumption|]. intros vs s2 V S2. apply method_good; assumption. }
      destruct w; try exact D. apply good_some. intros g G. apply args_good; try assumption. eapply mod_attr_safe; [exact S1| |exact G]. cbn [safe] in W. unfold sv in W. cbn [safe] in W. apply negb_true_iff in W. exact W. }
    destruct e; try exact Meth. destruct (String.eqb a "format"); [|exact I]. eapply good_bind; [apply list_good; assumption|]. intros vs s1 _ S1. apply good_some. intros r _. apply good_ok; [reflexivity|exact S1].
  - intros op a b E1 E2 N s S. two N. eapply good_bind; [apply E1; assumption|]. intros x s1 _ S1. eapply good_bind; [apply E2; assumption|]. intros y s2 _ S2. apply good_some. intros r R. apply good_ok; [|exact S2]. eapply binary_safe. exact R.
  - intros a E N s S. eapply good_bind; [apply E; assumption|]. intros x s1 _ S1. destruct x; try exact I. apply good_ok; [reflexivity|exact S1].
  - intros a E N s S. eapply good_bind; [apply E; assumption|]. intros x s1 _ S1. apply good_some. intros t _. apply good_ok; [reflexivity|exact S1].
  - intros a b E1 E2 N s S. two N. eapply good_bind; [apply E1; assumption|]. intros x s1 X S1. apply good_some. intros [|] _; [apply E2; assumption|apply good_ok; assumption].
  - intros a b E1 E2 N s S. two N. eapply good_bind; [apply E1; assumption|]. intros x s1 X S1. apply good_some. intros [|] _; [apply good_ok; assumption|apply E2; assumption].
  - intros op a b E1 E2 N s S. two N. eapply good_bind; [apply E1; assumption|]. intros x s1 _ S1. eapply good_bind; [apply E2; assumption|]. intros y s2 _ S2. apply good_some. intros r _. apply good_ok; [reflexivity|exact S2].
  - intros c a b E1 E2 E3 N s S. two N. two H. eapply good_bind; [apply E1; assumption|]. intros x s1 _ S1. apply good_some. intros [|] _; [apply E2; assumption|apply E3; assumption].
  - intros l F N s S. eapply good_bind; [apply list_good; assumption|]. intros vs s1 V S1. apply good_ok; [|exact S1]. unfold sv. cbn [safe]. apply svs_forallb. exact V.
  - intros l F N s S. eapply good_bind; [apply list_good; assumption|]. intros vs s1 V S1. apply good_ok; [|exact S1]. unfold sv. cbn [safe]. apply svs_forallb. exact V.
  - intros l F N s S. apply (good_bind _ _ skws).
    + assert (X : skws (@nil (str * hval))) by constructor. revert X. generalize (@nil (str * hval)). revert s S N. induction F as [|[a b] l [E1 E2] F IH]; intros s S N acc X; [apply good_ok; assumption|].
      cbn [forallb fst snd] in N. two N. two H. eapply good_bind; [apply E1; assumption|]. intros x s1 _ S1. eapply good_bind; [apply E2; assumption|]. intros y s2 Y S2. destruct x; try exact I. apply IH; [exact S2|assumption|constructor; assumption].
    + intros items s1 V S1. apply new_good; [split; [exact I|exact V]|discriminate|exact S1|]. intros a s2 S2. apply good_ok; [reflexivity|exact S2].
  - intros l F N s S. eapply good_bind; [apply list_good; assumption|]. intros vs s1 _ S1. apply good_some. intros ts _. apply good_ok; [reflexivity|exact S1].
Qed.

(* ---- statements ---- *)
Notation GX := (gexec prog prim run m lv).
Definition cgood (top : bool) (c : stmt) : Prop := tidy c = true -> forall s, safe_st s -> good sflow s (GX top c s).
Lemma block_good : forall top l, Forall (cgood top) l -> forallb tidy l = true -> forall s, safe_st s -> good sflow s (hexec_list (GX top) l s).
Proof.
  intros top l F. induction F as [|c l E F IH]; intros N s S; [apply good_ok; [exact I|exact S]|]. cbn [forallb] in N. two N. cbn [hexec_list]. eapply good_bind; [apply E; assumption|]. intros f s1 W S1.
  destruct f; [apply IH; assumption|apply good_ok; assumption|apply good_ok; assumption].
Qed.
Lemma for_good : forall step : hval -> hst -> hres flow, (forall w s, safe w = true -> safe_st s -> good sflow s (step w s)) -> forall ws s, svs ws -> safe_st s -> good sflow s (hfor step ws s).
Proof.
  intros step H ws s W. revert s. induction W as [|w ws V W IH]; intros s S; [apply good_ok; [exact I|exact S]|]. cbn [hfor]. eapply good_bind; [apply H; assumption|]. intros f s1 X S1. destruct f; [apply IH; exact S1|apply good_ok; assumption|apply IH; exact S1].
Qed.
Lemma keeps_heap : forall s s', heap s' = heap s -> keeps s s'.
Proof. intros s s' E a [bs H]. exists bs. unfold at_ in *. rewrite <- E. exact H. Qed.
(* the head of a with statement *)
Lemma head_good : forall e s, opens e = true -> safe_st s -> newfile s (GE e s).
Proof.
  intros e s O S.
  assert (D : no_open e = true -> newfile s (GE e s)).
  { intro N. pose proof (eval_good e N s S) as H. destruct (GE e s) as [w s1|x s1|w]; [|exact H|exact I]. destruct H as (_ & H1 & H2). split; [exact H1|]. intros a A. left. apply H2. exact A. }
  destruct e as [| | | | | | | |f args kws| | | | | | | | | | |]; try (apply D; exact O). destruct f as [| | | |x| | | | | | | | | | | | | | |]; try (apply D; exact O). destruct args as [|a [|]]; try (apply D; exact O). destruct kws; try (apply D; exact O). clear D.
  cbn [opens] in O. two O. apply String.eqb_eq in H as ->. cbn [geval heval_list heval_kws]. unfold hsome. destruct (hname prog m lv "open" s) as [g|] eqn:E; [|exact I]. cbn [hbind].
  pose proof (eval_good a H0 s S) as K. destruct (GE a s) as [w s1|x s1|w]; [|exact K|exact I]. destruct K as (W & S1 & K). cbn [hbind].
  destruct (name_safe m lv "open" s g S E) as [G|[_ ->]].
  - pose proof (call_good g [w] [] s1 G (Forall_cons _ W (Forall_nil _)) S1) as C. destruct (gcall_value prog prim run g [w] [] s1) as [r s2|x s2|y]; [| |exact I].
    + destruct C as (_ & C1 & C2). split; [exact C1|]. intros b B. left. apply K, C2, B.
    + destruct C as (C1 & C2). split; [exact C1|]. eapply keeps_trans; eassumption.
  - cbn [gcall_value]. pose proof (prim_open [w] [] s1 S1) as C. destruct (prim "builtins" "open" [w] [] s1) as [r s2|x s2|y]; [| |exact I].
    + destruct C as (C1 & C2). split; [exact C1|]. intros b B. destruct (C2 b B) as [Q|Q]; [left; apply K, Q|right; exact Q].
    + destruct C as (C1 & C2). split; [exact C1|]. eapply keeps_trans; eassumption.
Qed.
Lemma exec_good : forall top c, cgood top c.
Proof.
  intro top.
  assert (AS : forall x w s, safe w = true -> safe_st s -> safe_st (if top then HSt (hloc s) (hout s) (hset_glob m x w (hglob s)) (heap s) else hbind_local x w s)).
  { intros x w s W [L G H]. destruct top; [|apply local_safe; [constructor; assumption|exact W]]. constructor; [exact L|apply setg_safe; assumption|exact H]. }
  assert (AH : forall x w s, heap (if top then HSt (hloc s) (hout s) (hset_glob m x w (hglob s)) (heap s) else hbind_local x w s) = heap s) by (intros; destruct top; reflexivity).
  assert (AG : forall x w s, safe w = true -> safe_st s -> good sflow s (HOk Next (if top then HSt (hloc s) (hout s) (hset_glob m x w (hglob s)) (heap s) else hbind_local x w s))).
  { intros x w s W S. split; [exact I|]. split; [apply AS; assumption|apply keeps_heap; apply AH]. }
  apply stmt_all; unfold cgood; cbn [gexec tidy].
  - intros e N s S. eapply good_bind; [apply eval_good; assumption|]. intros; apply good_ok; [exact I|assumption].
  - intros t e N s S. two N. destruct t; try exact I; cbn [no_open] in H.
    + eapply good_bind; [apply eval_good; assumption|]. intros w s1 W S1. apply AG; assumption.
    + eapply good_bind; [apply eval_good; assumption|]. intros w s1 W S1. eapply good_bind; [apply eval_good; assumption|]. intros r s2 _ S2. destruct r; try exact I. destruct (at_ s2 a0) as [[n c attrs| | |l rows| |]|] eqn:E; try exact I.
      * apply put_good; [exact I| |left; discriminate|exact S2]. apply set_safe; [exact (at_safe _ _ _ S2 E)|exact W].
      * destruct w; try exact I. destruct (_ && _); [|exact I]. apply put_good; [exact I|exact I|left; discriminate|exact S2].
    + two H. eapply good_bind; [apply eval_good; assumption|]. intros w s1 W S1. eapply good_bind; [apply eval_good; assumption|]. intros r s2 _ S2. eapply good_bind; [apply eval_good; assumption|]. intros i s3 _ S3.
      destruct r; try exact I. destruct i; try exact I. destruct (at_ s3 a) as [[|f items| | | |]|] eqn:E; try exact I. pose proof (at_safe _ _ _ S3 E) as [O1 O2]. apply put_good; [exact I| |left; discriminate|exact S3]. split; [exact O1|constructor; [exact W|exact O2]].
  - intros t op e N s S. two N. destruct t; try exact I. eapply good_bind; [apply (eval_good (EName x)); assumption|]. intros a s1 _ S1. eapply good_bind; [apply eval_good; assumption|]. intros b s2 _ S2. apply good_some. intros w W. apply AG; [eapply binary_safe; exact W|exact S2].
  - intros [e|] N s S; [|apply good_ok; [reflexivity|exact S]]. eapply good_bind; [apply eval_good; assumption|]. intros w s1 W S1. apply good_ok; assumption.
  - intros e N s S. eapply good_bind; [apply eval_good; assumption|]. intros w s1 W S1. destruct w; try exact I. apply good_raise. exact S1.
  - intros c a b A B N s S. two N. two H. eapply good_bind; [apply eval_good; assumption|]. intros w s1 _ S1. apply good_some. intros [|] _; apply block_good; assumption.
  - intros e cases F N s S. two N. eapply good_bind; [apply eval_good; assumption|]. intros w s1 _ S1. clear H. induction F as [|[p b] cases B F IH]; [apply good_ok; [exact I|exact S1]|]. cbn [forallb snd] in H0. two H0. destruct p.
    + apply good_some. intros pw _. apply good_some. intros [|] _; [apply block_good; assumption|apply IH; assumption].
    + apply block_good; assumption.
  - intros x e b B N s S. two N. eapply good_bind; [apply eval_good; assumption|]. intros w s1 W S1. destruct w; try exact I. apply for_good; [|apply svs_forallb; exact W|exact S1]. intros w s2 W2 S2.
    eapply good_from; [apply keeps_heap; apply AH|]. apply block_good; [exact B|assumption|apply AS; assumption].
  - intros e x b B N s S. two N. pose proof (head_good e s H S) as K. destruct (GE e s) as [w s1|ex s1|y]; [|exact K|exact I]. destruct K as [S1 K]. cbn [hbind]. destruct w; try exact I. destruct (at_ s1 a) as [[]|] eqn:E; try exact I.
    assert (X : good sflow s1 (hexec_list (GX top) b (if top then HSt (hloc s1) (hout s1) (hset_glob m x (HRef a) (hglob s1)) (heap s1) else hbind_local x (HRef a) s1))).
    { eapply good_from; [apply keeps_heap; apply AH|]. apply block_good; [exact B|assumption|apply AS; [reflexivity|exact S1]]. }
    assert (Y : forall s2, keeps s1 s2 -> keeps s (hput a OClosed s2)).
    { intros s2 K2 c [bs0 O]. unfold at_, hput in O. cbn [heap] in O. rewrite nth_update in O. destruct (Nat.eqb_spec c a) as [->|Ne]; [destruct (nth_error (heap s2) a); discriminate O|].
      destruct (K c (K2 c (ex_intro _ bs0 O))) as [Q|Q]; [exact Q|]. injection Q as Q. destruct (Ne (eq_sym Q)). }
    destruct (hexec_list (GX top) b _) as [f s2|ex s2|y]; [| |exact I]; cbn [finally].
    + destruct X as (X1 & X2 & X3). split; [exact X1|]. split; [apply put_safe; [exact I|exact X2]|apply Y; exact X3].
    + destruct X as (X2 & X3). split; [apply put_safe; [exact I|exact X2]|apply Y; exact X3].
  - intros b excs x h B H N s S. two N. pose proof (block_good top b B H0 s S) as K. destruct (hexec_list (GX top) b s) as [f s1|ex s1|w]; [exact K| |exact I]. destruct (catches excs ex); [|exact K]. destruct K as [S1 K].
    apply good_finally.
    + intros s2 [L G P]. split; [constructor; [apply unset_safe; exact L|exact G|exact P]|apply keeps_heap; reflexivity].
    + eapply good_from; [exact K|]. eapply good_from; [apply keeps_heap; apply AH|]. apply block_good; [exact H|assumption|apply AS; [reflexivity|exact S1]].
  - intros N s S. apply good_ok; [exact I|exact S].
  - intros; destruct top; [apply good_ok; [exact I|assumption]|exact I].
  - intros; destruct top; [apply good_ok; [exact I|assumption]|exact I].
  - intros; destruct top; [apply good_ok; [exact I|assumption]|exact I].
  - intros; destruct top; [apply good_ok; [exact I|assumption]|exact I].
Qed.
Lemma exec_block_good : forall top cs s, forallb tidy cs = true -> safe_st s -> good sflow s (gexec_block prog prim run m lv top cs s).
Proof. intros top cs s T S. apply block_good; [|exact T|exact S]. apply Forall_forall. intros c _. apply exec_good. Qed.
End Function.
End Calls.

(* ---- functions, import ---- *)
Lemma params_safe : forall ps args l, svs args -> hbind_params ps args = Some l -> Forall (fun p => safe (snd p) = true) l.
Proof.
  induction ps as [|[x d] ps IH]; intros args l A H; cbn [hbind_params] in H; [destruct args; [injection H as <-; constructor|discriminate H]|]. destruct args as [|v args].
  - destruct d as [d|]; [|discriminate H]. destruct (hconst d) eqn:C; [|discriminate H]. destruct (hbind_params ps []) eqn:B; [|discriminate H]. injection H as <-. constructor; [eapply const_safe; exact C|eapply IH; [constructor|exact B]].
  - inversion A; subst. assert (Q : option_map (cons (x, v)) (hbind_params ps args) = Some l) by (destruct d; exact H). destruct (hbind_params ps args) eqn:B; [|discriminate Q]. injection Q as <-. constructor; [assumption|eapply IH; eassumption].
Qed.
Lemma run_good : forall n m ps body args s, forallb tidy body = true -> svs args -> safe_st s -> good sv s (grun prog prim n m ps body args s).
Proof.
  induction n as [|n IH]; intros m ps body args s T A S; [exact I|]. cbn [grun]. destruct (hbind_params ps args) as [l|] eqn:E; [|exact I].
  assert (S0 : safe_st (HSt l (hout s) (hglob s) (heap s))) by (destruct S as [L G H]; constructor; [eapply params_safe; eassumption|exact G|exact H]).
  pose proof (exec_block_good (grun prog prim n) IH m (local_names ps body) false body _ T S0) as K.
  assert (B : forall s1, safe_st s1 -> safe_st (HSt (hloc s) (hout s1) (hglob s1) (heap s1))) by (intros s1 [L G H]; constructor; [exact (safe_loc _ S)|exact G|exact H]).
  destruct (gexec_block prog prim (grun prog prim n) m (local_names ps body) false body _) as [f s1|e s1|w]; [| |exact I].
  - destruct K as (K1 & K2 & K3). destruct f as [|w|]; [| |exact I]; (split; [first [exact K1|reflexivity]|]; split; [apply B; exact K2|exact K3]).
  - destruct K as (K2 & K3). split; [apply B; exact K2|exact K3].
Qed.
Lemma import_good : forall n ms s, forallb (fun p => forallb tidy (snd p)) ms = true -> safe_st s -> good (fun _ => True) s (gimport_all prog prim n ms s).
Proof.
  intros n ms. induction ms as [|[m b] ms IH]; intros s T S; [apply good_ok; [exact I|exact S]|]. cbn [forallb snd] in T. apply andb_true_iff in T as [T1 T2]. cbn [gimport_all].
  pose proof (exec_block_good (grun prog prim n) (run_good n) m [] true b s T1 S) as K. destruct (gexec_block prog prim (grun prog prim n) m [] true b s) as [f s1|e s1|w]; [|exact K|exact I].
  destruct K as (_ & K2 & K3). destruct f; try exact I. eapply good_from; [exact K3|]. apply IH; assumption.
Qed.
End Program.
