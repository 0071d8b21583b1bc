(* Everything the grammar of PyGrammar.v allows is read by the parser of PyParse.v, so tokens stand for one tree at most. *)
From Coq Require Import List String Ascii ZArith Bool Arith Lia.
From Verif Require Import PySyntax PyLex PyGrammar PyParse PyParseSound.
Import ListNotations.
Local Open Scope string_scope.
Local Open Scope list_scope.

Scheme gr_mut := Minimality for gr Sort Prop
  with items_mut := Minimality for gr_items Sort Prop
  with pairs_mut := Minimality for gr_pairs Sort Prop
  with args_mut := Minimality for gr_args Sort Prop
  with kws_mut := Minimality for gr_kws Sort Prop
  with opt_mut := Minimality for gr_opt Sort Prop
  with parts_mut := Minimality for gr_parts Sort Prop.
Combined Scheme gr_all from gr_mut, items_mut, pairs_mut, args_mut, kws_mut, opt_mut, parts_mut.

(* tokens an expression can begin with *)
Definition starter (t : token) : bool :=
  match t with
  | TName x => negb (keyword x) || existsb (String.eqb x) ["True"; "False"; "None"; "not"]
  | TOp o => existsb (String.eqb o) ["("; "["; "{"; "-"]
  | TInt _ | TStr _ | TFStr _ => true
  | _ => false
  end.
Definition tight (l : level) : bool := match l with Test | Or | And | Not => false | _ => true end.
Definition tighter (l : level) : bool := match l with Prim | Atom => true | _ => false end.
Definition begins (l : level) (ts : list token) : Prop :=
  exists t r, ts = t :: r /\ starter t = true /\ (tight l = true -> t <> TName "not") /\ (tighter l = true -> t <> TOp "-").
(* the second token is not = *)
Definition second (ts : list token) : Prop := match ts with TName _ :: TOp o :: _ => o <> "=" | _ => True end.

Lemma begins_app : forall l a b, begins l a -> begins l (a ++ b).
Proof. intros l a b (t & r & -> & H). exists t, (r ++ b). split; [reflexivity|exact H]. Qed.
Lemma begins_up : forall l l' a, begins l a -> (tight l' = true -> tight l = true) -> (tighter l' = true -> tighter l = true) -> begins l' a.
Proof. intros l l' a (t & r & -> & S & A & B) H K. exists t, r. repeat split; auto. Qed.
Lemma gr_begins : forall l ts e, gr l ts e -> begins l ts.
Proof.
  intros l ts e H. induction H; try (apply begins_app); try assumption; try (eapply begins_up; [eassumption|cbn; congruence|cbn; congruence]);
  try (eexists; eexists; split; [reflexivity|split; [|split]]; [cbn [starter]; try reflexivity|intros ?; try discriminate|intros ?; try discriminate]; fail).
  exists (TName x), []. split; [reflexivity|]. split; [|split].
  - cbn [starter]. apply keyword_iff in H. rewrite H. reflexivity.
  - intros _ E. injection E as ->. apply H. cbn. tauto.
  - discriminate.
Qed.
Lemma second_app : forall l a t b, begins l a -> second a -> t <> TOp "=" -> second (a ++ t :: b).
Proof.
  intros l a t b (t0 & r & -> & _) S N. destruct t0; try exact I. destruct r as [|t1 r].
  - cbn. destruct t; try exact I. congruence.
  - exact S.
Qed.
Lemma gr_second : forall l ts e, gr l ts e -> second ts.
Proof.
  intros l ts e H. induction H; try assumption; try exact I; try (eapply second_app; [eapply gr_begins; eassumption|assumption|discriminate]).
  - (* not *) apply gr_begins in H. destruct H as (t & r & -> & S & _). cbn. destruct t; try exact I. intros ->. discriminate.
  - (* comparison *) cbn in H1. repeat (destruct H1 as [H1|H1]; [injection H1 as <- <-; cbn [app]; eapply second_app; [eapply gr_begins; eassumption|assumption|discriminate]|]). destruct H1.
Qed.

(* tokens with which an expression of a level could go on *)
Definition going_on (l : level) : list token :=
  let prim := [TOp "."; TOp "("; TOp "["] in
  let term := prim ++ [TOp "*"; TOp "/"] in
  let sum := term ++ [TOp "+"; TOp "-"] in
  let cmp := sum ++ [TOp "=="; TOp "!="; TOp ">"; TOp ">="; TName "is"; TName "in"; TName "not"] in
  match l with
  | Atom => [] | Prim | Factor => prim | Term => term | Sum => sum | Cmp | Not => cmp
  | And => cmp ++ [TName "and"] | Or => cmp ++ [TName "and"; TName "or"] | Test => cmp ++ [TName "and"; TName "or"; TName "if"]
  end.
Definition stops (l : level) (ts : list token) : Prop := forall t r, ts = t :: r -> ~ In t (going_on l).
Lemma stops_down : forall l l' ts, stops l ts -> incl (going_on l') (going_on l) -> stops l' ts.
Proof. intros l l' ts H I t r E K. exact (H t r E (I t K)). Qed.
Lemma op_none : forall o ts, (forall r, ts <> TOp o :: r) -> op o ts = None.
Proof. intros o [|[]] H; try reflexivity. cbn. destruct (String.eqb_spec s o); [|reflexivity]. subst. exfalso. eapply H. reflexivity. Qed.
Lemma word_none : forall o ts, (forall r, ts <> TName o :: r) -> word o ts = None.
Proof. intros o [|[]] H; try reflexivity. cbn. destruct (String.eqb_spec s o); [|reflexivity]. subst. exfalso. eapply H. reflexivity. Qed.
Lemma op_same : forall o r, op o (TOp o :: r) = Some r.
Proof. intros. cbn. rewrite String.eqb_refl. reflexivity. Qed.
Lemma word_same : forall o r, word o (TName o :: r) = Some r.
Proof. intros. cbn. rewrite String.eqb_refl. reflexivity. Qed.
Lemma name_same : forall x r, identifier x -> name (TName x :: r) = Some (x, r).
Proof. intros x r H. apply keyword_iff in H. cbn [name]. rewrite H. reflexivity. Qed.
Lemma op_stop : forall l o ts, stops l ts -> In (TOp o) (going_on l) -> op o ts = None.
Proof. intros l o ts H I. apply op_none. intros r E. exact (H _ _ E I). Qed.
Lemma word_stop : forall l o ts, stops l ts -> In (TName o) (going_on l) -> word o ts = None.
Proof. intros l o ts H I. apply word_none. intros r E. exact (H _ _ E I). Qed.
Lemma comparison_stop : forall ts, stops Cmp ts -> comparison ts = None.
Proof.
  intros [|t ts] H; [reflexivity|]. specialize (H t ts eq_refl). destruct t; try reflexivity; cbn [comparison];
  repeat match goal with |- (if String.eqb ?a ?b then _ else _) = None => destruct (String.eqb_spec a b); [subst; exfalso; apply H; cbn; tauto|] end; reflexivity.
Qed.
Lemma comparison_same : forall c o r, In (c, o) comparisons -> comparison (o ++ r) = Some (c, r).
Proof. intros c o r H. cbn in H. repeat (destruct H as [H|H]; [injection H as <- <-; reflexivity|]). destruct H. Qed.
Lemma comparison_head : forall c o r l, In (c, o) comparisons -> incl (going_on l) (going_on Sum) -> stops l (o ++ r).
Proof. intros c o r l H I t r' E K. apply I in K. cbn in H. repeat (destruct H as [H|H]; [injection H as <- <-; cbn [app] in E; injection E as <- <-; cbn in K; intuition congruence|]). destruct H. Qed.
Lemma stops_cons : forall l t r, ~ In t (going_on l) -> stops l (t :: r).
Proof. intros l t r H t' r' E. injection E as <- <-. exact H. Qed.
Lemma op_other : forall o o' r, o <> o' -> op o (TOp o' :: r) = None.
Proof. intros o o' r H. apply op_none. intros r' E. congruence. Qed.
Lemma word_other : forall o o' r, o <> o' -> word o (TName o' :: r) = None.
Proof. intros o o' r H. apply word_none. intros r' E. congruence. Qed.
Ltac no := cbn; intuition congruence.

Definition std (l : level) (ts : list token) (e : expr) : Prop :=
  exists n0, forall n r, n0 <= n -> stops l r -> p n (G l) (ts ++ r) = Some (e, r).
(* after ts the loop is left with e *)
Definition chain (l : level) (rest : expr -> goal) (below : level) (ts : list token) (e : expr) : Prop :=
  exists k n0, forall n r, n0 <= n -> stops below r -> p (k + n) (G l) (ts ++ r) = p n (rest e) r.
Definition ready (l : level) (ts : list token) (e : expr) : Prop :=
  match l with Sum => chain Sum RestSum Term ts e | Term => chain Term RestTerm Factor ts e | Prim => chain Prim RestPrim Atom ts e | _ => std l ts e end.
Ltac inc := let t := fresh in let K := fresh in intros t K; cbn in K |- *; tauto.
Lemma ready_std : forall l ts e, ready l ts e -> std l ts e.
Proof.
  intros l ts e H. destruct l; try exact H; destruct H as (k & n0 & H); exists (k + S n0); intros n r L S;
  (replace n with (k + (1 + (n - k - 1))) by lia); (rewrite H; [|lia|eapply stops_down; [exact S|inc]]); cbn [Nat.add p].
  - rewrite (op_stop Sum "+" r S), (op_stop Sum "-" r S); [reflexivity|cbn; tauto|cbn; tauto].
  - rewrite (op_stop Term "*" r S), (op_stop Term "/" r S); [reflexivity|cbn; tauto|cbn; tauto].
  - rewrite (op_stop Prim "." r S), (op_stop Prim "(" r S), (op_stop Prim "[" r S); [reflexivity|cbn; tauto|cbn; tauto|cbn; tauto].
Qed.

Definition items_ready (us : list token) (es : list expr) : Prop :=
  exists n0, forall n c r, n0 <= n -> (c = ")" \/ c = "]") -> p_items n c (us ++ TOp c :: r) = Some (es, TOp c :: r).
Definition pairs_ready (us : list token) (ps : list (expr * expr)) : Prop :=
  exists n0, forall n r, n0 <= n -> p_pairs n (us ++ TOp "}" :: r) = Some (ps, TOp "}" :: r).
Definition args_ready (us : list token) (es : list expr) (ks : list (string * expr)) : Prop :=
  exists n0, forall n r, n0 <= n -> p_args n (us ++ TOp ")" :: r) = Some (es, ks, TOp ")" :: r).
Definition kws_ready (us : list token) (ks : list (string * expr)) : Prop :=
  (forall r, kws_next (us ++ TOp ")" :: r) = true) /\ exists n0, forall n r, n0 <= n -> p_kws n (us ++ TOp ")" :: r) = Some (ks, TOp ")" :: r).
Definition opt_ready (us : list token) (o : option expr) : Prop :=
  exists n0, forall n c r, n0 <= n -> (c = ":" \/ c = "]") -> p_opt n c (us ++ TOp c :: r) = Some (o, TOp c :: r).
Definition parts_ready (ps : list fpart) (es : list expr) : Prop := exists n0, forall n, n0 <= n -> p_parts n ps = Some es.

Lemma begins_op : forall l o ts r, begins l ts -> ~ In o ["("; "["; "{"; "-"] -> op o (ts ++ r) = None.
Proof.
  intros l o ts r (t & ts' & -> & S & _) N. apply op_none. intros r' E. cbn [app] in E. injection E as E _. subst t. cbn [starter] in S. apply existsb_exists in S.
  destruct S as (x & I & K). apply String.eqb_eq in K. subst. contradiction.
Qed.
Lemma begins_not : forall l ts r, begins l ts -> tight l = true -> word "not" (ts ++ r) = None.
Proof. intros l ts r (t & ts' & -> & S & N & _) T. apply word_none. intros r' E. cbn [app] in E. injection E as E _. exact (N T E). Qed.
Lemma begins_minus : forall l ts r, begins l ts -> tighter l = true -> op "-" (ts ++ r) = None.
Proof. intros l ts r (t & ts' & -> & S & _ & N) T. apply op_none. intros r' E. cbn [app] in E. injection E as E _. exact (N T E). Qed.
Lemma begins_args : forall l ts t r, begins l ts -> second ts -> t <> TOp "=" -> kws_next (ts ++ t :: r) = false.
Proof.
  intros l ts t r (t0 & ts' & -> & S & _) K N. cbn [app]. destruct t0; try reflexivity; cbn [kws_next].
  - destruct ts' as [|t1 ts']; cbn [app].
    + destruct t; try reflexivity. destruct (String.eqb_spec s0 "="); [congruence|reflexivity].
    + destruct t1; try reflexivity. cbn in K. destruct (String.eqb_spec s0 "="); [contradiction|reflexivity].
  - cbn [starter] in S. apply existsb_exists in S. destruct S as (x & I & E). apply String.eqb_eq in E. subst. cbn in I. repeat (destruct I as [<-|I]; [reflexivity|]). destruct I.
Qed.

Theorem complete :
  (forall l ts e, gr l ts e -> ready l ts e) /\ (forall us es, gr_items us es -> items_ready us es) /\ (forall us ps, gr_pairs us ps -> pairs_ready us ps) /\
  (forall us es ks, gr_args us es ks -> args_ready us es ks) /\ (forall us ks, gr_kws us ks -> kws_ready us ks) /\ (forall us o, gr_opt us o -> opt_ready us o) /\
  (forall ps es, gr_parts ps es -> parts_ready ps es).
Proof.
  Ltac std_of H := apply ready_std in H; destruct H as (?n & H).
  Ltac start k := exists (S k); intros [|m] r L; [lia|]; intros S; norm; cbn [p].
  Ltac st := first [assumption | lia | apply stops_cons; no | eapply stops_down; [eassumption|inc] ].
  apply gr_all.
  - (* test *) intros ts e G1 H1. std_of H1. start n. rewrite H1 by st. rewrite (word_stop Test "if" r S) by (cbn; tauto). reflexivity.
  - (* if *) intros t1 t2 t3 a c b G1 H1 G2 H2 G3 H3. std_of H1. std_of H2. std_of H3. start (n + n0 + n1).
    rewrite H1 by st. rewrite word_same. rewrite H2 by st. rewrite word_same. rewrite H3 by st. reflexivity.
  - intros ts e G1 H1. std_of H1. start n. rewrite H1 by st. rewrite (word_stop Or "or" r S) by (cbn; tauto). reflexivity.
  - intros t1 t2 a b G1 H1 G2 H2. std_of H1. std_of H2. start (n + n0). rewrite H1 by st. rewrite word_same. rewrite H2 by st. reflexivity.
  - intros ts e G1 H1. std_of H1. start n. rewrite H1 by st. rewrite (word_stop And "and" r S) by (cbn; tauto). reflexivity.
  - intros t1 t2 a b G1 H1 G2 H2. std_of H1. std_of H2. start (n + n0). rewrite H1 by st. rewrite word_same. rewrite H2 by st. reflexivity.
  - (* not *) intros ts e G1 H1. std_of H1. start n. rewrite (begins_not Cmp ts r (gr_begins _ _ _ G1) eq_refl). rewrite H1 by st. reflexivity.
  - intros ts e G1 H1. std_of H1. start n. rewrite word_same. rewrite H1 by st. reflexivity.
  - (* comparison *) intros ts e G1 H1. std_of H1. start n. rewrite H1 by st. rewrite (comparison_stop r S). reflexivity.
  - intros t1 o t2 c a b G1 H1 G2 H2 I. std_of H1. std_of H2. start (n + n0). rewrite H1; [|lia|eapply comparison_head; [exact I|inc]]. rewrite (comparison_same _ _ _ I). rewrite H2 by st. reflexivity.
  - (* sum *) intros ts e G1 H1. std_of H1. exists 1, n. intros m r L S. cbn [Nat.add p]. rewrite H1 by st. reflexivity.
  - intros t1 t2 a b G1 H1 G2 H2. destruct H1 as (k & n1 & H1). std_of H2. exists (k + 1), (n1 + n). intros m r L S. norm.
    replace (k + 1 + m) with (k + Datatypes.S m) by lia. rewrite H1 by st. cbn [p]. rewrite op_same. rewrite H2 by st. reflexivity.
  - intros t1 t2 a b G1 H1 G2 H2. destruct H1 as (k & n1 & H1). std_of H2. exists (k + 1), (n1 + n). intros m r L S. norm.
    replace (k + 1 + m) with (k + Datatypes.S m) by lia. rewrite H1 by st. cbn [p]. rewrite op_same, op_other by discriminate. rewrite H2 by st. reflexivity.
  - (* term *) intros ts e G1 H1. std_of H1. exists 1, n. intros m r L S. cbn [Nat.add p]. rewrite H1 by st. reflexivity.
  - intros t1 t2 a b G1 H1 G2 H2. destruct H1 as (k & n1 & H1). std_of H2. exists (k + 1), (n1 + n). intros m r L S. norm.
    replace (k + 1 + m) with (k + Datatypes.S m) by lia. rewrite H1 by st. cbn [p]. rewrite op_same. rewrite H2 by st. reflexivity.
  - intros t1 t2 a b G1 H1 G2 H2. destruct H1 as (k & n1 & H1). std_of H2. exists (k + 1), (n1 + n). intros m r L S. norm.
    replace (k + 1 + m) with (k + Datatypes.S m) by lia. rewrite H1 by st. cbn [p]. rewrite op_same, op_other by discriminate. rewrite H2 by st. reflexivity.
  - (* factor *) intros ts e G1 H1. std_of H1. start n. rewrite (begins_minus Prim ts r (gr_begins _ _ _ G1) eq_refl). rewrite H1 by st. reflexivity.
  - intros ts e G1 H1. std_of H1. start n. rewrite op_same. rewrite H1 by st. reflexivity.
  - (* primary *) intros ts e G1 H1. std_of H1. exists 1, n. intros m r L S. cbn [Nat.add p]. rewrite H1 by st. reflexivity.
  - intros ts e x G1 H1 I. destruct H1 as (k & n1 & H1). exists (k + 1), n1. intros m r L S. norm.
    replace (k + 1 + m) with (k + Datatypes.S m) by lia. rewrite H1 by st. cbn [p]. rewrite op_same, name_same by exact I. reflexivity.
  - intros ts us e args kws G1 H1 G2 (n2 & H2). destruct H1 as (k & n1 & H1). exists (k + 1), (n1 + n2). intros m r L S. norm.
    replace (k + 1 + m) with (k + Datatypes.S m) by lia. rewrite H1 by st. cbn [p app]. rewrite op_same, op_other by discriminate. rewrite H2 by lia. rewrite op_same. reflexivity.
  - intros ts us e i G1 H1 G2 H2. destruct H1 as (k & n1 & H1). std_of H2. exists (k + 1), (Datatypes.S (n1 + n)). intros m r L S. norm.
    replace (k + 1 + m) with (k + Datatypes.S m) by lia. rewrite H1 by st. cbn [p app]. rewrite op_same, !op_other by discriminate.
    destruct m as [|m]; [lia|]. cbn [p_opt]. rewrite (begins_op Test ":" us _ (gr_begins _ _ _ G2)) by no. rewrite H2 by st. rewrite op_other by discriminate. rewrite op_same. reflexivity.
  - intros ts us vs e lo hi G1 H1 G2 (n2 & H2) G3 (n3 & H3). destruct H1 as (k & n1 & H1). exists (k + 1), (n1 + n2 + n3). intros m r L S. norm.
    replace (k + 1 + m) with (k + Datatypes.S m) by lia. rewrite H1 by st. cbn [p app]. rewrite op_same, !op_other by discriminate.
    rewrite H2 by (lia || tauto). rewrite op_same. rewrite H3 by (lia || tauto). rewrite op_same. reflexivity.
  - (* atoms *) intros x I. exists 1. intros [|m] r L S; [lia|]. cbn [p app].
    destruct (String.eqb_spec x "True") as [->|_]; [exfalso; apply I; cbn; tauto|].
    destruct (String.eqb_spec x "False") as [->|_]; [exfalso; apply I; cbn; tauto|].
    destruct (String.eqb_spec x "None") as [->|_]; [exfalso; apply I; cbn; tauto|]. apply keyword_iff in I. rewrite I. reflexivity.
  - exists 1. intros [|m] r L S; [lia|]. reflexivity.
  - exists 1. intros [|m] r L S; [lia|]. reflexivity.
  - exists 1. intros [|m] r L S; [lia|]. reflexivity.
  - intros z. exists 1. intros [|m] r L S; [lia|]. reflexivity.
  - intros z. exists 1. intros [|m] r L S; [lia|]. reflexivity.
  - intros ps es G1 (n1 & H1). start n1. cbn [app]. rewrite H1 by lia. reflexivity.
  - intros ts e G1 H1. std_of H1. start n. cbn [app].
    change (("(" =? "(")%string) with true. cbv iota. rewrite (begins_op Test ")" ts _ (gr_begins _ _ _ G1)) by no. rewrite H1 by st. rewrite op_same. reflexivity.
  - exists 1. intros [|m] r L S; [lia|]. reflexivity.
  - intros ts us e es G1 H1 G2 (n2 & H2). std_of H1. start (n + n2). cbn [app].
    change (("(" =? "(")%string) with true. cbv iota. rewrite (begins_op Test ")" ts _ (gr_begins _ _ _ G1)) by no. rewrite H1 by st. rewrite op_same, op_other by discriminate.
    rewrite H2 by (lia || tauto). rewrite op_same. reflexivity.
  - intros us es G1 (n1 & H1). start n1. cbn [app]. change (("[" =? "(")%string) with false. change (("[" =? "[")%string) with true. cbv iota.
    rewrite H1 by (lia || tauto). rewrite op_same. reflexivity.
  - intros us ps G1 (n1 & H1). start n1. cbn [app]. change (("{" =? "(")%string) with false. change (("{" =? "[")%string) with false. change (("{" =? "{")%string) with true. cbv iota.
    rewrite H1 by lia. rewrite op_same. reflexivity.
  - (* items *) exists 1. intros [|m] c r L C; [lia|]. cbn [p_items app]. rewrite op_same. reflexivity.
  - intros ts e G1 H1. std_of H1. exists (S n). intros [|m] c r L C; [lia|]. cbn [p_items].
    rewrite (begins_op Test c ts _ (gr_begins _ _ _ G1)) by (destruct C; subst; no). rewrite H1; [|lia|apply stops_cons; destruct C; subst; no]. rewrite op_other by (destruct C; subst; discriminate). reflexivity.
  - intros ts us e es G1 H1 G2 (n2 & H2). std_of H1. exists (S (n + n2)). intros [|m] c r L C; [lia|]. norm. cbn [p_items app].
    rewrite (begins_op Test c ts _ (gr_begins _ _ _ G1)) by (destruct C; subst; no). rewrite H1 by st. rewrite op_same. rewrite H2 by (lia || assumption). reflexivity.
  - (* pairs *) exists 1. intros [|m] r L; [lia|]. cbn [p_pairs app]. rewrite op_same. reflexivity.
  - intros ts us k v G1 H1 G2 H2. std_of H1. std_of H2. exists (S (n + n0)). intros [|m] r L; [lia|]. norm. cbn [p_pairs app].
    rewrite (begins_op Test "}" ts _ (gr_begins _ _ _ G1)) by no. rewrite H1 by st. rewrite op_same. rewrite H2 by st. rewrite op_other by discriminate. reflexivity.
  - intros ts us vs k v ps G1 H1 G2 H2 G3 (n3 & H3). std_of H1. std_of H2. exists (S (n + n0 + n3)). intros [|m] r L; [lia|]. norm. cbn [p_pairs app].
    rewrite (begins_op Test "}" ts _ (gr_begins _ _ _ G1)) by no. rewrite H1 by st. rewrite op_same. rewrite H2 by st. rewrite op_same. rewrite H3 by lia. reflexivity.
  - (* arguments *) intros ts ks G1 (K & n1 & H1). exists (S n1). intros [|m] r L; [lia|]. cbn [p_args]. rewrite K. rewrite H1 by lia. reflexivity.
  - intros ts e G1 H1. std_of H1. exists (S n). intros [|m] r L; [lia|]. cbn [p_args].
    rewrite (begins_args Test ts _ _ (gr_begins _ _ _ G1) (gr_second _ _ _ G1)) by discriminate. rewrite H1 by st. rewrite op_other by discriminate. reflexivity.
  - intros ts us e es ks G1 H1 G2 (n2 & H2). std_of H1. exists (S (n + n2)). intros [|m] r L; [lia|]. norm. cbn [p_args app].
    rewrite (begins_args Test ts _ _ (gr_begins _ _ _ G1) (gr_second _ _ _ G1)) by discriminate. rewrite H1 by st. rewrite op_same. rewrite H2 by lia. reflexivity.
  - split; [reflexivity|]. exists 1. intros [|m] r L; [lia|]. reflexivity.
  - intros x ts e I G1 H1. split; [reflexivity|]. std_of H1. exists (S n). intros [|m] r L; [lia|]. cbn [p_kws app op]. rewrite name_same by exact I. rewrite op_same. rewrite H1 by st. rewrite op_other by discriminate. reflexivity.
  - intros x ts us e ks I G1 H1 G2 (_ & n2 & H2). split; [reflexivity|]. std_of H1. exists (S (n + n2)). intros [|m] r L; [lia|]. norm. cbn [p_kws app op]. rewrite name_same by exact I.
    rewrite op_same. norm. rewrite H1 by st. rewrite op_same. rewrite H2 by lia. reflexivity.
  - (* slices *) exists 1. intros [|m] c r L C; [lia|]. cbn [p_opt app]. rewrite op_same. reflexivity.
  - intros ts e G1 H1. std_of H1. exists (S n). intros [|m] c r L C; [lia|]. cbn [p_opt]. rewrite (begins_op Test c ts _ (gr_begins _ _ _ G1)) by (destruct C; subst; no).
    rewrite H1; [reflexivity|lia|apply stops_cons; destruct C; subst; no].
  - (* f-strings *) exists 1. intros [|m] L; [lia|]. reflexivity.
  - intros s ps es G1 (n1 & H1). exists (S n1). intros [|m] L; [lia|]. cbn [p_parts]. rewrite H1 by lia. reflexivity.
  - intros ts ps e es G1 H1 G2 (n2 & H2). std_of H1. exists (S (n + n2)). intros [|m] L; [lia|]. cbn [p_parts].
    rewrite <- (app_nil_r ts). rewrite H1; [|lia|intros t r E; discriminate]. rewrite H2 by lia. reflexivity.
Qed.

(* ---------------- statements ---------------- *)
Scheme stmt_mut := Minimality for gr_stmt Sort Prop
  with block_mut := Minimality for gr_block Sort Prop
  with stmts_mut := Minimality for gr_stmts Sort Prop
  with else_mut := Minimality for gr_else Sort Prop
  with cases_mut := Minimality for gr_cases Sort Prop.
Combined Scheme stmt_all from stmt_mut, block_mut, stmts_mut, else_mut, cases_mut.

Lemma gr_complete : forall l ts e, gr l ts e -> std l ts e.
Proof. intros l ts e H. apply ready_std. apply (proj1 complete). exact H. Qed.
Lemma dotted_complete : forall ts m, gr_dotted ts m -> exists n0, forall n r, n0 <= n -> op "." r = None -> p_dotted n (ts ++ r) = Some (m, r).
Proof.
  intros ts m H. induction H as [x I|x ts m I H (n0 & IH)].
  - exists 1. intros [|n] r L O; [lia|]. cbn [p_dotted app]. rewrite name_same by exact I. rewrite O. reflexivity.
  - exists (S n0). intros [|n] r L O; [lia|]. cbn [p_dotted app]. rewrite name_same by exact I. rewrite op_same. rewrite IH by (lia || assumption). reflexivity.
Qed.
Lemma names_complete : forall ts m, gr_names ts m -> exists n0, forall n r, n0 <= n -> op "," r = None -> p_names n (ts ++ r) = Some (m, r).
Proof.
  intros ts m H. induction H as [x I|x ts m I H (n0 & IH)].
  - exists 1. intros [|n] r L O; [lia|]. cbn [p_names app]. rewrite name_same by exact I. rewrite O. reflexivity.
  - exists (S n0). intros [|n] r L O; [lia|]. cbn [p_names app]. rewrite name_same by exact I. rewrite op_same. rewrite IH by (lia || assumption). reflexivity.
Qed.
Lemma note_complete : forall o us, gr_note o us -> exists n0, forall n r, n0 <= n -> stops Test r -> op o r = None -> p_note o n (us ++ r) = Some r.
Proof.
  intros o us [|ts e G1].
  - exists 0. intros n r _ _ O. unfold p_note. cbn [app]. rewrite O. reflexivity.
  - destruct (gr_complete _ _ _ G1) as (n0 & H). exists n0. intros n r L S O. unfold p_note. cbn [app]. rewrite op_same. rewrite H by assumption. reflexivity.
Qed.
Lemma default_complete : forall us d, gr_default us d -> exists n0, forall n r, n0 <= n -> stops Test r -> op "=" r = None -> p_default n (us ++ r) = Some (d, r).
Proof.
  intros us d [|ts e G1].
  - exists 0. intros n r _ _ O. unfold p_default. cbn [app]. rewrite O. reflexivity.
  - destruct (gr_complete _ _ _ G1) as (n0 & H). exists n0. intros n r L S O. unfold p_default. cbn [app]. rewrite op_same. rewrite H by assumption. reflexivity.
Qed.
Lemma default_head : forall us d o r, gr_default us d -> o = ")" \/ o = "," -> stops Test (us ++ TOp o :: r) /\ op ":" (us ++ TOp o :: r) = None.
Proof. intros us d o r [|ts e G1] C; cbn [app]; split; try (apply stops_cons; destruct C; subst; no); apply op_other; destruct C; subst; discriminate. Qed.
Lemma params_complete : forall us ps, gr_params us ps -> exists n0, forall n r, n0 <= n -> p_params n (us ++ TOp ")" :: r) = Some (ps, TOp ")" :: r).
Proof.
  intros us ps H. induction H as [|x ns ts d I N D|x ns ts us d ps I N D H (n0 & IH)].
  - exists 1. intros [|n] r L; [lia|]. reflexivity.
  - destruct (note_complete _ _ N) as (n1 & H1), (default_complete _ _ D) as (n2 & H2). exists (S (n1 + n2)). intros [|n] r L; [lia|]. cbn [p_params app op]. norm.
    rewrite name_same by exact I. destruct (default_head ts d ")" r D (or_introl eq_refl)) as (A & B). rewrite H1 by (lia || assumption).
    rewrite H2; [|lia|apply stops_cons; no|apply op_other; discriminate]. rewrite op_other by discriminate. reflexivity.
  - destruct (note_complete _ _ N) as (n1 & H1), (default_complete _ _ D) as (n2 & H2). exists (S (n0 + n1 + n2)). intros [|n] r L; [lia|]. cbn [p_params app op]. norm.
    rewrite name_same by exact I. destruct (default_head ts d "," (us ++ TOp ")" :: r) D (or_intror eq_refl)) as (A & B). rewrite H1 by (lia || assumption).
    rewrite H2; [|lia|apply stops_cons; no|apply op_other; discriminate]. rewrite op_same. rewrite IH by lia. reflexivity.
Qed.
Lemma pattern_complete : forall us q r, gr_pattern us q -> p_pattern (us ++ r) = Some (q, r).
Proof. intros us q r []; reflexivity. Qed.
Lemma except_complete : forall us xs, gr_except us xs -> exists n0, forall n r, n0 <= n -> p_except n (us ++ r) = Some (xs, r).
Proof.
  intros us xs [x I|ts ys G1].
  - exists 0. intros n r _. unfold p_except. cbn [app op]. rewrite name_same by exact I. reflexivity.
  - destruct (names_complete _ _ G1) as (n0 & H). exists n0. intros n r L. unfold p_except. norm. rewrite op_same. rewrite H by (lia || (apply op_other; discriminate)). cbn [app]. rewrite op_same. reflexivity.
Qed.
Lemma as_complete : forall us n x r, gr_as us n x -> word "as" r = None -> p_as (us ++ r) = Some (n, x, r).
Proof.
  intros us n x r [m I|m y I J] W; unfold p_as; cbn [app].
  - rewrite name_same by exact I. rewrite W. reflexivity.
  - rewrite name_same by exact I. rewrite word_same. rewrite name_same by exact J. reflexivity.
Qed.
Lemma augment_same : forall c o r, In (c, o) augmented -> augment (TOp o :: r) = Some (c, r) /\ stops Test (TOp o :: r) /\ op "=" (TOp o :: r) = None.
Proof. intros c o r H. cbn in H. repeat (destruct H as [H|H]; [injection H as <- <-; split; [reflexivity|split; [apply stops_cons; no|reflexivity]]|]). destruct H. Qed.

Lemma simple_next : forall pkg n l ts e r, gr l ts e -> p_stmt pkg (S n) (ts ++ r) = p_simple n (ts ++ r).
Proof.
  intros pkg n l ts e r H. apply gr_begins in H. destruct H as (t & ts' & -> & S & _). cbn [app p_stmt]. destruct t as [w| | | | | | |]; try reflexivity.
  repeat match goal with |- (if String.eqb w ?k then _ else _) = _ => destruct (String.eqb_spec w k) as [->|_]; [discriminate S|] end. reflexivity.
Qed.
Definition stop_stmt (r : list token) : Prop := word "else" r = None /\ word "elif" r = None.
Definition stop_stmts (r : list token) : Prop := match r with [] | TDedent :: _ => True | _ => False end.
Lemma stmt_begins : forall pkg ts s r, gr_stmt pkg ts s -> stop_stmt (ts ++ r) /\ ~ stop_stmts (ts ++ r).
Proof.
  assert (B : forall l a e u r, gr l a e -> stop_stmt ((a ++ u) ++ r) /\ ~ stop_stmts ((a ++ u) ++ r)).
  { intros l a e u r H. apply gr_begins in H. destruct H as (t & a' & -> & S & _). cbn [app]. split.
    - split; apply word_none; intros r' E; injection E as -> _; discriminate S.
    - destruct t; cbn; auto. discriminate S. }
  intros pkg ts s r H. destruct H; try (eapply B; eassumption); (split; [split; reflexivity|cbn; auto]).
Qed.
Lemma block_begins : forall pkg us b, gr_block pkg us b -> exists u, us = TOp ":" :: u.
Proof. intros pkg us b []. eexists. reflexivity. Qed.

Theorem stmts_complete : forall pkg,
  (forall ts s, gr_stmt pkg ts s -> exists n0, forall n r, n0 <= n -> stop_stmt r -> p_stmt pkg n (ts ++ r) = Some (s, r)) /\
  (forall ts b, gr_block pkg ts b -> exists n0, forall n r, n0 <= n -> p_block pkg n (ts ++ r) = Some (b, r)) /\
  (forall ts b, gr_stmts pkg ts b -> exists n0, forall n r, n0 <= n -> stop_stmts r -> p_stmts pkg n (ts ++ r) = Some (b, r)) /\
  (forall ts b, gr_else pkg ts b -> exists n0, forall n r, n0 <= n -> stop_stmt r -> p_else pkg n (ts ++ r) = Some (b, r)) /\
  (forall ts cs, gr_cases pkg ts cs -> exists n0, forall n r, n0 <= n -> word "case" r = None -> p_cases pkg n (ts ++ r) = Some (cs, r)).
Proof.
  intros pkg.
  Ltac gc K := let n := fresh "n" in let H := fresh "H" in destruct (gr_complete _ _ _ K) as (n & H).
  Ltac begin k := exists (S k); intros [|m] r L; [lia|]; intros Q; norm.
  Ltac dispatch := cbn [p_stmt]; repeat match goal with |- (if String.eqb ?a ?b then _ else _) = _ => let v := eval vm_compute in (String.eqb a b) in change (String.eqb a b) with v; cbv iota end.
  Ltac nl := apply stops_cons; no.
  apply (stmt_all pkg).
  - intros ts e G1. gc G1. begin n. rewrite (simple_next pkg m Test ts e _ G1). unfold p_simple. rewrite H by (lia || nl). reflexivity.
  - intros ts us a e G1 T G2. gc G1. gc G2. begin (n + n0). rewrite (simple_next pkg m Test ts a _ G1). unfold p_simple. rewrite H by (lia || nl). rewrite op_same. rewrite H0 by (lia || nl).
    cbn [app newl]. apply targetb_iff in T. rewrite T. reflexivity.
  - intros ts us a c o e G1 T I G2. gc G1. gc G2. begin (n + n0). rewrite (simple_next pkg m Test ts a _ G1). unfold p_simple.
    destruct (augment_same c o (us ++ TNewline :: r) I) as (A & B & C). rewrite H by (lia || assumption). rewrite C, A. rewrite H0 by (lia || nl). cbn [app newl]. apply targetb_iff in T. rewrite T. reflexivity.
  - begin 0.
  - intros ts e G1. gc G1. begin n. cbn [p_stmt]. change (("return" =? "return")%string) with true. cbv iota. unfold p_return.
    assert (E : newl (ts ++ TNewline :: r) = None) by (destruct (gr_begins _ _ _ G1) as (t & ts' & -> & S & _); destruct t; try reflexivity; discriminate S). rewrite E.
    rewrite H by (lia || nl). reflexivity.
  - intros ts e G1. gc G1. begin n. change (p_stmt pkg (S m) (TName "raise" :: ts ++ TNewline :: r)) with (p_raise m (ts ++ TNewline :: r)). unfold p_raise. rewrite H by (lia || nl). reflexivity.
  - begin 0.
  - intros x I. begin 0. cbn [app]. change (p_stmt pkg (S m) (TName "import" :: TName x :: TNewline :: r)) with (p_import m (TName x :: TNewline :: r)). unfold p_import. apply keyword_iff in I. rewrite I. reflexivity.
  - intros ts md x G1 I. destruct (dotted_complete _ _ G1) as (n1 & H1). begin n1. change (p_stmt pkg (S m) (TName "import" :: ts ++ TName "as" :: TName x :: TNewline :: r)) with (p_import m (ts ++ TName "as" :: TName x :: TNewline :: r)).
    assert (E : p_import m (ts ++ TName "as" :: TName x :: TNewline :: r) = match p_dotted m (ts ++ TName "as" :: TName x :: TNewline :: r) with
      | Some (m, r) => match word "as" r with Some r1 => match name r1 with Some (x, r2) => match newl r2 with Some r3 => Some (SImport m x, r3) | None => None end | None => None end | None => None end
      | None => None end) by (destruct G1; reflexivity).
    rewrite E. rewrite H1 by (lia || reflexivity). cbn [app]. rewrite word_same, name_same by exact I. reflexivity.
  - intros ts us md x y G1 G2. destruct (dotted_complete _ _ G1) as (n1 & H1). begin n1.
    change (p_stmt pkg (S m) (TName "from" :: ts ++ TName "import" :: us ++ TNewline :: r)) with (p_from pkg m (ts ++ TName "import" :: us ++ TNewline :: r)). unfold p_from.
    assert (E : op "." (ts ++ TName "import" :: us ++ TNewline :: r) = None) by (destruct G1; reflexivity). rewrite E. rewrite H1 by (lia || reflexivity). rewrite word_same.
    rewrite (as_complete _ _ _ _ G2) by reflexivity. reflexivity.
  - intros ts us md x y G1 G2. destruct (dotted_complete _ _ G1) as (n1 & H1). begin n1.
    change (p_stmt pkg (S m) (TName "from" :: TOp "." :: ts ++ TName "import" :: us ++ TNewline :: r)) with (p_from pkg m (TOp "." :: ts ++ TName "import" :: us ++ TNewline :: r)). unfold p_from.
    rewrite op_same. rewrite H1 by (lia || reflexivity). rewrite word_same. rewrite (as_complete _ _ _ _ G2) by reflexivity. reflexivity.
  - (* if *) intros ts us vs c a b G1 G2 (n2 & H2) G3 (n3 & H3). gc G1. begin (n + n2 + n3). dispatch.
    rewrite H; [|lia|destruct (block_begins _ _ _ G2) as (u & ->); cbn [app]; nl]. rewrite H2 by lia. rewrite H3 by (lia || assumption). reflexivity.
  - (* match *) intros ts us e cs G1 G2 (n2 & H2). gc G1. begin (n + n2). dispatch. rewrite H by (lia || nl). change ((":" =? ":")%string) with true. cbv iota.
    rewrite H2 by (lia || reflexivity). reflexivity.
  - (* for *) intros x ts us e b I G1 G2 (n2 & H2). gc G1. begin (n + n2). dispatch. rewrite name_same by exact I. rewrite word_same.
    rewrite H; [|lia|destruct (block_begins _ _ _ G2) as (u & ->); cbn [app]; nl]. rewrite H2 by lia. reflexivity.
  - (* with *) intros ts x us e b G1 I G2 (n2 & H2). gc G1. begin (n + n2). dispatch. rewrite H by (lia || nl). rewrite word_same. rewrite name_same by exact I. rewrite H2 by lia. reflexivity.
  - (* try *) intros ts us vs x b xs h G1 (n1 & H1) G2 I G3 (n3 & H3). destruct (except_complete _ _ G2) as (n2 & H2). begin (n1 + n2 + n3). dispatch.
    rewrite H1 by lia. rewrite word_same. rewrite H2 by lia. rewrite word_same. rewrite name_same by exact I. rewrite H3 by lia. reflexivity.
  - (* def *) intros f ts us vs ps b I G1 G2 G3 (n3 & H3). destruct (params_complete _ _ G1) as (n1 & H1), (note_complete _ _ G2) as (n2 & H2). begin (n1 + n2 + n3). dispatch.
    rewrite name_same by exact I. rewrite op_same. rewrite H1 by lia. rewrite op_same.
    rewrite H2; [|lia|destruct (block_begins _ _ _ G3) as (u & ->); cbn [app]; nl|destruct (block_begins _ _ _ G3) as (u & ->); reflexivity]. rewrite H3 by lia. reflexivity.
  - (* class *) intros c ts b I G1 (n1 & H1). begin n1. dispatch. rewrite name_same by exact I.
    assert (E : op "(" (ts ++ r) = None) by (destruct (block_begins _ _ _ G1) as (u & ->); reflexivity). rewrite E. rewrite H1 by lia. reflexivity.
  - intros c ts b I G1 (n1 & H1). begin n1. dispatch. rewrite name_same by exact I. rewrite !op_same. rewrite H1 by lia. reflexivity.
  - (* block *) intros ts s ss G1 (n1 & H1). exists (S n1). intros [|m] r L; [lia|]. norm. cbn [p_block]. change ((":" =? ":")%string) with true. cbv iota. rewrite H1 by (lia || exact I). reflexivity.
  - (* statements *) exists 1. intros [|m] r L Q; [lia|]. cbn [app]. destruct r as [|[] r]; try contradiction; reflexivity.
  - intros ts us s ss G1 (n1 & H1) G2 (n2 & H2). exists (S (n1 + n2)). intros [|m] r L Q; [lia|]. norm.
    assert (E : p_stmts pkg (S m) (ts ++ us ++ r) = match p_stmt pkg m (ts ++ us ++ r) with
      | Some (s, r) => match p_stmts pkg m r with Some (ss, r1) => Some (s :: ss, r1) | None => None end | None => None end).
    { destruct (stmt_begins pkg ts s (us ++ r) G1) as (_ & N). cbn [p_stmts]. destruct (ts ++ us ++ r) as [|t x]; [exfalso; apply N; exact I|]. destruct t; try reflexivity. exfalso; apply N; exact I. }
    rewrite E. rewrite H1; [|lia|].
    + rewrite H2 by (lia || exact Q). reflexivity.
    + destruct G2 as [|ts' us' s' ss' G2 _].
      * cbn [app]. destruct r as [|[] r]; try contradiction; split; reflexivity.
      * rewrite <- app_assoc. apply (stmt_begins pkg ts' s' _ G2).
  - (* else *) exists 1. intros [|m] r L (Q1 & Q2); [lia|]. cbn [app p_else]. rewrite Q1, Q2. reflexivity.
  - intros ts b G1 (n1 & H1). begin n1. cbn [p_else]. rewrite word_same. rewrite H1 by lia. reflexivity.
  - intros ts us vs c a b G1 G2 (n2 & H2) G3 (n3 & H3). gc G1. begin (n + n2 + n3). cbn [p_else]. rewrite word_same, word_other by discriminate.
    rewrite H; [|lia|destruct (block_begins _ _ _ G2) as (u & ->); cbn [app]; nl]. rewrite H2 by lia. rewrite H3 by (lia || assumption). reflexivity.
  - (* cases *) intros ts us q b G1 G2 (n2 & H2). begin n2. cbn [p_cases]. rewrite word_same. rewrite (pattern_complete _ _ _ G1). rewrite H2 by lia. rewrite Q. reflexivity.
  - intros ts us vs q b cs G1 G2 (n2 & H2) G3 (n3 & H3). begin (n2 + n3). cbn [p_cases]. rewrite word_same. rewrite (pattern_complete _ _ _ G1). rewrite H2 by lia.
    assert (E : exists x, word "case" (vs ++ r) = Some x) by (destruct G3; cbn [app]; eexists; apply word_same). destruct E as (x & E). rewrite E. rewrite H3 by (lia || exact Q). reflexivity.
Qed.

Theorem stmts_unique : forall pkg ts b1 b2, gr_stmts pkg ts b1 -> gr_stmts pkg ts b2 -> b1 = b2.
Proof.
  intros pkg ts b1 b2 H1 H2. apply (proj1 (proj2 (proj2 (stmts_complete pkg)))) in H1, H2. destruct H1 as (n1 & H1), H2 as (n2 & H2).
  specialize (H1 (n1 + n2) [] ltac:(lia) I). specialize (H2 (n1 + n2) [] ltac:(lia) I). congruence.
Qed.
Theorem gr_unique : forall l ts e1 e2, gr l ts e1 -> gr l ts e2 -> e1 = e2.
Proof.
  intros l ts e1 e2 H1 H2. apply gr_complete in H1, H2. destruct H1 as (n1 & H1), H2 as (n2 & H2).
  specialize (H1 (n1 + n2) [] ltac:(lia) ltac:(intros t r E; discriminate)). specialize (H2 (n1 + n2) [] ltac:(lia) ltac:(intros t r E; discriminate)). congruence.
Qed.
Theorem module_unique : forall pkg text m1 m2, module_text pkg text m1 -> module_text pkg text m2 -> m1 = m2.
Proof. intros pkg text m1 m2 (t1 & b1 & T1 & G1 & ->) (t2 & b2 & T2 & G2 & ->). rewrite T1 in T2. injection T2 as <-. rewrite (stmts_unique _ _ _ _ G1 G2). reflexivity. Qed.
