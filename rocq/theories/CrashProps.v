(* A console that fails: the interpreter with a failing print does what the other does, up to there. *)
From Coq Require Import List String Ascii NArith ZArith Bool Arith Lia.
From Verif Require Import PyBase PyRepr Json Record Api Utf8 PySyntax PyEval SrcCheck PyHeap PyCrash.
Import ListNotations.
Open Scope string_scope.
Open Scope list_scope.
Local Open Scope nat_scope.

(* ---- induction on expressions and statements ---- *)
Section ExprInd.
Variable P : expr -> Prop.
Definition opt_all (o : option expr) : Prop := match o with Some e => P e | None => True end.
Definition sub_all (f : expr) : Prop := match f with EAttr e _ => P e | _ => True end.
Hypothesis C1 : forall t, P (EStr t).
Hypothesis C2 : forall z, P (EInt z).
Hypothesis C3 : forall b, P (EBool b).
Hypothesis C4 : P ENone.
Hypothesis C5 : forall x, P (EName x).
Hypothesis C6 : forall e a, P e -> P (EAttr e a).
Hypothesis C7 : forall c i, P c -> P i -> P (EItem c i).
Hypothesis C8 : forall c lo hi, P c -> opt_all lo -> opt_all hi -> P (ESlice c lo hi).
Hypothesis C9 : forall f args kws, P f -> sub_all f -> Forall P args -> Forall (fun p => P (snd p)) kws -> P (ECall f args kws).
Hypothesis C10 : forall op a b, P a -> P b -> P (EBin op a b).
Hypothesis C11 : forall a, P a -> P (ENeg a).
Hypothesis C12 : forall a, P a -> P (ENot a).
Hypothesis C13 : forall a b, P a -> P b -> P (EAnd a b).
Hypothesis C14 : forall a b, P a -> P b -> P (EOr a b).
Hypothesis C15 : forall op a b, P a -> P b -> P (ECmp op a b).
Hypothesis C16 : forall c a b, P c -> P a -> P b -> P (EIfExp c a b).
Hypothesis C17 : forall l, Forall P l -> P (EList l).
Hypothesis C18 : forall l, Forall P l -> P (ETuple l).
Hypothesis C19 : forall l, Forall (fun p => P (fst p) /\ P (snd p)) l -> P (EDict l).
Hypothesis C20 : forall l, Forall P l -> P (EFString l).
Lemma expr_all : forall e, P e.
Proof.
  refine (fix IH (e : expr) : P e :=
    let IL := fix go (l : list expr) : Forall P l := match l with [] => Forall_nil _ | e :: l' => Forall_cons _ (IH e) (go l') end in
    match e with
    | EStr t => C1 t | EInt z => C2 z | EBool b => C3 b | ENone => C4 | EName x => C5 x
    | EAttr e a => C6 e a (IH e)
    | EItem c i => C7 c i (IH c) (IH i)
    | ESlice c lo hi => C8 c lo hi (IH c)
        (match lo return opt_all lo with Some e => IH e | None => Logic.I end)
        (match hi return opt_all hi with Some e => IH e | None => Logic.I end)
    | ECall f args kws => C9 f args kws (IH f)
        (match f return sub_all f with EAttr e _ => IH e | _ => Logic.I end) (IL args)
        ((fix go (l : list (string * expr)) : Forall (fun p => P (snd p)) l :=
            match l with [] => Forall_nil _ | (a, e) :: l' => Forall_cons (a, e) (IH e) (go l') end) kws)
    | EBin op a b => C10 op a b (IH a) (IH b)
    | ENeg a => C11 a (IH a)
    | ENot a => C12 a (IH a)
    | EAnd a b => C13 a b (IH a) (IH b)
    | EOr a b => C14 a b (IH a) (IH b)
    | ECmp op a b => C15 op a b (IH a) (IH b)
    | EIfExp c a b => C16 c a b (IH c) (IH a) (IH b)
    | EList l => C17 l (IL l)
    | ETuple l => C18 l (IL l)
    | EDict l => C19 l
        ((fix go (l : list (expr * expr)) : Forall (fun p => P (fst p) /\ P (snd p)) l :=
            match l with [] => Forall_nil _ | (a, b) :: l' => Forall_cons (a, b) (conj (IH a) (IH b)) (go l') end) l)
    | EFString l => C20 l (IL l)
    end).
Qed.
End ExprInd.
Section StmtInd.
Variable P : stmt -> Prop.
Hypothesis D1 : forall e, P (SExpr e).
Hypothesis D2 : forall t e, P (SAssign t e).
Hypothesis D3 : forall t op e, P (SAug t op e).
Hypothesis D4 : forall e, P (SReturn e).
Hypothesis D5 : forall e, P (SRaise e).
Hypothesis D6 : forall c a b, Forall P a -> Forall P b -> P (SIf c a b).
Hypothesis D7 : forall e cases, Forall (fun p => Forall P (snd p)) cases -> P (SMatch e cases).
Hypothesis D8 : forall x e b, Forall P b -> P (SFor x e b).
Hypothesis D9 : forall e x b, Forall P b -> P (SWith e x b).
Hypothesis D10 : forall b excs x h, Forall P b -> Forall P h -> P (STry b excs x h).
Hypothesis D11 : P SContinue.
Hypothesis D12 : forall f ps b, P (SDef f ps b).
Hypothesis D13 : forall c b, P (SClass c b).
Hypothesis D14 : forall m x, P (SImport m x).
Hypothesis D15 : forall m n x, P (SFrom m n x).
Lemma stmt_all : forall c, P c.
Proof.
  refine (fix IH (c : stmt) : P c :=
    let IL := fix go (l : list stmt) : Forall P l := match l with [] => Forall_nil _ | c :: l' => Forall_cons _ (IH c) (go l') end in
    match c with
    | SExpr e => D1 e | SAssign t e => D2 t e | SAug t op e => D3 t op e | SReturn e => D4 e | SRaise e => D5 e
    | SIf c a b => D6 c a b (IL a) (IL b)
    | SMatch e cases => D7 e cases
        ((fix go (l : list (pattern * list stmt)) : Forall (fun p => Forall P (snd p)) l :=
            match l with [] => Forall_nil _ | (p, b) :: l' => Forall_cons (p, b) (IL b) (go l') end) cases)
    | SFor x e b => D8 x e b (IL b)
    | SWith e x b => D9 e x b (IL b)
    | STry b excs x h => D10 b excs x h (IL b) (IL h)
    | SContinue => D11 | SDef f ps b => D12 f ps b | SClass c b => D13 c b | SImport m x => D14 m x | SFrom m n x => D15 m n x
    end).
Qed.
End StmtInd.

(* ---- the relation ---- *)
Section Crash.
Variable prog : list (string * pymodule).
Variable files : disk.
Variable room : nat.
Variable err : exc.

(* ---- the text: what stands in a try statement prints nothing, as it calls only int and format; int means int() ---- *)
Section Text.
Variable m : string.
Variable lv : list string.
Fixpoint pure (e : expr) : bool :=
  match e with
  | EStr _ | EInt _ | EBool _ | ENone | EName _ => true
  | EItem c (EInt _) => pure c
  | EBin _ a b => pure a && pure b
  | ECall (EAttr (EStr _) a) args _ => String.eqb a "format" && forallb pure args
  | ECall (EName x) [a] [] => String.eqb x "int" && negb (existsb (String.eqb "int") lv) && match hstatic prog m (module_body prog m) "int" with None => true | Some _ => false end && pure a
  | _ => false
  end.
Definition not_int (x : string) : bool := negb (String.eqb x "int").
Fixpoint calm (c : stmt) : bool :=
  match c with
  | SAssign (EName x) _ | SAug (EName x) _ _ => not_int x
  | SIf _ a b => forallb calm a && forallb calm b
  | SMatch _ cases => forallb (fun p => forallb calm (snd p)) cases
  | SFor x _ b | SWith _ x b => not_int x && forallb calm b
  | STry b _ x h => match b with [SReturn (Some e)] => pure e | _ => false end && not_int x && forallb calm h
  | _ => true
  end.
End Text.
Definition calm_def (m : string) (c : stmt) : bool := match c with SDef _ ps body => forallb (calm m (local_names ps body)) body | _ => true end.
Definition calm_defs (m : string) (c : stmt) : bool := calm m [] c && match c with SClass _ b => forallb (calm_def m) b | _ => calm_def m c end.
Definition calm_prog (p : list (string * pymodule)) : bool := forallb (fun mb => forallb (calm_defs (fst mb)) (snd mb)) p.
Hypothesis prog_calm : calm_prog prog = true.
Lemma get_calm : forall m b, get m prog = Some b -> forallb (calm_defs m) b = true.
Proof.
  assert (X : forall p m b, calm_prog p = true -> get m p = Some b -> forallb (calm_defs m) b = true).
  { induction p as [|[n c] p IH]; intros m b H G; [discriminate G|]. cbn [calm_prog forallb fst snd] in H. apply andb_true_iff in H as [H1 H2]. cbn [get] in G. destruct (String.eqb_spec m n) as [->|]; [injection G as <-; exact H1|eapply IH; eassumption]. }
  intros m b G. exact (X prog m b prog_calm G).
Qed.
Lemma module_calm : forall m, forallb (calm_defs m) (module_body prog m) = true.
Proof. intro m. unfold module_body. destruct (get m prog) eqn:G; [apply get_calm; exact G|reflexivity]. Qed.
Lemma find_calm : forall m b f ps body, forallb (calm_def m) b = true -> find_def b f = Some (ps, body) -> forallb (calm m (local_names ps body)) body = true.
Proof.
  intros m. induction b as [|c b IH]; intros f ps body H F; [discriminate F|]. cbn [forallb] in H. apply andb_true_iff in H as [H1 H2]. destruct c; cbn [find_def] in F; try (eapply IH; eassumption).
  destruct (String.eqb f f0); [injection F as <- <-; exact H1|eapply IH; eassumption].
Qed.
Lemma function_calm : forall m f ps body, find_def (module_body prog m) f = Some (ps, body) -> forallb (calm m (local_names ps body)) body = true.
Proof.
  intros m f ps body. generalize (module_calm m). generalize (module_body prog m). induction l as [|c b IH]; intros H F; [discriminate F|]. cbn [forallb] in H. apply andb_true_iff in H as [H1 H2]. destruct c; cbn [find_def] in F; try (apply IH; assumption).
  unfold calm_defs in H1. apply andb_true_iff in H1 as [_ H1]. destruct (String.eqb f f0); [injection F as <- <-; exact H1|apply IH; assumption].
Qed.
Lemma method_calm : forall m c f ps body, find_def (class_body prog m c) f = Some (ps, body) -> forallb (calm m (local_names ps body)) body = true.
Proof.
  intros m c f ps body F. unfold class_body in F. destruct (find_class (module_body prog m) c) as [cb|] eqn:E; [|discriminate F]. eapply find_calm; [|exact F]. clear F. revert E. generalize (module_calm m). generalize (module_body prog m).
  induction l as [|d b IH]; intros H E; [discriminate E|]. cbn [forallb] in H. apply andb_true_iff in H as [H1 H2]. destruct d; cbn [find_class] in E; try (apply IH; assumption).
  unfold calm_defs in H1. apply andb_true_iff in H1 as [_ H1]. destruct (String.eqb c c0); [injection E as <-; exact H1|apply IH; assumption].
Qed.
(* no module has a variable of that name *)
Definition Inv (s : hst) : Prop := forall m, hget_glob m "int" (hglob s) = None.

Definition within (s : hst) : Prop := List.length (hout s) <= room.
Definition grows (s s' : hst) : Prop := exists d, hout s' = hout s ++ d.
Definition after {A} (s s' : hst) (R C : hres A) : Prop :=
  grows s s' /\ (within s -> (within s' -> C = R) /\ (~ within s' -> exists s'', C = HRaise err s'' /\ hout s'' = firstn room (hout s'))).
Definition crash {A} (s : hst) (R C : hres A) : Prop :=
  Inv s -> match R with HStuck _ => True | HOk _ s' | HRaise _ s' => Inv s' /\ after s s' R C end.

Lemma grows_refl : forall s s', hout s' = hout s -> grows s s'.
Proof. intros s s' E. exists []. rewrite app_nil_r. exact E. Qed.
Lemma grows_trans : forall s1 s2 s3, grows s1 s2 -> grows s2 s3 -> grows s1 s3.
Proof. intros s1 s2 s3 [d E] [d' E']. exists (d ++ d'). rewrite E', E, app_assoc. reflexivity. Qed.
Lemma after_same : forall A (R : hres A) s s', hout s' = hout s -> after s s' R R.
Proof. intros A R s s' E. split; [apply grows_refl; exact E|]. intro W. split; [reflexivity|]. intro N. destruct N. unfold within in *. rewrite E. exact W. Qed.
Lemma Inv_glob : forall s s', hglob s' = hglob s -> Inv s -> Inv s'.
Proof. intros s s' E H m. rewrite E. apply H. Qed.
Lemma crash_ok : forall A (a : A) s s', hout s' = hout s -> hglob s' = hglob s -> crash s (HOk a s') (HOk a s').
Proof. intros A a s s' E G K. split; [eapply Inv_glob; eassumption|apply after_same; exact E]. Qed.
Lemma crash_raise : forall A e s s', hout s' = hout s -> hglob s' = hglob s -> crash s (@HRaise A e s') (HRaise e s').
Proof. intros A e s s' E G K. split; [eapply Inv_glob; eassumption|apply after_same; exact E]. Qed.
Lemma crash_ret : forall A (a : A) s, crash s (HOk a s) (HOk a s).
Proof. intros. apply crash_ok; reflexivity. Qed.
Lemma crash_stuck : forall A w s (C : hres A), crash s (HStuck w) C.
Proof. intros. exact (fun _ => I). Qed.
Lemma crash_some : forall A B w (o : option A) (k k' : A -> hres B) s, (forall a, crash s (k a) (k' a)) -> crash s (hsome w o k) (hsome w o k').
Proof. intros A B w [a|] k k' s H; [apply H|apply crash_stuck]. Qed.
Lemma after_out : forall A (R C : hres A) s s0 s', hout s = hout s0 -> after s s' R C -> after s0 s' R C.
Proof. intros A R C s s0 s' E [G H]. unfold after, grows, within in *. rewrite <- E. split; assumption. Qed.
Lemma crash_out : forall A (R C : hres A) s s0, hout s = hout s0 -> (Inv s0 -> Inv s) -> crash s R C -> crash s0 R C.
Proof. intros A R C s s0 E G H K. specialize (H (G K)). destruct R; try exact I; destruct H as [H1 H2]; (split; [exact H1|eapply after_out; eassumption]). Qed.
Lemma over : forall s s', grows s s' -> ~ within s -> ~ within s' /\ firstn room (hout s') = firstn room (hout s).
Proof.
  intros s s' [d E] N. unfold within in *. rewrite E, app_length. split; [lia|]. rewrite firstn_app. replace (room - List.length (hout s)) with 0 by lia. rewrite app_nil_r. reflexivity.
Qed.
Lemma within_dec : forall s, within s \/ ~ within s.
Proof. intro s. unfold within. lia. Qed.
(* one thing after another, whichever way the first ends *)
Lemma after_then : forall A B (R1 C1 : hres A) (R2 C2 : hres B) s s1 s2, after s s1 R1 C1 -> (C1 = R1 -> after s1 s2 R2 C2) -> grows s1 s2 -> (forall s'', C1 = HRaise err s'' -> C2 = HRaise err s'') -> after s s2 R2 C2.
Proof.
  intros A B R1 C1 R2 C2 s s1 s2 [G K] H G2 X. split; [eapply grows_trans; eassumption|]. intro W. destruct (K W) as [K1 K2]. destruct (within_dec s1) as [W1|N1].
  - exact (proj2 (H (K1 W1)) W1).
  - destruct (K2 N1) as (s'' & E & O). destruct (over _ _ G2 N1) as [N2 F]. split; [contradiction|]. intros _. exists s''. split; [apply X; exact E|congruence].
Qed.
Lemma crash_bind : forall A B (R C : hres A) (f g : A -> hst -> hres B) s, crash s R C -> (forall a s1, crash s1 (f a s1) (g a s1)) -> crash s (hbind R f) (hbind C g).
Proof.
  intros A B R C f g s H K V. specialize (H V). destruct R as [a s1|e s1|w]; [|cbn [hbind]|exact I]; destruct H as [V1 H].
  - cbn [hbind]. pose proof (K a s1 V1) as K1. destruct (f a s1) as [b s2|e s2|w] eqn:F; [| |exact I]; destruct K1 as [V2 K1]; (split; [exact V2|]);
      (eapply after_then; [exact H| |exact (proj1 K1)|intros s'' ->; reflexivity]; intros ->; cbn [hbind]; exact K1).
  - destruct H as [G H]. split; [exact V1|]. split; [exact G|]. intro W. destruct (H W) as [H1 H2]. split; [intro W1; rewrite (H1 W1); reflexivity|].
    intro N. destruct (H2 N) as (s'' & -> & E). exists s''. split; [reflexivity|exact E].
Qed.
Lemma crash_finally : forall A (R C : hres A) f s, (forall s, hout (f s) = hout s) -> (forall s, hglob (f s) = hglob s) -> crash s R C -> crash s (finally R f) (finally C f).
Proof.
  intros A R C f s F FG H V. specialize (H V). assert (X : forall s' R C (R' : hres A), after s s' R C -> R' = finally R f -> after s (f s') R' (finally C f)).
  { clear R C H. intros s' R C R' [[d G] H] ->. split; [exists d; rewrite F; exact G|]. intro W. destruct (H W) as [H1 H2]. unfold within in *. rewrite F. split; [intro W1; rewrite (H1 W1); reflexivity|].
    intro N. destruct (H2 N) as (s'' & -> & E). exists (f s''). split; [reflexivity|rewrite F; exact E]. }
  destruct R as [a s1|e s1|w]; [| |exact I]; cbn [finally] in *; destruct H as [V1 H]; (split; [eapply Inv_glob; [apply FG|exact V1]|eapply X; [exact H|reflexivity]]).
Qed.

(* ---- the library ---- *)
Definition silent {A} (s : hst) (R : hres A) : Prop := match R with HStuck _ => True | HOk _ s' | HRaise _ s' => hout s' = hout s /\ hglob s' = hglob s end.
Lemma silent_crash : forall A (R : hres A) s, silent s R -> crash s R R.
Proof. intros A [a s'|e s'|w] s H V; [| |exact I]; destruct H as [H1 H2]; (split; [eapply Inv_glob; eassumption|apply after_same; exact H1]). Qed.
Ltac quiet := repeat (first [exact I | split; reflexivity | match goal with |- silent _ (match ?x with _ => _ end) => destruct x end]).
Lemma prim_silent : forall m f args kws s, String.eqb m "builtins" && String.eqb f "print" = false -> silent s (hprim prog files m f args kws s).
Proof.
  intros m f args kws s H. unfold hprim. rewrite H. unfold hnew. destruct kws as [|kw kws].
  - quiet.
  - quiet.
Qed.
Lemma prim_print : forall args kws s, match hprim prog files "builtins" "print" args kws s with HOk _ s' => (exists ev, hout s' = hout s ++ [ev]) /\ hglob s' = hglob s | HRaise _ _ => False | HStuck _ => True end.
Proof.
  intros args kws s. unfold hprim. destruct kws as [|kw kws].
  - cbn [String.eqb Ascii.eqb Bool.eqb andb]. repeat (first [exact I | split; [eexists; reflexivity|reflexivity] | match goal with |- match (match ?x with _ => _ end) with _ => _ end => destruct x end]).
  - repeat (first [exact I | match goal with |- match (match ?x with _ => _ end) with _ => _ end => destruct x end]).
Qed.
Lemma crash_prim : forall m f args kws s, crash s (hprim prog files m f args kws s) (failing prog files room err m f args kws s).
Proof.
  intros m f args kws s V. unfold failing. destruct (String.eqb m "builtins" && String.eqb f "print") eqn:E.
  - apply andb_true_iff in E as [E1 E2]. apply String.eqb_eq in E1 as ->. apply String.eqb_eq in E2 as ->. pose proof (prim_print args kws s) as P. destruct (hprim prog files "builtins" "print" args kws s) as [v s'|e s'|w]; [|destruct P|exact I].
    destruct P as [(ev & P) PG]. cbn [andb]. split; [eapply Inv_glob; eassumption|]. split; [exists [ev]; exact P|]. intro W. unfold within in *. rewrite P, app_length. cbn [List.length]. destruct (Nat.leb_spec room (List.length (hout s))) as [L|L].
    + split; [lia|]. intros _. exists s. split; [reflexivity|]. assert (Q : List.length (hout s) = room) by lia. rewrite <- Q, firstn_app, Nat.sub_diag, firstn_all, app_nil_r. reflexivity.
    + split; [reflexivity|lia].
  - pose proof (prim_silent m f args kws s E) as P. destruct (hprim prog files m f args kws s) as [v s'|e s'|w]; [| |exact I]; destruct P as [P1 P2]; (split; [eapply Inv_glob; eassumption|apply after_same; exact P1]).
Qed.

(* ---- calls ---- *)
Notation fail := (failing prog files room err).
Definition runs := string -> list (string * option expr) -> list stmt -> list hval -> hst -> hres hval.
Section Calls.
Variables hr gr : runs.
Hypothesis run_crash : forall m ps body args s, forallb (calm m (local_names ps body)) body = true -> crash s (hr m ps body args s) (gr m ps body args s).

Lemma crash_new : forall A o s (k k' : nat -> hst -> hres A), (forall a s, crash s (k a s) (k' a s)) -> crash s (hnew o s k) (hnew o s k').
Proof. intros A o s k k' H. unfold hnew. eapply crash_out; [| |apply H]; [reflexivity|exact (fun v => v)]. Qed.
Lemma crash_call : forall f args kws s, crash s (hcall_value prog files hr f args kws s) (gcall_value prog fail gr f args kws s).
Proof.
  intros f args kws s. destruct f; try exact (fun _ => I); cbn [hcall_value gcall_value].
  - destruct kws; [|exact (fun _ => I)]. destruct (find_def (module_body prog m) f) as [[ps body]|] eqn:D; [apply run_crash; eapply function_calm; exact D|exact (fun _ => I)].
  - destruct kws; [|exact (fun _ => I)]. destruct (find_def (class_body prog m c) "__init__") as [[ps body]|] eqn:D.
    + apply crash_new. intros a s1. apply crash_bind; [apply run_crash; eapply method_calm; exact D|intros; apply crash_ret].
    + destruct args; [|exact (fun _ => I)]. apply crash_new. intros; apply crash_ret.
  - apply crash_prim.
Qed.
Lemma crash_method : forall w a args s, crash s (hcall_method prog files hr w a args s) (gcall_method prog fail gr w a args s).
Proof.
  intros w a args s. destruct w as [| | | |t| | | | | | | |r| | | | |]; try exact (fun _ => I).
  - unfold hcall_method, gcall_method. apply silent_crash. quiet.
  - cbn [hcall_method gcall_method]. destruct (at_ s r) as [[m c attrs|f items|t|l rows|bs|]|]; try exact (fun _ => I).
    + destruct (get a attrs); [apply crash_call|]. destruct (find_def (class_body prog m c) a) as [[ps body]|] eqn:D; [apply run_crash; eapply method_calm; exact D|exact (fun _ => I)].
    + destruct f; [exact (fun _ => I)|]. apply silent_crash. quiet.
    + apply silent_crash. quiet.
    + apply silent_crash. quiet.
    + apply silent_crash. quiet.
Qed.
Lemma crash_item : forall c i s, crash s (hget_item prog files hr c i s) (gget_item prog fail gr c i s).
Proof.
  intros c i s. destruct c as [| | | |t| | | | | | | |r| | | | |]; try exact (fun _ => I); destruct i as [| |z| |key| | | | | | | | | | | | |]; try exact (fun _ => I); cbn [hget_item gget_item].
  - apply silent_crash. quiet.
  - destruct (at_ s r) as [[| f items | | | |]|]; try exact (fun _ => I). destruct (assoc key items); [apply crash_ret|]. destruct f as [g|]; [|exact (fun _ => I)].
    apply crash_bind; [apply crash_call|]. intros v s1. destruct (at_ s1 r) as [[| f' items' | | | |]|]; try exact (fun _ => I). apply crash_ok; reflexivity.
Qed.

(* ---- expressions ---- *)
Section Function.
Variable m : string.
Variable lv : list string.
Notation HE := (heval prog files hr m lv).
Notation GE := (geval prog fail gr m lv).
Definition ecrash (e : expr) : Prop := forall s, crash s (HE e s) (GE e s).
Lemma crash_list : forall l, Forall ecrash l -> forall s, crash s (heval_list HE l s) (heval_list GE l s).
Proof.
  intros l F. induction F as [|e l E F IH]; intro s; [apply crash_ret|]. cbn [heval_list]. apply crash_bind; [apply E|]. intros v s1. apply crash_bind; [apply IH|]. intros vs s2. apply crash_ret.
Qed.
Lemma crash_kws : forall l, Forall (fun p => ecrash (snd p)) l -> forall s, crash s (heval_kws HE l s) (heval_kws GE l s).
Proof.
  intros l F. induction F as [|[a e] l E F IH]; intro s; [apply crash_ret|]. cbn [heval_kws]. apply crash_bind; [apply E|]. intros v s1. apply crash_bind; [apply IH|]. intros vs s2. apply crash_ret.
Qed.
Lemma crash_args : forall g args kws s, Forall ecrash args -> Forall (fun p => ecrash (snd p)) kws ->
  crash s (hbind (heval_list HE args s) (fun vs s => hbind (heval_kws HE kws s) (fun ks s => hcall_value prog files hr g vs ks s)))
          (hbind (heval_list GE args s) (fun vs s => hbind (heval_kws GE kws s) (fun ks s => gcall_value prog fail gr g vs ks s))).
Proof. intros g args kws s A K. apply crash_bind; [apply crash_list; exact A|]. intros vs s1. apply crash_bind; [apply crash_kws; exact K|]. intros ks s2. apply crash_call. Qed.
Lemma crash_eval : forall e, ecrash e.
Proof.
  apply expr_all; unfold ecrash; cbn [heval geval].
  - intros; apply crash_ret.
  - intros; apply crash_ret.
  - intros; apply crash_ret.
  - intros; apply crash_ret.
  - intros x s. apply crash_some. intro; apply crash_ret.
  - intros e a E s. apply crash_bind; [apply E|]. intros w s1. apply crash_some. intro; apply crash_ret.
  - intros c i E1 E2 s. apply crash_bind; [apply E1|]. intros w s1. apply crash_bind; [apply E2|]. intros. apply crash_item.
  - intros c lo hi E B1 B2 s. apply crash_bind; [apply E|]. intros w s1. apply crash_bind.
    { destruct lo as [e|]; [|apply crash_ret]. apply crash_bind; [apply B1|]. intros v s2. destruct v; try exact (fun _ => I). apply crash_ret. }
    intros a s2. apply crash_bind.
    { destruct hi as [e|]; [|apply crash_ret]. apply crash_bind; [apply B2|]. intros v s3. destruct v; try exact (fun _ => I). apply crash_ret. }
    intros b s3. destruct w; try exact (fun _ => I). apply crash_some. intro; apply crash_ret.
  - intros f args kws F S A K s.
    assert (Dflt : crash s (hbind (HE f s) (fun g s => hbind (heval_list HE args s) (fun vs s => hbind (heval_kws HE kws s) (fun ks s => hcall_value prog files hr g vs ks s))))
                           (hbind (GE f s) (fun g s => hbind (heval_list GE args s) (fun vs s => hbind (heval_kws GE kws s) (fun ks s => gcall_value prog fail gr g vs ks s))))).
    { apply crash_bind; [apply F|]. intros g s1. apply crash_args; assumption. }
    destruct f as [| | | | |e a| | | | | | | | | | | | | |]; try exact Dflt. clear Dflt F. cbn [sub_all] in S.
    assert (Meth : crash s (hbind (HE e s) (fun w s => match w with HMod n => hsome a (hmod_attr prog n a s) (fun g => hbind (heval_list HE args s) (fun vs s => hbind (heval_kws HE kws s) (fun ks s => hcall_value prog files hr g vs ks s)))
              | _ => match kws with [] => hbind (heval_list HE args s) (fun vs s => hcall_method prog files hr w a vs s) | _ => HStuck a end end))
            (hbind (GE e s) (fun w s => match w with HMod n => hsome a (hmod_attr prog n a s) (fun g => hbind (heval_list GE args s) (fun vs s => hbind (heval_kws GE kws s) (fun ks s => gcall_value prog fail gr g vs ks s)))
              | _ => match kws with [] => hbind (heval_list GE args s) (fun vs s => gcall_method prog fail gr w a vs s) | _ => HStuck a end end))).
    { apply crash_bind; [apply S|]. intros w s1.
      assert (D : crash s1 (match kws with [] => hbind (heval_list HE args s1) (fun vs s => hcall_method prog files hr w a vs s) | _ => HStuck a end)
                           (match kws with [] => hbind (heval_list GE args s1) (fun vs s => gcall_method prog fail gr w a vs s) | _ => HStuck a end)).
      { destruct kws; [|exact (fun _ => I)]. apply crash_bind; [apply crash_list; exact A|]. intros vs s2. apply crash_method. }
      destruct w; try exact D. apply crash_some. intro g. apply crash_args; assumption. }
    destruct e; try exact Meth. destruct (String.eqb a "format"); [|exact (fun _ => I)]. apply crash_bind; [apply crash_list; exact A|]. intros vs s1. apply crash_some. intro; apply crash_ret.
  - intros op a b E1 E2 s. apply crash_bind; [apply E1|]. intros x s1. apply crash_bind; [apply E2|]. intros y s2. apply crash_some. intro; apply crash_ret.
  - intros a E s. apply crash_bind; [apply E|]. intros x s1. destruct x; try exact (fun _ => I). apply crash_ret.
  - intros a E s. apply crash_bind; [apply E|]. intros x s1. apply crash_some. intro; apply crash_ret.
  - intros a b E1 E2 s. apply crash_bind; [apply E1|]. intros x s1. apply crash_some. intros [|]; [apply E2|apply crash_ret].
  - intros a b E1 E2 s. apply crash_bind; [apply E1|]. intros x s1. apply crash_some. intros [|]; [apply crash_ret|apply E2].
  - intros op a b E1 E2 s. apply crash_bind; [apply E1|]. intros x s1. apply crash_bind; [apply E2|]. intros y s2. apply crash_some. intro; apply crash_ret.
  - intros c a b E1 E2 E3 s. apply crash_bind; [apply E1|]. intros x s1. apply crash_some. intros [|]; [apply E2|apply E3].
  - intros l F s. apply crash_bind; [apply crash_list; exact F|]. intros; apply crash_ret.
  - intros l F s. apply crash_bind; [apply crash_list; exact F|]. intros; apply crash_ret.
  - intros l F s. apply crash_bind.
    + generalize (@nil (str * hval)). revert s. induction F as [|[a b] l [E1 E2] F IH]; intros s acc; [apply crash_ret|]. apply crash_bind; [apply E1|]. intros x s1. apply crash_bind; [apply E2|]. intros y s2. destruct x; try exact (fun _ => I). apply IH.
    + intros items s1. apply crash_new. intros; apply crash_ret.
  - intros l F s. apply crash_bind; [apply crash_list; exact F|]. intros vs s1. apply crash_some. intro; apply crash_ret.
Qed.

(* ---- statements ---- *)
Notation HX := (hexec prog files hr m lv).
Notation GX := (gexec prog fail gr m lv).
Definition ccrash (top : bool) (c : stmt) : Prop := calm m lv c = true -> forall s, crash s (HX top c s) (GX top c s).
Ltac two H := apply andb_true_iff in H; let H1 := fresh in let H2 := fresh in destruct H as [H1 H2].
Lemma crash_block : forall top l, Forall (ccrash top) l -> forallb (calm m lv) l = true -> forall s, crash s (hexec_list (HX top) l s) (hexec_list (GX top) l s).
Proof.
  intros top l F. induction F as [|c l E F IH]; intros N s; [apply crash_ret|]. cbn [forallb] in N. two N. cbn [hexec_list]. apply crash_bind; [apply E; assumption|]. intros f s1. destruct f; [apply IH; assumption|apply crash_ret|apply crash_ret].
Qed.
Lemma crash_for : forall step step' : hval -> hst -> hres flow, (forall w s, crash s (step w s) (step' w s)) -> forall ws s, crash s (hfor step ws s) (hfor step' ws s).
Proof. intros step step' H ws. induction ws as [|w ws IH]; intro s; [apply crash_ret|]. cbn [hfor]. apply crash_bind; [apply H|]. intros f s1. destruct f; [apply IH|apply crash_ret|apply IH]. Qed.
(* what stands in a try statement leaves the state as it is *)
Definition same_state {A} (s : hst) (R : hres A) : Prop := match R with HStuck _ => True | HOk _ s' | HRaise _ s' => s' = s end.
Lemma same_bind : forall A B (R : hres A) (f : A -> hst -> hres B) s, same_state s R -> (forall a, same_state s (f a s)) -> same_state s (hbind R f).
Proof. intros A B [a s1|e s1|w] f s H K; [|exact H|exact I]. cbn [same_state] in H. subst s1. apply K. Qed.
Lemma same_some : forall A B w (o : option A) (k : A -> hres B) s, (forall a, same_state s (k a)) -> same_state s (hsome w o k).
Proof. intros A B w [a|] k s H; [apply H|exact I]. Qed.
Lemma same_list : forall l s, Forall (fun e => pure m lv e = true -> same_state s (HE e s)) l -> forallb (pure m lv) l = true -> same_state s (heval_list HE l s).
Proof.
  intros l s F. induction F as [|e l E F IH]; intro N; [reflexivity|]. cbn [forallb] in N. two N. cbn [heval_list]. apply same_bind; [apply E; assumption|]. intro v. apply same_bind; [apply IH; assumption|]. intro vs. reflexivity.
Qed.
Lemma same_int : forall args s, same_state s (hprim prog files "builtins" "int" args [] s).
Proof.
  intros args s. unfold hprim. cbn [String.eqb Ascii.eqb Bool.eqb andb]. repeat (first [exact I | reflexivity | match goal with |- same_state _ (match ?x with _ => _ end) => destruct x end]).
Qed.
Lemma pure_same : forall e s, Inv s -> pure m lv e = true -> same_state s (HE e s).
Proof.
  intros e s V. revert e. apply (expr_all (fun e => pure m lv e = true -> same_state s (HE e s))); cbn [pure]; try discriminate; try (intros; reflexivity).
  - intros x _. cbn [heval]. apply same_some. intro; reflexivity.
  - intros c i E _ N. destruct i; try discriminate N. cbn [heval]. apply same_bind; [apply E; exact N|]. intro w. cbn [hbind]. unfold hget_item. repeat (first [exact I | reflexivity | match goal with |- same_state _ (match ?x with _ => _ end) => destruct x end]).
  - intros f args kws _ _ F _ N. destruct f as [| | | |x|e a| | | | | | | | | | | | | |]; try discriminate N.
    + destruct args as [|a [|]]; try discriminate N. destruct kws; [|discriminate N]. two N. two H. two H1. apply String.eqb_eq in H. subst x. apply negb_true_iff in H3. cbn [heval]. unfold hname. rewrite H3. unfold hglobal.
      destruct (hstatic prog m (module_body prog m) "int"); [discriminate H2|]. rewrite (V m). cbn [existsb builtins String.eqb Ascii.eqb Bool.eqb orb hsome hbind].
      apply same_bind; [apply same_list; [exact F|cbn [forallb]; rewrite H0; reflexivity]|]. intro vs. cbn [heval_kws hbind hcall_value]. apply same_int.
    + destruct e; try discriminate N. two N. cbn [heval]. rewrite H. apply same_bind; [apply same_list; assumption|]. intro vs. apply same_some. intro; reflexivity.
  - intros op a b E1 E2 N. two N. cbn [heval]. apply same_bind; [apply E1; assumption|]. intro x. apply same_bind; [apply E2; assumption|]. intro y. apply same_some. intro; reflexivity.
Qed.
Lemma crash_exec : forall top c, ccrash top c.
Proof.
  intro top.
  assert (AO : forall x w s, hout (if top then HSt (hloc s) (hout s) (hset_glob m x w (hglob s)) (heap s) else hbind_local x w s) = hout s) by (intros; destruct top; reflexivity).
  assert (SG : forall g x k w n, String.eqb k x = false -> hget_glob n k g = None -> hget_glob n k (hset_glob m x w g) = None).
  { induction g as [|[[k' y] v] g IH]; intros x k w n N H; cbn [hset_glob hget_glob] in *.
    - rewrite N, andb_false_r. reflexivity.
    - destruct (String.eqb n k' && String.eqb k y) eqn:E; [discriminate H|]. destruct (String.eqb m k' && String.eqb x y); cbn [hget_glob]; rewrite E; [exact H|apply IH; assumption]. }
  assert (AI : forall x w s, not_int x = true -> Inv s -> Inv (if top then HSt (hloc s) (hout s) (hset_glob m x w (hglob s)) (heap s) else hbind_local x w s)).
  { intros x w s N V n. destruct top; cbn [hglob hbind_local]; [apply SG; [rewrite String.eqb_sym; apply negb_true_iff; exact N|apply V]|apply V]. }
  assert (AK : forall x w s, not_int x = true -> crash s (HOk Next (if top then HSt (hloc s) (hout s) (hset_glob m x w (hglob s)) (heap s) else hbind_local x w s)) (HOk Next (if top then HSt (hloc s) (hout s) (hset_glob m x w (hglob s)) (heap s) else hbind_local x w s))).
  { intros x w s N V. split; [apply AI; assumption|apply after_same; apply AO]. }
  apply stmt_all; unfold ccrash; cbn [hexec gexec calm].
  - intros e _ s. apply crash_bind; [apply crash_eval|]. intros; apply crash_ret.
  - intros t e N s. destruct t; try exact (fun _ => I).
    + apply crash_bind; [apply crash_eval|]. intros w s1. apply AK. exact N.
    + apply crash_bind; [apply crash_eval|]. intros w s1. apply crash_bind; [apply crash_eval|]. intros r s2. apply silent_crash. quiet.
    + apply crash_bind; [apply crash_eval|]. intros w s1. apply crash_bind; [apply crash_eval|]. intros r s2. apply crash_bind; [apply crash_eval|]. intros i s3. apply silent_crash. quiet.
  - intros t op e N s. destruct t; try exact (fun _ => I). apply crash_bind; [apply (crash_eval (EName x))|]. intros a s1. apply crash_bind; [apply crash_eval|]. intros b s2. apply crash_some. intro w. apply AK. exact N.
  - intros [e|] _ s; [|apply crash_ret]. apply crash_bind; [apply crash_eval|]. intros; apply crash_ret.
  - intros e _ s. apply crash_bind; [apply crash_eval|]. intros w s1. destruct w; try exact (fun _ => I). apply crash_raise; reflexivity.
  - intros c a b A B N s. two N. apply crash_bind; [apply crash_eval|]. intros w s1. apply crash_some. intros [|]; apply crash_block; assumption.
  - intros e cases F N s. apply crash_bind; [apply crash_eval|]. intros w s1. induction F as [|[p b] cases B F IH]; [apply crash_ret|]. cbn [forallb snd] in N. two N. destruct p.
    + apply crash_some. intro pw. apply crash_some. intros [|]; [apply crash_block; assumption|apply IH; assumption].
    + apply crash_block; assumption.
  - intros x e b B N s. two N. apply crash_bind; [apply crash_eval|]. intros w s1. destruct w; try exact (fun _ => I). apply crash_for. intros w s2. eapply crash_out; [| |apply crash_block; assumption]; [apply AO|apply AI; assumption].
  - intros e x b B N s. two N. apply crash_bind; [apply crash_eval|]. intros w s1. destruct w; try exact (fun _ => I). destruct (at_ s1 a) as [[]|]; try exact (fun _ => I). apply crash_finally; [reflexivity|reflexivity|]. eapply crash_out; [| |apply crash_block; assumption]; [apply AO|apply AI; assumption].
  - intros b excs x h B H N s. two N. two H0. destruct b as [|c [|]]; try discriminate H2; [|destruct c as [| | |[|]| | | | | | | | | | |]; discriminate H2]. destruct c as [| | |[e|]| | | | | | | | | | |]; try discriminate H2. intro V.
    pose proof (pure_same e s V H2) as P. pose proof (crash_eval e s V) as K. cbn [hexec_list hexec gexec].
    destruct (HE e s) as [w s1|ex s1|w]; [| |exact I]; cbn [same_state] in P; subst s1; destruct K as [_ [G K]]; cbn [hbind].
    + split; [exact V|]. split; [apply grows_refl; reflexivity|]. intro W. rewrite (proj1 (K W) W). cbn [hbind]. split; [reflexivity|intro X; destruct (X W)].
    + assert (O : crash s (if catches excs ex then finally (hexec_list (HX top) h (if top then HSt (hloc s) (hout s) (hset_glob m x (HExc ex) (hglob s)) (heap s) else hbind_local x (HExc ex) s)) (hdrop_local x) else HRaise ex s)
                          (if catches excs ex then finally (hexec_list (GX top) h (if top then HSt (hloc s) (hout s) (hset_glob m x (HExc ex) (hglob s)) (heap s) else hbind_local x (HExc ex) s)) (hdrop_local x) else HRaise ex s)).
      { destruct (catches excs ex); [|apply crash_raise; reflexivity]. apply crash_finally; [reflexivity|reflexivity|]. eapply crash_out; [| |apply crash_block; assumption]; [apply AO|apply AI; assumption]. }
      specialize (O V). destruct (if catches excs ex then _ else _) as [f s3|ex' s3|w] eqn:E2 in O |- *; [| |exact I]; destruct O as [V3 [G3 O]]; (split; [exact V3|]; split; [exact G3|]; intro W; rewrite (proj1 (K W) W); cbn [hbind]; exact (O W)).
  - intros _ s; apply crash_ret.
  - intros; destruct top; [apply crash_ret|exact (fun _ => I)].
  - intros; destruct top; [apply crash_ret|exact (fun _ => I)].
  - intros; destruct top; [apply crash_ret|exact (fun _ => I)].
  - intros; destruct top; [apply crash_ret|exact (fun _ => I)].
Qed.
Lemma crash_exec_block : forall top cs s, forallb (calm m lv) cs = true -> crash s (hexec_block prog files hr m lv top cs s) (gexec_block prog fail gr m lv top cs s).
Proof. intros top cs s N. apply crash_block; [|exact N]. apply Forall_forall. intros c _. apply crash_exec. Qed.
End Function.
End Calls.

(* ---- functions, import ---- *)
Lemma crash_run : forall n m ps body args s, forallb (calm m (local_names ps body)) body = true -> crash s (hrun prog files n m ps body args s) (grun prog fail n m ps body args s).
Proof.
  induction n as [|n IH]; intros m ps body args s N; [exact (fun _ => I)|]. cbn [hrun grun]. destruct (hbind_params ps args) as [l|]; [|exact (fun _ => I)].
  set (s0 := HSt l (hout s) (hglob s) (heap s)). set (back := fun s' => HSt (hloc s) (hout s') (hglob s') (heap s')).
  intro V. pose proof (crash_exec_block (hrun prog files n) (grun prog fail n) IH m (local_names ps body) false body s0 N V) as K.
  assert (X : forall (R C : hres flow) s', after s0 s' R C ->
     let done r := match r with HOk (Return w) s' => HOk w (back s') | HOk Next s' => HOk HNone (back s') | HOk Continue _ => HStuck "continue" | HRaise e s' => HRaise e (back s') | HStuck w => HStuck w end in
     after s (back s') (done R) (done C)).
  { intros R C s' [[d G] A] done. split; [exists d; exact G|]. intro W. destruct (A W) as [A1 A2].
    split; [intro W1; rewrite (A1 W1); reflexivity|]. intro Q. destruct (A2 Q) as (s'' & -> & O). exists (back s''). split; [reflexivity|exact O]. }
  destruct (hexec_block prog files (hrun prog files n) m (local_names ps body) false body s0) as [f s1|e s1|w]; [| |exact I]; destruct K as [V1 K].
  - destruct f as [|w|]; [| |exact I]; (split; [exact V1|]; exact (X _ _ s1 K)).
  - split; [exact V1|]. exact (X _ _ s1 K).
Qed.
Lemma crash_import : forall n ms s, calm_prog ms = true -> crash s (himport_all prog files n ms s) (gimport_all prog fail n ms s).
Proof.
  intros n ms. induction ms as [|[m b] ms IH]; intros s N; [apply crash_ret|]. cbn [calm_prog forallb fst snd] in N. apply andb_true_iff in N as [N1 N2]. cbn [himport_all gimport_all]. intro V.
  assert (NB : forallb (calm m []) b = true).
  { rewrite forallb_forall in *. intros c C. specialize (N1 c C). unfold calm_defs in N1. apply andb_true_iff in N1 as [N1 _]. exact N1. }
  pose proof (crash_exec_block (hrun prog files n) (grun prog fail n) (crash_run n) m [] true b s NB V) as K.
  destruct (hexec_block prog files (hrun prog files n) m [] true b s) as [f s1|e s1|w]; [| |exact I]; destruct K as [V1 K].
  - destruct f; try exact I. pose proof (IH s1 N2 V1) as K2. destruct (himport_all prog files n ms s1) as [u s2|e s2|w]; [| |exact I]; destruct K2 as [V2 K2]; (split; [exact V2|]);
      (eapply after_then; [exact K| |exact (proj1 K2)|intros s'' ->; reflexivity]; intros ->; exact K2).
  - destruct K as [G K]. split; [exact V1|]. split; [exact G|]. intro W. destruct (K W) as [K1 K2]. split; [intro W1; rewrite (K1 W1); reflexivity|]. intro Q. destruct (K2 Q) as (s'' & -> & O). exists s''. split; [reflexivity|exact O].
Qed.
End Crash.
