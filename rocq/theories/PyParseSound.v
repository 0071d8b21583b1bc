(* What the parser of PyParse.v reads is what the grammar of PyGrammar.v says. *)
From Coq Require Import List String Ascii ZArith Bool Arith Lia.
From Verif Require Import PySyntax PyLex PyGrammar PyParse.
Import ListNotations.
Local Open Scope string_scope.
Local Open Scope list_scope.

Lemma op_some : forall o ts r, op o ts = Some r -> ts = TOp o :: r.
Proof. intros o [|[]] r H; try discriminate. cbn in H. destruct (String.eqb_spec s o); [|discriminate]. congruence. Qed.
Lemma word_some : forall o ts r, word o ts = Some r -> ts = TName o :: r.
Proof. intros o [|[]] r H; try discriminate. cbn in H. destruct (String.eqb_spec s o); [|discriminate]. congruence. Qed.
Lemma newl_some : forall ts r, newl ts = Some r -> ts = TNewline :: r.
Proof. intros [|[]] r H; try discriminate. cbn in H. congruence. Qed.
Lemma keyword_iff : forall x, keyword x = false <-> identifier x.
Proof.
  intros x. unfold keyword, identifier. split.
  - intros H I. assert (existsb (String.eqb x) keywords = true) by (apply existsb_exists; exists x; split; [exact I|apply String.eqb_refl]). congruence.
  - intros H. destruct (existsb (String.eqb x) keywords) eqn:E; [|reflexivity]. apply existsb_exists in E. destruct E as (y & I & E). apply String.eqb_eq in E. subst. contradiction.
Qed.
Lemma name_some : forall ts x r, name ts = Some (x, r) -> ts = TName x :: r /\ identifier x.
Proof. intros [|[]] x r H; try discriminate. cbn [name] in H. destruct (keyword s) eqn:K; [discriminate|]. injection H as <- <-. split; [reflexivity|apply keyword_iff; exact K]. Qed.
Lemma comparison_some : forall ts c r, comparison ts = Some (c, r) -> exists o, ts = o ++ r /\ In (c, o) comparisons.
Proof.
  intros [|[]] c r H; try discriminate; cbn [comparison] in H;
  repeat match type of H with (if String.eqb ?a ?b then _ else _) = _ => destruct (String.eqb_spec a b); [subst|] end; try discriminate;
  try (injection H as <- <-; eexists; split; [instantiate (1 := [_]); reflexivity|cbn; tauto]).
  destruct (word "in" l) eqn:W; [|discriminate]. apply word_some in W. injection H as <- <-. subst. exists [TName "not"; TName "in"]. split; [reflexivity|cbn; tauto].
Qed.
Lemma augment_some : forall ts c r, augment ts = Some (c, r) -> exists o, ts = TOp o :: r /\ In (c, o) augmented.
Proof.
  intros [|[]] c r H; try discriminate; cbn [augment] in H;
  repeat match type of H with (if String.eqb ?a ?b then _ else _) = _ => destruct (String.eqb_spec a b); [subst|] end; try discriminate;
  (injection H as <- <-; eexists; split; [reflexivity|cbn; tauto]).
Qed.

Definition goal_ok (g : goal) (u : list token) (e : expr) : Prop :=
  match g with
  | G l => gr l u e
  | RestSum a => forall t, gr Sum t a -> gr Sum (t ++ u) e
  | RestTerm a => forall t, gr Term t a -> gr Term (t ++ u) e
  | RestPrim a => forall t, gr Prim t a -> gr Prim (t ++ u) e
  end.

Ltac norm := repeat first [rewrite <- app_assoc | rewrite <- app_comm_cons | rewrite app_nil_r | rewrite app_nil_l]; try reflexivity.
(* follow the parser down one path *)
Ltac one_step :=
  match goal with
  | H : None = Some _ |- _ => discriminate
  | H : Some _ = Some _ |- _ => injection H; clear H; intros; subst
  | H : (_, _) = (_, _) |- _ => injection H; clear H; intros; subst
  | H : op _ _ = Some _ |- _ => apply op_some in H; subst
  | H : word _ _ = Some _ |- _ => apply word_some in H; subst
  | H : newl _ = Some _ |- _ => apply newl_some in H; subst
  | H : name _ = Some (_, _) |- _ => apply name_some in H; destruct H; subst
  | H : comparison _ = Some (_, _) |- _ => apply comparison_some in H; destruct H as (? & ? & ?); subst
  | H : augment _ = Some (_, _) |- _ => apply augment_some in H; destruct H as (? & ? & ?); subst
  | H : keyword _ = false |- _ => apply keyword_iff in H
  | H : exists _, _ |- _ => destruct H
  | H : _ /\ _ |- _ => destruct H
  | H : String.eqb ?a ?b = true |- _ => apply String.eqb_eq in H; subst
  | H : match ?x with _ => _ end = Some _ |- _ => let E := fresh "E" in destruct x eqn:E; try discriminate
  | H : (if ?x then _ else _) = Some _ |- _ => let E := fresh "E" in destruct x eqn:E; try discriminate
  end.

Theorem sound : forall n,
  (forall g ts e r, p n g ts = Some (e, r) -> exists u, ts = u ++ r /\ goal_ok g u e) /\
  (forall c ts es r, p_items n c ts = Some (es, r) -> exists u, ts = u ++ r /\ gr_items u es) /\
  (forall ts ps r, p_pairs n ts = Some (ps, r) -> exists u, ts = u ++ r /\ gr_pairs u ps) /\
  (forall ts es ks r, p_args n ts = Some (es, ks, r) -> exists u, ts = u ++ r /\ gr_args u es ks) /\
  (forall ts ks r, p_kws n ts = Some (ks, r) -> exists u, ts = u ++ r /\ gr_kws u ks) /\
  (forall c ts o r, p_opt n c ts = Some (o, r) -> exists u, ts = u ++ r /\ gr_opt u o) /\
  (forall ps es, p_parts n ps = Some es -> gr_parts ps es).
Proof.
  induction n as [|n (IP & II & IPA & IA & IK & IO & IT)]; [repeat split; intros; discriminate|].
  assert (IG : forall l ts e r, p n (G l) ts = Some (e, r) -> exists u, ts = u ++ r /\ gr l u e) by (intros l ts e r H; exact (IP (G l) ts e r H)).
  assert (IS : forall a ts e r, p n (RestSum a) ts = Some (e, r) -> exists u, ts = u ++ r /\ forall t, gr Sum t a -> gr Sum (t ++ u) e) by (intros a ts e r H; exact (IP (RestSum a) ts e r H)).
  assert (IM : forall a ts e r, p n (RestTerm a) ts = Some (e, r) -> exists u, ts = u ++ r /\ forall t, gr Term t a -> gr Term (t ++ u) e) by (intros a ts e r H; exact (IP (RestTerm a) ts e r H)).
  assert (IR : forall a ts e r, p n (RestPrim a) ts = Some (e, r) -> exists u, ts = u ++ r /\ forall t, gr Prim t a -> gr Prim (t ++ u) e) by (intros a ts e r H; exact (IP (RestPrim a) ts e r H)).
  clear IP.
  Ltac steps IG II IPA IA IK IO IT IS IM IR :=
    repeat first [ one_step
    | match goal with
      | H : p _ (G _) _ = Some (_, _) |- _ => apply IG in H
      | H : p _ (RestSum _) _ = Some (_, _) |- _ => apply IS in H
      | H : p _ (RestTerm _) _ = Some (_, _) |- _ => apply IM in H
      | H : p _ (RestPrim _) _ = Some (_, _) |- _ => apply IR in H
      | H : p_items _ _ _ = Some (_, _) |- _ => apply II in H
      | H : p_pairs _ _ = Some (_, _) |- _ => apply IPA in H
      | H : p_args _ _ = Some (_, _, _) |- _ => apply IA in H
      | H : p_kws _ _ = Some (_, _) |- _ => apply IK in H
      | H : p_opt _ _ _ = Some (_, _) |- _ => apply IO in H
      | H : p_parts _ _ = Some _ |- _ => apply IT in H
      end ].
  repeat split.
  - intros g ts e r H. cbn [p] in H. destruct g as [[]|a|a|a]; cbn [goal_ok];
    steps IG II IPA IA IK IO IT IS IM IR.
    all: subst.
  all: try (eexists; split; [|first [eapply gr_if; eassumption | eapply gr_or; eassumption | eapply gr_and; eassumption | eapply gr_not; eassumption | eapply gr_cmp; eassumption
      | eapply gr_neg; eassumption | eapply gr_test; eassumption | eapply gr_or1; eassumption | eapply gr_and1; eassumption | eapply gr_not1; eassumption | eapply gr_cmp1; eassumption
      | eapply gr_factor1; eassumption
      | eapply gr_fstr; eassumption | eapply gr_unit | eapply gr_paren; eassumption | eapply gr_tuple; eassumption | eapply gr_list; eassumption | eapply gr_dict; eassumption
      | eapply gr_int | eapply gr_str | eapply gr_true | eapply gr_false | eapply gr_none | eapply gr_name; eassumption]]; norm; fail).
    Ltac more mid x K := exists (mid ++ x); split; [norm|let t := fresh "t" in let Ht := fresh "Ht" in intros t Ht; rewrite app_assoc;
      match goal with F : forall t, gr _ t _ -> gr _ (t ++ x) _ |- _ => apply F end; apply K; assumption].
    Ltac stop := exists []; split; [reflexivity|intros t Ht; rewrite app_nil_r; exact Ht].
    + match goal with F : forall t, gr _ t _ -> gr _ (t ++ ?y) _, K : gr Term ?z _ |- _ => exists (z ++ y); split; [norm|apply F; apply gr_sum1; exact K] end.
    + match goal with F : forall t, gr _ t _ -> gr _ (t ++ ?y) _, K : gr Factor ?z _ |- _ => exists (z ++ y); split; [norm|apply F; apply gr_term1; exact K] end.
    + match goal with F : forall t, gr _ t _ -> gr _ (t ++ ?y) _, K : gr Atom ?z _ |- _ => exists (z ++ y); split; [norm|apply F; apply gr_prim1; exact K] end.
    + match goal with F : forall t, gr _ t _ -> gr _ (t ++ ?y) _, K : gr Term ?z _ |- _ => more (TOp "+" :: z) y gr_add end.
    + match goal with F : forall t, gr _ t _ -> gr _ (t ++ ?y) _, K : gr Term ?z _ |- _ => more (TOp "-" :: z) y gr_sub end.
    + stop.
    + match goal with F : forall t, gr _ t _ -> gr _ (t ++ ?y) _, K : gr Factor ?z _ |- _ => more (TOp "*" :: z) y gr_mul end.
    + match goal with F : forall t, gr _ t _ -> gr _ (t ++ ?y) _, K : gr Factor ?z _ |- _ => more (TOp "/" :: z) y gr_div end.
    + stop.
    + more [TOp "."; TName s] x gr_attr.
    + more (TOp "(" :: x0 ++ [TOp ")"]) x gr_call.
    + more (TOp "[" :: x1 ++ TOp ":" :: x0 ++ [TOp "]"]) x gr_slice.
    + match goal with K : gr_opt _ (Some _) |- _ => inversion K; subst; clear K end. more (TOp "[" :: x0 ++ [TOp "]"]) x gr_item.
    + stop.
  - intros c ts es r H. cbn [p_items] in H. steps IG II IPA IA IK IO IT IS IM IR; subst.
    + exists []. split; [reflexivity|constructor].
    + eexists; split; [|eapply items_cons; eassumption]; norm.
    + eexists; split; [|eapply items_one; eassumption]; norm.
  - intros ts ps r H. cbn [p_pairs] in H. steps IG II IPA IA IK IO IT IS IM IR; subst.
    + exists []. split; [reflexivity|constructor].
    + eexists; split; [|eapply pairs_cons; eassumption]; norm.
    + eexists; split; [|eapply pairs_one; eassumption]; norm.
  - intros ts es ks r H. cbn [p_args] in H. steps IG II IPA IA IK IO IT IS IM IR; subst.
    + eexists; split; [|eapply args_kws; eassumption]; norm.
    + eexists; split; [|eapply args_cons; eassumption]; norm.
    + eexists; split; [|eapply args_one; eassumption]; norm.
  - intros ts ks r H. cbn [p_kws] in H. steps IG II IPA IA IK IO IT IS IM IR; subst.
    + exists []. split; [reflexivity|constructor].
    + eexists; split; [|eapply kws_cons; eassumption]; norm.
    + eexists; split; [|eapply kws_one; eassumption]; norm.
  - intros c ts o r H. cbn [p_opt] in H. steps IG II IPA IA IK IO IT IS IM IR; subst.
    + exists []. split; [reflexivity|constructor].
    + eexists; split; [|eapply opt_some; eassumption]; norm.
  - intros ps es H. cbn [p_parts] in H. steps IG II IPA IA IK IO IT IS IM IR; subst.
    + constructor.
    + constructor. assumption.
    + rewrite app_nil_r. constructor; assumption.
Qed.

Lemma p_sound : forall n l ts e r, p n (G l) ts = Some (e, r) -> exists u, ts = u ++ r /\ gr l u e.
Proof. intros n l ts e r H. exact (proj1 (sound n) (G l) ts e r H). Qed.
Lemma dotted_sound : forall n ts m r, p_dotted n ts = Some (m, r) -> exists u, ts = u ++ r /\ gr_dotted u m.
Proof.
  induction n as [|n IH]; intros ts m r H; [discriminate|]. cbn [p_dotted] in H.
  repeat first [one_step | match goal with K : p_dotted _ _ = Some _ |- _ => apply IH in K end]; subst.
  - eexists; split; [|eapply dotted_cons; eassumption]; norm.
  - eexists; split; [|eapply dotted_one; eassumption]; norm.
Qed.
Lemma names_sound : forall n ts m r, p_names n ts = Some (m, r) -> exists u, ts = u ++ r /\ gr_names u m.
Proof.
  induction n as [|n IH]; intros ts m r H; [discriminate|]. cbn [p_names] in H.
  repeat first [one_step | match goal with K : p_names _ _ = Some _ |- _ => apply IH in K end]; subst.
  - eexists; split; [|eapply names_cons; eassumption]; norm.
  - eexists; split; [|eapply names_one; eassumption]; norm.
Qed.
Lemma note_sound : forall o n ts r, p_note o n ts = Some r -> exists u, ts = u ++ r /\ gr_note o u.
Proof.
  intros o n ts r H. unfold p_note in H. repeat first [one_step | match goal with K : p _ _ _ = Some _ |- _ => apply p_sound in K end]; subst.
  - eexists; split; [|eapply note_some; eassumption]; norm.
  - exists []; split; [reflexivity|constructor].
Qed.
Lemma default_sound : forall n ts d r, p_default n ts = Some (d, r) -> exists u, ts = u ++ r /\ gr_default u d.
Proof.
  intros n ts d r H. unfold p_default in H. repeat first [one_step | match goal with K : p _ _ _ = Some _ |- _ => apply p_sound in K end]; subst.
  - eexists; split; [|eapply default_some; eassumption]; norm.
  - exists []; split; [reflexivity|constructor].
Qed.
Lemma params_sound : forall n ts ps r, p_params n ts = Some (ps, r) -> exists u, ts = u ++ r /\ gr_params u ps.
Proof.
  induction n as [|n IH]; intros ts ps r H; [discriminate|]. cbn [p_params] in H.
  repeat first [one_step | match goal with K : p_params _ _ = Some _ |- _ => apply IH in K | K : p_default _ _ = Some _ |- _ => apply default_sound in K | K : p_note _ _ _ = Some _ |- _ => apply note_sound in K end]; subst.
  - exists []; split; [reflexivity|constructor].
  - eexists; split; [|eapply params_cons; eassumption]; norm.
  - eexists; split; [|eapply params_one; eassumption]; norm.
Qed.
Lemma pattern_sound : forall ts q r, p_pattern ts = Some (q, r) -> exists u, ts = u ++ r /\ gr_pattern u q.
Proof.
  intros ts q r H. unfold p_pattern in H. repeat one_step; subst.
  - eexists; split; [|eapply pattern_any]; norm.
  - eexists; split; [|eapply pattern_int]; norm.
  - eexists; split; [|eapply pattern_str]; norm.
Qed.
Lemma except_sound : forall n ts xs r, p_except n ts = Some (xs, r) -> exists u, ts = u ++ r /\ gr_except u xs.
Proof.
  intros n ts xs r H. unfold p_except in H. repeat first [one_step | match goal with K : p_names _ _ = Some _ |- _ => apply names_sound in K end]; subst.
  - eexists; split; [|eapply except_many; eassumption]; norm.
  - eexists; split; [|eapply except_one; eassumption]; norm.
Qed.
Lemma as_sound : forall ts n x r, p_as ts = Some (n, x, r) -> exists u, ts = u ++ r /\ gr_as u n x.
Proof.
  intros ts n x r H. unfold p_as in H. repeat one_step; subst.
  - eexists; split; [|eapply as_other; eassumption]; norm.
  - eexists; split; [|eapply as_same; eassumption]; norm.
Qed.
Lemma targetb_iff : forall e, targetb e = true <-> target e.
Proof. intros []; cbn; split; intros H; try discriminate; try contradiction; auto. Qed.

Ltac parts := repeat first [one_step | match goal with
  | K : p _ _ _ = Some _ |- _ => apply p_sound in K
  | K : p_dotted _ _ = Some _ |- _ => apply dotted_sound in K
  | K : p_as _ = Some _ |- _ => apply as_sound in K
  | K : p_params _ _ = Some _ |- _ => apply params_sound in K
  | K : p_note _ _ _ = Some _ |- _ => apply note_sound in K
  | K : p_except _ _ = Some _ |- _ => apply except_sound in K
  | K : p_pattern _ = Some _ |- _ => apply pattern_sound in K
  | K : targetb _ = true |- _ => apply targetb_iff in K
  end].
Lemma simple_sound : forall pkg n ts s r, p_simple n ts = Some (s, r) -> exists u, ts = u ++ r /\ gr_stmt pkg u s.
Proof.
  intros pkg n ts s r H. unfold p_simple in H. parts; subst.
  - eexists; split; [|eapply stmt_assign; eassumption]; norm.
  - eexists; split; [|eapply stmt_aug; eassumption]; norm.
  - eexists; split; [|eapply stmt_expr; eassumption]; norm.
Qed.
Lemma return_sound : forall pkg n ts s r, p_return n ts = Some (s, r) -> exists u, TName "return" :: ts = u ++ r /\ gr_stmt pkg u s.
Proof.
  intros pkg n ts s r H. unfold p_return in H. parts; subst.
  - eexists; split; [|eapply stmt_return0]; norm.
  - eexists; split; [|eapply stmt_return; eassumption]; norm.
Qed.
Lemma raise_sound : forall pkg n ts s r, p_raise n ts = Some (s, r) -> exists u, TName "raise" :: ts = u ++ r /\ gr_stmt pkg u s.
Proof. intros pkg n ts s r H. unfold p_raise in H. parts; subst. eexists; split; [|eapply stmt_raise; eassumption]; norm. Qed.
Lemma import_sound : forall pkg n ts s r, p_import n ts = Some (s, r) -> exists u, TName "import" :: ts = u ++ r /\ gr_stmt pkg u s.
Proof.
  intros pkg n ts s r H.
  assert (C : (exists x, ts = TName x :: TNewline :: r /\ identifier x /\ s = SImport x x) \/ match p_dotted n ts with
    | Some (m, r) => match word "as" r with
      | Some r1 => match name r1 with
        | Some (x, r2) => match newl r2 with Some r3 => Some (SImport m x, r3) | None => None end
        | None => None end
      | None => None end
    | None => None end = Some (s, r)).
  { unfold p_import in H. destruct ts as [|t ts]; [right; exact H|]. destruct t; try (right; exact H). destruct ts as [|t ts]; [right; exact H|]. destruct t; try (right; exact H).
    left. parts. eexists; eauto. }
  clear H. destruct C as [(x & -> & I & ->)|H].
  - eexists; split; [|eapply stmt_import; eassumption]; norm.
  - parts; subst. eexists; split; [|eapply stmt_import_as; eassumption]; norm.
Qed.
Lemma from_sound : forall pkg n ts s r, p_from pkg n ts = Some (s, r) -> exists u, TName "from" :: ts = u ++ r /\ gr_stmt pkg u s.
Proof.
  intros pkg n ts s r H. unfold p_from in H. destruct (op "." ts) eqn:O.
  - parts; subst. eexists; split; [|eapply stmt_from_here; eassumption]; norm.
  - parts; subst. eexists; split; [|eapply stmt_from; eassumption]; norm.
Qed.

Theorem stmts_sound : forall pkg n,
  (forall ts s r, p_stmt pkg n ts = Some (s, r) -> exists u, ts = u ++ r /\ gr_stmt pkg u s) /\
  (forall ts b r, p_block pkg n ts = Some (b, r) -> exists u, ts = u ++ r /\ gr_block pkg u b) /\
  (forall ts b r, p_stmts pkg n ts = Some (b, r) -> exists u, ts = u ++ r /\ gr_stmts pkg u b) /\
  (forall ts b r, p_else pkg n ts = Some (b, r) -> exists u, ts = u ++ r /\ gr_else pkg u b) /\
  (forall ts cs r, p_cases pkg n ts = Some (cs, r) -> exists u, ts = u ++ r /\ gr_cases pkg u cs).
Proof.
  intros pkg. induction n as [|n (IS & IB & IL & IE & IC)]; [repeat split; intros; discriminate|].
  Ltac all IS IB IL IE IC := repeat first [ progress parts | match goal with
    | K : p_stmt _ _ _ = Some _ |- _ => apply IS in K
    | K : p_block _ _ _ = Some _ |- _ => apply IB in K
    | K : p_stmts _ _ _ = Some _ |- _ => apply IL in K
    | K : p_else _ _ _ = Some _ |- _ => apply IE in K
    | K : p_cases _ _ _ = Some _ |- _ => apply IC in K
    end].
  repeat split.
  - intros ts s r H. cbn [p_stmt] in H.
    assert (D : p_simple n ts = Some (s, r) -> exists u, ts = u ++ r /\ gr_stmt pkg u s) by apply simple_sound.
    destruct ts as [|t ts]; [apply D; exact H|]. destruct t as [w| | | | | | |]; try (apply D; exact H).
    destruct (String.eqb_spec w "return") as [->|_]; [eapply return_sound; exact H|].
    destruct (String.eqb_spec w "raise") as [->|_]; [eapply raise_sound; exact H|].
    destruct (String.eqb_spec w "continue") as [->|_]; [parts; subst; eexists; split; [|eapply stmt_continue]; norm|].
    destruct (String.eqb_spec w "import") as [->|_]; [eapply import_sound; exact H|].
    destruct (String.eqb_spec w "from") as [->|_]; [eapply from_sound; exact H|].
    destruct (String.eqb_spec w "if") as [->|_]; [all IS IB IL IE IC; subst; eexists; split; [|eapply stmt_if; eassumption]; norm|].
    destruct (String.eqb_spec w "match") as [->|_]; [all IS IB IL IE IC; subst; eexists; split; [|eapply stmt_match; eassumption]; norm|].
    destruct (String.eqb_spec w "for") as [->|_]; [all IS IB IL IE IC; subst; eexists; split; [|eapply stmt_for; eassumption]; norm|].
    destruct (String.eqb_spec w "with") as [->|_]; [all IS IB IL IE IC; subst; eexists; split; [|eapply stmt_with; eassumption]; norm|].
    destruct (String.eqb_spec w "try") as [->|_]; [all IS IB IL IE IC; subst; eexists; split; [|eapply stmt_try; eassumption]; norm|].
    destruct (String.eqb_spec w "def") as [->|_]; [all IS IB IL IE IC; subst; eexists; split; [|eapply stmt_def; eassumption]; norm|].
    destruct (String.eqb_spec w "class") as [->|_].
    { all IS IB IL IE IC; subst.
      - eexists; split; [|eapply stmt_class; eassumption]; norm.
      - eexists; split; [|eapply stmt_class0; eassumption]; norm. }
    apply D; exact H.
  - intros ts b r H. cbn [p_block] in H. all IS IB IL IE IC; subst. eexists; split; [|eapply block_indented; eassumption]; norm.
  - intros ts b r H. cbn [p_stmts] in H.
    assert (D : match p_stmt pkg n ts with Some (s, r) => match p_stmts pkg n r with Some (ss, r1) => Some (s :: ss, r1) | None => None end | None => None end = Some (b, r) ->
      exists u, ts = u ++ r /\ gr_stmts pkg u b).
    { clear H. intros H. all IS IB IL IE IC; subst. eexists; split; [|eapply stmts_cons; eassumption]; norm. }
    destruct ts as [|t ts]; [|destruct t; try (apply D; exact H)]; injection H as <- <-; (exists []; split; [reflexivity|constructor]).
  - intros ts b r H. cbn [p_else] in H. destruct (word "else" ts) as [l|] eqn:W; [|destruct (word "elif" ts) as [l|] eqn:V].
    + all IS IB IL IE IC; subst. eexists; split; [|eapply else_else; eassumption]; norm.
    + all IS IB IL IE IC; subst. eexists; split; [|eapply else_elif; eassumption]; norm.
    + injection H as <- <-. exists []; split; [reflexivity|constructor].
  - intros ts cs r H. cbn [p_cases] in H. all IS IB IL IE IC; subst.
    + match goal with K : TName "case" :: _ = _ ++ r |- _ => rewrite K end. eexists; split; [|eapply cases_cons; eassumption]; norm.
    + eexists; split; [|eapply cases_one; eassumption]; norm.
Qed.
Theorem parse_sound : forall pkg text m, parse_python pkg text = Some m -> module_text pkg text m.
Proof.
  intros pkg text m H. unfold parse_python in H. unfold module_text. destruct (tokens text) as [ts|]; [|discriminate].
  destruct (p_stmts pkg (50 + 2 * Datatypes.length ts) ts) as [[b [|t r]]|] eqn:E; [|discriminate|discriminate]. injection H as <-.
  apply (proj1 (proj2 (proj2 (stmts_sound pkg _)))) in E. destruct E as (u & U & K). rewrite app_nil_r in U. subst. exists u, b. auto.
Qed.
