(* Two values of a code field that are shown alike. *)
From Coq Require Import List String NArith Bool Arith Lia.
From Verif Require Import PyBase Decoder SpecLayouts Spec SpecNum SpecCodes SpecDecode SpecTell StrFacts FnNum ReadProps3 NumProps ReprFacts CodeProps.
Import ListNotations.
Open Scope string_scope.
Open Scope list_scope.
Local Open Scope nat_scope.

Definition once (cf : code_field) : bool :=
  forallb (fun p => forallb (fun q => negb (String.eqb (snd p) (snd q)) || String.eqb (fst p) (fst q) || existsb (fun x => fn_eqb (fst x) (cf_fn cf) && String.eqb (fst (snd x)) (fst p) && String.eqb (snd (snd x)) (fst q)) same_text) (cf_codes cf)) (cf_codes cf).
Lemma once_all : forallb once code_fields = true.
Proof. vm_compute. reflexivity. Qed.
Definition longer (cf : code_field) : bool :=
  match cf_blank cf, cf_other cf with false, Unknown | false, Between _ _ | false, Refused => true
  | _, _ => forallb (fun p => forallb (fun q => String.length (fst p) <? String.length (snd q)) (cf_codes cf)) (cf_codes cf) end.
Lemma longer_all : forallb longer code_fields = true.
Proof. vm_compute. reflexivity. Qed.
Definition no_other (cf : code_field) : bool :=
  forallb (fun p => negb (String.eqb (snd p) "<UNKNOWN>") && match cf_other cf with Between a b => negb (startswith (lit (snd p)) (lit a) && endswith (lit (snd p)) (lit b)) | _ => true end) (cf_codes cf).
Lemma no_other_all : forallb no_other code_fields = true.
Proof. vm_compute. reflexivity. Qed.
Lemma lit_length : forall s, List.length (lit s) = String.length s.
Proof. intros s. unfold lit. rewrite map_length. induction s; cbn; congruence. Qed.
Lemma code_in : forall codes v t, assoc v (lits codes) = Some t -> exists c x, In (c, x) codes /\ v = lit c /\ t = lit x.
Proof. intros codes v t H. apply assoc_in in H. unfold lits in H. apply in_map_iff in H as ([c x] & E & I). injection E as <- <-. eauto. Qed.
(* how the two values can be shown *)
Inductive way (cf : code_field) (v s : str) : Prop :=
| way_blank : cf_blank cf = true -> whitespace v -> s = v -> way cf v s
| way_code : forall c x, In (c, x) (cf_codes cf) -> v = lit c -> s = lit x -> way cf v s
| way_itself : cf_other cf = Itself -> s = v -> way cf v s
| way_unknown : cf_other cf = Unknown -> ~ listed (cf_codes cf) v -> s = lit "<UNKNOWN>" -> way cf v s
| way_between : forall a b, cf_other cf = Between a b -> s = lit a ++ v ++ lit b -> way cf v s.
Lemma ways : forall cf v r s, In cf code_fields -> shows (cf_fn cf) v r s -> way cf v s.
Proof.
  intros cf v r s I S. unfold shows in S. rewrite code_run_eq in S by exact I. unfold code_run in S. destruct (cf_blank cf && blank v) eqn:B.
  { apply andb_true_iff in B as [B1 B2]. apply blank_iff in B2. injection S as <-. apply way_blank; auto. }
  destruct (assoc v (lits (cf_codes cf))) as [t|] eqn:A.
  { injection S as <-. destruct (code_in _ _ _ A) as (c & x & X & -> & ->). eapply way_code; eauto. }
  destruct (cf_other cf) as [| |a b|] eqn:O; [| | |discriminate]; injection S as <-; [apply way_itself; auto| |eapply way_between; eauto].
  apply way_unknown; auto. intros (c & x & X & ->). apply assoc_none in A. apply A. unfold lits. rewrite map_map. apply in_map_iff. exists (c, x). auto.
Qed.
Theorem c75 : forall cf v v' r r' s, In cf code_fields -> List.length v = List.length v' -> shows (cf_fn cf) v r s -> shows (cf_fn cf) v' r' s ->
  v = v' \/ both_unknown cf v v' \/ exists c c', In (cf_fn cf, (c, c')) same_text /\ v = lit c /\ v' = lit c'.
Proof.
  intros cf v v' r r' s I L S S'. apply ways in S; [|exact I]. apply ways in S'; [|exact I].
  pose proof (proj1 (forallb_forall _ _) once_all _ I) as ON. pose proof (proj1 (forallb_forall _ _) longer_all _ I) as LO. pose proof (proj1 (forallb_forall _ _) no_other_all _ I) as NO.
  unfold once in ON. unfold no_other in NO. unfold longer in LO.
  assert (LL : (cf_blank cf = true \/ cf_other cf = Itself) -> forall c x c' x', In (c, x) (cf_codes cf) -> In (c', x') (cf_codes cf) -> String.length c < String.length x').
  { intros H c x c' x' X X'. assert (K : forallb (fun p => forallb (fun q => String.length (fst p) <? String.length (snd q)) (cf_codes cf)) (cf_codes cf) = true) by (destruct (cf_blank cf), (cf_other cf); try exact LO; destruct H; discriminate).
    rewrite forallb_forall in K. specialize (K _ X). cbn beta in K. rewrite forallb_forall in K. specialize (K _ X'). cbn [fst snd] in K. apply Nat.ltb_lt. exact K. }
  assert (N : forall c x, In (c, x) (cf_codes cf) -> x <> "<UNKNOWN>" /\ forall a b w, cf_other cf = Between a b -> lit x <> lit a ++ w ++ lit b).
  { intros c x X. rewrite forallb_forall in NO. specialize (NO _ X). cbn [snd] in NO. apply andb_true_iff in NO as [N1 N2]. apply negb_true_iff, String.eqb_neq in N1. split; [exact N1|].
    intros a b w O E. rewrite O in N2. apply negb_true_iff in N2. assert (A : startswith (lit x) (lit a) = true) by (unfold startswith; apply prefixb_iff; exists (w ++ lit b); exact E).
    assert (B : endswith (lit x) (lit b) = true) by (apply endswith_iff; exists (lit a ++ w); rewrite <- app_assoc; exact E). rewrite A, B in N2. discriminate. }
  assert (U : forall w, whitespace w -> w <> lit "<UNKNOWN>") by (intros w W ->; inversion W; discriminate).
  assert (CL : forall c x w, In (c, x) (cf_codes cf) -> List.length w = List.length (lit c) -> (cf_blank cf = true \/ cf_other cf = Itself) -> lit x <> w).
  { intros c x w X W H E. subst w. rewrite !lit_length in W. pose proof (LL H _ _ _ _ X X). lia. }
  assert (BO : cf_blank cf = true -> cf_other cf = Unknown) by (clear - I; cbn in I; repeat (destruct I as [<-|I]; [cbn; congruence|]); destruct I).
  destruct S as [B W E|c x X V E|O E|O NL E|a b O E]; destruct S' as [B' W' E'|c' x' X' V' E'|O' E'|O' NL' E'|a' b' O' E']; try (left; congruence); try (specialize (BO ltac:(assumption)); congruence); try congruence.
  - exfalso. apply (CL c' x' v X' ltac:(congruence) ltac:(auto)). congruence.
  - exfalso. apply (U v W). congruence.
  - exfalso. apply (CL c x v' X ltac:(congruence) ltac:(auto)). congruence.
  - subst. apply lit_inj in E'. subst x'. rewrite forallb_forall in ON. specialize (ON _ X). cbn beta in ON. rewrite forallb_forall in ON. specialize (ON _ X'). cbn [fst snd] in ON. rewrite String.eqb_refl in ON. cbn [negb orb] in ON.
    apply orb_true_iff in ON as [ON|ON]; [left; apply String.eqb_eq in ON; congruence|]. right. right. apply existsb_exists in ON as ([f [y y']] & Y & Z). cbn [fst snd] in Z. apply andb_true_iff in Z as [Z Z3]. apply andb_true_iff in Z as [Z1 Z2].
    apply fn_eqb_eq in Z1. apply String.eqb_eq in Z2, Z3. subst. exists c, c'. auto.
  - exfalso. apply (CL c x v' X ltac:(congruence) ltac:(auto)). congruence.
  - exfalso. apply (N c x X). apply lit_inj. congruence.
  - exfalso. destruct (N c x X) as (_ & K). apply (K _ _ v' O'). congruence.
  - exfalso. apply (CL c' x' v X' ltac:(congruence) ltac:(auto)). congruence.
  - exfalso. apply (U v' W'). congruence.
  - exfalso. apply (N c' x' X'). apply lit_inj. congruence.
  - right. left. repeat split; assumption.
  - exfalso. destruct (N c' x' X') as (_ & K). apply (K _ _ v O). congruence.
  - left. rewrite O in O'. injection O' as <- <-. rewrite E in E'. apply app_inv_head, app_inv_tail in E'. exact E'.
Qed.
(* ---- numbers ---- *)
Lemma decimal_once : forall k n n' s, is_decimal k n s -> is_decimal k n' s -> n = n'.
Proof.
  intros k n n' s (a & b & -> & _ & _ & _ & L & <-) (a' & b' & E & _ & _ & _ & L' & <-).
  assert (LA : List.length a = List.length a') by (apply (f_equal (@List.length N)) in E; rewrite !app_length in E; cbn in E; lia).
  assert (K : a = a' /\ [46%N] ++ b = [46%N] ++ b').
  { clear L L'. revert a' LA E. induction a as [|x a IH]; intros [|x' a'] LA E; try discriminate; [auto|]. cbn in E. injection E as <- E. destruct (IH a' ltac:(cbn in LA; lia) E) as (-> & F). auto. }
  destruct K as (-> & K). injection K as ->. reflexivity.
Qed.
Lemma digits_once : forall v v', digit_string v -> digit_string v' -> List.length v = List.length v' -> number v = number v' -> v = v'.
Proof. intros v v' (_ & D) (_ & D') L E. apply number_inj; assumption. Qed.
Theorem c75_numbers : forall f v v' r r' d, In f number_fns -> digit_string v -> digit_string v' -> List.length v = List.length v' -> List.length v <= 4 \/ (List.length v <= 15 /\ f <> F026) ->
  run_fn f v r = ([], Ok d) -> run_fn f v' r' = ([], Ok d) -> v = v'.
Proof.
  intros f v v' r r' d I D D' L B R R'. apply digits_once; [exact D|exact D'|exact L|].
  assert (SH : forall g x rr a c, run_fn g x rr = ([], Ok c) -> shows g x rr a -> c = DStr a) by (intros g x rr a c H K; unfold shows in K; congruence).
  assert (B' : List.length v <= 15) by lia. assert (B2 : List.length v' <= 15) by lia.
  assert (AP : forall a b z : str, a ++ z = b ++ z -> a = b) by (intros a b z; apply app_inv_tail).
  assert (NN : forall z a, is_natural z a -> a <> []) by (intros z a ((NE & _) & _); exact NE).
  unfold number_fns in I. apply in_app_or in I as [I|I].
  { destruct (N.eq_dec (number v) 0) as [Z|Z]; destruct (N.eq_dec (number v') 0) as [Z'|Z']; [congruence| | |].
    - destruct (c17_value f v' r' I D' Z') as (a & A & S). pose proof (SH _ _ _ _ _ R (c17_zero f v r I D Z)) as E. pose proof (SH _ _ _ _ _ R' S) as E'. rewrite E in E'. injection E' as E'. exfalso. apply (NN _ _ A). apply (AP a [] (lit " ft")). symmetry. exact E'.
    - destruct (c17_value f v r I D Z) as (a & A & S). pose proof (SH _ _ _ _ _ R' (c17_zero f v' r' I D' Z')) as E. pose proof (SH _ _ _ _ _ R S) as E'. rewrite E in E'. injection E' as E'. exfalso. apply (NN _ _ A). apply (AP a [] (lit " ft")). symmetry. exact E'.
    - destruct (c17_value f v r I D Z) as (a & A & S). destruct (c17_value f v' r' I D' Z') as (a' & A' & S'). pose proof (SH _ _ _ _ _ R S) as E. pose proof (SH _ _ _ _ _ R' S') as E'. rewrite E in E'. injection E' as E'. apply AP in E'. subst a'. destruct A as (_ & _ & <-). destruct A' as (_ & _ & <-). reflexivity. }
  destruct I as [<-|[<-|[<-|[<-|[<-|[<-|[<-|[<-|[<-|[]]]]]]]]]].
  { destruct (N.eq_dec (number v) 0) as [Z|Z]; destruct (N.eq_dec (number v') 0) as [Z'|Z']; [congruence| | |].
    - destruct (c18_value v' r' D' Z') as (a & A & S). pose proof (SH _ _ _ _ _ R (c18_zero v r D Z)) as E. pose proof (SH _ _ _ _ _ R' S) as E'. rewrite E in E'. injection E' as E'. exfalso. change (lit "00 ft") with (lit "00" ++ lit " ft") in E'. apply AP in E'. subst a. destruct A as (_ & P & _). destruct P as [P|P]; [discriminate|apply P; reflexivity].
    - destruct (c18_value v r D Z) as (a & A & S). pose proof (SH _ _ _ _ _ R' (c18_zero v' r' D' Z')) as E. pose proof (SH _ _ _ _ _ R S) as E'. rewrite E in E'. injection E' as E'. exfalso. change (lit "00 ft") with (lit "00" ++ lit " ft") in E'. apply AP in E'. subst a. destruct A as (_ & P & _). destruct P as [P|P]; [discriminate|apply P; reflexivity].
    - destruct (c18_value v r D Z) as (a & A & S). destruct (c18_value v' r' D' Z') as (a' & A' & S'). pose proof (SH _ _ _ _ _ R S) as E. pose proof (SH _ _ _ _ _ R' S') as E'. rewrite E in E'. injection E' as E'. apply AP in E'. subst a'. destruct A as (_ & _ & A). destruct A' as (_ & _ & A'). lia. }
  4:{ assert (X : List.length v <= 4 /\ List.length v' <= 4) by (destruct B as [B|(_ & B)]; [lia|congruence]). destruct X as (X & X'). destruct (c20_course v r D X) as (a & A & S). destruct (c20_course v' r' D' X') as (a' & A' & S').
      pose proof (SH _ _ _ _ _ R S) as E. pose proof (SH _ _ _ _ _ R' S') as E'. rewrite E in E'. injection E' as <-. eapply decimal_once; eassumption. }
  4:{ destruct (c20_distance v r D B') as (a & A & S). destruct (c20_distance v' r' D' B2) as (a' & A' & S'). pose proof (SH _ _ _ _ _ R S) as E. pose proof (SH _ _ _ _ _ R' S') as E'. rewrite E in E'. injection E' as E'. apply AP in E'. subst a'. eapply decimal_once; eassumption. }
  { destruct (c19 F034 v r ltac:(cbn; tauto) D B') as (a & A & S). destruct (c19 F034 v' r' ltac:(cbn; tauto) D' B2) as (a' & A' & S'). pose proof (SH _ _ _ _ _ R S) as E. pose proof (SH _ _ _ _ _ R' S') as E'. rewrite E in E'. injection E' as <-. eapply decimal_once; eassumption. }
  { destruct (c19 F045 v r ltac:(cbn; tauto) D B') as (a & A & S). destruct (c19 F045 v' r' ltac:(cbn; tauto) D' B2) as (a' & A' & S'). pose proof (SH _ _ _ _ _ R S) as E. pose proof (SH _ _ _ _ _ R' S') as E'. rewrite E in E'. injection E' as <-. eapply decimal_once; eassumption. }
  { destruct (c19 F103 v r ltac:(cbn; tauto) D B') as (a & A & S). destruct (c19 F103 v' r' ltac:(cbn; tauto) D' B2) as (a' & A' & S'). pose proof (SH _ _ _ _ _ R S) as E. pose proof (SH _ _ _ _ _ R' S') as E'. rewrite E in E'. injection E' as <-. eapply decimal_once; eassumption. }
  { destruct (c49 F062 v r ltac:(cbn; tauto) D B') as (a & A & S). destruct (c49 F062 v' r' ltac:(cbn; tauto) D' B2) as (a' & A' & S'). rewrite A in R. rewrite A' in R'. assert (a = a') by congruence. subst a'. eapply decimal_once; eassumption. }
  { destruct (c49 F135 v r ltac:(cbn; tauto) D B') as (a & A & S). destruct (c49 F135 v' r' ltac:(cbn; tauto) D' B2) as (a' & A' & S'). rewrite A in R. rewrite A' in R'. assert (a = a') by congruence. subst a'. eapply decimal_once; eassumption. }
  { destruct (c49 F269 v r ltac:(cbn; tauto) D B') as (a & A & S). destruct (c49 F269 v' r' ltac:(cbn; tauto) D' B2) as (a' & A' & S'). rewrite A in R. rewrite A' in R'. assert (a = a') by congruence. subst a'. eapply decimal_once; eassumption. }
Qed.
