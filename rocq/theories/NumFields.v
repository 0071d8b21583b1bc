(* Lemmas behind C54: the fields holding numbers, for any text. *)
From Coq Require Import List String NArith ZArith Bool Arith Lia.
From Verif Require Import PyBase Decoder Spec StrFacts SpecNum SpecDecode NumFacts NumProps PyNumProps SpecRepr ReprFacts CodeProps.
Import ListNotations.
Open Scope string_scope.
Open Scope list_scope.
Local Open Scope nat_scope.

Lemma ok_str : forall t u, (@nil event, Ok (DStr u)) = ([], Ok (DStr t)) <-> t = u.
Proof. intros. split; [intro H; injection H as ->; reflexivity|intros ->; reflexivity]. Qed.
Lemma lift_bind : forall A B (x : A) (k : A -> M B), bind (lift (Ok x)) k = k x.
Proof. intros A B x k. unfold bind, lift. destruct (k x). reflexivity. Qed.
(* a decoder that reads v as a number and shows it with k decimals *)
Lemma scaled_run : forall v k suffix t, 1 <= k ->
  (bind (float_of v) (fun x => ret (DStr (fmt_fixed k (fl_div x (10 ^ Z.of_nat k)) ++ suffix))) = ([], Ok (DStr t)) <->
   exists n, scaled v k n /\ t = n ++ suffix).
Proof.
  intros v k suffix t K. unfold float_of. split.
  - destruct (py_float v) as [x|] eqn:P; [|discriminate]. intro H. apply ok_str in H. eexists. split; [apply scaled_iff; eauto|exact H].
  - intros [n [S ->]]. apply scaled_iff in S as [x [P ->]]; [|exact K]. rewrite P. reflexivity.
Qed.
Lemma scaled_run0 : forall v k t, 1 <= k ->
  (bind (float_of v) (fun x => ret (DStr (fmt_fixed k (fl_div x (10 ^ Z.of_nat k))))) = ([], Ok (DStr t)) <-> scaled v k t).
Proof.
  intros v k t K. unfold float_of. split.
  - destruct (py_float v) as [x|] eqn:P; [|discriminate]. intro H. apply ok_str in H. subst t. apply scaled_iff; eauto.
  - intro S. apply scaled_iff in S as [x [P ->]]; [|exact K]. rewrite P. reflexivity.
Qed.
Lemma c54_course : forall v t r s, trimmed v t -> t <> [] -> all_alnum t -> List.length t <= 4 -> ~ ends_in_T t ->
  (shows F026 v r s <-> scaled t 1 s).
Proof.
  intros v t r s T NE A L NT. apply trimmed_iff in T. unfold shows, run_fn, field_026. cbv zeta. rewrite T.
  replace (Nat.eqb (List.length t) 0) with false by (destruct t; [congruence|reflexivity]).
  replace (isalnum t) with true by (symmetry; apply all_nonempty_iff; auto).
  replace (Nat.ltb 4 (List.length t)) with false by (symmetry; apply Nat.ltb_ge; lia). cbn [negb orb].
  destruct (endswith t (lit "T")) eqn:E; [exfalso; apply NT, endswith_iff; exact E|]. apply (scaled_run0 t 1 s); lia.
Qed.
Lemma c54_distance : forall v t r s, trimmed v t -> t <> [] -> (forall t', t <> lit "T" ++ t') ->
  (shows F027 v r s <-> exists n, scaled t 1 n /\ s = n ++ lit " nm").
Proof.
  intros v t r s T NE NT. apply trimmed_iff in T. unfold shows, run_fn, field_027. cbv zeta. rewrite T. destruct t as [|c t]; [congruence|].
  cbn [List.length Nat.ltb Nat.leb]. unfold index. cbn [nth_error]. rewrite lift_bind.
  replace (str_eqb [c] (lit "T")) with false by (symmetry; apply str_eqb_neq; intro X; injection X as ->; apply (NT t); reflexivity).
  apply (scaled_run (c :: t) 1 (lit " nm") s); lia.
Qed.
Lemma c54_time : forall v t r s, trimmed v (lit "T" ++ t) -> (shows F027 v r s <-> exists n, scaled t 1 n /\ s = n ++ lit " min").
Proof.
  intros v t r s T. apply trimmed_iff in T. unfold shows, run_fn, field_027. cbv zeta. rewrite T.
  change (lit "T" ++ t) with (84%N :: t). cbn [List.length Nat.ltb Nat.leb]. unfold index. cbn [nth_error]. rewrite lift_bind. apply (scaled_run t 1 (lit " min") s); lia.
Qed.
Lemma c54_vor : forall v t r s, trimmed v t -> t <> [] -> all_numeric t -> (shows F034 v r s <-> scaled t 2 s).
Proof.
  intros v t r s T NE A. apply trimmed_iff in T. unfold shows, run_fn, field_034. cbv zeta. rewrite T.
  replace (isnumeric t) with true by (symmetry; apply all_nonempty_iff; auto). destruct t as [|c t]; [congruence|]. apply (scaled_run0 (c :: t) 2 s); lia.
Qed.
Lemma c54_frequency : forall f v r s, In f [F045; F103] -> v <> [] -> all_numeric v -> (shows f v r s <-> scaled v 2 s).
Proof.
  intros f v r s F NE A. assert (I : isnumeric v = true) by (apply all_nonempty_iff; auto). cbn [In] in F.
  destruct F as [<-|[<-|[]]]; unfold shows, run_fn, field_045, field_103; rewrite I; apply (scaled_run0 v 2 s); lia.
Qed.
Lemma float_run : forall v y, bind (float_of v) (fun x => ret (DFloat (fl_div x 10))) = ([], Ok (DFloat y)) <-> exists x, float_reads v x /\ divided x 10 y.
Proof.
  intros v y. unfold float_of. split.
  - destruct (py_float v) as [x|] eqn:P; [|discriminate]. intro H. injection H as <-. exists x. split; [apply float_iff; exact P|apply divided_iff; [lia|reflexivity]].
  - intros [x [F D]]. apply float_iff in F. apply divided_iff in D; [|lia]. subst y. rewrite F. reflexivity.
Qed.
Lemma c54_tenths : forall f v r y, (In f [F062; F135] -> v <> [] -> all_numeric v -> (run_fn f v r = ([], Ok (DFloat y)) <-> exists x, float_reads v x /\ divided x 10 y)) /\
  (f = F269 -> ~ whitespace v -> (run_fn f v r = ([], Ok (DFloat y)) <-> exists x, float_reads v x /\ divided x 10 y)).
Proof.
  intros f v r y. split.
  - intros F NE A. assert (I : isnumeric v = true) by (apply all_nonempty_iff; auto). cbn [In] in F.
    destruct F as [<-|[<-|[]]]; unfold run_fn, field_062, field_135; rewrite I; apply float_run.
  - intros -> W. unfold run_fn, field_269. destruct (blank v) eqn:B; [apply blank_iff in B; contradiction|]. apply float_run.
Qed.
Lemma c54_magnetic : forall c d r t, ~ whitespace (c :: d) ->
  (shows F039 (c :: d) r t <-> exists z s, int_reads d z /\ padded 3 z s /\ t = s ++ lit " " ++ [c]).
Proof.
  intros c d r t W. unfold shows, run_fn, field_039. destruct (blank (c :: d)) eqn:B; [apply blank_iff in B; contradiction|].
  unfold slice_from, int_of. cbn [skipn]. split.
  - destruct (py_int d) as [z|] eqn:P; [|discriminate]. intro H. injection H as <-. exists z, (fmt03 z). split; [apply int_iff; exact P|]. split; [apply padded_iff; reflexivity|reflexivity].
  - intros [z [s [I [P ->]]]]. apply int_iff in I. apply padded_iff in P. subst s. rewrite I. reflexivity.
Qed.
Lemma c54_cycle : forall a b rest r t,
  shows F032 (a :: b :: rest) r t <-> exists z, int_reads [a; b] z /\ t = (if Z.ltb 50 z then lit "19" else lit "20") ++ [a; b] ++ lit ", Release " ++ rest.
Proof.
  intros a b rest r t. unfold shows, run_fn, field_032, slice_to, slice_from, int_of. cbn [firstn skipn]. split.
  - destruct (py_int [a; b]) as [z|] eqn:P; [|discriminate]. intro H. injection H as <-. exists z. split; [apply int_iff; exact P|].
    destruct (Z.ltb 50 z); reflexivity.
  - intros [z [I ->]]. apply int_iff in I. rewrite I. cbn [bind ret app]. destruct (Z.ltb 50 z); reflexivity.
Qed.

(* the floats decoded *)
Definition double_result (a : M dval) : Prop := forall x, snd a = Ok (DFloat x) -> a_double x.
Lemma dr_str : forall evs s, double_result (evs, Ok (DStr s)). Proof. intros evs s x H. discriminate. Qed.
Lemma dr_none : forall evs, double_result (evs, Ok DNone). Proof. intros evs x H. discriminate. Qed.
Lemma dr_err : forall evs e, double_result (evs, Err e). Proof. intros evs e x H. discriminate. Qed.
Lemma dr_bind : forall A (m : M A) k, (forall a, double_result (k a)) -> double_result (bind m k).
Proof. intros A [evs [a|e]] k H x E; cbn in E; [|discriminate]. specialize (H a x). destruct (k a). auto. Qed.
Lemma dr_float : forall v, double_result (bind (float_of v) (fun x => ret (DFloat (fl_div x 10)))).
Proof.
  intros v y H. unfold float_of in H. destruct (py_float v) as [x|] eqn:P; [|discriminate]. cbn in H. injection H as <-.
  apply fl_div_a_double; [lia|]. eapply float_a_double; eauto.
Qed.
Ltac dr := cbv zeta; repeat first [apply dr_str | apply dr_none | apply dr_err | apply dr_float | (apply dr_bind; intro)
  | match goal with |- double_result (if ?b then _ else _) => destruct b | |- double_result (match ?b with _ => _ end) => destruct b end].
Lemma decoded_double : forall f v r evs x, run_fn f v r = (evs, Ok (DFloat x)) -> a_double x.
Proof.
  intros f v r evs x H. assert (D : double_result (run_fn f v r)); [|exact (D x (f_equal snd H))]. clear H evs x.
  destruct f; unfold run_fn; try (apply dr_str);
  match goal with |- double_result (?g _ _) => unfold g end; unfold alnum4; dr.
Qed.
