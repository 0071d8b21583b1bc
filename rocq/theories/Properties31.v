(* C89: what becomes of any line, white space at its beginning or not. *)
From Coq Require Import List String NArith Bool Arith Lia.
From Verif Require Import PyBase Decoder Layouts SpecLayouts Record Api Spec SpecRecord SpecApi StrFacts ReadFacts ReadProps ReadProps2 ReadProps3 RecordProps RecordProps2 ApiProps Samples Properties1 Properties30.
Import ListNotations.
Open Scope string_scope.
Open Scope list_scope.
Local Open Scope nat_scope.

(* ================= C89 ================= *)
(* The framing and the continuation number are those of the trimmed line; the section and the application type are taken from the line as it stands. *)
Record typed (line t : str) (s : string) (cont : option nat) (app : list nat) : Prop := Typed {
  ty_trimmed : trimmed line t; ty_framed : framed t; ty_section : section_is line (lit s); ty_columns : In (s, cont, app) cont_columns;
  ty_number : forall k, cont = Some k -> alnum_column t k }.
Definition first_record (t : str) (cont : option nat) : Prop := exists k, cont = Some k /\ zero_or_one (columns t [k]) = true.
(* result of read, and whether it prints nothing *)
Inductive fate (line : str) : result bool -> bool -> Prop :=
| fate_unframed : forall t, trimmed line t -> ~ framed t -> fate line (Ok false) true
| fate_section : forall t, trimmed line t -> framed t -> no_section line -> fate line (Ok false) true
| fate_number : bad_number line -> fate line (Ok false) false
| fate_record : forall t s cont app, typed line t s cont app -> first_record t cont \/ supports s (columns line app) -> fate line (Ok true) true
| fate_raise : forall t s cont app, typed line t s cont app -> ~ first_record t cont -> ~ supports s (columns line app) -> In s ["ER"; "EU"; "EV"; "HV"; "PP"] -> fate line (Err ValueError) true
| fate_type : forall t s cont app, typed line t s cont app -> ~ first_record t cont -> ~ supports s (columns line app) -> ~ In s ["ER"; "EU"; "EV"; "HV"; "PP"] -> fate line (Ok false) true.

Lemma columns_section : forall s c a, In (s, c, a) cont_columns -> In s sections.
Proof.
  assert (C : forallb (fun x => existsb (String.eqb (fst (fst x))) sections) cont_columns = true) by (vm_compute; reflexivity).
  intros s c a H. rewrite forallb_forall in C. apply C in H. apply existsb_exists in H as [y [H1 H2]]. apply String.eqb_eq in H2. cbn [fst] in H2. congruence.
Qed.
Lemma raising_iff : forall s c a, In (s, c, a) cont_columns -> (raising (lit s) = true <-> In s ["ER"; "EU"; "EV"; "HV"; "PP"]).
Proof.
  intros s c a I. unfold raising. rewrite existsb_exists. split; [|intro J; exists s; split; [exact J|apply str_eqb_refl]]. intros [x [H1 H2]]. apply str_eqb_eq in H2.
  assert (Y : exists c2 a2, In (x, c2, a2) cont_columns) by (clear - H1; cbn [In] in H1; repeat (destruct H1 as [<-|H1]; [do 2 eexists; cbn; tauto|]); contradiction).
  destruct Y as (c2 & a2 & Y). pose proof (cont_columns_inj _ _ Y I H2) as Q. injection Q as -> _ _. exact H1.
Qed.
(* read by the kinds of typed lines *)
Lemma typed_read : forall line t s cont app, typed line t s cont app -> exists r', (first_record t cont <-> zero_or_one (continuation r') = true) /\ (zero_or_one (continuation r') = true -> exists k, fst (type_columns (lit s)) = Some k) /\
  type_columns (lit s) = (cont, app) /\ read new_record line = expected_fields (lit s) line r'.
Proof.
  intros line t s cont app [T F S I A]. assert (V : validate line = true) by (apply validate_framed; rewrite (trimmed_strip _ _ T); exact F).
  assert (TC : type_columns (lit s) = (cont, app)) by (apply type_info_iff; [apply S|exists s; auto]).
  rewrite (read_expected new_record line V), (trimmed_strip _ _ T). unfold expected_read. apply section_of_is in S. rewrite S. cbv zeta. rewrite TC. cbn [fst]. destruct cont as [k|].
  - assert (B : 1 <= k <= List.length t) by (rewrite (framed_length _ F); destruct (type_columns_in (lit s)) as [_ G]; apply G; rewrite TC; reflexivity).
    specialize (A k eq_refl). apply alnum_column_iff in A; [|exact B]. rewrite A. eexists. split; [|split; [|split; [reflexivity|reflexivity]]]; cbn [continuation]; [|intros _; exists k; reflexivity].
    split; [intros (k' & E & Z); injection E as ->; exact Z|intro Z; exists k; auto].
  - eexists. split; [|split; [|split; [reflexivity|reflexivity]]]; cbn [continuation].
    + split; [intros (k & E & _); discriminate E|intro Z; vm_compute in Z; discriminate Z].
    + intro Z. vm_compute in Z. discriminate Z.
Qed.
Lemma typed_layout : forall line t s cont app r', typed line t s cont app -> (first_record t cont <-> zero_or_one (continuation r') = true) -> (zero_or_one (continuation r') = true -> exists k, fst (type_columns (lit s)) = Some k) ->
  (some_b (layout_for (lit s) (zero_or_one (continuation r')) (columns line app)) = true <-> first_record t cont \/ supports s (columns line app)).
Proof.
  intros line t s cont app r' [T F S I A] Q K. pose proof (columns_section _ _ _ I) as J. destruct (zero_or_one (continuation r')) eqn:Z.
  - destruct (K eq_refl) as [k C]. rewrite (layout_primary_always s _ k J C). split; [intros _; left; apply Q; reflexivity|reflexivity].
  - rewrite layout_cont_supported by exact J. rewrite <- supports_iff. split; [auto|]. intros [P|P]; [apply Q in P; discriminate P|exact P].
Qed.
Theorem C89_fate : forall line res quiet, fate line res quiet -> returned (read new_record line) = res /\ (printed (read new_record line) = [] <-> quiet = true).
Proof.
  intros line res quiet H. destruct H as [t T F|t T F N|B|t s cont app Y D|t s cont app Y N1 N2 J|t s cont app Y N1 N2 J].
  - rewrite (c01_read new_record line t T F). split; [reflexivity|]. split; reflexivity.
  - assert (V : validate line = true) by (apply validate_framed; rewrite (trimmed_strip _ _ T); exact F). rewrite (read_expected new_record line V). unfold expected_read. apply section_of_none in N. rewrite N. split; [reflexivity|]. split; reflexivity.
  - assert (P := proj2 (read_print new_record line) B). split; [|split; [intro E; contradiction|discriminate]].
    destruct B as (t & s & k & app & T & F & S & I & NA). assert (V : validate line = true) by (apply validate_framed; rewrite (trimmed_strip _ _ T); exact F).
    rewrite (read_expected new_record line V) in *. unfold expected_read in *. apply section_of_is in S as SE. rewrite SE in *. cbv zeta in *.
    assert (TC : type_columns (lit s) = (Some k, app)) by (apply type_info_iff; [apply S|exists s; auto]). rewrite TC in *. cbn [fst] in *. rewrite (trimmed_strip _ _ T) in *.
    destruct (isalnum (columns t [k])) eqn:A; [exfalso|reflexivity]. apply NA, alnum_column_iff; [rewrite (framed_length _ F); destruct (type_columns_in (lit s)) as [_ G]; apply G; rewrite TC; reflexivity|exact A].
  - destruct (typed_read _ _ _ _ _ Y) as (r' & Q & K & TC & ->). pose proof (proj2 (typed_layout _ _ _ _ _ r' Y Q K) D) as L. unfold expected_fields. rewrite TC. cbn [snd]. destruct (layout_for _ _ _); [|discriminate L]. split; [reflexivity|]. split; reflexivity.
  - destruct (typed_read _ _ _ _ _ Y) as (r' & Q & K & TC & ->). pose proof (typed_layout _ _ _ _ _ r' Y Q K) as L. unfold expected_fields. rewrite TC. cbn [snd]. destruct (layout_for _ _ _); [exfalso; destruct (proj1 L eq_refl); contradiction|].
    destruct Y as [_ _ _ I _]. rewrite (proj2 (raising_iff _ _ _ I) J). split; [reflexivity|]. split; reflexivity.
  - destruct (typed_read _ _ _ _ _ Y) as (r' & Q & K & TC & ->). pose proof (typed_layout _ _ _ _ _ r' Y Q K) as L. unfold expected_fields. rewrite TC. cbn [snd]. destruct (layout_for _ _ _); [exfalso; destruct (proj1 L eq_refl); contradiction|].
    destruct Y as [_ _ _ I _]. destruct (raising (lit s)) eqn:R; [exfalso; apply J, (raising_iff _ _ _ I), R|]. split; [reflexivity|]. split; reflexivity.
Qed.
Print Assumptions C89_fate.
(* and every line has one *)
Lemma first_record_dec : forall t cont, first_record t cont \/ ~ first_record t cont.
Proof.
  intros t [k|]; [|right; intros (k & E & _); discriminate E]. destruct (zero_or_one (columns t [k])) eqn:Z; [left; exists k; auto|right]. intros (k' & E & Z'). injection E as <-. congruence.
Qed.
Lemma supports_dec : forall s a, supports s a \/ ~ supports s a.
Proof. intros s a. rewrite supports_iff. destruct (supports_b s a); [left|right]; congruence. Qed.
Theorem C89_every_line : forall line, exists res quiet, fate line res quiet /\ forall res' quiet', fate line res' quiet' -> res' = res /\ quiet' = quiet.
Proof.
  intro line. assert (E : exists res quiet, fate line res quiet).
  { pose proof (strip_trimmed line) as T. destruct (validate line) eqn:V; [|do 2 eexists; apply (fate_unframed line (strip line)); [exact T|]; intro F; apply validate_framed in F; congruence].
    apply validate_framed in V as F. destruct (section_of line) as [code|] eqn:S; [|do 2 eexists; apply (fate_section line (strip line)); [exact T|exact F|apply section_of_none; exact S]].
    apply section_of_is in S. destruct (type_columns code) as [c a] eqn:TC. apply type_info_iff in TC as TI; [|apply S]. destruct TI as (s & I & ->).
    assert (A : (forall k, c = Some k -> alnum_column (strip line) k) \/ bad_number line).
    { destruct c as [k|]; [|left; discriminate]. assert (B : 1 <= k <= List.length (strip line)) by (rewrite (framed_length _ F); destruct (type_columns_in (lit s)) as [_ G]; apply G; rewrite TC; reflexivity).
      destruct (isalnum (columns (strip line) [k])) eqn:A; [left; intros k' E; injection E as <-; apply alnum_column_iff; assumption|right].
      exists (strip line), s, k, a. rewrite alnum_column_iff by exact B. repeat (split; [assumption|]). congruence. }
    destruct A as [A|A]; [|do 2 eexists; apply fate_number; exact A].
    assert (Y : typed line (strip line) s c a) by (constructor; assumption).
    destruct (first_record_dec (strip line) c) as [P|P]; [do 2 eexists; eapply fate_record; [exact Y|left; exact P]|].
    destruct (supports_dec s (columns line a)) as [Q|Q]; [do 2 eexists; eapply fate_record; [exact Y|right; exact Q]|].
    destruct (in_dec string_dec s ["ER"; "EU"; "EV"; "HV"; "PP"]) as [J|J]; do 2 eexists; [eapply fate_raise; eassumption|eapply fate_type; eassumption]. }
  destruct E as (res & quiet & E). exists res, quiet. split; [exact E|]. intros res' quiet' E'. apply C89_fate in E as [R P], E' as [R' P']. split; [congruence|].
  destruct quiet, quiet'; try reflexivity; exfalso; [assert (false = true) by (apply P', P; reflexivity)|assert (false = true) by (apply P, P'; reflexivity)]; discriminate.
Qed.
Print Assumptions C89_every_line.
(* C88_silent without the condition on the beginning *)
Theorem C89_silent : forall line, parse line true = ([], Ok false) <-> fate line (Ok false) true.
Proof.
  intro line. split.
  - intro P. destruct (C89_every_line line) as (res & quiet & E & _). pose proof (C89_fate _ _ _ E) as [R Q]. destruct (read new_record line) as [[o r] b] eqn:X. unfold parse in P. rewrite X in P. cbn [returned printed fst snd] in R, Q.
    assert (Z : o = [] /\ b = Ok false).
    { destruct b as [[|]|e]; [|injection P as ->; auto|discriminate P]. destruct (decode r true) as [o' [d|e]]; discriminate P. }
    destruct Z as [-> ->]. subst res. destruct quiet; [exact E|]. assert (false = true) by (apply Q; reflexivity). discriminate.
  - intro E. apply C89_fate in E as [R Q]. unfold parse. destruct (read new_record line) as [[o r] b]. cbn [returned printed fst snd] in R, Q. rewrite R, (proj2 Q eq_refl). reflexivity.
Qed.
Print Assumptions C89_silent.
Example C89_ex :
  fate l_sea (Ok true) true /\ fate l_airway_x (Err ValueError) true /\ fate l_sea_contx (Ok false) true /\
  (* a blank at the beginning: the section is read one column too early *)
  fate (lit " " ++ l_sea) (Ok false) true.
Proof.
  assert (G : forall line b q, returned (read new_record line) = b -> (if match printed (read new_record line) with [] => true | _ => false end then q = true else q = false) -> fate line b q).
  { intros line b q <- Q. destruct (C89_every_line line) as (res & quiet & E & _). pose proof (C89_fate _ _ _ E) as [R P]. rewrite R. destruct (printed (read new_record line)); subst q.
    - rewrite <- (proj1 P eq_refl). exact E.
    - destruct quiet; [pose proof (proj2 P eq_refl) as X; discriminate X|exact E]. }
  repeat match goal with |- _ /\ _ => split end; apply G; vm_compute; reflexivity.
Qed.
