(* C88: lines that are passed over in silence. *)
From Coq Require Import List String NArith Bool Arith Lia.
From Verif Require Import PyBase Decoder Layouts SpecLayouts Record Api Spec SpecRecord SpecApi StrFacts ReadFacts ReadProps ReadProps2 RecordProps RecordProps2 ApiProps Samples Properties1 Properties5.
Import ListNotations.
Open Scope string_scope.
Open Scope list_scope.
Local Open Scope nat_scope.

(* ================= C88 ================= *)
(* three kinds of lines without a trace: not framed; of no known section; continuation records of an application type that the section does not have *)
Definition unframed (line : str) : Prop := exists t, trimmed line t /\ ~ framed t.
Definition of_no_section (line : str) : Prop := exists t, record_line line t /\ no_section t.
Definition of_no_type (line : str) : Prop := exists t s cont app, record_line line t /\ section_is t (lit s) /\ In (s, cont, app) cont_columns /\
  (forall k, cont = Some k -> alnum_column t k /\ zero_or_one (columns t [k]) = false) /\ ~ supports s (columns t app) /\ ~ In s ["ER"; "EU"; "EV"; "HV"; "PP"].
Definition passed_over (line : str) : Prop := unframed line \/ of_no_section line \/ of_no_type line.

Lemma cont_columns_inj : forall x y, In x cont_columns -> In y cont_columns -> lit (fst (fst x)) = lit (fst (fst y)) -> x = y.
Proof.
  assert (S : forallb (fun x => Nat.eqb (List.length (filter (fun y => str_eqb (lit (fst (fst x))) (lit (fst (fst y)))) cont_columns)) 1) cont_columns = true) by (vm_compute; reflexivity).
  intros x y X Y E. rewrite forallb_forall in S. specialize (S x X). apply Nat.eqb_eq in S. cbv beta in S.
  assert (A : In x (filter (fun y => str_eqb (lit (fst (fst x))) (lit (fst (fst y)))) cont_columns)) by (apply filter_In; split; [exact X|apply str_eqb_refl]).
  assert (B : In y (filter (fun y => str_eqb (lit (fst (fst x))) (lit (fst (fst y)))) cont_columns)) by (apply filter_In; split; [exact Y|apply str_eqb_eq; exact E]).
  revert S A B. generalize (filter (fun y => str_eqb (lit (fst (fst x))) (lit (fst (fst y)))) cont_columns). intros [|a [|b l]] S A B; try discriminate S. destruct A as [<-|[]], B as [<-|[]]. reflexivity.
Qed.
Lemma info_unique : forall t s c a s' c' a', section_is t (lit s) -> In (s, c, a) cont_columns -> section_is t (lit s') -> In (s', c', a') cont_columns -> s' = s /\ c' = c /\ a' = a.
Proof.
  intros t s c a s' c' a' S I S' I'. assert (E : (s, c, a) = (s', c', a')) by (apply cont_columns_inj; [exact I|exact I'|exact (section_is_unique _ _ _ S S')]). injection E as -> -> ->. auto.
Qed.
Lemma line_section : forall line t code, record_line line t -> (section_is line code <-> section_is t code).
Proof. intros line t code R. rewrite <- !section_of_is. pose proof (record_line_length _ _ R) as L. destruct R as (_ & _ & _ & post & _ & ->). rewrite section_of_app by exact L. reflexivity. Qed.
Lemma record_line_trimmed : forall line t, record_line line t -> trimmed line t.
Proof. intros line t (_ & A & B & post & W & E). split; [exact A|]. split; [exact B|]. exists [], post. split; [constructor|]. auto. Qed.

(* nothing printed, False returned *)
Lemma quiet_read : forall line, passed_over line -> exists r, read new_record line = ([], r, Ok false).
Proof.
  intros line [(t & T & F)|[(t & R & N)|(t & s & c & a & R & S & I & K & NS & NI)]]; [eexists; eapply c01_read; eassumption|eexists; apply C03_unknown_section; eassumption|].
  destruct (read new_record line) as [[o r] b] eqn:E. assert (O : o = []).
  { destruct o as [|ev o]; [reflexivity|exfalso]. assert (P : printed (read new_record line) <> []) by (rewrite E; discriminate).
    apply read_print in P as (t' & s' & k & a' & T' & _ & S' & I' & NA). assert (t' = t) by (rewrite <- (trimmed_strip _ _ T'); exact (record_line_strip _ _ R)). subst t'.
    apply (line_section line t) in S'; [|exact R]. destruct (info_unique _ _ _ _ _ _ _ S I S' I') as (_ & <- & _). apply NA, K. reflexivity. }
  subst o. exists r. f_equal. destruct b as [[|]|e]; [exfalso|reflexivity|exfalso].
  - assert (X : returned (read new_record line) = Ok true) by (rewrite E; reflexivity). apply (c02 line t R) in X as (s' & c' & a' & S' & I' & _ & D).
    destruct (info_unique _ _ _ _ _ _ _ S I S' I') as (-> & -> & ->). destruct D as [(k & C & Z)|D]; [|exact (NS D)]. apply K in C. destruct C. congruence.
  - assert (X : exists e, returned (read new_record line) = Err e) by (exists e; rewrite E; reflexivity). apply (c09 line t R) in X as (s' & c' & a' & J & S' & (s2 & I' & E2) & _).
    rewrite E2 in S'. destruct (info_unique _ _ _ _ _ _ _ S I S' I') as (-> & _).
    assert (s' = s); [|subst; exact (NI J)].
    assert (Y : exists c2 a2, In (s', c2, a2) cont_columns) by (clear - J; cbn [In] in J; repeat (destruct J as [<-|J]; [do 2 eexists; cbn; tauto|]); contradiction).
    destruct Y as (c2 & a2 & Y). pose proof (cont_columns_inj _ _ Y I E2) as Q. injection Q as Q _ _. exact Q.
Qed.
Lemma quiet_parse : forall line output, passed_over line -> parse line output = ([], Ok false).
Proof. intros line output P. unfold parse. destruct (quiet_read line P) as [r ->]. reflexivity. Qed.
Theorem C88_silent : forall line, no_leading_space line -> (parse line true = ([], Ok false) <-> passed_over line).
Proof.
  intros line NL. split; [|apply quiet_parse]. intro P. destruct (read new_record line) as [[o r] b] eqn:E. unfold parse in P. rewrite E in P.
  assert (X : o = [] /\ b = Ok false).
  { destruct b as [[|]|e]; [|injection P as ->; auto|discriminate P]. destruct (decode r true) as [o' [d|e]]; discriminate P. }
  destruct X as [-> ->]. clear P. destruct (validate line) eqn:V.
  2:{ left. exists (strip line). split; [apply strip_trimmed|]. intro F. apply validate_framed in F. congruence. }
  right. apply validate_framed in V. pose proof (no_lead_record_line _ NL V) as R. set (t := strip line) in *. destruct (section_of t) as [code|] eqn:S; [right|left; exists t; split; [exact R|apply section_of_none; exact S]].
  apply section_of_is in S. destruct (type_columns code) as [c a] eqn:TC. assert (SU : supported code) by apply S. apply type_info_iff in TC as TI; [|exact SU]. destruct TI as (s & I & ->).
  exists t, s, c, a. split; [exact R|]. split; [exact S|]. split; [exact I|].
  assert (AL : forall k, c = Some k -> alnum_column t k).
  { intros k ->. assert (B : 1 <= k <= List.length t) by (rewrite (record_line_length _ _ R); destruct (type_columns_in (lit s)) as [_ G]; apply G; rewrite TC; reflexivity).
    destruct (isalnum (columns t [k])) eqn:A; [apply alnum_column_iff; assumption|exfalso].
    assert (Q : printed (read new_record line) <> []) by (apply read_print; exists t, s, k, a; split; [apply record_line_trimmed; exact R|]; split; [exact V|]; split; [apply (line_section line t); assumption|]; split; [exact I|]; rewrite alnum_column_iff by exact B; congruence).
    rewrite E in Q. apply Q. reflexivity. }
  assert (NT : ~ ((exists k, c = Some k /\ zero_or_one (columns t [k]) = true) \/ supports s (columns t a))).
  { intro D. assert (Q : returned (read new_record line) = Ok true) by (apply (c02 line t R); exists s, c, a; auto). rewrite E in Q. discriminate Q. }
  assert (Z : forall k, c = Some k -> alnum_column t k /\ zero_or_one (columns t [k]) = false).
  { intros k C. split; [apply AL; exact C|]. destruct (zero_or_one (columns t [k])) eqn:Z; [|reflexivity]. exfalso. apply NT. left. exists k. auto. }
  split; [exact Z|]. split; [intro D; apply NT; right; exact D|]. intro J.
  assert (Q : exists e, returned (read new_record line) = Err e) by (apply (c09 line t R); exists s, c, a; split; [exact J|]; split; [exact S|]; split; [exists s; auto|]; split; [exact Z|intro D; apply NT; right; exact D]).
  destruct Q as [e Q]. rewrite E in Q. discriminate Q.
Qed.
Print Assumptions C88_silent.

(* a file without some of them *)
Inductive thinned : list str -> list str -> Prop :=
| thin_nil : thinned [] []
| thin_keep : forall l ls ls', thinned ls ls' -> thinned (l :: ls) (l :: ls')
| thin_drop : forall l ls ls', passed_over l -> thinned ls ls' -> thinned (l :: ls) ls'.
Theorem C88_read_file : forall w w' p p' t t' ls ls' output, open_text w p = Ok t -> lines_of t ls -> open_text w' p' = Ok t' -> lines_of t' ls' -> thinned ls ls' ->
  read_file w p output = read_file w' p' output.
Proof.
  intros w w' p p' t t' ls ls' output O L O' L' T. rewrite (read_file_lines _ _ _ _ _ O L), (read_file_lines _ _ _ _ _ O' L'). clear - T.
  induction T as [|l ls ls' T IH|l ls ls' P T IH]; cbn [for_each]; [reflexivity|rewrite IH; reflexivity|].
  unfold parse_line at 1. rewrite quiet_parse by exact P. cbn [bind ret]. rewrite IH. destruct (for_each (parse_line output) ls') as [o r]. reflexivity.
Qed.
Print Assumptions C88_read_file.
Theorem C88_search : forall w w' p p' t t' ls ls' fl, open_text w p = Ok t -> lines_of t ls -> open_text w' p' = Ok t' -> lines_of t' ls' -> thinned ls ls' ->
  search w p fl = search w' p' fl.
Proof.
  intros w w' p p' t t' ls ls' fl O L O' L' T. rewrite (search_unfold _ _ _ _ _ O L), (search_unfold _ _ _ _ _ O' L').
  assert (E : forall n, search_lines fl n ls = search_lines fl n ls'); [|rewrite E; reflexivity]. clear - T.
  induction T as [|l ls ls' T IH|l ls ls' P T IH]; intro n; cbn [search_lines]; [reflexivity|destruct (read new_record l) as [[o r] [b|e]]; [rewrite !IH|]; reflexivity|].
  destruct (quiet_read l P) as [r ->]. cbn [negb bind]. rewrite IH. destruct (search_lines fl n ls') as [o x]. reflexivity.
Qed.
Print Assumptions C88_search.
(* files in which every line is passed over do not matter in a folder *)
Theorem C88_folder : forall w w' p n ns ms t ls, (forall f, open_text w' f = open_text w f) -> scandir w p = Ok (ns ++ n :: ms) -> scandir w' p = Ok (ns ++ ms) ->
  open_text w (path_join p n) = Ok t -> lines_of t ls -> Forall passed_over ls -> read_folder w p = read_folder w' p.
Proof.
  intros w w' p n ns ms t ls S D D' O L F. unfold read_folder. rewrite D, D'. cbn [lift bind].
  assert (X : forall l, for_each (fun m => read_file w' (path_join p m) true) l = for_each (fun m => read_file w (path_join p m) true) l).
  { intro l. induction l as [|m l IH]; [reflexivity|]. cbn [for_each]. rewrite IH. unfold read_file at 1 3. rewrite S. reflexivity. }
  rewrite X, !for_each_app. cbn [for_each]. assert (Q : read_file w (path_join p n) true = ([], Ok tt)).
  { rewrite (read_file_lines _ _ _ _ _ O L). clear - F. induction F as [|l ls P _ IH]; cbn [for_each]; [reflexivity|]. unfold parse_line at 1. rewrite quiet_parse by exact P. cbn [bind ret]. rewrite IH. reflexivity. }
  rewrite Q. cbn [bind]. destruct (for_each (fun m => read_file w (path_join p m) true) ms) as [o r]. reflexivity.
Qed.
Print Assumptions C88_folder.

(* a record of a section that the library knows can be passed over too *)
Theorem C88_known_section_refuted : ~ (forall line t s, record_line line t -> section_is t (lit s) -> parse line true <> ([], Ok false)).
Proof. intro H. apply (H l_sea_contx l_sea_contx "PA"); [sample|apply section_of_is; vm_compute; reflexivity|vm_compute; reflexivity]. Qed.
Print Assumptions C88_known_section_refuted.
Definition l_hdr : str := lit "HDR01FAACIFP18      001P013203974912511  21-NOV-202514:26:53  U.S.A. DOT FAA".
Example C88_ex : of_no_type l_sea_contx /\ unframed l_hdr /\ of_no_section l_no_sect /\ thinned [l_hdr; l_sea; l_sea_contx; l_acv; []] [l_sea; l_acv] /\
  read_file (disk (l_hdr ++ [10%N] ++ l_sea ++ [10%N] ++ l_sea_contx ++ [10%N] ++ l_acv ++ [10%N; 10%N])) (lit "d/f") true = (output_of (parse l_sea true) ++ output_of (parse l_acv true), Ok tt) /\
  (* the same letter in an airway record raises *)
  parse l_airway_x true = ([], Err ValueError) /\ ~ passed_over l_airway_x.
Proof.
  assert (A : passed_over l_sea_contx) by (apply C88_silent; [intros c H; vm_compute in H; injection H as <-; vm_compute; reflexivity|vm_compute; reflexivity]).
  assert (U : forall l, Nat.eqb (List.length (strip l)) 132 = false -> unframed l).
  { intros l H. exists (strip l). split; [apply strip_trimmed|]. intro F. apply framed_length in F. rewrite F in H. discriminate H. }
  repeat match goal with |- _ /\ _ => split end.
  - destruct A as [(t & T & F)|[(t & R & N)|A]]; [exfalso|exfalso|exact A].
    + apply F. rewrite <- (trimmed_strip _ _ T). apply validate_framed. vm_compute. reflexivity.
    + rewrite <- (record_line_strip _ _ R) in N. apply section_of_none in N. vm_compute in N. discriminate N.
  - apply U. vm_compute. reflexivity.
  - exists l_no_sect. split; [sample|apply section_of_none; vm_compute; reflexivity].
  - apply thin_drop; [left; apply U; vm_compute; reflexivity|]. apply thin_keep, thin_drop; [exact A|]. apply thin_keep, thin_drop; [left; apply U; vm_compute; reflexivity|constructor].
  - vm_compute. reflexivity.
  - vm_compute. reflexivity.
  - intro P. apply (quiet_parse _ true) in P. vm_compute in P. discriminate P.
Qed.
