(* Searching again, in what search has printed. *)
From Coq Require Import List String NArith ZArith Bool Arith Lia.
From Verif Require Import PyBase PyRepr Decoder Layouts Record Api Console SpecLayouts Spec SpecNum SpecLiteral SpecApi SpecAgain StrFacts NumFacts NumProps LiteralProps ReadFacts ReadProps ReadProps2 ReadProps3 RecordProps RecordProps2 ApiProps SpecConsole VisibleFacts.
Import ListNotations.
Open Scope string_scope.
Open Scope list_scope.
Local Open Scope nat_scope.

Lemma one_line_app : forall a b, one_line a -> one_line b -> one_line (a ++ b).
Proof. intros a b A B. apply Forall_app. split; assumption. Qed.
Lemma one_line_part : forall a b, one_line (a ++ b) -> one_line a /\ one_line b.
Proof. intros a b H. apply Forall_app in H. exact H. Qed.
Definition line_char (c : N) : bool := negb (c =? 10)%N && negb (c =? 13)%N.
Lemma one_line_b : forall s, forallb line_char s = true -> one_line s.
Proof.
  intros s H. apply Forall_forall. intros c I. rewrite forallb_forall in H. specialize (H c I). apply andb_true_iff in H as [A B].
  apply negb_true_iff in A, B. apply N.eqb_neq in A, B. auto.
Qed.
Lemma line_char_big : forall c, (13 < c)%N -> line_char c = true.
Proof. intros c H. unfold line_char. apply andb_true_iff. split; apply negb_true_iff, N.eqb_neq; lia. Qed.
Lemma hexits_line : forall k c, forallb line_char (hexits k c) = true.
Proof.
  induction k as [|k IH]; intro c; [reflexivity|]. cbn [hexits]. rewrite forallb_app, IH. cbn [forallb]. rewrite andb_true_r. cbn [andb].
  apply line_char_big. unfold hexit. destruct (N.ltb _ _); lia.
Qed.
Lemma repr_char_line : forall q c, In q [39; 34]%N -> forallb line_char (repr_char q c) = true.
Proof.
  intros q c Q. assert (B : forall x, (32 <= x)%N -> forallb line_char [x] = true) by (intros x H; cbn [forallb]; rewrite line_char_big by lia; reflexivity).
  unfold repr_char.
  destruct ((c =? q)%N || (c =? 92)%N) eqn:E; [apply orb_true_iff in E as [E|E]; apply N.eqb_eq in E; subst; [destruct Q as [<-|[<-|[]]]; reflexivity|reflexivity]|].
  repeat match goal with |- context [if ?b then _ else _] => destruct b eqn:? end; try reflexivity; try (rewrite forallb_app, hexits_line; reflexivity).
  - apply B. apply orb_false_iff in Heqb2 as [X _]. apply N.ltb_ge in X. exact X.
  - apply B. apply orb_false_iff in Heqb2 as [X _]. apply N.ltb_ge in X. exact X.
Qed.
Lemma repr_str_line : forall s, forallb line_char (repr_str s) = true.
Proof.
  intro s. unfold repr_str. cbv zeta. pose proof (repr_quote_in s) as Q. cbn [forallb]. rewrite forallb_app.
  assert (K : line_char (repr_quote s) = true) by (destruct Q as [<-|[<-|[]]]; reflexivity). rewrite K. cbn [forallb andb]. rewrite K, andb_true_r.
  generalize s at 2. intro s'. induction s' as [|c s' IH]; [reflexivity|]. cbn [flat_map]. rewrite forallb_app, repr_char_line by exact Q. exact IH.
Qed.
Lemma repr_list_line : forall l, one_line (repr_list l).
Proof.
  intro l. apply one_line_b. unfold repr_list. rewrite !forallb_app. assert (K : forallb line_char (repr_items l) = true); [|rewrite K; reflexivity].
  induction l as [|s l IH]; [reflexivity|]. cbn [repr_items]. destruct l as [|s' l]; [apply repr_str_line|]. rewrite !forallb_app, repr_str_line, IH. reflexivity.
Qed.
Lemma asked_line : forall fl, asked_on_one_line fl -> one_line (filters_text fl).
Proof. intros [s|l|s] H; [exact H|apply repr_list_line|exact H]. Qed.

(* no record: a line that does not start with S or T *)
Definition no_record (s : str) : Prop := exists c s', s = c :: s' /\ space_char c = false /\ c <> 83%N /\ c <> 84%N.
Lemma no_record_read : forall s, no_record s -> read new_record s = ([], new_record, Ok false).
Proof.
  intros s (c & s' & -> & W & A & B). apply read_not_framed. intros (L & [F|F] & _).
  all: destruct (strip_trimmed (c :: s')) as (T1 & _ & pre & post & P & _ & E); set (t := strip (c :: s')) in *;
    destruct pre as [|d pre]; [|injection E as <- _; inversion P; congruence]; destruct t as [|d t]; [discriminate L|]; injection E as Ec _; rewrite <- Ec in F; vm_compute in F; injection F as Fc; congruence.
Qed.
(* what is printed is one line for each event *)
Definition event_line (colours : bool) (e : event) : str := match e with EvPrint s => s | EvTable rows => get_string rows | EvColored c t => colored colours c t end.
Lemma console_lines_of : forall colours o, Forall (fun e => one_line (event_line colours e)) o -> lines_of (console colours o) (map (event_line colours) o).
Proof.
  intros colours o H. induction H as [|e o E _ IH]; [constructor|]. cbn [console flat_map map]. change (print colours e) with (event_line colours e ++ [nl]). rewrite <- app_assoc.
  apply (lines_more (event_line colours e) [10%N]); [exact E|left; reflexivity|discriminate|exact IH].
Qed.
Lemma search_found : forall w file fl t ls reps, open_text w file = Ok t -> lines_of t ls -> Forall2 (fun l p => report fl l (fst p) (snd p)) ls reps ->
  search w file fl = (List.concat (map fst reps) ++ [found (list_sum (map snd reps)) fl], Ok tt).
Proof.
  intros w file fl t ls reps O L R. rewrite (search_unfold w file fl t ls O L). rewrite <- (List.app_nil_r ls), (search_steps fl ls reps 0 [] R). cbn [search_lines bind ret emit].
  rewrite List.app_nil_r. reflexivity.
Qed.
Lemma bad_lines : forall colours d r, one_line (continuation r) -> one_line (raw r) -> Forall (fun e => one_line (event_line colours e) /\ no_record (event_line colours e)) (bad_continuation d r).
Proof.
  intros colours d r C R. assert (V : forall s, forallb line_char (lit s) = true -> one_line (lit s)) by (intros; apply one_line_b; assumption).
  assert (P : forall c s, space_char c = false -> c <> 83%N -> c <> 84%N -> no_record (c :: s)) by (intros c s; exists c, s; auto).
  unfold bad_continuation. apply Forall_cons; [|apply Forall_cons; [|apply Forall_cons; [|constructor]]]; split; cbn [event_line].
  - apply one_line_app; [apply V; reflexivity|]. apply one_line_app; [destruct d; apply V; reflexivity|]. apply one_line_app; [apply V; reflexivity|]. unfold quoted. repeat apply one_line_app; try exact C; apply V; reflexivity.
  - eapply (P 85%N); [reflexivity|discriminate|discriminate].
  - apply V; reflexivity.
  - eapply (P 86%N); [reflexivity|discriminate|discriminate].
  - apply one_line_app; [apply V; reflexivity|exact R].
  - eapply (P 82%N); [reflexivity|discriminate|discriminate].
Qed.
Lemma one_line_columns : forall t ks, one_line t -> one_line (columns t ks).
Proof.
  intros t ks H. unfold columns. apply Forall_flat_map. apply Forall_forall. intros k _. destruct (column t k) as [c|] eqn:E; [|constructor]. constructor; [|constructor].
  destruct k as [|k]; [discriminate|]. cbn [column] in E. apply nth_error_In in E. unfold one_line in H. rewrite Forall_forall in H. apply H. exact E.
Qed.
Lemma strip_one_line : forall l, one_line l -> one_line (strip l).
Proof. intros l H. destruct (strip_trimmed l) as (_ & _ & pre & post & _ & _ & E). rewrite E in H. apply one_line_part in H as [_ H]. apply one_line_part in H. tauto. Qed.
(* what a line that is no record prints *)
Lemma refused_lines : forall colours l, one_line l -> returned (read new_record l) = Ok false ->
  Forall (fun e => one_line (event_line colours e) /\ no_record (event_line colours e)) (printed (read new_record l)).
Proof.
  intros colours l O H. destruct (validate l) eqn:V; [|unfold read; rewrite V; constructor].
  rewrite (read_expected _ _ V) in H |- *. unfold expected_read in *. destruct (section_of l) as [code|]; [|constructor]. cbv zeta in *.
  assert (E : forall r, Forall (fun e => one_line (event_line colours e) /\ no_record (event_line colours e)) (printed (expected_fields code l r))).
  { intro r. unfold expected_fields. destruct (layout_for code _ _); [constructor|]. destruct (raising code); constructor. }
  destruct (fst (type_columns code)) as [k|]; [|apply E]. destruct (isalnum (columns (strip l) [k])); [apply E|]. cbn [printed fst].
  destruct (record_class code) as [d|]; [|constructor]. apply bad_lines; cbn [continuation raw]; [apply one_line_columns|]; apply strip_one_line; exact O.
Qed.
Lemma colored_line : forall colours n fl, asked_on_one_line fl -> one_line (event_line colours (found n fl)) /\ no_record (event_line colours (found n fl)).
Proof.
  intros colours n fl A. apply asked_line in A.
  assert (T : one_line (lit "Found " ++ str_of_Z (Z.of_nat n) ++ lit " records that contain " ++ filters_text fl)).
  { apply one_line_app; [apply one_line_b; reflexivity|]. apply one_line_app; [|apply one_line_app; [apply one_line_b; reflexivity|exact A]].
    eapply Forall_impl; [|apply v_str_of_Z]. cbv beta. intros c H. unfold visible in H. lia. }
  unfold found. cbn [event_line]. unfold colored. set (t := lit "Found " ++ _) in *. destruct colours.
  - split; [|exists 27%N; eexists; repeat split; discriminate]. change (27%N :: lit "[" ++ ?a) with ([27%N] ++ lit "[" ++ a).
    constructor; [split; discriminate|]. apply one_line_app; [apply one_line_b; reflexivity|]. apply one_line_app; [unfold colour_code; destruct (str_eqb _ _); apply one_line_b; reflexivity|].
    apply one_line_app; [apply one_line_b; reflexivity|]. apply one_line_app; [exact T|apply one_line_b; reflexivity].
  - split; [exact T|]. exists 70%N. eexists. repeat split; discriminate.
Qed.

Lemma again_read : forall l, no_leading_space l -> returned (read new_record l) = Ok true -> read new_record l = read new_record (strip l).
Proof.
  intros l N R. assert (V : validate l = true) by (destruct (validate l) eqn:V; [reflexivity|]; unfold read in R; rewrite V in R; discriminate R).
  pose proof (no_lead_record_line l N (proj1 (validate_framed l) V)) as RL. rewrite (read_record_line _ _ _ RL).
  symmetry. apply read_record_line. destruct RL as (A & B & C & _). split; [exact A|]. split; [exact B|]. split; [exact C|]. exists []. split; [constructor|rewrite app_nil_r; reflexivity].
Qed.
(* what the lines of a file contribute, and to a second search in what is printed *)
Lemma again_steps : forall colours fl fl' ls ts, Forall one_line ls -> Forall no_leading_space ls -> picked (fun t => matches fl t /\ matches fl' t) ls ts ->
  exists reps reps', Forall2 (fun l p => report fl l (fst p) (snd p)) ls reps /\ Forall (fun e => one_line (event_line colours e)) (List.concat (map fst reps)) /\
    Forall2 (fun l p => report fl' l (fst p) (snd p)) (map (event_line colours) (List.concat (map fst reps))) reps' /\
    List.concat (map fst reps') = map EvPrint ts /\ list_sum (map snd reps') = List.length ts.
Proof.
  intros colours fl fl' ls ts O N H. induction H as [|l ls t ts R T [M1 M2] H IH|l ls t ts R T M H IH|l ls ts R H IH].
  - exists [], []. repeat split; constructor.
  - inversion O as [|? ? O1 O2]; subst. inversion N as [|? ? N1 N2]; subst. destruct (IH O2 N2) as (reps & reps' & A & B & C & D & E).
    pose proof (trimmed_unique _ _ T) as TE.
    exists (([EvPrint t], 1) :: reps), (([EvPrint t], 1) :: reps'). cbn [map fst snd List.concat List.app event_line].
    split; [constructor; [apply rep_found; assumption|exact A]|]. split; [constructor; [rewrite TE; apply strip_one_line; exact O1|exact B]|].
    split; [|split; [rewrite D; reflexivity|cbn [list_sum fold_right Nat.add List.length]; f_equal; exact E]]. constructor; [|exact C]. cbn [fst snd].
    assert (T' : trimmed t t) by (destruct T as (X & Y & _); split; [exact X|split; [exact Y|]]; exists [], []; repeat split; try constructor; rewrite app_nil_r; reflexivity).
    apply rep_found; [|exact T'|exact M2]. rewrite <- R. f_equal. rewrite TE. symmetry. apply again_read; assumption.
  - inversion O as [|? ? O1 O2]; subst. inversion N as [|? ? N1 N2]; subst. destruct (IH O2 N2) as (reps & reps' & A & B & C & D & E).
    pose proof (trimmed_unique _ _ T) as TE.
    destruct (matches_dec fl t) as [M1|M1].
    + exists (([EvPrint t], 1) :: reps), (([], 0) :: reps'). cbn [map fst snd List.concat List.app event_line].
      split; [constructor; [apply rep_found; assumption|exact A]|]. split; [constructor; [rewrite TE; apply strip_one_line; exact O1|exact B]|].
      split; [|split; [exact D|exact E]]. constructor; [|exact C]. cbn [fst snd].
      assert (T' : trimmed t t) by (destruct T as (X & Y & _); split; [exact X|split; [exact Y|]]; exists [], []; repeat split; try constructor; rewrite app_nil_r; reflexivity).
      apply (rep_other _ _ t); [|exact T'|tauto]. rewrite <- R. f_equal. rewrite TE. symmetry. apply again_read; assumption.
    + exists (([], 0) :: reps), reps'. cbn [map fst snd List.concat List.app event_line]. split; [constructor; [apply (rep_other _ _ t); assumption|exact A]|]. auto.
  - inversion O as [|? ? O1 O2]; subst. inversion N as [|? ? N1 N2]; subst. destruct (IH O2 N2) as (reps & reps' & A & B & C & D & E).
    pose proof (refused_lines colours l O1 R) as F.
    exists ((printed (read new_record l), 0) :: reps), (map (fun _ => ([], 0)) (printed (read new_record l)) ++ reps'). cbn [map fst snd List.concat].
    split; [constructor; [apply rep_none; exact R|exact A]|]. split; [apply Forall_app; split; [|exact B]; eapply Forall_impl; [|exact F]; cbv beta; tauto|].
    split; [rewrite map_app; apply Forall2_app; [|exact C]|].
    + clear - F. induction F as [|e o [_ Q] _ IH]; [constructor|]. cbn [map]. constructor; [|exact IH]. cbn [fst snd].
      pose proof (no_record_read _ Q) as R. replace (@nil event) with (printed (read new_record (event_line colours e))) by (rewrite R; reflexivity). apply rep_none. rewrite R. reflexivity.
    + rewrite !map_app, concat_app, list_sum_app. rewrite D, E. assert (Z : forall o : list event, List.concat (map fst (map (fun _ => (@nil event, 0)) o)) = [] /\ list_sum (map snd (map (fun _ => (@nil event, 0)) o)) = 0) by (induction o as [|e o [I1 I2]]; split; auto).
      destruct (Z (printed (read new_record l))) as [-> ->]. split; reflexivity.
Qed.
Lemma lines_one_line : forall t ls, lines_of t ls -> Forall one_line ls.
Proof. intros t ls H. induction H; constructor; auto. Qed.
Theorem c78_again : forall w file w' file' fl fl' t ls ts colours, open_text w file = Ok t -> lines_of t ls -> Forall no_leading_space ls -> asked_on_one_line fl ->
  open_text w' file' = Ok (console colours (output_of (search w file fl))) -> picked (fun t => matches fl t /\ matches fl' t) ls ts ->
  search w' file' fl' = (map EvPrint ts ++ [found (List.length ts) fl'], Ok tt).
Proof.
  intros w file w' file' fl fl' t ls ts colours O L N A O' P.
  destruct (again_steps colours fl fl' ls ts (lines_one_line _ _ L) N P) as (reps & reps' & R & F & R' & C & S).
  rewrite (search_found w file fl t ls reps O L R) in O'. cbn [output_of fst] in O'. set (n := list_sum (map snd reps)) in *.
  destruct (colored_line colours n fl A) as [K1 K2].
  assert (L' : lines_of (console colours (List.concat (map fst reps) ++ [found n fl])) (map (event_line colours) (List.concat (map fst reps) ++ [found n fl]))).
  { apply console_lines_of. apply Forall_app. split; [exact F|repeat constructor; exact K1]. }
  rewrite map_app in L'. rewrite (search_found w' file' fl' _ _ (reps' ++ [([], 0)]) O' L').
  - rewrite !map_app, concat_app, list_sum_app, C, S. cbn. rewrite app_nil_r, Nat.add_0_r. reflexivity.
  - apply Forall2_app; [exact R'|]. constructor; [|constructor]. cbn [fst snd]. pose proof (no_record_read _ K2) as Q.
    replace (@nil event) with (printed (read new_record (event_line colours (found n fl)))) by (rewrite Q; reflexivity). apply rep_none. rewrite Q. reflexivity.
Qed.

(* reading what search has printed: the records found *)
Lemma skip_line : forall output s ss, no_record s -> for_each (parse_line output) (s :: ss) = for_each (parse_line output) ss.
Proof.
  intros output s ss Q. cbn [for_each]. assert (E : parse_line output s = ([], Ok tt)) by (unfold parse_line, parse; rewrite (no_record_read _ Q); reflexivity).
  rewrite E. cbn [bind]. destruct (for_each (parse_line output) ss) as [o r]. reflexivity.
Qed.
Lemma skip_lines : forall output ss ss', Forall no_record ss -> for_each (parse_line output) (ss ++ ss') = for_each (parse_line output) ss'.
Proof. intros output ss ss' H. induction H as [|s ss Q _ IH]; [reflexivity|]. cbn [List.app]. rewrite skip_line by exact Q. exact IH. Qed.
Lemma printed_steps : forall colours output fl ls ts, Forall one_line ls -> picked (matches fl) ls ts ->
  exists reps, Forall2 (fun l p => report fl l (fst p) (snd p)) ls reps /\ Forall (fun e => one_line (event_line colours e)) (List.concat (map fst reps)) /\
    forall ss, Forall no_record ss -> for_each (parse_line output) (map (event_line colours) (List.concat (map fst reps)) ++ ss) = for_each (parse_line output) ts.
Proof.
  intros colours output fl ls ts O H. induction H as [|l ls t ts R T M H IH|l ls t ts R T M H IH|l ls ts R H IH]; try (inversion O as [|? ? O1 O2]; subst; destruct (IH O2) as (reps & A & B & C)).
  - exists []. split; [constructor|]. split; [constructor|]. intros ss Q. cbn [map List.concat List.app]. rewrite <- (app_nil_r ss), skip_lines by exact Q. reflexivity.
  - exists (([EvPrint t], 1) :: reps). cbn [map fst snd List.concat List.app event_line]. split; [constructor; [apply rep_found; assumption|exact A]|].
    split; [constructor; [rewrite (trimmed_unique _ _ T); apply strip_one_line; exact O1|exact B]|]. intros ss Q. cbn [for_each]. rewrite C by exact Q. reflexivity.
  - exists (([], 0) :: reps). split; [constructor; [apply (rep_other _ _ t); assumption|exact A]|]. split; assumption.
  - pose proof (refused_lines colours l O1 R) as F. exists ((printed (read new_record l), 0) :: reps). cbn [map fst List.concat].
    split; [constructor; [apply rep_none; exact R|exact A]|]. split; [apply Forall_app; split; [|exact B]; eapply Forall_impl; [|exact F]; cbv beta; tauto|].
    intros ss Q. rewrite map_app, <- app_assoc, skip_lines; [apply C; exact Q|]. clear - F. induction F as [|e o [_ Q] _ IH]; constructor; assumption.
Qed.
Theorem c78_read : forall w file w' file' w'' file'' fl t t' ls ts colours output, open_text w file = Ok t -> lines_of t ls -> asked_on_one_line fl ->
  open_text w' file' = Ok (console colours (output_of (search w file fl))) -> picked (matches fl) ls ts -> open_text w'' file'' = Ok t' -> lines_of t' ts ->
  read_file w' file' output = read_file w'' file'' output.
Proof.
  intros w file w' file' w'' file'' fl t t' ls ts colours output O L A O' P O'' L''.
  destruct (printed_steps colours output fl ls ts (lines_one_line _ _ L) P) as (reps & R & F & E).
  rewrite (search_found w file fl t ls reps O L R) in O'. cbn [output_of fst] in O'. set (n := list_sum (map snd reps)) in *. destruct (colored_line colours n fl A) as [K1 K2].
  assert (L' : lines_of (console colours (List.concat (map fst reps) ++ [found n fl])) (map (event_line colours) (List.concat (map fst reps) ++ [found n fl]))).
  { apply console_lines_of. apply Forall_app. split; [exact F|repeat constructor; exact K1]. }
  rewrite map_app in L'. rewrite (read_file_lines _ _ _ _ _ O' L'), (read_file_lines _ _ _ _ _ O'' L''). apply E. repeat constructor. exact K2.
Qed.
(* such records exist *)
Lemma picked_exists : forall P ls, (forall t, P t \/ ~ P t) -> Forall reads ls -> exists ts, picked P ls ts.
Proof.
  intros P ls D H. induction H as [|l ls [[|] R] _ (ts & IH)]; [exists []; constructor| |exists ts; apply picked_other; assumption].
  destruct (D (strip l)) as [Y|N]; [exists (strip l :: ts); apply picked_yes|exists ts; apply (picked_no _ _ _ (strip l))]; auto using strip_trimmed.
Qed.
