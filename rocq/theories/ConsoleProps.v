(* Lemmas: what the functions of the package put on the console for lines of visible characters. *)
From Coq Require Import List String NArith Bool Arith Lia.
From Verif Require Import PyBase DecoderTables Decoder Layouts Record Api Spec SpecLayouts SpecRecord SpecApi StrFacts ReadFacts RecordProps ApiProps Console SpecConsole ConsoleFacts VisibleFacts.
Import ListNotations.
Open Scope string_scope.
Open Scope list_scope.
Local Open Scope nat_scope.

(* ---- fields of records ---- *)
Definition good_name (s : str) : Prop := visible_text s /\ s <> [] /\ clear_name s.
Definition good_nameb (s : str) : bool :=
  forallb vis s && (str_eqb s (lit "Cruise Level To" ++ [32%N]) || (negb (str_eqb s (lit "Cruise Level To")) && match rev s with [] => false | c :: _ => negb (N.eqb c 32) end)).
Lemma good_nameb_ok : forall s, good_nameb s = true -> good_name s.
Proof.
  intros s H. unfold good_nameb in H. apply andb_true_iff in H. destruct H as (H & K). split; [apply vis_iff; exact H|]. apply orb_true_iff in K. destruct K as [K|K].
  - apply str_eqb_eq in K. split; [intros ->; discriminate|]. right. exact K.
  - apply andb_true_iff in K. destruct K as (K1 & K2). split; [intros ->; discriminate|]. left. split; [|intros ->; discriminate]. intros u ->. rewrite rev_app_distr in K2. discriminate.
Qed.
Lemma layout_in : forall (cat : list entry) P cells, option_map e_cells (find P cat) = Some cells -> exists e, In e cat /\ cells = e_cells e.
Proof. intros cat P cells H. destruct (find P cat) as [e|] eqn:E; [|discriminate]. injection H as <-. exists e. split; [apply find_some in E; apply E|reflexivity]. Qed.
Lemma names_in : forall cat : list entry, forallb (fun e => forallb (fun c => good_nameb (lit (c_name c))) (e_cells e)) cat = true ->
  forall e c, In e cat -> In c (e_cells e) -> good_name (lit (c_name c)).
Proof. intros cat H e c I J. rewrite forallb_forall in H. specialize (H e I). cbv beta in H. rewrite forallb_forall in H. apply good_nameb_ok. exact (H c J). Qed.
Lemma catalogue_names : forallb (fun e => forallb (fun c => good_nameb (lit (c_name c))) (e_cells e)) catalogue = true.
Proof. vm_compute. reflexivity. Qed.
Definition good_field (f : field) : Prop := good_name (f_name f) /\ visible_text (f_value f).
Lemma columns_visible : forall t ks, visible_text t -> visible_text (columns t ks).
Proof.
  intros t ks H. induction ks as [|k ks IH]; [constructor|]. unfold columns in *. cbn [flat_map]. apply v_app; [|exact IH]. destruct k as [|k]; [constructor|]. cbn [column].
  destruct (nth_error t k) eqn:E; [|constructor]. constructor; [|constructor]. apply nth_error_In in E. unfold visible_text in H. rewrite Forall_forall in H. auto.
Qed.
Lemma layout_fields : forall code prim app cells t, layout_for code prim app = Some cells -> visible_text t -> Forall good_field (map (field_of t) cells).
Proof.
  intros code prim app cells t H V. apply layout_in in H. destruct H as (e & I & ->). apply Forall_map, Forall_forall. intros c J. split; [exact (names_in catalogue catalogue_names e c I J)|].
  apply columns_visible. exact V.
Qed.
Lemma cls_name_visible : forall d, visible_text (cls_name d).
Proof. intros d. destruct d; apply v_lit; reflexivity. Qed.
Lemma tame_lit : forall w s, visible_text (lit w ++ s) -> (forall t, lit w <> plus :: t) -> lit w <> [] -> tame (EvPrint (lit w ++ s)).
Proof. intros w s V N1 N2. destruct (ok_say w s V N1 N2) as (K & _). inversion K; assumption. Qed.

Lemma read_visible : forall line, visible_text line -> let '(o, r', res) := read new_record line in
  Forall tame o /\ Forall good_field (fields r') /\ visible_text (ident r') /\ visible_text (raw r').
Proof.
  intros line V. destruct (validate line) eqn:VA.
  2:{ unfold read. rewrite VA. cbn [negb]. repeat split; constructor. }
  rewrite read_expected by exact VA. unfold expected_read. pose proof (v_strip _ V) as VS. destruct (section_of line) as [code|] eqn:S; [|repeat split; try constructor; exact VS].
  assert (VC : visible_text code).
  { unfold section_of in S. cbv zeta in S. repeat match type of S with context [if ?b then _ else _] => destruct b end; try discriminate; injection S as <-; apply columns_visible; exact V. }
  assert (E : forall r, visible_text (ident r) -> visible_text (raw r) -> Forall good_field (fields r) -> let '(o, r', res) := expected_fields code line r in
    Forall tame o /\ Forall good_field (fields r') /\ visible_text (ident r') /\ visible_text (raw r')).
  { intros r I R F. unfold expected_fields. destruct (layout_for _ _ _) as [cs|] eqn:L; [repeat split; try assumption; [constructor|eapply layout_fields; eauto]|].
    destruct (raising code); repeat split; try assumption; constructor. }
  cbv zeta. destruct (fst (type_columns code)) as [k|]; [|apply E; [exact VC|exact VS|constructor]]. destruct (isalnum _); [apply E; [exact VC|exact VS|constructor]|].
  split; [|repeat split; try assumption; constructor]. destruct (record_class code) as [d|]; [|constructor]. unfold bad_continuation. cbn [continuation raw].
  pose proof (columns_visible (strip line) [k] VS). pose proof (cls_name_visible d).
  constructor; [apply tame_lit; [vt|discriminate|discriminate]|]. constructor; [|constructor; [apply tame_lit; [vt|discriminate|discriminate]|constructor]].
  rewrite <- (app_nil_r (lit _)). apply tame_lit; [apply v_app; [apply v_lit; reflexivity|constructor]|discriminate|discriminate].
Qed.

(* ---- tables ---- *)
Definition good_row (r : table_row) : Prop := all_visible r /\ good_name (fst (fst r)) /\ no_space_after (snd (fst r)).
Lemma no_space_quote : forall s, no_space_after (lit "'" ++ s ++ lit "'").
Proof. intros s u H. cbn [lit list_ascii_of_string map] in H. rewrite app_assoc in H. apply app_inj_tail in H. destruct H as (_ & H). discriminate. Qed.
Lemma rows_visible : forall v fs, visible_text (rv_ident v) -> visible_text (rv_raw v) -> Forall good_field fs -> ok (Forall good_row) (decode_rows v fs).
Proof.
  intros v fs I R. induction 1 as [|f fs (N1 & V1) F IH]; [apply ok_ret; constructor|]. cbn [decode_rows]. eapply ok_bind; [apply run_visible; assumption|]. intros d D.
  eapply ok_bind; [exact IH|]. intros rows K. apply ok_ret. constructor; [|exact K]. split; [|split; [exact N1|apply no_space_quote]]. split; [apply N1|]. split; [|exact D].
  cbn [fst snd]. apply v_app; [apply v_lit; reflexivity|]. apply v_app; [exact V1|apply v_lit; reflexivity].
Qed.
Definition event_ok (e : event) : Prop := tame e \/ exists rows, e = EvTable rows /\ Forall good_row rows.
Lemma tame_ok : forall o, Forall tame o -> Forall event_ok o.
Proof. intros o. apply Forall_impl. left. assumption. Qed.
Lemma parse_visible : forall line, visible_text line -> Forall event_ok (fst (parse line true)).
Proof.
  intros line V. unfold parse. pose proof (read_visible line V) as K. destruct (read new_record line) as [[o r'] res]. destruct K as (T & F & I & R).
  destruct res as [[|]|e]; try (apply tame_ok; exact T). pose proof (rows_visible (view r') (fields r') I R F) as (T' & D). unfold decode.
  destruct (decode_rows (view r') (fields r')) as [o' [rows|e]]; cbn [fst snd bind emit ret] in *; (apply Forall_app; split; [apply tame_ok; exact T|]); [|apply tame_ok; exact T'].
  apply Forall_app. split; [apply tame_ok; exact T'|]. constructor; [right; exists rows; auto|constructor].
Qed.

(* ---- reading the console back ---- *)
Definition ev_lines (e : event) (ls : list str) : Prop :=
  (exists s, e = EvPrint s /\ ls = [s] /\ visible_text s /\ (forall t, s <> plus :: t)) \/
  (exists rows, e = EvTable rows /\ Forall good_row rows /\ table_text heading (flat_map shown rows) ls).
Lemma visible_no_newline : forall s, visible_text s -> no_newline s.
Proof. intros s. apply Forall_impl. intros c H ->. unfold visible, nl in H. lia. Qed.
Lemma table_lines_visible : forall rows ls, Forall (fun r => visible_text (fst (fst r)) /\ visible_text (snd (fst r)) /\ visible_text (snd r)) rows -> table_text heading rows ls -> Forall visible_text ls.
Proof.
  intros rows ls V (x & y & z & h & b & _ & _ & _ & H & R & ->).
  assert (RU : visible_text (rule_text x y z)).
  { unfold rule_text. repeat (apply v_app; [first [apply v_repeat; reflexivity|apply v_lit; reflexivity]|]). apply v_lit; reflexivity. }
  assert (P : forall w s t, padded w s t -> visible_text s -> visible_text t) by (intros w s t (_ & n & ->) K; apply v_app; [exact K|apply v_repeat; reflexivity]).
  assert (RO : forall r l, visible_text (fst (fst r)) /\ visible_text (snd (fst r)) /\ visible_text (snd r) -> row_text x y z r l -> visible_text l).
  { intros r l (V1 & V2 & V3) (a & b' & c & A & B & C & ->). repeat (apply v_app; [first [apply v_lit; reflexivity|eapply P; eassumption]|]). apply v_lit; reflexivity. }
  constructor; [exact RU|]. constructor; [apply (RO heading); [repeat split; apply v_lit; reflexivity|exact H]|]. constructor; [exact RU|]. apply Forall_app. split; [|constructor; [exact RU|constructor]].
  clear -V R RO. induction R; [constructor|]. inversion V; subst. constructor; [eapply RO; eauto|auto].
Qed.
Lemma shown_visible : forall rows, Forall good_row rows -> Forall (fun r => visible_text (fst (fst r)) /\ visible_text (snd (fst r)) /\ visible_text (snd r)) (flat_map shown rows).
Proof.
  induction 1 as [|[[n v] d] rows ((V1 & V2 & V3) & _) H IH]; [constructor|]. cbn [flat_map]. apply Forall_app. split; [|exact IH]. unfold shown. cbn [fst snd] in *.
  pose proof (split_lines_visible _ V3) as S. destruct (split_lines (cell_text d)) as [|l ls]; [constructor|]. inversion S; subst. cbn [broken]. constructor; [auto|].
  apply Forall_map. eapply Forall_impl; [|eassumption]. cbn. intros l' K. repeat split; try constructor. exact K.
Qed.
Lemma shown_rows_ok : forall rows, Forall good_row rows -> Forall visible_row (flat_map shown rows).
Proof.
  induction 1 as [|[[n v] d] rows ((V1 & V2 & V3) & (_ & _ & N1) & N2) H IH]; [constructor|]. cbn [flat_map]. apply Forall_app. split; [|exact IH]. unfold shown. cbn [fst snd] in *.
  pose proof (split_lines_visible _ V3) as S. destruct (split_lines (cell_text d)) as [|l ls]; [constructor|]. inversion S; subst. cbn [broken]. constructor; [split; assumption|].
  apply Forall_map. eapply Forall_impl; [|eassumption]. intros l' K. split; [left; split; [|discriminate]|]; intros u E; destruct u; discriminate.
Qed.
Lemma event_lines : forall colours e, event_ok e -> exists ls, ev_lines e ls /\ written ls (print colours e) /\ Forall no_newline ls.
Proof.
  intros colours e [(s & -> & V & P & _)|(rows & -> & G)].
  - exists [s]. split; [left; exists s; auto|]. split; [unfold written; cbn; rewrite app_nil_r; reflexivity|]. constructor; [apply visible_no_newline; exact V|constructor].
  - destruct (table_spec rows) as (ls & T & W); [eapply Forall_impl; [|exact G]; intros r K; apply K|]. exists ls. split; [right; exists rows; auto|]. split; [exact W|].
    pose proof (table_lines_visible _ _ (shown_visible _ G) T) as K. eapply Forall_impl; [|exact K]. apply visible_no_newline.
Qed.
Lemma written_app : forall a b s t, written a s -> written b t -> written (a ++ b) (s ++ t).
Proof. unfold written. intros a b s t -> ->. rewrite map_app, concat_app. reflexivity. Qed.
Lemma console_lines : forall colours evs, Forall event_ok evs -> exists lss, Forall2 ev_lines evs lss /\ written (List.concat lss) (console colours evs) /\ Forall no_newline (List.concat lss).
Proof.
  intros colours. induction 1 as [|e evs H K (lss & A & B & C)]; [exists []; repeat split; constructor|]. destruct (event_lines colours e H) as (ls & X & Y & Z). exists (ls :: lss).
  split; [constructor; assumption|]. cbn [List.concat]. split; [apply written_app; assumption|apply Forall_app; auto].
Qed.
(* the same texts printed, and tables with the same rows but for spaces after a decoded text *)
Inductive alike_event : event -> event -> Prop :=
| alike_print : forall s, alike_event (EvPrint s) (EvPrint s)
| alike_table : forall rows rows', Forall good_row rows -> Forall good_row rows' -> Forall2 alike (flat_map shown rows) (flat_map shown rows') -> alike_event (EvTable rows) (EvTable rows').
Lemma table_head : forall rows ls, table_text heading rows ls -> exists s ls', ls = (plus :: s) :: ls'.
Proof. intros rows ls (x & y & z & h & b & _ & _ & _ & _ & _ & ->). eexists. eexists. reflexivity. Qed.
Theorem console_once : forall colours evs evs', Forall event_ok evs -> Forall event_ok evs' -> console colours evs = console colours evs' -> Forall2 alike_event evs evs'.
Proof.
  intros colours evs evs' H H' E. destruct (console_lines colours evs H) as (lss & A & B & C). destruct (console_lines colours evs' H') as (lss' & A' & B' & C'). rewrite <- E in B'.
  pose proof (written_once _ _ _ C C' B B') as L. clear -A A' L. revert evs' lss' A' L. induction A as [|e ls evs lss X A IH]; intros evs' lss' A' L.
  - destruct A' as [|e' ls' evs' lss' X' A']; [constructor|]. cbn [List.concat] in L. destruct X' as [(s & _ & -> & _)|(rows & _ & _ & T)]; [discriminate|]. destruct (table_head _ _ T) as (s & l & ->). discriminate.
  - destruct A' as [|e' ls' evs' lss' X' A'].
    { cbn [List.concat] in L. destruct X as [(s & _ & -> & _)|(rows & _ & _ & T)]; [discriminate|]. destruct (table_head _ _ T) as (s & l & ->). discriminate. }
    cbn [List.concat] in L. destruct X as [(s & -> & -> & V & P)|(rows & -> & G & T)]; destruct X' as [(s' & -> & -> & V' & P')|(rows' & -> & G' & T')].
    + cbn [app] in L. injection L as -> L. constructor; [constructor|eapply IH; eauto].
    + destruct (table_head _ _ T') as (u & l & ->). cbn [app] in L. injection L as -> _. destruct (P u). reflexivity.
    + destruct (table_head _ _ T) as (u & l & ->). cbn [app] in L. injection L as <- _. destruct (P' u). reflexivity.
    + destruct (table_once _ _ _ _ _ _ (shown_rows_ok _ G) (shown_rows_ok _ G') T T' L) as (K & _ & L'). constructor; [constructor; assumption|eapply IH; eauto].
Qed.
(* tables that look alike have the same names and values *)
Definition named (r : str * str) : bool := match fst r with [] => false | _ => true end.
Lemma shown_named : forall r : table_row, good_row r -> filter named (map fst (shown r)) = [fst r].
Proof.
  intros [[n v] d] (_ & (_ & N0 & _) & _). unfold shown. cbn [fst snd] in *. destruct (split_some (cell_text d)) as (l & ls & ->). cbn [broken map filter fst].
  destruct n as [|c n]; [congruence|]. cbn [named fst]. f_equal. clear. induction ls; [reflexivity|exact IHls].
Qed.
Lemma shown_names : forall rows, Forall good_row rows -> filter named (map fst (flat_map shown rows)) = map fst rows.
Proof.
  induction 1 as [|r rows G H IH]; [reflexivity|]. cbn [flat_map]. rewrite map_app, filter_app, IH, (shown_named r G). reflexivity.
Qed.
Lemma alike_names : forall rows rows', Forall good_row rows -> Forall good_row rows' -> Forall2 alike (flat_map shown rows) (flat_map shown rows') -> map fst rows = map fst rows'.
Proof.
  intros rows rows' G G' H. rewrite <- (shown_names rows G), <- (shown_names rows' G'). f_equal. induction H as [|a b l l' (E & _) H IH]; [reflexivity|]. cbn [map]. congruence.
Qed.

(* ---- the properties ---- *)
Lemma row_shown : forall v f r, row_for v f r -> field_rows v f (shown r).
Proof.
  intros v f r (o & d & R & ->). exists o, d, (cell_text d), (split_lines (cell_text d)). split; [exact R|]. split; [destruct d; reflexivity|]. split; [apply split_lines_in|reflexivity].
Qed.
Lemma tame_lines : forall colours o, Forall tame o -> exists ms, o = map EvPrint ms /\ Forall message ms /\ written ms (console colours o).
Proof.
  intros colours. induction 1 as [|e o (s & -> & V & P & N0) H (ms & -> & A & B)]; [exists []; repeat split; constructor|]. exists (s :: ms). split; [reflexivity|].
  split; [constructor; [repeat split; assumption|exact A]|]. unfold written in *. cbn [map List.concat console flat_map print]. unfold console in B. rewrite B. reflexivity.
Qed.
Lemma parse_ok : forall line o r, read new_record line = (o, r, Ok true) -> succeeds (parse line true) ->
  exists o' rows, decode r false = (o', Ok rows) /\ output_of (parse line true) = o ++ o' ++ [EvTable rows].
Proof.
  intros line o r R (p & x & P). unfold parse in *. rewrite R in *. destruct (c32_decode r) as (o' & res & D & D'). rewrite D' in *. destruct res as [rows|e]; [|discriminate].
  exists o', rows. split; [exact D|]. reflexivity.
Qed.
Lemma console_app : forall colours a b, console colours (a ++ b) = console colours a ++ console colours b.
Proof. intros. apply flat_map_app. Qed.
Theorem c69_table : forall colours line o r, visible_text line -> read new_record line = (o, r, Ok true) -> succeeds (parse line true) ->
  exists ms rowss ls, Forall message ms /\ Forall2 (field_rows (view r)) (fields r) rowss /\ table_text heading (List.concat rowss) ls /\
    written (ms ++ ls) (console colours (output_of (parse line true))).
Proof.
  intros colours line o r V R S. destruct (parse_ok line o r R S) as (o' & rows & D & E). rewrite E. pose proof (read_visible line V) as K. rewrite R in K. destruct K as (T & F & I & RW).
  pose proof (c31 _ _ _ _ D) as F2. destruct (rows_visible (view r) (fields r) I RW F) as (T' & G). unfold decode in D. destruct (decode_rows (view r) (fields r)) as [o1 [rs|e]]; cbn in D; [|discriminate].
  injection D as D1 <-. rewrite app_nil_r in D1. subst o1. cbn [fst snd] in *. assert (TT : Forall tame (o ++ o')) by (apply Forall_app; auto). destruct (tame_lines colours _ TT) as (ms & _ & M1 & M2).
  destruct (table_spec rs) as (ls & L1 & L2); [eapply Forall_impl; [|exact G]; intros x K; apply K|]. exists ms, (map shown rs), ls. split; [exact M1|]. split; [|split].
  - clear -F2. induction F2; constructor; [apply row_shown; assumption|assumption].
  - rewrite <- flat_map_concat_map. exact L1.
  - rewrite app_assoc, console_app. apply written_app; [exact M2|]. cbn [console flat_map print]. rewrite app_nil_r. exact L2.
Qed.
Theorem c69_returned : forall colours r o s, decode_text r true = (o, Ok s) -> exists o', decode_text r false = (o', Ok s) /\ console colours o = console colours o' ++ s ++ [10%N].
Proof.
  intros colours r o s H. unfold decode_text in *. destruct (c32_decode r) as (o' & res & D & D'). rewrite D' in H. rewrite D. destruct res as [rows|e]; cbn in H; [|discriminate].
  injection H as <- <-. exists (o' ++ []). split; [reflexivity|]. rewrite !app_nil_r, console_app. f_equal. cbn. rewrite app_nil_r. reflexivity.
Qed.

(* names and values of the tables among the events *)
Definition unquoted (p : str * str) : str * str := (fst p, removelast (tl (snd p))).
Definition tables (evs : list event) : list (list (str * str)) := flat_map (fun e => match e with EvTable rows => [map unquoted (map fst rows)] | _ => [] end) evs.
Lemma tables_alike : forall evs evs', Forall2 alike_event evs evs' -> tables evs = tables evs'.
Proof.
  induction 1 as [|e e' evs evs' X H IH]; [reflexivity|]. unfold tables in *. cbn [flat_map]. rewrite IH. destruct X as [s|rows rows' G G' A]; [reflexivity|]. rewrite (alike_names _ _ G G' A). reflexivity.
Qed.
Lemma tables_app : forall a b, tables (a ++ b) = tables a ++ tables b.
Proof. intros. apply flat_map_app. Qed.
Lemma tables_tame : forall o, Forall tame o -> tables o = [].
Proof. induction 1 as [|e o (s & -> & _) H IH]; [reflexivity|exact IH]. Qed.
Lemma unquote : forall (s : str), removelast (tl (lit "'" ++ s ++ lit "'")) = s.
Proof. intros s. cbn [lit list_ascii_of_string map app tl]. apply removelast_last. Qed.
Lemma parse_tables : forall line xs, visible_text line -> succeeds (parse line true) -> line_shows line xs -> tables (output_of (parse line true)) = xs.
Proof.
  intros line xs V S X. pose proof (read_visible line V) as K. destruct X as [o r R|N0].
  - destruct (parse_ok line o r R S) as (o' & rows & D & E). rewrite E. rewrite R in K. destruct K as (T & F & I & RW).
    pose proof (c31_names _ _ _ (c31 _ _ _ _ D)) as NV. destruct (rows_visible (view r) (fields r) I RW F) as (T' & G). unfold decode in D. destruct (decode_rows (view r) (fields r)) as [o1 [rs|e]]; cbn in D; [|discriminate].
    injection D as D1 <-. rewrite app_nil_r in D1. subst o1. cbn [fst snd] in *. rewrite !tables_app, (tables_tame o T), (tables_tame o' T'). cbn [app tables flat_map]. rewrite NV. f_equal. unfold names_values. rewrite map_map.
    apply map_ext. intros f. unfold unquoted. cbn [fst snd]. f_equal. unfold quoted_value. apply unquote.
  - unfold parse. unfold returned in N0. destruct (read new_record line) as [[o r] res]. cbn in N0. destruct K as (T & _). destruct res as [[|]|e]; [congruence| |]; apply tables_tame; exact T.
Qed.
Lemma files_tables : forall ls xss, Forall visible_text ls -> Forall (fun l => succeeds (parse l true)) ls -> Forall2 line_shows ls xss ->
  tables (List.concat (map (fun l => output_of (parse l true)) ls)) = List.concat xss /\ Forall event_ok (List.concat (map (fun l => output_of (parse l true)) ls)).
Proof.
  intros ls xss V S H. induction H as [|l xs ls xss X H IH]; [split; constructor|]. inversion V; inversion S; subst. destruct IH as (A & B); [assumption..|]. cbn [map List.concat]. rewrite tables_app. split.
  - f_equal; [apply parse_tables; assumption|exact A].
  - apply Forall_app. split; [apply parse_visible; assumption|exact B].
Qed.
Theorem c70_lines : forall colours ls ls' xss xss', Forall visible_text ls -> Forall visible_text ls' -> Forall (fun l => succeeds (parse l true)) ls -> Forall (fun l => succeeds (parse l true)) ls' ->
  Forall2 line_shows ls xss -> Forall2 line_shows ls' xss' ->
  console colours (List.concat (map (fun l => output_of (parse l true)) ls)) = console colours (List.concat (map (fun l => output_of (parse l true)) ls')) -> List.concat xss = List.concat xss'.
Proof.
  intros colours ls ls' xss xss' V V' S S' X X' E. destruct (files_tables ls xss V S X) as (A & B). destruct (files_tables ls' xss' V' S' X') as (A' & B'). rewrite <- A, <- A'. apply tables_alike.
  exact (console_once colours _ _ B B' E).
Qed.
Theorem c70_file : forall colours w w' path path' t t' ls ls' xss xss', open_text w path = Ok t -> lines_of t ls -> open_text w' path' = Ok t' -> lines_of t' ls' ->
  Forall visible_text ls -> Forall visible_text ls' -> snd (read_file w path true) = Ok tt -> snd (read_file w' path' true) = Ok tt ->
  Forall2 line_shows ls xss -> Forall2 line_shows ls' xss' ->
  console colours (output_of (read_file w path true)) = console colours (output_of (read_file w' path' true)) -> List.concat xss = List.concat xss'.
Proof.
  assert (K : forall w path t ls, open_text w path = Ok t -> lines_of t ls -> snd (read_file w path true) = Ok tt -> Forall (fun l => succeeds (parse l true)) ls).
  { intros w path t ls O L S. destruct (first_error true ls) as [H|(pre & l & post & o & e & -> & H & P)]; [exact H|]. rewrite (c37_err w path true t pre l post o e O L H P) in S. discriminate. }
  intros colours w w' path path' t t' ls ls' xss xss' O L O' L' V V' S S' X X' E. pose proof (K _ _ _ _ O L S) as A. pose proof (K _ _ _ _ O' L' S') as A'.
  rewrite (c37_ok _ _ _ _ _ O L A), (c37_ok _ _ _ _ _ O' L' A') in E. exact (c70_lines colours ls ls' xss xss' V V' A A' X X' E).
Qed.

(* ---- search ---- *)
Lemma read_prints : forall line, exists ms, printed (read new_record line) = map EvPrint ms.
Proof.
  intros line. destruct (validate line) eqn:VA; [|exists []; unfold read; rewrite VA; reflexivity]. rewrite read_expected by exact VA. unfold expected_read. destruct (section_of line) as [code|]; [|exists []; reflexivity].
  assert (E : forall r, exists ms, printed (expected_fields code line r) = map EvPrint ms).
  { intros r. exists []. unfold expected_fields. destruct (layout_for _ _ _); [reflexivity|]. destruct (raising code); reflexivity. }
  cbv zeta. destruct (fst (type_columns code)) as [k|]; [|apply E]. destruct (isalnum _); [apply E|]. cbn [printed fst]. destruct (record_class code) as [d|]; [|exists []; reflexivity].
  unfold bad_continuation. eexists [_; _; _]. reflexivity.
Qed.
Lemma printed_written : forall colours ms, written ms (console colours (map EvPrint ms)).
Proof. intros colours ms. unfold written, console. induction ms as [|m ms IH]; [reflexivity|]. cbn [map flat_map List.concat print]. rewrite IH. reflexivity. Qed.
Lemma report_prints : forall fl line o k, report fl line o k -> exists ms, o = map EvPrint ms.
Proof. intros fl line o k [t _ _ _|t _ _ _|_]; [exists [t]; reflexivity|exists []; reflexivity|apply read_prints]. Qed.
Theorem c70_search : forall colours w file fl t ls reps, open_text w file = Ok t -> lines_of t ls -> Forall2 (fun l p => report fl l (fst p) (snd p)) ls reps ->
  exists found last, map EvPrint found = List.concat (map fst reps) /\ last_line colours fl (list_sum (map snd reps)) last /\ written (found ++ [last]) (console colours (output_of (search w file fl))).
Proof.
  intros colours w file fl t ls reps O L R. destruct (c35_ok w file fl t ls reps O L R) as (ev & (colour & d & s & -> & C & D & SF) & ->).
  assert (F : exists found, map EvPrint found = List.concat (map fst reps)).
  { clear -R. induction R as [|l [o k] ls reps X R (found & IH)]; [exists []; reflexivity|]. destruct (report_prints _ _ _ _ X) as (ms & E). exists (ms ++ found). rewrite map_app, IH. cbn [map List.concat fst] in *. congruence. }
  destruct F as (found & F). exists found. unfold output_of. cbn [fst]. rewrite <- F, console_app. cbn [console flat_map print]. rewrite app_nil_r.
  exists (colored colours colour (lit "Found " ++ d ++ lit " records that contain " ++ s)). split; [reflexivity|]. split.
  - exists d, s. split; [exact D|]. split; [exact SF|]. unfold in_colour, colored. destruct colours; [|reflexivity]. rewrite C. destruct (Nat.eqb _ 0).
    + exists (lit "[31m"). split; [right; auto|]. reflexivity.
    + exists (lit "[32m"). split; [left; auto|]. reflexivity.
  - apply written_app; [apply printed_written|]. unfold written. cbn [map List.concat]. rewrite app_nil_r. reflexivity.
Qed.
