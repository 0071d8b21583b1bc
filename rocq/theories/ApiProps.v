(* Proofs for C04 (any line), C35-C40. *)
From Coq Require Import List String NArith ZArith Bool Arith Lia.
From Verif Require Import PyBase DecoderTables Decoder Layouts Record Api LegTypes SpecLayouts Spec SpecNum SpecLiteral SpecApi StrFacts NumFacts NumProps LiteralProps ReadFacts ReadProps ReadProps2 ReadProps3 RecordProps RecordProps2.
Import ListNotations.
Open Scope string_scope.
Open Scope list_scope.
Local Open Scope nat_scope.

(* ---- trailing whitespace ---- *)
Lemma columns_app_long : forall t post ks, 132 <= List.length t -> cols_in ks = true -> columns (t ++ post) ks = columns t ks.
Proof.
  intros t post ks L K. apply cols_in_forall in K. unfold columns. induction K as [|k ks K _ IH]; [reflexivity|]. cbn [flat_map]. rewrite IH.
  destruct k as [|i]; [lia|]. cbn [column]. rewrite nth_error_app1 by lia. reflexivity.
Qed.
Lemma fields_app_long : forall t post cells, 132 <= List.length t -> cells_in cells = true -> map (field_of (t ++ post)) cells = map (field_of t) cells.
Proof.
  intros t post cells L C. apply map_ext_in. intros c I. unfold field_of. f_equal. apply columns_app_long; auto. unfold cells_in in C. rewrite forallb_forall in C. auto.
Qed.
Lemma expected_fields_app_long : forall code t post r, 132 <= List.length t -> expected_fields code (t ++ post) r = expected_fields code t r.
Proof.
  intros code t post r L. unfold expected_fields. rewrite columns_app_long by (auto; apply type_columns_in).
  destruct (layout_for code _ _) as [cells|] eqn:F; [|reflexivity]. rewrite fields_app_long; auto. apply (layout_for_cells cells_in _ _ _ _ catalogue_in F).
Qed.
Lemma section_of_app_long : forall t post, 132 <= List.length t -> section_of (t ++ post) = section_of t.
Proof. intros t post L. unfold section_of. rewrite !columns_app_long by (auto; reflexivity). reflexivity. Qed.
Lemma read_trailing : forall r line w, whitespace w -> read r (line ++ w) = read r line.
Proof.
  intros r line w W. pose proof (strip_app_ws line w W) as S. destruct (validate line) eqn:V.
  - assert (V' : validate (line ++ w) = true) by (apply validate_framed; rewrite S; apply validate_framed; exact V).
    pose proof (validate_length _ V) as L. rewrite (read_expected r line V), (read_expected r _ V'), S. unfold expected_read. rewrite section_of_app_long by exact L.
    destruct (section_of line) as [code|]; [|reflexivity]. cbv zeta. destruct (fst (type_columns code)) as [k|]; [|apply expected_fields_app_long; exact L].
    destruct (isalnum _); [apply expected_fields_app_long; exact L|reflexivity].
  - assert (V' : validate (line ++ w) = false).
    { destruct (validate (line ++ w)) eqn:X; [|reflexivity]. apply validate_framed in X. rewrite S in X. apply validate_framed in X. congruence. }
    unfold read. rewrite V, V'. reflexivity.
Qed.
Lemma parse_trailing : forall line w output, whitespace w -> parse (line ++ w) output = parse line output.
Proof. intros line w output W. unfold parse. rewrite read_trailing by exact W. reflexivity. Qed.

(* ---- lines ---- *)
Definition end_line (l : str) (last : bool) : str := if last then l else l ++ [10%N].
Lemma universal_line : forall l rest, one_line l -> universal_newlines (l ++ rest) = l ++ universal_newlines rest.
Proof.
  intros l rest H. induction H as [|c l [A B] _ IH]; [reflexivity|]. cbn [app universal_newlines].
  destruct (c =? 13)%N eqn:E; [apply N.eqb_eq in E; contradiction|]. rewrite IH. reflexivity.
Qed.
Lemma universal_end : forall e rest, In e line_ends -> (e = [13%N] -> forall x, rest <> 10%N :: x) ->
  universal_newlines (e ++ rest) = 10%N :: universal_newlines rest.
Proof.
  intros e rest I H. destruct I as [<-|[<-|[<-|[]]]]; cbn [app universal_newlines].
  - reflexivity.
  - change (13 =? 13)%N with true. cbn iota. destruct rest as [|d rest]; [reflexivity|]. destruct (d =? 10)%N eqn:E; [|reflexivity].
    apply N.eqb_eq in E. subst. exfalso. apply (H eq_refl rest). reflexivity.
  - reflexivity.
Qed.
Lemma lines_keep_line : forall l rest, one_line l -> lines_keep (l ++ 10%N :: rest) = (l ++ [10%N]) :: lines_keep rest.
Proof.
  intros l rest H. induction H as [|c l [A B] _ IH]; [reflexivity|]. cbn [app lines_keep].
  destruct (c =? 10)%N eqn:E; [apply N.eqb_eq in E; contradiction|]. rewrite IH. reflexivity.
Qed.
Lemma lines_keep_last : forall l, one_line l -> l <> [] -> lines_keep l = [l].
Proof.
  intros l H. induction H as [|c l [A B] O IH]; intro N; [congruence|]. cbn [lines_keep].
  destruct (c =? 10)%N eqn:E; [apply N.eqb_eq in E; contradiction|]. destruct l as [|d l]; [reflexivity|]. rewrite IH by discriminate. reflexivity.
Qed.
(* readlines gives the lines, each followed by nothing or by one newline *)
Lemma readlines_lines : forall t ls, lines_of t ls -> Forall2 (fun l l' => exists w, whitespace w /\ l' = l ++ w) ls (readlines t).
Proof.
  intros t ls H. unfold readlines. induction H as [|l O N|l e rest ls O E C H IH].
  - constructor.
  - rewrite <- (List.app_nil_r l) at 2. rewrite universal_line by exact O. cbn [universal_newlines]. rewrite List.app_nil_r, lines_keep_last by auto.
    repeat constructor. exists []. split; [constructor|]. symmetry. apply List.app_nil_r.
  - rewrite universal_line, universal_end, lines_keep_line by assumption. constructor; [|exact IH]. exists [10%N]. split; [repeat constructor|reflexivity].
Qed.
Lemma newline_dec : forall c : N, {c = 10%N} + {c = 13%N} + {c <> 10%N /\ c <> 13%N}.
Proof. intro c. destruct (N.eq_dec c 10); [auto|]. destruct (N.eq_dec c 13); auto. Qed.
Lemma lines_exist : forall t, exists ls, lines_of t ls.
Proof.
  intro t. remember (List.length t) as n eqn:E. assert (L : List.length t <= n) by lia. clear E. revert t L.
  induction n as [|n IH]; intros t L.
  - destruct t; [|cbn in L; lia]. exists []. constructor.
  - assert (S : one_line t \/ exists l c rest, t = l ++ c :: rest /\ one_line l /\ (c = 10%N \/ c = 13%N)).
    { clear. induction t as [|c t IH]; [left; constructor|]. destruct (newline_dec c) as [[->| ->]|N].
      - right. exists [], 10%N, t. repeat split; auto. constructor.
      - right. exists [], 13%N, t. repeat split; auto. constructor.
      - destruct IH as [O|[l [d [rest [-> [O D]]]]]]; [left; constructor; auto|right]. exists (c :: l), d, rest. repeat split; auto. constructor; auto. }
    destruct S as [O|[l [c [rest [-> [O C]]]]]].
    + destruct t as [|x t]; [exists []; constructor|]. exists [x :: t]. constructor; auto. discriminate.
    + rewrite List.app_length in L. cbn [List.length] in L. destruct C as [->| ->].
      * destruct (IH rest) as [ls H]; [lia|]. exists (l :: ls). apply (lines_more l [10%N]); auto; [left; reflexivity|]. discriminate.
      * destruct rest as [|d rest].
        { exists [l]. apply (lines_more l [13%N] [] []); auto; [right; left; reflexivity|discriminate|constructor]. }
        destruct (N.eq_dec d 10) as [->|N].
        { cbn [List.length] in L. destruct (IH rest) as [ls H]; [lia|]. exists (l :: ls). apply (lines_more l [13%N; 10%N]); auto; [right; right; left; reflexivity|]. discriminate. }
        { cbn [List.length] in L. destruct (IH (d :: rest)) as [ls H]; [cbn [List.length]; lia|]. exists (l :: ls). apply (lines_more l [13%N]); auto; [right; left; reflexivity|]. intros _ x. congruence. }
Qed.

Definition chop (l : str) : str := filter (fun c => negb (c =? 10)%N) l.
Lemma chop_line : forall l, one_line l -> chop l = l /\ chop (l ++ [10%N]) = l.
Proof.
  intros l H. unfold chop. rewrite filter_app. cbn [filter]. change (10 =? 10)%N with true. cbn [negb]. rewrite List.app_nil_r.
  assert (E : filter (fun c => negb (c =? 10)%N) l = l); [|auto]. induction H as [|c l [A B] _ IH]; [reflexivity|]. cbn [filter].
  destruct (c =? 10)%N eqn:E; [apply N.eqb_eq in E; contradiction|]. cbn [negb]. rewrite IH. reflexivity.
Qed.
Lemma lines_chop : forall t ls, lines_of t ls -> ls = map chop (readlines t).
Proof.
  intros t ls H. unfold readlines. induction H as [|l O N|l e rest ls O E C H IH].
  - reflexivity.
  - rewrite <- (List.app_nil_r l) at 2. rewrite universal_line by exact O. cbn [universal_newlines]. rewrite List.app_nil_r, lines_keep_last by auto.
    cbn [map]. rewrite (proj1 (chop_line l O)). reflexivity.
  - rewrite universal_line, universal_end, lines_keep_line by assumption. cbn [map]. rewrite (proj2 (chop_line l O)), <- IH. reflexivity.
Qed.
Lemma lines_unique : forall t ls ls', lines_of t ls -> lines_of t ls' -> ls = ls'.
Proof. intros t ls ls' H H'. apply lines_chop in H. apply lines_chop in H'. congruence. Qed.
Lemma lines_self : forall t ls, map chop (readlines t) = ls -> lines_of t ls.
Proof. intros t ls <-. destruct (lines_exist t) as [ls H]. rewrite <- (lines_chop t ls H). exact H. Qed.

(* ---- loops ---- *)
Lemma for_each_ok : forall {A} (body : A -> M unit) l, Forall (fun x => succeeds (body x)) l ->
  for_each body l = (List.concat (map (fun x => fst (body x)) l), Ok tt).
Proof.
  intros A body l H. induction H as [|x l [o [u E]] _ IH]; [reflexivity|]. cbn [for_each map List.concat]. rewrite E, IH. reflexivity.
Qed.
Lemma for_each_err : forall {A} (body : A -> M unit) pre x post o e, Forall (fun x => succeeds (body x)) pre -> body x = (o, Err e) ->
  for_each body (pre ++ x :: post) = (List.concat (map (fun x => fst (body x)) pre) ++ o, Err e).
Proof.
  intros A body pre x post o e H E. induction H as [|y pre [o' [u E']] _ IH]; cbn [app for_each map List.concat].
  - rewrite E. reflexivity.
  - rewrite E', IH. cbn [bind fst]. rewrite List.app_assoc. reflexivity.
Qed.
Lemma for_each_app : forall {A} (body : A -> M unit) l m, for_each body (l ++ m) = (for_each body l ;;; for_each body m).
Proof.
  intros A body l m. induction l as [|x l IH]; cbn [app for_each]; [cbn [bind ret]; destruct (for_each body m); reflexivity|].
  rewrite IH. destruct (body x) as [o [u|e]]; cbn [bind]; [|reflexivity]. destruct (for_each body l) as [o1 [u1|e1]]; cbn [bind]; [|reflexivity].
  destruct (for_each body m) as [o2 r2]. rewrite List.app_assoc. reflexivity.
Qed.
Lemma for_each_ext2 : forall {A} (body : A -> M unit) l m, Forall2 (fun x y => body x = body y) l m -> for_each body l = for_each body m.
Proof. intros A body l m H. induction H as [|x y l m E _ IH]; [reflexivity|]. cbn [for_each]. rewrite E, IH. reflexivity. Qed.

(* ---- C37, C39 ---- *)
Definition parse_line (output : bool) (line : str) : M unit := parse line output ;;; ret tt.
Lemma read_file_lines : forall w path output t ls, open_text w path = Ok t -> lines_of t ls ->
  read_file w path output = for_each (parse_line output) ls.
Proof.
  intros w path output t ls O L. unfold read_file, lift. rewrite O. cbn [bind].
  assert (E : for_each (parse_line output) (readlines t) = for_each (parse_line output) ls).
  { symmetry. apply for_each_ext2. pose proof (readlines_lines t ls L) as R. clear L. induction R as [|l l' ls ls' [v [W ->]] _ IH]; constructor; [|exact IH].
    unfold parse_line. rewrite parse_trailing by exact W. reflexivity. }
  change (fun line => parse line output ;;; ret tt) with (parse_line output). rewrite E. destruct (for_each (parse_line output) ls). reflexivity.
Qed.
Lemma parse_line_ok : forall output line, succeeds (parse line output) -> succeeds (parse_line output line) /\ fst (parse_line output line) = fst (parse line output).
Proof. intros output line [o [x E]]. unfold succeeds, parse_line. rewrite E. cbn [bind ret fst]. rewrite List.app_nil_r. eauto. Qed.
Lemma parse_line_err : forall output line o e, parse line output = (o, Err e) -> parse_line output line = (o, Err e).
Proof. intros output line o e E. unfold parse_line. rewrite E. reflexivity. Qed.
Lemma c37_ok : forall w path output t ls, open_text w path = Ok t -> lines_of t ls -> Forall (fun l => succeeds (parse l output)) ls ->
  read_file w path output = (List.concat (map (fun l => fst (parse l output)) ls), Ok tt).
Proof.
  intros w path output t ls O L S. rewrite (read_file_lines _ _ _ _ _ O L), for_each_ok.
  - f_equal. f_equal. apply map_ext_in. intros l I. rewrite Forall_forall in S. apply parse_line_ok. auto.
  - eapply Forall_impl; [|exact S]. intros l H. apply parse_line_ok. exact H.
Qed.
Lemma c37_err : forall w path output t pre l post o e, open_text w path = Ok t -> lines_of t (pre ++ l :: post) ->
  Forall (fun l => succeeds (parse l output)) pre -> parse l output = (o, Err e) ->
  read_file w path output = (List.concat (map (fun l => fst (parse l output)) pre) ++ o, Err e).
Proof.
  intros w path output t pre l post o e O L S E. rewrite (read_file_lines _ _ _ _ _ O L), (for_each_err _ pre l post o e).
  - f_equal. f_equal. f_equal. apply map_ext_in. intros x I. rewrite Forall_forall in S. apply parse_line_ok. auto.
  - eapply Forall_impl; [|exact S]. intros x H. apply parse_line_ok. exact H.
  - apply parse_line_err. exact E.
Qed.
Lemma first_error : forall output ls, Forall (fun l => succeeds (parse l output)) ls \/
  exists pre l post o e, ls = pre ++ l :: post /\ Forall (fun l => succeeds (parse l output)) pre /\ parse l output = (o, Err e).
Proof.
  intros output ls. induction ls as [|l ls IH]; [left; constructor|]. destruct (parse l output) as [o [b|e]] eqn:E.
  - destruct IH as [A|[pre [x [post [o' [e [-> [P X]]]]]]]]; [left; constructor; auto; exists o, b; auto|right].
    exists (l :: pre), x, post, o', e. repeat split; auto. constructor; auto. exists o, b. auto.
  - right. exists [], l, ls, o, e. auto.
Qed.
Lemma lines_of_nil : forall ls, lines_of [] ls -> ls = [].
Proof.
  intros ls H. remember [] as t eqn:E. destruct H as [|l O NE|l e rest ls O IE C H]; [reflexivity|congruence|].
  apply app_eq_nil in E as [_ E]. apply app_eq_nil in E as [-> _]. destruct IE as [X|[X|[X|[]]]]; discriminate X.
Qed.
Lemma lines_of_app : forall t1 t2 ls2, lines_of t2 ls2 -> forall ls1, lines_of (t1 ++ [10%N]) ls1 -> lines_of (t1 ++ 10%N :: t2) (ls1 ++ ls2).
Proof.
  intros t1 t2 ls2 H2 ls1 H1. remember (t1 ++ [10%N]) as t eqn:E. revert t1 E.
  induction H1 as [|l O N|l e rest ls O IE C H IH]; intros t1 E.
  - destruct t1; discriminate.
  - subst l. unfold one_line in O. apply Forall_app in O as [_ O]. inversion O as [|x y [A _] B]. congruence.
  - destruct rest as [|x rest].
    + rewrite (lines_of_nil _ H) in *.
      rewrite List.app_nil_r in E. destruct IE as [<-|[<-|[<-|[]]]].
      * apply app_inj_tail in E as [-> _]. apply (lines_more t1 [10%N] t2 ls2); auto; [left; reflexivity|discriminate].
      * exfalso. apply app_inj_tail in E as [_ E]. discriminate.
      * change [13%N; 10%N] with ([13%N] ++ [10%N]) in E. rewrite List.app_assoc in E. apply app_inj_tail in E as [<- _].
        rewrite <- List.app_assoc. apply (lines_more l [13%N; 10%N] t2 ls2); auto; [right; right; left; reflexivity|discriminate].
    + assert (S : exists t1', t1 = l ++ e ++ t1' /\ x :: rest = t1' ++ [10%N]).
      { destruct (exists_last (l := x :: rest)) as [r' [z Z]]; [discriminate|]. rewrite Z in E. rewrite !List.app_assoc in E. apply app_inj_tail in E as [E ->].
        exists r'. split; [rewrite <- E, List.app_assoc; reflexivity|exact Z]. }
      destruct S as [t1' [-> S]]. rewrite S in *. rewrite <- !List.app_assoc. cbn [app]. apply (lines_more l e (t1' ++ 10%N :: t2)); auto.
      intros EE y Y. specialize (C EE). destruct t1' as [|z t1']; cbn [app] in *; [apply (C []); reflexivity|]. injection Y as -> _. apply (C (t1' ++ [10%N])). reflexivity.
Qed.
Lemma c37_concat : forall w w1 w2 path output t1 t2, open_text w path = Ok (t1 ++ [10%N] ++ t2) -> open_text w1 path = Ok (t1 ++ [10%N]) -> open_text w2 path = Ok t2 ->
  read_file w path output = (read_file w1 path output ;;; read_file w2 path output).
Proof.
  intros w w1 w2 path output t1 t2 O O1 O2. destruct (lines_exist (t1 ++ [10%N])) as [ls1 L1]. destruct (lines_exist t2) as [ls2 L2].
  rewrite (read_file_lines _ _ _ _ _ O (lines_of_app t1 t2 ls2 L2 ls1 L1)), (read_file_lines _ _ _ _ _ O1 L1), (read_file_lines _ _ _ _ _ O2 L2). apply for_each_app.
Qed.
Lemma c39_read_file : forall w w' path output t t' ls, open_text w path = Ok t -> open_text w' path = Ok t' -> lines_of t ls -> lines_of t' ls ->
  read_file w path output = read_file w' path output.
Proof. intros. rewrite (read_file_lines w path output t ls), (read_file_lines w' path output t' ls); auto. Qed.

(* ---- C38 ---- *)
Lemma c38_ok : forall w path names, scandir w path = Ok names -> Forall (fun n => succeeds (read_file w (path_join path n) true)) names ->
  read_folder w path = (List.concat (map (fun n => fst (read_file w (path_join path n) true)) names), Ok tt).
Proof. intros w path names D S. unfold read_folder, lift. rewrite D. cbn [bind]. rewrite for_each_ok by exact S. reflexivity. Qed.
Lemma c38_err : forall w path pre n post o e, scandir w path = Ok (pre ++ n :: post) -> Forall (fun n => succeeds (read_file w (path_join path n) true)) pre ->
  read_file w (path_join path n) true = (o, Err e) ->
  read_folder w path = (List.concat (map (fun n => fst (read_file w (path_join path n) true)) pre) ++ o, Err e).
Proof. intros w path pre n post o e D S E. unfold read_folder, lift. rewrite D. cbn [bind]. rewrite (for_each_err _ pre n post o e S E). reflexivity. Qed.

(* ---- search ---- *)
Lemma c38_paths : forall p c name, path_join [] name = name /\ path_join (p ++ lit "/") name = p ++ lit "/" ++ name /\
  ([c] <> lit "/" -> path_join (p ++ [c]) name = p ++ [c] ++ lit "/" ++ name).
Proof.
  intros p c name. assert (J : forall q x, path_join (q ++ [x]) name = if endswith (q ++ [x]) (lit "/") then (q ++ [x]) ++ name else (q ++ [x]) ++ lit "/" ++ name).
  { intros q x. unfold path_join. destruct (q ++ [x]) eqn:E; [apply List.app_eq_nil in E as [_ E]; discriminate|reflexivity]. }
  split; [reflexivity|]. split.
  - change (lit "/") with [47%N]. rewrite J. rewrite (proj2 (endswith_iff _ _)) by (exists p; reflexivity). symmetry. apply List.app_assoc.
  - intro C. rewrite J. destruct (endswith (p ++ [c]) (lit "/")) eqn:E; [|symmetry; apply List.app_assoc].
    exfalso. apply endswith_iff in E as [q E]. change (lit "/") with [47%N] in *. apply List.app_inj_tail in E as [_ ->]. apply C. reflexivity.
Qed.
Lemma prefixb_iff : forall s t, prefixb s t = true <-> exists b, t = s ++ b.
Proof.
  induction s as [|c s IH]; intros t; [split; [exists t; reflexivity|destruct t; reflexivity]|].
  destruct t as [|d t]; cbn [prefixb]; [split; [discriminate|intros [b E]; discriminate]|]. rewrite andb_true_iff, IH, N.eqb_eq. split.
  - intros [-> [b ->]]. exists b. reflexivity.
  - intros [b E]. injection E as -> ->. split; eauto.
Qed.
Lemma contains_iff : forall t s, contains t s = true <-> occurs s t.
Proof.
  intros t s. unfold occurs. induction t as [|c t IH]; cbn [contains]; rewrite orb_true_iff, prefixb_iff.
  - split.
    + intros [[b E]|X]; [exists [], b; exact E|discriminate].
    + intros [a [b E]]. left. destruct a; [exists b; exact E|discriminate].
  - rewrite IH. split.
    + intros [[b E]|[a [b ->]]]; [exists [], b; exact E|exists (c :: a), b; reflexivity].
    + intros [[|x a] [b E]]; [left; exists b; exact E|]. right. injection E as -> E. exists a, b. exact E.
Qed.
Lemma passes_iff : forall fl t, passes fl t = true <-> matches fl t.
Proof.
  intros [s|l|] t; cbn [passes matches].
  - apply contains_iff.
  - rewrite forallb_forall, Forall_forall. split; intros H s I; apply contains_iff; auto.
  - tauto.
Qed.

Lemma trimmed_unique : forall l t, trimmed l t -> t = strip l.
Proof. intros l t H. apply trimmed_iff in H. congruence. Qed.
Lemma matches_dec : forall fl t, matches fl t \/ ~ matches fl t.
Proof. intros fl t. destruct (passes fl t) eqn:E; [left; apply passes_iff; exact E|right; intro H; apply passes_iff in H; congruence]. Qed.
Lemma report_total : forall fl line, reads line -> exists o k, report fl line o k.
Proof.
  intros fl line [[|] H]; [|eexists _, _; apply rep_none; exact H].
  destruct (matches_dec fl (strip line)) as [M|M]; eexists _, _; [eapply rep_found|eapply rep_other]; eauto using strip_trimmed.
Qed.
Lemma report_unique : forall fl line o k o' k', report fl line o k -> report fl line o' k' -> o = o' /\ k = k'.
Proof.
  intros fl line o k o' k' H H'. destruct H as [t R T M|t R T M|R]; destruct H' as [t' R' T' M'|t' R' T' M'|R']; try congruence; auto;
    apply trimmed_unique in T; apply trimmed_unique in T'; subst; auto; contradiction.
Qed.
Lemma search_step : forall fl line o k n ls, report fl line o k -> search_lines fl n (line :: ls) = ((o, Ok tt) ;;; search_lines fl (n + k) ls).
Proof.
  intros fl line o k n ls H. cbn [search_lines]. destruct H as [t R T M|t R T M|R]; unfold returned, printed in *; destruct (read new_record line) as [[o r] res] eqn:E;
    cbn [fst snd] in *; subst res; cbn [negb].
  - pose proof (read_true_inv _ _ _ _ E) as I. rewrite (read_output_true _ _ _ _ E). assert (X : raw r = strip line) by apply I.
    rewrite X, <- (trimmed_unique _ _ T), (proj2 (passes_iff fl t) M). cbn [negb bind say app]. unfold say. destruct (search_lines fl (n + 1) ls). reflexivity.
  - pose proof (read_true_inv _ _ _ _ E) as I. rewrite (read_output_true _ _ _ _ E). assert (X : raw r = strip line) by apply I.
    rewrite X, <- (trimmed_unique _ _ T). destruct (passes fl t) eqn:P; [exfalso; apply M, passes_iff; exact P|]. cbn [negb]. rewrite Nat.add_0_r. reflexivity.
  - rewrite Nat.add_0_r. reflexivity.
Qed.
Lemma search_steps : forall fl ls reps n rest, Forall2 (fun l p => report fl l (fst p) (snd p)) ls reps ->
  search_lines fl n (ls ++ rest) = ((List.concat (map fst reps), Ok tt) ;;; search_lines fl (n + list_sum (map snd reps)) rest).
Proof.
  intros fl ls reps n rest H. revert n. induction H as [|l p ls reps R _ IH]; intro n; cbn [app map List.concat list_sum].
  - change (list_sum []) with 0. rewrite Nat.add_0_r. cbn [bind]. destruct (search_lines fl n rest). reflexivity.
  - rewrite (search_step _ _ _ _ n (ls ++ rest) R), IH. change (list_sum (snd p :: map snd reps)) with (snd p + list_sum (map snd reps)). rewrite Nat.add_assoc.
    cbn [bind]. destruct (search_lines fl _ rest) as [o r]. rewrite List.app_assoc. reflexivity.
Qed.
Lemma search_trailing : forall fl ls ls' n, Forall2 (fun l l' => exists w, whitespace w /\ l' = l ++ w) ls ls' -> search_lines fl n ls' = search_lines fl n ls.
Proof.
  intros fl ls ls' n H. revert n. induction H as [|l l' ls ls' [w [W ->]] _ IH]; intro n; [reflexivity|]. cbn [search_lines]. rewrite read_trailing by exact W.
  destruct (read new_record l) as [[o r] [b|e]]; [|reflexivity]. rewrite !IH. reflexivity.
Qed.
Lemma search_unfold : forall w file fl t ls, open_text w file = Ok t -> lines_of t ls ->
  search w file fl = (count <- search_lines fl 0 ls ;; emit (found count fl)).
Proof.
  intros w file fl t ls O L. unfold search, lift. rewrite O. cbn [bind]. rewrite (search_trailing fl ls _ 0 (readlines_lines t ls L)).
  destruct (search_lines fl 0 ls) as [o [c|e]]; cbn [bind]; try reflexivity.
Qed.
Lemma found_summary : forall n fl, summary fl n (found n fl).
Proof.
  intros n fl. exists (if Nat.eqb n 0 then lit "red" else lit "green"), (str_of_N (N.of_nat n)), (filters_text fl). unfold found.
  split; [rewrite <- nat_N_Z, str_of_Z_N; reflexivity|]. split; [reflexivity|]. split; [apply str_of_N_natural|].
  destruct fl as [s|l|s]; cbn [shown_filters filters_text]; auto. apply repr_list_literal.
Qed.
Lemma c35_ok : forall w file fl t ls reps, open_text w file = Ok t -> lines_of t ls -> Forall2 (fun l p => report fl l (fst p) (snd p)) ls reps ->
  exists ev, summary fl (list_sum (map snd reps)) ev /\ search w file fl = (List.concat (map fst reps) ++ [ev], Ok tt).
Proof.
  intros w file fl t ls reps O L R. rewrite (search_unfold w file fl t ls O L). rewrite <- (List.app_nil_r ls), (search_steps fl ls reps 0 [] R). cbn [search_lines bind ret emit].
  eexists. split; [apply found_summary|]. rewrite List.app_nil_r. reflexivity.
Qed.
Lemma c35_err : forall w file fl t pre l post reps e, open_text w file = Ok t -> lines_of t (pre ++ l :: post) ->
  Forall2 (fun l p => report fl l (fst p) (snd p)) pre reps -> returned (read new_record l) = Err e ->
  search w file fl = (List.concat (map fst reps), Err e).
Proof.
  intros w file fl t pre l post reps e O L R E. rewrite (search_unfold w file fl t _ O L). rewrite (search_steps fl pre reps 0 (l :: post) R). cbn [search_lines].
  pose proof (read_error_silent _ _ _ E) as S. unfold returned, printed in *. destruct (read new_record l) as [[o r] res]. cbn [fst snd] in *. subst. cbn [bind].
  rewrite List.app_nil_r. reflexivity.
Qed.
Lemma search_open_error : forall w file fl e, open_text w file = Err e -> search w file fl = ([], Err e).
Proof. intros w file fl e O. unfold search, lift. rewrite O. reflexivity. Qed.
Lemma read_file_open_error : forall w file out e, open_text w file = Err e -> read_file w file out = ([], Err e).
Proof. intros w file out e O. unfold read_file, lift. rewrite O. reflexivity. Qed.
(* the filters only matter through what they match *)
Lemma search_lines_ext : forall fl fl' ls n, (forall t, matches fl t <-> matches fl' t) -> search_lines fl n ls = search_lines fl' n ls.
Proof.
  intros fl fl' ls n H. revert n. induction ls as [|l ls IH]; intro n; [reflexivity|]. cbn [search_lines]. destruct (read new_record l) as [[o r] [b|e]]; [|reflexivity].
  assert (P : passes fl (raw r) = passes fl' (raw r)).
  { destruct (passes fl (raw r)) eqn:A; destruct (passes fl' (raw r)) eqn:B; auto; [apply passes_iff, H, passes_iff in A|apply passes_iff, H, passes_iff in B]; congruence. }
  rewrite P, !IH. reflexivity.
Qed.
Lemma search_ext : forall fl fl' w file, (forall t, matches fl t <-> matches fl' t) -> same_findings fl (search w file fl) fl' (search w file fl').
Proof.
  intros fl fl' w file H. unfold search. destruct (lift (open_text w file)) as [o [t|e]]; [|left; exists o, e; auto]. cbn [bind]. rewrite (search_lines_ext fl fl' (readlines t) 0 H).
  destruct (search_lines fl' 0 (readlines t)) as [o' [n|e]]; cbn [bind emit]; [|left; exists (o ++ o'), e; auto].
  right. exists (o ++ o'), n, (found n fl), (found n fl'). rewrite !List.app_assoc. repeat split; auto using found_summary.
Qed.
Lemma part_app : forall {A} (a b c d : list A), part_of a b -> part_of c d -> part_of (a ++ c) (b ++ d).
Proof. intros A a b c d H K. induction H; cbn [app]; [exact K|constructor; auto|constructor; auto]. Qed.
Lemma part_refl : forall {A} (a : list A), part_of a a.
Proof. intros A a. induction a; constructor; auto. Qed.
Lemma search_lines_part : forall fl fl' ls n n' o' c' , (forall t, matches fl' t -> matches fl t) -> n' <= n ->
  search_lines fl' n' ls = (o', Ok c') -> exists o c, search_lines fl n ls = (o, Ok c) /\ c' <= c /\ part_of o' o.
Proof.
  intros fl fl' ls. induction ls as [|l ls IH]; intros n n' o' c' MM L E.
  - cbn in E. injection E as <- <-. exists [], n. repeat split; auto. constructor.
  - cbn [search_lines] in *. destruct (read new_record l) as [[o r] [b|e]]; [|discriminate].
    assert (G : forall F F' : M nat, (forall o1 c1, F' = (o1, Ok c1) -> exists o2 c2, F = (o2, Ok c2) /\ c1 <= c2 /\ part_of o1 o2) ->
      ((o, Ok tt) ;;; F') = (o', Ok c') -> exists o2 c2, ((o, Ok tt) ;;; F) = (o2, Ok c2) /\ c' <= c2 /\ part_of o' o2).
    { intros F F' H X. cbn [bind] in X. destruct F' as [o1 [c1|e1]]; [|discriminate]. injection X as <- <-. destruct (H _ _ eq_refl) as [o2 [c2 [-> [A B]]]].
      exists (o ++ o2), c2. cbn [bind]. repeat split; auto. apply part_app; auto. apply part_refl. }
    revert E. apply G. clear G o' c'. intros o' c' E. destruct b; cbn [negb] in *; [|eapply IH; eauto].
    destruct (passes fl' (raw r)) eqn:P'; cbn [negb] in E.
    + rewrite (proj2 (passes_iff fl (raw r)) (MM _ (proj1 (passes_iff fl' (raw r)) P'))). cbn [negb]. unfold say in *. cbn [bind] in *.
      destruct (search_lines fl' (n' + 1) ls) as [o1 [c1|e1]] eqn:S; [|discriminate]. injection E as <- <-.
      destruct (IH (n + 1) (n' + 1) o1 c1 MM ltac:(lia) S) as [o2 [c2 [-> [A B]]]]. eexists _, _. split; [reflexivity|]. split; [exact A|]. cbn [app]. constructor. exact B.
    + destruct (passes fl (raw r)); cbn [negb]; [|eapply IH; eauto]. destruct (IH (n + 1) n' o' c' MM ltac:(lia) E) as [o2 [c2 [-> [A B]]]].
      unfold say. cbn [bind]. eexists _, _. split; [reflexivity|]. split; [exact A|]. cbn [app]. constructor. exact B.
Qed.
(* what a summary says is unique *)
Lemma natural_unique : forall n n' d, is_natural n d -> is_natural n' d -> n = n'.
Proof. intros n n' d [_ [_ H]] [_ [_ H']]. congruence. Qed.
Lemma natural_digits : forall n d, is_natural n d -> Forall (fun c => 48 <= c <= 57)%N d.
Proof. intros n d [[_ H] _]. exact H. Qed.
Lemma digits_then : forall d d' c r r', Forall (fun c => 48 <= c <= 57)%N d -> Forall (fun c => 48 <= c <= 57)%N d' -> (c < 48)%N ->
  d ++ c :: r = d' ++ c :: r' -> d = d' /\ r = r'.
Proof.
  intros d d' c r r' D. revert d'. induction D as [|x d X D IH]; intros d' D' C E; destruct D' as [|x' d' X' D']; cbn [app] in E.
  - injection E as ->. auto.
  - exfalso. assert (c = x') by congruence. lia.
  - exfalso. assert (x = c) by congruence. lia.
  - injection E as -> E. destruct (IH _ D' C E) as [-> ->]. auto.
Qed.
Lemma summary_count : forall fl fl' n n' ev, summary fl n ev -> summary fl' n' ev -> n = n'.
Proof.
  intros fl fl' n n' ev [c [d [t [-> [_ [D _]]]]]] [c' [d' [t' [E [_ [D' _]]]]]]. injection E as _ E.
  destruct (digits_then d d' 32 _ _ (natural_digits _ _ D) (natural_digits _ _ D') ltac:(lia) E) as [-> _]. pose proof (natural_unique _ _ _ D D'). lia.
Qed.
Lemma summary_filters : forall fl fl' n n' c t t', summary fl n (EvColored c t) -> summary fl' n' (EvColored c t') -> t = t' ->
  exists x, shown_filters fl x /\ shown_filters fl' x.
Proof.
  intros fl fl' n n' c t t' [a [d [x [E [_ [D S]]]]]] [a' [d' [x' [E' [_ [D' S']]]]]] <-. injection E as _ ->. injection E' as _ E'.
  destruct (digits_then d d' 32 _ _ (natural_digits _ _ D) (natural_digits _ _ D') ltac:(lia) E') as [-> X]. injection X as ->. exists x'. auto.
Qed.
Lemma search_part : forall fl fl' w file o' c' ev', (forall t, matches fl' t -> matches fl t) -> summary fl' c' ev' -> search w file fl' = (o' ++ [ev'], Ok tt) ->
  exists o c ev, summary fl c ev /\ search w file fl = (o ++ [ev], Ok tt) /\ c' <= c /\ part_of o' o.
Proof.
  intros fl fl' w file o' c' ev' M SU E. unfold search in *. destruct (lift (open_text w file)) as [o1 [t|e]] eqn:L; [|discriminate].
  assert (o1 = []) by (unfold lift in L; congruence). subst o1. cbn [bind] in *. destruct (search_lines fl' 0 (readlines t)) as [o2 [c2|e]] eqn:S; [|discriminate].
  cbn [bind emit app] in E. apply (f_equal fst) in E. cbn [fst] in E. apply app_inj_tail in E as [<- <-].
  pose proof (summary_count _ _ _ _ _ SU (found_summary c2 fl')) as ->.
  destruct (search_lines_part fl fl' (readlines t) 0 0 o2 c2 M (le_n 0) S) as [o3 [c3 [-> [A B]]]]. exists o3, c3, (found c3 fl). cbn [bind emit app]. auto using found_summary.
Qed.

(* ---- C40 ---- *)
Definition extends (d : leg_dict) : Prop := exists extra, d = leg_init ++ extra /\ Forall (fun p => assoc (fst p) leg_init = None /\ snd p = def_val) extra.
Lemma assoc_app : forall {A} k (a b : list (str * A)), assoc k (a ++ b) = match assoc k a with Some v => Some v | None => assoc k b end.
Proof. intros A k a b. induction a as [|[k' v] a IH]; [reflexivity|]. cbn [app assoc]. destruct (str_eqb k k'); auto. Qed.
Lemma assoc_in : forall {A} k (a : list (str * A)) v, assoc k a = Some v -> In (k, v) a.
Proof.
  intros A k a v. induction a as [|[k' v'] a IH]; [discriminate|]. cbn [assoc]. destruct (str_eqb k k') eqn:E; [|right; auto].
  intro H. injection H as ->. apply str_eqb_eq in E as ->. left. reflexivity.
Qed.
Lemma dd_get_extends : forall d k, extends d -> extends (snd (dd_get d k)) /\ fst (dd_get d k) = match assoc k leg_init with Some v => v | None => def_val end.
Proof.
  intros d k [x [-> X]]. unfold dd_get. rewrite assoc_app. destruct (assoc k leg_init) as [v|] eqn:E.
  - cbn [fst snd]. split; [exists x; auto|reflexivity].
  - destruct (assoc k x) as [v|] eqn:E2; cbn [fst snd].
    + split; [exists x; auto|]. apply assoc_in in E2. rewrite Forall_forall in X. apply (X _ E2).
    + split; [|reflexivity]. exists (x ++ [(k, def_val)]). rewrite List.app_assoc. split; [reflexivity|]. apply Forall_app. split; [exact X|]. repeat constructor. exact E.
Qed.
(* C40b *)
Lemma field_021_step : forall d v r, extends d -> extends (snd (field_021_st d v)) /\ fst (field_021_st d v) = run_fn F021 v r.
Proof.
  intros d v r E. unfold field_021_st, run_fn, field_021. cbv zeta. destruct (Nat.eqb _ 0); [split; auto|]. destruct (negb _); [split; auto|].
  destruct (dd_get_extends d (strip v) E) as [A B]. destruct (dd_get d (strip v)) as [x d']. cbn [fst snd] in *. split; [exact A|]. rewrite B. reflexivity.
Qed.
Lemma run_021_step : forall vs d v r, extends d -> extends (snd (run_021 d vs)) /\ fst (field_021_st (snd (run_021 d vs)) v) = run_fn F021 v r.
Proof.
  induction vs as [|u vs IH]; intros d v r E; [split; [exact E|apply field_021_step; exact E]|]. cbn [run_021].
  destruct (field_021_step d u r E) as [A _]. destruct (field_021_st d u) as [m d1]. cbn [fst snd] in *. destruct (IH d1 v r A) as [B C].
  destruct (run_021 d1 vs) as [ms d2]. cbn [fst snd] in *. auto.
Qed.
Lemma leg_init_extends : extends leg_init.
Proof. exists []. split; [symmetry; apply List.app_nil_r|constructor]. Qed.
Lemma run_021_results : forall vs d r, extends d -> fst (run_021 d vs) = map (fun v => run_fn F021 v r) vs.
Proof.
  induction vs as [|u vs IH]; intros d r E; [reflexivity|]. cbn [run_021 map]. destruct (field_021_step d u r E) as [A B].
  destruct (field_021_st d u) as [m d1]. cbn [fst snd] in *. specialize (IH d1 r A). destruct (run_021 d1 vs) as [ms d2]. cbn [fst] in *. congruence.
Qed.
Definition keys (d : leg_dict) : list str := map fst d.
Lemma assoc_none : forall {A} k (d : list (str * A)), assoc k d = None <-> ~ In k (map fst d).
Proof.
  intros A k d. induction d as [|[k' v] d IH]; [split; [intros _ []|reflexivity]|]. cbn [assoc map fst In]. destruct (str_eqb k k') eqn:E.
  - apply str_eqb_eq in E. subst. split; [discriminate|intro H; exfalso; apply H; left; reflexivity].
  - rewrite IH. split; [intros H [->|X]; [|contradiction]|tauto]. rewrite (proj2 (str_eqb_eq k k) eq_refl) in E. discriminate.
Qed.
Lemma field_021_keys : forall d v, NoDup (keys d) ->
  NoDup (keys (snd (field_021_st d v))) /\
  (forall k, In k (keys (snd (field_021_st d v))) <-> In k (keys d) \/ (trimmed v k /\ isalpha k = true)).
Proof.
  intros d v ND. unfold field_021_st. cbv zeta.
  assert (N : forall k, isalpha (strip v) = false -> trimmed v k /\ isalpha k = true -> False).
  { intros k A [T B]. apply trimmed_unique in T. subst. congruence. }
  destruct (Nat.eqb _ 0) eqn:L.
  - cbn [snd]. split; [exact ND|]. assert (isalpha (strip v) = false) by (apply Nat.eqb_eq in L; destruct (strip v); [reflexivity|discriminate]).
    intro k. split; [auto|]. intros [H1|H1]; [exact H1|]. exfalso. eauto.
  - destruct (isalpha (strip v)) eqn:A; cbn [negb].
    + unfold dd_get. destruct (assoc (strip v) d) as [x|] eqn:G; cbn [snd].
      * split; [exact ND|]. intro k. split; [auto|]. intros [H1|[T _]]; [exact H1|]. apply trimmed_unique in T. subst. apply assoc_in in G. apply (in_map fst) in G. exact G.
      * apply assoc_none in G. unfold keys in *. rewrite map_app. split.
        { cbn [map fst]. apply NoDup_Add with (a := strip v) (l := map fst d); [|split; assumption]. rewrite <- (List.app_nil_r (map fst d)) at 1. apply Add_app. }
        { intro k. rewrite in_app_iff. cbn [map fst In]. split.
          - intros [X|[<-|[]]]; [auto|right]. split; [apply strip_trimmed|exact A].
          - intros [X|[T _]]; [auto|right; left]. symmetry. apply trimmed_unique. exact T. }
    + cbn [snd]. split; [exact ND|]. intro k. split; [auto|]. intros [H1|H1]; [exact H1|]. exfalso. eauto.
Qed.
Lemma run_021_keys : forall vs d, NoDup (keys d) ->
  NoDup (keys (snd (run_021 d vs))) /\
  (forall k, In k (keys (snd (run_021 d vs))) <-> In k (keys d) \/ exists v, In v vs /\ trimmed v k /\ isalpha k = true).
Proof.
  induction vs as [|u vs IH]; intros d ND.
  - cbn [run_021 snd]. split; [exact ND|]. intro k. split; [auto|]. intros [H|[v [[] _]]]. exact H.
  - cbn [run_021]. destruct (field_021_keys d u ND) as [A B]. destruct (field_021_st d u) as [m d1]. cbn [snd] in *. destruct (IH d1 A) as [C D].
    destruct (run_021 d1 vs) as [ms d2]. cbn [snd] in *. split; [exact C|]. intro k. rewrite D, B. split.
    + intros [[H|H]|[v [I H]]]; [auto|right; exists u; split; [left; reflexivity|exact H]|right; exists v; split; [right; exact I|exact H]].
    + intros [H|[v [[->|I] H]]]; [auto|auto|right; exists v; auto].
Qed.
Lemma leg_keys_nodup : NoDup (keys leg_init).
Proof.
  unfold keys, leg_init. cbv. repeat (constructor; [intros H; repeat destruct H as [H|H]; try discriminate H; exact H|]). constructor.
Qed.

(* ---- C58 ---- *)
Lemma c58_lists : forall l l' n n' ev, Forall text l -> Forall text l' -> summary (FList l) n ev -> summary (FList l') n' ev -> l = l' /\ n = n'.
Proof.
  intros l l' n n' [?|?|c t] T T' S S'; try (destruct S as [? [? [? [E _]]]]; discriminate). split; [|eapply summary_count; eauto].
  destruct (summary_filters _ _ _ _ _ _ _ S S' eq_refl) as [x [A B]]. cbn [shown_filters] in *. eapply list_literal_unique; eauto.
Qed.
Lemma c58_texts : forall s s' n n' ev, summary (FStr s) n ev -> summary (FStr s') n' ev -> s = s' /\ n = n'.
Proof.
  intros s s' n n' [?|?|c t] S S'; try (destruct S as [? [? [? [E _]]]]; discriminate). split; [|eapply summary_count; eauto].
  destruct (summary_filters _ _ _ _ _ _ _ S S' eq_refl) as [x [A B]]. cbn [shown_filters] in *. congruence.
Qed.
