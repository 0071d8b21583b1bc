(* Lemmas behind C08, C31-C34, C43, C44, C46: decoding whole records. *)
From Coq Require Import List String NArith ZArith Bool Arith Lia.
From Verif Require Import PyBase DecoderTables Decoder Layouts Json Record Api SpecLayouts Spec StrFacts FnNum ReadFacts ReadProps ReadProps2 ReadProps3
  SpecNum SpecCodes SpecDecode SpecRecord NumProps CodeProps DecodeProps.
Import ListNotations.
Open Scope string_scope.
Open Scope list_scope.
Local Open Scope nat_scope.

(* ---- widths ---- *)
Definition cells_wide (cs : list cell) : bool := forallb (fun c => width (c_fn c) <=? List.length (c_cols c)) cs.
Lemma cells_wide_all : forallb (fun e => cells_wide (e_cells e)) catalogue = true.
Proof. vm_compute. reflexivity. Qed.
Lemma columns_length : forall t ks, Forall (fun k => 1 <= k <= List.length t) ks -> List.length (columns t ks) = List.length ks.
Proof.
  intros t ks H. induction H as [|k ks K _ IH]; [reflexivity|]. destruct (columns_single_len t k K) as [c [E C]].
  change (columns t (k :: ks)) with ((match column t k with Some c => [c] | None => [] end) ++ columns t ks). rewrite C. cbn [app List.length]. rewrite IH. reflexivity.
Qed.
Lemma layout_wide : forall code prim app cells line, 132 <= List.length line -> layout_for code prim app = Some cells ->
  Forall wide (map (field_of line) cells).
Proof.
  intros code prim app cells line L H. pose proof (layout_for_cells cells_wide _ _ _ _ cells_wide_all H) as W.
  pose proof (layout_for_cells cells_in _ _ _ _ catalogue_in H) as I. unfold cells_wide in W. unfold cells_in in I.
  rewrite forallb_forall in W, I. apply Forall_forall. intros f F. apply in_map_iff in F as [c [<- C]].
  specialize (W c C). specialize (I c C). cbn beta in I. apply Nat.leb_le in W. unfold wide, field_of. cbn [f_fn f_value].
  rewrite columns_length; [exact W|]. apply cols_in_forall in I. eapply Forall_impl; [|exact I]. cbn beta. intros. lia.
Qed.
Lemma read_fields_wide : forall r line, Forall wide (fields r) -> Forall wide (fields (after (read r line))).
Proof.
  intros r line H. destruct (validate line) eqn:V.
  2:{ unfold read. rewrite V. exact H. }
  pose proof (validate_length _ V) as L. rewrite (read_expected r line V). unfold expected_read.
  destruct (section_of line) as [code|]; [|exact H]. cbv zeta.
  assert (K : forall r', fields r' = fields r -> Forall wide (fields (after (expected_fields code line r')))).
  { intros r' E. unfold expected_fields. destruct (layout_for _ _ _) as [cells|] eqn:LF.
    - apply (layout_wide _ _ _ _ _ L LF).
    - destruct (raising code); [cbn; rewrite E; exact H|constructor]. }
  destruct (fst (type_columns code)) as [k|]; [|apply K; reflexivity].
  destruct (isalnum (columns (strip line) [k])); [apply K; reflexivity|exact H].
Qed.
Lemma reachable_wide : forall r, reachable r -> Forall wide (fields r).
Proof. induction 1; [constructor|apply read_fields_wide; auto]. Qed.

(* ---- decoding the fields of a record ---- *)
Lemma run_exits : forall f v r, exits f v -> exists t, trimmed v t /\ f = F034 /\
  run_fn f v r = ([EvPrint (lit "Unsupported VOR/NDB Frequency: """ ++ t ++ lit """");
                   EvPrint (lit "from record type """ ++ rv_ident r ++ lit """: """ ++ rv_raw r ++ lit """")], Err SystemExit).
Proof.
  intros f v r [-> H]. destruct (trim_of v) as [t [T _]]. destruct (H t T) as [NE NN]. exists t. split; auto. split; auto.
  apply c43_exit; auto. destruct (numeric_dec t NE) as [[_ X]|[X _]]; [contradiction|exact X].
Qed.
Lemma exists_cons : forall (P : field -> Prop) f fs (o o' : list event), (P f <-> o <> []) -> (o' <> [] <-> Exists P fs) ->
  (o ++ o' <> [] <-> Exists P (f :: fs)).
Proof.
  intros P f fs o o' A B. rewrite Exists_cons, A, <- B. destruct o; cbn [app]; [tauto|]. split; [left; discriminate|discriminate].
Qed.
Lemma decode_rows_outcome : forall v fs, Forall wide fs -> exists o res, decode_rows v fs = (o, res) /\ rows_outcome v fs o res.
Proof.
  intros v fs W. induction W as [|f fs Wf _ IH].
  - exists [], (Ok []). split; [reflexivity|]. constructor; [constructor|constructor|]. split; [congruence|intro X; inversion X].
  - cbn [decode_rows]. destruct (outcome_all (f_fn f) (f_value f) v Wf) as [[R [NX E]]|[[X [NR [o E]]]|[NR [NX [o [d [E T]]]]]]].
    + rewrite E. exists [], (Err ValueError). split; [reflexivity|]. apply (rows_refused v (f :: fs) [] [] f fs); auto.
      split; [congruence|intro Y; inversion Y].
    + destruct (run_exits _ _ v X) as [t [T [F E']]]. rewrite E'. cbn [bind]. eexists. eexists. split; [reflexivity|].
      match goal with |- rows_outcome _ _ ?o _ => change o with ([] ++ o) end.
      apply (rows_exit v (f :: fs) [] _ [] f fs); auto.
      { split; [congruence|intro Y; inversion Y]. }
      split; auto. exists t. auto.
    + rewrite E. cbn [bind]. destruct IH as [o' [res [E' IH]]]. rewrite E'. inversion IH; subst.
      * eexists. eexists. split; [cbn [ret]; reflexivity|]. rewrite List.app_nil_r. constructor.
        { constructor; [split; auto|auto]. }
        { constructor; auto. exists o, d. split; auto. }
        { apply exists_cons; auto. }
      * eexists. eexists. split; [reflexivity|]. apply (rows_refused v _ _ (f :: pre) f0 post); auto.
        { constructor; [split; auto|auto]. }
        { apply exists_cons; auto. }
      * eexists. eexists. split; [reflexivity|]. rewrite List.app_assoc. apply (rows_exit v _ _ _ (f :: pre) f0 post); auto.
        { constructor; [split; auto|auto]. }
        { apply exists_cons; auto. }
Qed.
Lemma decode_eq : forall r output o res, decode_rows (view r) (fields r) = (o, res) ->
  decode r output = (o ++ match res with Ok rows => if output then [EvTable rows] else [] | Err _ => [] end, res).
Proof.
  intros r output o res H. unfold decode. rewrite H. destruct res as [rows|e]; cbn [bind]; [|rewrite List.app_nil_r; reflexivity].
  destruct output; reflexivity.
Qed.
Lemma decode_outcome_rec : forall r, Forall wide (fields r) -> exists o res, rows_outcome (view r) (fields r) o res /\
  forall output, decode r output = (o ++ match res with Ok rows => if output then [EvTable rows] else [] | Err _ => [] end, res).
Proof.
  intros r W. destruct (decode_rows_outcome (view r) (fields r) W) as [o [res [E H]]]. exists o, res. split; auto.
  intro output. apply decode_eq. exact E.
Qed.

(* ---- C31, C32 ---- *)
Lemma c31 : forall r output o rows, decode r output = (o, Ok rows) -> Forall2 (row_for (view r)) (fields r) rows.
Proof.
  intros r output o rows H. destruct (decode_rows (view r) (fields r)) as [o' res] eqn:E. rewrite (decode_eq _ output _ _ E) in H.
  injection H as _ ->. clear - E. revert o' rows E. generalize (view r) as v, (fields r) as fs. intro v.
  induction fs as [|f fs IH]; intros o' rows E; cbn [decode_rows] in E.
  - injection E as _ <-. constructor.
  - destruct (run_fn (f_fn f) (f_value f) v) as [o1 [d|e]] eqn:R; cbn [bind] in E; [|discriminate].
    destruct (decode_rows v fs) as [o2 [rs|e]] eqn:D; cbn [bind ret] in E; [|discriminate]. injection E as _ <-.
    constructor; [exists o1, d; auto|eapply IH; reflexivity].
Qed.
Lemma c31_names : forall v fs rows, Forall2 (row_for v) fs rows ->
  map fst rows = map (fun f => (f_name f, quoted_value f)) fs.
Proof.
  intros v fs rows H. induction H as [|f row fs rows [o [d [_ ->]]] _ IH]; [reflexivity|]. cbn [map fst]. rewrite IH. reflexivity.
Qed.
Lemma c32_decode : forall r, exists o res, decode r false = (o, res) /\
  decode r true = (o ++ match res with Ok rows => [EvTable rows] | Err _ => [] end, res).
Proof.
  intro r. destruct (decode_rows (view r) (fields r)) as [o res] eqn:E. exists o, res.
  rewrite !(decode_eq _ _ _ _ E). destruct res; rewrite ?List.app_nil_r; auto.
Qed.
Lemma c32_json : forall r single, exists text, json r false single = ([], Ok text) /\ json r true single = ([EvPrint text], Ok text).
Proof. intros r single. eexists. split; [reflexivity|]. destruct single; reflexivity. Qed.
Lemma c32_parse : forall line, exists o res table, parse line false = (o, res) /\ parse line true = (o ++ table, res) /\
  (res = Ok true -> exists rows, table = [EvTable rows] /\ snd (decode (after (read new_record line)) false) = Ok rows) /\
  (res <> Ok true -> table = []).
Proof.
  intro line. unfold parse. destruct (read new_record line) as [[o r] [[|]|e]] eqn:E.
  - destruct (c32_decode r) as [o' [res [A B]]]. rewrite A, B. destruct res as [rows|e].
    + exists (o ++ o'), (Ok true), [EvTable rows]. rewrite List.app_assoc. repeat split; auto; [|congruence].
      intros _. exists rows. split; auto. unfold after. cbn [fst snd]. rewrite A. reflexivity.
    + exists (o ++ o'), (Err e), []. rewrite !List.app_nil_r. repeat split; auto; try congruence.
  - exists o, (Ok false), []. rewrite List.app_nil_r. repeat split; auto; congruence.
  - exists o, (Err e), []. rewrite List.app_nil_r. repeat split; auto; congruence.
Qed.

(* ---- parse ---- *)
Lemma read_output_true : forall r line o r', read r line = (o, r', Ok true) -> o = [].
Proof. intros r line o r' H. apply read_true_inv in H. apply H. Qed.
Lemma parse_outcome : forall line output,
  match returned (read new_record line) with
  | Ok true => let r := after (read new_record line) in
      exists o res, rows_outcome (view r) (fields r) o res /\
        parse line output = (o ++ match res with Ok rows => if output then [EvTable rows] else [] | Err _ => [] end,
                             match res with Ok _ => Ok true | Err e => Err e end)
  | Ok false => parse line output = (printed (read new_record line), Ok false)
  | Err e => parse line output = (printed (read new_record line), Err e) /\ e = ValueError
  end.
Proof.
  intros line output. destruct (returned (read new_record line)) as [[|]|e] eqn:R; unfold returned in R.
  - assert (W : Forall wide (fields (after (read new_record line)))) by (apply read_fields_wide; constructor).
    cbv zeta. destruct (decode_outcome_rec _ W) as [o [res [A B]]]. exists o, res. split; auto. unfold parse.
    destruct (read new_record line) as [[o' r] b] eqn:E. cbn [snd] in R. subst b. unfold after in *. cbn [fst snd] in *.
    rewrite (read_output_true _ _ _ _ E). rewrite (B output). destruct res; reflexivity.
  - unfold parse. destruct (read new_record line) as [[o' r] b] eqn:E. cbn [snd] in R. subst b. reflexivity.
  - split; [|apply (read_raises_value_error new_record line); exact R].
    unfold parse. destruct (read new_record line) as [[o' r] b] eqn:E. cbn [snd] in R. subst b. reflexivity.
Qed.
Lemma rows_outcome_errors : forall v fs o e, rows_outcome v fs o (Err e) -> e = ValueError \/ e = SystemExit.
Proof. intros v fs o e H. inversion H; auto. Qed.
Lemma c08_parse : forall line output e, snd (parse line output) = Err e -> e = ValueError \/ e = SystemExit.
Proof.
  intros line output e H. pose proof (parse_outcome line output) as P. destruct (returned (read new_record line)) as [[|]|e'].
  - destruct P as [o [res [A B]]]. rewrite B in H. destruct res as [rows|e']; [discriminate|]. injection H as <-. eapply rows_outcome_errors; eauto.
  - rewrite P in H. discriminate.
  - destruct P as [P ->]. rewrite P in H. injection H as <-. auto.
Qed.
Lemma c08_decode : forall r output e, reachable r -> snd (decode r output) = Err e -> e = ValueError \/ e = SystemExit.
Proof.
  intros r output e H E. destruct (decode_outcome_rec r (reachable_wide r H)) as [o [res [A B]]]. rewrite (B output) in E.
  cbn [snd] in E. subst res. eapply rows_outcome_errors; eauto.
Qed.
Lemma for_each_error : forall {A} (body : A -> M unit) l e, snd (for_each body l) = Err e -> exists x, In x l /\ snd (body x) = Err e.
Proof.
  intros A body l e. induction l as [|x l IH]; cbn [for_each]; intro H; [discriminate|].
  destruct (body x) as [o [u|e']] eqn:B; cbn [bind] in H.
  - destruct (for_each body l) as [o' r]. cbn [snd] in H. destruct (IH H) as [y [I Y]]. exists y. split; [right|]; auto.
  - exists x. split; [left; auto|]. rewrite B. exact H.
Qed.
Lemma c08_read_file : forall w path output e, snd (read_file w path output) = Err e ->
  open_text w path = Err e \/ e = ValueError \/ e = SystemExit.
Proof.
  intros w path output e H. unfold read_file, lift in H. destruct (open_text w path) as [t|e']; cbn [bind] in H; [|left; injection H as ->; reflexivity].
  right. destruct (for_each _ _) as [o r] eqn:F. cbn [snd] in H. subst r.
  assert (X : snd (for_each (fun line => parse line output ;;; ret tt) (readlines t)) = Err e) by (rewrite F; reflexivity).
  apply for_each_error in X as [line [_ X]]. apply (c08_parse line output). destruct (parse line output) as [o' [b|e']]; cbn [bind ret snd] in X; [discriminate|injection X as ->; reflexivity].
Qed.
Lemma c08_search : forall w file fl e, snd (search w file fl) = Err e -> open_text w file = Err e \/ e = ValueError.
Proof.
  intros w file fl e H. unfold search, lift in H. destruct (open_text w file) as [t|e']; cbn [bind] in H; [|left; injection H as ->; reflexivity].
  right. destruct (search_lines fl 0 (readlines t)) as [o [n|e']] eqn:S; cbn [bind emit snd] in H; [discriminate|]. injection H as <-.
  assert (X : snd (search_lines fl 0 (readlines t)) = Err e') by (rewrite S; reflexivity). clear - X. revert X. generalize 0 at 1 as n.
  induction (readlines t) as [|line ls IH]; intros n X; cbn [search_lines] in X; [discriminate|].
  destruct (read new_record line) as [[o r] [b|e]] eqn:R.
  - cbn [bind] in X. destruct b; cbn [negb] in X.
    + destruct (passes fl (raw r)); cbn [negb] in X.
      * unfold say in X. cbn [bind] in X. apply (IH (n + 1)). destruct (search_lines fl (n + 1) ls) as [o' r']. exact X.
      * apply (IH n). destruct (search_lines fl n ls) as [o' r']. exact X.
    + apply (IH n). destruct (search_lines fl n ls) as [o' r']. exact X.
  - injection X as <-. apply (read_raises_value_error new_record line). unfold returned. rewrite R. reflexivity.
Qed.
Lemma c08_json : forall r output single, exists text, snd (json r output single) = Ok text.
Proof. intros. destruct (c32_json r single) as [t [A B]]. exists t. destruct output; [rewrite B|rewrite A]; reflexivity. Qed.

(* ---- C46 ---- *)
Lemma run_fn_view : forall f v r r', rv_ident r = rv_ident r' -> f <> F034 -> run_fn f v r = run_fn f v r'.
Proof. intros f v r r' E N. destruct f; try reflexivity; try congruence. apply c27_ident_only. exact E. Qed.
Lemma run_fn_034 : forall v r r', rv_ident r = rv_ident r' ->
  run_fn F034 v r = run_fn F034 v r' \/ (snd (run_fn F034 v r) = Err SystemExit /\ snd (run_fn F034 v r') = Err SystemExit).
Proof.
  intros v r r' E. destruct (outcome_all F034 v r (Nat.le_0_l _)) as [[R [NX X]]|[[X [NR [o Y]]]|[NR [NX _]]]].
  - left. destruct (outcome_all F034 v r' (Nat.le_0_l _)) as [[_ [_ Z]]|[[Z _]|[Z _]]]; try contradiction. congruence.
  - right. destruct (run_exits _ _ r X) as [t [_ [_ A]]]. destruct (run_exits _ _ r' X) as [t' [_ [_ B]]]. rewrite A, B. auto.
  - left. unfold run_fn, field_034. destruct (trim_of v) as [t [T ST]]. rewrite ST. cbv zeta. destruct t as [|c t]; [reflexivity|].
    cbn [List.length Nat.ltb Nat.leb]. destruct (isnumeric (c :: t)) eqn:N; [reflexivity|]. exfalso. apply NX. split; auto.
    apply (trim_all v (c :: t) _ T). split; [discriminate|]. intro F. assert (isnumeric (c :: t) = true) by (apply all_nonempty_iff; split; auto; discriminate). congruence.
Qed.
Lemma c46_rows : forall fs v v', rv_ident v = rv_ident v' ->
  decode_rows v fs = decode_rows v' fs \/ (snd (decode_rows v fs) = Err SystemExit /\ snd (decode_rows v' fs) = Err SystemExit).
Proof.
  induction fs as [|f fs IH]; intros v v' E; [left; reflexivity|]. cbn [decode_rows].
  assert (K : run_fn (f_fn f) (f_value f) v = run_fn (f_fn f) (f_value f) v' \/
              (snd (run_fn (f_fn f) (f_value f) v) = Err SystemExit /\ snd (run_fn (f_fn f) (f_value f) v') = Err SystemExit)).
  { destruct (fn_eqb (f_fn f) F034) eqn:X; [apply fn_eqb_eq in X; rewrite X; apply run_fn_034; exact E|].
    left. apply run_fn_view; auto. intro Y. apply fn_eqb_eq in Y. congruence. }
  destruct K as [K|[K K']].
  - rewrite K. destruct (run_fn (f_fn f) (f_value f) v') as [o [d|e]]; cbn [bind]; [|left; reflexivity].
    destruct (IH v v' E) as [->|[A B]]; [left; reflexivity|right].
    destruct (decode_rows v fs) as [o1 r1], (decode_rows v' fs) as [o2 r2]. cbn [snd] in A, B. subst. auto.
  - right. destruct (run_fn (f_fn f) (f_value f) v) as [o r1], (run_fn (f_fn f) (f_value f) v') as [o' r2]. cbn [snd] in K, K'. subst. auto.
Qed.
Lemma c46 : forall r r' output, ident r = ident r' -> fields r = fields r' ->
  decode r output = decode r' output \/ (snd (decode r output) = Err SystemExit /\ snd (decode r' output) = Err SystemExit).
Proof.
  intros r r' output I F. unfold decode. rewrite <- F. destruct (c46_rows (fields r) (view r) (view r') I) as [->|[A B]]; [left; reflexivity|right].
  destruct (decode_rows (view r) (fields r)) as [o1 r1], (decode_rows (view r') (fields r)) as [o2 r2]. cbn [snd] in A, B. subst. auto.
Qed.
