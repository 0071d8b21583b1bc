(* Proofs for C33, C34, C43, C44, C48: the outcome of parse, and when decoding fails. *)
From Coq Require Import List String NArith ZArith Bool Arith Lia.
From Verif Require Import PyBase DecoderTables Decoder Layouts Record Api SpecLayouts Spec SpecNum SpecCodes SpecDecode SpecRecord StrFacts FnNum ReadFacts
  ReadProps ReadProps2 ReadProps3 NumFacts NumProps CodeProps DecodeProps RecordProps.
Import ListNotations.
Open Scope string_scope.
Open Scope list_scope.
Local Open Scope nat_scope.

(* ---- a field decodes, refuses or exits ---- *)
Lemma exits_refuses : forall f v, exits f v -> refuses f v -> False.
Proof.
  intros f v [-> X] R. destruct (outcome_all F034 v (RecView [] []) (Nat.le_0_l _)) as [[_ [Y _]]|[[_ [Y _]]|[Y _]]]; [|contradiction|contradiction].
  apply Y. split; auto.
Qed.
Lemma first_failure_unique : forall pre f post pre' f' post',
  pre ++ f :: post = pre' ++ f' :: post' -> Forall decodes pre -> ~ decodes f -> Forall decodes pre' -> ~ decodes f' ->
  pre = pre' /\ f = f' /\ post = post'.
Proof.
  induction pre as [|x pre IH]; intros f post [|x' pre'] f' post' E P F P' F'; cbn [app] in E; injection E as -> E.
  - auto.
  - inversion P'; contradiction.
  - inversion P; contradiction.
  - inversion P; inversion P'; subst. destruct (IH _ _ _ _ _ E) as [-> [-> ->]]; auto.
Qed.
Lemma refuses_not_decodes : forall f, refuses (f_fn f) (f_value f) -> ~ decodes f.
Proof. intros f H [A _]. contradiction. Qed.
Lemma exits_not_decodes : forall f, exits (f_fn f) (f_value f) -> ~ decodes f.
Proof. intros f H [_ A]. contradiction. Qed.
Lemma rows_all_decode : forall v fs o res, rows_outcome v fs o res -> Forall decodes fs -> exists rows, res = Ok rows.
Proof.
  intros v fs o res H D. destruct H as [o rows _ _ _|o pre f post E _ R _|o o' pre f post E _ R _ _]; [eauto| |];
    subst fs; apply Forall_app in D as [_ D]; inversion D as [|x l [A B]]; contradiction.
Qed.
Lemma rows_ok_all : forall v fs o rows, rows_outcome v fs o (Ok rows) -> Forall decodes fs.
Proof. intros v fs o rows H. inversion H; auto. Qed.
Lemma rows_first_refused : forall v pre f post o res, rows_outcome v (pre ++ f :: post) o res -> Forall decodes pre ->
  refuses (f_fn f) (f_value f) -> res = Err ValueError /\ (o <> [] <-> Exists chatty pre).
Proof.
  intros v pre f post o res H P R. remember (pre ++ f :: post) as fs eqn:E.
  destruct H as [o rows D _ _|o pre' f' post' E' P' R' Q|o o' pre' f' post' E' P' R' Q _]; subst fs.
  - apply Forall_app in D as [_ D]. inversion D as [|x l [A B]]. contradiction.
  - destruct (first_failure_unique pre' f' post' pre f post) as [-> [-> ->]]; auto using refuses_not_decodes.
  - destruct (first_failure_unique pre' f' post' pre f post) as [-> [-> ->]]; auto using refuses_not_decodes, exits_not_decodes.
    exfalso. eapply exits_refuses; eauto.
Qed.
Lemma rows_first_exit : forall v pre f post o res, rows_outcome v (pre ++ f :: post) o res -> Forall decodes pre ->
  exits (f_fn f) (f_value f) -> res = Err SystemExit /\ exists o1 o2, o = o1 ++ o2 /\ (o1 <> [] <-> Exists chatty pre) /\ exit_message v f o2.
Proof.
  intros v pre f post o res H P R. remember (pre ++ f :: post) as fs eqn:E.
  destruct H as [o rows D _ _|o pre' f' post' E' P' R' Q|o o' pre' f' post' E' P' R' Q M]; subst fs.
  - apply Forall_app in D as [_ D]. inversion D as [|x l [A B]]. contradiction.
  - destruct (first_failure_unique pre' f' post' pre f post) as [-> [-> ->]]; auto using refuses_not_decodes, exits_not_decodes.
    exfalso. eapply exits_refuses; eauto.
  - destruct (first_failure_unique pre' f' post' pre f post) as [-> [-> ->]]; auto using exits_not_decodes. split; auto. exists o, o'. auto.
Qed.

(* ---- C34 ---- *)
Lemma c34_true : forall line output, snd (parse line output) = Ok true <->
  returned (read new_record line) = Ok true /\ Forall decodes (fields (after (read new_record line))).
Proof.
  intros line output. pose proof (parse_outcome line output) as P. destruct (returned (read new_record line)) as [[|]|e] eqn:R.
  - destruct P as [o [res [A B]]]. rewrite B. cbn [snd]. split.
    + intro H. split; auto. destruct res; [|discriminate]. eapply rows_ok_all; eauto.
    + intros [_ H]. destruct (rows_all_decode _ _ _ _ A H) as [rows ->]. reflexivity.
  - rewrite P. cbn [snd]. split; [discriminate|intros [H _]; discriminate].
  - destruct P as [P _]. rewrite P. cbn [snd]. split; [discriminate|intros [H _]; discriminate].
Qed.
Lemma c34_false : forall line output, snd (parse line output) = Ok false <-> returned (read new_record line) = Ok false.
Proof.
  intros line output. pose proof (parse_outcome line output) as P. destruct (returned (read new_record line)) as [[|]|e] eqn:R.
  - destruct P as [o [res [A B]]]. rewrite B. cbn [snd]. split; [destruct res; discriminate|discriminate].
  - rewrite P. cbn [snd]. tauto.
  - destruct P as [P _]. rewrite P. cbn [snd]. split; discriminate.
Qed.
Lemma read_error_silent : forall r line e, returned (read r line) = Err e -> printed (read r line) = [].
Proof.
  intros r line e H. destruct (validate line) eqn:V; [|unfold read in *; rewrite V in *; discriminate].
  rewrite (read_expected r line V) in *. unfold expected_read in *. destruct (section_of line) as [code|]; [|discriminate]. cbv zeta in *.
  assert (K : forall r', returned (expected_fields code line r') = Err e -> printed (expected_fields code line r') = []).
  { intros r'. unfold expected_fields. destruct (layout_for _ _ _); [discriminate|]. destruct (raising code); [reflexivity|discriminate]. }
  destruct (fst (type_columns code)) as [k|]; [|apply K; exact H]. destruct (isalnum _); [apply K; exact H|discriminate].
Qed.
Lemma c34_read_error : forall line output e, returned (read new_record line) = Err e -> parse line output = ([], Err e).
Proof.
  intros line output e R. pose proof (parse_outcome line output) as P. rewrite R in P. destruct P as [P _]. rewrite P.
  rewrite (read_error_silent _ _ _ R). reflexivity.
Qed.
Lemma c34_refused : forall line output pre f post, returned (read new_record line) = Ok true ->
  fields (after (read new_record line)) = pre ++ f :: post -> Forall decodes pre -> refuses (f_fn f) (f_value f) ->
  exists o, parse line output = (o, Err ValueError) /\ (o <> [] <-> Exists chatty pre).
Proof.
  intros line output pre f post R E P F. pose proof (parse_outcome line output) as Q. rewrite R in Q. destruct Q as [o [res [A B]]].
  rewrite E in A. destruct (rows_first_refused _ _ _ _ _ _ A P F) as [-> C]. exists o. rewrite B, List.app_nil_r. auto.
Qed.
Lemma c34_exit : forall line output pre f post, let r := after (read new_record line) in returned (read new_record line) = Ok true ->
  fields r = pre ++ f :: post -> Forall decodes pre -> exits (f_fn f) (f_value f) ->
  exists o1 o2, parse line output = (o1 ++ o2, Err SystemExit) /\ (o1 <> [] <-> Exists chatty pre) /\ exit_message (view r) f o2.
Proof.
  intros line output pre f post r R E P F. pose proof (parse_outcome line output) as Q. rewrite R in Q. destruct Q as [o [res [A B]]].
  fold r in A, B. rewrite E in A. destruct (rows_first_exit _ _ _ _ _ _ A P F) as [-> [o1 [o2 [-> [C D]]]]]. exists o1, o2.
  rewrite B, List.app_nil_r. auto.
Qed.
(* some field fails, or all decode *)
Lemma field_cases : forall f, wide f -> decodes f \/ refuses (f_fn f) (f_value f) \/ exits (f_fn f) (f_value f).
Proof.
  intros f W. destruct (outcome_all (f_fn f) (f_value f) (RecView [] []) W) as [[A _]|[[A _]|[A [B _]]]]; auto. left. split; auto.
Qed.
Lemma first_failure : forall fs, Forall wide fs -> Forall decodes fs \/
  exists pre f post, fs = pre ++ f :: post /\ Forall decodes pre /\ (refuses (f_fn f) (f_value f) \/ exits (f_fn f) (f_value f)).
Proof.
  induction fs as [|f fs IH]; intro W; [left; constructor|]. inversion W as [|x l Wf Wl]; subst. destruct (field_cases f Wf) as [D|F].
  - destruct (IH Wl) as [A|[pre [g [post [-> [P G]]]]]]; [left; constructor; auto|right]. exists (f :: pre), g, post. auto.
  - right. exists [], f, fs. auto.
Qed.
Lemma reachable_after : forall r line, reachable r -> Forall wide (fields (after (read r line))).
Proof. intros. apply reachable_wide. constructor. assumption. Qed.

(* ---- C33 ---- *)
Lemma c33_true : forall line o, parse line false = (o, Ok true) -> (o <> [] <-> Exists chatty (fields (after (read new_record line)))).
Proof.
  intros line o H. pose proof (parse_outcome line false) as P. destruct (returned (read new_record line)) as [[|]|e] eqn:R.
  - destruct P as [o' [res [A B]]]. rewrite B in H. destruct res as [rows|e]; [|discriminate]. rewrite List.app_nil_r in H. injection H as ->.
    inversion A; auto.
  - rewrite P in H. discriminate.
  - destruct P as [P _]. rewrite P in H. discriminate.
Qed.
Lemma read_print : forall r line, printed (read r line) <> [] <-> bad_number line.
Proof.
  intros r line. destruct (validate line) eqn:V.
  2:{ unfold read. rewrite V. split; [intro X; exfalso; apply X; reflexivity|]. intros [t [s [k [app [T [F _]]]]]]. exfalso.
      apply (trimmed_strip line t) in T. subst t. apply validate_framed in F. congruence. }
  pose proof (proj1 (validate_framed line) V) as F. rewrite (read_expected r line V). unfold expected_read.
  assert (K : forall code r', printed (expected_fields code line r') = []).
  { intros code r'. unfold expected_fields. destruct (layout_for _ _ _); [reflexivity|]. destruct (raising code); reflexivity. }
  destruct (section_of line) as [code|] eqn:S.
  2:{ split; [intro X; exfalso; apply X; reflexivity|]. intros [t [s [k [app [_ [_ [X _]]]]]]]. apply section_of_is in X. congruence. }
  pose proof (proj1 (section_of_is line code) S) as SI. destruct (section_is_class _ _ SI) as [d [CD _]]. cbv zeta.
  assert (U : forall t s k app, trimmed line t -> section_is line (lit s) -> In (s, Some k, app) cont_columns ->
     t = strip line /\ lit s = code /\ type_columns code = (Some k, app)).
  { intros t s k app T X I. split; [symmetry; apply trimmed_strip; exact T|]. assert (lit s = code) by (eapply section_is_unique; eauto). split; auto.
    apply type_info_iff; [apply SI|]. exists s. auto. }
  destruct (fst (type_columns code)) as [k|] eqn:TC.
  2:{ rewrite K. split; [congruence|]. intros [t [s [k [app [T [_ [X [I _]]]]]]]]. destruct (U _ _ _ _ T X I) as [_ [_ W]]. rewrite W in TC. discriminate. }
  destruct (type_columns_in code) as [_ KK]. specialize (KK k TC). assert (L : List.length (strip line) = 132) by (apply framed_length; exact F).
  destruct (isalnum (columns (strip line) [k])) eqn:A.
  - rewrite K. split; [congruence|]. intros [t [s [k' [app [T [_ [X [I NA]]]]]]]]. destruct (U _ _ _ _ T X I) as [-> [_ W]]. rewrite W in TC.
    injection TC as ->. exfalso. apply NA. apply alnum_column_iff; [lia|]. exact A.
  - rewrite CD. split; [|intros _; discriminate]. intros _. destruct SI as [SU SI']. destruct (type_columns code) as [k' app] eqn:TCE. cbn [fst] in TC. subst k'.
    destruct (proj2 (type_info_iff code (Some k) app SU) TCE) as [s [I ->]]. exists (strip line), s, k, app. split; [apply strip_trimmed|]. split; [exact F|].
    split; [apply section_of_is; exact S|]. split; [exact I|]. intro NA. apply alnum_column_iff in NA; [congruence|lia].
Qed.
Lemma c33_false : forall line o, parse line false = (o, Ok false) -> (o <> [] <-> bad_number line).
Proof.
  intros line o H. pose proof (parse_outcome line false) as P. destruct (returned (read new_record line)) as [[|]|e] eqn:R.
  - destruct P as [o' [res [A B]]]. rewrite B in H. destruct res as [rows|e]; discriminate.
  - rewrite P in H. injection H as <-. apply read_print.
  - destruct P as [P _]. rewrite P in H. discriminate.
Qed.

(* ---- C43 ---- *)
Lemma c43 : forall r output, reachable r ->
  (snd (decode r output) = Err SystemExit <->
   exists pre f post, fields r = pre ++ f :: post /\ Forall decodes pre /\ exits (f_fn f) (f_value f)).
Proof.
  intros r output H. destruct (decode_outcome_rec r (reachable_wide r H)) as [o [res [A B]]]. rewrite (B output). cbn [snd]. split.
  - intros ->. inversion A; subst. eauto 6.
  - intros [pre [f [post [E [P X]]]]]. rewrite E in A. apply (rows_first_exit _ _ _ _ _ _ A P X).
Qed.
Lemma c43_message : forall r output pre f post, reachable r -> fields r = pre ++ f :: post -> Forall decodes pre -> exits (f_fn f) (f_value f) ->
  exists o1 o2, decode r output = (o1 ++ o2, Err SystemExit) /\ (o1 <> [] <-> Exists chatty pre) /\ exit_message (view r) f o2.
Proof.
  intros r output pre f post H E P X. destruct (decode_outcome_rec r (reachable_wide r H)) as [o [res [A B]]]. rewrite (B output). rewrite E in A.
  destruct (rows_first_exit _ _ _ _ _ _ A P X) as [-> [o1 [o2 [-> C]]]]. exists o1, o2. rewrite List.app_nil_r. auto.
Qed.

(* ---- C44 ---- *)
Lemma refuses_in : forall f v, refuses f v -> In f refusing.
Proof. intros f v H. unfold refusing. destruct f; first [exact (False_ind _ H) | cbn [In]; tauto]. Qed.
Lemma c44_exact : forall f v r, width f <= List.length v ->
  (snd (run_fn f v r) = Err ValueError <-> refuses f v) /\ (snd (run_fn f v r) = Err SystemExit <-> exits f v) /\
  snd (run_fn f v r) <> Err IndexError /\ snd (run_fn f v r) <> Err OSError.
Proof.
  intros f v r W. destruct (outcome_all f v r W) as [[A [B C]]|[[A [B [o C]]]|[A [B [o [d [C _]]]]]]]; rewrite C; cbn [snd];
    (split; [split; [congruence || discriminate || tauto|congruence || discriminate || tauto]|]);
    (split; [split; [congruence || discriminate || tauto|congruence || discriminate || tauto]|]); split; discriminate.
Qed.
Lemma ascii_numeric : forall c, (c < 128)%N -> numeric_char c = true -> decimal_char c.
Proof.
  intros c L N.
  assert (K : forallb (fun n => implb (numeric_char (N.of_nat n)) (match decimal_val (N.of_nat n) with Some _ => true | None => false end)) (seq 0 128) = true) by (vm_compute; reflexivity).
  rewrite forallb_forall in K. specialize (K (N.to_nat c)). rewrite N2Nat.id in K. rewrite N in K. cbn [implb] in K.
  unfold decimal_char. destruct (decimal_val c); [discriminate|]. assert (false = true); [|discriminate]. apply K. apply in_seq. lia.
Qed.
Lemma c44_ascii : forall f v, In f [F034; F045; F062; F103; F135] -> Forall (fun c => (c < 128)%N) v -> ~ refuses f v.
Proof.
  intros f v I A H.
  assert (G : forall t, Forall (fun c => (c < 128)%N) t -> t <> [] -> all_numeric t -> decimal_string t).
  { intros t T NE N. split; auto. unfold all_numeric in N. rewrite Forall_forall in *. intros c C. apply ascii_numeric; auto. }
  cbn [In] in I. destruct I as [<-|[<-|[<-|[<-|[<-|[]]]]]]; cbn [refuses] in H.
  - destruct (trim_of v) as [t [T _]]. destruct (H t T) as [NE [N ND]]. apply ND. apply G; auto. destruct T as [_ [_ [pre [post [_ [_ ->]]]]]].
    apply Forall_app in A as [_ A]. apply Forall_app in A as [A _]. exact A.
  - destruct H as [NE [N ND]]. auto.
  - destruct H as [NE [N ND]]. auto.
  - destruct H as [NE [N ND]]. auto.
  - destruct H as [NE [N ND]]. auto.
Qed.

(* ---- C48 ---- *)
Definition cycle_cell (c : cell) : bool := implb (fn_eqb (c_fn c) F032) (list_eqb Nat.eqb (c_cols c) [129; 130; 131; 132]).
Definition cycle_cells (cs : list cell) : bool := forallb cycle_cell cs.
Lemma cycle_cells_all : forallb (fun e => cycle_cells (e_cells e)) catalogue = true.
Proof. vm_compute. reflexivity. Qed.
Lemma c48_ascii : forall r line t o r' f rv, record_line line t -> Forall (fun c => (c < 128)%N) t -> read r line = (o, r', Ok true) ->
  In f (fields r') -> f_fn f = F032 -> exists text, shows F032 (f_value f) rv text.
Proof.
  intros r line t o r' f rv RL A R I FN. destruct (c06 _ _ _ _ _ RL R) as [cells [cont [app [LF [_ [E _]]]]]]. rewrite E in I.
  apply in_map_iff in I as [c [<- C]]. pose proof (layout_for_cells cycle_cells _ _ _ _ cycle_cells_all LF) as K.
  unfold cycle_cells in K. rewrite forallb_forall in K. specialize (K c C). unfold cycle_cell in K. cbn [field_of f_fn] in FN. rewrite FN in K.
  cbn in K. apply list_eqb_nat in K. cbn [field_of f_value]. rewrite K. destruct RL as [[L [_ N]] _].
  assert (D : forall k, 124 <= k <= 132 -> exists c, columns t [k] = [c] /\ decimal_char c).
  { intros k Hk. destruct (N k Hk) as [x [X Y]]. exists x. unfold columns. cbn [flat_map]. rewrite X. split; auto.
    apply ascii_numeric; auto. rewrite Forall_forall in A. apply A. destruct k; [discriminate|]. cbn [column] in X. eapply nth_error_In; eauto. }
  destruct (D 129) as [a [Ca Da]]; [lia|]. destruct (D 130) as [b [Cb Db]]; [lia|].
  assert (S : columns t [129; 130; 131; 132] = [a; b] ++ columns t [131; 132]).
  { change (columns t [129; 130; 131; 132]) with (columns t [129] ++ columns t [130] ++ columns t [131; 132]) || idtac.
    change [129; 130; 131; 132] with ([129] ++ [130] ++ [131; 132]). unfold columns. rewrite !flat_map_app. fold (columns t [129]) (columns t [130]).
    rewrite Ca, Cb. reflexivity. }
  rewrite S. apply c16_fails. left. split; auto.
Qed.
