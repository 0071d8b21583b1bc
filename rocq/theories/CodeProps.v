(* Lemmas behind C24-C27 and C50-C52: decoders driven by code lists. *)
From Coq Require Import List String NArith ZArith Bool Arith Lia.
From Verif Require Import PyBase DecoderTables Decoder Record Spec StrFacts FnNum ReadProps3 SpecNum SpecCodes SpecDecode NumProps.
Import ListNotations.
Open Scope string_scope.
Open Scope list_scope.
Local Open Scope nat_scope.

Definition lits (codes : list (string * string)) : list (str * str) := map (fun p => (lit (fst p), lit (snd p))) codes.
Lemma assoc_lits_none : forall codes v, ~ listed codes v <-> assoc v (lits codes) = None.
Proof.
  intros codes v. rewrite assoc_none. unfold lits. rewrite map_map. cbn [fst]. unfold listed. split.
  - intros H I. apply in_map_iff in I as [[a b] [E I]]. apply H. exists a, b. split; auto.
  - intros H [a [b [I ->]]]. apply H. apply in_map_iff. exists (a, b). auto.
Qed.
Fixpoint nodup_keys (codes : list (string * string)) : bool :=
  match codes with [] => true | (a, _) :: l => forallb (fun p => negb (String.eqb a (fst p))) l && nodup_keys l end.
Lemma assoc_lits : forall codes a b, nodup_keys codes = true -> In (a, b) codes -> assoc (lit a) (lits codes) = Some (lit b).
Proof.
  induction codes as [|[x y] l IH]; intros a b N I; [contradiction|]. cbn [nodup_keys] in N. apply andb_true_iff in N as [N1 N2].
  unfold lits. cbn [map assoc fst snd]. destruct I as [I|I].
  - injection I as -> ->. rewrite str_eqb_refl. reflexivity.
  - destruct (str_eqb (lit a) (lit x)) eqn:E; [|apply IH; auto]. apply str_eqb_eq in E. apply lit_inj in E. subst x.
    rewrite forallb_forall in N1. specialize (N1 _ I). cbn [fst] in N1. rewrite String.eqb_refl in N1. discriminate.
Qed.

Definition code_run (cf : code_field) (v : str) : M dval :=
  if cf_blank cf && blank v then ret (DStr v)
  else match assoc v (lits (cf_codes cf)) with
       | Some t => ret (DStr t)
       | None => match cf_other cf with
                 | Itself => ret (DStr v)
                 | Unknown => ret (DStr (lit "<UNKNOWN>"))
                 | Between a b => ret (DStr (lit a ++ v ++ lit b))
                 | Refused => raise ValueError
                 end
       end.
Lemma lookup_bad_eq : forall d suf v, forallb (fun p => negb (str_eqb (snd p) (lit "bad value"))) d = true -> lookup_bad d suf v = lookup d v.
Proof.
  intros d suf v H. unfold lookup_bad. destruct (str_eqb (lookup d v) (lit "bad value")) eqn:E; [|reflexivity].
  exfalso. apply str_eqb_eq in E. unfold lookup in E. destruct (assoc v d) eqn:A.
  - apply assoc_in in A. rewrite forallb_forall in H. specialize (H _ A). cbn [snd] in H. subst s. rewrite str_eqb_refl in H. discriminate.
  - vm_compute in E. discriminate.
Qed.
Lemma code_run_eq : forall cf v r, In cf code_fields -> run_fn (cf_fn cf) v r = code_run cf v.
Proof.
  intros cf v r H. unfold code_fields in H. cbn [In] in H.
  repeat match goal with H : _ \/ _ |- _ => destruct H as [<-|H] end; try contradiction;
  unfold code_run; cbn [cf_fn cf_codes cf_blank cf_other andb]; unfold run_fn.
  - unfold field_002, codes_002, lits. cbn [map assoc fst snd]. destruct (str_eqb v (lit "S")), (str_eqb v (lit "T")); reflexivity.
  - change (lits codes_003) with tbl_003. reflexivity.
  - change (lits codes_004) with tbl_004. unfold field_004, lookup. destruct (blank v), (assoc v tbl_004); reflexivity.
  - change (lits codes_016) with tbl_016. reflexivity.
  - unfold field_020, codes_020, lits. cbn [map assoc fst snd].
    destruct (str_eqb v (lit "R")), (str_eqb v (lit "L")), (str_eqb v (lit "E")), (str_eqb v (lit " ")); reflexivity.
  - change (lits codes_049) with tbl_049. reflexivity.
  - change (lits codes_091) with tbl_091. unfold field_091. rewrite List.app_nil_r. reflexivity.
  - change (lits codes_101) with tbl_101. unfold field_101. rewrite lookup_bad_eq by (vm_compute; reflexivity).
    unfold lookup. destruct (assoc v tbl_101); reflexivity.
  - change (lits codes_102) with tbl_102. reflexivity.
  - change (lits codes_104) with tbl_104. unfold field_104. rewrite lookup_bad_eq by (vm_compute; reflexivity).
    unfold lookup. destruct (assoc v tbl_104); reflexivity.
  - change (lits codes_106) with tbl_106. unfold field_106, lookup. destruct (blank v), (assoc v tbl_106); reflexivity.
  - change (lits codes_108) with tbl_108. reflexivity.
  - change (lits codes_112) with tbl_112. reflexivity.
  - change (lits codes_113) with tbl_113. reflexivity.
  - unfold field_117, codes_117, lits. cbn [map assoc fst snd].
    destruct (str_eqb v (lit "F")), (str_eqb v (lit "U")), (str_eqb v (lit "B")); reflexivity.
  - unfold field_165, codes_165, lits. cbn [map assoc fst snd]. destruct (str_eqb v (lit "M")), (str_eqb v (lit "T")); reflexivity.
  - change (lits codes_177) with tbl_177. reflexivity.
  - change (lits codes_179) with tbl_179. reflexivity.
  - change (lits codes_181) with tbl_181. unfold field_181. rewrite lookup_bad_eq by (vm_compute; reflexivity).
    unfold lookup. destruct (assoc v tbl_181); reflexivity.
  - change (lits codes_182) with tbl_182. reflexivity.
  - change (lits codes_198) with tbl_198. unfold field_198. rewrite lookup_bad_eq by (vm_compute; reflexivity).
    unfold lookup. destruct (assoc v tbl_198); reflexivity.
  - change (lits codes_199) with tbl_199. unfold field_199. rewrite lookup_bad_eq by (vm_compute; reflexivity).
    unfold lookup. destruct (blank v), (assoc v tbl_199); reflexivity.
  - change (lits (codes_270 ++ [(" ", " ")])) with (tbl_270 ++ [(lit " ", lit " ")]). unfold field_270.
    unfold tbl_270. cbn [app assoc]. repeat (match goal with |- context [str_eqb v ?x] => destruct (str_eqb v x) eqn:? end; [|]); try reflexivity.
    match goal with H : str_eqb v (lit " ") = true |- _ => apply str_eqb_eq in H; subst v end. reflexivity.
Qed.
Lemma code_fields_ok : forallb (fun cf => nodup_keys (cf_codes cf) &&
  forallb (fun p => negb (cf_blank cf && blank (lit (fst p)))) (cf_codes cf)) code_fields = true.
Proof. vm_compute. reflexivity. Qed.
Lemma c25_listed : forall cf code text r, In cf code_fields -> In (code, text) (cf_codes cf) -> shows (cf_fn cf) (lit code) r (lit text).
Proof.
  intros cf code text r H I. unfold shows. rewrite code_run_eq by auto. unfold code_run.
  pose proof code_fields_ok as K. rewrite forallb_forall in K. specialize (K _ H). apply andb_true_iff in K as [K1 K2].
  rewrite forallb_forall in K2. specialize (K2 _ I). cbn [fst] in K2. apply negb_true_iff in K2. rewrite K2.
  rewrite (assoc_lits _ _ _ K1 I). reflexivity.
Qed.
Lemma c25_blank : forall cf v r, In cf code_fields -> cf_blank cf = true -> whitespace v -> shows (cf_fn cf) v r v.
Proof.
  intros cf v r H B W. unfold shows. rewrite code_run_eq by auto. unfold code_run. rewrite B, (proj2 (blank_iff v) W). reflexivity.
Qed.
Lemma c25_other : forall cf v r, In cf code_fields -> ~ listed (cf_codes cf) v -> (cf_blank cf = true -> ~ whitespace v) ->
  match cf_other cf with
  | Itself => shows (cf_fn cf) v r v
  | Unknown => shows (cf_fn cf) v r (lit "<UNKNOWN>")
  | Between a b => shows (cf_fn cf) v r (lit a ++ v ++ lit b)
  | Refused => fails (cf_fn cf) v r ValueError
  end.
Proof.
  intros cf v r H N B. unfold shows, fails. rewrite code_run_eq by auto. unfold code_run.
  assert (E : cf_blank cf && blank v = false).
  { destruct (cf_blank cf); [|reflexivity]. destruct (blank v) eqn:X; [|reflexivity]. apply blank_iff in X. exfalso. apply B; auto. }
  rewrite E. rewrite (proj1 (assoc_lits_none _ _) N). destruct (cf_other cf); reflexivity.
Qed.

(* ---- route type ---- *)
Lemma c27_listed : forall secs codes s code text raw, In (secs, codes) route_types -> In s secs -> In (code, text) codes ->
  shows F007 (lit code) (RecView (lit s) raw) (lit text).
Proof.
  intros secs codes s code text raw H S I.
  assert (K : nodup_keys codes = true).
  { pose proof (eq_refl : forallb (fun p => nodup_keys (snd p)) route_types = true) as K. rewrite forallb_forall in K. apply (K _ H). }
  pose proof (assoc_lits _ _ _ K I) as A. unfold route_types in H. cbn [In] in H. unfold shows, run_fn, field_007.
  repeat match goal with H : _ \/ _ |- _ => destruct H as [H|H] end; try contradiction; injection H as <- <-; cbn [In] in S;
  repeat match goal with H : _ \/ _ |- _ => destruct H as [<-|H] end; try contradiction; cbn [rv_ident];
  match goal with |- context [str_eqb (lit ?s) _] => idtac end;
  rewrite lookup_bad_eq by (vm_compute; reflexivity); unfold lookup;
  match type of A with assoc _ (lits ?c) = _ =>
    match goal with |- context [assoc _ ?d] => change d with (lits c) end end; rewrite A; reflexivity.
Qed.
Definition route_table (id : str) : list (str * str) :=
  match find (fun p => existsb (fun s => str_eqb (lit s) id) (fst p)) route_types with Some p => lits (snd p) | None => [] end.
Lemma route_run : forall v r, run_fn F007 v r = ret (DStr (lookup (route_table (rv_ident r)) v)).
Proof.
  intros v r. unfold run_fn, field_007. cbv zeta.
  match goal with |- context [lookup_bad ?d _ _] => set (d0 := d) end.
  assert (E : d0 = route_table (rv_ident r)).
  { unfold d0, route_table, route_types. cbn [find fst snd existsb orb].
    rewrite !(str_eqb_sym (rv_ident r)). rewrite !orb_false_r.
    repeat match goal with |- context [str_eqb ?x (rv_ident r)] => destruct (str_eqb x (rv_ident r)); cbn [orb]; [vm_compute; reflexivity|] end.
    reflexivity. }
  rewrite E. rewrite lookup_bad_eq; [reflexivity|]. rewrite <- E. unfold d0.
  repeat match goal with |- context [if ?b then _ else _] => destruct b; [vm_compute; reflexivity|] end. vm_compute. reflexivity.
Qed.
Lemma c27_no_table : forall v id raw, (forall secs codes s, In (secs, codes) route_types -> In s secs -> id <> lit s) ->
  shows F007 v (RecView id raw) (lit "<UNKNOWN>").
Proof.
  intros v id raw H. unfold shows. rewrite route_run. cbn [rv_ident].
  assert (E : route_table id = []).
  { unfold route_table. destruct (find _ route_types) as [[secs codes]|] eqn:F; [|reflexivity].
    apply find_some in F as [I F]. cbn [fst] in F. apply existsb_exists in F as [s [S F]]. apply str_eqb_eq in F. subst id.
    exfalso. eapply H; eauto. }
  rewrite E. reflexivity.
Qed.
Lemma c27_other : forall secs codes s v raw, In (secs, codes) route_types -> In s secs -> ~ listed codes v ->
  shows F007 v (RecView (lit s) raw) (lit "<UNKNOWN>").
Proof.
  intros secs codes s v raw H S N. unfold shows. rewrite route_run. cbn [rv_ident].
  assert (E : route_table (lit s) = lits codes).
  { unfold route_types in H. cbn [In] in H.
    repeat match goal with H : _ \/ _ |- _ => destruct H as [H|H] end; try contradiction; injection H as <- <-; cbn [In] in S;
    repeat match goal with H : _ \/ _ |- _ => destruct H as [<-|H] end; try contradiction; vm_compute; reflexivity. }
  rewrite E. unfold lookup. rewrite (proj1 (assoc_lits_none _ _) N). reflexivity.
Qed.
Lemma c27_ident_only : forall v r r', rv_ident r = rv_ident r' -> run_fn F007 v r = run_fn F007 v r'.
Proof. intros v r r' H. rewrite !route_run, H. reflexivity. Qed.

(* ---- waypoint description ---- *)
Lemma meaning_assoc : forall codes c texts, nodup_keys codes = true -> meaning codes c texts ->
  match assoc [c] (lits codes) with Some t => texts = [t] | None => texts = [] end.
Proof.
  intros codes c texts K [[code [text [I [E ->]]]]|[N ->]].
  - rewrite E, (assoc_lits _ _ _ K I). reflexivity.
  - rewrite (proj1 (assoc_lits_none _ _) N). reflexivity.
Qed.
Lemma meaning_total : forall codes c, exists texts, meaning codes c texts.
Proof.
  intros codes c. destruct (assoc [c] (lits codes)) eqn:E.
  - apply assoc_in in E. unfold lits in E. apply in_map_iff in E as [[a b] [E I]]. cbn [fst snd] in E. injection E as E1 E2.
    exists [lit b]. left. exists a, b. auto.
  - exists []. right. split; auto. apply assoc_lits_none. exact E.
Qed.
(* a text with characters other than whitespace at both ends *)
Definition solid (t : str) : bool :=
  match t with c :: _ => negb (space_char c) && negb (space_char (last t 32%N)) | [] => false end.
Lemma solid_ends : forall t, solid t = true -> t <> [] /\ no_leading_space t /\ no_trailing_space t.
Proof.
  intros t H. destruct t as [|c t]; [discriminate|]. unfold solid in H. apply andb_true_iff in H as [A B]. apply negb_true_iff in A, B.
  split; [discriminate|]. split.
  - intros d D. injection D as <-. exact A.
  - intros d D. destruct (@exists_last N (c :: t) ltac:(discriminate)) as [l [x E]]. rewrite E in *.
    rewrite last_last in B. rewrite app_length in D. cbn [List.length] in D. rewrite Nat.add_1_r in D.
    unfold column in D. rewrite nth_error_app2, Nat.sub_diag in D by apply Nat.le_refl. injection D as <-. exact B.
Qed.
Lemma solid_intro : forall t, t <> [] -> no_leading_space t -> no_trailing_space t -> solid t = true.
Proof.
  intros t NE A B. destruct t as [|c t]; [congruence|]. unfold solid.
  rewrite (A c eq_refl). destruct (@exists_last N (c :: t) NE) as [l [x E]]. rewrite E in *. rewrite last_last.
  rewrite (B x); [reflexivity|]. rewrite app_length. cbn [List.length]. rewrite Nat.add_1_r. unfold column.
  rewrite nth_error_app2, Nat.sub_diag by apply Nat.le_refl. reflexivity.
Qed.
Lemma last_app : forall (a b : str) d, b <> [] -> last (a ++ b) d = last b d.
Proof. intros a b d NE. destruct (exists_last NE) as [l [x ->]]. rewrite List.app_assoc, !last_last. reflexivity. Qed.
Lemma solid_join : forall a b c, solid a = true -> solid b = true -> solid (a ++ c ++ b) = true.
Proof.
  intros a b c A B. destruct a as [|x a]; [discriminate|]. destruct b as [|y b]; [discriminate|]. unfold solid in *. cbn [app].
  apply andb_true_iff in A as [A _]. apply andb_true_iff in B as [_ B]. rewrite A. cbn [andb].
  change (x :: a ++ c ++ y :: b) with ((x :: a) ++ c ++ y :: b). rewrite List.app_assoc, last_app by discriminate. exact B.
Qed.
Lemma lines_solid : forall t ts, Forall (fun t => solid t = true) (t :: ts) -> solid (one_per_line (t :: ts)) = true.
Proof.
  intros t ts. revert t. induction ts as [|u ts IH]; intros t H; inversion H; subst; [assumption|].
  change (one_per_line (t :: u :: ts)) with (t ++ [10%N] ++ one_per_line (u :: ts)). apply solid_join; auto.
Qed.
Lemma concat_lines : forall t ts, List.concat (map (fun t => t ++ [10%N]) (t :: ts)) = one_per_line (t :: ts) ++ [10%N].
Proof.
  intros t ts. revert t. induction ts as [|u ts IH]; intro t; [cbn; rewrite List.app_nil_r; reflexivity|].
  change (one_per_line (t :: u :: ts)) with (t ++ [10%N] ++ one_per_line (u :: ts)).
  change (List.concat (map (fun t0 : list N => t0 ++ [10%N]) (t :: u :: ts))) with ((t ++ [10%N]) ++ List.concat (map (fun t => t ++ [10%N]) (u :: ts))).
  rewrite IH, <- !List.app_assoc. reflexivity.
Qed.
Lemma desc_lines : forall ts, Forall (fun t => solid t = true) ts -> strip (List.concat (map (fun t => t ++ [10%N]) ts)) = one_per_line ts.
Proof.
  intros [|t ts] H; [reflexivity|]. rewrite concat_lines. apply lines_solid in H. apply solid_ends in H as [_ [A B]].
  apply trimmed_strip. split; [exact A|]. split; [exact B|]. exists [], [10%N]. repeat split; constructor; [reflexivity|constructor].
Qed.
Definition solid_codes (codes : list (string * string)) : bool := forallb (fun p => solid (lit (snd p))) codes.
Lemma solid_meaning : forall codes c texts, solid_codes codes = true -> meaning codes c texts -> Forall (fun t => solid t = true) texts.
Proof.
  intros codes c texts K [[code [text [I [_ ->]]]]|[_ ->]]; [|constructor].
  constructor; [|constructor]. apply (proj1 (forallb_forall _ _) K (code, text) I).
Qed.
Definition nl (codes : list (string * string)) : list (str * str) := map (fun p => (lit (fst p), lit (snd p) ++ [10%N])) codes.
Lemma tbl_017_0_eq : tbl_017_0 = nl codes_017_1. Proof. vm_compute. reflexivity. Qed.
Lemma tbl_017_1_eq : tbl_017_1 = nl codes_017_2. Proof. vm_compute. reflexivity. Qed.
Lemma tbl_017_2_eq : tbl_017_2 = nl codes_017_3. Proof. vm_compute. reflexivity. Qed.
Lemma tbl_017_3_eq : tbl_017_3 = nl codes_017_4. Proof. vm_compute. reflexivity. Qed.
Lemma desc_part_eq : forall codes c texts, nodup_keys codes = true -> meaning codes c texts ->
  desc_part (nl codes) [c] = List.concat (map (fun t => t ++ [10%N]) texts).
Proof.
  intros codes c texts K M. apply meaning_assoc in M; auto. unfold desc_part.
  assert (E : assoc [c] (nl codes) = option_map (fun t => t ++ [10%N]) (assoc [c] (lits codes))).
  { clear. induction codes as [|[a b] l IH]; [reflexivity|]. unfold nl, lits in *. cbn [map assoc fst snd].
    destruct (str_eqb [c] (lit a)); [reflexivity|exact IH]. }
  rewrite E. destruct (assoc [c] (lits codes)); subst texts; cbn [option_map map List.concat]; [rewrite List.app_nil_r|]; reflexivity.
Qed.
Lemma c24 : forall a b c d rest r t1 t2 t3 t4,
  meaning codes_017_1 a t1 -> meaning codes_017_2 b t2 -> meaning codes_017_3 c t3 -> meaning codes_017_4 d t4 ->
  shows F017 (a :: b :: c :: d :: rest) r (one_per_line (t1 ++ t2 ++ t3 ++ t4)).
Proof.
  intros a b c d rest r t1 t2 t3 t4 A B C D. unfold shows, run_fn, field_017, index. cbn [nth_error lift bind].
  rewrite tbl_017_0_eq, tbl_017_1_eq, tbl_017_2_eq, tbl_017_3_eq.
  rewrite (desc_part_eq codes_017_1 a t1), (desc_part_eq codes_017_2 b t2), (desc_part_eq codes_017_3 c t3), (desc_part_eq codes_017_4 d t4) by (auto; reflexivity).
  rewrite <- !concat_app, <- !map_app.
  rewrite desc_lines; [reflexivity|]. rewrite !Forall_app.
  repeat match goal with |- _ /\ _ => split end; eapply solid_meaning; eauto; reflexivity.
Qed.

(* ---- two-column codes ---- *)
Lemma c50_name : forall a b rest r t1 t2, meaning codes_196_1 a t1 -> meaning codes_196_2 b t2 ->
  shows F196 (a :: b :: rest) r (first_of (t1 ++ t2) "Unknown Name Format Indicator").
Proof.
  intros a b rest r t1 t2 A B. apply meaning_assoc in A; [|reflexivity]. apply meaning_assoc in B; [|reflexivity].
  unfold shows, run_fn, field_196, index. cbn [nth_error lift bind].
  change tbl_196_0 with (lits codes_196_1). change tbl_196_1 with (lits codes_196_2).
  destruct (assoc [a] (lits codes_196_1)); subst t1; [reflexivity|].
  destruct (assoc [b] (lits codes_196_2)); subst t2; reflexivity.
Qed.
Lemma c50_type : forall a b rest r t1 t2, [a] <> lit "N" -> meaning codes_042_1 a t1 -> meaning codes_042_2 b t2 ->
  shows F042 (a :: b :: rest) r (first_of (t1 ++ t2) "Unknown Waypoint Type").
Proof.
  intros a b rest r t1 t2 N A B. apply meaning_assoc in A; [|reflexivity]. apply meaning_assoc in B; [|reflexivity].
  unfold shows, run_fn, field_042, index. cbn [nth_error lift bind]. rewrite (proj2 (str_eqb_neq _ _) N).
  change tbl_042_0 with (lits codes_042_1). change tbl_042_1 with (lits codes_042_2).
  destruct (assoc [a] (lits codes_042_1)); subst t1; [reflexivity|].
  destruct (assoc [b] (lits codes_042_2)); subst t2; reflexivity.
Qed.
Lemma c50_ndb : forall rest r, shows F042 (lit "N" ++ rest) r (lit "NDB Navaid as Waypoint" ++ rest).
Proof. reflexivity. Qed.
Lemma c50_via : forall a b rest r text, meaning codes_118_1 a [text] ->
  shows F118 (a :: b :: rest) r (text ++ (if N.eqb b 69 then lit ", End of description, return to origin point" else [])).
Proof.
  intros a b rest r text A. apply meaning_assoc in A; [|reflexivity]. unfold shows, run_fn, field_118, index. cbn [nth_error lift bind].
  change tbl_118 with (lits codes_118_1). destruct (assoc [a] (lits codes_118_1)); [|discriminate]. injection A as ->.
  change (lit "E") with [69%N]. cbn [str_eqb]. rewrite andb_true_r. destruct (b =? 69)%N; [reflexivity|]. rewrite List.app_nil_r. reflexivity.
Qed.
Lemma c50_via_other : forall a rest r, ~ listed codes_118_1 [a] ->
  run_fn F118 (a :: rest) r = ([EvPrint (lit "Unsupported Boundary Via: """ ++ (a :: rest) ++ lit """")],
    Ok (DStr (lit "Unsupported Value: """ ++ (a :: rest) ++ lit """"))).
Proof.
  intros a rest r N. unfold run_fn, field_118, index. cbn [nth_error lift bind]. change tbl_118 with (lits codes_118_1).
  rewrite (proj1 (assoc_lits_none _ _) N). reflexivity.
Qed.
Lemma c50_usage : forall a b rest r t2, meaning usage_codes b t2 ->
  match t2 with
  | [text] => shows F082 (a :: b :: rest) r text
  | _ => if N.eqb a 82 then shows F082 (a :: b :: rest) r (lit "RNAV") else fails F082 (a :: b :: rest) r ValueError
  end.
Proof.
  intros a b rest r t2 B. apply meaning_assoc in B; [|reflexivity]. unfold shows, fails, run_fn, field_082, index. cbn [nth_error lift bind].
  unfold lits, usage_codes in B. cbn [map fst snd assoc] in B.
  destruct (str_eqb [b] (lit "B")); [subst; reflexivity|]. destruct (str_eqb [b] (lit "H")); [subst; reflexivity|].
  destruct (str_eqb [b] (lit "L")); [subst; reflexivity|]. destruct (str_eqb [b] (lit " ")); subst t2; [reflexivity|].
  change (lit "R") with [82%N]. cbn [str_eqb]. rewrite andb_true_r. destruct (a =? 82)%N; reflexivity.
Qed.

(* ---- fields shown as they stand ---- *)
Lemma c51_as_is : forall f v r, In f shown_as_is -> shows f v r v.
Proof.
  intros f v r H. assert (K : Forall (fun g => run_fn g v r = ret (DStr v)) shown_as_is) by (unfold shown_as_is; repeat constructor).
  rewrite Forall_forall in K. apply K. exact H.
Qed.

(* ---- identifiers ---- *)
Lemma alnum_trimmed : forall t, isalnum t = true <-> t <> [] /\ Forall (fun c => alnum_char c = true) t.
Proof. intro t. apply all_nonempty_iff. Qed.
Lemma alpha_trimmed : forall t, isalpha t = true <-> t <> [] /\ Forall (fun c => alpha_char c = true) t.
Proof. intro t. apply all_nonempty_iff. Qed.
Lemma c52_route : forall v t r, trimmed v t ->
  (t <> [] /\ Forall (fun c => alnum_char c = true) t -> shows F008 v r v /\ shows F009 v r v) /\
  (~ (t <> [] /\ Forall (fun c => alnum_char c = true) t) -> fails F008 v r ValueError /\ run_fn F009 v r = ([], Ok DNone)).
Proof.
  intros v t r T. apply trimmed_iff in T. unfold shows, fails, run_fn, field_008, field_009. rewrite T.
  rewrite <- alnum_trimmed. destruct (isalnum t); split; intro H; try (split; reflexivity); congruence.
Qed.
Lemma c52_approach : forall a v r, shows F010 (a :: v) r (lit "Approach: " ++ [a] ++ lit ", Runway: " ++ columns (a :: v) [2; 3; 4]).
Proof.
  intros a v r. unfold shows, run_fn, field_010, index. cbn [nth_error lift bind]. rewrite (slice_columns (a :: v) 3 1 : slice 1 4 (a :: v) = columns (a :: v) [2; 3; 4]). reflexivity.
Qed.
Lemma c52_sequence : forall v t r, trimmed v t ->
  (forall k s, In (k, s) sequence_texts -> List.length t = k -> shows F012 v r (lit s ++ lit " - Sequence No. " ++ v)) /\
  ((forall k s, In (k, s) sequence_texts -> List.length t <> k) -> shows F012 v r v).
Proof.
  intros v t r T. apply trimmed_iff in T. unfold shows, run_fn, field_012. rewrite T. split.
  - intros k s H L. rewrite L. unfold sequence_texts in H. cbn [In] in H.
    repeat match goal with H : _ \/ _ |- _ => destruct H as [H|H] end; try contradiction; injection H as <- <-; reflexivity.
  - intro H. unfold sequence_texts in H. destruct (List.length t) as [|[|[|[|[|n]]]]]; try reflexivity; exfalso;
      (eapply H; [|reflexivity]); cbn [In]; [left; reflexivity|right; left; reflexivity|right; right; left; reflexivity|right; right; right; left; reflexivity].
Qed.
Lemma c52_leg : forall v t r, trimmed v t ->
  (t = [] -> shows F021 v r []) /\
  (t <> [] -> Exists (fun c => alpha_char c = false) t -> fails F021 v r ValueError) /\
  (forall code text, In (code, text) codes_021 -> t = lit code -> shows F021 v r (lit text)) /\
  (t <> [] -> Forall (fun c => alpha_char c = true) t -> ~ listed codes_021 t -> shows F021 v r (lit "<UNKNOWN>")).
Proof.
  intros v t r T. apply trimmed_iff in T. unfold shows, fails, run_fn, field_021. cbv zeta. rewrite T. split; [|split; [|split]].
  - intros ->. reflexivity.
  - intros NE X. destruct t as [|c t]; [congruence|]. cbn [List.length Nat.eqb].
    destruct (isalpha (c :: t)) eqn:A; [|reflexivity]. apply alpha_trimmed in A as [_ A].
    apply Exists_exists in X as [x [I X]]. rewrite Forall_forall in A. rewrite (A x I) in X. discriminate.
  - intros code text I ->.
    assert (K : forallb (fun p => negb (Nat.eqb (List.length (lit (fst p))) 0) && isalpha (lit (fst p))) codes_021 = true) by (vm_compute; reflexivity).
    rewrite forallb_forall in K. specialize (K _ I). cbn [fst] in K. apply andb_true_iff in K as [K1 K2]. apply negb_true_iff in K1. rewrite K1, K2.
    cbn [negb]. unfold lookup. change tbl_LegTypeDesc with (lits codes_021). rewrite (assoc_lits codes_021 code text eq_refl I). reflexivity.
  - intros NE A N. destruct t as [|c t]; [congruence|]. cbn [List.length Nat.eqb]. rewrite (proj2 (alpha_trimmed (c :: t))) by auto. cbn [negb].
    unfold lookup. change tbl_LegTypeDesc with (lits codes_021). rewrite (proj1 (assoc_lits_none _ _) N). reflexivity.
Qed.
Lemma c52_tdv : forall v t r, trimmed v t ->
  (Forall (fun c => alpha_char c = true) t -> shows F022 v r t) /\
  (Exists (fun c => alpha_char c = false) t -> fails F022 v r ValueError).
Proof.
  intros v t r T. apply trimmed_iff in T. unfold shows, fails, run_fn, field_022. cbv zeta. rewrite T. split.
  - intro A. destruct t as [|c t]; [reflexivity|]. rewrite (proj2 (alpha_trimmed (c :: t))) by (split; [discriminate|exact A]). rewrite andb_false_r. reflexivity.
  - intro X. destruct t as [|c t]; [inversion X|]. destruct (isalpha (c :: t)) eqn:A; [|reflexivity]. apply alpha_trimmed in A as [_ A].
    apply Exists_exists in X as [x [I X]]. rewrite Forall_forall in A. rewrite (A x I) in X. discriminate.
Qed.
Lemma c52_navaid : forall f v t r, In f [F023; F024; F025] -> trimmed v t ->
  (Forall (fun c => alnum_char c = true) t -> List.length t <= 4 -> shows f v r t) /\
  (Exists (fun c => alnum_char c = false) t \/ 4 < List.length t -> fails f v r ValueError).
Proof.
  intros f v t r F T. apply trimmed_iff in T.
  assert (E : run_fn f v r = alnum4 v).
  { cbn [In] in F. repeat match goal with H : _ \/ _ |- _ => destruct H as [<-|H] end; try contradiction; reflexivity. }
  unfold shows, fails. rewrite E. unfold alnum4. cbv zeta. rewrite T. split.
  - intros A L. destruct t as [|c t]; [reflexivity|]. rewrite (proj2 (alnum_trimmed (c :: t))) by (split; [discriminate|exact A]).
    rewrite (proj2 (Nat.ltb_ge 4 _)) by exact L. rewrite andb_false_r. reflexivity.
  - intros [X|L].
    + destruct t as [|c t]; [inversion X|]. destruct (isalnum (c :: t)) eqn:A; [|reflexivity]. apply alnum_trimmed in A as [_ A].
      apply Exists_exists in X as [x [I X]]. rewrite Forall_forall in A. rewrite (A x I) in X. discriminate.
    + rewrite (proj2 (Nat.ltb_lt 4 _)) by exact L. rewrite orb_true_r. destruct t; [simpl in L; lia|reflexivity].
Qed.
Lemma c52_name : forall v t r, trimmed v t -> shows F043 v r t.
Proof. intros v t r T. apply trimmed_iff in T. unfold shows, run_fn, field_043. rewrite T. reflexivity. Qed.
Lemma c52_speed : forall v r,
  (v <> [] -> Forall (fun c => numeric_char c = true) v -> shows F072 v r (v ++ lit " knots (IAS)")) /\
  (whitespace v -> shows F072 v r v) /\
  (Exists (fun c => numeric_char c = false) v -> ~ whitespace v -> fails F072 v r ValueError).
Proof.
  intros v r. unfold shows, fails, run_fn, field_072. split; [|split].
  - intros NE F. replace (isnumeric v) with true by (symmetry; apply all_nonempty_iff; auto). reflexivity.
  - intro W. rewrite (proj2 (blank_iff v) W). destruct (isnumeric v) eqn:E; [|reflexivity]. exfalso.
    apply all_nonempty_iff in E as [NE E]. destruct v as [|c v]; [congruence|]. inversion E; subst. inversion W; subst.
    rewrite numeric_not_space in H3 by auto. discriminate.
  - intros X W. destruct (isnumeric v) eqn:E.
    + exfalso. apply all_nonempty_iff in E as [NE E]. apply Exists_exists in X as [x [I X]]. rewrite Forall_forall in E. rewrite (E x I) in X. discriminate.
    + destruct (blank v) eqn:B; [|reflexivity]. apply blank_iff in B. contradiction.
Qed.
Lemma c52_hpc : forall v r, (whitespace v -> shows F269 v r v) /\
  (~ whitespace v -> (exists x, run_fn F269 v r = ([], Ok (DFloat x))) \/ fails F269 v r ValueError).
Proof.
  intros v r. unfold shows, fails, run_fn, field_269. split.
  - intro W. rewrite (proj2 (blank_iff v) W). reflexivity.
  - intro W. destruct (blank v) eqn:B; [apply blank_iff in B; contradiction|]. unfold float_of. destruct (py_float v); [left; eexists; reflexivity|right; reflexivity].
Qed.
