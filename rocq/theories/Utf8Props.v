(* Lemmas behind C56. *)
From Coq Require Import List String NArith ZArith Bool Arith Lia ZifyN ZifyBool.
From Verif Require Import PyBase Decoder Layouts Record Api Spec SpecLayouts SpecApi SpecJson SpecUtf8 StrFacts ReadProps ApiProps JsonProps ColumnProps Utf8.
Import ListNotations.
Open Scope list_scope.
Local Open Scope N_scope.
Local Ltac Zify.zify_post_hook ::= Z.div_mod_to_equations.

Lemma within_iff : forall lo hi b, within lo hi b = true <-> lo <= b <= hi.
Proof. intros. unfold within. rewrite andb_true_iff, !N.leb_le. reflexivity. Qed.
Lemma within_false : forall lo hi b, b < lo \/ hi < b -> within lo hi b = false.
Proof. intros lo hi b H. unfold within. apply andb_false_iff. rewrite !N.leb_gt. exact H. Qed.
Lemma within_true : forall lo hi b, lo <= b <= hi -> within lo hi b = true.
Proof. intros. apply within_iff. auto. Qed.
Lemma utf8_nil : utf8 [] [].
Proof. exists []. split; [constructor|reflexivity]. Qed.
Lemma utf8_cons : forall c p t bs, encoding c p -> utf8 t bs -> utf8 (c :: t) (p ++ bs).
Proof. intros c p t bs E [parts [F ->]]. exists (p :: parts). split; [constructor; auto|reflexivity]. Qed.
Lemma utf8_app : forall t t' bs bs', utf8 t bs -> utf8 t' bs' -> utf8 (t ++ t') (bs ++ bs').
Proof.
  intros t t' bs bs' [p [F ->]] [p' [F' ->]]. exists (p ++ p'). split; [apply Forall2_app; auto|]. symmetry. apply List.concat_app.
Qed.
(* decoding an encoded text *)
Lemma decode_encoding : forall c p bs, encoding c p -> decode_utf8 (p ++ bs) = bindR (decode_utf8 bs) (fun t => Ok (c :: t)).
Proof.
  intros c p bs E. destruct E as [c H|c H|c H S|c H]; cbn [app decode_utf8].
  - rewrite (proj2 (N.ltb_lt c 128)) by exact H. reflexivity.
  - rewrite (proj2 (N.ltb_ge (192 + c / 64) 128)) by lia. rewrite !within_true by lia.
    replace ((192 + c / 64 - 192) * 64 + (128 + c mod 64 - 128)) with c by lia. reflexivity.
  - rewrite (proj2 (N.ltb_ge (224 + c / 4096) 128)) by lia. rewrite (within_false 194) by lia. rewrite (within_true 224) by lia.
    rewrite (within_true _ _ (128 + c / 64 mod 64)).
    + rewrite (within_true _ _ (128 + c mod 64)) by lia. cbn [andb].
      replace ((224 + c / 4096 - 224) * 4096 + (128 + c / 64 mod 64 - 128) * 64 + (128 + c mod 64 - 128)) with c by lia. reflexivity.
    + destruct (N.eqb_spec (224 + c / 4096) 224); destruct (N.eqb_spec (224 + c / 4096) 237); lia.
  - rewrite (proj2 (N.ltb_ge (240 + c / 262144) 128)) by lia. rewrite (within_false 194), (within_false 224) by lia. rewrite (within_true 240 244) by lia.
    rewrite (within_true _ _ (128 + c / 4096 mod 64)).
    + rewrite (within_true _ _ (128 + c / 64 mod 64)), (within_true _ _ (128 + c mod 64)) by lia. cbn [andb].
      replace ((240 + c / 262144 - 240) * 262144 + (128 + c / 4096 mod 64 - 128) * 4096 + (128 + c / 64 mod 64 - 128) * 64 + (128 + c mod 64 - 128)) with c by lia. reflexivity.
    + destruct (N.eqb_spec (240 + c / 262144) 240); destruct (N.eqb_spec (240 + c / 262144) 244); lia.
Qed.
Lemma decode_complete : forall t bs, utf8 t bs -> decode_utf8 bs = Ok t.
Proof.
  intros t bs [parts [F ->]]. induction F as [|c p t parts E F IH]; [reflexivity|]. cbn [List.concat]. rewrite (decode_encoding c) by exact E. rewrite IH. reflexivity.
Qed.
Lemma bind_ok : forall A B (r : result A) (k : A -> result B) b, bindR r k = Ok b -> exists a, r = Ok a /\ k a = Ok b.
Proof. intros A B [a|e] k b H; [eauto|discriminate]. Qed.
Ltac step H E := apply bind_ok in H as [? [E H]]; injection H as <-.
Lemma decode_sound : forall n bs t, (List.length bs <= n)%nat -> decode_utf8 bs = Ok t -> utf8 t bs.
Proof.
  induction n as [|n IH]; intros bs t L H.
  { destruct bs; [injection H as <-; apply utf8_nil|cbn in L; lia]. }
  destruct bs as [|a r]; [injection H as <-; apply utf8_nil|]. cbn [decode_utf8] in H. cbn [List.length] in L.
  destruct (N.ltb_spec a 128) as [A|A].
  { step H E. change (a :: r) with ([a] ++ r). apply utf8_cons; [constructor; exact A|apply IH; auto; lia]. }
  destruct (within 194 223 a) eqn:W2.
  { apply within_iff in W2. destruct r as [|b r]; [discriminate|]. destruct (within 128 191 b) eqn:B; [|discriminate]. apply within_iff in B. step H E. cbn [List.length] in L.
    assert (Q : [a; b] = [192 + ((a - 192) * 64 + (b - 128)) / 64; 128 + ((a - 192) * 64 + (b - 128)) mod 64]) by (repeat f_equal; lia).
    change (a :: b :: r) with ([a; b] ++ r). apply utf8_cons; [rewrite Q; constructor; lia|apply IH; auto; lia]. }
  destruct (within 224 239 a) eqn:W3.
  { apply within_iff in W3. destruct r as [|b [|c r]]; try discriminate. cbn [List.length] in L.
    match type of H with (if ?x && ?y then _ else _) = _ => destruct x eqn:B; [|discriminate]; destruct y eqn:C; [|discriminate] end.
    apply within_iff in B, C. cbn [andb] in H. step H E. set (u := (a - 224) * 4096 + (b - 128) * 64 + (c - 128)).
    assert (BB : 128 <= b <= 191) by (destruct (a =? 224), (a =? 237); lia).
    assert (Q : [a; b; c] = [224 + u / 4096; 128 + u / 64 mod 64; 128 + u mod 64]) by (unfold u; repeat f_equal; lia).
    change (a :: b :: c :: r) with ([a; b; c] ++ r). apply utf8_cons; [rewrite Q; constructor; unfold u; destruct (N.eqb_spec a 224); destruct (N.eqb_spec a 237); lia|apply IH; auto; lia]. }
  destruct (within 240 244 a) eqn:W4; [|discriminate].
  apply within_iff in W4. destruct r as [|b [|c [|d r]]]; try discriminate. cbn [List.length] in L.
  match type of H with (if ?x && ?y && ?z then _ else _) = _ => destruct x eqn:B; [|discriminate]; destruct y eqn:C; [|discriminate]; destruct z eqn:D; [|discriminate] end.
  apply within_iff in B, C, D. cbn [andb] in H. step H E. set (u := (a - 240) * 262144 + (b - 128) * 4096 + (c - 128) * 64 + (d - 128)).
  assert (BB : 128 <= b <= 191) by (destruct (a =? 240), (a =? 244); lia).
  assert (Q : [a; b; c; d] = [240 + u / 262144; 128 + u / 4096 mod 64; 128 + u / 64 mod 64; 128 + u mod 64]) by (unfold u; repeat f_equal; lia).
  change (a :: b :: c :: d :: r) with ([a; b; c; d] ++ r). apply utf8_cons; [rewrite Q; constructor; unfold u; destruct (N.eqb_spec a 240); destruct (N.eqb_spec a 244); lia|apply IH; auto; lia].
Qed.
Lemma decode_iff : forall bs t, decode_utf8 bs = Ok t <-> utf8 t bs.
Proof. intros bs t. split; [apply (decode_sound (List.length bs)); lia|apply decode_complete]. Qed.
Lemma decode_error : forall n bs e, (List.length bs <= n)%nat -> decode_utf8 bs = Err e -> e = ValueError.
Proof.
  assert (K : forall (r : result str) (f : str -> str) e, bindR r (fun t => Ok (f t)) = Err e -> r = Err e) by (intros [t|x] f e H; [discriminate|exact H]).
  induction n as [|n IH]; intros bs e L H; [destruct bs; [discriminate|cbn in L; lia]|]. destruct bs as [|a r]; [discriminate|]. cbn [decode_utf8] in H. cbn [List.length] in L.
  destruct (a <? 128); [apply (K _ (cons a)) in H; apply IH in H; auto; lia|].
  destruct (within 194 223 a).
  { destruct r as [|b r]; [congruence|]. cbn [List.length] in L. destruct (within 128 191 b); [|congruence]. apply (K _ (cons _)) in H. apply IH in H; auto; lia. }
  destruct (within 224 239 a).
  { destruct r as [|b [|c r]]; try congruence. cbn [List.length] in L. match type of H with (if ?x then _ else _) = _ => destruct x end; [|congruence]. apply (K _ (cons _)) in H. apply IH in H; auto; lia. }
  destruct (within 240 244 a); [|congruence].
  destruct r as [|b [|c [|d r]]]; try congruence. cbn [List.length] in L. match type of H with (if ?x then _ else _) = _ => destruct x end; [|congruence]. apply (K _ (cons _)) in H. apply IH in H; auto; lia.
Qed.
Lemma not_utf8 : forall bs, (~ exists t, utf8 t bs) <-> decode_utf8 bs = Err ValueError.
Proof.
  intro bs. split.
  - intro H. destruct (decode_utf8 bs) as [t|e] eqn:E; [exfalso; apply H; exists t; apply decode_iff; exact E|]. f_equal. eapply decode_error; eauto.
  - intros H [t U]. apply decode_iff in U. congruence.
Qed.
Lemma encoding_scalar : forall c p, encoding c p -> c < 1114112 /\ ~ (55296 <= c <= 57343).
Proof. destruct 1; lia. Qed.
Lemma utf8_scalar : forall t bs, utf8 t bs -> scalar_text t.
Proof. intros t bs [parts [F _]]. unfold scalar_text. induction F; constructor; eauto using encoding_scalar. Qed.
Lemma encoding_exists : forall c, c < 1114112 -> ~ (55296 <= c <= 57343) -> exists p, encoding c p.
Proof.
  intros c C S. destruct (N.lt_ge_cases c 128); [eexists; apply one_byte; lia|]. destruct (N.lt_ge_cases c 2048); [eexists; apply two_bytes; lia|].
  destruct (N.lt_ge_cases c 65536); [eexists; apply three_bytes; lia|]. eexists; apply four_bytes; lia.
Qed.
Lemma encoding_unique : forall c p q, encoding c p -> encoding c q -> p = q.
Proof. intros c p q E F. destruct E; inversion F; subst; auto; lia. Qed.
Lemma utf8_exists : forall t, scalar_text t -> exists bs, utf8 t bs.
Proof.
  induction 1 as [|c t [C S] _ [bs IH]]; [exists []; apply utf8_nil|]. destruct (encoding_exists c C S) as [p P]. exists (p ++ bs). apply utf8_cons; auto.
Qed.
Lemma utf8_unique : forall t bs bs', utf8 t bs -> utf8 t bs' -> bs = bs'.
Proof.
  intros t bs bs' [p [F ->]] [p' [F' ->]]. f_equal. revert p' F'. induction F as [|c p t ps E F IH]; intros p' F'; inversion F'; subst; auto.
  f_equal; [eapply encoding_unique; eauto|auto].
Qed.
Lemma utf8_bytes : forall t bs, utf8 t bs -> Forall (fun b => b < 256) bs.
Proof.
  intros t bs [parts [F ->]]. induction F as [|c p t ps E F IH]; [constructor|]. cbn [List.concat]. apply Forall_app. split; [|exact IH].
  destruct E; repeat constructor; lia.
Qed.
Lemma utf8_ascii : forall t, Forall (fun c => c < 128) t -> utf8 t t.
Proof. induction 1 as [|c t C _ IH]; [apply utf8_nil|]. change (c :: t) with ([c] ++ t) at 2. apply utf8_cons; [constructor; exact C|exact IH]. Qed.
Lemma utf8_ascii_only : forall t bs, utf8 t bs -> Forall (fun b => b < 128) bs -> t = bs.
Proof. intros t bs U A. apply utf8_ascii in A. apply decode_iff in U, A. congruence. Qed.

(* ---- records of a file ---- *)
Lemma lines_scalar : forall t ls, lines_of t ls -> scalar_text t -> Forall scalar_text ls.
Proof.
  induction 1 as [|l O E|l e rest ls O I C L IH]; intro S; [constructor|constructor; auto|]. apply Forall_app in S as [S1 S]. apply Forall_app in S as [_ S2].
  constructor; auto.
Qed.
Lemma scalar_fields : forall r line o r', scalar_text line -> read r line = (o, r', Ok true) -> sound_fields (fields r').
Proof.
  intros r line o r' SC R. apply read_true_inv, rt_layout in R as [cells [LF E]]. destruct (layout_for_entry _ _ _ _ LF) as [e [I [_ C]]]. subst cells.
  rewrite E. apply Forall_forall. intros f F. apply in_map_iff in F as [c [<- K]]. cbn [field_of f_name f_value]. split; apply scalar_sound.
  - assert (Q : forallb (fun e => forallb (fun c => forallb (fun x => (x <? 128)%N) (lit (c_name c))) (e_cells e)) catalogue = true) by (vm_compute; reflexivity).
    rewrite forallb_forall in Q. specialize (Q e I). cbn beta in Q. rewrite forallb_forall in Q. specialize (Q c K). apply Forall_forall. intros x X.
    rewrite forallb_forall in Q. specialize (Q x X). apply N.ltb_lt in Q. lia.
  - apply columns_forall. exact SC.
Qed.
Definition bom : list N := [239; 187; 191].
Lemma utf8_bom : forall t bs, utf8 t bs -> utf8 (65279 :: t) (bom ++ bs).
Proof. intros t bs U. apply utf8_cons; auto. change bom with [224 + 65279 / 4096; 128 + 65279 / 64 mod 64; 128 + 65279 mod 64]. constructor; lia. Qed.
Lemma bom_refused : forall r l t, record_line l t -> read r (65279 :: l) = ([], r, Ok false).
Proof.
  intros r l t [F [NL [NT [post [W ->]]]]]. destruct F as [LEN _].
  apply (c01_read r (65279 :: t ++ post) (65279 :: t)).
  - split; [|split].
    + intros c C. injection C as <-. reflexivity.
    + intros c C. cbn [List.length column nth_error] in C. rewrite LEN in C. destruct t as [|x t]; [discriminate|]. apply NT. rewrite LEN. exact C.
    + exists [], post. split; [constructor|]. split; auto.
  - intros [L _]. cbn [List.length] in L. lia.
Qed.
Lemma mount_open : forall d p bs t, contents d p = Ok bs -> utf8 t bs -> open_text (mount d) p = Ok t.
Proof. intros d p bs t C U. cbn [mount open_text]. rewrite C. cbn [bindR]. apply decode_iff. exact U. Qed.
Lemma mount_bad : forall d p bs, contents d p = Ok bs -> (~ exists t, utf8 t bs) -> open_text (mount d) p = Err ValueError.
Proof. intros d p bs C U. cbn [mount open_text]. rewrite C. cbn [bindR]. apply not_utf8. exact U. Qed.
Lemma bom_lines : forall t l ls, lines_of t (l :: ls) -> lines_of (65279 :: t) ((65279 :: l) :: ls).
Proof.
  intros t l ls L. assert (B : forall x, one_line x -> one_line (65279 :: x)) by (intros x O; constructor; auto; lia).
  inversion L; subst; [apply lines_last; auto; discriminate|]. change (65279 :: l ++ e ++ rest) with ((65279 :: l) ++ e ++ rest). apply lines_more; auto.
Qed.
Lemma bom_file : forall d d' p bs bs' t t' l ls rt, contents d p = Ok (bom ++ bs) -> utf8 t bs -> lines_of t (l :: ls) -> record_line l rt ->
  contents d' p = Ok bs' -> utf8 t' bs' -> lines_of t' ls ->
  (forall output, read_file (mount d) p output = read_file (mount d') p output) /\ (forall fl, search (mount d) p fl = search (mount d') p fl).
Proof.
  intros d d' p bs bs' t t' l ls rt C U L R C' U' L'. pose proof (mount_open _ _ _ _ C (utf8_bom _ _ U)) as O. pose proof (mount_open _ _ _ _ C' U') as O'.
  apply bom_lines in L. pose proof (bom_refused new_record _ _ R) as F. split.
  - intro output. rewrite (read_file_lines _ _ _ _ _ O L), (read_file_lines _ _ _ _ _ O' L'). cbn [for_each]. unfold parse_line at 1, parse. rewrite F. cbn [bind].
    destruct (for_each (parse_line output) ls). reflexivity.
  - intro fl. rewrite (search_unfold _ _ fl _ _ O L), (search_unfold _ _ fl _ _ O' L'). cbn [search_lines]. rewrite F. cbn [bind negb].
    destruct (search_lines fl 0 ls) as [? [?|?]]; reflexivity.
Qed.

(* ---- characters and bytes ---- *)
Lemma utf8_length : forall t bs, utf8 t bs -> (List.length t <= List.length bs)%nat /\ (List.length t = List.length bs -> Forall (fun b => b < 128) bs).
Proof.
  intros t bs [parts [F ->]]. induction F as [|c p t ps E F [IH1 IH2]]; [split; [cbn; lia|constructor]|]. cbn [List.concat List.length]. rewrite List.app_length.
  destruct E as [c H|c H|c H S|c H]; cbn [List.length]; (split; [lia|intro Q]); try lia. constructor; auto.
Qed.
Lemma encoding_shape : forall c p, encoding c p -> (exists x, p = [x] /\ x < 128) \/ (exists x y q, p = x :: y :: q /\ Forall (fun b => 128 <= b) p).
Proof. destruct 1; [left; eauto|right..]; do 3 eexists; (split; [reflexivity|repeat constructor; lia]). Qed.
Lemma lone_byte : forall t bs, utf8 t bs -> forall a x b, bs = a ++ x :: b -> 128 <= x -> (forall a' y, a = a' ++ [y] -> y < 128) -> (forall y b', b = y :: b' -> y < 128) -> False.
Proof.
  intros t bs [parts [F ->]]. induction F as [|c p t ps E F IH]; intros a x b Q X A B; [destruct a; discriminate|]. cbn [List.concat] in Q.
  apply encoding_shape in E as [[z [-> Z]]|[z [y [q [E P]]]]].
  - destruct a as [|a0 a]; cbn [app] in Q; injection Q as Q1 Q2; [lia|]. apply (IH a x b Q2 X); auto. intros a' w ->. apply (A (a0 :: a')). reflexivity.
  - rewrite Forall_forall in P. destruct (List.app_eq_app _ _ _ _ Q) as [l [[U V]|[U V]]].
    + (* a is not longer than p *)
      destruct a as [|a0 a'] using rev_ind.
      * cbn [app] in U. subst l. rewrite E in V. cbn [app] in V. injection V as _ V. specialize (B _ _ V). assert (128 <= y) by (apply P; rewrite E; right; left; reflexivity). lia.
      * specialize (A _ _ eq_refl). assert (128 <= a0) by (apply P; rewrite U; apply in_app_iff; left; apply in_app_iff; right; left; reflexivity). lia.
    + apply (IH l x b V X); auto. intros a' w ->. apply (A (p ++ a')). rewrite U, List.app_assoc. reflexivity.
Qed.
