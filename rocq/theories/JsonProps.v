(* Proofs for C28-C30: json() against the reader of SpecJson.v. *)
From Coq Require Import List String NArith ZArith Bool Arith Lia ZifyN Sorted Permutation.
From Verif Require Import PyBase Decoder Layouts Json Record Api SpecLayouts Spec SpecJson StrFacts.
Import ListNotations.
Open Scope string_scope.
Open Scope list_scope.
Local Open Scope nat_scope.
Local Ltac Zify.zify_post_hook ::= Z.div_mod_to_equations.

(* ---- strings ---- *)
Definition units (c : N) : list unit16 :=
  if (c =? 34)%N || (c =? 92)%N || (c =? 10)%N || (c =? 13)%N || (c =? 9)%N || (c =? 12)%N || (c =? 8)%N then [Plain c]
  else if (32 <=? c)%N && (c <=? 126)%N then [Plain c]
  else if (c <? 65536)%N then [Escaped c]
  else let n := (c - 65536)%N in [Escaped (55296 + n / 1024 mod 1024)%N; Escaped (56320 + n mod 1024)%N].
Lemma hex_digit_value : forall d, (d < 16)%N -> hex_value (hex_digit d) = Some d.
Proof.
  intros d H. assert (K : forallb (fun n => match hex_value (hex_digit (N.of_nat n)) with Some x => (x =? N.of_nat n)%N | None => false end) (seq 0 16) = true) by reflexivity.
  rewrite forallb_forall in K. specialize (K (N.to_nat d)). rewrite N2Nat.id in K. assert (I : In (N.to_nat d) (seq 0 16)) by (apply in_seq; lia).
  specialize (K I). destruct (hex_value (hex_digit d)); [|discriminate]. apply N.eqb_eq in K. congruence.
Qed.
Lemma u_escape_body : forall u rest, (u < 65536)%N -> string_body (u_escape u ++ rest) =
  match string_body rest with Some (us, r) => Some (Escaped u :: us, r) | None => None end.
Proof.
  intros u rest H. unfold u_escape. cbn [app string_body]. change (92 =? 34)%N with false. change (92 =? 92)%N with true. change (117 =? 117)%N with true. cbn iota.
  unfold hex4. rewrite !hex_digit_value; [|lia|lia|lia|lia]. cbn iota.
  replace (4096 * (u / 4096 mod 16) + 256 * (u / 256 mod 16) + 16 * (u / 16 mod 16) + u mod 16)%N with u by lia. reflexivity.
Qed.
Ltac case_eqb := match goal with |- context [(?a =? ?b)%N] => let E := fresh "E" in destruct (a =? b)%N eqn:E; [apply N.eqb_eq in E; subst|apply N.eqb_neq in E] end.
Lemma esc_char_body : forall c rest, (c < 1114112)%N -> string_body (esc_char c ++ rest) =
  match string_body rest with Some (us, r) => Some (units c ++ us, r) | None => None end.
Proof.
  intros c rest H. unfold esc_char, units.
  destruct (c =? 34)%N eqn:E1; [apply N.eqb_eq in E1; subst; reflexivity|].
  destruct (c =? 92)%N eqn:E2; [apply N.eqb_eq in E2; subst; reflexivity|].
  destruct (c =? 10)%N eqn:E3; [apply N.eqb_eq in E3; subst; reflexivity|].
  destruct (c =? 13)%N eqn:E4; [apply N.eqb_eq in E4; subst; reflexivity|].
  destruct (c =? 9)%N eqn:E5; [apply N.eqb_eq in E5; subst; reflexivity|].
  destruct (c =? 12)%N eqn:E6; [apply N.eqb_eq in E6; subst; reflexivity|].
  destruct (c =? 8)%N eqn:E7; [apply N.eqb_eq in E7; subst; reflexivity|]. cbn [orb].
  destruct ((32 <=? c)%N && (c <=? 126)%N) eqn:E8.
  { cbn [app string_body]. rewrite E1, E2. apply andb_true_iff in E8 as [E8 _]. apply N.leb_le in E8.
    destruct (c <? 32)%N eqn:L; [apply N.ltb_lt in L; lia|]. reflexivity. }
  destruct (c <? 65536)%N eqn:E9.
  { apply N.ltb_lt in E9. rewrite u_escape_body by exact E9. reflexivity. }
  apply N.ltb_ge in E9. cbv zeta. rewrite <- List.app_assoc, u_escape_body by lia. rewrite u_escape_body by lia.
  destruct (string_body rest) as [[us r]|]; reflexivity.
Qed.
Lemma encode_body : forall s rest, Forall (fun c => (c < 1114112)%N) s ->
  string_body (flat_map esc_char s ++ 34%N :: rest) = Some (flat_map units s, rest).
Proof.
  intros s rest H. induction H as [|c s C _ IH]; [reflexivity|]. cbn [flat_map]. rewrite <- List.app_assoc, esc_char_body by exact C.
  rewrite IH. reflexivity.
Qed.
Definition is_escaped_low (us : list unit16) : bool := match us with Escaped l :: _ => low_surrogate l | _ => false end.
Lemma characters_escaped : forall h us, high_surrogate h && is_escaped_low us = false -> characters (Escaped h :: us) = h :: characters us.
Proof.
  intros h us H. cbn [characters]. destruct us as [|[c|l] us2]; [reflexivity|reflexivity|]. cbn [is_escaped_low] in H. rewrite H. reflexivity.
Qed.
Lemma units_low : forall s, is_escaped_low (flat_map units s) = true -> exists l s', s = l :: s' /\ low_surrogate l = true.
Proof.
  intros [|c s] H; [discriminate|]. exists c, s. split; auto. cbn [flat_map] in H. unfold units in H.
  destruct (_ || _); [discriminate|]. destruct (_ && _); [discriminate|]. destruct (c <? 65536)%N; [exact H|].
  cbv zeta in H. cbn [app is_escaped_low] in H. unfold low_surrogate in H. apply andb_true_iff in H as [H _]. apply N.leb_le in H. lia.
Qed.
Lemma characters_units : forall s, sound_text s -> characters (flat_map units s) = s.
Proof.
  intros s [C S]. induction s as [|c s IH]; [reflexivity|]. inversion C as [|x l Cc Cs]; subst.
  assert (IH' : characters (flat_map units s) = s) by (apply IH; auto; intros a h l b E; apply (S (c :: a) h l b); rewrite E; reflexivity).
  clear IH. cbn [flat_map]. pose proof (units_low s) as UL. revert IH' UL. generalize (flat_map units s) as us. intros us IH' UL. unfold units.
  destruct (_ || _) eqn:E1; [cbn [app characters]; congruence|]. destruct (_ && _) eqn:E2 in |- *; [cbn [app characters]; congruence|].
  destruct (c <? 65536)%N eqn:E3.
  - cbn [app]. rewrite characters_escaped; [congruence|]. destruct (high_surrogate c) eqn:H; [|reflexivity]. cbn [andb].
    destruct (is_escaped_low us) eqn:L; [|reflexivity]. destruct (UL eq_refl) as [l [s' [-> LL]]].
    exfalso. apply (S [] c l s'); auto.
  - apply N.ltb_ge in E3. cbv zeta. cbn [app characters].
    assert (A : high_surrogate (55296 + (c - 65536) / 1024 mod 1024) = true) by (unfold high_surrogate; apply andb_true_iff; split; apply N.leb_le; lia).
    assert (B : low_surrogate (56320 + (c - 65536) mod 1024) = true) by (unfold low_surrogate; apply andb_true_iff; split; apply N.leb_le; lia).
    rewrite A, B. cbn [andb]. rewrite IH'. f_equal. lia.
Qed.
Lemma skip_spaces : forall w s, Forall (fun c => json_space c = true) w -> skip (w ++ s) = skip s.
Proof. intros w s H. induction H as [|c w C _ IH]; [reflexivity|]. cbn [app skip]. rewrite C. exact IH. Qed.
Lemma string_token_encode : forall w s rest, Forall (fun c => json_space c = true) w -> sound_text s ->
  string_token (w ++ encode_str s ++ rest) = Some (s, rest).
Proof.
  intros w s rest W H. unfold string_token, encode_str. rewrite skip_spaces by exact W. cbn [app skip]. change (json_space 34) with false. cbn iota.
  change (34 =? 34)%N with true. cbn iota. rewrite <- List.app_assoc. cbn [app]. rewrite encode_body by apply H. rewrite characters_units by exact H. reflexivity.
Qed.

(* ---- objects ---- *)
Definition sound_member (kv : str * str) : Prop := sound_text (fst kv) /\ sound_text (snd kv).
Lemma members_join : forall d n w w0 w', d <> [] -> List.length d <= n -> Forall sound_member d ->
  Forall (fun c => json_space c = true) w -> Forall (fun c => json_space c = true) w0 -> Forall (fun c => json_space c = true) w' ->
  members n (w0 ++ join (44%N :: w) (map member d) ++ w' ++ [125%N]) = Some d.
Proof.
  induction d as [|[k v] d IH]; intros n w w0 w' NE L S W W0 W'; [congruence|]. destruct n as [|n]; [cbn [List.length] in L; lia|].
  inversion S as [|x l [Sk Sv] Sd]; subst. cbn [fst snd] in Sk, Sv.
  set (tail := match d with [] => w' ++ [125%N] | _ => (44%N :: w) ++ join (44%N :: w) (map member d) ++ w' ++ [125%N] end).
  assert (E : w0 ++ join (44%N :: w) (map member ((k, v) :: d)) ++ w' ++ [125%N] = w0 ++ encode_str k ++ lit ": " ++ encode_str v ++ tail).
  { cbn [map join]. destruct d as [|kv d']; unfold tail, member; cbn [fst snd map]; rewrite <- !List.app_assoc; reflexivity. }
  rewrite E. cbn [members]. rewrite string_token_encode by assumption. change (lit ": ") with [58%N; 32%N]. cbn [app skip].
  change (json_space 58) with false. cbn iota. change (58 =? 58)%N with true. cbn iota.
  change (32%N :: encode_str v ++ tail) with ([32%N] ++ encode_str v ++ tail).
  rewrite string_token_encode by (try assumption; repeat constructor).
  unfold tail. destruct d as [|kv d'].
  - rewrite skip_spaces by exact W'. cbn [skip]. change (json_space 125) with false. cbn iota. reflexivity.
  - cbn [app skip]. change (json_space 44) with false. cbn iota. change (44 =? 44)%N with true. cbn iota.
    rewrite (IH n w w w'); auto; [discriminate|]. cbn [List.length] in *. lia.
Qed.
Lemma encode_str_length : forall s, 1 <= List.length (encode_str s).
Proof. intros. unfold encode_str. cbn [List.length]. lia. Qed.
Lemma join_length : forall sep d, List.length d <= List.length (join sep (map member d)).
Proof.
  intros sep d. induction d as [|kv d IH]; [cbn; lia|]. assert (M : 1 <= List.length (member kv)).
  { unfold member. rewrite List.app_length. pose proof (encode_str_length (fst kv)). lia. }
  cbn [map join]. destruct d as [|kv' d]; cbn [map List.length] in *; [lia|]. rewrite !List.app_length. lia.
Qed.
Lemma first_char : forall d w0 sep rest, d <> [] -> Forall (fun c => json_space c = true) w0 ->
  exists x, skip (w0 ++ join sep (map member d) ++ rest) = 34%N :: x.
Proof.
  intros [|kv d] w0 sep rest NE W; [congruence|]. rewrite skip_spaces by exact W. cbn [map join].
  destruct (map member d); unfold member, encode_str; cbn [app skip]; change (json_space 34) with false; cbn iota; eauto.
Qed.
Lemma read_object : forall d w w0 w', Forall sound_member d -> d <> [] ->
  Forall (fun c => json_space c = true) w -> Forall (fun c => json_space c = true) w0 -> Forall (fun c => json_space c = true) w' ->
  read_json (123%N :: w0 ++ join (44%N :: w) (map member d) ++ w' ++ [125%N]) = Some d.
Proof.
  intros d w w0 w' S NE W W0 W'. unfold read_json. cbn [skip]. change (json_space 123) with false. cbn iota. change (123 =? 123)%N with true. cbn iota.
  destruct (first_char d w0 (44%N :: w) (w' ++ [125%N]) NE W0) as [x ->]. change (34 =? 125)%N with false. cbn iota.
  apply members_join; auto. rewrite !List.app_length. pose proof (join_length (44%N :: w) d). lia.
Qed.
Lemma read_dumps : forall d, Forall sound_member d -> read_json (dumps d) = Some d.
Proof.
  intros d H. unfold dumps. destruct d as [|kv d]; [reflexivity|]. apply (read_object (kv :: d) [32%N] [] []); auto; try discriminate; repeat constructor.
Qed.
Lemma insert_perm : forall kv l, Permutation (insert_kv kv l) (kv :: l).
Proof.
  intros kv l. induction l as [|kv' l IH]; [reflexivity|]. cbn [insert_kv]. destruct (str_ltb _ _); [|reflexivity].
  rewrite IH. apply perm_swap.
Qed.
Lemma sort_perm : forall l, Permutation (sort_kv l) l.
Proof. induction l as [|kv l IH]; [reflexivity|]. cbn [sort_kv]. rewrite insert_perm, IH. reflexivity. Qed.
Lemma read_dumps_pretty : forall d, Forall sound_member d -> read_json (dumps_pretty d) = Some (sort_kv d).
Proof.
  intros d H. unfold dumps_pretty. assert (S : Forall sound_member (sort_kv d)).
  { eapply Permutation_Forall; [symmetry; apply sort_perm|exact H]. }
  destruct (sort_kv d) as [|kv s]; [reflexivity|].
  apply (read_object (kv :: s) (10 :: [32; 32; 32; 32])%N (10 :: [32; 32; 32; 32])%N [10%N]); auto; try discriminate; repeat constructor.
Qed.

(* ---- the mapping ---- *)
Lemma dict_update_in : forall k v d k' v', In (k', v') (dict_update k v d) ->
  (k' = k /\ v' = v) \/ (k' <> k /\ In (k', v') d) \/ (k' = k /\ ~ NoDup (map fst d)).
Proof.
  intros k v d k' v'. induction d as [|[a b] d IH]; cbn [dict_update]; intro H.
  - destruct H as [H|[]]. injection H as -> ->. auto.
  - destruct (str_eqb k a) eqn:E.
    + apply str_eqb_eq in E. subst a. destruct H as [H|H]; [injection H as -> ->; auto|].
      destruct (list_eq_dec N.eq_dec k' k) as [->|N']; [|right; left; split; [auto|right; auto]].
      right. right. split; auto. intro ND. inversion ND as [|x l A B]. apply A. apply in_map_iff. exists (k, v'). auto.
    + destruct H as [H|H].
      * injection H as -> ->. right. left. split; [|left; reflexivity]. intro X. subst. rewrite str_eqb_refl in E. discriminate.
      * destruct (IH H) as [A|[[A B]|[A B]]]; auto; [right; left; split; [auto|right; auto]|].
        right. right. split; auto. intro ND. inversion ND. contradiction.
Qed.
Lemma dict_update_keys : forall k v d x, In x (map fst (dict_update k v d)) <-> x = k \/ In x (map fst d).
Proof.
  intros k v d x. induction d as [|[a b] d IH]; cbn [dict_update].
  - cbn. intuition.
  - destruct (str_eqb k a) eqn:E; cbn [map fst In].
    + apply str_eqb_eq in E. subst. intuition.
    + rewrite IH. intuition.
Qed.
Lemma dict_update_nodup : forall k v d, NoDup (map fst d) -> NoDup (map fst (dict_update k v d)).
Proof.
  intros k v d. induction d as [|[a b] d IH]; cbn [dict_update]; intro H.
  - repeat constructor. intros [].
  - destruct (str_eqb k a) eqn:E; cbn [map fst] in *; [exact H|]. inversion H as [|x l A B]; subst. constructor; [|auto].
    intro I. apply dict_update_keys in I as [->|I]; [rewrite str_eqb_refl in E; discriminate|contradiction].
Qed.
Lemma dict_update_new : forall k v d, In (k, v) (dict_update k v d).
Proof.
  intros k v d. induction d as [|[a b] d IH]; cbn [dict_update]; [left; reflexivity|].
  destruct (str_eqb k a) eqn:E; [apply str_eqb_eq in E; subst; left; reflexivity|right; exact IH].
Qed.
Lemma dict_update_old : forall k v d k' v', k' <> k -> In (k', v') d -> In (k', v') (dict_update k v d).
Proof.
  intros k v d k' v' N. induction d as [|[a b] d IH]; cbn [dict_update]; intro H; [contradiction|].
  destruct (str_eqb k a) eqn:E.
  - apply str_eqb_eq in E. subst a. destruct H as [H|H]; [congruence|right; exact H].
  - destruct H as [H|H]; [left; exact H|right; auto].
Qed.
Lemma json_dict_snoc : forall fs f, json_dict (fs ++ [f]) = dict_update (f_name f) (f_value f) (json_dict fs).
Proof. intros. unfold json_dict. rewrite fold_left_app. reflexivity. Qed.
Lemma json_dict_nodup : forall fs, NoDup (map fst (json_dict fs)).
Proof.
  intro fs. induction fs as [|f fs IH] using rev_ind; [constructor|]. rewrite json_dict_snoc. apply dict_update_nodup. exact IH.
Qed.
Lemma last_value_snoc : forall fs f k v, last_value (fs ++ [f]) k v <-> (k = f_name f /\ v = f_value f) \/ (k <> f_name f /\ last_value fs k v).
Proof.
  intros fs f k v. split.
  - intros [pre [g [post [E [A [B C]]]]]]. destruct (list_eq_dec N.eq_dec k (f_name f)) as [->|N'].
    + left. split; auto. destruct post as [|h post] using rev_ind.
      * apply app_inj_tail in E as [_ ->]. congruence.
      * clear IHpost. rewrite app_comm_cons, List.app_assoc in E. apply app_inj_tail in E as [_ <-]. apply Forall_app in C as [_ C]. inversion C. congruence.
    + right. split; auto. destruct post as [|h post] using rev_ind.
      * apply app_inj_tail in E as [_ ->]. congruence.
      * clear IHpost. rewrite app_comm_cons, List.app_assoc in E. apply app_inj_tail in E as [-> <-]. apply Forall_app in C as [C _].
        exists pre, g, post. auto.
  - intros [[-> ->]|[N' [pre [g [post [-> [A [B C]]]]]]]].
    + exists fs, f, []. auto.
    + exists pre, g, (post ++ [f]). split; [rewrite <- List.app_assoc; reflexivity|]. split; auto. split; auto. apply Forall_app. split; auto.
Qed.
Lemma json_dict_spec : forall fs k v, In (k, v) (json_dict fs) <-> last_value fs k v.
Proof.
  intro fs. induction fs as [|f fs IH] using rev_ind; intros k v.
  - split; [intros []|]. intros [pre [g [post [E _]]]]. destruct pre; discriminate.
  - rewrite json_dict_snoc, last_value_snoc. split.
    + intro H. apply dict_update_in in H as [H|[[A B]|[_ B]]]; auto; [right; split; auto; apply IH; exact B|].
      exfalso. apply B. apply json_dict_nodup.
    + intros [[-> ->]|[N' H]]; [apply dict_update_new|]. apply dict_update_old; auto. apply IH. exact H.
Qed.
Lemma dict_update_fresh : forall k v d, ~ In k (map fst d) -> dict_update k v d = d ++ [(k, v)].
Proof.
  intros k v d. induction d as [|[a b] d IH]; intro H; [reflexivity|]. cbn [dict_update map fst In] in *.
  destruct (str_eqb k a) eqn:E; [apply str_eqb_eq in E; subst; exfalso; apply H; left; reflexivity|]. rewrite IH; [reflexivity|]. intro X. apply H. right. exact X.
Qed.
Lemma json_dict_distinct : forall fs, NoDup (map f_name fs) -> json_dict fs = map (fun f => (f_name f, f_value f)) fs.
Proof.
  intro fs. induction fs as [|f fs IH] using rev_ind; intro H; [reflexivity|]. rewrite map_app in H. cbn [map] in H.
  apply NoDup_remove in H as [A B]. rewrite List.app_nil_r in A, B. rewrite json_dict_snoc, (IH A), dict_update_fresh.
  - rewrite map_app. reflexivity.
  - rewrite map_map. exact B.
Qed.
Definition sound_fields (fs : list field) : Prop := Forall (fun f => sound_text (f_name f) /\ sound_text (f_value f)) fs.
Lemma sound_dict : forall fs, sound_fields fs -> Forall sound_member (json_dict fs).
Proof.
  intros fs H. apply Forall_forall. intros [k v] I. apply json_dict_spec in I as [pre [f [post [-> [<- [<- _]]]]]].
  unfold sound_fields in H. apply Forall_app in H as [_ H]. inversion H as [|x l A B]. exact A.
Qed.

(* ---- order of keys ---- *)
Lemma str_ltb_before : forall a b, str_ltb a b = true -> comes_before a b.
Proof.
  induction a as [|x a IH]; intros [|y b] H; cbn [str_ltb] in H; try discriminate.
  - exists []. left. exists y, b. auto.
  - apply orb_true_iff in H as [H|H].
    + apply N.ltb_lt in H. exists []. right. exists x, y, a, b. auto.
    + apply andb_true_iff in H as [E H]. apply N.eqb_eq in E. subst y. destruct (IH _ H) as [p [[y [b' [-> ->]]]|[x' [y' [a' [b' [-> [-> L]]]]]]]].
      * exists (x :: p). left. exists y, b'. auto.
      * exists (x :: p). right. exists x', y', a', b'. auto.
Qed.
Lemma str_ltb_trans : forall a b c, str_ltb a b = true -> str_ltb b c = true -> str_ltb a c = true.
Proof.
  induction a as [|x a IH]; intros [|y b] [|z c] H K; cbn [str_ltb] in *; try discriminate; auto.
  apply orb_true_iff in H as [H|H]; apply orb_true_iff in K as [K|K]; apply orb_true_iff.
  - left. apply N.ltb_lt in H, K. apply N.ltb_lt. lia.
  - left. apply andb_true_iff in K as [K _]. apply N.eqb_eq in K. subst. exact H.
  - left. apply andb_true_iff in H as [H _]. apply N.eqb_eq in H. subst. exact K.
  - right. apply andb_true_iff in H as [H1 H2], K as [K1 K2]. apply N.eqb_eq in H1, K1. subst. rewrite N.eqb_refl. cbn [andb]. eapply IH; eauto.
Qed.
Lemma str_ltb_total : forall a b, a <> b -> str_ltb a b = false -> str_ltb b a = true.
Proof.
  induction a as [|x a IH]; intros [|y b] N H; cbn [str_ltb] in *; try congruence; auto.
  apply orb_false_iff in H as [L E]. apply N.ltb_ge in L. apply orb_true_iff. destruct (x =? y)%N eqn:X.
  - apply N.eqb_eq in X. subst. right. rewrite N.eqb_refl. cbn [andb] in *. apply IH; congruence.
  - apply N.eqb_neq in X. left. apply N.ltb_lt. lia.
Qed.
Definition key_lt (a b : str * str) : Prop := str_ltb (fst a) (fst b) = true.
Lemma insert_sorted : forall kv l, ~ In (fst kv) (map fst l) -> StronglySorted key_lt l -> StronglySorted key_lt (insert_kv kv l).
Proof.
  intros kv l. induction l as [|kv' l IH]; cbn [insert_kv map In]; intros NI S; [repeat constructor|].
  inversion S as [|x y S' F]; subst. destruct (str_ltb (fst kv') (fst kv)) eqn:L.
  - constructor; [apply IH; auto|]. apply Forall_forall. intros z Z. apply (Permutation_in _ (insert_perm kv l)) in Z as [<-|Z]; [exact L|].
    rewrite Forall_forall in F. apply F. exact Z.
  - assert (K : str_ltb (fst kv) (fst kv') = true) by (apply str_ltb_total; [intro X; apply NI; left; exact X|exact L]).
    constructor; [exact S|]. constructor; [exact K|]. eapply Forall_impl; [|exact F]. intros z Z. eapply str_ltb_trans; eauto.
Qed.
Lemma sort_sorted : forall l, NoDup (map fst l) -> StronglySorted key_lt (sort_kv l).
Proof.
  induction l as [|kv l IH]; intro H; [constructor|]. cbn [sort_kv]. inversion H as [|x y A B]; subst. apply insert_sorted; auto.
  intro I. apply A. apply (Permutation_in _ (Permutation_map fst (sort_perm l))). exact I.
Qed.
Lemma sorted_before : forall l, StronglySorted key_lt l -> StronglySorted (fun a b => comes_before (fst a) (fst b)) l.
Proof.
  intros l H. induction H as [|x l S IH F]; constructor; auto. eapply Forall_impl; [|exact F]. intros y Y. apply str_ltb_before. exact Y.
Qed.

(* ---- text from a file ---- *)
Lemma scalar_sound : forall s, scalar_text s -> sound_text s.
Proof.
  intros s H. split; [eapply Forall_impl; [|exact H]; intros c [A _]; exact A|]. intros a h l b -> X Y. apply Forall_app in H as [_ H].
  inversion H as [|x y [_ A] B]; subst. unfold high_surrogate in X. apply andb_true_iff in X as [X1 X2]. apply N.leb_le in X1, X2. lia.
Qed.
Lemma columns_forall : forall (P : N -> Prop) t ks, Forall P t -> Forall P (columns t ks).
Proof.
  intros P t ks H. unfold columns. apply Forall_forall. intros c C. apply in_flat_map in C as [k [_ C]]. destruct (column t k) eqn:E; [|contradiction].
  destruct C as [<-|[]]. rewrite Forall_forall in H. apply H. destruct k; [discriminate|]. cbn [column] in E. eapply nth_error_In; eauto.
Qed.
