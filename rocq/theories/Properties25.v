(* C83: what codes of several columns, and codes that depend on the section, are shown as. *)
From Coq Require Import List String NArith Bool Arith Lia.
From Verif Require Import PyBase Decoder Record Spec SpecCodes SpecDecode StrFacts ReadProps3 CodeProps.
Import ListNotations.
Open Scope string_scope.
Open Scope list_scope.
Local Open Scope nat_scope.

(* ================= C83 ================= *)
(* two characters of a column that its list cannot tell apart: the same, or both missing from it *)
Definition told (codes : list (string * string)) (c c' : N) : Prop := c = c' \/ (~ listed codes [c] /\ ~ listed codes [c']).

Definition texts_of (codes : list (string * string)) : list str := map (fun p => lit (snd p)) codes.
Definition among (ts : list str) (t : str) : bool := existsb (str_eqb t) ts.
Fixpoint distinct (ts : list str) : bool := match ts with [] => true | t :: ts' => negb (among ts' t) && distinct ts' end.
Lemma among_in : forall ts t, among ts t = true <-> In t ts.
Proof.
  intros ts t. unfold among. rewrite existsb_exists. split; [intros (x & I & E); apply str_eqb_eq in E; subst; exact I|]. intro I. exists t. split; [exact I|]. apply str_eqb_eq. reflexivity.
Qed.
Lemma distinct_code : forall codes c c' t, distinct (texts_of codes) = true -> In (c, t) codes -> In (c', t) codes -> c = c'.
Proof.
  induction codes as [|[x u] codes IH]; intros c c' t D I I'; [destruct I|]. cbn [texts_of map snd distinct] in D. apply andb_true_iff in D as [D1 D2]. apply negb_true_iff in D1.
  assert (X : forall y, In (y, u) codes -> False) by (intros y J; rewrite <- not_true_iff_false in D1; apply D1; apply among_in; apply in_map_iff; exists (y, u); split; [reflexivity|exact J]).
  destruct I as [E|I]; destruct I' as [E'|I'].
  - congruence.
  - injection E as -> ->. destruct (X _ I').
  - injection E' as -> ->. destruct (X _ I).
  - exact (IH _ _ _ D2 I I').
Qed.
Lemma meaning_told : forall codes c c' t t', meaning codes c t -> meaning codes c' t' -> distinct (texts_of codes) = true -> t = t' -> told codes c c'.
Proof.
  intros codes c c' t t' [(k & u & I & E & T)|[L T]] [(k' & u' & I' & E' & T')|[L' T']] D Q; rewrite T, T' in Q; try discriminate Q; [|right; split; assumption].
  injection Q as Q. apply lit_inj in Q. subst u'. left. rewrite (distinct_code _ _ _ _ D I I') in E. rewrite <- E' in E. injection E as E. exact E.
Qed.
Lemma meaning_texts : forall codes c t, meaning codes c t -> t = [] \/ exists u, t = [u] /\ In u (texts_of codes).
Proof. intros codes c t [(k & u & I & E & T)|[L T]]; [right; exists (lit u); split; [exact T|apply in_map_iff; exists (k, u); split; [reflexivity|exact I]]|left; exact T]. Qed.
Lemma listed_dec : forall codes v, listed codes v \/ ~ listed codes v.
Proof.
  induction codes as [|[c t] codes IH]; intro v; [right; intros (k & u & [] & _)|]. destruct (str_eqb v (lit c)) eqn:E; [apply str_eqb_eq in E; left; exists c, t; split; [left; reflexivity|exact E]|].
  destruct (IH v) as [(k & u & I & Q)|K]; [left; exists k, u; split; [right; exact I|exact Q]|]. right. intros (k & u & [X|I] & Q).
  - injection X as -> ->. subst v. rewrite (proj2 (str_eqb_eq _ _) eq_refl) in E. discriminate E.
  - apply K. exists k, u. split; assumption.
Qed.

(* ---- waypoint descriptions ---- *)
Definition clean (t : str) : Prop := t <> [] /\ ~ In 10%N t.
Lemma cut_line : forall (t t' x x' : str), ~ In 10%N t -> ~ In 10%N t' -> t ++ [10%N] ++ x = t' ++ [10%N] ++ x' -> t = t' /\ x = x'.
Proof.
  induction t as [|a t IH]; intros [|b t'] x x' H H' E; cbn in E.
  - injection E as E. split; [reflexivity|exact E].
  - injection E as E _. destruct (H' (or_introl (eq_sym E))).
  - injection E as E _. destruct (H (or_introl E)).
  - injection E as -> E. destruct (IH t' x x') as [-> ->]; [intro I; exact (H (or_intror I))|intro I; exact (H' (or_intror I))|exact E|]. split; reflexivity.
Qed.
Lemma lines_same : forall ts ts', Forall clean ts -> Forall clean ts' -> one_per_line ts = one_per_line ts' -> ts = ts'.
Proof.
  induction ts as [|t ts IH]; intros ts' F F' E.
  - destruct ts' as [|t' [|u' ts']]; [reflexivity| |]; inversion F' as [|? ? [N _] _]; subst; cbn in E; [congruence|]. destruct t'; [congruence|discriminate E].
  - inversion F as [|? ? [N H] F1]; subst. destruct ts' as [|t' ts']; [destruct ts; cbn in E; [congruence|destruct t; [congruence|discriminate E]]|]. inversion F' as [|? ? [N' H'] F1']; subst.
    destruct ts as [|u ts]; destruct ts' as [|u' ts'].
    + cbn in E. congruence.
    + change (t = t' ++ [10%N] ++ one_per_line (u' :: ts')) in E. destruct H. rewrite E. apply in_or_app. right. left. reflexivity.
    + change (t ++ [10%N] ++ one_per_line (u :: ts) = t') in E. destruct H'. rewrite <- E. apply in_or_app. right. left. reflexivity.
    + change (t ++ [10%N] ++ one_per_line (u :: ts) = t' ++ [10%N] ++ one_per_line (u' :: ts')) in E. destruct (cut_line _ _ _ _ H H' E) as [-> K]. rewrite (IH _ F1 F1' K). reflexivity.
Qed.
Definition cleanb (t : str) : bool := match t with [] => false | _ => true end && negb (existsb (N.eqb 10) t).
Lemma cleanb_ok : forall t, cleanb t = true -> clean t.
Proof.
  intros t H. unfold cleanb in H. apply andb_true_iff in H as [H1 H2]. split; [intros ->; discriminate H1|]. intro I. apply negb_true_iff in H2. rewrite <- not_true_iff_false in H2. apply H2. apply existsb_exists. exists 10%N. split; [exact I|reflexivity].
Qed.
Definition tables : list (list (string * string)) := [codes_017_1; codes_017_2; codes_017_3; codes_017_4].
Definition apart (a b : list (string * string)) : bool := forallb (fun t => negb (among (texts_of b) t)) (texts_of a).
Lemma keep_own : forall codes c t, meaning codes c t -> filter (among (texts_of codes)) t = t.
Proof. intros codes c t H. destruct (meaning_texts _ _ _ H) as [->|(u & -> & I)]; [reflexivity|]. cbn [filter]. rewrite (proj2 (among_in _ _) I). reflexivity. Qed.
Lemma drop_other : forall codes c t, meaning codes c t -> forall codes', apart codes codes' = true -> filter (among (texts_of codes')) t = [].
Proof.
  intros codes c t H codes' A. destruct (meaning_texts _ _ _ H) as [->|(u & -> & I)]; [reflexivity|]. cbn [filter]. unfold apart in A. rewrite forallb_forall in A. specialize (A u I). apply negb_true_iff in A. rewrite A. reflexivity.
Qed.
Lemma texts_clean : forall codes c t, forallb cleanb (texts_of codes) = true -> meaning codes c t -> Forall clean t.
Proof.
  intros codes c t A H. destruct (meaning_texts _ _ _ H) as [->|(u & -> & I)]; [constructor|]. constructor; [|constructor]. apply cleanb_ok. rewrite forallb_forall in A. exact (A u I).
Qed.
(* the text of a waypoint description tells all four columns, as far as they mean anything *)
Theorem C83_description : forall a b c d rest a' b' c' d' rest' r r' s, shows F017 (a :: b :: c :: d :: rest) r s -> shows F017 (a' :: b' :: c' :: d' :: rest') r' s ->
  told codes_017_1 a a' /\ told codes_017_2 b b' /\ told codes_017_3 c c' /\ told codes_017_4 d d'.
Proof.
  intros a b c d rest a' b' c' d' rest' r r' s H H'.
  destruct (meaning_total codes_017_1 a) as [t1 A]. destruct (meaning_total codes_017_2 b) as [t2 B]. destruct (meaning_total codes_017_3 c) as [t3 C]. destruct (meaning_total codes_017_4 d) as [t4 D].
  destruct (meaning_total codes_017_1 a') as [t1' A']. destruct (meaning_total codes_017_2 b') as [t2' B']. destruct (meaning_total codes_017_3 c') as [t3' C']. destruct (meaning_total codes_017_4 d') as [t4' D'].
  pose proof (c24 a b c d rest r _ _ _ _ A B C D) as K. pose proof (c24 a' b' c' d' rest' r' _ _ _ _ A' B' C' D') as K'. unfold shows in *. rewrite H in K. rewrite H' in K'. injection K as K. injection K' as K'. rewrite K in K'.
  assert (E : t1 ++ t2 ++ t3 ++ t4 = t1' ++ t2' ++ t3' ++ t4') by (apply lines_same; [| |exact K']; rewrite !Forall_app; repeat split; (eapply texts_clean; [|eassumption]; vm_compute; reflexivity)).
  assert (P : forall x, In x tables -> filter (among (texts_of x)) (t1 ++ t2 ++ t3 ++ t4) = filter (among (texts_of x)) (t1' ++ t2' ++ t3' ++ t4')) by (intros; rewrite E; reflexivity).
  repeat split.
  - specialize (P _ (or_introl eq_refl)). rewrite !filter_app, (keep_own _ _ _ A), (keep_own _ _ _ A') in P.
    rewrite (drop_other _ _ _ B codes_017_1 eq_refl), (drop_other _ _ _ C codes_017_1 eq_refl), (drop_other _ _ _ D codes_017_1 eq_refl), (drop_other _ _ _ B' codes_017_1 eq_refl), (drop_other _ _ _ C' codes_017_1 eq_refl), (drop_other _ _ _ D' codes_017_1 eq_refl) in P.
    cbn [List.app] in P. rewrite !app_nil_r in P. exact (meaning_told _ _ _ _ _ A A' eq_refl P).
  - specialize (P _ (or_intror (or_introl eq_refl))). rewrite !filter_app, (keep_own _ _ _ B), (keep_own _ _ _ B') in P.
    rewrite (drop_other _ _ _ A codes_017_2 eq_refl), (drop_other _ _ _ C codes_017_2 eq_refl), (drop_other _ _ _ D codes_017_2 eq_refl), (drop_other _ _ _ A' codes_017_2 eq_refl), (drop_other _ _ _ C' codes_017_2 eq_refl), (drop_other _ _ _ D' codes_017_2 eq_refl) in P.
    cbn [List.app] in P. rewrite !app_nil_r in P. exact (meaning_told _ _ _ _ _ B B' eq_refl P).
  - specialize (P _ (or_intror (or_intror (or_introl eq_refl)))). rewrite !filter_app, (keep_own _ _ _ C), (keep_own _ _ _ C') in P.
    rewrite (drop_other _ _ _ A codes_017_3 eq_refl), (drop_other _ _ _ B codes_017_3 eq_refl), (drop_other _ _ _ D codes_017_3 eq_refl), (drop_other _ _ _ A' codes_017_3 eq_refl), (drop_other _ _ _ B' codes_017_3 eq_refl), (drop_other _ _ _ D' codes_017_3 eq_refl) in P.
    cbn [List.app] in P. rewrite !app_nil_r in P. exact (meaning_told _ _ _ _ _ C C' eq_refl P).
  - specialize (P _ (or_intror (or_intror (or_intror (or_introl eq_refl))))). rewrite !filter_app, (keep_own _ _ _ D), (keep_own _ _ _ D') in P.
    rewrite (drop_other _ _ _ A codes_017_4 eq_refl), (drop_other _ _ _ B codes_017_4 eq_refl), (drop_other _ _ _ C codes_017_4 eq_refl), (drop_other _ _ _ A' codes_017_4 eq_refl), (drop_other _ _ _ B' codes_017_4 eq_refl), (drop_other _ _ _ C' codes_017_4 eq_refl) in P.
    cbn [List.app] in P. exact (meaning_told _ _ _ _ _ D D' eq_refl P).
Qed.
Print Assumptions C83_description.

(* ---- route types ---- *)
(* the text of a route type, unless it is <UNKNOWN>, tells the code and the kind of route, except for two texts that are shown for airways (R, S) and for preferred routes (M, N) *)
Definition two_kinds : list string := ["RNAV Airways"; "Undesignated ATS Route"].
Definition all_types : list (string * string) := flat_map snd route_types.
Theorem C83_route : forall secs codes secs' codes' sec sec' raw raw' v v' s, In (secs, codes) route_types -> In (secs', codes') route_types -> In sec secs -> In sec' secs' ->
  shows F007 v (RecView (lit sec) raw) s -> shows F007 v' (RecView (lit sec') raw') s ->
  (v = v' /\ secs = secs' /\ listed codes v) \/ ([secs; secs'] = [["ER"]; ["ET"]] \/ [secs; secs'] = [["ET"]; ["ER"]]) /\ (exists t, In t two_kinds /\ s = lit t) \/ (s = lit "<UNKNOWN>" /\ ~ listed codes v /\ ~ listed codes' v').
Proof.
  assert (U : forall secs codes code text, In (secs, codes) route_types -> In (code, text) codes -> lit text <> lit "<UNKNOWN>").
  { intros secs codes code text I J E. assert (X : forallb (fun p => negb (str_eqb (lit (snd p)) (lit "<UNKNOWN>"))) all_types = true) by (vm_compute; reflexivity).
    rewrite forallb_forall in X. specialize (X (code, text)). cbn [snd] in X. rewrite E in X. rewrite (proj2 (str_eqb_eq _ _) eq_refl) in X. discriminate X. apply in_flat_map. exists (secs, codes). split; assumption. }
  assert (W : forall secs codes secs' codes' code text code', In (secs, codes) route_types -> In (secs', codes') route_types -> In (code, text) codes -> In (code', text) codes' -> (code = code' /\ secs = secs') \/ ([secs; secs'] = [["ER"]; ["ET"]] \/ [secs; secs'] = [["ET"]; ["ER"]]) /\ In text two_kinds).
  { assert (X : forallb (fun p => forallb (fun q => forallb (fun x => forallb (fun y => negb (String.eqb (snd x) (snd y)) || (String.eqb (fst x) (fst y) && if list_eq_dec string_dec (fst p) (fst q) then true else false) || ((if list_eq_dec (list_eq_dec string_dec) [fst p; fst q] [["ER"]; ["ET"]] then true else false) || (if list_eq_dec (list_eq_dec string_dec) [fst p; fst q] [["ET"]; ["ER"]] then true else false)) && existsb (String.eqb (snd x)) two_kinds) (snd q)) (snd p)) route_types) route_types = true) by (vm_compute; reflexivity).
    intros secs codes secs' codes' code text code' I I' J J'. rewrite forallb_forall in X. specialize (X _ I). rewrite forallb_forall in X. specialize (X _ I'). cbn [fst snd] in X. rewrite forallb_forall in X. specialize (X _ J). rewrite forallb_forall in X. specialize (X _ J'). cbn [fst snd] in X.
    rewrite String.eqb_refl in X. cbn [negb] in X. rewrite orb_false_l in X. apply orb_true_iff in X as [X|X]; apply andb_true_iff in X as [X1 X2].
    - apply String.eqb_eq in X1. destruct (list_eq_dec string_dec secs secs'); [left; split; assumption|discriminate X2].
    - right. split; [apply orb_true_iff in X1 as [X1|X1]; [left|right]; destruct (list_eq_dec (list_eq_dec string_dec) _ _); assumption || discriminate X1|]. apply existsb_exists in X2 as (t & T & Q). apply String.eqb_eq in Q. subst t. exact T. }
  intros secs codes secs' codes' sec sec' raw raw' v v' s I I' S S' H H'.
  assert (Y : forall secs codes sec raw v s, In (secs, codes) route_types -> In sec secs -> shows F007 v (RecView (lit sec) raw) s ->
     (exists code text, In (code, text) codes /\ v = lit code /\ s = lit text) \/ (~ listed codes v /\ s = lit "<UNKNOWN>")).
  { intros secs0 codes0 sec0 raw0 v0 s0 I0 S0 H0. destruct (listed_dec codes0 v0) as [(code & text & J & ->)|L].
    - pose proof (c27_listed _ _ _ _ _ raw0 I0 S0 J) as K. unfold shows in *. rewrite H0 in K. injection K as ->. left. exists code, text. repeat split. exact J.
    - pose proof (c27_other _ _ _ _ raw0 I0 S0 L) as K. unfold shows in *. rewrite H0 in K. injection K as ->. right. split; [exact L|reflexivity]. }
  destruct (Y _ _ _ _ _ _ I S H) as [(code & text & J & -> & ->)|[L ->]]; destruct (Y _ _ _ _ _ _ I' S' H') as [(code' & text' & J' & -> & E)|[L' E]].
  - apply lit_inj in E. subst text'. destruct (W _ _ _ _ _ _ _ I I' J J') as [[-> ->]|[K T]]; [|right; left; split; [exact K|exists text; split; [exact T|reflexivity]]]. left. repeat split. exists code', text. split; [exact J|reflexivity].
  - destruct (U _ _ _ _ I J E).
  - destruct (U _ _ _ _ I' J' (eq_sym E)).
  - right. right. repeat split; assumption.
Qed.
Print Assumptions C83_route.
Theorem C83_route_kind_refuted : forall t raw, In t two_kinds -> exists c c', shows F007 (lit c) (RecView (lit "ER") raw) (lit t) /\ shows F007 (lit c') (RecView (lit "ET") raw) (lit t).
Proof. intros t raw [<-|[<-|[]]]; [exists "R", "M"|exists "S", "N"]; split; vm_compute; reflexivity. Qed.
Print Assumptions C83_route_kind_refuted.

(* ---- waypoint type and name format: the second column is shown only if the first means nothing ---- *)
Lemma first_told : forall codes1 codes2 dflt a b a' b' t1 t2 t1' t2', meaning codes1 a t1 -> meaning codes2 b t2 -> meaning codes1 a' t1' -> meaning codes2 b' t2' ->
  distinct (lit dflt :: texts_of codes1 ++ texts_of codes2) = true -> distinct (texts_of codes1) = true -> distinct (texts_of codes2) = true -> apart codes1 codes2 = true ->
  first_of (t1 ++ t2) dflt = first_of (t1' ++ t2') dflt -> told codes1 a a' /\ (~ listed codes1 [a] -> told codes2 b b').
Proof.
  intros codes1 codes2 dflt a b a' b' t1 t2 t1' t2' A B A' B' D D1 D2 P E.
  assert (N0 : forall u, In u (texts_of codes1 ++ texts_of codes2) -> u <> lit dflt).
  { intros u I ->. cbn [distinct] in D. apply andb_true_iff in D as [D _]. apply negb_true_iff in D. rewrite <- not_true_iff_false in D. apply D. apply among_in. exact I. }
  assert (N1 : forall u, In u (texts_of codes1) -> In u (texts_of codes2) -> False).
  { intros u I J. unfold apart in P. rewrite forallb_forall in P. specialize (P u I). rewrite (proj2 (among_in _ _) J) in P. discriminate P. }
  assert (NL : forall c u, meaning codes1 c [u] -> listed codes1 [c]) by (intros c u [(k & w & I & Q & _)|[_ Q]]; [exists k, w; split; assumption|discriminate Q]).
  destruct (meaning_texts _ _ _ A) as [->|(u1 & -> & I1)]; destruct (meaning_texts _ _ _ A') as [->|(u1' & -> & I1')]; cbn [List.app first_of] in E.
  - split; [eapply meaning_told; try eassumption; reflexivity|]. intros _. destruct (meaning_texts _ _ _ B) as [->|(u2 & -> & I2)]; destruct (meaning_texts _ _ _ B') as [->|(u2' & -> & I2')]; cbn [first_of] in E.
    + eapply meaning_told; try eassumption; reflexivity.
    + destruct (N0 u2'); [apply in_or_app; right; exact I2'|congruence].
    + destruct (N0 u2); [apply in_or_app; right; exact I2|congruence].
    + subst u2'. eapply meaning_told; try eassumption; reflexivity.
  - exfalso. destruct (meaning_texts _ _ _ B) as [->|(u2 & -> & I2)]; cbn [first_of] in E; subst u1'; [exact (N0 _ (in_or_app _ _ _ (or_introl I1')) eq_refl)|exact (N1 _ I1' I2)].
  - exfalso. destruct (meaning_texts _ _ _ B') as [->|(u2 & -> & I2)]; cbn [first_of] in E; subst u1; [exact (N0 _ (in_or_app _ _ _ (or_introl I1)) eq_refl)|exact (N1 _ I1 I2)].
  - subst u1'. split; [eapply meaning_told; try eassumption; reflexivity|]. intro L. destruct (L (NL _ _ A)).
Qed.
Theorem C83_waypoint_type : forall a b rest a' b' rest' r r' s, [a] <> lit "N" -> [a'] <> lit "N" -> shows F042 (a :: b :: rest) r s -> shows F042 (a' :: b' :: rest') r' s ->
  told codes_042_1 a a' /\ (~ listed codes_042_1 [a] -> told codes_042_2 b b').
Proof.
  intros a b rest a' b' rest' r r' s Na Na' H H'. destruct (meaning_total codes_042_1 a) as [t1 A]. destruct (meaning_total codes_042_2 b) as [t2 B]. destruct (meaning_total codes_042_1 a') as [t1' A']. destruct (meaning_total codes_042_2 b') as [t2' B'].
  pose proof (c50_type a b rest r _ _ Na A B) as K. pose proof (c50_type a' b' rest' r' _ _ Na' A' B') as K'. unfold shows in *. rewrite H in K. rewrite H' in K'. injection K as K. injection K' as K'. rewrite K in K'.
  eapply first_told; try eassumption; vm_compute; reflexivity.
Qed.
Print Assumptions C83_waypoint_type.
Theorem C83_name_format : forall a b rest a' b' rest' r r' s, shows F196 (a :: b :: rest) r s -> shows F196 (a' :: b' :: rest') r' s ->
  told codes_196_1 a a' /\ (~ listed codes_196_1 [a] -> told codes_196_2 b b').
Proof.
  intros a b rest a' b' rest' r r' s H H'. destruct (meaning_total codes_196_1 a) as [t1 A]. destruct (meaning_total codes_196_2 b) as [t2 B]. destruct (meaning_total codes_196_1 a') as [t1' A']. destruct (meaning_total codes_196_2 b') as [t2' B'].
  pose proof (c50_name a b rest r _ _ A B) as K. pose proof (c50_name a' b' rest' r' _ _ A' B') as K'. unfold shows in *. rewrite H in K. rewrite H' in K'. injection K as K. injection K' as K'. rewrite K in K'.
  eapply first_told; try eassumption; vm_compute; reflexivity.
Qed.
Print Assumptions C83_name_format.
(* a second column that means something is not told when the first does: an RNAV waypoint (W) is shown alike whether it is a final approach fix (A) or a missed approach fix (M) *)
Theorem C83_second_column_refuted : forall a rest r, listed codes_042_1 [a] -> exists s, forall b, shows F042 (a :: b :: rest) r s.
Proof.
  intros a rest r (k & u & I & E). exists (lit u). intro b.
  assert (Na : [a] <> lit "N") by (rewrite E; cbn [codes_042_1 In] in I; intro Q; apply lit_inj in Q; subst k; repeat (destruct I as [I|I]; [discriminate I|]); destruct I).
  destruct (meaning_total codes_042_2 b) as [t2 B]. apply (c50_type a b rest r [lit u] t2 Na); [|exact B]. left. exists k, u. repeat split; assumption.
Qed.
Print Assumptions C83_second_column_refuted.

(* ---- boundary via: its text tells the first column, and whether the second is E ---- *)
Theorem C83_boundary_via : forall a b rest a' b' rest' r r' s, shows F118 (a :: b :: rest) r s -> shows F118 (a' :: b' :: rest') r' s -> a = a' /\ (b = 69%N <-> b' = 69%N).
Proof.
  assert (Y : forall a b rest r s, shows F118 (a :: b :: rest) r s -> exists code text, In (code, text) codes_118_1 /\ [a] = lit code /\ s = lit text ++ (if N.eqb b 69 then lit ", End of description, return to origin point" else [])).
  { intros a b rest r s H. destruct (listed_dec codes_118_1 [a]) as [(code & text & I & E)|L].
    - assert (K : meaning codes_118_1 a [lit text]) by (left; exists code, text; repeat split; assumption). pose proof (c50_via a b rest r _ K) as Q. unfold shows in *. rewrite H in Q. injection Q as ->. exists code, text. repeat split; assumption.
    - pose proof (c50_via_other a (b :: rest) r L) as Q. unfold shows in H. rewrite H in Q. discriminate Q. }
  intros a b rest a' b' rest' r r' s H H'. destruct (Y _ _ _ _ _ H) as (k & t & I & E & ->). destruct (Y _ _ _ _ _ H') as (k' & t' & I' & E' & Q).
  assert (X : forallb (fun p => forallb (fun q => forallb (fun x : bool => forallb (fun y : bool => negb (str_eqb (lit (snd p) ++ (if x then lit ", End of description, return to origin point" else [])) (lit (snd q) ++ (if y then lit ", End of description, return to origin point" else []))) || (String.eqb (fst p) (fst q) && Bool.eqb x y)) [true; false]) [true; false]) codes_118_1) codes_118_1 = true) by (vm_compute; reflexivity).
  assert (BB : forall x : bool, In x [true; false]) by (intros [|]; [left|right; left]; reflexivity).
  rewrite forallb_forall in X. specialize (X _ I). rewrite forallb_forall in X. specialize (X _ I'). rewrite forallb_forall in X. specialize (X (N.eqb b 69) (BB _)). rewrite forallb_forall in X. specialize (X (N.eqb b' 69) (BB _)). cbn [fst snd] in X.
  rewrite Q, (proj2 (str_eqb_eq _ _) eq_refl) in X. cbn [negb orb] in X. apply andb_true_iff in X as [X1 X2]. apply String.eqb_eq in X1. apply Bool.eqb_prop in X2. subst k'. rewrite <- E' in E. injection E as ->. split; [reflexivity|]. rewrite <- !N.eqb_eq, X2. reflexivity.
Qed.
Print Assumptions C83_boundary_via.
(* ---- airspace usage: its text tells the second column, or that the first is R ---- *)
Theorem C83_usage : forall a b rest a' b' rest' r r' s, shows F082 (a :: b :: rest) r s -> shows F082 (a' :: b' :: rest') r' s -> b = b' \/ (a = 82%N /\ a' = 82%N /\ ~ listed usage_codes [b] /\ ~ listed usage_codes [b']).
Proof.
  assert (Y : forall a b rest r s, shows F082 (a :: b :: rest) r s -> (exists code text, In (code, text) usage_codes /\ [b] = lit code /\ s = lit text) \/ (a = 82%N /\ ~ listed usage_codes [b] /\ s = lit "RNAV")).
  { intros a b rest r s H. destruct (meaning_total usage_codes b) as [t2 B]. pose proof (c50_usage a b rest r t2 B) as K. destruct B as [(code & text & I & E & ->)|[L ->]].
    - left. unfold shows in *. rewrite H in K. injection K as ->. exists code, text. repeat split; assumption.
    - right. destruct (N.eqb_spec a 82) as [->|N]; unfold shows, fails in *; rewrite H in K; [injection K as ->; repeat split; assumption|discriminate K]. }
  intros a b rest a' b' rest' r r' s H H'. destruct (Y _ _ _ _ _ H) as [(k & t & I & E & ->)|(-> & L & ->)]; destruct (Y _ _ _ _ _ H') as [(k' & t' & I' & E' & Q)|(-> & L' & Q)].
  - apply lit_inj in Q. subst t'. left. rewrite (distinct_code usage_codes _ _ _ eq_refl I I') in E. rewrite <- E' in E. injection E as ->. reflexivity.
  - exfalso. apply lit_inj in Q. subst t. cbn [usage_codes In] in I. repeat (destruct I as [I|I]; [discriminate I|]). destruct I.
  - exfalso. apply lit_inj in Q. subst t'. cbn [usage_codes In] in I'. repeat (destruct I' as [I'|I']; [discriminate I'|]). destruct I'.
  - right. repeat split; assumption.
Qed.
Print Assumptions C83_usage.
Example C83_ex : forall r, shows F017 (lit "E  F") r (lit "Essential Waypoint" ++ [10%N] ++ lit "Published Final Approach Fix or Database Final Approach Fix") /\
  shows F042 (lit "WA ") r (lit "RNAV Waypoint") /\ shows F042 (lit "WM ") r (lit "RNAV Waypoint") /\ shows F042 (lit " M ") r (lit "Missed Approach Fix") /\
  shows F118 (lit "GE") r (lit "Great Circle, End of description, return to origin point") /\ shows F082 (lit " B") r (lit "HI and LO Altitude") /\
  shows F007 (lit "1") (RecView (lit "PD") []) (lit "SID Runway Transition") /\ shows F007 (lit "3") (RecView (lit "HE") []) (lit "STAR Runway Transition").
Proof. intro r. repeat split; vm_compute; reflexivity. Qed.
