(* C63: whole sessions with the text of the package. *)
From Coq Require Import List String NArith ZArith Bool.
From Verif Require Import PyBase PyRepr StrFacts Utf8Props SpecLayouts Spec ReadProps2 ReadProps3 SpecRecord RecordProps DecoderTables Decoder Layouts Json Record Api Utf8 PySyntax PyEval Source SrcFacts SrcStart SrcCheck SrcClasses SrcRead SrcMethods SrcSession SrcApi SrcApi2 Samples.
Import ListNotations.
Open Scope string_scope.
Open Scope list_scope.
Local Open Scope nat_scope.

(* ================= C63: sessions ================= *)
(* what a caller can ask for: the functions of the package, a new Record object, and the methods of the last one *)
Inductive request :=
| QParse (line : str) (output : option bool)
| QSearch (path : str) (fl : filters)
| QReadFile (path : str) (output : option bool)
| QReadFolder (path : str)
| QRecord
| QRead (line : str)
| QValidate (line : str)
| QPrimary
| QHasCont
| QDecode (output : option bool)
| QJson (output : option bool)
| QJsonLines (output single_line : bool).
Definition given (b : option bool) : bool := match b with Some x => x | None => true end.
(* what the model says: what is printed, the Record afterwards, and the value or exception *)
Definition map_result {A B} (f : A -> B) (x : result A) : result B := match x with Ok a => Ok (f a) | Err e => Err e end.
Definition reply (files : disk) (r : rec) (q : request) : list event * rec * result value :=
  let fn {A} (toval : A -> value) (m : M A) := (fst m, r, map_result toval (snd m)) in
  match q with
  | QParse line b => fn VBool (parse line (given b))
  | QSearch path fl => fn (fun _ => VNone) (search (mount files) path fl)
  | QReadFile path b => fn (fun _ => VNone) (read_file (mount files) path (given b))
  | QReadFolder path => fn (fun _ => VNone) (read_folder (mount files) path)
  | QRecord => ([], new_record, Ok VNone)
  | QRead line => let '(o, r', x) := read r line in (o, r', map_result VBool x)
  | QValidate line => ([], r, Ok (VBool (validate line)))
  | QPrimary => ([], r, Ok (VBool (primary r)))
  | QHasCont => ([], r, Ok (VBool (hasCont r)))
  | QDecode b => fn VTableText (decode r (given b))
  | QJson b => fn VStr (json r (given b) true)
  | QJsonLines b l => fn VStr (json r b l)
  end.
(* the same, asked of the source; s holds the Record in r *)
Definition optional (b : option bool) : list value := match b with Some x => [VBool x] | None => [] end.
Definition method (files : disk) (depth : nat) (a : string) (vars : list (string * value)) (s : st) : ans :=
  ask files depth "r" a (map fst vars) (St (firstn 1 (loc s) ++ map (fun yv => (fst yv, (KRef, snd yv))) vars) (out s) (glob s)).
Definition source_reply (files : disk) (depth : nat) (s : st) (q : request) : ans :=
  let fn name args := call source files depth (VFun "arinc424" name) args s Raised Done in
  let flag b := match b with Some x => [("output", VBool x)] | None => [] end in
  match q with
  | QParse line b => fn "parse" (VStr line :: optional b)
  | QSearch path fl => fn "search" [VStr path; filters_val fl]
  | QReadFile path b => fn "read_file" (VStr path :: optional b)
  | QReadFolder path => fn "read_folder" [VStr path]
  | QRecord => call source files depth (VClass "arinc424.record" "Record") [] s Raised (fun v s' => Done VNone (St [("r", (KOwn, v))] (out s') (glob s')))
  | QRead line => method files depth "read" [("line", VStr line)] s
  | QValidate line => method files depth "validate" [("line", VStr line)] s
  | QPrimary => method files depth "primary" [] s
  | QHasCont => method files depth "hasCont" [] s
  | QDecode b => method files depth "decode" (flag b) s
  | QJson b => method files depth "json" (flag b) s
  | QJsonLines b l => method files depth "json" [("output", VBool b); ("single_line", VBool l)] s
  end.
(* the replies to a list of requests, exceptions being caught and the session going on, and everything printed *)
Fixpoint replies (files : disk) (r : rec) (o : list event) (qs : list request) : list (result value) * list event :=
  match qs with
  | [] => ([], o)
  | q :: qs' => let '(o', r', x) := reply files r q in let (xs, o'') := replies files r' (o ++ o') qs' in (x :: xs, o'')
  end.
Fixpoint source_replies (files : disk) (depth : nat) (s : st) (qs : list request) : option (list (result value) * list event) :=
  match qs with
  | [] => Some ([], out s)
  | q :: qs' =>
      match source_reply files depth s q with
      | Stuck _ => None
      | Done v s' => match source_replies files depth s' qs' with Some (xs, o) => Some (Ok v :: xs, o) | None => None end
      | Raised e s' => match source_replies files depth s' qs' with Some (xs, o) => Some (Err (e_kind e) :: xs, o) | None => None end
      end
  end.
(* import arinc424; r = Record(); the requests *)
Definition source_session (files : disk) (depth : nat) (qs : list request) : option (list (result value) * list event) :=
  match import_all source files depth source (St [] [] []) (fun s => source_reply files depth s QRecord) with
  | Done _ s => source_replies files depth s qs
  | _ => None
  end.
(* one request *)
Definition stands (files : disk) (m : list event * rec * result value) (o : list event) (a : ans) : Prop :=
  exists leg vars, leg_ok leg /\
  match m with
  | (o', r, Ok v) => a = Done v (session "r" KOwn (rec_val r) vars (o ++ o') leg)
  | (o', r, Err e) => exists x, e_kind x = e /\ a = Raised x (session "r" KOwn (rec_val r) vars (o ++ o') leg)
  end.
Lemma stands_api : forall A depth name args (toval : A -> value) model files n r vars o leg, api depth name args toval model -> leg_ok leg ->
  stands files (fst (model files), r, map_result toval (snd (model files))) o
    (call source files (depth + n) (VFun "arinc424" name) args (session "r" KOwn (rec_val r) vars o leg) Raised Done).
Proof.
  intros A depth name args toval model files n r vars o leg H L. set (s := session "r" KOwn (rec_val r) vars o leg).
  destruct (H files n (loc s) o leg Raised Done L) as (leg' & L' & E). exists leg', vars. split; [exact L'|].
  change (St (loc s) o (globs leg recs)) with s in E. destruct (model files) as [o' [y|e]]; exact E.
Qed.
Lemma stands_gives : forall A (toval : A -> value) o' r' (x : result A) files o vars a,
  gives toval (o', rec_val r', x) "r" KOwn vars o a -> stands files (o', r', map_result toval x) o a.
Proof.
  intros A toval o' r' [y|e] files o vars a H.
  - destruct H as (leg & L & H). exists leg, vars. split; [exact L|exact H].
  - destruct H as (leg & x & L & X & H). exists leg, vars. split; [exact L|]. exists x. split; [exact X|exact H].
Qed.
Lemma method_ask : forall files depth a vars vars' r o leg,
  method files depth a vars (session "r" KOwn (rec_val r) vars' o leg) = ask files depth "r" a (map fst vars) (session "r" KOwn (rec_val r) vars o leg).
Proof. reflexivity. Qed.
Lemma method_runs : forall A a vars (toval : A -> value) model files n r vars' o leg,
  existsb (String.eqb a) ["primary"; "hasCont"; "validate"; "read"; "decode"; "json"] = true ->
  (ask files (7 + n) "r" a (map fst vars) (session "r" KOwn (rec_val r) vars o leg) =
   call_method source files (src_run files (7 + n)) (Some ("r", KOwn)) (rec_val r) a (map snd vars) (session "r" KOwn (rec_val r) vars o leg) Raised Done) ->
  existsb mutable (map snd vars) = false ->
  runs a (map snd vars) toval model -> leg_ok leg ->
  stands files (let '(o', r', x) := model r in (o', r', map_result toval x)) o (method files (7 + n) a vars (session "r" KOwn (rec_val r) vars' o leg)).
Proof.
  intros A a vars toval model files n r vars' o leg I E U R L. rewrite method_ask.
  pose proof (session_call A toval a (map fst vars) (map snd vars) vars model files (3 + n) r o leg I ltac:(intros s ->; exact E) U R L) as H.
  unfold on_record in H. destruct (model r) as [[o' r'] x]. exact (stands_gives _ _ _ _ _ files _ _ _ H).
Qed.
Lemma request_stands : forall files n q r vars o leg, leg_ok leg ->
  stands files (reply files r q) o (source_reply files (7 + n) (session "r" KOwn (rec_val r) vars o leg) q).
Proof.
  intros files n q r vars o leg L. unfold source_reply, reply. cbv zeta. destruct q as [line b|path fl|path b|path| |line|line| | |b|b|b l].
  - destruct b as [b|].
    + exact (stands_api _ 5 "parse" _ _ _ files (2 + n) r vars o leg (source_parse line b) L).
    + exact (stands_api _ 5 "parse" _ _ _ files (2 + n) r vars o leg (source_parse_default line) L).
  - exact (stands_api _ 5 "search" _ _ _ files (2 + n) r vars o leg (source_search path fl) L).
  - destruct b as [b|].
    + exact (stands_api _ 6 "read_file" _ _ _ files (1 + n) r vars o leg (source_read_file path b) L).
    + exact (stands_api _ 6 "read_file" _ _ _ files (1 + n) r vars o leg (source_read_file_default path) L).
  - exact (stands_api _ 7 "read_folder" _ _ _ files n r vars o leg (source_read_folder path) L).
  - exists leg, []. split; [exact L|]. rewrite List.app_nil_r. exact (source_Record files (6 + n) (session "r" KOwn (rec_val r) vars o leg) Raised (fun v s' => Done VNone (St [("r", (KOwn, v))] (out s') (glob s')))).
  - pose proof (method_runs _ "read" [("line", VStr line)] VBool _ files n r vars o leg eq_refl eq_refl eq_refl (source_read line) L) as H. destruct (read r line) as [[o' r'] x]. exact H.
  - exact (method_runs _ "validate" [("line", VStr line)] VBool _ files n r vars o leg eq_refl eq_refl eq_refl (source_validate line) L).
  - exact (method_runs _ "primary" [] VBool _ files n r vars o leg eq_refl eq_refl eq_refl source_primary L).
  - exact (method_runs _ "hasCont" [] VBool _ files n r vars o leg eq_refl eq_refl eq_refl source_hasCont L).
  - destruct b as [b|]; cbn [given].
    + pose proof (method_runs _ "decode" [("output", VBool b)] VTableText _ files n r vars o leg eq_refl eq_refl eq_refl (source_decode b) L) as H. unfold with_self in H. destruct (decode r b). exact H.
    + pose proof (method_runs _ "decode" [] VTableText _ files n r vars o leg eq_refl eq_refl eq_refl source_decode_default L) as H. unfold with_self in H. destruct (decode r true). exact H.
  - destruct b as [b|]; cbn [given].
    + pose proof (method_runs _ "json" [("output", VBool b)] VStr _ files n r vars o leg eq_refl eq_refl eq_refl (source_json_output b) L) as H. unfold with_self in H. destruct (json r b true). exact H.
    + pose proof (method_runs _ "json" [] VStr _ files n r vars o leg eq_refl eq_refl eq_refl source_json_default L) as H. unfold with_self in H. destruct (json r true true). exact H.
  - pose proof (method_runs _ "json" [("output", VBool b); ("single_line", VBool l)] VStr _ files n r vars o leg eq_refl eq_refl eq_refl (source_json b l) L) as H. unfold with_self in H. destruct (json r b l). exact H.
Qed.
Lemma replies_stand : forall files n qs r vars o leg, leg_ok leg ->
  source_replies files (7 + n) (session "r" KOwn (rec_val r) vars o leg) qs = Some (replies files r o qs).
Proof.
  intros files n qs. induction qs as [|q qs IH]; intros r vars o leg L; [reflexivity|]. cbn [source_replies replies].
  destruct (request_stands files n q r vars o leg L) as (leg' & vars' & L' & H). destruct (reply files r q) as [[o' r'] [v|e]].
  - rewrite H, (IH r' vars' (o ++ o') leg' L'). destruct (replies files r' (o ++ o') qs). reflexivity.
  - destruct H as (x & X & H). rewrite H, (IH r' vars' (o ++ o') leg' L'), X. destruct (replies files r' (o ++ o') qs). reflexivity.
Qed.
(* a session with the source goes as the model says, whatever is asked in whatever order: it is never stuck *)
Theorem C63_session : forall files n qs, source_session files (7 + n) qs = Some (replies files new_record [] qs).
Proof.
  intros files n qs. unfold source_session. change (7 + n) with (S (S (5 + n))). rewrite import_source. change (S (S (5 + n))) with (7 + n).
  unfold source_reply at 1. cbv zeta. unfold call. change (7 + n) with (S (6 + n)) at 1. rewrite source_Record. exact (replies_stand files n qs new_record [] [] leg0 leg0_ok).
Qed.
Print Assumptions C63_session.
(* what was asked before does not matter to the functions of the package *)
Definition of_package (q : request) : Prop := match q with QParse _ _ | QSearch _ _ | QReadFile _ _ | QReadFolder _ => True | _ => False end.
Lemma replies_app : forall files qs q r o, of_package q -> exists xs o',
  replies files r o (qs ++ [q]) = (xs ++ [snd (reply files new_record q)], o' ++ fst (fst (reply files new_record q))).
Proof.
  intros files qs q. induction qs as [|q' qs IH]; intros r o Q.
  - exists [], o. destruct q; try destruct Q; cbn; reflexivity.
  - cbn [List.app replies]. destruct (reply files r q') as [[o1 r1] x]. destruct (IH r1 (o ++ o1) Q) as (xs & o' & H). rewrite H. exists (x :: xs), o'. reflexivity.
Qed.
Theorem C63_earlier_calls : forall files n qs q, of_package q -> exists x o xs o',
  source_session files (7 + n) [q] = Some ([x], o) /\ source_session files (7 + n) (qs ++ [q]) = Some (xs ++ [x], o' ++ o).
Proof.
  intros files n qs q Q. destruct (replies_app files qs q new_record [] Q) as (xs & o' & H).
  exists (snd (reply files new_record q)), (fst (fst (reply files new_record q))), xs, o'. rewrite !C63_session, H. split; [|reflexivity].
  cbn [replies]. destruct (reply files new_record q) as [[o1 r1] x]. reflexivity.
Qed.
Print Assumptions C63_earlier_calls.
(* and no sequence of calls brings any other exception than these *)
Theorem C63_exceptions : forall files n qs xs o e,
  (forall p e, contents files p = Err e -> e = OSError) -> (forall p e, entries files p = Err e -> e = OSError) ->
  source_session files (7 + n) qs = Some (xs, o) -> In (Err e) xs -> e = ValueError \/ e = SystemExit \/ e = OSError.
Proof.
  intros files n qs xs o e F D H I. rewrite C63_session in H. injection H as H.
  assert (R : reachable new_record) by constructor. revert R H. generalize new_record. generalize (@nil event) at 1.
  intros o0 r R H. revert o0 r xs o R H I. 
  assert (P : forall p e, open_text (mount files) p = Err e -> e = OSError \/ e = ValueError).
  { intros p e0. cbn [mount open_text]. destruct (contents files p) as [bs|e1] eqn:C; cbn [bindR]; intro H; [right; exact (decode_error _ _ _ (le_n _) H)|left; injection H as <-; exact (F _ _ C)]. }
  induction qs as [|q qs IH]; intros o0 r xs o R H I; cbn [replies] in H; [injection H as <- _; destruct I|].
  assert (S1 : reachable (snd (fst (reply files r q))) /\ forall e, snd (reply files r q) = Err e -> e = ValueError \/ e = SystemExit \/ e = OSError).
  { assert (W : forall A (toval : A -> value) (m : M A) e, snd (fst m, r, map_result toval (snd m)) = Err e -> snd m = Err e).
    { intros A toval [m0 [a|e0]] e1; cbn [snd fst map_result]; congruence. }
    assert (T : forall p b e, snd (read_file (mount files) p b) = Err e -> e = ValueError \/ e = SystemExit \/ e = OSError).
    { intros p b e0 H0. destruct (c08_read_file _ _ _ _ H0) as [H1|[H1|H1]]; auto. destruct (P _ _ H1); auto. }
    destruct q as [line b|path fl|path b|path| |line|line| | |b|b|b l]; (split; [try exact R|]).
    - intros e0 H0. apply W in H0. destruct (c08_parse _ _ _ H0); auto.
    - intros e0 H0. apply W in H0. destruct (c08_search _ _ _ _ H0) as [H1|H1]; auto. destruct (P _ _ H1); auto.
    - intros e0 H0. apply W in H0. exact (T _ _ _ H0).
    - intros e0 H0. apply W in H0. unfold read_folder in H0. cbn [mount scandir] in H0. destruct (entries files path) as [names|e1] eqn:N; cbn [lift bind snd] in H0.
      + cbn [List.app] in H0. destruct (for_each _ names) as [o2 x2] eqn:E2. cbn [snd] in H0. subst x2.
        clear N. revert o2 E2. induction names as [|nm names IN]; intros o2 E2; cbn [for_each] in E2; [discriminate|].
        unfold bind in E2. specialize (T (path_join path nm) true). destruct (read_file (mount files) (path_join path nm) true) as [o3 [u|e3]].
        * destruct (for_each _ names) as [o4 x4]. injection E2 as _ ->. exact (IN _ eq_refl).
        * injection E2 as _ ->. exact (T _ eq_refl).
      + injection H0 as <-. right. right. exact (D _ _ N).
    - constructor.
    - discriminate.
    - cbn [reply]. replace (snd (fst (let '(o', r', x) := read r line in (o', r', map_result VBool x)))) with (after (read r line)) by (unfold after; destruct (read r line) as [[? ?] ?]; reflexivity). constructor. exact R.
    - cbn [reply]. intros e0 H0. left. apply (read_raises_value_error r line e0). unfold returned. destruct (read r line) as [[? ?] [?|?]]; cbn [snd map_result] in *; congruence.
    - discriminate.
    - discriminate.
    - discriminate.
    - intros e0 H0. apply W in H0. destruct (c08_decode _ _ _ R H0); auto.
    - intros e0 H0. apply W in H0. destruct (c08_json r (given b) true) as [t T']. congruence.
    - intros e0 H0. apply W in H0. destruct (c08_json r b l) as [t T']. congruence. }
  destruct (reply files r q) as [[o1 r1] x]. destruct S1 as [R1 X]. destruct (replies files r1 (o0 ++ o1) qs) as [xs1 o2] eqn:E.
  injection H as <- _. destruct I as [->|I]; [exact (X e eq_refl)|exact (IH _ _ _ _ R1 E I)].
Qed.
Print Assumptions C63_exceptions.
(* the interpreter finds names as Python does: no function hides a global name, nothing is used before it is defined *)
Theorem C63_names : text_ok source = true.
Proof. exact source_ok. Qed.
Print Assumptions C63_names.
Example C63_ex : source_session one_file 7 [QParse l_airway_x None; QRead l_sea; QRead (lit "HDR"); QPrimary; QHasCont; QRead l_airway_x; QPrimary; QRecord; QPrimary; QReadFile (lit "b") None] =
  Some ([Err ValueError; Ok (VBool true); Ok (VBool false); Ok (VBool true); Ok (VBool true); Err ValueError; Ok (VBool false); Ok VNone; Ok (VBool false); Err OSError], []).
Proof. vm_compute. reflexivity. Qed.
