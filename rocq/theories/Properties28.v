(* C86: flags that are neither True nor False. *)
From Coq Require Import List String NArith ZArith Bool.
From Verif Require Import PyBase PyRepr StrFacts Decoder Layouts Json Record Api Utf8 PySyntax PyEval Source SrcFacts SrcStart SrcClasses SrcAttrs SrcRead SrcMethods SrcSession SrcApi SpecApi Samples.
Import ListNotations.
Open Scope string_scope.
Open Scope list_scope.
Local Open Scope nat_scope.

(* ================= C86 ================= *)
(* what `output is True` makes of an argument *)
Definition on (v : value) : bool := match v with VBool b => b | _ => false end.
Lemma is_true : forall v, compare CmpIs v (VBool true) = Some (on v).
Proof. intros []; try reflexivity. destruct b; reflexivity. Qed.

Lemma decode_end_runs : forall files n r v rows fo o leg kx k kc kn, mutable v = false ->
  src_block files n "arinc424.record" false decode_end (St (tab r v rows fo) o (globs leg recs)) kx k kc kn =
  k (VTableText rows) (St (tab r v rows fo) (o ++ if on v then [EvTable rows] else []) (globs leg recs)).
Proof.
  intros files n r v rows fo o leg kx k kc kn V. set (b := decode_end). lazy in b. subst b. destruct v as [|[|]| | | | | | | | | | | | | | | | | | | |]; try discriminate V; destruct fo; cbn [on]; rewrite ?List.app_nil_r; reflexivity.
Qed.
Lemma decode_any : forall files n r v o leg kx k, mutable v = false -> leg_ok leg ->
  self_answers VTableText (with_self (decode r (on v)) r) o kx k
    (src_block files (S (S (S n))) "arinc424.record" false (snd (rec_method "decode"))
       (St [("self", (KSelf, rec_val r)); ("output", (KRef, v))] o (globs leg recs)) kx k (fun _ => Stuck "continue") (fun s' => k VNone s')).
Proof.
  intros files n r v o leg kx k V L. set (ke := fun s => src_block files (S (S (S n))) "arinc424.record" false decode_end s kx k (fun _ => Stuck "continue") (fun s' => k VNone s')).
  match goal with |- self_answers _ _ _ _ _ ?a =>
    assert (E : a = for_loop (row_step files (S (S (S n))) kx k) (map fval (fields r)) (St (tab r v [] None) o (globs leg recs)) ke) by reflexivity; rewrite E; clear E
  end.
  destruct (rows_loop files n r v kx k ke (fields r) [] None o leg L) as (leg' & rows' & fo & x & L' & H & X).
  rewrite H. clear H. unfold with_self, decode, bind. destruct (decode_rows (view r) (fields r)) as [o' [rows|e]].
  - exists leg', (tab r v rows fo). split; [exact L'|]. unfold ke. cbn [List.app]. rewrite decode_end_runs by exact V.
    destruct (on v); cbn [emit ret fst snd List.app]; rewrite ?List.app_nil_r, ?List.app_assoc; (split; [destruct fo; reflexivity|reflexivity]).
  - exists leg', (tab r v rows' fo). split; [exact L'|]. split; [destruct fo; reflexivity|]. exists x. split; [exact (X _ _ eq_refl)|reflexivity].
Qed.
(* decode prints its table for True only: not for 1, a non-empty text, or any other value that counts as true *)
Theorem C86_decode : forall v, mutable v = false -> runs "decode" [v] VTableText (fun r => with_self (decode r (on v)) r).
Proof. intros v V files n r l o leg kx k L. exact (decode_any files n r v o leg kx k V L). Qed.
Print Assumptions C86_decode.

(* json: likewise; single_line is asked for its truth *)
Lemma json_end_any : forall files n r v w sl items d fo o leg kx k kc kn, str_items items = Some d -> mutable v = false -> mutable w = false -> truth w = Some sl ->
  src_block files n "arinc424.record" false json_end (St (jvars r v w items fo) o (globs leg recs)) kx k kc kn =
  let data := if sl then dumps (py_dict d) else dumps_pretty (py_dict d) in
  k (VStr data) (St (jvars r v w items fo ++ [("data", (KRef, VStr data))])%list (o ++ if on v then [EvPrint data] else []) (globs leg recs)).
Proof.
  intros files n r v w sl items dd fo o leg kx k kc kn D V M T. set (b := json_end). lazy in b. subst b.
  assert (W : forall kx' k' o', eval source files (src_run files n) "arinc424.record" (EName "single_line") (St (jvars r v w items fo) o' (globs leg recs)) kx' k' = k' w (St (jvars r v w items fo) o' (globs leg recs))).
  { clear - M. intros kx' k' o'. destruct w; try discriminate M; destruct fo; reflexivity. }
  assert (A : forall kx' kr' kc' k', src_block files n "arinc424.record" false (if sl then [SAssign (EName "data") (ECall (EAttr (EName "json") "dumps") [EName "d"] [])]
      else [SAssign (EName "data") (ECall (EAttr (EName "json") "dumps") [EName "d"] [("sort_keys", EBool true); ("indent", EInt 4); ("separators", ETuple [EStr ","; EStr ": "])])])
      (St (jvars r v w items fo) o (globs leg recs)) kx' kr' kc' k' =
    k' (St (jvars r v w items fo ++ [("data", (KRef, VStr (if sl then dumps (py_dict dd) else dumps_pretty (py_dict dd))))])%list o (globs leg recs))).
  { clear - D. intros kx' kr' kc' k'. destruct r as [i w0 c fs d]. unfold jvars, rec_val. destruct sl, fo; cbn [ident raw continuation fields definition List.app];
    match goal with |- _ = ?y => remember y as m end; repeat mod_step; subst m; reflexivity. }
  set (data := if sl then dumps (py_dict dd) else dumps_pretty (py_dict dd)) in *. cbv zeta.
  assert (B : forall o', src_block files n "arinc424.record" false [SIf (ECmp CmpIs (EName "output") (EBool true)) [SExpr (ECall (EName "print") [EName "data"] [])] []; SReturn (Some (EName "data"))]
      (St (jvars r v w items fo ++ [("data", (KRef, VStr data))])%list o' (globs leg recs)) kx k kc kn =
    k (VStr data) (St (jvars r v w items fo ++ [("data", (KRef, VStr data))])%list (o' ++ if on v then [EvPrint data] else []) (globs leg recs))).
  { clear - V. intro o'. clearbody data. destruct v as [|[|]| | | | | | | | | | | | | | | | | | | |]; try discriminate V; destruct fo; cbn [on]; rewrite ?List.app_nil_r; reflexivity. }
  rewrite src_block_if, W, T. cbn [or_stuck]. destruct sl; rewrite A; apply B.
Qed.
Lemma json_any : forall files n r v w sl o leg kx k, leg_ok leg -> mutable v = false -> mutable w = false -> truth w = Some sl ->
  self_answers VStr (with_self (json r (on v) sl) r) o kx k
    (src_block files n "arinc424.record" false (snd (rec_method "json"))
       (St [("self", (KSelf, rec_val r)); ("output", (KRef, v)); ("single_line", (KRef, w))] o (globs leg recs)) kx k (fun _ => Stuck "continue") (fun s' => k VNone s')).
Proof.
  intros files n r v w sl o leg kx k L V M T.
  set (ke := fun s => src_block files n "arinc424.record" false json_end s kx k (fun _ => Stuck "continue") (fun s' => k VNone s')).
  match goal with |- self_answers _ _ _ _ _ ?a =>
    assert (E : a = for_loop (item_step files n kx k) (map fval (fields r)) (St (jvars r v w (val_items []) None) o (globs leg recs)) ke) by reflexivity; rewrite E; clear E
  end.
  destruct (items_loop files n r v w kx k ke (fields r) [] None o (globs leg recs)) as (fo & E). rewrite E. clear E.
  rewrite List.app_nil_r.
  set (data := if sl then dumps (json_dict (fields r)) else dumps_pretty (json_dict (fields r))).
  exists leg, (jvars r v w (val_items (rev (pairs_of (fields r)))) fo ++ [("data", (KRef, VStr data))])%list. split; [exact L|].
  unfold with_self, json, bind. fold data.
  unfold ke. rewrite (json_end_any files n r v w sl _ (rev (pairs_of (fields r))) fo o leg _ _ _ _ (str_items_vals _) V M T). cbv zeta. rewrite py_dict_fields. fold data.
  destruct (on v); cbn [say emit ret fst snd List.app]; rewrite ?List.app_nil_r; split; reflexivity.
Qed.
Theorem C86_json : forall v w sl, mutable v = false -> mutable w = false -> truth w = Some sl -> runs "json" [v; w] VStr (fun r => with_self (json r (on v) sl) r).
Proof. intros v w sl V M T files n r l o leg kx k L. exact (json_any files (S (S (S n))) r v w sl o leg kx k L V M T). Qed.
Print Assumptions C86_json.

(* parse: prints as with True or as with False *)
Lemma decode_any_call : forall files n r v L o leg kx k, mutable v = false -> leg_ok leg -> exists leg' x, leg_ok leg' /\
  match decode r (on v) with
  | (o', Ok y) =>
      call_method source files (src_run files (S (S (S (S n))))) (Some ("r", KOwn)) (rec_val r) "decode" [v] (St L o (globs leg recs)) kx k =
      k (VTableText y) (St (set "r" (KOwn, rec_val r) L) (o ++ o') (globs leg' recs))
  | (o', Err e) =>
      e_kind x = e /\
      call_method source files (src_run files (S (S (S (S n))))) (Some ("r", KOwn)) (rec_val r) "decode" [v] (St L o (globs leg recs)) kx k =
      kx x (St (set "r" (KOwn, rec_val r) L) (o ++ o') (globs leg' recs))
  end.
Proof.
  intros files n r v L o leg kx k V K. assert (U : existsb mutable [v] = false) by (cbn [existsb]; rewrite V; reflexivity).
  destruct (own_call _ VTableText "decode" [v] _ files n r L o leg kx k eq_refl U (C86_decode v V) K) as (leg' & x & K' & H).
  exists leg', x. split; [exact K'|]. unfold with_self in H. destruct (decode r (on v)) as [o' [y|e]]; exact H.
Qed.
Lemma parse_any : forall files n line v o leg kx kr kc k, mutable v = false -> leg_ok leg ->
  exists leg' L x, leg_ok leg' /\
    let a := src_block files (S (S (S (S n)))) "arinc424" false (snd (api_fn "parse")) (St [("line", (KRef, VStr line)); ("output", (KRef, v))] o (globs leg recs)) kx kr kc k in
    match parse line (on v) with
    | (o', Ok y) => a = kr (VBool y) (St L (o ++ o') (globs leg' recs))
    | (o', Err e) => e_kind x = e /\ a = kx x (St L (o ++ o') (globs leg' recs))
    end.
Proof.
  intros files n line v o leg kx kr kc k V K.
  set (L0 := [("line", (KRef, VStr line)); ("output", (KRef, v)); ("r", (KOwn, rec_val new_record))]).
  set (more := fun v s => or_stuck "if" (truth v) (fun t : bool =>
    if t then src_block files (S (S (S (S n)))) "arinc424" false (after_read (nth 1 (snd (api_fn "parse")) SContinue)) s kx kr kc
                (fun s => src_block files (S (S (S (S n)))) "arinc424" false (skipn 2 (snd (api_fn "parse"))) s kx kr kc k)
    else src_block files (S (S (S (S n)))) "arinc424" false [] s kx kr kc
                (fun s => src_block files (S (S (S (S n)))) "arinc424" false (skipn 2 (snd (api_fn "parse"))) s kx kr kc k))).
  match goal with |- context [src_block ?f ?m ?x ?t (snd (api_fn "parse")) ?s kx kr kc k] =>
    replace (src_block f m x t (snd (api_fn "parse")) s kx kr kc k)
      with (call_method source files (src_run files (S (S (S (S n))))) (Some ("r", KOwn)) (rec_val new_record) "read" [VStr line] (St L0 o (globs leg recs)) kx more) by reflexivity
  end.
  unfold parse. destruct (r_read files n new_record line L0 o leg kx more K) as (leg1 & x1 & K1 & H1).
  destruct (read new_record line) as [[o1 r1] [[|]|e1]]; cbv zeta.
  - rewrite H1. clear H1. set (L1 := set "r" (KOwn, rec_val r1) L0).
    set (done := fun (v : value) s => src_block files (S (S (S (S n)))) "arinc424" false (skipn 1 (after_read (nth 1 (snd (api_fn "parse")) SContinue))) s kx kr kc
                (fun s => src_block files (S (S (S (S n)))) "arinc424" false (skipn 2 (snd (api_fn "parse"))) s kx kr kc k)).
    replace (more (VBool true) (St L1 (o ++ o1) (globs leg1 recs)))
      with (call_method source files (src_run files (S (S (S (S n))))) (Some ("r", KOwn)) (rec_val r1) "decode" [v] (St L1 (o ++ o1) (globs leg1 recs)) kx done).
    2:{ clear - V. destruct v; try discriminate V; reflexivity. }
    destruct (decode_any_call files n r1 v L1 (o ++ o1) leg1 kx done V K1) as (leg2 & x2 & K2 & H2).
    exists leg2, (set "r" (KOwn, rec_val r1) L1), x2. split; [exact K2|]. destruct (decode r1 (on v)) as [o2 [y|e2]]; rewrite List.app_assoc.
    + rewrite H2. reflexivity.
    + exact H2.
  - exists leg1, (set "r" (KOwn, rec_val r1) L0), x1. split; [exact K1|]. rewrite H1. reflexivity.
  - exists leg1, (set "r" (KOwn, rec_val r1) L0), x1. split; [exact K1|]. exact H1.
Qed.
Theorem C86_parse : forall line v, mutable v = false -> api 5 "parse" [VStr line; v] VBool (fun _ => parse line (on v)).
Proof.
  intros line v V files n l o leg kx k K. change (5 + n) with (S (S (S (S (S n))))). set (s := St l o (globs leg recs)). rewrite call_api by reflexivity.
  change (bind_params (fst (api_fn "parse")) [VStr line; v]) with (Some [("line", (KRef, VStr line)); ("output", (KRef, v))]). cbn [hold_first].
  destruct (parse_any files n line v o leg (fun e s' => kx e (leave s s')) (fun v s' => k v (leave s s')) (fun _ => Stuck "continue")
    (fun s' => k VNone (leave s s')) V K) as (leg' & L & x & K' & H).
  exists leg'. split; [exact K'|]. cbv zeta in H. destruct (parse line (on v)) as [o' [y|e]]; answered H.
Qed.
Print Assumptions C86_parse.

(* read_file hands the flag on *)
Definition any_vars (path : str) (v : value) (bs : list N) (line : option value) : locals :=
  [("path", (KRef, VStr path)); ("output", (KRef, v)); ("f", (KOwn, VFile bs))] ++ match line with Some v => [("line", (KRef, v))] | None => [] end.
Lemma any_step : forall files n path v bs lo o g kx kr line next, mutable v = false ->
  file_step files n kx kr (VStr line) (St (any_vars path v bs lo) o g) next =
  call_value source files (src_run files n) (VFun "arinc424" "parse") [VStr line; v] [] (St (any_vars path v bs (Some (VStr line))) o g) kx (fun _ s => next s).
Proof. intros files n path v bs lo o g kx kr line next V. set (body := parse_line). unfold file_step. fold body. lazy in body. subst body. destruct v; try discriminate V; destruct lo; reflexivity. Qed.
Lemma any_loop : forall files n path v bs kx kr kend ls lo o leg, mutable v = false -> leg_ok leg ->
  exists leg' lo' x, leg_ok leg' /\
    let a := for_loop (file_step files (S (S (S (S (S n))))) kx kr) (map VStr ls) (St (any_vars path v bs lo) o (globs leg recs)) kend in
    match parse_each (on v) ls with
    | (o', Ok _) => a = kend (St (any_vars path v bs lo') (o ++ o') (globs leg' recs))
    | (o', Err e) => e_kind x = e /\ a = kx x (St (any_vars path v bs lo') (o ++ o') (globs leg' recs))
    end.
Proof.
  intros files n path v bs kx kr kend ls lo o leg V. revert lo o leg. unfold parse_each. induction ls as [|line ls IH]; intros lo o leg K; cbn [map for_loop for_each].
  - exists leg, lo, (Exc ValueError None). split; [exact K|]. unfold ret. rewrite List.app_nil_r. reflexivity.
  - rewrite any_step by exact V. unfold bind at 1 2. cbv zeta.
    match goal with |- context [call_value source files _ _ _ _ (St ?L _ _) _ ?k] => destruct (C86_parse line v V files n L o leg kx k K) as (leg1 & K1 & H1) end.
    destruct (parse line (on v)) as [o1 [y|e]]; cbn [ret].
    + destruct (IH (Some (VStr line)) (o ++ o1) leg1 K1) as (leg2 & lo2 & x2 & K2 & H2). exists leg2, lo2, x2. split; [exact K2|]. change (5 + n) with (S (S (S (S (S n))))) in H1. rewrite H1. cbv zeta in H2.
      destruct (for_each _ ls) as [o2 [[]|e2]]; rewrite List.app_nil_r, List.app_assoc; exact H2.
    + destruct H1 as (x & X & H1). exists leg1, (Some (VStr line)), x. split; [exact K1|]. split; [exact X|exact H1].
Qed.
Lemma any_block : forall files n path v o leg kx kr kc k,
  src_block files n "arinc424" false (snd (api_fn "read_file")) (St [("path", (KRef, VStr path)); ("output", (KRef, v))] o (globs leg recs)) kx kr kc k =
  match contents files path with
  | Err e => kx (Exc e None) (St [("path", (KRef, VStr path)); ("output", (KRef, v))] o (globs leg recs))
  | Ok bs =>
      match decode_utf8 bs with
      | Err e => kx (Exc e None) (St [("path", (KRef, VStr path)); ("output", (KRef, v))] o (globs leg recs))
      | Ok t => for_loop (file_step files n (fun e s => kx e (drop_local "f" s)) (fun v s => kr v (drop_local "f" s))) (map VStr (readlines t))
                  (St (any_vars path v [] None) o (globs leg recs)) (fun s => k (drop_local "f" s))
      end
  end.
Proof.
  intros. unfold file_step. set (p := parse_line). lazy in p. subst p. set (body := snd (api_fn "read_file")). lazy in body. subst body.
  rewrite src_block_with, (open_call _ _ _ path) by reflexivity. destruct (contents files path) as [bs|e]; [|reflexivity].
  change (bind_local "f" KOwn (VFile bs) _) with (St (any_vars path v bs None) o (globs leg recs)).
  rewrite src_block_for, (readlines_call _ _ _ bs) by reflexivity. destruct (decode_utf8 bs) as [t|e]; reflexivity.
Qed.
Theorem C86_read_file : forall path v, mutable v = false -> api 6 "read_file" [VStr path; v] (fun _ => VNone) (fun files => read_file (mount files) path (on v)).
Proof.
  intros path v V files n l o leg kx k K. change (6 + n) with (S (S (S (S (S (S n)))))). set (s := St l o (globs leg recs)). rewrite call_api by reflexivity.
  change (bind_params (fst (api_fn "read_file")) [VStr path; v]) with (Some [("path", (KRef, VStr path)); ("output", (KRef, v))]). cbn [hold_first].
  change (out s) with o. change (glob s) with (globs leg recs). rewrite any_block.
  unfold read_file, mount. cbn [open_text]. destruct (contents files path) as [bs|e]; cbn [bindR].
  2: { exists leg. split; [exact K|]. cbn [lift bind]. rewrite List.app_nil_r. eexists. split; [|reflexivity]. reflexivity. }
  destruct (decode_utf8 bs) as [t|e].
  2: { exists leg. split; [exact K|]. cbn [lift bind]. rewrite List.app_nil_r. eexists. split; [|reflexivity]. reflexivity. }
  match goal with |- answers _ _ _ _ _ _ _ (for_loop (file_step _ _ ?kx ?kr) _ _ ?ke) =>
    destruct (any_loop files n path v [] kx kr ke (readlines t) None o leg V K) as (leg' & lo & x & K' & H) end.
  exists leg'. split; [exact K'|]. cbn [lift bind]. cbv zeta in H. fold (parse_each (on v) (readlines t)). destruct (parse_each (on v) (readlines t)) as [o' [[]|e]]; cbn [List.app].
  - rewrite H. destruct lo; reflexivity.
  - destruct H as [X H]. exists x. split; [exact X|]. rewrite H. destruct lo; reflexivity.
Qed.
Print Assumptions C86_read_file.

(* so a flag that counts as true need not print: parse(line, 1) *)
Theorem C86_truthy_refuted : exists v line, truth v = Some true /\ mutable v = false /\ output_of (parse line true) <> [] /\
  api 5 "parse" [VStr line; v] VBool (fun _ => ([], Ok true)).
Proof.
  exists (VInt 1), l_sea. split; [reflexivity|]. split; [reflexivity|]. split; [intro H; vm_compute in H; discriminate H|].
  assert (E : parse l_sea false = ([], Ok true)) by (vm_compute; reflexivity). rewrite <- E. exact (C86_parse l_sea (VInt 1) eq_refl).
Qed.
Print Assumptions C86_truthy_refuted.
Example C86_ex : map on [VNone; VBool true; VBool false; VInt 1; VStr (lit "yes"); VList []; VOther (lit "<object>")] = [false; true; false; false; false; false; false] /\
  map truth [VNone; VInt 0; VInt 2; VStr []; VStr (lit "no"); VList [VNone]] = [Some false; Some false; Some true; Some false; Some true; Some true].
Proof. split; reflexivity. Qed.
