(* The module functions of the source: parse, search, read_file, read_folder. *)
From Coq Require Import List String NArith ZArith Bool Lia.
From Verif Require Import PyBase PyRepr StrFacts DecoderTables Decoder Layouts Json Record Api Utf8 PySyntax PyEval Source SrcFacts SrcDecoderProps4 SrcStart SrcClasses SrcAttrs SrcRead SrcMethods SrcSession.
Import ListNotations.
Open Scope string_scope.
Open Scope list_scope.
Local Open Scope nat_scope.

(* a method of a Record that a function has made *)
Lemma own_call : forall A (toval : A -> value) a args model files n r L o leg kx k,
  existsb (String.eqb a) ["primary"; "hasCont"; "validate"; "read"; "decode"; "json"] = true -> existsb mutable args = false -> runs a args toval model -> leg_ok leg ->
  exists leg' x, leg_ok leg' /\
    match model r with
    | (o', r', Ok y) =>
        call_method source files (src_run files (S (S (S (S n))))) (Some ("r", KOwn)) (rec_val r) a args (St L o (globs leg recs)) kx k =
        k (toval y) (St (set "r" (KOwn, rec_val r') L) (o ++ o') (globs leg' recs))
    | (o', r', Err e) =>
        e_kind x = e /\
        call_method source files (src_run files (S (S (S (S n))))) (Some ("r", KOwn)) (rec_val r) a args (St L o (globs leg recs)) kx k =
        kx x (St (set "r" (KOwn, rec_val r') L) (o ++ o') (globs leg' recs))
    end.
Proof.
  intros A toval a args model files n r L o leg kx0 k0 I U R K.
  assert (I' : existsb (String.eqb a) ["__init__"; "primary"; "hasCont"; "validate"; "read"; "decode"; "json"] = true) by (cbn [existsb] in *; rewrite I; apply orb_true_r).
  assert (G : get a [("ident", VStr (ident r)); ("raw", VStr (raw r)); ("continuation", VStr (continuation r)); ("fields", fvals (fields r)); ("definition", def_val (definition r))] = None).
  { apply existsb_exists in I. destruct I as (y & I & Y). apply String.eqb_eq in Y. subst y. cbn [In] in I. repeat (destruct I as [<-|I]; [reflexivity|]). destruct I. }
  assert (P : forall L o g v, get "self" L = Some (KSelf, v) -> self_value (fst (rec_method a)) (St L o g) = Some v).
  { intros L0 o0 g0 v0 H. assert (F : match fst (rec_method a) with (x, _) :: _ => x | [] => "" end = "self").
    { apply existsb_exists in I. destruct I as (y & I & Y). apply String.eqb_eq in Y. subst y. cbn [In] in I. repeat (destruct I as [<-|I]; [reflexivity|]). destruct I. }
    unfold self_value. destruct (fst (rec_method a)) as [|[x0 ?] ?]; [discriminate|]. subst x0. cbn [loc]. rewrite H. reflexivity. }
  pose proof (call_own files (S (S (S (S n)))) "r" a _ _ _ args (St L o (globs leg recs)) kx0 k0 (rec_methods a I') G U) as E.
  fold (rec_obj (ident r) (raw r) (continuation r) (fvals (fields r)) (def_val (definition r))) in E. fold (rec_val r) in E.
  match type of E with _ = src_run _ _ _ _ _ _ _ _ ?kx ?k => destruct (R files n r L o leg kx k K) as (leg' & L' & K' & H) end.
  destruct (model r) as [[o' r'] [y|e]].
  - destruct H as [S1 H]. exists leg', (Exc ValueError None). split; [exact K'|]. rewrite E, H. rewrite (P _ _ _ _ S1). reflexivity.
  - destruct H as [S1 (x & X & H)]. exists leg', x. split; [exact K'|]. split; [exact X|]. rewrite E, H, (P _ _ _ _ S1). reflexivity.
Qed.
Lemma r_read : forall files n r line L o leg kx k, leg_ok leg -> exists leg' x, leg_ok leg' /\
  match read r line with
  | (o', r', Ok y) =>
      call_method source files (src_run files (S (S (S (S n))))) (Some ("r", KOwn)) (rec_val r) "read" [VStr line] (St L o (globs leg recs)) kx k =
      k (VBool y) (St (set "r" (KOwn, rec_val r') L) (o ++ o') (globs leg' recs))
  | (o', r', Err e) =>
      e_kind x = e /\
      call_method source files (src_run files (S (S (S (S n))))) (Some ("r", KOwn)) (rec_val r) "read" [VStr line] (St L o (globs leg recs)) kx k =
      kx x (St (set "r" (KOwn, rec_val r') L) (o ++ o') (globs leg' recs))
  end.
Proof. intros files n r line L o leg kx k K. exact (own_call bool VBool "read" [VStr line] _ files n r L o leg kx k eq_refl eq_refl (source_read line) K). Qed.
Lemma r_decode : forall files n r b L o leg kx k, leg_ok leg -> exists leg' x, leg_ok leg' /\
  match decode r b with
  | (o', Ok y) =>
      call_method source files (src_run files (S (S (S (S n))))) (Some ("r", KOwn)) (rec_val r) "decode" [VBool b] (St L o (globs leg recs)) kx k =
      k (VTableText y) (St (set "r" (KOwn, rec_val r) L) (o ++ o') (globs leg' recs))
  | (o', Err e) =>
      e_kind x = e /\
      call_method source files (src_run files (S (S (S (S n))))) (Some ("r", KOwn)) (rec_val r) "decode" [VBool b] (St L o (globs leg recs)) kx k =
      kx x (St (set "r" (KOwn, rec_val r) L) (o ++ o') (globs leg' recs))
  end.
Proof.
  intros files n r b L o leg kx k K.
  destruct (own_call _ VTableText "decode" [VBool b] _ files n r L o leg kx k eq_refl eq_refl (source_decode b) K) as (leg' & x & K' & H).
  exists leg', x. split; [exact K'|]. unfold with_self in H. destruct (decode r b) as [o' [y|e]]; exact H.
Qed.

(* function `name` of the package, called with these arguments *)
Definition api (depth : nat) {A} (name : string) (args : list value) (toval : A -> value) (model : disk -> M A) : Prop :=
  forall files n l o leg kx k, leg_ok leg ->
    answers toval (model files) l o recs kx k
      (call_value source files (src_run files (depth + n)) (VFun "arinc424" name) args [] (St l o (globs leg recs)) kx k).
Definition api_fn (name : string) : list (string * option expr) * list stmt :=
  match find_def (module_body source "arinc424") name with Some x => x | None => ([], []) end.
Definition after_read (c : stmt) : list stmt := match c with SIf _ a _ => a | _ => [] end.
Lemma parse_block : forall files n line b o leg kx kr kc k, leg_ok leg ->
  exists leg' L x, leg_ok leg' /\
    let a := src_block files (S (S (S (S n)))) "arinc424" false (snd (api_fn "parse")) (St [("line", (KRef, VStr line)); ("output", (KRef, VBool b))] o (globs leg recs)) kx kr kc k in
    match parse line b with
    | (o', Ok y) => a = kr (VBool y) (St L (o ++ o') (globs leg' recs))
    | (o', Err e) => e_kind x = e /\ a = kx x (St L (o ++ o') (globs leg' recs))
    end.
Proof.
  intros files n line b o leg kx kr kc k K.
  set (L0 := [("line", (KRef, VStr line)); ("output", (KRef, VBool b)); ("r", (KOwn, rec_val new_record))]).
  set (more := fun v s => or_stuck "if" (truth v) (fun t : bool =>
    if t then src_block files (S (S (S (S n)))) "arinc424" false (after_read (nth 1 (snd (api_fn "parse")) SContinue)) s kx kr kc
                (fun s => src_block files (S (S (S (S n)))) "arinc424" false (skipn 2 (snd (api_fn "parse"))) s kx kr kc k)
    else src_block files (S (S (S (S n)))) "arinc424" false [] s kx kr kc
                (fun s => src_block files (S (S (S (S n)))) "arinc424" false (skipn 2 (snd (api_fn "parse"))) s kx kr kc k))).
  match goal with |- context [src_block ?f ?m ?x ?t (snd (api_fn "parse")) ?s kx kr kc k] =>
    replace (src_block f m x t (snd (api_fn "parse")) s kx kr kc k)
      with (call_method source files (src_run files (S (S (S (S n))))) (Some ("r", KOwn)) (rec_val new_record) "read" [VStr line] (St L0 o (globs leg recs)) kx more) by reflexivity
  end.
  unfold parse. destruct (r_read files n new_record line L0 o leg kx more K) as (leg1 & x1 & K1 & H1).
  destruct (read new_record line) as [[o1 r1] [[|]|e1]]; cbv zeta.
  - rewrite H1. clear H1. set (L1 := set "r" (KOwn, rec_val r1) L0).
    set (done := fun (v : value) s => src_block files (S (S (S (S n)))) "arinc424" false (skipn 1 (after_read (nth 1 (snd (api_fn "parse")) SContinue))) s kx kr kc
                (fun s => src_block files (S (S (S (S n)))) "arinc424" false (skipn 2 (snd (api_fn "parse"))) s kx kr kc k)).
    replace (more (VBool true) (St L1 (o ++ o1) (globs leg1 recs)))
      with (call_method source files (src_run files (S (S (S (S n))))) (Some ("r", KOwn)) (rec_val r1) "decode" [VBool b] (St L1 (o ++ o1) (globs leg1 recs)) kx done) by reflexivity.
    destruct (r_decode files n r1 b L1 (o ++ o1) leg1 kx done K1) as (leg2 & x2 & K2 & H2).
    exists leg2, (set "r" (KOwn, rec_val r1) L1), x2. split; [exact K2|]. destruct (decode r1 b) as [o2 [y|e2]]; rewrite List.app_assoc.
    + rewrite H2. reflexivity.
    + exact H2.
  - exists leg1, (set "r" (KOwn, rec_val r1) L0), x1. split; [exact K1|]. rewrite H1. reflexivity.
  - exists leg1, (set "r" (KOwn, rec_val r1) L0), x1. split; [exact K1|]. exact H1.
Qed.
Lemma call_api : forall files n name args s kx k, find_def (module_body source "arinc424") name = Some (fst (api_fn name), snd (api_fn name)) ->
  call_value source files (src_run files (S n)) (VFun "arinc424" name) args [] s kx k =
  match bind_params (fst (api_fn name)) args with
  | None => Stuck "arguments"
  | Some l => src_block files n "arinc424" false (snd (api_fn name)) (St (hold_first KRef l) (out s) (glob s))
                (fun e s' => kx e (leave s s')) (fun v s' => k v (leave s s')) (fun _ => Stuck "continue") (fun s' => k VNone (leave s s'))
  end.
Proof. intros files n name args s kx k F. unfold call_value. rewrite F. apply src_run_S. Qed.
Ltac called :=
  match goal with |- answers _ _ _ _ _ _ _ (match ?b with _ => _ end) => let v := eval lazy -[lit] in b in change b with v end; cbn [hold_first].
Ltac answered H :=
  lazymatch goal with
  | |- exists x, _ /\ _ => let x := fresh "x" in let X := fresh "X" in destruct H as [X H]; eexists; split; [exact X|]; etransitivity; [exact H|]; reflexivity
  | |- _ => etransitivity; [exact H|]; reflexivity
  end.
Lemma parse_call : forall files n args line b l o leg kx k, leg_ok leg ->
  bind_params (fst (api_fn "parse")) args = Some [("line", (KRef, VStr line)); ("output", (KRef, VBool b))] ->
  answers VBool (parse line b) l o recs kx k
    (call_value source files (src_run files (S (S (S (S (S n)))))) (VFun "arinc424" "parse") args [] (St l o (globs leg recs)) kx k).
Proof.
  intros files n args line b l o leg kx k K B. set (s := St l o (globs leg recs)). rewrite call_api, B by reflexivity. cbn [hold_first].
  destruct (parse_block files n line b o leg (fun e s' => kx e (leave s s')) (fun v s' => k v (leave s s')) (fun _ => Stuck "continue")
    (fun s' => k VNone (leave s s')) K) as (leg' & L & x & K' & H).
  exists leg'. split; [exact K'|]. cbv zeta in H. destruct (parse line b) as [o' [y|e]]; answered H.
Qed.
Theorem source_parse : forall line b, api 5 "parse" [VStr line; VBool b] VBool (fun _ => parse line b).
Proof. intros line b files n l o leg kx k K. change (5 + n) with (S (S (S (S (S n))))). exact (parse_call files n [VStr line; VBool b] line b l o leg kx k K eq_refl). Qed.
Theorem source_parse_default : forall line, api 5 "parse" [VStr line] VBool (fun _ => parse line true).
Proof. intros line files n l o leg kx k K. change (5 + n) with (S (S (S (S (S n))))). exact (parse_call files n [VStr line] line true l o leg kx k K eq_refl). Qed.

(* ---- read_file ---- *)
Definition file_vars (path : str) (b : bool) (bs : list N) (line : option value) : locals :=
  [("path", (KRef, VStr path)); ("output", (KRef, VBool b)); ("f", (KOwn, VFile bs))] ++ match line with Some v => [("line", (KRef, v))] | None => [] end.
Definition with_body (c : stmt) : list stmt := match c with SWith _ _ b => b | _ => [] end.
Definition for_body (c : stmt) : list stmt := match c with SFor _ _ b => b | _ => [] end.
Definition parse_line : list stmt := for_body (hd SContinue (with_body (hd SContinue (snd (api_fn "read_file"))))).
Definition file_step (files : disk) (n : nat) (kx : exc -> st -> ans) (kr : value -> st -> ans) (v : value) (s : st) (next : st -> ans) : ans :=
  match get "line" (loc s) with
  | Some (KSelf, _) => Stuck "line"
  | _ => src_block files n "arinc424" false parse_line (bind_local "line" KRef v s) kx kr next next
  end.
Lemma file_step_runs : forall files n path b bs lo o g kx kr line next,
  file_step files n kx kr (VStr line) (St (file_vars path b bs lo) o g) next =
  call_value source files (src_run files n) (VFun "arinc424" "parse") [VStr line; VBool b] [] (St (file_vars path b bs (Some (VStr line))) o g) kx (fun _ s => next s).
Proof. intros. set (body := parse_line). unfold file_step. fold body. lazy in body. subst body. destruct lo; reflexivity. Qed.
Definition parse_each (b : bool) (ls : list str) : M unit := for_each (fun line => parse line b ;;; ret tt) ls.
Lemma file_loop : forall files n path b bs kx kr kend ls lo o leg, leg_ok leg ->
  exists leg' lo' x, leg_ok leg' /\
    let a := for_loop (file_step files (S (S (S (S (S n))))) kx kr) (map VStr ls) (St (file_vars path b bs lo) o (globs leg recs)) kend in
    match parse_each b ls with
    | (o', Ok _) => a = kend (St (file_vars path b bs lo') (o ++ o') (globs leg' recs))
    | (o', Err e) => e_kind x = e /\ a = kx x (St (file_vars path b bs lo') (o ++ o') (globs leg' recs))
    end.
Proof.
  intros files n path b bs kx kr kend ls. unfold parse_each. induction ls as [|line ls IH]; intros lo o leg K; cbn [map for_loop for_each].
  - exists leg, lo, (Exc ValueError None). split; [exact K|]. unfold ret. rewrite List.app_nil_r. reflexivity.
  - rewrite file_step_runs. unfold bind at 1 2. cbv zeta.
    match goal with |- context [call_value source files _ _ _ _ (St ?L _ _) _ ?k] => destruct (parse_call files n [VStr line; VBool b] line b L o leg kx k K eq_refl) as (leg1 & K1 & H1) end.
    destruct (parse line b) as [o1 [y|e]]; cbn [ret].
    + destruct (IH (Some (VStr line)) (o ++ o1) leg1 K1) as (leg2 & lo2 & x2 & K2 & H2). exists leg2, lo2, x2. split; [exact K2|]. rewrite H1. cbv zeta in H2.
      destruct (for_each _ ls) as [o2 [[]|e2]]; rewrite List.app_nil_r, List.app_assoc; exact H2.
    + destruct H1 as (x & X & H1). exists leg1, (Some (VStr line)), x. split; [exact K1|]. split; [exact X|exact H1].
Qed.
Lemma open_call : forall files n x p L o leg kx k, name_value source "arinc424" x (St L o (globs leg recs)) = Some (VStr p) -> get "open" L = None ->
  eval source files (src_run files n) "arinc424" (ECall (EName "open") [EName x] []) (St L o (globs leg recs)) kx k =
  match contents files p with Ok bs => k (VFile bs) (St L o (globs leg recs)) | Err e => kx (Exc e None) (St L o (globs leg recs)) end.
Proof.
  intros files n x p L o leg kx k X G. cbn [eval].
  assert (E : name_value source "arinc424" "open" (St L o (globs leg recs)) = Some (VPrim "builtins" "open")) by (unfold name_value; cbn [loc]; rewrite G; reflexivity).
  rewrite E. cbn [or_stuck mutable eval_list eval_obj]. rewrite X. reflexivity.
Qed.
Lemma readlines_call : forall files n m bs L o g kx k, get "f" L = Some (KOwn, VFile bs) ->
  eval source files (src_run files n) m (ECall (EAttr (EName "f") "readlines") [] []) (St L o g) kx k =
  match decode_utf8 bs with Ok t => k (VList (map VStr (readlines t))) (bind_local "f" KOwn (VFile []) (St L o g)) | Err e => kx (Exc e None) (St L o g) end.
Proof. intros files n m bs L o g kx k F. cbn [eval loc]. rewrite F. cbn [eval_list loc]. rewrite F. reflexivity. Qed.
Lemma file_block : forall files n path b o leg kx kr kc k,
  src_block files n "arinc424" false (snd (api_fn "read_file")) (St [("path", (KRef, VStr path)); ("output", (KRef, VBool b))] o (globs leg recs)) kx kr kc k =
  match contents files path with
  | Err e => kx (Exc e None) (St [("path", (KRef, VStr path)); ("output", (KRef, VBool b))] o (globs leg recs))
  | Ok bs =>
      match decode_utf8 bs with
      | Err e => kx (Exc e None) (St [("path", (KRef, VStr path)); ("output", (KRef, VBool b))] o (globs leg recs))
      | Ok t => for_loop (file_step files n (fun e s => kx e (drop_local "f" s)) (fun v s => kr v (drop_local "f" s))) (map VStr (readlines t))
                  (St (file_vars path b [] None) o (globs leg recs)) (fun s => k (drop_local "f" s))
      end
  end.
Proof.
  intros. unfold file_step. set (p := parse_line). lazy in p. subst p. set (body := snd (api_fn "read_file")). lazy in body. subst body.
  rewrite src_block_with, (open_call _ _ _ path) by reflexivity. destruct (contents files path) as [bs|e]; [|reflexivity].
  change (bind_local "f" KOwn (VFile bs) _) with (St (file_vars path b bs None) o (globs leg recs)).
  rewrite src_block_for, (readlines_call _ _ _ bs) by reflexivity. destruct (decode_utf8 bs) as [t|e]; reflexivity.
Qed.
Lemma file_call : forall files n args path b l o leg kx k, leg_ok leg ->
  bind_params (fst (api_fn "read_file")) args = Some [("path", (KRef, VStr path)); ("output", (KRef, VBool b))] ->
  answers (fun _ => VNone) (read_file (mount files) path b) l o recs kx k
    (call_value source files (src_run files (S (S (S (S (S (S n))))))) (VFun "arinc424" "read_file") args [] (St l o (globs leg recs)) kx k).
Proof.
  intros files n args path b l o leg kx k K B. set (s := St l o (globs leg recs)). rewrite call_api, B by reflexivity. cbn [hold_first].
  change (out s) with o. change (glob s) with (globs leg recs). rewrite file_block.
  unfold read_file, mount. cbn [open_text]. destruct (contents files path) as [bs|e]; cbn [bindR].
  2: { exists leg. split; [exact K|]. cbn [lift bind]. rewrite List.app_nil_r. eexists. split; [|reflexivity]. reflexivity. }
  destruct (decode_utf8 bs) as [t|e].
  2: { exists leg. split; [exact K|]. cbn [lift bind]. rewrite List.app_nil_r. eexists. split; [|reflexivity]. reflexivity. }
  match goal with |- answers _ _ _ _ _ _ _ (for_loop (file_step _ _ ?kx ?kr) _ _ ?ke) =>
    destruct (file_loop files n path b [] kx kr ke (readlines t) None o leg K) as (leg' & lo & x & K' & H) end.
  exists leg'. split; [exact K'|]. cbn [lift bind]. cbv zeta in H. fold (parse_each b (readlines t)). destruct (parse_each b (readlines t)) as [o' [[]|e]]; cbn [List.app].
  - rewrite H. destruct lo; reflexivity.
  - destruct H as [X H]. exists x. split; [exact X|]. rewrite H. destruct lo; reflexivity.
Qed.
Theorem source_read_file : forall path b, api 6 "read_file" [VStr path; VBool b] (fun _ => VNone) (fun files => read_file (mount files) path b).
Proof. intros path b files n l o leg kx k K. change (6 + n) with (S (S (S (S (S (S n)))))). exact (file_call files n [VStr path; VBool b] path b l o leg kx k K eq_refl). Qed.
Theorem source_read_file_default : forall path, api 6 "read_file" [VStr path] (fun _ => VNone) (fun files => read_file (mount files) path true).
Proof. intros path files n l o leg kx k K. change (6 + n) with (S (S (S (S (S (S n)))))). exact (file_call files n [VStr path] path true l o leg kx k K eq_refl). Qed.
