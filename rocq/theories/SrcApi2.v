(* read_folder and search of the source. *)
From Coq Require Import List String NArith ZArith Bool Lia.
From Verif Require Import PyBase PyRepr StrFacts DecoderTables Decoder Layouts Json Record Api Utf8 PySyntax PyEval Source SrcFacts SrcDecoderProps4 SrcStart SrcClasses SrcAttrs SrcRead SrcMethods SrcSession SrcApi Samples.
Import ListNotations.
Open Scope string_scope.
Open Scope list_scope.
Local Open Scope nat_scope.

(* ---- read_folder ---- *)
Definition folder_vars (path : str) (file : option value) : locals :=
  ("path", (KRef, VStr path)) :: match file with Some v => [("file", (KRef, v))] | None => [] end.
Definition read_entry : list stmt := for_body (hd SContinue (snd (api_fn "read_folder"))).
Definition folder_step (files : disk) (n : nat) (kx : exc -> st -> ans) (kr : value -> st -> ans) (v : value) (s : st) (next : st -> ans) : ans :=
  match get "file" (loc s) with
  | Some (KSelf, _) => Stuck "file"
  | _ => src_block files n "arinc424" false read_entry (bind_local "file" KRef v s) kx kr next next
  end.
Lemma folder_step_runs : forall files n path fo o leg kx kr name next,
  folder_step files n kx kr (VEntry name) (St (folder_vars path fo) o (globs leg recs)) next =
  call_value source files (src_run files n) (VFun "arinc424" "read_file") [VStr (path_join path name)] [] (St (folder_vars path (Some (VEntry name))) o (globs leg recs)) kx (fun _ s => next s).
Proof. intros. set (body := read_entry). unfold folder_step. fold body. lazy in body. subst body. destruct fo; reflexivity. Qed.
Definition file_each (w : world) (path : str) (names : list str) : M unit := for_each (fun name => read_file w (path_join path name) true) names.
Lemma folder_loop : forall files n path kx kr kend names fo o leg, leg_ok leg ->
  exists leg' fo' x, leg_ok leg' /\
    let a := for_loop (folder_step files (S (S (S (S (S (S n)))))) kx kr) (map VEntry names) (St (folder_vars path fo) o (globs leg recs)) kend in
    match file_each (mount files) path names with
    | (o', Ok _) => a = kend (St (folder_vars path fo') (o ++ o') (globs leg' recs))
    | (o', Err e) => e_kind x = e /\ a = kx x (St (folder_vars path fo') (o ++ o') (globs leg' recs))
    end.
Proof.
  intros files n path kx kr kend names. unfold file_each. induction names as [|name names IH]; intros fo o leg K; cbn [map for_loop for_each].
  - exists leg, fo, (Exc ValueError None). split; [exact K|]. unfold ret. rewrite List.app_nil_r. reflexivity.
  - rewrite folder_step_runs. unfold bind at 1. cbv zeta.
    match goal with |- context [call_value source files _ _ _ _ (St ?L _ _) _ ?k] =>
      destruct (file_call files n [VStr (path_join path name)] (path_join path name) true L o leg kx k K eq_refl) as (leg1 & K1 & H1) end.
    destruct (read_file (mount files) (path_join path name) true) as [o1 [[]|e]].
    + destruct (IH (Some (VEntry name)) (o ++ o1) leg1 K1) as (leg2 & fo2 & x2 & K2 & H2). exists leg2, fo2, x2. split; [exact K2|]. rewrite H1. cbv zeta in H2.
      destruct (for_each _ names) as [o2 [[]|e2]]; rewrite List.app_assoc; exact H2.
    + destruct H1 as (x & X & H1). exists leg1, (Some (VEntry name)), x. split; [exact K1|]. split; [exact X|exact H1].
Qed.
Theorem source_read_folder : forall path, api 7 "read_folder" [VStr path] (fun _ => VNone) (fun files => read_folder (mount files) path).
Proof.
  intros path files n l o leg kx k K. change (7 + n) with (S (S (S (S (S (S (S n))))))). set (s := St l o (globs leg recs)). rewrite call_api by reflexivity. called.
  change (out s) with o. change (glob s) with (globs leg recs).
  match goal with |- answers _ _ _ _ _ _ _ (src_block _ _ _ _ _ _ ?kx ?kr ?kc ?k) =>
    assert (E : src_block files (S (S (S (S (S (S n)))))) "arinc424" false (snd (api_fn "read_folder")) (St (folder_vars path None) o (globs leg recs)) kx kr kc k =
      match entries files path with
      | Err e => kx (Exc e None) (St (folder_vars path None) o (globs leg recs))
      | Ok ns => for_loop (folder_step files (S (S (S (S (S (S n)))))) kx kr) (map VEntry ns) (St (folder_vars path None) o (globs leg recs)) k
      end)
  end.
  { unfold folder_step. set (p := read_entry). lazy in p. subst p. set (body := snd (api_fn "read_folder")). lazy in body. subst body.
    rewrite src_block_for. match goal with |- eval _ _ _ _ ?ex _ ?kx _ = _ =>
      assert (E : forall k, eval source files (src_run files (S (S (S (S (S (S n))))))) "arinc424" ex (St (folder_vars path None) o (globs leg recs)) kx k =
        match entries files path with Ok ns => k (VList (map VEntry ns)) (St (folder_vars path None) o (globs leg recs)) | Err e => kx (Exc e None) (St (folder_vars path None) o (globs leg recs)) end) by reflexivity end.
    rewrite E. destruct (entries files path); reflexivity. }
  change ([("path", (KRef, VStr path))]) with (folder_vars path None). rewrite E. clear E.
  unfold read_folder, mount. cbn [scandir]. destruct (entries files path) as [ns|e].
  2: { exists leg. split; [exact K|]. cbn [lift bind]. rewrite List.app_nil_r. eexists. split; [|reflexivity]. reflexivity. }
  fold (mount files).
  match goal with |- answers _ _ _ _ _ _ _ (for_loop (folder_step _ _ ?kx ?kr) _ _ ?ke) =>
    destruct (folder_loop files n path kx kr ke ns None o leg K) as (leg' & lo & x & K' & H) end.
  exists leg'. split; [exact K'|]. cbn [lift bind]. cbv zeta in H. fold (file_each (mount files) path ns). destruct (file_each (mount files) path ns) as [o' [[]|e]]; cbn [List.app].
  - rewrite H. reflexivity.
  - destruct H as [X H]. exists x. split; [exact X|]. rewrite H. reflexivity.
Qed.

(* ---- search ---- *)
Definition filters_val (fl : filters) : value := match fl with FStr s => VStr s | FList l => VList (map VStr l) | FOther t => VOther t end.
Definition search_vars (file : str) (fl : filters) (bs : list N) (count : nat) (lr : option (value * value)) : locals :=
  [("file", (KRef, VStr file)); ("filters", (KRef, filters_val fl)); ("f", (KOwn, VFile bs)); ("count", (KRef, VInt (Z.of_nat count)))] ++
  match lr with Some (line, r) => [("line", (KRef, line)); ("r", (KOwn, r))] | None => [] end.
Definition search_with : list stmt := with_body (hd SContinue (snd (api_fn "search"))).
Definition search_body : list stmt := for_body (nth 1 search_with SContinue).
Definition search_rest : list stmt := skipn 2 search_body.
Definition search_hit : list stmt := skipn 3 search_body.
Definition search_end : list stmt := skipn 2 search_with.
Definition search_step (files : disk) (n : nat) (kx : exc -> st -> ans) (kr : value -> st -> ans) (v : value) (s : st) (next : st -> ans) : ans :=
  match get "line" (loc s) with
  | Some (KSelf, _) => Stuck "line"
  | _ => src_block files n "arinc424" false search_body (bind_local "line" KRef v s) kx kr next next
  end.
Definition search_read (files : disk) (n : nat) (kx : exc -> st -> ans) (kr : value -> st -> ans) (next : st -> ans) (x : value) (s : st) : ans :=
  or_stuck "comparison" (compare CmpIs x (VBool false)) (fun r => or_stuck "if" (truth (VBool r)) (fun t : bool =>
    if t then src_block files n "arinc424" false [SContinue] s kx kr next (fun s => src_block files n "arinc424" false search_rest s kx kr next next)
    else src_block files n "arinc424" false [] s kx kr next (fun s => src_block files n "arinc424" false search_rest s kx kr next next))).
Lemma search_step_runs : forall files n file fl bs count lr o leg kx kr line next,
  search_step files (S n) kx kr (VStr line) (St (search_vars file fl bs count lr) o (globs leg recs)) next =
  call_method source files (src_run files (S n)) (Some ("r", KOwn)) (rec_val new_record) "read" [VStr line]
    (St (search_vars file fl bs count (Some (VStr line, rec_val new_record))) o (globs leg recs)) kx (search_read files (S n) kx kr next).
Proof.
  intros. unfold search_step, search_read. set (rest := search_rest). lazy in rest. subst rest. set (body := search_body). lazy in body. subst body. destruct lr as [[? ?]|]; reflexivity.
Qed.
Lemma map_contains_strs : forall raw l, map_contains raw (map VStr l) = Some (map (fun x => VBool (contains raw x)) l).
Proof. intros raw l. induction l as [|x l IH]; [reflexivity|]. cbn [map map_contains]. rewrite IH. reflexivity. Qed.
Lemma all_true_bools : forall (f : str -> bool) l, all_true (map (fun x => VBool (f x)) l) = Some (forallb f l).
Proof. intros f l. induction l as [|x l IH]; [reflexivity|]. cbn [map all_true forallb]. destruct (f x); [exact IH|reflexivity]. Qed.
Lemma strs_map : forall l, strs (map VStr l) = Some l.
Proof. intro l. induction l as [|x l IH]; [reflexivity|]. cbn [map strs]. rewrite IH. reflexivity. Qed.
Lemma search_rest_runs : forall files n file fl bs count line r o leg kx kr kc k,
  let s := St (search_vars file fl bs count (Some (line, rec_val r))) o (globs leg recs) in
  src_block files n "arinc424" false search_rest s kx kr kc k = if passes fl (raw r) then src_block files n "arinc424" false search_hit s kx kr kc k else kc s.
Proof.
  intros. set (hit := search_hit). set (rest := search_rest). lazy in hit. lazy in rest. subst hit rest. destruct fl as [flt|l|t]; cbn [passes].
  - transitivity (if negb (contains (raw r) flt) then kc s else src_block files n "arinc424" false search_hit s kx kr kc k); [reflexivity|]. destruct (contains (raw r) flt); reflexivity.
  - transitivity (match map_contains (raw r) (map VStr l) with
                  | Some x => match all_true x with
                              | Some b => or_stuck "comparison" (compare CmpIs (VBool b) (VBool false)) (fun r => or_stuck "if" (truth (VBool r)) (fun t : bool =>
                                  if t then kc s else src_block files n "arinc424" false search_hit s kx kr kc k))
                              | None => Stuck "all"
                              end
                  | None => Stuck "map"
                  end); [reflexivity|].
    rewrite map_contains_strs, all_true_bools. destruct (forallb (contains (raw r)) l); reflexivity.
  - reflexivity.
Qed.
Lemma search_hit_runs : forall files n file fl bs count line r o leg kx kr kc k,
  src_block files n "arinc424" false search_hit (St (search_vars file fl bs count (Some (line, rec_val r))) o (globs leg recs)) kx kr kc k =
  k (St (search_vars file fl bs (count + 1) (Some (line, rec_val r))) (o ++ [EvPrint (raw r)]) (globs leg recs)).
Proof.
  intros. replace (search_vars file fl bs (count + 1) (Some (line, rec_val r)))
    with ([("file", (KRef, VStr file)); ("filters", (KRef, filters_val fl)); ("f", (KOwn, VFile bs)); ("count", (KRef, VInt (Z.add (Z.of_nat count) 1)));
           ("line", (KRef, line)); ("r", (KOwn, rec_val r))]).
  - set (hit := search_hit). lazy in hit. subst hit. reflexivity.
  - unfold search_vars. replace (Z.of_nat (count + 1)) with (Z.add (Z.of_nat count) 1) by lia. reflexivity.
Qed.
Lemma search_end_runs : forall files n file fl bs count lr o leg kx kr kc k,
  src_block files n "arinc424" false search_end (St (search_vars file fl bs count lr) o (globs leg recs)) kx kr kc k =
  k (St (search_vars file fl bs count lr) (o ++ [found count fl]) (globs leg recs)).
Proof.
  intros. set (fin := search_end). lazy in fin. subst fin. unfold found. destruct fl as [flt|l|t].
  - destruct count as [|c]; destruct lr as [[? ?]|]; reflexivity.
  - transitivity (or_stuck "f-string" (show_all [VStr (lit "Found "); VInt (Z.of_nat count); VStr (lit " records that contain "); VList (map VStr l)]) (fun ts =>
      k (St (search_vars file (FList l) bs count lr) (o ++ [EvColored (if Nat.eqb count 0 then lit "red" else lit "green") (cat ts)]) (globs leg recs)))).
    + destruct count as [|c]; destruct lr as [[? ?]|]; reflexivity.
    + cbn [show_all show]. rewrite strs_map. reflexivity.
  - destruct count as [|c]; destruct lr as [[? ?]|]; reflexivity.
Qed.
Lemma search_loop : forall files n file fl bs kx kr kend ls count lr o leg, leg_ok leg ->
  exists leg' lr' count' x, leg_ok leg' /\
    let a := for_loop (search_step files (S (S (S (S n)))) kx kr) (map VStr ls) (St (search_vars file fl bs count lr) o (globs leg recs)) kend in
    match search_lines fl count ls with
    | (o', Ok c) => a = kend (St (search_vars file fl bs c lr') (o ++ o') (globs leg' recs))
    | (o', Err e) => e_kind x = e /\ a = kx x (St (search_vars file fl bs count' lr') (o ++ o') (globs leg' recs))
    end.
Proof.
  intros files n file fl bs kx kr kend ls. induction ls as [|line ls IH]; intros count lr o leg K; cbn [map for_loop search_lines].
  - exists leg, lr, count, (Exc ValueError None). split; [exact K|]. unfold ret. rewrite List.app_nil_r. reflexivity.
  - rewrite search_step_runs. cbv zeta. set (next := fun s' => for_loop _ _ s' kend).
    destruct (r_read files n new_record line (search_vars file fl bs count (Some (VStr line, rec_val new_record))) o leg kx (search_read files (S (S (S (S n)))) kx kr next) K) as (leg1 & x1 & K1 & H1).
    change (fun r' => set "r" (KOwn, rec_val r') (search_vars file fl bs count (Some (VStr line, rec_val new_record)))) with (fun r' => search_vars file fl bs count (Some (VStr line, rec_val r'))) in *.
    destruct (read new_record line) as [[o1 r1] [[|]|e1]].
    + change (set "r" (KOwn, rec_val r1) (search_vars file fl bs count (Some (VStr line, rec_val new_record)))) with (search_vars file fl bs count (Some (VStr line, rec_val r1))) in H1.
      assert (E : search_read files (S (S (S (S n)))) kx kr next (VBool true) (St (search_vars file fl bs count (Some (VStr line, rec_val r1))) (o ++ o1) (globs leg1 recs)) =
        src_block files (S (S (S (S n)))) "arinc424" false search_rest (St (search_vars file fl bs count (Some (VStr line, rec_val r1))) (o ++ o1) (globs leg1 recs)) kx kr next next) by reflexivity.
      rewrite H1, E, search_rest_runs. clear H1 E. cbn [negb]. destruct (passes fl (raw r1)); cbn [negb].
      * rewrite search_hit_runs. destruct (IH (count + 1) (Some (VStr line, rec_val r1)) ((o ++ o1) ++ [EvPrint (raw r1)]) leg1 K1) as (leg2 & lr2 & c2 & x2 & K2 & H2).
        exists leg2, lr2, c2, x2. split; [exact K2|]. cbv zeta in H2. fold next in H2. unfold say, emit, bind. cbn [List.app]. destruct (search_lines fl (count + 1) ls) as [o2 [c|e]]; repeat rewrite <- List.app_assoc in H2; repeat rewrite <- List.app_assoc; exact H2.
      * destruct (IH count (Some (VStr line, rec_val r1)) (o ++ o1) leg1 K1) as (leg2 & lr2 & c2 & x2 & K2 & H2).
        exists leg2, lr2, c2, x2. split; [exact K2|]. cbv zeta in H2. fold next in H2. unfold bind. destruct (search_lines fl count ls) as [o2 [c|e]]; repeat rewrite <- List.app_assoc in H2; repeat rewrite <- List.app_assoc; exact H2.
    + change (set "r" (KOwn, rec_val r1) (search_vars file fl bs count (Some (VStr line, rec_val new_record)))) with (search_vars file fl bs count (Some (VStr line, rec_val r1))) in H1.
      assert (E : search_read files (S (S (S (S n)))) kx kr next (VBool false) (St (search_vars file fl bs count (Some (VStr line, rec_val r1))) (o ++ o1) (globs leg1 recs)) =
        next (St (search_vars file fl bs count (Some (VStr line, rec_val r1))) (o ++ o1) (globs leg1 recs))) by reflexivity.
      rewrite H1, E. clear H1 E. cbn [negb]. destruct (IH count (Some (VStr line, rec_val r1)) (o ++ o1) leg1 K1) as (leg2 & lr2 & c2 & x2 & K2 & H2).
      exists leg2, lr2, c2, x2. split; [exact K2|]. cbv zeta in H2. fold next in H2. unfold bind. destruct (search_lines fl count ls) as [o2 [c|e]]; repeat rewrite <- List.app_assoc in H2; repeat rewrite <- List.app_assoc; exact H2.
    + exists leg1, (Some (VStr line, rec_val r1)), count, x1. split; [exact K1|]. exact H1.
Qed.
Lemma search_block : forall files n file fl o leg kx kr kc k,
  src_block files n "arinc424" false (snd (api_fn "search")) (St [("file", (KRef, VStr file)); ("filters", (KRef, filters_val fl))] o (globs leg recs)) kx kr kc k =
  match contents files file with
  | Err e => kx (Exc e None) (St [("file", (KRef, VStr file)); ("filters", (KRef, filters_val fl))] o (globs leg recs))
  | Ok bs =>
      match decode_utf8 bs with
      | Err e => kx (Exc e None) (St [("file", (KRef, VStr file)); ("filters", (KRef, filters_val fl)); ("count", (KRef, VInt 0))] o (globs leg recs))
      | Ok t => for_loop (search_step files n (fun e s => kx e (drop_local "f" s)) (fun v s => kr v (drop_local "f" s))) (map VStr (readlines t))
                  (St (search_vars file fl [] 0 None) o (globs leg recs))
                  (fun s => src_block files n "arinc424" false search_end s (fun e s => kx e (drop_local "f" s)) (fun v s => kr v (drop_local "f" s)) (fun s => kc (drop_local "f" s)) (fun s => k (drop_local "f" s)))
      end
  end.
Proof.
  intros. unfold search_step. set (p := search_body). lazy in p. subst p. set (p := search_end). lazy in p. subst p. set (body := snd (api_fn "search")). lazy in body. subst body.
  rewrite src_block_with, (open_call _ _ _ file) by reflexivity. destruct (contents files file) as [bs|e]; [|reflexivity].
  rewrite src_block_cons. match goal with |- exec _ _ _ _ _ _ _ ?kx ?kr ?kc (fun s => src_block _ _ _ _ ?cs s _ _ _ ?k) = _ =>
    transitivity (src_block files n "arinc424" false cs (St (search_vars file fl bs 0 None) o (globs leg recs)) kx kr kc k); [reflexivity|] end.
  rewrite src_block_for, (readlines_call _ _ _ bs) by reflexivity. destruct (decode_utf8 bs) as [t|e]; reflexivity.
Qed.
Theorem source_search : forall file fl, api 5 "search" [VStr file; filters_val fl] (fun _ => VNone) (fun files => search (mount files) file fl).
Proof.
  intros file fl files n l o leg kx k K. change (5 + n) with (S (S (S (S (S n))))). set (s := St l o (globs leg recs)). rewrite call_api by reflexivity.
  match goal with |- answers _ _ _ _ _ _ _ (match ?b with _ => _ end) => change b with (Some [("file", (KRef, VStr file)); ("filters", (KRef, filters_val fl))]) end. cbn [hold_first].
  change (out s) with o. change (glob s) with (globs leg recs). rewrite search_block.
  unfold search, mount. cbn [open_text]. destruct (contents files file) as [bs|e]; cbn [bindR].
  2: { exists leg. split; [exact K|]. cbn [lift bind]. rewrite List.app_nil_r. eexists. split; [|reflexivity]. reflexivity. }
  destruct (decode_utf8 bs) as [t|e].
  2: { exists leg. split; [exact K|]. cbn [lift bind]. rewrite List.app_nil_r. eexists. split; [|reflexivity]. reflexivity. }
  match goal with |- answers _ _ _ _ _ _ _ (for_loop (search_step _ _ ?kx ?kr) _ _ ?ke) =>
    destruct (search_loop files n file fl [] kx kr ke (readlines t) 0 None o leg K) as (leg' & lr & c' & x & K' & H) end.
  exists leg'. split; [exact K'|]. cbn [lift bind]. cbv zeta in H. unfold bind. destruct (search_lines fl 0 (readlines t)) as [o' [c|e]]; cbn [List.app emit].
  - rewrite H, search_end_runs, List.app_assoc. reflexivity.
  - destruct H as [X H]. exists x. split; [exact X|]. rewrite H. reflexivity.
Qed.
(* for examples: a file that mentions Seattle once *)
Definition one_file : disk := Disk (fun p => if str_eqb p (lit "a") then Ok (l_sea ++ [10] ++ l_airway ++ [10]) else Err OSError)%N (fun _ => Ok [lit "a"]).
