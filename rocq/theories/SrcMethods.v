(* The other methods of Record: __init__, primary, hasCont, validate, decode and json. *)
From Coq Require Import List String NArith ZArith Bool.
From Verif Require Import PyBase PyRepr StrFacts DecoderTables Decoder Layouts Json Record Api Utf8 PySyntax PyEval Source SrcFacts SrcDecoderProps4 SrcStart SrcClasses SrcAttrs SrcRead.
Import ListNotations.
Open Scope string_scope.
Open Scope list_scope.
Local Open Scope nat_scope.

(* methods that print nothing, raise nothing and leave the object as it is *)
Definition plain {A} (x : A) (r : rec) : list event * rec * result A := ([], r, Ok x).
Ltac definition_cases d :=
  let c := fresh "c" in destruct d as [c|]; [change (def_val (Some c)) with (VInst (cls_module c) (cls_title c) (cls_attrs c)) | change (def_val None) with (VInt (-1))].
Theorem source_validate : forall line, runs "validate" [VStr line] VBool (fun r => plain (validate line) r).
Proof.
  intro line. rec_start. repeat rec_step; subst m; unfold plain, validate; rec_conditions; rec_answer.
Qed.
Theorem source_primary : runs "primary" [] VBool (fun r => plain (primary r) r).
Proof.
  rec_start. definition_cases d; repeat rec_step; subst m; unfold plain, primary; cbn [ident raw continuation fields definition]; rec_conditions; rec_answer.
Qed.
Theorem source_hasCont : runs "hasCont" [] VBool (fun r => plain (hasCont r) r).
Proof.
  rec_start. definition_cases d; repeat rec_step; subst m; unfold plain, hasCont, primary; cbn [ident raw continuation fields definition]; rec_conditions; rec_answer.
Qed.
(* Record() *)
Theorem source_Record : forall files n s kx k, call_value source files (run source files (S n)) (VClass "arinc424.record" "Record") [] [] s kx k = k (rec_val new_record) s.
Proof. intros files n [l o g] kx k. reflexivity. Qed.

(* the fields, one after the other *)
Lemma for_fields : forall files n b cs L o g kx kr kc k i w c fs d kd, get "self" L = Some (kd, rec_obj i w c (fvals fs) d) ->
  src_block files n "arinc424.record" false (SFor "field" (EAttr (EName "self") "fields") b :: cs) (St L o g) kx kr kc k =
  for_loop (fun v s next => match get "field" (loc s) with
                            | Some (KSelf, _) => Stuck "field"
                            | _ => src_block files n "arinc424.record" false b (bind_local "field" KRef v s) kx kr next next
                            end) (map fval fs) (St L o g) (fun s => src_block files n "arinc424.record" false cs s kx kr kc k).
Proof.
  intros files n b cs L o g kx kr kc k i w c fs d kd H. rewrite src_block_for. cbn [eval eval_obj]. unfold name_value. cbn [loc]. rewrite H. reflexivity.
Qed.
(* field.decode(self) *)
Lemma decode_field : forall files n f r l o leg kx k, leg_ok leg ->
  exists leg' x, leg_ok leg' /\
    match run_fn (f_fn f) (f_value f) (view r) with
    | (o', Ok d) =>
        call_method source files (src_run files (S (S (S n)))) (Some ("field", KRef)) (fval f) "decode" [rec_val r] (St l o (globs leg recs)) kx k =
        k (dec_val d) (St l (o ++ o') (globs leg' recs))
    | (o', Err e) =>
        e_kind x = e /\
        call_method source files (src_run files (S (S (S n)))) (Some ("field", KRef)) (fval f) "decode" [rec_val r] (St l o (globs leg recs)) kx k =
        kx x (St l (o ++ o') (globs leg' recs))
    end.
Proof.
  intros files n f r l o leg kx k L. set (s := St l o (globs leg recs)).
  assert (E : forall kx k, call_method source files (src_run files (S (S (S n)))) (Some ("field", KRef)) (fval f) "decode" [rec_val r] s kx k =
    call_value source files (run source files (S (S n))) (VFun "arinc424.decoder" (fn_name (f_fn f))) [VStr (f_value f); rec_val r] []
      (St [("self", (KRef, fval f)); ("record", (KRef, rec_val r))] o (globs leg recs)) (fun e s' => kx e (leave s s')) (fun v s' => k v (leave s s'))).
  { intros. reflexivity. }
  rewrite E. destruct (source_decodes (f_fn f) files n (f_value f) (ident r) (raw r) (continuation r) (fvals (fields r)) (def_val (definition r))
    [("self", (KRef, fval f)); ("record", (KRef, rec_val r))] o leg recs (fun e s' => kx e (leave s s')) (fun v s' => k v (leave s s')) L) as (leg' & L' & H).
  change (RecView (ident r) (raw r)) with (view r) in H. destruct (run_fn (f_fn f) (f_value f) (view r)) as [o' [d|e]].
  - exists leg', (Exc ValueError None). split; [exact L'|]. exact H.
  - destruct H as (x & X & H). exists leg', x. split; [exact L'|]. split; [exact X|exact H].
Qed.

(* the local variables of decode *)
Definition tab (r : rec) (output : value) (rows : list table_row) (f : option value) : locals :=
  [("self", (KSelf, rec_val r)); ("output", (KRef, output)); ("table", (KOwn, VTable true rows))] ++ match f with Some v => [("field", (KRef, v))] | None => [] end.
Definition add_row : list stmt := match nth 2 (snd (rec_method "decode")) SContinue with SFor _ _ b => b | _ => [] end.
Lemma add_row_runs : forall files n f r out rows o g kx kr kc k,
  src_block files n "arinc424.record" false add_row (St (tab r out rows (Some (fval f))) o g) kx kr kc k =
  call_method source files (src_run files n) (Some ("field", KRef)) (fval f) "decode" [rec_val r] (St (tab r out rows (Some (fval f))) o g) kx
    (fun v s => or_stuck "table" (get "table" (loc s)) (fun kv => call_method source files (src_run files n) (Some ("table", fst kv)) (snd kv) "add_row"
      [VList [VStr (f_name f); VStr (lit "'" ++ f_value f ++ lit "'"); v]] s kx (fun _ s => k s))).
Proof.
  intros. set (b := add_row). lazy in b. subst b. reflexivity.
Qed.
Lemma to_dval_dec : forall d, to_dval (dec_val d) = Some d.
Proof. intros [s|x|]; reflexivity. Qed.
Definition row_step (files : disk) (n : nat) (kx : exc -> st -> ans) (kr : value -> st -> ans) (v : value) (s : st) (next : st -> ans) : ans :=
  match get "field" (loc s) with
  | Some (KSelf, _) => Stuck "field"
  | _ => src_block files n "arinc424.record" false add_row (bind_local "field" KRef v s) kx kr next next
  end.
Lemma row_step_runs : forall files n r out rows fo o g kx kr v next,
  row_step files n kx kr v (St (tab r out rows fo) o g) next =
  src_block files n "arinc424.record" false add_row (St (tab r out rows (Some v)) o g) kx kr next next.
Proof. intros files n r out rows fo o g kx kr v next. destruct fo; reflexivity. Qed.
Lemma rows_loop : forall files n r out kx kr kend fs rows fo o leg, leg_ok leg ->
  exists leg' rows' fo' x, leg_ok leg' /\
    for_loop (row_step files (S (S (S n))) kx kr) (map fval fs) (St (tab r out rows fo) o (globs leg recs)) kend =
    match decode_rows (view r) fs with
    | (o', Ok more) => kend (St (tab r out (rows ++ more) fo') (o ++ o') (globs leg' recs))
    | (o', Err _) => kx x (St (tab r out rows' fo') (o ++ o') (globs leg' recs))
    end /\ (forall o' e, decode_rows (view r) fs = (o', Err e) -> e_kind x = e).
Proof.
  intros files n r out kx kr kend fs. induction fs as [|f fs IH]; intros rows fo o leg L; cbn [map for_loop decode_rows].
  - exists leg, rows, fo, (Exc ValueError None). unfold ret. rewrite !List.app_nil_r. repeat split; [exact L|]. intros o' e [=].
  - set (loop := for_loop _ _) in *.
    rewrite row_step_runs, add_row_runs. set (kk := fun v s => or_stuck _ _ _).
    destruct (decode_field files n f r (tab r out rows (Some (fval f))) o leg kx kk L) as (leg1 & x1 & L1 & H1).
    destruct (run_fn (f_fn f) (f_value f) (view r)) as [o1 [d|e1]]; unfold bind.
    + rewrite H1. clear H1. subst kk. cbn [get tab List.app loc or_stuck fst snd String.eqb Ascii.eqb Bool.eqb call_method writable]. rewrite to_dval_dec.
      set (row := (f_name f, (lit "'" ++ f_value f ++ lit "'")%list, d)).
      destruct (IH (rows ++ [row]) (Some (fval f)) (o ++ o1) leg1 L1) as (leg2 & rows2 & fo2 & x2 & L2 & H2 & X2).
      exists leg2, rows2, fo2, x2. split; [exact L2|].
      change (bind_local _ _ _ _) with (St (tab r out (rows ++ [row]) (Some (fval f))) (o ++ o1) (globs leg1 recs)).
      rewrite H2. destruct (decode_rows (view r) fs) as [o2 [more|e2]]; cbn [ret]; rewrite <- ?List.app_assoc; cbn [List.app].
      * rewrite List.app_nil_r. split; [reflexivity|intros o' e [=]].
      * split; [reflexivity|]. intros o' e [= _ <-]. exact (X2 _ _ eq_refl).
    + destruct H1 as [X1 H1]. exists leg1, rows, (Some (fval f)), x1. split; [exact L1|]. rewrite H1. split; [reflexivity|]. intros o' e [= _ <-]. exact X1.
Qed.
Definition with_self {A} (m : M A) (r : rec) : list event * rec * result A := (fst m, r, snd m).
Definition decode_end : list stmt := skipn 3 (snd (rec_method "decode")).
Lemma decode_body : forall files n r out o leg kx k, leg_ok leg ->
  self_answers VTableText (with_self (decode r out) r) o kx k
    (src_block files (S (S (S n))) "arinc424.record" false (snd (rec_method "decode"))
       (St [("self", (KSelf, rec_val r)); ("output", (KRef, VBool out))] o (globs leg recs)) kx k (fun _ => Stuck "continue") (fun s' => k VNone s')).
Proof.
  intros files n r out o leg kx k L. set (ke := fun s => src_block files (S (S (S n))) "arinc424.record" false decode_end s kx k (fun _ => Stuck "continue") (fun s' => k VNone s')).
  match goal with |- self_answers _ _ _ _ _ ?a =>
    assert (E : a = for_loop (row_step files (S (S (S n))) kx k) (map fval (fields r)) (St (tab r (VBool out) [] None) o (globs leg recs)) ke) by reflexivity; rewrite E; clear E
  end.
  destruct (rows_loop files n r (VBool out) kx k ke (fields r) [] None o leg L) as (leg' & rows' & fo & x & L' & H & X).
  rewrite H. clear H. unfold with_self, decode, bind. destruct (decode_rows (view r) (fields r)) as [o' [rows|e]].
  - destruct out.
    + cbn [emit ret fst snd List.app]. exists leg', (tab r (VBool true) rows fo). split; [exact L'|]. rewrite ?List.app_nil_r, ?List.app_assoc. split; [destruct fo; reflexivity|]. unfold ke.
      set (b := decode_end). lazy in b. subst b. destruct fo; reflexivity.
    + cbn [emit ret fst snd List.app]. exists leg', (tab r (VBool false) rows fo). split; [exact L'|]. rewrite ?List.app_nil_r. split; [destruct fo; reflexivity|]. unfold ke.
      set (b := decode_end). lazy in b. subst b. destruct fo; reflexivity.
  - exists leg', (tab r (VBool out) rows' fo). split; [exact L'|]. split; [destruct fo; reflexivity|]. exists x. split; [exact (X _ _ eq_refl)|reflexivity].
Qed.
Theorem source_decode : forall out, runs "decode" [VBool out] VTableText (fun r => with_self (decode r out) r).
Proof. intros out files n r l o leg kx k L. exact (decode_body files n r out o leg kx k L). Qed.
Theorem source_decode_default : runs "decode" [] VTableText (fun r => with_self (decode r true) r).
Proof. intros files n r l o leg kx k L. exact (decode_body files n r true o leg kx k L). Qed.

(* json: the local variables, and the assignments to the dictionary *)
Definition jvars (r : rec) (output single_line : value) (items : list (str * value)) (f : option value) : locals :=
  [("self", (KSelf, rec_val r)); ("output", (KRef, output)); ("single_line", (KRef, single_line)); ("d", (KOwn, VDict None items))] ++
  match f with Some v => [("field", (KRef, v))] | None => [] end.
Definition update_d : list stmt := match nth 1 (snd (rec_method "json")) SContinue with SFor _ _ b => b | _ => [] end.
Definition json_end : list stmt := skipn 2 (snd (rec_method "json")).
Definition item_step (files : disk) (n : nat) (kx : exc -> st -> ans) (kr : value -> st -> ans) (v : value) (s : st) (next : st -> ans) : ans :=
  match get "field" (loc s) with
  | Some (KSelf, _) => Stuck "field"
  | _ => src_block files n "arinc424.record" false update_d (bind_local "field" KRef v s) kx kr next next
  end.
Definition pairs_of (fs : list field) : list (str * str) := map (fun f => (f_name f, f_value f)) fs.
Lemma items_loop : forall files n r out sl kx kr kend fs items fo o g,
  exists fo', for_loop (item_step files n kx kr) (map fval fs) (St (jvars r out sl (val_items items) fo) o g) kend =
    kend (St (jvars r out sl (val_items (rev (pairs_of fs) ++ items)) fo') o g).
Proof.
  intros files n r out sl kx kr kend fs. induction fs as [|f fs IH]; intros items fo o g; cbn [map for_loop].
  - exists fo. reflexivity.
  - destruct (IH ((f_name f, f_value f) :: items) (Some (fval f)) o g) as (fo' & E). exists fo'.
    unfold pairs_of in *. cbn [map rev]. rewrite <- List.app_assoc. cbn [List.app]. rewrite <- E. destruct fo; reflexivity.
Qed.
Lemma str_items_vals : forall l, str_items (val_items l) = Some l.
Proof. intro l. induction l as [|[a b] l IH]; [reflexivity|]. cbn [val_items map fst snd str_items]. fold (val_items l). rewrite IH. reflexivity. Qed.
Lemma py_dict_fields : forall fs, py_dict (rev (pairs_of fs)) = json_dict fs.
Proof.
  intro fs. unfold py_dict, json_dict, pairs_of. rewrite rev_involutive. generalize (@nil (str * str)) as d. induction fs as [|f fs IH]; intro d; [reflexivity|exact (IH _)].
Qed.
Ltac mod_step :=
  lazymatch goal with
  | |- match mod_attr source ?m ?x ?s with _ => _ end = _ => let v := eval lazy in (mod_attr source m x s) in change (mod_attr source m x s) with v; run_rec
  | _ => rec_step
  end.
Lemma json_end_runs : forall files n r out sl items d fo o leg kx k kc kn, str_items items = Some d ->
  src_block files n "arinc424.record" false json_end (St (jvars r (VBool out) (VBool sl) items fo) o (globs leg recs)) kx k kc kn =
  let data := if sl then dumps (py_dict d) else dumps_pretty (py_dict d) in
  k (VStr data) (St (jvars r (VBool out) (VBool sl) items fo ++ [("data", (KRef, VStr data))])%list (o ++ if out then [EvPrint data] else []) (globs leg recs)).
Proof.
  intros files n [i w c fs d] out sl items dd fo o leg kx k kc kn D. set (b := json_end). lazy in b. subst b. unfold jvars, rec_val.
  destruct out, sl, fo; cbn [ident raw continuation fields definition List.app]; rewrite ?List.app_nil_r; match goal with |- _ = ?y => remember y as m end;
  repeat mod_step; subst m; reflexivity.
Qed.
Lemma json_body : forall files n r out sl o leg kx k, leg_ok leg ->
  self_answers VStr (with_self (json r out sl) r) o kx k
    (src_block files n "arinc424.record" false (snd (rec_method "json"))
       (St [("self", (KSelf, rec_val r)); ("output", (KRef, VBool out)); ("single_line", (KRef, VBool sl))] o (globs leg recs)) kx k (fun _ => Stuck "continue") (fun s' => k VNone s')).
Proof.
  intros files n r out sl o leg kx k L.
  set (ke := fun s => src_block files n "arinc424.record" false json_end s kx k (fun _ => Stuck "continue") (fun s' => k VNone s')).
  match goal with |- self_answers _ _ _ _ _ ?a =>
    assert (E : a = for_loop (item_step files n kx k) (map fval (fields r)) (St (jvars r (VBool out) (VBool sl) (val_items []) None) o (globs leg recs)) ke) by reflexivity; rewrite E; clear E
  end.
  destruct (items_loop files n r (VBool out) (VBool sl) kx k ke (fields r) [] None o (globs leg recs)) as (fo & E). rewrite E. clear E.
  rewrite List.app_nil_r.
  set (data := if sl then dumps (json_dict (fields r)) else dumps_pretty (json_dict (fields r))).
  exists leg, (jvars r (VBool out) (VBool sl) (val_items (rev (pairs_of (fields r)))) fo ++ [("data", (KRef, VStr data))])%list. split; [exact L|].
  unfold with_self, json, bind. fold data.
  unfold ke. rewrite (json_end_runs files n r out sl _ (rev (pairs_of (fields r))) fo o leg) by apply str_items_vals. cbv zeta. rewrite py_dict_fields. fold data.
  destruct out; cbn [say emit ret fst snd List.app]; rewrite ?List.app_nil_r; split; reflexivity.
Qed.
Theorem source_json : forall out sl, runs "json" [VBool out; VBool sl] VStr (fun r => with_self (json r out sl) r).
Proof. intros out sl files n r l o leg kx k L. exact (json_body files (S (S (S n))) r out sl o leg kx k L). Qed.
Theorem source_json_default : runs "json" [] VStr (fun r => with_self (json r true true) r).
Proof. intros files n r l o leg kx k L. exact (json_body files (S (S (S n))) r true true o leg kx k L). Qed.
Theorem source_json_output : forall out, runs "json" [VBool out] VStr (fun r => with_self (json r out true) r).
Proof. intros out files n r l o leg kx k L. exact (json_body files (S (S (S n))) r out true o leg kx k L). Qed.
