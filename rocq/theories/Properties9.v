(* C59-C61: the text of the package (Source.v, the syntax trees of /repo/src/arinc424), run by the interpreter of
   PyEval.v, does what the model says.  Every statement is about all texts, all objects, all files and any nesting depth of
   calls from the given one on; `Stuck` is the interpreter's answer for anything it does not describe. *)
From Coq Require Import List String NArith ZArith Bool.
From Verif Require Import PyBase PyRepr StrFacts DecoderTables Decoder FnNum Layouts Json Record Api Utf8 PySyntax PyEval SrcDecoder Source SrcFacts SrcDecoderProps4 SrcStart SrcCheck SrcClasses SrcAttrs SrcRead SrcMethods SrcSession Samples.
Import ListNotations.
Open Scope string_scope.
Open Scope list_scope.
Local Open Scope nat_scope.

(* ================= C59: decoder.py ================= *)
(* importing the package prints nothing and leaves two dictionaries *)
Theorem C59_import : forall files n, exists leg, leg_ok leg /\
  import_all source files (S (S n)) source (St [] [] []) (Done VNone) = Done VNone (St [] [] (globs leg recs)).
Proof. intros files n. exists leg0. split; [exact leg0_ok|]. apply import_source. Qed.
Print Assumptions C59_import.
(* decoder.field_NNN(value, r): every function, every text, every Record *)
Theorem C59_decoders : forall f files n v r o leg, leg_ok leg ->
  gives dec_val (let (o', y) := run_fn f v (view r) in (o', rec_val r, y)) "r" KOwn [] o
    (call source files (S (S n)) (VFun "arinc424.decoder" (fn_name f)) [VStr v; rec_val r] (session "r" KOwn (rec_val r) [] o leg) Raised Done).
Proof.
  intros f files n v r o leg L.
  destruct (source_decodes f files n v (ident r) (raw r) (continuation r) (fvals (fields r)) (def_val (definition r)) [("r", (KOwn, rec_val r))] o leg recs Raised Done L) as (leg' & L' & H).
  change (RecView (ident r) (raw r)) with (view r) in H. destruct (run_fn f v (view r)) as [o' [d|e]].
  - exists leg'. split; [exact L'|exact H].
  - destruct H as (x & X & H). exists leg', x. repeat split; [exact L'|exact X|exact H].
Qed.
Print Assumptions C59_decoders.
(* there are no others *)
Theorem C59_all_functions : forall name x, find_def py_decoder name = Some x -> name = "def_val" \/ exists f, name = fn_name f.
Proof.
  intros name x H.
  assert (D : forall b, find_def b name = Some x -> In name (flat_map (fun c => match c with SDef g _ _ => [g] | _ => [] end) b)).
  { intro b. induction b as [|c b IH]; [discriminate|]. cbn [find_def flat_map]. intro F.
    destruct c; try (apply in_or_app; right; exact (IH F)). destruct (String.eqb_spec name f) as [->|N]; [left; reflexivity|right; exact (IH F)]. }
  apply D in H. clear D x.
  assert (A : forallb (fun g => String.eqb g "def_val" || existsb (fun f => String.eqb g (fn_name f)) all_fns) (flat_map (fun c => match c with SDef g _ _ => [g] | _ => [] end) py_decoder) = true) by (vm_compute; reflexivity).
  rewrite forallb_forall in A. specialize (A name H). apply orb_prop in A. destruct A as [A|A]; [left; apply String.eqb_eq, A|].
  right. apply existsb_exists in A. destruct A as (f & _ & E). exists f. apply String.eqb_eq, E.
Qed.
Print Assumptions C59_all_functions.
(* and Field.decode calls the function the field was made with *)
Theorem C59_field : forall f files n r o leg, leg_ok leg ->
  gives dec_val (let (o', y) := run_fn (f_fn f) (f_value f) (view r) in (o', fval f, y)) "field" KRef [("r", rec_val r)] o
    (ask files (S (S (S n))) "field" "decode" ["r"] (session "field" KRef (fval f) [("r", rec_val r)] o leg)).
Proof.
  intros f files n r o leg L.
  destruct (decode_field files n f r (loc (session "field" KRef (fval f) [("r", rec_val r)] o leg)) o leg Raised Done L) as (leg' & x & L' & H).
  destruct (run_fn (f_fn f) (f_value f) (view r)) as [o' [d|e]].
  - exists leg'. split; [exact L'|exact H].
  - destruct H as [X H]. exists leg', x. repeat split; [exact L'|exact X|exact H].
Qed.
Print Assumptions C59_field.
Example C59_ex : let reply name v := call source no_files 3 (VFun "arinc424.decoder" name) [VStr v; rec_val new_record] (St [] [] (globs leg0 recs)) Raised Done in
  reply "field_010" (lit "I16L") = Done (VStr (lit "Approach: I, Runway: 16L")) (St [] [] (globs leg0 recs)) /\
  reply "field_010" [] = Raised (Exc IndexError (Some (lit "string index out of range"))) (St [] [] (globs leg0 recs)) /\
  (* a leg type that is not known becomes a key *)
  reply "field_021" (lit "XX") = Done (VStr (lit "<UNKNOWN>")) (St [] [] (globs ((lit "XX", VStr (lit "<UNKNOWN>")) :: leg0) recs)).
Proof. repeat split; vm_compute; reflexivity. Qed.

(* ================= C60: definitions/ ================= *)
(* d.read(line, primary) gives the fields of the layout: the class, name, slice and decoder of each *)
Theorem C60_read : forall d files n line p o leg, leg_ok leg ->
  gives fvals ([], cls_val d, cls_read d line p) "d" KRef [("line", VStr line); ("p", VBool p)] o
    (ask files (S (S (S n))) "d" "read" ["line"; "p"] (session "d" KRef (cls_val d) [("line", VStr line); ("p", VBool p)] o leg)).
Proof.
  intros d files n line p o leg L.
  set (s := session "d" KRef (cls_val d) [("line", VStr line); ("p", VBool p)] o leg).
  assert (E : ask files (S (S (S n))) "d" "read" ["line"; "p"] s = call_method source files (src_run files (S (S (S n)))) None (cls_val d) "read" [VStr line; VBool p] s Raised Done).
  { rewrite call_class; [|exact (proj1 (methods d))|exact (proj2 (methods d))].
    change (ask files (S (S (S n))) "d" "read" ["line"; "p"] s) with (call_method source files (src_run files (S (S (S n)))) (Some ("d", KRef)) (cls_val d) "read" [VStr line; VBool p] s Raised Done).
    unfold cls_val at 1. cbn [call_method]. rewrite (proj1 (methods d)), (proj2 (methods d)). destruct (method d "read"). reflexivity. }
  rewrite E. destruct (class_read d files n line p (loc s) o leg recs Raised Done L) as (leg' & x & L' & X & H).
  change (St (loc s) o (globs leg recs)) with s in H. rewrite H. destruct (cls_read d line p) as [fs|e]; cbn [gives].
  - exists leg'. split; [exact L'|]. rewrite List.app_nil_r. reflexivity.
  - exists leg', x. rewrite List.app_nil_r. repeat split; [exact L'|exact (X e eq_refl)].
Qed.
Print Assumptions C60_read.
(* d.application_type(line), in the classes that have it *)
Theorem C60_application_type : forall d files n line o leg, leg_ok leg -> cls_app_idx d <> None ->
  gives VStr ([], cls_val d, cls_application_type d line) "d" KRef [("line", VStr line)] o
    (ask files (S n) "d" "application_type" ["line"] (session "d" KRef (cls_val d) [("line", VStr line)] o leg)).
Proof.
  intros d files n line o leg L I. destruct (cls_app_idx d) as [i|] eqn:A; [|congruence]. clear I.
  set (s := session "d" KRef (cls_val d) [("line", VStr line)] o leg).
  destruct (application_types d) as (G & F & T). assert (T' : has_application_type d = true) by (apply T; congruence).
  assert (E : ask files (S n) "d" "application_type" ["line"] s = call_method source files (src_run files (S n)) None (cls_val d) "application_type" [VStr line] s Raised Done).
  { rewrite call_class; [|exact G|exact (F T')].
    change (ask files (S n) "d" "application_type" ["line"] s) with (call_method source files (src_run files (S n)) (Some ("d", KRef)) (cls_val d) "application_type" [VStr line] s Raised Done).
    unfold cls_val at 1. cbn [call_method]. rewrite G, (F T'). destruct (method d "application_type"). reflexivity. }
  rewrite E. destruct (class_application_type d files n line (loc s) o leg recs Raised Done i L A) as (leg' & x & L' & X & H).
  change (St (loc s) o (globs leg recs)) with s in H. rewrite H. destruct (cls_application_type d line) as [fs|e]; cbn [gives].
  - exists leg'. split; [exact L'|]. rewrite List.app_nil_r. reflexivity.
  - exists leg', x. rewrite List.app_nil_r. repeat split; [exact L'|exact (X e eq_refl)].
Qed.
Print Assumptions C60_application_type.
(* the attributes of the classes that Record.read looks at *)
Theorem C60_attributes : forall d,
  let attribute a := inst_attr source (cls_module d) (cls_title d) (cls_attrs d) a in
  attribute "cont_idx" = index_val (cls_cont_idx d) /\
  attribute "app_idx" = index_val (cls_app_idx d) /\
  (cls_cont_idx d <> None -> attribute "name" = Some (VStr (cls_name d))) /\
  (cls_app_idx d <> None -> attribute "continuations" = Some (VList (map VStr (cls_continuations d)))).
Proof.
  intros d attribute. split; [apply attr_cont_idx|]. split; [apply attr_app_idx|]. split; intro H.
  - destruct (cls_cont_idx d) as [i|] eqn:E; [exact (attr_name d i E)|congruence].
  - destruct (cls_app_idx d) as [i|] eqn:E; [exact (attr_continuations d i E)|congruence].
Qed.
Print Assumptions C60_attributes.
(* the dictionary `records` that the import leaves *)
Theorem C60_records : exists items, recs = VDict (Some (VFun "arinc424.record" "def_val")) items /\
  forall key, assoc key items = match record_class key with Some d => Some (cls_val d) | None => None end.
Proof. exists recs_items. split; [reflexivity|]. intro key. rewrite recs_assoc. unfold record_class. destruct (assoc key records); reflexivity. Qed.
Print Assumptions C60_records.
Example C60_ex : match ask no_files 3 "d" "read" ["line"; "p"] (session "d" KRef (cls_val CAirport) [("line", VStr l_sea); ("p", VBool true)] [] leg0) with
  | Done (VList fs) _ => nth_error fs 4
  | _ => None
  end = Some (VInst "arinc424.decoder" "Field" [("name", VStr (lit "ICAO Code")); ("value", VStr (lit "K1")); ("decode_fn", VFun "arinc424.decoder" "field_014")]).
Proof. vm_compute. reflexivity. Qed.

(* ================= C61: record.py ================= *)
Theorem C61_new : forall files n s, call source files (S n) (VClass "arinc424.record" "Record") [] s Raised Done = Done (rec_val new_record) s.
Proof. intros files n s. apply source_Record. Qed.
Print Assumptions C61_new.
(* r.read(line) *)
Theorem C61_read : forall files n r line o leg, leg_ok leg ->
  gives VBool (on_record (read r line)) "r" KOwn [("line", VStr line)] o
    (ask files (S (S (S (S n)))) "r" "read" ["line"] (session "r" KOwn (rec_val r) [("line", VStr line)] o leg)).
Proof. intros files n r line o leg L. by_session (source_read line). Qed.
Print Assumptions C61_read.
(* r.validate(line), r.primary(), r.hasCont(): they leave the object as it is *)
Theorem C61_validate : forall files n r line o leg, leg_ok leg ->
  gives VBool ([], rec_val r, Ok (validate line)) "r" KOwn [("line", VStr line)] o
    (ask files (S (S (S (S n)))) "r" "validate" ["line"] (session "r" KOwn (rec_val r) [("line", VStr line)] o leg)).
Proof. intros files n r line o leg L. by_session (source_validate line). Qed.
Print Assumptions C61_validate.
Theorem C61_primary : forall files n r o leg, leg_ok leg ->
  gives VBool ([], rec_val r, Ok (primary r)) "r" KOwn [] o (ask files (S (S (S (S n)))) "r" "primary" [] (session "r" KOwn (rec_val r) [] o leg)) /\
  gives VBool ([], rec_val r, Ok (hasCont r)) "r" KOwn [] o (ask files (S (S (S (S n)))) "r" "hasCont" [] (session "r" KOwn (rec_val r) [] o leg)).
Proof. intros files n r o leg L. split; [by_session source_primary|by_session source_hasCont]. Qed.
Print Assumptions C61_primary.
(* r.decode(output) and r.decode() *)
Theorem C61_decode : forall files n r b o leg, leg_ok leg ->
  gives VTableText (let (o', y) := decode r b in (o', rec_val r, y)) "r" KOwn [("output", VBool b)] o
    (ask files (S (S (S (S n)))) "r" "decode" ["output"] (session "r" KOwn (rec_val r) [("output", VBool b)] o leg)) /\
  gives VTableText (let (o', y) := decode r true in (o', rec_val r, y)) "r" KOwn [] o
    (ask files (S (S (S (S n)))) "r" "decode" [] (session "r" KOwn (rec_val r) [] o leg)).
Proof.
  intros files n r b o leg L. split.
  - replace (let (o', y) := decode r b in (o', rec_val r, y)) with (on_record (with_self (decode r b) r)) by (destruct (decode r b); reflexivity). by_session (source_decode b).
  - replace (let (o', y) := decode r true in (o', rec_val r, y)) with (on_record (with_self (decode r true) r)) by (destruct (decode r true); reflexivity). by_session source_decode_default.
Qed.
Print Assumptions C61_decode.
(* r.json(output, single_line), r.json(output) and r.json() *)
Theorem C61_json : forall files n r b l o leg, leg_ok leg ->
  gives VStr (let (o', y) := json r b l in (o', rec_val r, y)) "r" KOwn [("output", VBool b); ("single_line", VBool l)] o
    (ask files (S (S (S (S n)))) "r" "json" ["output"; "single_line"] (session "r" KOwn (rec_val r) [("output", VBool b); ("single_line", VBool l)] o leg)) /\
  gives VStr (let (o', y) := json r b true in (o', rec_val r, y)) "r" KOwn [("output", VBool b)] o
    (ask files (S (S (S (S n)))) "r" "json" ["output"] (session "r" KOwn (rec_val r) [("output", VBool b)] o leg)) /\
  gives VStr (let (o', y) := json r true true in (o', rec_val r, y)) "r" KOwn [] o
    (ask files (S (S (S (S n)))) "r" "json" [] (session "r" KOwn (rec_val r) [] o leg)).
Proof.
  intros files n r b l o leg L. repeat split.
  - replace (let (o', y) := json r b l in (o', rec_val r, y)) with (on_record (with_self (json r b l) r)) by (destruct (json r b l); reflexivity). by_session (source_json b l).
  - replace (let (o', y) := json r b true in (o', rec_val r, y)) with (on_record (with_self (json r b true) r)) by (destruct (json r b true); reflexivity). by_session (source_json_output b).
  - replace (let (o', y) := json r true true in (o', rec_val r, y)) with (on_record (with_self (json r true true) r)) by (destruct (json r true true); reflexivity). by_session source_json_default.
Qed.
Print Assumptions C61_json.
(* a Record object made, filled and shown by the source *)
Example C61_ex : match ask no_files 4 "r" "read" ["line"] (session "r" KOwn (rec_val new_record) [("line", VStr l_sea)] [] leg0) with
  | Done (VBool true) (St [("r", (_, VInst _ _ [_; _; ("continuation", VStr c); _; ("definition", VInst _ d _)])); _] [] _) => (c, d)
  | _ => ([], "")
  end = (lit "1", "Airport").
Proof. vm_compute. reflexivity. Qed.
Example C61_ex_refused : ask no_files 4 "r" "read" ["line"] (session "r" KOwn (rec_val new_record) [("line", VStr (lit "HDR"))] [] leg0) =
  Done (VBool false) (session "r" KOwn (rec_val new_record) [("line", VStr (lit "HDR"))] [] leg0).
Proof. vm_compute. reflexivity. Qed.
