(* C28-C30, C41, C42: json(), and which columns and names a record shows. *)
From Coq Require Import List String NArith ZArith Bool Arith Lia Sorted.
From Verif Require Import PyBase Decoder Layouts Json Record Api SpecLayouts Spec SpecJson SpecRecord SpecColumns StrFacts ReadProps ReadProps3
  RecordProps JsonProps ColumnProps Samples Properties1.
Import ListNotations.
Open Scope string_scope.
Open Scope list_scope.
Local Open Scope nat_scope.

(* ================= C28 ================= *)
(* json() on any Record: a JSON reader gets back one member per field name, with the value of the last field of that name *)
Theorem C28_round_trip : forall r single,
  Forall (fun f => sound_text (f_name f) /\ sound_text (f_value f)) (fields r) ->
  exists text ms, json r false single = ([], Ok text) /\ read_json text = Some ms /\
    NoDup (map fst ms) /\ (forall k v, In (k, v) ms <-> last_value (fields r) k v).
Proof.
  intros r single S. pose proof (sound_dict _ S) as D. destruct single.
  - exists (dumps (json_dict (fields r))), (json_dict (fields r)). split; [reflexivity|]. split; [apply read_dumps; exact D|].
    split; [apply json_dict_nodup|]. intros. apply json_dict_spec.
  - exists (dumps_pretty (json_dict (fields r))), (sort_kv (json_dict (fields r))). split; [reflexivity|]. split; [apply read_dumps_pretty; exact D|]. split.
    + eapply Permutation.Permutation_NoDup; [|apply json_dict_nodup]. apply Permutation.Permutation_map, Permutation.Permutation_sym, sort_perm.
    + intros k v. rewrite <- json_dict_spec. split; apply Permutation.Permutation_in; [|apply Permutation.Permutation_sym]; apply sort_perm.
Qed.
Print Assumptions C28_round_trip.
(* the condition holds for every record read from text without surrogates *)
Theorem C28_text_from_files : forall r line t o r', record_line line t -> scalar_text t -> read r line = (o, r', Ok true) ->
  Forall (fun f => sound_text (f_name f) /\ sound_text (f_value f)) (fields r').
Proof. exact read_sound. Qed.
Print Assumptions C28_text_from_files.
(* the condition cannot be dropped: two different values, the same JSON *)
Theorem C28_surrogates_refuted : exists fs fs', fs <> fs' /\
  json (Rec [] [] [] fs None) false true = json (Rec [] [] [] fs' None) false true.
Proof.
  exists [Field (lit "x") [55357; 56832]%N F071], [Field (lit "x") [128512]%N F071]. split; [discriminate|vm_compute; reflexivity].
Qed.
Print Assumptions C28_surrogates_refuted.
Example C28_ex : read_json (lit "{""a\n\u00e9"": ""\ud83d\ude00 \""\\"" , ""b"":""""}") =
  Some [([97; 10; 233]%N, [128512; 32; 34; 92]%N); (lit "b", [])] /\
  read_json (lit "{""a"": 1}") = None /\ read_json (lit "{""a"": ""x""") = None /\
  json (Rec [] [] [] [Field (lit "a") [34; 92; 9; 233; 128512]%N F071] None) false true =
    ([], Ok (lit "{""a"": ""\""\\\t\u00e9\ud83d\ude00""}")).
Proof. repeat split. Qed.

(* ================= C29 ================= *)
(* either the object has exactly the fields as members, in order, or the layout is one of six *)
Theorem C29_complete : forall r line t o r', record_line line t -> scalar_text t -> read r line = (o, r', Ok true) ->
  (exists text, json r' false true = ([], Ok text) /\ read_json text = Some (map (fun f => (f_name f, f_value f)) (fields r'))) \/
  (exists s p a, In (s, p, a) repeating /\ ident r' = lit s /\ (forall b, p = Some b -> b = primary r')).
Proof. exact c29_complete. Qed.
Print Assumptions C29_complete.
Theorem C29_repeated_names : forall e, In e catalogue ->
  (NoDup (map c_name (e_cells e)) <-> ~ exists key, In key repeating /\ has_key e key).
Proof. exact c29_names. Qed.
Print Assumptions C29_repeated_names.
Theorem C29_listed_layouts_exist : forall key, In key repeating -> exists e, In e catalogue /\ has_key e key.
Proof. exact c29_used. Qed.
Print Assumptions C29_listed_layouts_exist.
(* values missing from the JSON, for each of the six layouts *)
Definition missing_from_json (r : rec) (f : field) : Prop :=
  In f (fields r) /\ exists text ms, json r false true = ([], Ok text) /\ read_json text = Some ms /\ ~ In (f_name f, f_value f) ms.
Ltac missing := split; [apply has_field; vm_compute; reflexivity|]; eexists; eexists; split; [vm_compute; reflexivity|]; split; [vm_compute; reflexivity|];
  let H := fresh in intro H; repeat (destruct H as [H|H]; [discriminate H|]); exact H.
Theorem C29_lost_values_refuted :
  (exists line f, returned (read new_record line) = Ok true /\ ident (after (read new_record line)) = lit "ET" /\ missing_from_json (after (read new_record line)) f) /\
  (exists line f, returned (read new_record line) = Ok true /\ ident (after (read new_record line)) = lit "PR" /\ missing_from_json (after (read new_record line)) f) /\
  (exists line f, returned (read new_record line) = Ok true /\ ident (after (read new_record line)) = lit "R " /\ missing_from_json (after (read new_record line)) f) /\
  (exists line f, returned (read new_record line) = Ok true /\ ident (after (read new_record line)) = lit "RA" /\ missing_from_json (after (read new_record line)) f) /\
  (exists line f, returned (read new_record line) = Ok true /\ ident (after (read new_record line)) = lit "TG" /\ missing_from_json (after (read new_record line)) f) /\
  (exists r line f, reachable r /\ returned (read r line) = Ok true /\ ident (after (read r line)) = lit "EU" /\ missing_from_json (after (read r line)) f).
Proof.
  split; [|split; [|split; [|split; [|split]]]].
  - exists l_twice_et, (Field (lit "ICAO Code") (lit "AA") F014). do 2 (split; [vm_compute; reflexivity|]). missing.
  - exists l_twice_pr, (Field (lit "Intermediate Fix Identifier") (lit "AAAAA") F013). do 2 (split; [vm_compute; reflexivity|]). missing.
  - exists l_twice_r, (Field (lit "ICAO Code") (lit "AA") F014). do 2 (split; [vm_compute; reflexivity|]). missing.
  - exists l_twice_ra, (Field (lit "Distance to Alternate (3)") (lit "AAA") F251). do 2 (split; [vm_compute; reflexivity|]). missing.
  - exists l_twice_tg, (Field (lit "Preferred Route Ident (4)") (lit "AAAAAAAAAA") F008). do 2 (split; [vm_compute; reflexivity|]). missing.
  - exists (after (read new_record l_sea)), l_twice_eu, (Field (lit "Time of Operation") (lit "AAAAAAAAAA") F195). split; [repeat constructor|].
    do 2 (split; [vm_compute; reflexivity|]). missing.
Qed.
Print Assumptions C29_lost_values_refuted.
(* different records, the same JSON *)
Theorem C29_injective_refuted : forall p, In p [(l_twice_et, l_twice_et_2); (l_twice_pr, l_twice_pr_2); (l_twice_ra, l_twice_ra_2); (l_twice_tg, l_twice_tg_2)] ->
  let r1 := after (read new_record (fst p)) in let r2 := after (read new_record (snd p)) in
  returned (read new_record (fst p)) = Ok true /\ returned (read new_record (snd p)) = Ok true /\
  fields r1 <> fields r2 /\ json r1 false true = json r2 false true /\ json r1 false false = json r2 false false.
Proof.
  intros p H. repeat (destruct H as [<-|H]; [compute_all|]). destruct H.
Qed.
Print Assumptions C29_injective_refuted.
Example C29_ex : exists text ms, json (after (read new_record l_sea)) false true = ([], Ok text) /\ read_json text = Some ms /\ List.length ms = 28 /\
  In (lit "Airport Elevation", lit "00429") ms.
Proof.
  eexists. eexists. split; [vm_compute; reflexivity|]. split; [vm_compute; reflexivity|]. split; [reflexivity|].
  repeat first [left; reflexivity | right].
Qed.

(* ================= C30 ================= *)
Theorem C30_pretty : forall r, Forall (fun f => sound_text (f_name f) /\ sound_text (f_value f)) (fields r) ->
  exists text text' ms ms', json r false true = ([], Ok text) /\ json r false false = ([], Ok text') /\
    read_json text = Some ms /\ read_json text' = Some ms' /\
    (forall k v, In (k, v) ms' <-> In (k, v) ms) /\
    StronglySorted (fun a b => comes_before (fst a) (fst b)) ms'.
Proof.
  intros r S. pose proof (sound_dict _ S) as D.
  exists (dumps (json_dict (fields r))), (dumps_pretty (json_dict (fields r))), (json_dict (fields r)), (sort_kv (json_dict (fields r))).
  split; [reflexivity|]. split; [reflexivity|]. split; [apply read_dumps; exact D|]. split; [apply read_dumps_pretty; exact D|]. split.
  - intros k v. split; apply Permutation.Permutation_in; [|apply Permutation.Permutation_sym]; apply sort_perm.
  - apply sorted_before, sort_sorted, json_dict_nodup.
Qed.
Print Assumptions C30_pretty.
Example C30_ex : let r := Rec [] [] [] [Field (lit "b") (lit "1") F071; Field (lit "a") (lit "2") F071] None in
  json r false true = ([], Ok (lit "{""b"": ""1"", ""a"": ""2""}")) /\
  json r false false = ([], Ok (lit "{" ++ [10%N] ++ lit "    ""a"": ""2""," ++ [10%N] ++ lit "    ""b"": ""1""" ++ [10%N] ++ lit "}")) /\
  json new_record false false = ([], Ok (lit "{}")).
Proof. repeat split. Qed.
Example C30_ex_order : comes_before (lit "Latitude") (lit "Longitude") /\ comes_before (lit "ICAO Code") (lit "ICAO Code (2)").
Proof.
  split; [exists (lit "L"); right; exists 97%N, 111%N, (lit "titude"), (lit "ngitude"); repeat split|].
  exists (lit "ICAO Code"). left. exists 32%N, (lit "(2)"). split; reflexivity.
Qed.

(* ================= C41 ================= *)
(* the columns a layout does not show *)
Theorem C41_hidden_columns : forall i e rs k, nth_error catalogue i = Some e -> nth_error hidden_columns i = Some rs -> 1 <= k <= 132 ->
  (shown_in (e_cells e) k <-> ~ within rs k).
Proof. exact c41_hidden. Qed.
Print Assumptions C41_hidden_columns.
(* the others can be recovered from the JSON *)
Theorem C41_rebuild : forall r1 r2 line1 line2 t1 t2 o1 o2 r1' r2' e single,
  In e catalogue -> record_line line1 t1 -> record_line line2 t2 -> scalar_text t1 -> scalar_text t2 ->
  read r1 line1 = (o1, r1', Ok true) -> read r2 line2 = (o2, r2', Ok true) ->
  fields r1' = map (field_of t1) (e_cells e) -> fields r2' = map (field_of t2) (e_cells e) -> NoDup (map c_name (e_cells e)) ->
  snd (json r1' false single) = snd (json r2' false single) ->
  forall k, shown_in (e_cells e) k -> column t1 k = column t2 k.
Proof. exact c41_rebuild. Qed.
Print Assumptions C41_rebuild.
(* and the hidden ones cannot: fields depend on the shown columns only *)
Theorem C41_hidden_columns_do_not_matter : forall e t1 t2, (forall k, shown_in (e_cells e) k -> column t1 k = column t2 k) ->
  map (field_of t1) (e_cells e) = map (field_of t2) (e_cells e).
Proof. intro e. exact (columns_determine_fields (e_cells e)). Qed.
Print Assumptions C41_hidden_columns_do_not_matter.
(* data of the standard is among them: the first character of a lower limit, in a sample of the library's own *)
Theorem C41_nothing_lost_refuted : exists t1 t2, record_line t1 t1 /\ record_line t2 t2 /\
  columns t1 [82; 83; 84; 85; 86] = lit "GND  " /\ columns t2 [82; 83; 84; 85; 86] = lit " ND  " /\
  returned (read new_record t1) = Ok true /\ ident (after (read new_record t1)) = lit "UR" /\
  fields (after (read new_record t1)) = fields (after (read new_record t2)) /\
  In (Field (lit "Lower Limit") (lit "ND  ") F121) (fields (after (read new_record t1))).
Proof. exists l_ur, l_ur_nd. split; [sample|]. split; [sample|]. compute_all. Qed.
Print Assumptions C41_nothing_lost_refuted.
Example C41_ex : List.length catalogue = 101 /\ List.length hidden_columns = 101 /\
  nth_error hidden_columns 97 = Some [(29, 30); (79, 82)] /\
  (exists e, nth_error catalogue 97 = Some e /\ e_sections e = ["UR"] /\ e_primary e = Some true).
Proof. split; [reflexivity|]. split; [reflexivity|]. split; [reflexivity|]. eexists. split; [reflexivity|]. split; reflexivity. Qed.

(* ================= C42 ================= *)
Theorem C42_overlaps : forall e, In e catalogue ->
  (forall k, ~ shown_twice (e_cells e) k) \/
  exists key ks, In (key, ks) overlapping /\ has_key e key /\ (forall k, shown_twice (e_cells e) k <-> In k ks).
Proof. exact c42. Qed.
Print Assumptions C42_overlaps.
Theorem C42_no_overlap_refuted : forall key ks, In (key, ks) overlapping -> ks <> [] /\ exists e, In e catalogue /\ has_key e key.
Proof. exact c42_used. Qed.
Print Assumptions C42_no_overlap_refuted.
Example C42_ex : shown_twice cat_UR_99 28 /\ List.length overlapping = 14.
Proof. split; [apply twice_b_iff; vm_compute; reflexivity|reflexivity]. Qed.
