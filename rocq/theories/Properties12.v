(* C64-C67: names, columns, decoders, widths and order of the fields of a record. *)
From Coq Require Import List String NArith ZArith Bool Arith Lia.
From Verif Require Import PyBase Decoder Layouts Record Api SpecLayouts Spec SpecNum SpecRecord SpecColumns SpecNames SpecFields StrFacts NameProps Samples.
Import ListNotations.
Open Scope string_scope.
Open Scope list_scope.
Local Open Scope nat_scope.

(* ================= C64 ================= *)
(* two records of one section: fields of the same name are the same columns of their lines *)
Theorem C64_same_name_same_columns : forall r1 r2 line1 line2 t1 t2 o1 o2 r1' r2' s name f1 f2,
  record_line line1 t1 -> record_line line2 t2 -> read r1 line1 = (o1, r1', Ok true) -> read r2 line2 = (o2, r2', Ok true) ->
  ident r1' = lit s -> ident r2' = lit s -> In f1 (fields r1') -> In f2 (fields r2') -> f_name f1 = lit name -> f_name f2 = lit name ->
  ~ In (s, name) moving -> exists ks, ks <> [] /\ f_value f1 = columns t1 ks /\ f_value f2 = columns t2 ks.
Proof. exact c64. Qed.
Print Assumptions C64_same_name_same_columns.
Theorem C64_always_refuted : forall s name, In (s, name) moving -> exists e1 e2 c1 c2, In e1 catalogue /\ In e2 catalogue /\ In s (e_sections e1) /\ In s (e_sections e2) /\
  In c1 (e_cells e1) /\ In c2 (e_cells e2) /\ c_name c1 = name /\ c_name c2 = name /\ c_cols c1 <> c_cols c2.
Proof. exact c64_moving. Qed.
Print Assumptions C64_always_refuted.
(* a continuation of a TAA record: its second ICAO code is the first one again, its continuation number is that of other types *)
Definition value_of (line : str) (name : string) : list str := map f_value (filter (fun f => str_eqb (f_name f) (lit name)) (fields (after (read new_record line)))).
Example C64_ex : value_of l_taa_cont "ICAO Code (2)" = [lit "K1"] /\ value_of l_taa_cont "ICAO Code" = [lit "K1"] /\ List.length moving = 29 /\
  value_of l_sea "ATA/IATA Designator" = [lit "SEA"] /\ value_of l_sea_cont "ATA/IATA Designator" = [lit "SEA"].
Proof. vm_compute. repeat split; reflexivity. Qed.

(* ================= C65 ================= *)
(* two records of any sections: fields of the same name, apart from a number, are decoded alike *)
Theorem C65_same_name_same_decoder : forall r1 r2 line1 line2 t1 t2 o1 o2 r1' r2' n1 n2 f1 f2,
  record_line line1 t1 -> record_line line2 t2 -> read r1 line1 = (o1, r1', Ok true) -> read r2 line2 = (o2, r2', Ok true) ->
  In f1 (fields r1') -> In f2 (fields r2') -> f_name f1 = lit n1 -> f_name f2 = lit n2 -> base_name n1 = base_name n2 ->
  ~ In (base_name n1) (map fst ambiguous) -> f_fn f1 = f_fn f2.
Proof. exact c65. Qed.
Print Assumptions C65_same_name_same_decoder.
Theorem C65_always_refuted : forall b fs, In (b, fs) ambiguous -> 2 <= List.length fs /\ NoDup fs /\
  forall f, In f fs <-> exists e c, In e catalogue /\ In c (e_cells e) /\ base_name (c_name c) = b /\ c_fn c = f.
Proof. exact c65_ambiguous. Qed.
Print Assumptions C65_always_refuted.
(* a company route with the ICAO code K1 in columns 13-14 and in columns 58-59: the second one is read as the path of a boundary, with a complaint on the console *)
Example C65_ex : value_of l_route "ICAO Code" = [lit "K1"; lit "K1"; lit "  "] /\ List.length ambiguous = 11 /\
  exists rows, decode (after (read new_record l_route)) false = ([EvPrint (lit "Unsupported Boundary Via: ""K1""")], Ok rows) /\
    map snd (filter (fun w => str_eqb (fst (fst w)) (lit "ICAO Code")) rows) = [DStr (lit "K1"); DStr (lit "Unsupported Value: ""K1"""); DStr (lit "  ")].
Proof. split; [vm_compute; reflexivity|split; [vm_compute; reflexivity|]]. eexists. split; vm_compute; reflexivity. Qed.

(* ================= C66 ================= *)
(* the values a decoder is given have the width of that kind of field, except in the listed fields *)
Theorem C66_widths : forall r line t o r' f s name w, record_line line t -> read r line = (o, r', Ok true) -> ident r' = lit s ->
  In f (fields r') -> f_name f = lit name -> In (f_fn f, w) widths ->
  List.length (f_value f) = w \/ exists k, In (s, name, f_fn f, k) odd_widths /\ List.length (f_value f) = k.
Proof. exact c66. Qed.
Print Assumptions C66_widths.
Theorem C66_always_refuted : forall s name f k, In (s, name, f, k) odd_widths -> exists e c w, In e catalogue /\ In s (e_sections e) /\ In c (e_cells e) /\
  c_name c = name /\ c_fn c = f /\ List.length (c_cols c) = k /\ In (f, w) widths /\ w <> k.
Proof. exact c66_odd. Qed.
Print Assumptions C66_always_refuted.
(* the lower limit of a restrictive airspace has lost its first column: GND is shown as ND *)
Example C66_ex : columns l_ur [82; 83; 84; 85; 86] = lit "GND  " /\ value_of l_ur "Lower Limit" = [lit "ND  "] /\ value_of l_ur "Upper Limit" = [lit "03000"] /\
  In (F121, 5) widths /\ In ("UR", "Lower Limit", F121, 4) odd_widths /\ List.length odd_widths = 31.
Proof. repeat split; try (vm_compute; reflexivity); vm_compute; tauto. Qed.

(* ================= C67 ================= *)
(* the fields of a record are listed in the order of their first columns, except in the listed layouts *)
Theorem C67_order : forall r line t o r', record_line line t -> read r line = (o, r', Ok true) ->
  exists e kss, In e catalogue /\ In (ident r') (map lit (e_sections e)) /\ map f_value (fields r') = map (columns t) kss /\ map c_cols (e_cells e) = kss /\
    (ascending (map first_column kss) <-> ~ exists key, In key unordered /\ has_key e key).
Proof. exact c67. Qed.
Print Assumptions C67_order.
(* the same company route: the sixth field begins before the fifth *)
Example C67_ex : map (fun f => f_name f) (firstn 6 (fields (after (read new_record l_route)))) =
    map lit ["Record Type"; "Customer"; "Section Code"; "From Airport/Fix"; "ICAO Code"; "Airspace Center"] /\
  map (fun f => f_value f) (firstn 6 (fields (after (read new_record l_route)))) =
    [lit "S"; lit "USA"; lit "R "; lit "KSEA "; columns l_route [13; 14]; columns l_route [10; 11; 12; 13; 14]] /\ List.length unordered = 3.
Proof. repeat split; vm_compute; reflexivity. Qed.
