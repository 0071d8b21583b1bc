(* Which columns of a record its fields show, and which names its fields have.  The tables are written by tools/hidden.py. *)
From Coq Require Import List String NArith.
From Verif Require Import PyBase Decoder Layouts Record SpecLayouts Spec SpecJson.
Import ListNotations.
Open Scope string_scope.
Open Scope list_scope.
Local Open Scope nat_scope.

(* column k is shown in some field of the layout *)
Definition shown_in (cells : list cell) (k : nat) : Prop := exists c, In c cells /\ In k (c_cols c).
(* column k is shown in two fields of the layout *)
Definition shown_twice (cells : list cell) (k : nat) : Prop :=
  exists a c1 b c2 d, cells = a ++ c1 :: b ++ c2 :: d /\ In k (c_cols c1) /\ In k (c_cols c2).
(* section code, primary or not, application type: what a layout is for *)
Definition layout_key : Type := string * option bool * option string.
Definition has_key (e : entry) (key : layout_key) : Prop :=
  In (fst (fst key)) (e_sections e) /\ e_primary e = snd (fst key) /\ e_app e = snd key.

(* the columns no field shows (ranges, both ends included), for the layouts of the catalogue in order *)
Definition hidden_columns : list (list (nat * nat)) := [
  (* ("AS", None, None) *) [(2, 4); (7, 13); (21, 30); (121, 123)];
  (* ("D ", Some true, None) *) [(13, 13); (18, 19); (30, 32)];
  (* ("D ", Some false, Some "A") *) [(13, 13); (18, 19); (93, 123)];
  (* ("D ", Some false, Some "L") *) [(13, 13); (18, 19); (79, 79); (101, 101); (109, 123)];
  (* ("D ", Some false, Some "P") *) [(13, 13); (18, 19); (28, 28); (32, 32); (44, 123)];
  (* ("D ", Some false, Some "S") *) [(13, 13); (18, 19); (24, 27); (33, 74); (85, 123)];
  (* ("DB", Some true, None), ("PN", Some true, None) *) [(13, 13); (18, 19); (32, 32); (52, 74); (80, 90)];
  (* ("DB", Some false, Some "A"), ("PN", Some false, Some "A") *) [(13, 13); (18, 19); (93, 123)];
  (* ("DB", Some false, Some "P"), ("PN", Some false, Some "P") *) [(13, 13); (18, 19); (28, 28); (32, 32); (44, 123)];
  (* ("DB", Some false, Some "Q"), ("PN", Some false, Some "Q") *) [(13, 13); (18, 19); (32, 32); (52, 74); (80, 90)];
  (* ("DB", Some false, Some "S"), ("PN", Some false, Some "S") *) [(13, 13); (18, 19); (24, 27); (33, 79); (85, 123)];
  (* ("EA", Some true, None) *) [(13, 13); (19, 19); (23, 26); (32, 32); (52, 74); (80, 84); (88, 95)];
  (* ("EA", Some false, Some "A") *) [(13, 13); (19, 19)];
  (* ("EA", Some false, Some "P") *) [(13, 13); (19, 19); (44, 123)];
  (* ("EA", Some false, Some "Q") *) [(13, 13); (19, 19); (23, 26); (32, 32); (52, 74); (80, 84); (88, 95)];
  (* ("EM", Some true, None) *) [(7, 13); (18, 19); (27, 27); (30, 32); (56, 74); (88, 93)];
  (* ("EM", Some false, Some "A") *) [(7, 13); (18, 19); (24, 123)];
  (* ("EP", Some true, None) *) [(13, 27); (72, 98)];
  (* ("EP", Some false, Some "A") *) [(13, 27); (40, 40); (110, 123)];
  (* ("ER", Some true, None) *) [(7, 13); (19, 25); (60, 62); (83, 83); (102, 123)];
  (* ("ER", Some false, Some "A") *) [(7, 13); (19, 25); (110, 123)];
  (* ("ER", Some false, Some "P") *) [(7, 13); (19, 25); (53, 66); (122, 122)];
  (* ("ER", Some false, Some "Q") *) [(7, 13); (19, 25); (60, 62); (83, 83); (102, 123)];
  (* ("ET", Some true, None) *) [(7, 13); (30, 38); (106, 123)];
  (* ("ET", Some false, Some "A") *) [(7, 13); (30, 38); (110, 123)];
  (* ("ET", Some false, Some "T") *) [(7, 13); (30, 38); (113, 123)];
  (* ("EU", Some true, Some "AE") *) [(12, 12); (37, 37)];
  (* ("EU", Some true, Some "TC") *) [(12, 12); (37, 37); (96, 123)];
  (* ("EU", Some true, Some "SC") *) [(12, 12); (37, 37); (96, 123)];
  (* ("EU", Some true, Some "NR") *) [(7, 7); (12, 12); (27, 27); (37, 37); (121, 123)];
  (* ("EU", Some false, Some "AE") *) [(12, 12); (20, 51)];
  (* ("EU", Some false, Some "TC") *) [(12, 12); (20, 51); (96, 123)];
  (* ("EU", Some false, Some "NR") *) [(7, 7); (12, 12); (20, 51); (121, 123)];
  (* ("EV", Some true, None) *) [(16, 18); (112, 123)];
  (* ("EV", Some false, Some " ") *) [(16, 18); (71, 93)];
  (* ("EV", Some false, Some "T") *) [(16, 18); (58, 60); (121, 123)];
  (* ("HA", Some true, None) *) [(6, 6); (32, 32); (93, 93)];
  (* ("HA", Some false, Some "A") *) [(6, 6); (93, 123)];
  (* ("HA", Some false, Some "P") *) [(6, 6); (44, 66); (74, 123)];
  (* ("HA", Some false, Some "Q") *) [(6, 6); (93, 123)];
  (* ("HC", Some true, None) *) [(6, 6); (19, 19); (23, 26); (32, 32); (52, 74); (80, 84); (88, 95)];
  (* ("HC", Some false, Some "A") *) [(6, 6); (19, 19); (93, 123)];
  (* ("HC", Some false, Some "P") *) [(6, 6); (19, 19); (44, 123)];
  (* ("HC", Some false, None) *) [(6, 6); (19, 19); (23, 26); (32, 32); (52, 74); (80, 84); (88, 95)];
  (* ("HD", Some true, None), ("HE", Some true, None), ("HF", Some true, None), ("PD", Some true, None), ("PE", Some true, None), ("PF", Some true, None) *) [(6, 6); (26, 26); (81, 82); (114, 114); (121, 123)];
  (* ("HD", Some false, Some "E"), ("HE", Some false, Some "E"), ("HF", Some false, Some "E"), ("PD", Some false, Some "E"), ("PE", Some false, Some "E"), ("PF", Some false, Some "E") *) [(6, 6); (26, 26); (86, 89); (93, 118); (121, 123)];
  (* ("HD", Some false, Some "P"), ("HE", Some false, Some "P"), ("HF", Some false, Some "P"), ("PD", Some false, Some "P"), ("PE", Some false, Some "P"), ("PF", Some false, Some "P") *) [(6, 6); (26, 26); (46, 74); (79, 123)];
  (* ("HD", Some false, Some "W"), ("HE", Some false, Some "W"), ("HF", Some false, Some "W"), ("PD", Some false, Some "W"), ("PE", Some false, Some "W"), ("PF", Some false, Some "W") *) [(6, 6); (26, 26); (74, 118); (121, 123)];
  (* ("HK", Some true, None) *) [(6, 6); (31, 40); (120, 123)];
  (* ("HK", Some false, Some "A") *) [(6, 6); (25, 29); (35, 36); (41, 50); (110, 123)];
  (* ("HS", Some true, None) *) [(6, 6); (18, 18); (24, 38); (40, 42); (121, 123)];
  (* ("HS", Some false, Some "A") *) [(6, 6); (18, 18); (24, 38); (110, 123)];
  (* ("HV", Some true, None) *) [(6, 6)];
  (* ("HV", Some false, Some "A") *) [(6, 6); (88, 123)];
  (* ("HV", Some false, Some "T") *) [(6, 6); (101, 123)];
  (* ("PA", Some true, None) *) [(6, 6); (17, 21); (90, 93)];
  (* ("PA", Some false, Some "A") *) [(6, 6); (17, 21); (93, 123)];
  (* ("PA", Some false, Some "P") *) [(6, 6); (17, 21); (44, 66); (74, 123)];
  (* ("PA", Some false, Some "Q") *) [(6, 6); (17, 21); (90, 93)];
  (* ("PB", Some true, None) *) [(6, 6); (19, 21); (23, 32); (52, 98)];
  (* ("PB", Some false, Some "A") *) [(6, 6); (19, 21); (93, 123)];
  (* ("PC", Some true, None) *) [(6, 6); (19, 19); (23, 26); (32, 32); (52, 74); (80, 84); (88, 95)];
  (* ("PC", Some false, Some "A") *) [(6, 6); (19, 19)];
  (* ("PC", Some false, Some "P") *) [(6, 6); (19, 19); (44, 123)];
  (* ("PC", Some false, Some "Q") *) [(6, 6); (19, 19); (23, 26); (32, 32); (52, 74); (80, 84); (88, 95)];
  (* ("PG", Some true, None) *) [(6, 6); (19, 21); (32, 32); (57, 60); (96, 101)];
  (* ("PG", Some false, Some "A") *) [(6, 6); (19, 21); (23, 23); (93, 123)];
  (* ("PG", Some false, Some "S") *) [(6, 6); (19, 21); (24, 51); (58, 65); (72, 123)];
  (* ("PI", Some true, None) *) [(6, 6); (19, 21); (111, 123)];
  (* ("PI", Some false, Some "A") *) [(6, 6); (19, 21); (23, 23); (93, 123)];
  (* ("PI", Some false, Some "S") *) [(6, 6); (19, 21); (24, 27); (33, 51); (58, 87); (121, 123)];
  (* ("PK", Some true, None) *) [(6, 6); (31, 40); (120, 123)];
  (* ("PK", Some false, Some "A") *) [(6, 6); (25, 29); (35, 36); (41, 50); (110, 123)];
  (* ("PL", Some true, None) *) [(6, 6); (19, 21); (26, 27)];
  (* ("PL", Some false, Some "A") *) [(6, 6); (19, 21); (24, 27); (80, 83); (99, 100); (110, 123)];
  (* ("PM", Some true, None) *) [(6, 6); (21, 21); (84, 84); (89, 90); (96, 97); (103, 123)];
  (* ("PM", Some false, Some "A") *) [(6, 6); (21, 21); (24, 123)];
  (* ("PP", Some true, None) *) [(6, 6)];
  (* ("PP", Some false, Some "E") *) [(6, 6); (62, 71); (75, 123)];
  (* ("PR", Some true, None) *) [(6, 6); (121, 123)];
  (* ("PR", Some false, Some "A") *) [(6, 6); (79, 91); (94, 106); (118, 118)];
  (* ("PR", Some false, Some "T") *) [(6, 6)];
  (* ("PS", Some true, None) *) [(6, 6); (18, 18); (24, 38); (40, 42); (121, 123)];
  (* ("PS", Some false, Some "A") *) [(6, 6); (18, 18); (24, 38); (110, 123)];
  (* ("PT", Some true, None) *) [(6, 6); (22, 22); (33, 51); (79, 83); (96, 97); (109, 110); (116, 123)];
  (* ("PT", Some false, Some "A") *) [(6, 6); (22, 22); (24, 123)];
  (* ("PV", Some true, None) *) [(6, 6)];
  (* ("PV", Some false, Some "N") *) [(6, 6); (88, 123)];
  (* ("R ", None, None) *) [(22, 22); (61, 61); (72, 72); (95, 123)];
  (* ("RA", None, None) *) [(18, 19); (34, 35); (50, 51); (66, 67); (82, 83); (98, 99); (114, 123)];
  (* ("TC", None, None) *) [(2, 4); (10, 28); (38, 39); (100, 123)];
  (* ("TG", Some true, None) *) [(40, 40); (113, 123)];
  (* ("TG", Some false, Some "A") *) [(41, 123)];
  (* ("UC", Some true, None) *) [(9, 9); (18, 19); (29, 30)];
  (* ("UC", Some false, Some "A") *) [(9, 9); (18, 19)];
  (* ("UF", Some true, None) *) [(32, 32); (98, 98)];
  (* ("UF", Some false, Some "A") *) [(22, 123)];
  (* ("UR", Some true, None) *) [(29, 30); (79, 82)];
  (* ("UR", Some false, Some "T") *) [(29, 29)];
  (* ("UR", Some false, Some "P") *) [(27, 29); (42, 123)];
  (* ("UR", Some false, Some "C") *) [(29, 29)]].
Definition within (rs : list (nat * nat)) (k : nat) : Prop := exists a b, In (a, b) rs /\ a <= k <= b.
(* layouts in which two fields have the same name *)
Definition repeating : list layout_key := [
  ("ET", Some true, None);
  ("EU", Some true, Some "AE");
  ("PR", Some false, Some "A");
  ("R ", None, None);
  ("RA", None, None);
  ("TG", Some true, None)].
(* layouts in which two fields show the same column, and those columns *)
Definition overlapping : list (layout_key * list nat) := [
  (("D ", Some false, Some "L"), [102]);
  (("D ", Some false, Some "P"), [33]);
  (("DB", Some false, Some "P"), [33]);
  (("PN", Some false, Some "P"), [33]);
  (("EP", Some false, Some "A"), [41]);
  (("HK", Some true, None), [21; 22; 23; 24]);
  (("HK", Some false, Some "A"), [11; 12]);
  (("PK", Some true, None), [21; 22; 23; 24]);
  (("PK", Some false, Some "A"), [11; 12]);
  (("R ", None, None), [10; 11; 13; 14]);
  (("UC", Some true, None), [10]);
  (("UC", Some false, Some "A"), [10]);
  (("UR", Some false, Some "T"), [28]);
  (("UR", Some false, Some "C"), [28])].
