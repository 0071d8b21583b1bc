(* GENERATED by tools/pyast.py from /repo/src/arinc424/decoder.py: its abstract syntax tree. *)
From Coq Require Import List String ZArith.
From Verif Require Import PySyntax.
Import ListNotations.
Local Open Scope string_scope.
Local Open Scope Z_scope.

(* src/arinc424/decoder.py:6-14 *)
Definition py_decoder_Field : stmt :=
  SClass "Field"
    [SDef "__init__" [("self", None); ("name", None); ("value", None); ("decode_fn", None)]
      [SAssign (EAttr (EName "self") "name") (EName "name");
      SAssign (EAttr (EName "self") "value") (EName "value");
      SAssign (EAttr (EName "self") "decode_fn") (EName "decode_fn")];
    SDef "decode" [("self", None); ("record", None)]
      [SReturn (Some (ECall (EAttr (EName "self") "decode_fn") [(EAttr (EName "self") "value"); (EName "record")] []))]].

(* src/arinc424/decoder.py:20-21 *)
Definition py_decoder_def_val : stmt :=
  SDef "def_val" []
    [SReturn (Some (EStr "<UNKNOWN>"))].

(* src/arinc424/decoder.py:25-31 *)
Definition py_decoder_field_002 : stmt :=
  SDef "field_002" [("value", None); ("record", None)]
    [SIf (ECmp CmpEq (EName "value") (EStr "S"))
      [SReturn (Some (EStr "Standard"))]
      [SIf (ECmp CmpEq (EName "value") (EStr "T"))
        [SReturn (Some (EStr "Tailored"))]
        [SRaise (ECall (EName "ValueError") [(EStr "Invalid Record Type"); (EName "value")] [])]]].

(* src/arinc424/decoder.py:35-58 *)
Definition py_decoder_field_003 : stmt :=
  SDef "field_003" [("value", None); ("record", None)]
    [SMatch (EName "value")
      [(PValue (EStr "USA"), [SReturn (Some (EStr "United States of America"))]);
      (PValue (EStr "AFR"), [SReturn (Some (EStr "Africa"))]);
      (PValue (EStr "CAN"), [SReturn (Some (EStr "Canada"))]);
      (PValue (EStr "EEU"), [SReturn (Some (EStr "Eastern Europe and Asia"))]);
      (PValue (EStr "EUR"), [SReturn (Some (EStr "Europe"))]);
      (PValue (EStr "LAM"), [SReturn (Some (EStr "Latin America"))]);
      (PValue (EStr "MES"), [SReturn (Some (EStr "Middle East"))]);
      (PValue (EStr "PAC"), [SReturn (Some (EStr "Pacific"))]);
      (PValue (EStr "SAM"), [SReturn (Some (EStr "Southern America"))]);
      (PValue (EStr "SPA"), [SReturn (Some (EStr "South Pacific"))]);
      (PWild, [SReturn (Some (EStr "<UNKNOWN>"))])]].

(* src/arinc424/decoder.py:62-109 *)
Definition py_decoder_field_004 : stmt :=
  SDef "field_004" [("value", None); ("record", None)]
    [SIf (ECmp CmpEq (ECall (EAttr (EName "value") "strip") [] []) (EStr ""))
      [SReturn (Some (EName "value"))]
      [];
    SAssign (EName "sections") (ECall (EName "defaultdict") [(EName "def_val")] []);
    SAssign (EItem (EName "sections") (EStr "AS")) (EStr "Grid MORA");
    SAssign (EItem (EName "sections") (EStr "D ")) (EStr "VHF Navaid");
    SAssign (EItem (EName "sections") (EStr "DB")) (EStr "NDB Navaid");
    SAssign (EItem (EName "sections") (EStr "EA")) (EStr "Waypoint");
    SAssign (EItem (EName "sections") (EStr "EM")) (EStr "Airways Marker");
    SAssign (EItem (EName "sections") (EStr "EP")) (EStr "Holding Pattern");
    SAssign (EItem (EName "sections") (EStr "ER")) (EStr "Airways and Route");
    SAssign (EItem (EName "sections") (EStr "ET")) (EStr "Preferred Route");
    SAssign (EItem (EName "sections") (EStr "EU")) (EStr "Airway Restrictions");
    SAssign (EItem (EName "sections") (EStr "EV")) (EStr "Enroute Communication");
    SAssign (EItem (EName "sections") (EStr "HA")) (EStr "Heliport Pads");
    SAssign (EItem (EName "sections") (EStr "HC")) (EStr "Heliport Terminal Waypoint");
    SAssign (EItem (EName "sections") (EStr "HD")) (EStr "Heliport SID");
    SAssign (EItem (EName "sections") (EStr "HE")) (EStr "Heliport STAR");
    SAssign (EItem (EName "sections") (EStr "HF")) (EStr "Heliport Approach Procedure");
    SAssign (EItem (EName "sections") (EStr "HK")) (EStr "Heliport TAA");
    SAssign (EItem (EName "sections") (EStr "HS")) (EStr "Heliport MSA");
    SAssign (EItem (EName "sections") (EStr "HV")) (EStr "Heliport Communication");
    SAssign (EItem (EName "sections") (EStr "PA")) (EStr "Airport Reference Point");
    SAssign (EItem (EName "sections") (EStr "PB")) (EStr "Airport Gates");
    SAssign (EItem (EName "sections") (EStr "PC")) (EStr "Airport Terminal Waypoint");
    SAssign (EItem (EName "sections") (EStr "PD")) (EStr "Airport SID");
    SAssign (EItem (EName "sections") (EStr "PE")) (EStr "Airport STAR");
    SAssign (EItem (EName "sections") (EStr "PF")) (EStr "Airport Approach Procedure");
    SAssign (EItem (EName "sections") (EStr "PG")) (EStr "Airport Runway");
    SAssign (EItem (EName "sections") (EStr "PI")) (EStr "Airport Localizer/Glideslope");
    SAssign (EItem (EName "sections") (EStr "PK")) (EStr "Airport TAA");
    SAssign (EItem (EName "sections") (EStr "PL")) (EStr "Airport MLS");
    SAssign (EItem (EName "sections") (EStr "PM")) (EStr "Airport Localizer Marker");
    SAssign (EItem (EName "sections") (EStr "PN")) (EStr "Airport Terminal");
    SAssign (EItem (EName "sections") (EStr "PP")) (EStr "Airport Path");
    SAssign (EItem (EName "sections") (EStr "PR")) (EStr "Airport Flt Planning ARR/DEP");
    SAssign (EItem (EName "sections") (EStr "PS")) (EStr "Airport MSA");
    SAssign (EItem (EName "sections") (EStr "PT")) (EStr "Airport GLS Station");
    SAssign (EItem (EName "sections") (EStr "PV")) (EStr "Airport Communication");
    SAssign (EItem (EName "sections") (EStr "R ")) (EStr "Company Route");
    SAssign (EItem (EName "sections") (EStr "RA")) (EStr "Alternate Record");
    SAssign (EItem (EName "sections") (EStr "TC")) (EStr "Cruising Table");
    SAssign (EItem (EName "sections") (EStr "TG")) (EStr "Geographical Reference");
    SAssign (EItem (EName "sections") (EStr "TN")) (EStr "RNAV Name Table");
    SAssign (EItem (EName "sections") (EStr "UC")) (EStr "Controller Airspace");
    SAssign (EItem (EName "sections") (EStr "UF")) (EStr "Airspace FIR/UIR");
    SAssign (EItem (EName "sections") (EStr "UR")) (EStr "Restrictive Airspace");
    SReturn (Some (EItem (EName "sections") (EName "value")))].

(* src/arinc424/decoder.py:113-114 *)
Definition py_decoder_field_006 : stmt :=
  SDef "field_006" [("value", None); ("record", None)]
    [SReturn (Some (EName "value"))].

(* src/arinc424/decoder.py:118-194 *)
Definition py_decoder_field_007 : stmt :=
  SDef "field_007" [("value", None); ("record", None)]
    [SAssign (EName "d") (ECall (EName "defaultdict") [(EName "def_val")] []);
    SIf (ECmp CmpEq (EAttr (EName "record") "ident") (EStr "ER"))
      [SAssign (EItem (EName "d") (EStr "A")) (EStr "Airline Airway (Tailored Data)");
      SAssign (EItem (EName "d") (EStr "C")) (EStr "Control");
      SAssign (EItem (EName "d") (EStr "D")) (EStr "Direct Route");
      SAssign (EItem (EName "d") (EStr "H")) (EStr "Helicopter Airways");
      SAssign (EItem (EName "d") (EStr "O")) (EStr "Officially Designated Airways");
      SAssign (EItem (EName "d") (EStr "R")) (EStr "RNAV Airways");
      SAssign (EItem (EName "d") (EStr "S")) (EStr "Undesignated ATS Route")]
      [SIf (ECmp CmpEq (EAttr (EName "record") "ident") (EStr "ET"))
        [SAssign (EItem (EName "d") (EStr "C")) (EStr "North American Routes for North Atlantic Traffic Common Portion");
        SAssign (EItem (EName "d") (EStr "D")) (EStr "Preferential Routes");
        SAssign (EItem (EName "d") (EStr "J")) (EStr "Pacific Oceanic Transition Routes (PACOTS)");
        SAssign (EItem (EName "d") (EStr "M")) (EStr "RNAV Airways");
        SAssign (EItem (EName "d") (EStr "N")) (EStr "Undesignated ATS Route")]
        [SIf (EOr (ECmp CmpEq (EAttr (EName "record") "ident") (EStr "PD")) (ECmp CmpEq (EAttr (EName "record") "ident") (EStr "HD")))
          [SAssign (EItem (EName "d") (EStr "0")) (EStr "Engine Out SID");
          SAssign (EItem (EName "d") (EStr "1")) (EStr "SID Runway Transition");
          SAssign (EItem (EName "d") (EStr "2")) (EStr "SID or SID Common Route");
          SAssign (EItem (EName "d") (EStr "3")) (EStr "SID Enroute Transition");
          SAssign (EItem (EName "d") (EStr "4")) (EStr "RNAV SID Runway Transition");
          SAssign (EItem (EName "d") (EStr "5")) (EStr "RNAV SID or SID Common Route");
          SAssign (EItem (EName "d") (EStr "6")) (EStr "RNAV SID Enroute Transition");
          SAssign (EItem (EName "d") (EStr "F")) (EStr "FMS SID Runway Transition");
          SAssign (EItem (EName "d") (EStr "M")) (EStr "FMS SID or SID Common Route");
          SAssign (EItem (EName "d") (EStr "S")) (EStr "FMS SID Enroute Transition");
          SAssign (EItem (EName "d") (EStr "R")) (EStr "RNP SID Runway Transition");
          SAssign (EItem (EName "d") (EStr "N")) (EStr "RNP SID or SID Common Route");
          SAssign (EItem (EName "d") (EStr "P")) (EStr "RNP SID Enroute Transition");
          SAssign (EItem (EName "d") (EStr "T")) (EStr "Vector SID Runway Transition");
          SAssign (EItem (EName "d") (EStr "V")) (EStr "Vector SID Enroute Transition")]
          [SIf (EOr (ECmp CmpEq (EAttr (EName "record") "ident") (EStr "PE")) (ECmp CmpEq (EAttr (EName "record") "ident") (EStr "HE")))
            [SAssign (EItem (EName "d") (EStr "1")) (EStr "STAR Enroute Transition");
            SAssign (EItem (EName "d") (EStr "2")) (EStr "STAR or STAR Common Route");
            SAssign (EItem (EName "d") (EStr "3")) (EStr "STAR Runway Transition");
            SAssign (EItem (EName "d") (EStr "4")) (EStr "RNAV STAR Enroute Transition");
            SAssign (EItem (EName "d") (EStr "5")) (EStr "RNAV STAR or STAR Common Route");
            SAssign (EItem (EName "d") (EStr "6")) (EStr "RNAV STAR Runway Transition");
            SAssign (EItem (EName "d") (EStr "7")) (EStr "Profile Descent Enroute Transition");
            SAssign (EItem (EName "d") (EStr "8")) (EStr "Profile Descent Common Route");
            SAssign (EItem (EName "d") (EStr "9")) (EStr "Profile Descent Runway Transition");
            SAssign (EItem (EName "d") (EStr "F")) (EStr "FMS STAR Enroute Transition");
            SAssign (EItem (EName "d") (EStr "M")) (EStr "FMS STAR or STAR Common Route");
            SAssign (EItem (EName "d") (EStr "S")) (EStr "FMS STAR Runway Transition");
            SAssign (EItem (EName "d") (EStr "R")) (EStr "RNP STAR Enroute Transition");
            SAssign (EItem (EName "d") (EStr "N")) (EStr "RNP STAR or STAR Common Route");
            SAssign (EItem (EName "d") (EStr "P")) (EStr "RNP STAR Runway Transition")]
            [SIf (EOr (ECmp CmpEq (EAttr (EName "record") "ident") (EStr "PF")) (ECmp CmpEq (EAttr (EName "record") "ident") (EStr "HF")))
              [SAssign (EItem (EName "d") (EStr "A")) (EStr "Approach Transition");
              SAssign (EItem (EName "d") (EStr "B")) (EStr "Localizer/Backcourse Approach");
              SAssign (EItem (EName "d") (EStr "D")) (EStr "VORDME Approach");
              SAssign (EItem (EName "d") (EStr "F")) (EStr "Flight Management System (FMS) Approach");
              SAssign (EItem (EName "d") (EStr "G")) (EStr "Instrument Guidance System (IGS) Approach");
              SAssign (EItem (EName "d") (EStr "H")) (EStr "Area Navigation (RNAV) Approach with Required Navigation Performance (RNP) Approach");
              SAssign (EItem (EName "d") (EStr "I")) (EStr "Instrument Landing System (ILS) Approach");
              SAssign (EItem (EName "d") (EStr "J")) (EStr "GNSS Landing System (GLS) Approach");
              SAssign (EItem (EName "d") (EStr "L")) (EStr "Localizer Only (LOC) Approach");
              SAssign (EItem (EName "d") (EStr "M")) (EStr "Microwave Landing System (MLS) Approach");
              SAssign (EItem (EName "d") (EStr "N")) (EStr "Non-Directional Beacon (NDB) Approach");
              SAssign (EItem (EName "d") (EStr "P")) (EStr "Global Position System (GPS) Approach");
              SAssign (EItem (EName "d") (EStr "Q")) (EStr "Non-Directional Beacon + DME (NDB+DME) Approach");
              SAssign (EItem (EName "d") (EStr "R")) (EStr "Area Navigation (RNAV) Approach (Note 1)");
              SAssign (EItem (EName "d") (EStr "S")) (EStr "VOR Approach using VORDME/VORTAC");
              SAssign (EItem (EName "d") (EStr "T")) (EStr "TACAN Approach");
              SAssign (EItem (EName "d") (EStr "U")) (EStr "Simplified Directional Facility (SDF) Approach");
              SAssign (EItem (EName "d") (EStr "V")) (EStr "VOR Approach");
              SAssign (EItem (EName "d") (EStr "W")) (EStr "Microwave Landing System (MLS), Type A Approach");
              SAssign (EItem (EName "d") (EStr "X")) (EStr "Localizer Directional Aid (LDA) Approach");
              SAssign (EItem (EName "d") (EStr "Y")) (EStr "Microwave Landing System (MLS), Type B and C Approach");
              SAssign (EItem (EName "d") (EStr "Z")) (EStr "Missed Approach")]
              []]]]];
    SReturn (Some (EIfExp (ECmp CmpNe (EItem (EName "d") (EName "value")) (EStr "bad value")) (EItem (EName "d") (EName "value")) (EBin OpAdd (EName "value") (EStr " - BAD VALUE"))))].

(* src/arinc424/decoder.py:198-202 *)
Definition py_decoder_field_008 : stmt :=
  SDef "field_008" [("value", None); ("record", None)]
    [SIf (ECall (EAttr (ECall (EAttr (EName "value") "strip") [] []) "isalnum") [] [])
      [SReturn (Some (EName "value"))]
      [SRaise (ECall (EName "ValueError") [(EStr "Route Identifier not alphanumeric"); (EName "value")] [])]].

(* src/arinc424/decoder.py:206-208 *)
Definition py_decoder_field_009 : stmt :=
  SDef "field_009" [("value", None); ("record", None)]
    [SIf (ECall (EAttr (ECall (EAttr (EName "value") "strip") [] []) "isalnum") [] [])
      [SReturn (Some (EName "value"))]
      []].

(* src/arinc424/decoder.py:212-213 *)
Definition py_decoder_field_010 : stmt :=
  SDef "field_010" [("value", None); ("record", None)]
    [SReturn (Some (EFString [(EStr "Approach: "); (EItem (EName "value") (EInt 0)); (EStr ", Runway: "); (ESlice (EName "value") (Some (EInt 1)) (Some (EInt 4)))]))].

(* src/arinc424/decoder.py:217-218 *)
Definition py_decoder_field_011 : stmt :=
  SDef "field_011" [("value", None); ("record", None)]
    [SReturn (Some (EName "value"))].

(* src/arinc424/decoder.py:222-233 *)
Definition py_decoder_field_012 : stmt :=
  SDef "field_012" [("value", None); ("record", None)]
    [SMatch (ECall (EName "len") [(ECall (EAttr (EName "value") "strip") [] [])] [])
      [(PValue (EInt 1), [SReturn (Some (EFString [(EStr "MSA Table, TAA Table, Cruise Table - Sequence No. "); (EName "value")]))]);
      (PValue (EInt 2), [SReturn (Some (EFString [(EStr "VHF Navaid Limitation Continuation Records - Sequence No. "); (EName "value")]))]);
      (PValue (EInt 3), [SReturn (Some (EFString [(EStr "SID/STAR/Approach and Company Routes - Sequence No. "); (EName "value")]))]);
      (PValue (EInt 4), [SReturn (Some (EFString [(EStr "Enroute Airways, Preferred Routes, FIR/UIR, and Restrictive Airspace - Sequence No. "); (EName "value")]))]);
      (PWild, [SReturn (Some (EName "value"))])]].

(* src/arinc424/decoder.py:236-237 *)
Definition py_decoder_field_013 : stmt :=
  SDef "field_013" [("value", None); ("record", None)]
    [SReturn (Some (EName "value"))].

(* src/arinc424/decoder.py:241-242 *)
Definition py_decoder_field_014 : stmt :=
  SDef "field_014" [("value", None); ("record", None)]
    [SReturn (Some (EName "value"))].

(* src/arinc424/decoder.py:246-253 *)
Definition py_decoder_field_016 : stmt :=
  SDef "field_016" [("value", None); ("record", None)]
    [SMatch (EName "value")
      [(PValue (EStr "0"), [SReturn (Some (EStr "Primary Record"))]);
      (PValue (EStr "1"), [SReturn (Some (EStr "Primary Record (with Cont.)"))]);
      (PWild, [SReturn (Some (EBin OpAdd (ECall (EName "str") [(EName "value")] []) (EStr " - Continuation")))])]].

(* src/arinc424/decoder.py:257-329 *)
Definition py_decoder_field_017 : stmt :=
  SDef "field_017" [("value", None); ("record", None)]
    [SAssign (EName "s") (ECall (EAttr (EName "io") "StringIO") [] []);
    SMatch (EItem (EName "value") (EInt 0))
      [(PValue (EStr "A"), [SExpr (ECall (EAttr (EName "s") "write") [(EStr "Airport as Waypoint
")] [])]);
      (PValue (EStr "E"), [SExpr (ECall (EAttr (EName "s") "write") [(EStr "Essential Waypoint
")] [])]);
      (PValue (EStr "F"), [SExpr (ECall (EAttr (EName "s") "write") [(EStr "Off Airway Waypoint
")] [])]);
      (PValue (EStr "G"), [SExpr (ECall (EAttr (EName "s") "write") [(EStr "Runway/Helipad as Waypoint
")] [])]);
      (PValue (EStr "H"), [SExpr (ECall (EAttr (EName "s") "write") [(EStr "Heliport as Waypoint
")] [])]);
      (PValue (EStr "N"), [SExpr (ECall (EAttr (EName "s") "write") [(EStr "NDB Navaid as Waypoint
")] [])]);
      (PValue (EStr "P"), [SExpr (ECall (EAttr (EName "s") "write") [(EStr "Phantom Waypoint
")] [])]);
      (PValue (EStr "R"), [SExpr (ECall (EAttr (EName "s") "write") [(EStr "Non-Essential Waypoint
")] [])]);
      (PValue (EStr "T"), [SExpr (ECall (EAttr (EName "s") "write") [(EStr "Transition Essential Waypoint
")] [])]);
      (PValue (EStr "V"), [SExpr (ECall (EAttr (EName "s") "write") [(EStr "VHF Navaid as Waypoint
")] [])])];
    SMatch (EItem (EName "value") (EInt 1))
      [(PValue (EStr "B"), [SExpr (ECall (EAttr (EName "s") "write") [(EStr "Flyover Waypoint: End of SID/STAR Route Type, APCH Transition or Final Approach
")] [])]);
      (PValue (EStr "E"), [SExpr (ECall (EAttr (EName "s") "write") [(EStr "End of Enroute Airway or Terminal Procedure Route Type
")] [])]);
      (PValue (EStr "U"), [SExpr (ECall (EAttr (EName "s") "write") [(EStr "Uncharted Airway Intersection
")] [])]);
      (PValue (EStr "Y"), [SExpr (ECall (EAttr (EName "s") "write") [(EStr "Fly-Over Waypoint
")] [])])];
    SMatch (EItem (EName "value") (EInt 2))
      [(PValue (EStr "A"), [SExpr (ECall (EAttr (EName "s") "write") [(EStr "Unnamed Stepdown Fix After Final Approach Fix
")] [])]);
      (PValue (EStr "B"), [SExpr (ECall (EAttr (EName "s") "write") [(EStr "Unnamed Stepdown Fix Before Final Approach Fix
")] [])]);
      (PValue (EStr "C"), [SExpr (ECall (EAttr (EName "s") "write") [(EStr "ATC Compulsory Waypoint
")] [])]);
      (PValue (EStr "G"), [SExpr (ECall (EAttr (EName "s") "write") [(EStr "Oceanic Gateway Waypoint
")] [])]);
      (PValue (EStr "M"), [SExpr (ECall (EAttr (EName "s") "write") [(EStr "First Leg of Missed Approach Procedure
")] [])]);
      (PValue (EStr "P"), [SExpr (ECall (EAttr (EName "s") "write") [(EStr "Path Point Fix
")] [])]);
      (PValue (EStr "R"), [SExpr (ECall (EAttr (EName "s") "write") [(EStr "Fix used for turning final approach
")] [])]);
      (PValue (EStr "S"), [SExpr (ECall (EAttr (EName "s") "write") [(EStr "Named Stepdown Fix
")] [])])];
    SMatch (EItem (EName "value") (EInt 3))
      [(PValue (EStr "A"), [SExpr (ECall (EAttr (EName "s") "write") [(EStr "Initial Approach Fix
")] [])]);
      (PValue (EStr "B"), [SExpr (ECall (EAttr (EName "s") "write") [(EStr "Intermediate Approach Fix
")] [])]);
      (PValue (EStr "C"), [SExpr (ECall (EAttr (EName "s") "write") [(EStr "Initial Approach Fix with Holding
")] [])]);
      (PValue (EStr "D"), [SExpr (ECall (EAttr (EName "s") "write") [(EStr "Initial Approach Fix with Final Approach Course Fix
")] [])]);
      (PValue (EStr "E"), [SExpr (ECall (EAttr (EName "s") "write") [(EStr "Final End Point Fix
")] [])]);
      (PValue (EStr "F"), [SExpr (ECall (EAttr (EName "s") "write") [(EStr "Published Final Approach Fix or Database Final Approach Fix
")] [])]);
      (PValue (EStr "H"), [SExpr (ECall (EAttr (EName "s") "write") [(EStr "Holding Fix
")] [])]);
      (PValue (EStr "I"), [SExpr (ECall (EAttr (EName "s") "write") [(EStr "Final Approach Course Fix
")] [])]);
      (PValue (EStr "M"), [SExpr (ECall (EAttr (EName "s") "write") [(EStr "Published Missed Approach Point Fix
")] [])])];
    SReturn (Some (ECall (EAttr (ECall (EAttr (EName "s") "getvalue") [] []) "strip") [] []))].

(* src/arinc424/decoder.py:333-334 *)
Definition py_decoder_field_018 : stmt :=
  SDef "field_018" [("value", None); ("record", None)]
    [SReturn (Some (EName "value"))].

(* src/arinc424/decoder.py:338-339 *)
Definition py_decoder_field_019 : stmt :=
  SDef "field_019" [("value", None); ("record", None)]
    [SReturn (Some (EName "value"))].

(* src/arinc424/decoder.py:343-352 *)
Definition py_decoder_field_020 : stmt :=
  SDef "field_020" [("value", None); ("record", None)]
    [SIf (ECmp CmpEq (EName "value") (EStr "R"))
      [SReturn (Some (EStr "Right"))]
      [SIf (ECmp CmpEq (EName "value") (EStr "L"))
        [SReturn (Some (EStr "Left"))]
        [SIf (EOr (ECmp CmpEq (EName "value") (EStr "E")) (ECmp CmpEq (EName "value") (EStr " ")))
          [SReturn (Some (EStr "Either"))]
          [SRaise (ECall (EName "ValueError") [(EStr "Invalid Turn Direction:"); (EName "value")] [])]]]].

(* src/arinc424/decoder.py:381-389 *)
Definition py_decoder_field_021 : stmt :=
  SDef "field_021" [("value", None); ("record", None)]
    [SAssign (EName "value") (ECall (EAttr (EName "value") "strip") [] []);
    SIf (ECmp CmpEq (ECall (EName "len") [(EName "value")] []) (EInt 0))
      [SReturn (Some (EName "value"))]
      [];
    SIf (ENot (ECall (EAttr (EName "value") "isalpha") [] []))
      [SRaise (ECall (EName "ValueError") [(EStr "Invalid Path and Termination:"); (EName "value")] [])]
      [];
    SReturn (Some (EItem (EName "LegTypeDesc") (EName "value")))].

(* src/arinc424/decoder.py:393-398 *)
Definition py_decoder_field_022 : stmt :=
  SDef "field_022" [("value", None); ("record", None)]
    [SAssign (EName "value") (ECall (EAttr (EName "value") "strip") [] []);
    SIf (ECmp CmpGt (ECall (EName "len") [(EName "value")] []) (EInt 0))
      [SIf (ECmp CmpIs (ECall (EAttr (EName "value") "isalpha") [] []) (EBool false))
        [SRaise (ECall (EName "ValueError") [(EStr "Invalid Turn Direction Valid (TDV):"); (EName "value")] [])]
        []]
      [];
    SReturn (Some (EName "value"))].

(* src/arinc424/decoder.py:402-407 *)
Definition py_decoder_field_023 : stmt :=
  SDef "field_023" [("value", None); ("record", None)]
    [SAssign (EName "value") (ECall (EAttr (EName "value") "strip") [] []);
    SIf (ECmp CmpGt (ECall (EName "len") [(EName "value")] []) (EInt 0))
      [SIf (EOr (ECmp CmpIs (ECall (EAttr (EName "value") "isalnum") [] []) (EBool false)) (ECmp CmpGt (ECall (EName "len") [(EName "value")] []) (EInt 4)))
        [SRaise (ECall (EName "ValueError") [(EStr "Invalid Recommended NAVAID (RECD NAV):"); (EName "value")] [])]
        []]
      [];
    SReturn (Some (EName "value"))].

(* src/arinc424/decoder.py:411-416 *)
Definition py_decoder_field_024 : stmt :=
  SDef "field_024" [("value", None); ("record", None)]
    [SAssign (EName "value") (ECall (EAttr (EName "value") "strip") [] []);
    SIf (ECmp CmpGt (ECall (EName "len") [(EName "value")] []) (EInt 0))
      [SIf (EOr (ECmp CmpIs (ECall (EAttr (EName "value") "isalnum") [] []) (EBool false)) (ECmp CmpGt (ECall (EName "len") [(EName "value")] []) (EInt 4)))
        [SRaise (ECall (EName "ValueError") [(EStr "Invalid Theta:"); (EName "value")] [])]
        []]
      [];
    SReturn (Some (EName "value"))].

(* src/arinc424/decoder.py:420-425 *)
Definition py_decoder_field_025 : stmt :=
  SDef "field_025" [("value", None); ("record", None)]
    [SAssign (EName "value") (ECall (EAttr (EName "value") "strip") [] []);
    SIf (ECmp CmpGt (ECall (EName "len") [(EName "value")] []) (EInt 0))
      [SIf (EOr (ECmp CmpIs (ECall (EAttr (EName "value") "isalnum") [] []) (EBool false)) (ECmp CmpGt (ECall (EName "len") [(EName "value")] []) (EInt 4)))
        [SRaise (ECall (EName "ValueError") [(EStr "Invalid Rho:"); (EName "value")] [])]
        []]
      [];
    SReturn (Some (EName "value"))].

(* src/arinc424/decoder.py:429-443 *)
Definition py_decoder_field_026 : stmt :=
  SDef "field_026" [("value", None); ("record", None)]
    [SAssign (EName "value") (ECall (EAttr (EName "value") "strip") [] []);
    SIf (ECmp CmpEq (ECall (EName "len") [(EName "value")] []) (EInt 0))
      [SReturn (Some (EName "value"))]
      [];
    SIf (EOr (ECmp CmpIs (ECall (EAttr (EName "value") "isalnum") [] []) (EBool false)) (ECmp CmpGt (ECall (EName "len") [(EName "value")] []) (EInt 4)))
      [SRaise (ECall (EName "ValueError") [(EStr "Invalid Outbound Magnetic Course"); (EName "value")] [])]
      [];
    SIf (ECall (EAttr (EName "value") "endswith") [(EStr "T")] [])
      [SReturn (Some (EName "value"))]
      [SReturn (Some (ECall (EAttr (EStr "{:.1f}") "format") [(EBin OpDiv (ECall (EName "float") [(EName "value")] []) (EInt 10))] []))]].

(* src/arinc424/decoder.py:447-456 *)
Definition py_decoder_field_027 : stmt :=
  SDef "field_027" [("value", None); ("record", None)]
    [SAssign (EName "value") (ECall (EAttr (EName "value") "strip") [] []);
    SIf (ECmp CmpGt (ECall (EName "len") [(EName "value")] []) (EInt 0))
      [SIf (ECmp CmpEq (EItem (EName "value") (EInt 0)) (EStr "T"))
        [SReturn (Some (ECall (EAttr (EStr "{:.1f} min") "format") [(EBin OpDiv (ECall (EName "float") [(ESlice (EName "value") (Some (EInt 1)) None)] []) (EInt 10))] []))]
        [SReturn (Some (ECall (EAttr (EStr "{:.1f} nm") "format") [(EBin OpDiv (ECall (EName "float") [(EName "value")] []) (EInt 10))] []))]]
      [];
    SReturn (Some (EName "value"))].

(* src/arinc424/decoder.py:460-461 *)
Definition py_decoder_field_028 : stmt :=
  SDef "field_028" [("value", None); ("record", None)]
    [SReturn (Some (EName "value"))].

(* src/arinc424/decoder.py:465-466 *)
Definition py_decoder_field_029 : stmt :=
  SDef "field_029" [("value", None); ("record", None)]
    [SReturn (Some (EIfExp (ECall (EAttr (EName "value") "isnumeric") [] []) (EBin OpAdd (ECall (EAttr (EName "value") "lstrip") [(EStr "0")] []) (EStr " ft")) (EName "value")))].

(* src/arinc424/decoder.py:470-471 *)
Definition py_decoder_field_030 : stmt :=
  SDef "field_030" [("value", None); ("record", None)]
    [SReturn (Some (EIfExp (ECall (EAttr (EName "value") "isnumeric") [] []) (EBin OpAdd (ECall (EAttr (EName "value") "lstrip") [(EStr "0")] []) (EStr " ft")) (EName "value")))].

(* src/arinc424/decoder.py:475-476 *)
Definition py_decoder_field_031 : stmt :=
  SDef "field_031" [("value", None); ("record", None)]
    [SReturn (Some (EName "value"))].

(* src/arinc424/decoder.py:480-482 *)
Definition py_decoder_field_032 : stmt :=
  SDef "field_032" [("value", None); ("record", None)]
    [SAssign (EName "year") (EIfExp (ECmp CmpGt (ECall (EName "int") [(ESlice (EName "value") None (Some (EInt 2)))] []) (EInt 50)) (EBin OpAdd (EStr "19") (ESlice (EName "value") None (Some (EInt 2)))) (EBin OpAdd (EStr "20") (ESlice (EName "value") None (Some (EInt 2)))));
    SReturn (Some (ECall (EAttr (EStr "{}, Release {}") "format") [(EName "year"); (ESlice (EName "value") (Some (EInt 2)) None)] []))].

(* src/arinc424/decoder.py:486-487 *)
Definition py_decoder_field_033 : stmt :=
  SDef "field_033" [("value", None); ("record", None)]
    [SReturn (Some (EName "value"))].

(* src/arinc424/decoder.py:491-500 *)
Definition py_decoder_field_034 : stmt :=
  SDef "field_034" [("value", None); ("record", None)]
    [SAssign (EName "value") (ECall (EAttr (EName "value") "strip") [] []);
    SIf (ECmp CmpGt (ECall (EName "len") [(EName "value")] []) (EInt 0))
      [SIf (ECmp CmpIs (ECall (EAttr (EName "value") "isnumeric") [] []) (EBool false))
        [SExpr (ECall (EName "print") [(EFString [(EStr "Unsupported VOR/NDB Frequency: """); (EName "value"); (EStr """")])] []);
        SExpr (ECall (EName "print") [(EFString [(EStr "from record type """); (EAttr (EName "record") "ident"); (EStr """: """); (EAttr (EName "record") "raw"); (EStr """")])] []);
        SExpr (ECall (EName "exit") [] [])]
        [SReturn (Some (ECall (EAttr (EStr "{:.2f}") "format") [(EBin OpDiv (ECall (EName "float") [(EName "value")] []) (EInt 100))] []))]]
      [];
    SReturn (Some (EName "value"))].

(* src/arinc424/decoder.py:504-535 *)
Definition py_decoder_field_035 : stmt :=
  SDef "field_035" [("value", None); ("record", None)]
    [SReturn (Some (EName "value"))].

(* src/arinc424/decoder.py:539-540 *)
Definition py_decoder_field_036 : stmt :=
  SDef "field_036" [("value", None); ("record", None)]
    [SReturn (Some (EName "value"))].

(* src/arinc424/decoder.py:544-545 *)
Definition py_decoder_field_037 : stmt :=
  SDef "field_037" [("value", None); ("record", None)]
    [SReturn (Some (EName "value"))].

(* src/arinc424/decoder.py:549-550 *)
Definition py_decoder_field_038 : stmt :=
  SDef "field_038" [("value", None); ("record", None)]
    [SReturn (Some (EName "value"))].

(* src/arinc424/decoder.py:554-555 *)
Definition py_decoder_field_039 : stmt :=
  SDef "field_039" [("value", None); ("record", None)]
    [SReturn (Some (EIfExp (ECmp CmpEq (ECall (EAttr (EName "value") "strip") [] []) (EStr "")) (EName "value") (ECall (EAttr (EStr "{:03} {}") "format") [(ECall (EName "int") [(ESlice (EName "value") (Some (EInt 1)) None)] []); (EItem (EName "value") (EInt 0))] [])))].

(* src/arinc424/decoder.py:559-560 *)
Definition py_decoder_field_040 : stmt :=
  SDef "field_040" [("value", None); ("record", None)]
    [SReturn (Some (EName "value"))].

(* src/arinc424/decoder.py:564-565 *)
Definition py_decoder_field_041 : stmt :=
  SDef "field_041" [("value", None); ("record", None)]
    [SReturn (Some (EName "value"))].

(* src/arinc424/decoder.py:569-621 *)
Definition py_decoder_field_042 : stmt :=
  SDef "field_042" [("value", None); ("record", None)]
    [SMatch (EItem (EName "value") (EInt 0))
      [(PValue (EStr "C"), [SReturn (Some (EStr "Combined Named Intersection and RNAV"))]);
      (PValue (EStr "I"), [SReturn (Some (EStr "Unnamed, Charted Intersection"))]);
      (PValue (EStr "N"), [SReturn (Some (EBin OpAdd (EStr "NDB Navaid as Waypoint") (ESlice (EName "value") (Some (EInt 1)) None)))]);
      (PValue (EStr "R"), [SReturn (Some (EStr "Named Intersection"))]);
      (PValue (EStr "U"), [SReturn (Some (EStr "Uncharted Airway Intersection"))]);
      (PValue (EStr "V"), [SReturn (Some (EStr "VFR Waypoint"))]);
      (PValue (EStr "W"), [SReturn (Some (EStr "RNAV Waypoint"))])];
    SMatch (EItem (EName "value") (EInt 1))
      [(PValue (EStr "A"), [SReturn (Some (EStr "Final Approach Fix"))]);
      (PValue (EStr "B"), [SReturn (Some (EStr "Initial and Final Approach Fix"))]);
      (PValue (EStr "C"), [SReturn (Some (EStr "Final Approach Course Fix"))]);
      (PValue (EStr "D"), [SReturn (Some (EStr "Intermediate Approach Fix"))]);
      (PValue (EStr "E"), [SReturn (Some (EStr "Off-Route intersection in FAA National Reference System"))]);
      (PValue (EStr "F"), [SReturn (Some (EStr "Off-Route Intersection"))]);
      (PValue (EStr "I"), [SReturn (Some (EStr "Initial Approach Fix"))]);
      (PValue (EStr "K"), [SReturn (Some (EStr "Final Approach Course Fix at Initial Approach Fix"))]);
      (PValue (EStr "L"), [SReturn (Some (EStr "Final Approach Course Fix at Intermediate Approach Fix"))]);
      (PValue (EStr "M"), [SReturn (Some (EStr "Missed Approach Fix"))]);
      (PValue (EStr "N"), [SReturn (Some (EStr "Initial Approach Fix and Missed Approach Fix"))]);
      (PValue (EStr "O"), [SReturn (Some (EStr "Oceanic Entry/Exit Waypoint"))]);
      (PValue (EStr "P"), [SReturn (Some (EStr "Pitch and Catch Point in the FAA High Altitude Redesign"))]);
      (PValue (EStr "S"), [SReturn (Some (EStr "AACAA and SUA Waypoints in the FAA High Altitude Redesign"))]);
      (PValue (EStr "U"), [SReturn (Some (EStr "FIR/UIR or Controlled Airspace Intersection"))]);
      (PValue (EStr "V"), [SReturn (Some (EStr "Latitude/Longitude Intersection, Full Degree of Latitude"))]);
      (PValue (EStr "W"), [SReturn (Some (EStr "Latitude/Longitude Intersection, Half Degree of Latitude"))]);
      (PWild, [SReturn (Some (EStr "Unknown Waypoint Type"))])]].

(* src/arinc424/decoder.py:625-626 *)
Definition py_decoder_field_043 : stmt :=
  SDef "field_043" [("value", None); ("record", None)]
    [SReturn (Some (ECall (EAttr (EName "value") "strip") [] []))].

(* src/arinc424/decoder.py:630-631 *)
Definition py_decoder_field_044 : stmt :=
  SDef "field_044" [("value", None); ("record", None)]
    [SReturn (Some (EName "value"))].

(* src/arinc424/decoder.py:635-639 *)
Definition py_decoder_field_045 : stmt :=
  SDef "field_045" [("value", None); ("record", None)]
    [SIf (ECall (EAttr (EName "value") "isnumeric") [] [])
      [SReturn (Some (ECall (EAttr (EStr "{:.2f}") "format") [(EBin OpDiv (ECall (EName "float") [(EName "value")] []) (EInt 100))] []))]
      [SReturn (Some (EStr "BAD VALUE"))]].

(* src/arinc424/decoder.py:643-644 *)
Definition py_decoder_field_046 : stmt :=
  SDef "field_046" [("value", None); ("record", None)]
    [SReturn (Some (EName "value"))].

(* src/arinc424/decoder.py:648-649 *)
Definition py_decoder_field_047 : stmt :=
  SDef "field_047" [("value", None); ("record", None)]
    [SReturn (Some (EName "value"))].

(* src/arinc424/decoder.py:653-654 *)
Definition py_decoder_field_048 : stmt :=
  SDef "field_048" [("value", None); ("record", None)]
    [SReturn (Some (EIfExp (ECall (EAttr (EName "value") "isnumeric") [] []) (EBin OpAdd (ECall (EAttr (EName "value") "lstrip") [(EStr "0")] []) (EStr " ft")) (EName "value")))].

(* src/arinc424/decoder.py:658-667 *)
Definition py_decoder_field_049 : stmt :=
  SDef "field_049" [("value", None); ("record", None)]
    [SMatch (EName "value")
      [(PValue (EStr "@"), [SReturn (Some (EStr "Beyond stop end of runway"))]);
      (PValue (EStr "+"), [SReturn (Some (EStr "Ahead of approach end of runway"))]);
      (PValue (EStr "-"), [SReturn (Some (EStr "To the side of runway"))]);
      (PWild, [SReturn (Some (EName "value"))])]].

(* src/arinc424/decoder.py:672-673 *)
Definition py_decoder_field_050 : stmt :=
  SDef "field_050" [("value", None); ("record", None)]
    [SReturn (Some (EIfExp (ECall (EAttr (EName "value") "isnumeric") [] []) (EBin OpAdd (ECall (EAttr (EName "value") "lstrip") [(EStr "0")] []) (EStr " ft")) (EName "value")))].

(* src/arinc424/decoder.py:677-678 *)
Definition py_decoder_field_051 : stmt :=
  SDef "field_051" [("value", None); ("record", None)]
    [SReturn (Some (EName "value"))].

(* src/arinc424/decoder.py:682-683 *)
Definition py_decoder_field_052 : stmt :=
  SDef "field_052" [("value", None); ("record", None)]
    [SReturn (Some (EName "value"))].

(* src/arinc424/decoder.py:687-688 *)
Definition py_decoder_field_053 : stmt :=
  SDef "field_053" [("value", None); ("record", None)]
    [SReturn (Some (EIfExp (ECall (EAttr (EName "value") "isnumeric") [] []) (EBin OpAdd (ECall (EAttr (EName "value") "lstrip") [(EStr "0")] []) (EStr " ft")) (EName "value")))].

(* src/arinc424/decoder.py:692-696 *)
Definition py_decoder_field_054 : stmt :=
  SDef "field_054" [("value", None); ("record", None)]
    [SIf (ECall (EAttr (EName "value") "isnumeric") [] [])
      [SReturn (Some (EBin OpAdd (EBin OpAdd (ECall (EAttr (EName "value") "lstrip") [(EStr "0")] []) (EStr "00")) (EStr " ft")))]
      [SReturn (Some (EName "value"))]].

(* src/arinc424/decoder.py:700-701 *)
Definition py_decoder_field_055 : stmt :=
  SDef "field_055" [("value", None); ("record", None)]
    [SReturn (Some (EName "value"))].

(* src/arinc424/decoder.py:705-706 *)
Definition py_decoder_field_056 : stmt :=
  SDef "field_056" [("value", None); ("record", None)]
    [SReturn (Some (EName "value"))].

(* src/arinc424/decoder.py:710-711 *)
Definition py_decoder_field_057 : stmt :=
  SDef "field_057" [("value", None); ("record", None)]
    [SReturn (Some (EName "value"))].

(* src/arinc424/decoder.py:715-716 *)
Definition py_decoder_field_058 : stmt :=
  SDef "field_058" [("value", None); ("record", None)]
    [SReturn (Some (EName "value"))].

(* src/arinc424/decoder.py:720-721 *)
Definition py_decoder_field_059 : stmt :=
  SDef "field_059" [("value", None); ("record", None)]
    [SReturn (Some (EName "value"))].

(* src/arinc424/decoder.py:725-726 *)
Definition py_decoder_field_060 : stmt :=
  SDef "field_060" [("value", None); ("record", None)]
    [SReturn (Some (EName "value"))].

(* src/arinc424/decoder.py:730-731 *)
Definition py_decoder_field_061 : stmt :=
  SDef "field_061" [("value", None); ("record", None)]
    [SReturn (Some (EName "value"))].

(* src/arinc424/decoder.py:735-739 *)
Definition py_decoder_field_062 : stmt :=
  SDef "field_062" [("value", None); ("record", None)]
    [SIf (ECall (EAttr (EName "value") "isnumeric") [] [])
      [SReturn (Some (EBin OpDiv (ECall (EName "float") [(EName "value")] []) (EInt 10)))]
      [SReturn (Some (EStr "BAD VALUE"))]].

(* src/arinc424/decoder.py:743-744 *)
Definition py_decoder_field_063 : stmt :=
  SDef "field_063" [("value", None); ("record", None)]
    [SReturn (Some (EName "value"))].

(* src/arinc424/decoder.py:748-749 *)
Definition py_decoder_field_064 : stmt :=
  SDef "field_064" [("value", None); ("record", None)]
    [SReturn (Some (EName "value"))].

(* src/arinc424/decoder.py:753-761 *)
Definition py_decoder_field_065 : stmt :=
  SDef "field_065" [("value", None); ("record", None)]
    [SIf (ECmp CmpEq (ECall (EAttr (EName "value") "strip") [] []) (EStr ""))
      [SReturn None]
      [];
    STry [SReturn (Some (ECall (EAttr (EStr "{}m {}s") "format") [(ECall (EName "int") [(EItem (EName "value") (EInt 0))] []); (EBin OpMul (ECall (EName "int") [(EItem (EName "value") (EInt 1))] []) (EInt 6))] []))]
      ["ValueError"; "IndexError"] "e"
      [SExpr (ECall (EName "print") [(EFString [(EStr "Error: Invalid value passed to format_time. Value: """); (EName "value"); (EStr """. Error: "); (ECall (EName "str") [(EName "e")] [])])] []);
      SReturn (Some (EFString [(EStr "Invalid Value: """); (EName "value"); (EStr """")]))]].

(* src/arinc424/decoder.py:765-766 *)
Definition py_decoder_field_066 : stmt :=
  SDef "field_066" [("value", None); ("record", None)]
    [SReturn (Some (EName "value"))].

(* src/arinc424/decoder.py:770-771 *)
Definition py_decoder_field_067 : stmt :=
  SDef "field_067" [("value", None); ("record", None)]
    [SReturn (Some (EName "value"))].

(* src/arinc424/decoder.py:775-776 *)
Definition py_decoder_field_068 : stmt :=
  SDef "field_068" [("value", None); ("record", None)]
    [SReturn (Some (EName "value"))].

(* src/arinc424/decoder.py:780-781 *)
Definition py_decoder_field_069 : stmt :=
  SDef "field_069" [("value", None); ("record", None)]
    [SReturn (Some (EName "value"))].

(* src/arinc424/decoder.py:785-786 *)
Definition py_decoder_field_070 : stmt :=
  SDef "field_070" [("value", None); ("record", None)]
    [SReturn (Some (EName "value"))].

(* src/arinc424/decoder.py:790-791 *)
Definition py_decoder_field_071 : stmt :=
  SDef "field_071" [("value", None); ("record", None)]
    [SReturn (Some (EName "value"))].

(* src/arinc424/decoder.py:795-801 *)
Definition py_decoder_field_072 : stmt :=
  SDef "field_072" [("value", None); ("record", None)]
    [SIf (ECall (EAttr (EName "value") "isnumeric") [] [])
      [SReturn (Some (EBin OpAdd (EName "value") (EStr " knots (IAS)")))]
      [SIf (ECmp CmpEq (ECall (EAttr (EName "value") "strip") [] []) (EStr ""))
        [SReturn (Some (EName "value"))]
        [SRaise (ECall (EName "ValueError") [(EBin OpAdd (EStr "Invalid speed") (EName "value"))] [])]]].

(* src/arinc424/decoder.py:805-806 *)
Definition py_decoder_field_073 : stmt :=
  SDef "field_073" [("value", None); ("record", None)]
    [SReturn (Some (EIfExp (ECall (EAttr (EName "value") "isnumeric") [] []) (EBin OpAdd (ECall (EAttr (EName "value") "lstrip") [(EStr "0")] []) (EStr " ft")) (EName "value")))].

(* src/arinc424/decoder.py:810-811 *)
Definition py_decoder_field_074 : stmt :=
  SDef "field_074" [("value", None); ("record", None)]
    [SReturn (Some (EName "value"))].

(* src/arinc424/decoder.py:815-816 *)
Definition py_decoder_field_075 : stmt :=
  SDef "field_075" [("value", None); ("record", None)]
    [SReturn (Some (EName "value"))].

(* src/arinc424/decoder.py:820-821 *)
Definition py_decoder_field_076 : stmt :=
  SDef "field_076" [("value", None); ("record", None)]
    [SReturn (Some (EName "value"))].

(* src/arinc424/decoder.py:825-826 *)
Definition py_decoder_field_077 : stmt :=
  SDef "field_077" [("value", None); ("record", None)]
    [SReturn (Some (EName "value"))].

(* src/arinc424/decoder.py:830-831 *)
Definition py_decoder_field_078 : stmt :=
  SDef "field_078" [("value", None); ("record", None)]
    [SReturn (Some (EName "value"))].

(* src/arinc424/decoder.py:835-836 *)
Definition py_decoder_field_079 : stmt :=
  SDef "field_079" [("value", None); ("record", None)]
    [SReturn (Some (EName "value"))].

(* src/arinc424/decoder.py:840-841 *)
Definition py_decoder_field_080 : stmt :=
  SDef "field_080" [("value", None); ("record", None)]
    [SReturn (Some (EName "value"))].

(* src/arinc424/decoder.py:845-846 *)
Definition py_decoder_field_081 : stmt :=
  SDef "field_081" [("value", None); ("record", None)]
    [SReturn (Some (EName "value"))].

(* src/arinc424/decoder.py:850-864 *)
Definition py_decoder_field_082 : stmt :=
  SDef "field_082" [("value", None); ("record", None)]
    [SAssign (EName "wp") (EStr "");
    SIf (ECmp CmpEq (EItem (EName "value") (EInt 1)) (EStr "B"))
      [SAssign (EName "wp") (EBin OpAdd (EName "wp") (EStr "HI and LO Altitude"))]
      [SIf (ECmp CmpEq (EItem (EName "value") (EInt 1)) (EStr "H"))
        [SAssign (EName "wp") (EBin OpAdd (EName "wp") (EStr "HI Altitude"))]
        [SIf (ECmp CmpEq (EItem (EName "value") (EInt 1)) (EStr "L"))
          [SAssign (EName "wp") (EBin OpAdd (EName "wp") (EStr "LO Altitude"))]
          [SIf (ECmp CmpEq (EItem (EName "value") (EInt 1)) (EStr " "))
            [SAssign (EName "wp") (EBin OpAdd (EName "wp") (EStr "Terminal Use Only"))]
            [SIf (ECmp CmpEq (EItem (EName "value") (EInt 0)) (EStr "R"))
              [SAssign (EName "wp") (EBin OpAdd (EName "wp") (EStr "RNAV"))]
              [SRaise (ECall (EName "ValueError") [(EFString [(EStr "Invalid Waypoint Usage: '"); (EName "value"); (EStr "'")])] [])]]]]];
    SReturn (Some (EName "wp"))].

(* src/arinc424/decoder.py:868-869 *)
Definition py_decoder_field_083 : stmt :=
  SDef "field_083" [("value", None); ("record", None)]
    [SReturn (Some (EName "value"))].

(* src/arinc424/decoder.py:873-874 *)
Definition py_decoder_field_084 : stmt :=
  SDef "field_084" [("value", None); ("record", None)]
    [SReturn (Some (EName "value"))].

(* src/arinc424/decoder.py:878-879 *)
Definition py_decoder_field_085 : stmt :=
  SDef "field_085" [("value", None); ("record", None)]
    [SReturn (Some (EName "value"))].

(* src/arinc424/decoder.py:883-884 *)
Definition py_decoder_field_086 : stmt :=
  SDef "field_086" [("value", None); ("record", None)]
    [SReturn (Some (EIfExp (ECall (EAttr (EName "value") "isnumeric") [] []) (EBin OpAdd (ECall (EAttr (EName "value") "lstrip") [(EStr "0")] []) (EStr " ft")) (EName "value")))].

(* src/arinc424/decoder.py:888-889 *)
Definition py_decoder_field_087 : stmt :=
  SDef "field_087" [("value", None); ("record", None)]
    [SReturn (Some (EName "value"))].

(* src/arinc424/decoder.py:893-894 *)
Definition py_decoder_field_088 : stmt :=
  SDef "field_088" [("value", None); ("record", None)]
    [SReturn (Some (EName "value"))].

(* src/arinc424/decoder.py:898-899 *)
Definition py_decoder_field_089 : stmt :=
  SDef "field_089" [("value", None); ("record", None)]
    [SReturn (Some (EName "value"))].

(* src/arinc424/decoder.py:903-904 *)
Definition py_decoder_field_090 : stmt :=
  SDef "field_090" [("value", None); ("record", None)]
    [SReturn (Some (EName "value"))].

(* src/arinc424/decoder.py:908-937 *)
Definition py_decoder_field_091 : stmt :=
  SDef "field_091" [("value", None); ("record", None)]
    [SMatch (EName "value")
      [(PValue (EStr "A"), [SReturn (Some (EStr "Standard ARINC Continuation containing notes or other formatted data"))]);
      (PValue (EStr "B"), [SReturn (Some (EStr "Combined Controlling Agency/Call Sign and formatted Time of Operation"))]);
      (PValue (EStr "C"), [SReturn (Some (EStr "Call Sign/Controlling Agency Continuation"))]);
      (PValue (EStr "E"), [SReturn (Some (EStr "Primary Record Extension"))]);
      (PValue (EStr "L"), [SReturn (Some (EStr "VHF Navaid Limitation Continuation"))]);
      (PValue (EStr "N"), [SReturn (Some (EStr "Sector Narrative Continuation"))]);
      (PValue (EStr "T"), [SReturn (Some (EStr "Time of Operations Continuation ""formatted time data"""))]);
      (PValue (EStr "U"), [SReturn (Some (EStr "Time of Operations Continuation ""Narrative time data"""))]);
      (PValue (EStr "V"), [SReturn (Some (EStr "Time of Operations Continuation, Start/End Date"))]);
      (PValue (EStr "P"), [SReturn (Some (EStr "Flight Planning Application Continuation"))]);
      (PValue (EStr "Q"), [SReturn (Some (EStr "Flight Planning Application Primary Data Continuation"))]);
      (PValue (EStr "S"), [SReturn (Some (EStr "Simulation Application Continuation"))]);
      (PValue (EStr "W"), [SReturn (Some (EStr "Airport or Heliport Procedure Data Continuation with SBAS use authorization information"))]);
      (PWild, [SReturn (Some (EBin OpAdd (EStr "Unknown Application Type: ") (ECall (EName "str") [(EName "value")] [])))])]].

(* src/arinc424/decoder.py:941-942 *)
Definition py_decoder_field_092 : stmt :=
  SDef "field_092" [("value", None); ("record", None)]
    [SReturn (Some (EIfExp (ECall (EAttr (EName "value") "isnumeric") [] []) (EBin OpAdd (ECall (EAttr (EName "value") "lstrip") [(EStr "0")] []) (EStr " ft")) (EName "value")))].

(* src/arinc424/decoder.py:946-947 *)
Definition py_decoder_field_093 : stmt :=
  SDef "field_093" [("value", None); ("record", None)]
    [SReturn (Some (EName "value"))].

(* src/arinc424/decoder.py:951-952 *)
Definition py_decoder_field_094 : stmt :=
  SDef "field_094" [("value", None); ("record", None)]
    [SReturn (Some (EName "value"))].

(* src/arinc424/decoder.py:956-957 *)
Definition py_decoder_field_095 : stmt :=
  SDef "field_095" [("value", None); ("record", None)]
    [SReturn (Some (EName "value"))].

(* src/arinc424/decoder.py:961-962 *)
Definition py_decoder_field_096 : stmt :=
  SDef "field_096" [("value", None); ("record", None)]
    [SReturn (Some (EName "value"))].

(* src/arinc424/decoder.py:966-967 *)
Definition py_decoder_field_097 : stmt :=
  SDef "field_097" [("value", None); ("record", None)]
    [SReturn (Some (EName "value"))].

(* src/arinc424/decoder.py:971-972 *)
Definition py_decoder_field_098 : stmt :=
  SDef "field_098" [("value", None); ("record", None)]
    [SReturn (Some (EName "value"))].

(* src/arinc424/decoder.py:976-977 *)
Definition py_decoder_field_099 : stmt :=
  SDef "field_099" [("value", None); ("record", None)]
    [SReturn (Some (EName "value"))].

(* src/arinc424/decoder.py:981-982 *)
Definition py_decoder_field_100 : stmt :=
  SDef "field_100" [("value", None); ("record", None)]
    [SReturn (Some (EName "value"))].

(* src/arinc424/decoder.py:986-1030 *)
Definition py_decoder_field_101 : stmt :=
  SDef "field_101" [("value", None); ("record", None)]
    [SAssign (EName "d") (ECall (EName "defaultdict") [(EName "def_val")] []);
    SAssign (EItem (EName "d") (EStr "ACC")) (EStr "Area Control Center");
    SAssign (EItem (EName "d") (EStr "ACP")) (EStr "Airlift Command Post");
    SAssign (EItem (EName "d") (EStr "AIR")) (EStr "Air to Air");
    SAssign (EItem (EName "d") (EStr "APP")) (EStr "Approach Control");
    SAssign (EItem (EName "d") (EStr "ARR")) (EStr "Arrival Control");
    SAssign (EItem (EName "d") (EStr "ASO")) (EStr "Automatic Surface Observing System (ASOS)");
    SAssign (EItem (EName "d") (EStr "ATI")) (EStr "Automatic Terminal Info Service (ATIS)");
    SAssign (EItem (EName "d") (EStr "AWI")) (EStr "Airport Weather Information Broadcast (AWIB)");
    SAssign (EItem (EName "d") (EStr "AWO")) (EStr "Automatic Weather Observing Service (AWOS)");
    SAssign (EItem (EName "d") (EStr "AWS")) (EStr "Aerodrome Weather Information Services (AWIS)");
    SAssign (EItem (EName "d") (EStr "CLD")) (EStr "Clearance Delivery");
    SAssign (EItem (EName "d") (EStr "CPT")) (EStr "Clearance, Pre-Taxi");
    SAssign (EItem (EName "d") (EStr "CTA")) (EStr "Control Area (Terminal)");
    SAssign (EItem (EName "d") (EStr "CTL")) (EStr "Control");
    SAssign (EItem (EName "d") (EStr "DEP")) (EStr "Departure Control");
    SAssign (EItem (EName "d") (EStr "DIR")) (EStr "Director (Approach Control Radar)");
    SAssign (EItem (EName "d") (EStr "EFS")) (EStr "Enroute Flight Advisory Service (EFAS)");
    SAssign (EItem (EName "d") (EStr "EMR")) (EStr "Emergency");
    SAssign (EItem (EName "d") (EStr "FSS")) (EStr "Flight Service Station");
    SAssign (EItem (EName "d") (EStr "GCO")) (EStr "Ground Comm Outlet");
    SAssign (EItem (EName "d") (EStr "GND")) (EStr "Ground Control");
    SAssign (EItem (EName "d") (EStr "GTE")) (EStr "Gate Control");
    SAssign (EItem (EName "d") (EStr "HEL")) (EStr "Helicopter Frequency");
    SAssign (EItem (EName "d") (EStr "INF")) (EStr "Information");
    SAssign (EItem (EName "d") (EStr "MIL")) (EStr "Military Frequency");
    SAssign (EItem (EName "d") (EStr "MUL")) (EStr "Multicom");
    SAssign (EItem (EName "d") (EStr "OPS")) (EStr "Operations");
    SAssign (EItem (EName "d") (EStr "PAL")) (EStr "Pilot Activated Lighting (Note 1)");
    SAssign (EItem (EName "d") (EStr "RDO")) (EStr "Radio");
    SAssign (EItem (EName "d") (EStr "RDR")) (EStr "Radar");
    SAssign (EItem (EName "d") (EStr "RFS")) (EStr "Remote Flight Service Station (RFSS)");
    SAssign (EItem (EName "d") (EStr "RMP")) (EStr "Ramp/Taxi Control");
    SAssign (EItem (EName "d") (EStr "RSA")) (EStr "Airport Radar Service Area (ARSA)");
    SAssign (EItem (EName "d") (EStr "TCA")) (EStr "Terminal Control Area");
    SAssign (EItem (EName "d") (EStr "TMA")) (EStr "Terminal Control Area");
    SAssign (EItem (EName "d") (EStr "TML")) (EStr "Terminal");
    SAssign (EItem (EName "d") (EStr "TRS")) (EStr "Terminal Radar Service Area (TRSA)");
    SAssign (EItem (EName "d") (EStr "TWE")) (EStr "Transcribe Weather Broadcast (TWEB)");
    SAssign (EItem (EName "d") (EStr "TWR")) (EStr "Tower, Air Traffic Control");
    SAssign (EItem (EName "d") (EStr "UAC")) (EStr "Upper Area Control");
    SAssign (EItem (EName "d") (EStr "UNI")) (EStr "Unicom");
    SAssign (EItem (EName "d") (EStr "VOL")) (EStr "Volmet");
    SReturn (Some (EIfExp (ECmp CmpNe (EItem (EName "d") (EName "value")) (EStr "bad value")) (EItem (EName "d") (EName "value")) (EBin OpAdd (EName "value") (EStr "BAD VALUE"))))].

(* src/arinc424/decoder.py:1034-1041 *)
Definition py_decoder_field_102 : stmt :=
  SDef "field_102" [("value", None); ("record", None)]
    [SMatch (EName "value")
      [(PValue (EStr "R"), [SReturn (Some (EStr "Radar Capabilities"))]);
      (PValue (EStr "N"), [SReturn (Some (EStr "No Radar Capabilities"))]);
      (PWild, [SReturn (Some (EName "value"))])]].

(* src/arinc424/decoder.py:1045-1049 *)
Definition py_decoder_field_103 : stmt :=
  SDef "field_103" [("value", None); ("record", None)]
    [SIf (ECall (EAttr (EName "value") "isnumeric") [] [])
      [SReturn (Some (ECall (EAttr (EStr "{:.2f}") "format") [(EBin OpDiv (ECall (EName "float") [(EName "value")] []) (EInt 100))] []))]
      [SReturn (Some (EStr "BAD VALUE"))]].

(* src/arinc424/decoder.py:1053-1059 *)
Definition py_decoder_field_104 : stmt :=
  SDef "field_104" [("value", None); ("record", None)]
    [SAssign (EName "d") (ECall (EName "defaultdict") [(EName "def_val")] []);
    SAssign (EItem (EName "d") (EStr "H")) (EStr "High Frequency (3000 kHz - 30,000 kHz)");
    SAssign (EItem (EName "d") (EStr "V")) (EStr "Very High Frequency (30,000 kHz - 200 MHz)");
    SAssign (EItem (EName "d") (EStr "U")) (EStr "Ultra High Frequency (200 MHz - 3000 MHz)");
    SAssign (EItem (EName "d") (EStr "C")) (EStr "Communication Channel for 8.33 kHz spacing");
    SReturn (Some (EIfExp (ECmp CmpNe (EItem (EName "d") (EName "value")) (EStr "bad value")) (EItem (EName "d") (EName "value")) (EBin OpAdd (EName "value") (EStr "BAD VALUE"))))].

(* src/arinc424/decoder.py:1063-1064 *)
Definition py_decoder_field_105 : stmt :=
  SDef "field_105" [("value", None); ("record", None)]
    [SReturn (Some (EName "value"))].

(* src/arinc424/decoder.py:1068-1093 *)
Definition py_decoder_field_106 : stmt :=
  SDef "field_106" [("value", None); ("record", None)]
    [SIf (ECmp CmpEq (ECall (EAttr (EName "value") "strip") [] []) (EStr ""))
      [SReturn (Some (EName "value"))]
      [];
    SAssign (EName "sections") (ECall (EName "defaultdict") [(EName "def_val")] []);
    SAssign (EItem (EName "sections") (EStr "A  ")) (EStr "Airport Advisory Serivce (AAS)");
    SAssign (EItem (EName "sections") (EStr "C  ")) (EStr "Community Aerodrome Radio Station (CARS)");
    SAssign (EItem (EName "sections") (EStr "D  ")) (EStr "Departure Service (Other than Departure Control Unit)");
    SAssign (EItem (EName "sections") (EStr "F  ")) (EStr "Flight Information Serivce (FIS)");
    SAssign (EItem (EName "sections") (EStr "I  ")) (EStr "Initial Contact (IC)");
    SAssign (EItem (EName "sections") (EStr "L  ")) (EStr "Arrival Service (Other than Arrival Control Unit)");
    SAssign (EItem (EName "sections") (EStr "P  ")) (EStr "Pre-Departure Clearance (Data Link Service)");
    SAssign (EItem (EName "sections") (EStr "S  ")) (EStr "Aerodrome Flight Information Service (AFIS)");
    SAssign (EItem (EName "sections") (EStr "T  ")) (EStr "Terminal Area Control (Other than dedicated Terminal Control Unit)");
    SAssign (EItem (EName "sections") (EStr " A ")) (EStr "Aerodrome Traffic Frequency (ATF)");
    SAssign (EItem (EName "sections") (EStr " C ")) (EStr "Common Traffic Advisory Frequency (CTAF)");
    SAssign (EItem (EName "sections") (EStr " M ")) (EStr "Mandatory Frequency (MF) ");
    SAssign (EItem (EName "sections") (EStr " R ")) (EStr "Air/Air");
    SAssign (EItem (EName "sections") (EStr " S ")) (EStr "Secondary Frequency");
    SAssign (EItem (EName "sections") (EStr "  A")) (EStr "Air/Ground");
    SAssign (EItem (EName "sections") (EStr "  D")) (EStr "VHF Direction Finding Service (VDF)");
    SAssign (EItem (EName "sections") (EStr "  G")) (EStr "Remote Communications Air to Ground (RCAG)");
    SAssign (EItem (EName "sections") (EStr "  L")) (EStr "Language other than English");
    SAssign (EItem (EName "sections") (EStr "  M")) (EStr "Military Use Frequency");
    SAssign (EItem (EName "sections") (EStr "  P")) (EStr "Pilot Controlled Light (PCL)");
    SAssign (EItem (EName "sections") (EStr "  R")) (EStr "Remote Communications Outlet (RCO)");
    SReturn (Some (EItem (EName "sections") (EName "value")))].

(* src/arinc424/decoder.py:1097-1098 *)
Definition py_decoder_field_107 : stmt :=
  SDef "field_107" [("value", None); ("record", None)]
    [SReturn (Some (EName "value"))].

(* src/arinc424/decoder.py:1102-1109 *)
Definition py_decoder_field_108 : stmt :=
  SDef "field_108" [("value", None); ("record", None)]
    [SMatch (EName "value")
      [(PValue (EStr "Y"), [SReturn (Some (EStr "Official"))]);
      (PValue (EStr "N"), [SReturn (Some (EStr "Non-official"))]);
      (PWild, [SRaise (ECall (EName "ValueError") [(EStr "Invalid IFR Capability")] [])])]].

(* src/arinc424/decoder.py:1113-1114 *)
Definition py_decoder_field_109 : stmt :=
  SDef "field_109" [("value", None); ("record", None)]
    [SReturn (Some (EName "value"))].

(* src/arinc424/decoder.py:1118-1119 *)
Definition py_decoder_field_110 : stmt :=
  SDef "field_110" [("value", None); ("record", None)]
    [SReturn (Some (EName "value"))].

(* src/arinc424/decoder.py:1123-1124 *)
Definition py_decoder_field_111 : stmt :=
  SDef "field_111" [("value", None); ("record", None)]
    [SReturn (Some (EName "value"))].

(* src/arinc424/decoder.py:1128-1135 *)
Definition py_decoder_field_112 : stmt :=
  SDef "field_112" [("value", None); ("record", None)]
    [SMatch (EName "value")
      [(PValue (EStr "E"), [SReturn (Some (EStr "Elliptical"))]);
      (PValue (EStr "B"), [SReturn (Some (EStr "Bone"))]);
      (PWild, [SReturn (Some (EName "value"))])]].

(* src/arinc424/decoder.py:1139-1146 *)
Definition py_decoder_field_113 : stmt :=
  SDef "field_113" [("value", None); ("record", None)]
    [SMatch (EName "value")
      [(PValue (EStr "H"), [SReturn (Some (EStr "High Power (general use)"))]);
      (PValue (EStr "L"), [SReturn (Some (EStr "Low Power (low altitude use)"))]);
      (PWild, [SReturn (Some (EName "value"))])]].

(* src/arinc424/decoder.py:1150-1151 *)
Definition py_decoder_field_114 : stmt :=
  SDef "field_114" [("value", None); ("record", None)]
    [SReturn (Some (EName "value"))].

(* src/arinc424/decoder.py:1155-1156 *)
Definition py_decoder_field_115 : stmt :=
  SDef "field_115" [("value", None); ("record", None)]
    [SReturn (Some (EName "value"))].

(* src/arinc424/decoder.py:1160-1161 *)
Definition py_decoder_field_116 : stmt :=
  SDef "field_116" [("value", None); ("record", None)]
    [SReturn (Some (EName "value"))].

(* src/arinc424/decoder.py:1165-1173 *)
Definition py_decoder_field_117 : stmt :=
  SDef "field_117" [("value", None); ("record", None)]
    [SIf (ECmp CmpEq (EName "value") (EStr "F"))
      [SReturn (Some (EStr "FIR"))]
      [SIf (ECmp CmpEq (EName "value") (EStr "U"))
        [SReturn (Some (EStr "UIR"))]
        [SIf (ECmp CmpEq (EName "value") (EStr "B"))
          [SReturn (Some (EStr "Combined FIR/UIR"))]
          [SReturn (Some (EName "value"))]]]].

(* src/arinc424/decoder.py:1177-1197 *)
Definition py_decoder_field_118 : stmt :=
  SDef "field_118" [("value", None); ("record", None)]
    [SAssign (EName "s") (EStr "");
    SMatch (EItem (EName "value") (EInt 0))
      [(PValue (EStr "C"), [SAug (EName "s") OpAdd (EStr "Circle")]);
      (PValue (EStr "G"), [SAug (EName "s") OpAdd (EStr "Great Circle")]);
      (PValue (EStr "H"), [SAug (EName "s") OpAdd (EStr "Rhumb Line")]);
      (PValue (EStr "L"), [SAug (EName "s") OpAdd (EStr "Counter Clockwise ARC")]);
      (PValue (EStr "R"), [SAug (EName "s") OpAdd (EStr "Clockwise ARC")]);
      (PWild, [SExpr (ECall (EName "print") [(EFString [(EStr "Unsupported Boundary Via: """); (EName "value"); (EStr """")])] []);
        SReturn (Some (EFString [(EStr "Unsupported Value: """); (EName "value"); (EStr """")]))])];
    SIf (ECmp CmpEq (EItem (EName "value") (EInt 1)) (EStr "E"))
      [SAug (EName "s") OpAdd (EStr ", End of description, return to origin point")]
      [];
    SReturn (Some (EName "s"))].

(* src/arinc424/decoder.py:1201-1202 *)
Definition py_decoder_field_119 : stmt :=
  SDef "field_119" [("value", None); ("record", None)]
    [SReturn (Some (EName "value"))].

(* src/arinc424/decoder.py:1206-1207 *)
Definition py_decoder_field_120 : stmt :=
  SDef "field_120" [("value", None); ("record", None)]
    [SReturn (Some (EName "value"))].

(* src/arinc424/decoder.py:1211-1212 *)
Definition py_decoder_field_121 : stmt :=
  SDef "field_121" [("value", None); ("record", None)]
    [SReturn (Some (EName "value"))].

(* src/arinc424/decoder.py:1216-1217 *)
Definition py_decoder_field_122 : stmt :=
  SDef "field_122" [("value", None); ("record", None)]
    [SReturn (Some (EName "value"))].

(* src/arinc424/decoder.py:1221-1222 *)
Definition py_decoder_field_123 : stmt :=
  SDef "field_123" [("value", None); ("record", None)]
    [SReturn (Some (EIfExp (ECall (EAttr (EName "value") "isnumeric") [] []) (EBin OpAdd (ECall (EAttr (EName "value") "lstrip") [(EStr "0")] []) (EStr " ft")) (EName "value")))].

(* src/arinc424/decoder.py:1226-1227 *)
Definition py_decoder_field_124 : stmt :=
  SDef "field_124" [("value", None); ("record", None)]
    [SReturn (Some (EName "value"))].

(* src/arinc424/decoder.py:1231-1232 *)
Definition py_decoder_field_125 : stmt :=
  SDef "field_125" [("value", None); ("record", None)]
    [SReturn (Some (EName "value"))].

(* src/arinc424/decoder.py:1236-1237 *)
Definition py_decoder_field_126 : stmt :=
  SDef "field_126" [("value", None); ("record", None)]
    [SReturn (Some (EName "value"))].

(* src/arinc424/decoder.py:1241-1242 *)
Definition py_decoder_field_127 : stmt :=
  SDef "field_127" [("value", None); ("record", None)]
    [SReturn (Some (EIfExp (ECall (EAttr (EName "value") "isnumeric") [] []) (EBin OpAdd (ECall (EAttr (EName "value") "lstrip") [(EStr "0")] []) (EStr " ft")) (EName "value")))].

(* src/arinc424/decoder.py:1246-1247 *)
Definition py_decoder_field_128 : stmt :=
  SDef "field_128" [("value", None); ("record", None)]
    [SReturn (Some (EName "value"))].

(* src/arinc424/decoder.py:1251-1252 *)
Definition py_decoder_field_129 : stmt :=
  SDef "field_129" [("value", None); ("record", None)]
    [SReturn (Some (EName "value"))].

(* src/arinc424/decoder.py:1256-1257 *)
Definition py_decoder_field_130 : stmt :=
  SDef "field_130" [("value", None); ("record", None)]
    [SReturn (Some (EName "value"))].

(* src/arinc424/decoder.py:1261-1262 *)
Definition py_decoder_field_131 : stmt :=
  SDef "field_131" [("value", None); ("record", None)]
    [SReturn (Some (EName "value"))].

(* src/arinc424/decoder.py:1266-1267 *)
Definition py_decoder_field_132 : stmt :=
  SDef "field_132" [("value", None); ("record", None)]
    [SReturn (Some (EName "value"))].

(* src/arinc424/decoder.py:1271-1272 *)
Definition py_decoder_field_133 : stmt :=
  SDef "field_133" [("value", None); ("record", None)]
    [SReturn (Some (EName "value"))].

(* src/arinc424/decoder.py:1276-1277 *)
Definition py_decoder_field_134 : stmt :=
  SDef "field_134" [("value", None); ("record", None)]
    [SReturn (Some (EName "value"))].

(* src/arinc424/decoder.py:1281-1285 *)
Definition py_decoder_field_135 : stmt :=
  SDef "field_135" [("value", None); ("record", None)]
    [SIf (ECall (EAttr (EName "value") "isnumeric") [] [])
      [SReturn (Some (EBin OpDiv (ECall (EName "float") [(EName "value")] []) (EInt 10)))]
      [SReturn (Some (EStr "BAD VALUE"))]].

(* src/arinc424/decoder.py:1289-1290 *)
Definition py_decoder_field_136 : stmt :=
  SDef "field_136" [("value", None); ("record", None)]
    [SReturn (Some (EName "value"))].

(* src/arinc424/decoder.py:1294-1295 *)
Definition py_decoder_field_137 : stmt :=
  SDef "field_137" [("value", None); ("record", None)]
    [SReturn (Some (EName "value"))].

(* src/arinc424/decoder.py:1299-1300 *)
Definition py_decoder_field_138 : stmt :=
  SDef "field_138" [("value", None); ("record", None)]
    [SReturn (Some (EName "value"))].

(* src/arinc424/decoder.py:1304-1305 *)
Definition py_decoder_field_139 : stmt :=
  SDef "field_139" [("value", None); ("record", None)]
    [SReturn (Some (EName "value"))].

(* src/arinc424/decoder.py:1309-1310 *)
Definition py_decoder_field_140 : stmt :=
  SDef "field_140" [("value", None); ("record", None)]
    [SReturn (Some (EName "value"))].

(* src/arinc424/decoder.py:1314-1315 *)
Definition py_decoder_field_141 : stmt :=
  SDef "field_141" [("value", None); ("record", None)]
    [SReturn (Some (EName "value"))].

(* src/arinc424/decoder.py:1319-1320 *)
Definition py_decoder_field_142 : stmt :=
  SDef "field_142" [("value", None); ("record", None)]
    [SReturn (Some (EName "value"))].

(* src/arinc424/decoder.py:1324-1325 *)
Definition py_decoder_field_143 : stmt :=
  SDef "field_143" [("value", None); ("record", None)]
    [SReturn (Some (EName "value"))].

(* src/arinc424/decoder.py:1329-1330 *)
Definition py_decoder_field_144 : stmt :=
  SDef "field_144" [("value", None); ("record", None)]
    [SReturn (Some (EName "value"))].

(* src/arinc424/decoder.py:1334-1335 *)
Definition py_decoder_field_145 : stmt :=
  SDef "field_145" [("value", None); ("record", None)]
    [SReturn (Some (EName "value"))].

(* src/arinc424/decoder.py:1339-1340 *)
Definition py_decoder_field_146 : stmt :=
  SDef "field_146" [("value", None); ("record", None)]
    [SReturn (Some (EName "value"))].

(* src/arinc424/decoder.py:1344-1345 *)
Definition py_decoder_field_147 : stmt :=
  SDef "field_147" [("value", None); ("record", None)]
    [SReturn (Some (EIfExp (ECall (EAttr (EName "value") "isnumeric") [] []) (EBin OpAdd (ECall (EAttr (EName "value") "lstrip") [(EStr "0")] []) (EStr " ft")) (EName "value")))].

(* src/arinc424/decoder.py:1349-1350 *)
Definition py_decoder_field_148 : stmt :=
  SDef "field_148" [("value", None); ("record", None)]
    [SReturn (Some (EName "value"))].

(* src/arinc424/decoder.py:1354-1355 *)
Definition py_decoder_field_149 : stmt :=
  SDef "field_149" [("value", None); ("record", None)]
    [SReturn (Some (EName "value"))].

(* src/arinc424/decoder.py:1359-1360 *)
Definition py_decoder_field_150 : stmt :=
  SDef "field_150" [("value", None); ("record", None)]
    [SReturn (Some (EName "value"))].

(* src/arinc424/decoder.py:1364-1365 *)
Definition py_decoder_field_151 : stmt :=
  SDef "field_151" [("value", None); ("record", None)]
    [SReturn (Some (EName "value"))].

(* src/arinc424/decoder.py:1369-1370 *)
Definition py_decoder_field_152 : stmt :=
  SDef "field_152" [("value", None); ("record", None)]
    [SReturn (Some (EName "value"))].

(* src/arinc424/decoder.py:1374-1375 *)
Definition py_decoder_field_153 : stmt :=
  SDef "field_153" [("value", None); ("record", None)]
    [SReturn (Some (EName "value"))].

(* src/arinc424/decoder.py:1379-1380 *)
Definition py_decoder_field_154 : stmt :=
  SDef "field_154" [("value", None); ("record", None)]
    [SReturn (Some (EName "value"))].

(* src/arinc424/decoder.py:1384-1385 *)
Definition py_decoder_field_155 : stmt :=
  SDef "field_155" [("value", None); ("record", None)]
    [SReturn (Some (EName "value"))].

(* src/arinc424/decoder.py:1389-1390 *)
Definition py_decoder_field_156 : stmt :=
  SDef "field_156" [("value", None); ("record", None)]
    [SReturn (Some (EName "value"))].

(* src/arinc424/decoder.py:1394-1395 *)
Definition py_decoder_field_157 : stmt :=
  SDef "field_157" [("value", None); ("record", None)]
    [SReturn (Some (EName "value"))].

(* src/arinc424/decoder.py:1399-1400 *)
Definition py_decoder_field_158 : stmt :=
  SDef "field_158" [("value", None); ("record", None)]
    [SReturn (Some (EName "value"))].

(* src/arinc424/decoder.py:1404-1405 *)
Definition py_decoder_field_159 : stmt :=
  SDef "field_159" [("value", None); ("record", None)]
    [SReturn (Some (EName "value"))].

(* src/arinc424/decoder.py:1409-1410 *)
Definition py_decoder_field_160 : stmt :=
  SDef "field_160" [("value", None); ("record", None)]
    [SReturn (Some (EName "value"))].

(* src/arinc424/decoder.py:1414-1415 *)
Definition py_decoder_field_161 : stmt :=
  SDef "field_161" [("value", None); ("record", None)]
    [SReturn (Some (EIfExp (ECall (EAttr (EName "value") "isnumeric") [] []) (EBin OpAdd (ECall (EAttr (EName "value") "lstrip") [(EStr "0")] []) (EStr " ft")) (EName "value")))].

(* src/arinc424/decoder.py:1419-1420 *)
Definition py_decoder_field_162 : stmt :=
  SDef "field_162" [("value", None); ("record", None)]
    [SReturn (Some (EName "value"))].

(* src/arinc424/decoder.py:1424-1425 *)
Definition py_decoder_field_163 : stmt :=
  SDef "field_163" [("value", None); ("record", None)]
    [SReturn (Some (EName "value"))].

(* src/arinc424/decoder.py:1429-1430 *)
Definition py_decoder_field_164 : stmt :=
  SDef "field_164" [("value", None); ("record", None)]
    [SReturn (Some (EName "value"))].

(* src/arinc424/decoder.py:1434-1440 *)
Definition py_decoder_field_165 : stmt :=
  SDef "field_165" [("value", None); ("record", None)]
    [SIf (ECmp CmpEq (EName "value") (EStr "M"))
      [SReturn (Some (EStr "Magnetic"))]
      [SIf (ECmp CmpEq (EName "value") (EStr "T"))
        [SReturn (Some (EStr "True"))]
        [SReturn (Some (EName "value"))]]].

(* src/arinc424/decoder.py:1444-1445 *)
Definition py_decoder_field_166 : stmt :=
  SDef "field_166" [("value", None); ("record", None)]
    [SReturn (Some (EName "value"))].

(* src/arinc424/decoder.py:1449-1450 *)
Definition py_decoder_field_167 : stmt :=
  SDef "field_167" [("value", None); ("record", None)]
    [SReturn (Some (EName "value"))].

(* src/arinc424/decoder.py:1455-1456 *)
Definition py_decoder_field_168 : stmt :=
  SDef "field_168" [("value", None); ("record", None)]
    [SReturn (Some (EName "value"))].

(* src/arinc424/decoder.py:1460-1461 *)
Definition py_decoder_field_169 : stmt :=
  SDef "field_169" [("value", None); ("record", None)]
    [SReturn (Some (EName "value"))].

(* src/arinc424/decoder.py:1465-1466 *)
Definition py_decoder_field_170 : stmt :=
  SDef "field_170" [("value", None); ("record", None)]
    [SReturn (Some (EName "value"))].

(* src/arinc424/decoder.py:1470-1471 *)
Definition py_decoder_field_171 : stmt :=
  SDef "field_171" [("value", None); ("record", None)]
    [SReturn (Some (EName "value"))].

(* src/arinc424/decoder.py:1475-1476 *)
Definition py_decoder_field_172 : stmt :=
  SDef "field_172" [("value", None); ("record", None)]
    [SReturn (Some (EName "value"))].

(* src/arinc424/decoder.py:1480-1481 *)
Definition py_decoder_field_173 : stmt :=
  SDef "field_173" [("value", None); ("record", None)]
    [SReturn (Some (EName "value"))].

(* src/arinc424/decoder.py:1485-1486 *)
Definition py_decoder_field_174 : stmt :=
  SDef "field_174" [("value", None); ("record", None)]
    [SReturn (Some (EName "value"))].

(* src/arinc424/decoder.py:1490-1491 *)
Definition py_decoder_field_175 : stmt :=
  SDef "field_175" [("value", None); ("record", None)]
    [SReturn (Some (EName "value"))].

(* src/arinc424/decoder.py:1495-1496 *)
Definition py_decoder_field_176 : stmt :=
  SDef "field_176" [("value", None); ("record", None)]
    [SReturn (Some (EName "value"))].

(* src/arinc424/decoder.py:1500-1509 *)
Definition py_decoder_field_177 : stmt :=
  SDef "field_177" [("value", None); ("record", None)]
    [SMatch (EName "value")
      [(PValue (EStr "C"), [SReturn (Some (EStr "Public / Civil"))]);
      (PValue (EStr "M"), [SReturn (Some (EStr "Military"))]);
      (PValue (EStr "P"), [SReturn (Some (EStr "Private (not open to public)"))]);
      (PWild, [SReturn (Some (EFString [(EStr "Unsupported Value: """); (EName "value"); (EStr """")]))])]].

(* src/arinc424/decoder.py:1513-1519 *)
Definition py_decoder_field_178 : stmt :=
  SDef "field_178" [("value", None); ("record", None)]
    [SIf (EAnd (ECall (EAttr (EItem (EName "value") (EInt 0)) "isalpha") [] []) (ECall (EAttr (ESlice (EName "value") (Some (EInt 1)) None) "isnumeric") [] []))
      [SAssign (EName "x") (EBin OpSub (ECall (EAttr (EAttr (EName "string") "ascii_uppercase") "index") [(EItem (EName "value") (EInt 0))] []) (EInt 12));
      SAssign (EName "y") (EIfExp (ECmp CmpGe (EName "x") (EInt 0)) (EBin OpAdd (EStr "GMT +") (ECall (EName "str") [(EName "x")] [])) (EBin OpAdd (EStr "GMT -") (ECall (EName "str") [(EName "x")] [])));
      SReturn (Some (EBin OpAdd (EBin OpAdd (EName "y") (EStr ":")) (ECall (EName "str") [(ESlice (EName "value") (Some (EInt 1)) None)] [])))]
      [SReturn (Some (EFString [(EStr "Unsupported Value: """); (EName "value"); (EStr """")]))]].

(* src/arinc424/decoder.py:1523-1530 *)
Definition py_decoder_field_179 : stmt :=
  SDef "field_179" [("value", None); ("record", None)]
    [SMatch (EName "value")
      [(PValue (EStr "Y"), [SReturn (Some (EStr "Yes"))]);
      (PValue (EStr "N"), [SReturn (Some (EStr "No"))]);
      (PWild, [SReturn (Some (EFString [(EStr "Unsupported Value: """); (EName "value"); (EStr """")]))])]].

(* src/arinc424/decoder.py:1534-1535 *)
Definition py_decoder_field_180 : stmt :=
  SDef "field_180" [("value", None); ("record", None)]
    [SReturn (Some (EName "value"))].

(* src/arinc424/decoder.py:1539-1543 *)
Definition py_decoder_field_181 : stmt :=
  SDef "field_181" [("value", None); ("record", None)]
    [SAssign (EName "d") (ECall (EName "defaultdict") [(EName "def_val")] []);
    SAssign (EItem (EName "d") (EStr "Y")) (EStr "24-Hour Availability");
    SAssign (EItem (EName "d") (EStr "N")) (EStr "Part-time Availability");
    SReturn (Some (EIfExp (ECmp CmpNe (EItem (EName "d") (EName "value")) (EStr "bad value")) (EItem (EName "d") (EName "value")) (EBin OpAdd (EName "value") (EStr "BAD VALUE"))))].

(* src/arinc424/decoder.py:1547-1556 *)
Definition py_decoder_field_182 : stmt :=
  SDef "field_182" [("value", None); ("record", None)]
    [SMatch (EName "value")
      [(PValue (EStr "G"), [SReturn (Some (EStr "Guard (radio receives on this freq)"))]);
      (PValue (EStr "T"), [SReturn (Some (EStr "Transmit (radio transmits on this freq)"))]);
      (PValue (EStr " "), [SReturn (Some (EStr "Guards and Transmits"))]);
      (PWild, [SRaise (ECall (EName "ValueError") [(EStr "bad guard/transmit")] [])])]].

(* src/arinc424/decoder.py:1560-1561 *)
Definition py_decoder_field_183 : stmt :=
  SDef "field_183" [("value", None); ("record", None)]
    [SReturn (Some (EName "value"))].

(* src/arinc424/decoder.py:1565-1566 *)
Definition py_decoder_field_184 : stmt :=
  SDef "field_184" [("value", None); ("record", None)]
    [SReturn (Some (EIfExp (ECall (EAttr (EName "value") "isnumeric") [] []) (EBin OpAdd (ECall (EAttr (EName "value") "lstrip") [(EStr "0")] []) (EStr " ft")) (EName "value")))].

(* src/arinc424/decoder.py:1570-1571 *)
Definition py_decoder_field_185 : stmt :=
  SDef "field_185" [("value", None); ("record", None)]
    [SReturn (Some (EName "value"))].

(* src/arinc424/decoder.py:1575-1576 *)
Definition py_decoder_field_186 : stmt :=
  SDef "field_186" [("value", None); ("record", None)]
    [SReturn (Some (EName "value"))].

(* src/arinc424/decoder.py:1580-1581 *)
Definition py_decoder_field_187 : stmt :=
  SDef "field_187" [("value", None); ("record", None)]
    [SReturn (Some (EName "value"))].

(* src/arinc424/decoder.py:1585-1586 *)
Definition py_decoder_field_188 : stmt :=
  SDef "field_188" [("value", None); ("record", None)]
    [SReturn (Some (EName "value"))].

(* src/arinc424/decoder.py:1590-1591 *)
Definition py_decoder_field_189 : stmt :=
  SDef "field_189" [("value", None); ("record", None)]
    [SReturn (Some (EName "value"))].

(* src/arinc424/decoder.py:1595-1596 *)
Definition py_decoder_field_190 : stmt :=
  SDef "field_190" [("value", None); ("record", None)]
    [SReturn (Some (EName "value"))].

(* src/arinc424/decoder.py:1600-1601 *)
Definition py_decoder_field_191 : stmt :=
  SDef "field_191" [("value", None); ("record", None)]
    [SReturn (Some (EName "value"))].

(* src/arinc424/decoder.py:1605-1606 *)
Definition py_decoder_field_192 : stmt :=
  SDef "field_192" [("value", None); ("record", None)]
    [SReturn (Some (EName "value"))].

(* src/arinc424/decoder.py:1610-1611 *)
Definition py_decoder_field_193 : stmt :=
  SDef "field_193" [("value", None); ("record", None)]
    [SReturn (Some (EName "value"))].

(* src/arinc424/decoder.py:1615-1616 *)
Definition py_decoder_field_194 : stmt :=
  SDef "field_194" [("value", None); ("record", None)]
    [SReturn (Some (EName "value"))].

(* src/arinc424/decoder.py:1620-1621 *)
Definition py_decoder_field_195 : stmt :=
  SDef "field_195" [("value", None); ("record", None)]
    [SReturn (Some (EName "value"))].

(* src/arinc424/decoder.py:1625-1661 *)
Definition py_decoder_field_196 : stmt :=
  SDef "field_196" [("value", None); ("record", None)]
    [SMatch (EItem (EName "value") (EInt 0))
      [(PValue (EStr "A"), [SReturn (Some (EStr "Abeam Fix"))]);
      (PValue (EStr "B"), [SReturn (Some (EStr "Bearing and Distance Fix "))]);
      (PValue (EStr "D"), [SReturn (Some (EStr "Airport Name as Fix"))]);
      (PValue (EStr "F"), [SReturn (Some (EStr "FIR Fix"))]);
      (PValue (EStr "H"), [SReturn (Some (EStr "Phonetic Letter Name Fix"))]);
      (PValue (EStr "I"), [SReturn (Some (EStr "Airport Ident as Fix"))]);
      (PValue (EStr "L"), [SReturn (Some (EStr "Latitude/Longitude Fix "))]);
      (PValue (EStr "M"), [SReturn (Some (EStr "Multiple Word Name Fix"))]);
      (PValue (EStr "N"), [SReturn (Some (EStr "Navaid Ident as Fix"))]);
      (PValue (EStr "P"), [SReturn (Some (EStr "Published Five - Letter - Name - Fix"))]);
      (PValue (EStr "Q"), [SReturn (Some (EStr "Published Name Fix, less than five letters"))]);
      (PValue (EStr "R"), [SReturn (Some (EStr "Published Name Fix, more than five letters"))]);
      (PValue (EStr "T"), [SReturn (Some (EStr "Airport/Rwy Related Fix (Note 2)"))]);
      (PValue (EStr "U"), [SReturn (Some (EStr "UIR Fix"))])];
    SMatch (EItem (EName "value") (EInt 1))
      [(PValue (EStr "O"), [SReturn (Some (EStr "Localizer Marker with officially published five - letter identifier"))]);
      (PValue (EStr "M"), [SReturn (Some (EStr "Localizer Marker without officially published five - letter identifier"))]);
      (PWild, [SReturn (Some (EStr "Unknown Name Format Indicator"))])]].

(* src/arinc424/decoder.py:1665-1666 *)
Definition py_decoder_field_197 : stmt :=
  SDef "field_197" [("value", None); ("record", None)]
    [SReturn (Some (EName "value"))].

(* src/arinc424/decoder.py:1670-1674 *)
Definition py_decoder_field_198 : stmt :=
  SDef "field_198" [("value", None); ("record", None)]
    [SAssign (EName "d") (ECall (EName "defaultdict") [(EName "def_val")] []);
    SAssign (EItem (EName "d") (EStr "A")) (EStr "Amplitude Modulated");
    SAssign (EItem (EName "d") (EStr "F")) (EStr "Frequency Modulated");
    SReturn (Some (EIfExp (ECmp CmpNe (EItem (EName "d") (EName "value")) (EStr "bad value")) (EItem (EName "d") (EName "value")) (EBin OpAdd (EName "value") (EStr "BAD VALUE"))))].

(* src/arinc424/decoder.py:1678-1689 *)
Definition py_decoder_field_199 : stmt :=
  SDef "field_199" [("value", None); ("record", None)]
    [SIf (ECmp CmpEq (ECall (EAttr (EName "value") "strip") [] []) (EStr ""))
      [SReturn (Some (EName "value"))]
      [];
    SAssign (EName "d") (ECall (EName "defaultdict") [(EName "def_val")] []);
    SAssign (EItem (EName "d") (EStr "3")) (EStr "Double Sideband (A3) ");
    SAssign (EItem (EName "d") (EStr "A")) (EStr "Single sideband, reduced carrier (A3A) ");
    SAssign (EItem (EName "d") (EStr "B")) (EStr "Two Independent sidebands (A3B)");
    SAssign (EItem (EName "d") (EStr "H")) (EStr "Single sideband, full carrier (A3H) ");
    SAssign (EItem (EName "d") (EStr "J")) (EStr "Single sideband, suppressed carrier (A3J)");
    SAssign (EItem (EName "d") (EStr "L")) (EStr "Lower (single) sideband, carrier unknown");
    SAssign (EItem (EName "d") (EStr "U")) (EStr "Upper (single) sideband, carrier unknown");
    SReturn (Some (EIfExp (ECmp CmpNe (EItem (EName "d") (EName "value")) (EStr "bad value")) (EItem (EName "d") (EName "value")) (EBin OpAdd (EName "value") (EStr "BAD VALUE"))))].

(* src/arinc424/decoder.py:1693-1694 *)
Definition py_decoder_field_200 : stmt :=
  SDef "field_200" [("value", None); ("record", None)]
    [SReturn (Some (EName "value"))].

(* src/arinc424/decoder.py:1698-1699 *)
Definition py_decoder_field_201 : stmt :=
  SDef "field_201" [("value", None); ("record", None)]
    [SReturn (Some (EName "value"))].

(* src/arinc424/decoder.py:1703-1704 *)
Definition py_decoder_field_202 : stmt :=
  SDef "field_202" [("value", None); ("record", None)]
    [SReturn (Some (EName "value"))].

(* src/arinc424/decoder.py:1708-1709 *)
Definition py_decoder_field_203 : stmt :=
  SDef "field_203" [("value", None); ("record", None)]
    [SReturn (Some (EName "value"))].

(* src/arinc424/decoder.py:1713-1714 *)
Definition py_decoder_field_204 : stmt :=
  SDef "field_204" [("value", None); ("record", None)]
    [SReturn (Some (EName "value"))].

(* src/arinc424/decoder.py:1718-1719 *)
Definition py_decoder_field_205 : stmt :=
  SDef "field_205" [("value", None); ("record", None)]
    [SReturn (Some (EName "value"))].

(* src/arinc424/decoder.py:1723-1724 *)
Definition py_decoder_field_206 : stmt :=
  SDef "field_206" [("value", None); ("record", None)]
    [SReturn (Some (EName "value"))].

(* src/arinc424/decoder.py:1728-1729 *)
Definition py_decoder_field_207 : stmt :=
  SDef "field_207" [("value", None); ("record", None)]
    [SReturn (Some (EName "value"))].

(* src/arinc424/decoder.py:1733-1734 *)
Definition py_decoder_field_208 : stmt :=
  SDef "field_208" [("value", None); ("record", None)]
    [SReturn (Some (EName "value"))].

(* src/arinc424/decoder.py:1738-1739 *)
Definition py_decoder_field_209 : stmt :=
  SDef "field_209" [("value", None); ("record", None)]
    [SReturn (Some (EIfExp (ECall (EAttr (EName "value") "isnumeric") [] []) (EBin OpAdd (ECall (EAttr (EName "value") "lstrip") [(EStr "0")] []) (EStr " ft")) (EName "value")))].

(* src/arinc424/decoder.py:1743-1744 *)
Definition py_decoder_field_210 : stmt :=
  SDef "field_210" [("value", None); ("record", None)]
    [SReturn (Some (EName "value"))].

(* src/arinc424/decoder.py:1748-1749 *)
Definition py_decoder_field_211 : stmt :=
  SDef "field_211" [("value", None); ("record", None)]
    [SReturn (Some (EName "value"))].

(* src/arinc424/decoder.py:1753-1754 *)
Definition py_decoder_field_212 : stmt :=
  SDef "field_212" [("value", None); ("record", None)]
    [SReturn (Some (EName "value"))].

(* src/arinc424/decoder.py:1758-1759 *)
Definition py_decoder_field_213 : stmt :=
  SDef "field_213" [("value", None); ("record", None)]
    [SReturn (Some (EName "value"))].

(* src/arinc424/decoder.py:1763-1764 *)
Definition py_decoder_field_214 : stmt :=
  SDef "field_214" [("value", None); ("record", None)]
    [SReturn (Some (EName "value"))].

(* src/arinc424/decoder.py:1768-1769 *)
Definition py_decoder_field_215 : stmt :=
  SDef "field_215" [("value", None); ("record", None)]
    [SReturn (Some (EName "value"))].

(* src/arinc424/decoder.py:1773-1774 *)
Definition py_decoder_field_216 : stmt :=
  SDef "field_216" [("value", None); ("record", None)]
    [SReturn (Some (EName "value"))].

(* src/arinc424/decoder.py:1778-1779 *)
Definition py_decoder_field_217 : stmt :=
  SDef "field_217" [("value", None); ("record", None)]
    [SReturn (Some (EName "value"))].

(* src/arinc424/decoder.py:1783-1784 *)
Definition py_decoder_field_218 : stmt :=
  SDef "field_218" [("value", None); ("record", None)]
    [SReturn (Some (EName "value"))].

(* src/arinc424/decoder.py:1788-1789 *)
Definition py_decoder_field_219 : stmt :=
  SDef "field_219" [("value", None); ("record", None)]
    [SReturn (Some (EName "value"))].

(* src/arinc424/decoder.py:1793-1794 *)
Definition py_decoder_field_220 : stmt :=
  SDef "field_220" [("value", None); ("record", None)]
    [SReturn (Some (EName "value"))].

(* src/arinc424/decoder.py:1798-1799 *)
Definition py_decoder_field_221 : stmt :=
  SDef "field_221" [("value", None); ("record", None)]
    [SReturn (Some (EName "value"))].

(* src/arinc424/decoder.py:1803-1804 *)
Definition py_decoder_field_222 : stmt :=
  SDef "field_222" [("value", None); ("record", None)]
    [SReturn (Some (EName "value"))].

(* src/arinc424/decoder.py:1808-1809 *)
Definition py_decoder_field_223 : stmt :=
  SDef "field_223" [("value", None); ("record", None)]
    [SReturn (Some (EName "value"))].

(* src/arinc424/decoder.py:1813-1814 *)
Definition py_decoder_field_224 : stmt :=
  SDef "field_224" [("value", None); ("record", None)]
    [SReturn (Some (EName "value"))].

(* src/arinc424/decoder.py:1818-1819 *)
Definition py_decoder_field_225 : stmt :=
  SDef "field_225" [("value", None); ("record", None)]
    [SReturn (Some (EName "value"))].

(* src/arinc424/decoder.py:1823-1824 *)
Definition py_decoder_field_226 : stmt :=
  SDef "field_226" [("value", None); ("record", None)]
    [SReturn (Some (EName "value"))].

(* src/arinc424/decoder.py:1828-1829 *)
Definition py_decoder_field_227 : stmt :=
  SDef "field_227" [("value", None); ("record", None)]
    [SReturn (Some (EName "value"))].

(* src/arinc424/decoder.py:1833-1834 *)
Definition py_decoder_field_228 : stmt :=
  SDef "field_228" [("value", None); ("record", None)]
    [SReturn (Some (EName "value"))].

(* src/arinc424/decoder.py:1838-1839 *)
Definition py_decoder_field_229 : stmt :=
  SDef "field_229" [("value", None); ("record", None)]
    [SReturn (Some (EName "value"))].

(* src/arinc424/decoder.py:1843-1844 *)
Definition py_decoder_field_230 : stmt :=
  SDef "field_230" [("value", None); ("record", None)]
    [SReturn (Some (EName "value"))].

(* src/arinc424/decoder.py:1848-1849 *)
Definition py_decoder_field_231 : stmt :=
  SDef "field_231" [("value", None); ("record", None)]
    [SReturn (Some (EName "value"))].

(* src/arinc424/decoder.py:1853-1854 *)
Definition py_decoder_field_232 : stmt :=
  SDef "field_232" [("value", None); ("record", None)]
    [SReturn (Some (EName "value"))].

(* src/arinc424/decoder.py:1858-1859 *)
Definition py_decoder_field_233 : stmt :=
  SDef "field_233" [("value", None); ("record", None)]
    [SReturn (Some (EName "value"))].

(* src/arinc424/decoder.py:1863-1864 *)
Definition py_decoder_field_234 : stmt :=
  SDef "field_234" [("value", None); ("record", None)]
    [SReturn (Some (EName "value"))].

(* src/arinc424/decoder.py:1868-1869 *)
Definition py_decoder_field_235 : stmt :=
  SDef "field_235" [("value", None); ("record", None)]
    [SReturn (Some (EName "value"))].

(* src/arinc424/decoder.py:1873-1874 *)
Definition py_decoder_field_236 : stmt :=
  SDef "field_236" [("value", None); ("record", None)]
    [SReturn (Some (EName "value"))].

(* src/arinc424/decoder.py:1878-1879 *)
Definition py_decoder_field_237 : stmt :=
  SDef "field_237" [("value", None); ("record", None)]
    [SReturn (Some (EName "value"))].

(* src/arinc424/decoder.py:1883-1884 *)
Definition py_decoder_field_238 : stmt :=
  SDef "field_238" [("value", None); ("record", None)]
    [SReturn (Some (EName "value"))].

(* src/arinc424/decoder.py:1888-1889 *)
Definition py_decoder_field_239 : stmt :=
  SDef "field_239" [("value", None); ("record", None)]
    [SReturn (Some (EName "value"))].

(* src/arinc424/decoder.py:1893-1894 *)
Definition py_decoder_field_240 : stmt :=
  SDef "field_240" [("value", None); ("record", None)]
    [SReturn (Some (EIfExp (ECall (EAttr (EName "value") "isnumeric") [] []) (EBin OpAdd (ECall (EAttr (EName "value") "lstrip") [(EStr "0")] []) (EStr " ft")) (EName "value")))].

(* src/arinc424/decoder.py:1898-1899 *)
Definition py_decoder_field_241 : stmt :=
  SDef "field_241" [("value", None); ("record", None)]
    [SReturn (Some (EName "value"))].

(* src/arinc424/decoder.py:1903-1904 *)
Definition py_decoder_field_242 : stmt :=
  SDef "field_242" [("value", None); ("record", None)]
    [SReturn (Some (EName "value"))].

(* src/arinc424/decoder.py:1908-1909 *)
Definition py_decoder_field_243 : stmt :=
  SDef "field_243" [("value", None); ("record", None)]
    [SReturn (Some (EName "value"))].

(* src/arinc424/decoder.py:1913-1914 *)
Definition py_decoder_field_244 : stmt :=
  SDef "field_244" [("value", None); ("record", None)]
    [SReturn (Some (EName "value"))].

(* src/arinc424/decoder.py:1918-1919 *)
Definition py_decoder_field_245 : stmt :=
  SDef "field_245" [("value", None); ("record", None)]
    [SReturn (Some (EName "value"))].

(* src/arinc424/decoder.py:1923-1924 *)
Definition py_decoder_field_246 : stmt :=
  SDef "field_246" [("value", None); ("record", None)]
    [SReturn (Some (EName "value"))].

(* src/arinc424/decoder.py:1928-1929 *)
Definition py_decoder_field_247 : stmt :=
  SDef "field_247" [("value", None); ("record", None)]
    [SReturn (Some (EName "value"))].

(* src/arinc424/decoder.py:1933-1934 *)
Definition py_decoder_field_248 : stmt :=
  SDef "field_248" [("value", None); ("record", None)]
    [SReturn (Some (EName "value"))].

(* src/arinc424/decoder.py:1938-1939 *)
Definition py_decoder_field_249 : stmt :=
  SDef "field_249" [("value", None); ("record", None)]
    [SReturn (Some (EName "value"))].

(* src/arinc424/decoder.py:1943-1944 *)
Definition py_decoder_field_250 : stmt :=
  SDef "field_250" [("value", None); ("record", None)]
    [SReturn (Some (EName "value"))].

(* src/arinc424/decoder.py:1948-1949 *)
Definition py_decoder_field_251 : stmt :=
  SDef "field_251" [("value", None); ("record", None)]
    [SReturn (Some (EName "value"))].

(* src/arinc424/decoder.py:1953-1954 *)
Definition py_decoder_field_252 : stmt :=
  SDef "field_252" [("value", None); ("record", None)]
    [SReturn (Some (EName "value"))].

(* src/arinc424/decoder.py:1958-1959 *)
Definition py_decoder_field_253 : stmt :=
  SDef "field_253" [("value", None); ("record", None)]
    [SReturn (Some (EName "value"))].

(* src/arinc424/decoder.py:1963-1964 *)
Definition py_decoder_field_254 : stmt :=
  SDef "field_254" [("value", None); ("record", None)]
    [SReturn (Some (EName "value"))].

(* src/arinc424/decoder.py:1968-1969 *)
Definition py_decoder_field_255 : stmt :=
  SDef "field_255" [("value", None); ("record", None)]
    [SReturn (Some (EName "value"))].

(* src/arinc424/decoder.py:1973-1974 *)
Definition py_decoder_field_256 : stmt :=
  SDef "field_256" [("value", None); ("record", None)]
    [SReturn (Some (EName "value"))].

(* src/arinc424/decoder.py:1978-1979 *)
Definition py_decoder_field_257 : stmt :=
  SDef "field_257" [("value", None); ("record", None)]
    [SReturn (Some (EName "value"))].

(* src/arinc424/decoder.py:1983-1984 *)
Definition py_decoder_field_258 : stmt :=
  SDef "field_258" [("value", None); ("record", None)]
    [SReturn (Some (EName "value"))].

(* src/arinc424/decoder.py:1988-1989 *)
Definition py_decoder_field_259 : stmt :=
  SDef "field_259" [("value", None); ("record", None)]
    [SReturn (Some (EName "value"))].

(* src/arinc424/decoder.py:1993-1994 *)
Definition py_decoder_field_260 : stmt :=
  SDef "field_260" [("value", None); ("record", None)]
    [SReturn (Some (EName "value"))].

(* src/arinc424/decoder.py:1998-1999 *)
Definition py_decoder_field_261 : stmt :=
  SDef "field_261" [("value", None); ("record", None)]
    [SReturn (Some (EName "value"))].

(* src/arinc424/decoder.py:2003-2004 *)
Definition py_decoder_field_262 : stmt :=
  SDef "field_262" [("value", None); ("record", None)]
    [SReturn (Some (EName "value"))].

(* src/arinc424/decoder.py:2008-2009 *)
Definition py_decoder_field_263 : stmt :=
  SDef "field_263" [("value", None); ("record", None)]
    [SReturn (Some (EName "value"))].

(* src/arinc424/decoder.py:2013-2014 *)
Definition py_decoder_field_264 : stmt :=
  SDef "field_264" [("value", None); ("record", None)]
    [SReturn (Some (EName "value"))].

(* src/arinc424/decoder.py:2018-2019 *)
Definition py_decoder_field_265 : stmt :=
  SDef "field_265" [("value", None); ("record", None)]
    [SReturn (Some (EName "value"))].

(* src/arinc424/decoder.py:2023-2024 *)
Definition py_decoder_field_266 : stmt :=
  SDef "field_266" [("value", None); ("record", None)]
    [SReturn (Some (EName "value"))].

(* src/arinc424/decoder.py:2028-2029 *)
Definition py_decoder_field_267 : stmt :=
  SDef "field_267" [("value", None); ("record", None)]
    [SReturn (Some (EName "value"))].

(* src/arinc424/decoder.py:2033-2034 *)
Definition py_decoder_field_268 : stmt :=
  SDef "field_268" [("value", None); ("record", None)]
    [SReturn (Some (EName "value"))].

(* src/arinc424/decoder.py:2038-2041 *)
Definition py_decoder_field_269 : stmt :=
  SDef "field_269" [("value", None); ("record", None)]
    [SIf (ECmp CmpNe (ECall (EAttr (EName "value") "strip") [] []) (EStr ""))
      [SReturn (Some (EBin OpDiv (ECall (EName "float") [(EName "value")] []) (EInt 10)))]
      [];
    SReturn (Some (EName "value"))].

(* src/arinc424/decoder.py:2045-2058 *)
Definition py_decoder_field_270 : stmt :=
  SDef "field_270" [("value", None); ("record", None)]
    [SMatch (EName "value")
      [(PValue (EStr "I"), [SReturn (Some (EStr "ILS or MLS Glideslope"))]);
      (PValue (EStr "R"), [SReturn (Some (EStr "RNAV Procedure"))]);
      (PValue (EStr "V"), [SReturn (Some (EStr "Visual Glideslope Indicator (VGSI)"))]);
      (PValue (EStr "D"), [SReturn (Some (EStr "Default Value (40 or 50 feet)"))]);
      (PValue (EStr " "), [SReturn (Some (EName "value"))]);
      (PWild, [SRaise (ECall (EName "ValueError") [(EFString [(EStr "Bad TCH Value Indicator: "); (EName "value")])] [])])]].

(* src/arinc424/decoder.py:2062-2063 *)
Definition py_decoder_field_271 : stmt :=
  SDef "field_271" [("value", None); ("record", None)]
    [SReturn (Some (EName "value"))].

(* src/arinc424/decoder.py:2067-2068 *)
Definition py_decoder_field_272 : stmt :=
  SDef "field_272" [("value", None); ("record", None)]
    [SReturn (Some (EName "value"))].

(* src/arinc424/decoder.py:2072-2073 *)
Definition py_decoder_field_273 : stmt :=
  SDef "field_273" [("value", None); ("record", None)]
    [SReturn (Some (EName "value"))].

(* src/arinc424/decoder.py:2077-2078 *)
Definition py_decoder_field_274 : stmt :=
  SDef "field_274" [("value", None); ("record", None)]
    [SReturn (Some (EName "value"))].

(* src/arinc424/decoder.py:2082-2083 *)
Definition py_decoder_field_275 : stmt :=
  SDef "field_275" [("value", None); ("record", None)]
    [SReturn (Some (EName "value"))].

(* src/arinc424/decoder.py:2087-2088 *)
Definition py_decoder_field_276 : stmt :=
  SDef "field_276" [("value", None); ("record", None)]
    [SReturn (Some (EName "value"))].

(* src/arinc424/decoder.py *)
Definition py_decoder : pymodule := [
  SFrom "collections" "defaultdict" "defaultdict";
  SImport "io" "io";
  SImport "string" "string";
  py_decoder_Field;
  py_decoder_def_val;
  py_decoder_field_002;
  py_decoder_field_003;
  py_decoder_field_004;
  py_decoder_field_006;
  py_decoder_field_007;
  py_decoder_field_008;
  py_decoder_field_009;
  py_decoder_field_010;
  py_decoder_field_011;
  py_decoder_field_012;
  py_decoder_field_013;
  py_decoder_field_014;
  py_decoder_field_016;
  py_decoder_field_017;
  py_decoder_field_018;
  py_decoder_field_019;
  py_decoder_field_020;
  SAssign (EName "LegTypeDesc") (ECall (EName "defaultdict") [(EName "def_val")] []);
  SAssign (EItem (EName "LegTypeDesc") (EStr "IF")) (EStr "Initial Fix or IF Leg.");
  SAssign (EItem (EName "LegTypeDesc") (EStr "TF")) (EStr "Track to a Fix or TF Leg.");
  SAssign (EItem (EName "LegTypeDesc") (EStr "CF")) (EStr "Course to a Fix or CF Leg.");
  SAssign (EItem (EName "LegTypeDesc") (EStr "DF")) (EStr "Direct to a Fix or DF Leg.");
  SAssign (EItem (EName "LegTypeDesc") (EStr "FA")) (EStr "Fix to an Altitude or FA Leg.");
  SAssign (EItem (EName "LegTypeDesc") (EStr "FC")) (EStr "Track from a Fix for a Distance or FC Leg.");
  SAssign (EItem (EName "LegTypeDesc") (EStr "FD")) (EStr "Track from a Fix to a DME Distance or FD Leg.");
  SAssign (EItem (EName "LegTypeDesc") (EStr "FM")) (EStr "From a Fix to a Manual termination or FM Leg.");
  SAssign (EItem (EName "LegTypeDesc") (EStr "CA")) (EStr "Course to an Altitude or CA Leg.");
  SAssign (EItem (EName "LegTypeDesc") (EStr "CD")) (EStr "Course to a DME Distance or CD Leg.");
  SAssign (EItem (EName "LegTypeDesc") (EStr "CI")) (EStr "Course to an Intercept or CI Leg.");
  SAssign (EItem (EName "LegTypeDesc") (EStr "CR")) (EStr "Course to a Radial termination or CR Leg.");
  SAssign (EItem (EName "LegTypeDesc") (EStr "RF")) (EStr "Constant Radius Arc or RF Leg.");
  SAssign (EItem (EName "LegTypeDesc") (EStr "AF")) (EStr "Arc to a Fix or AF Leg.");
  SAssign (EItem (EName "LegTypeDesc") (EStr "VA")) (EStr "Heading to an Altitude termination or VA Leg.");
  SAssign (EItem (EName "LegTypeDesc") (EStr "VD")) (EStr "Heading to a DME Distance termination or VD Leg.");
  SAssign (EItem (EName "LegTypeDesc") (EStr "VI")) (EStr "Heading to an Intercept or VI Leg.");
  SAssign (EItem (EName "LegTypeDesc") (EStr "VM")) (EStr "Heading to a Manual termination or VM Leg.");
  SAssign (EItem (EName "LegTypeDesc") (EStr "VR")) (EStr "Heading to a Radial termination or VR Leg.");
  SAssign (EItem (EName "LegTypeDesc") (EStr "PI")) (EStr "045/180 Procedure Turn or PI Leg.");
  SAssign (EItem (EName "LegTypeDesc") (EStr "HA")) (EStr "Holding pattern (Altitude Termination)");
  SAssign (EItem (EName "LegTypeDesc") (EStr "HF")) (EStr "Holding pattern (Single circuit terminating at the fix)");
  SAssign (EItem (EName "LegTypeDesc") (EStr "HM")) (EStr "Holding pattern (Manual Termination)");
  py_decoder_field_021;
  py_decoder_field_022;
  py_decoder_field_023;
  py_decoder_field_024;
  py_decoder_field_025;
  py_decoder_field_026;
  py_decoder_field_027;
  py_decoder_field_028;
  py_decoder_field_029;
  py_decoder_field_030;
  py_decoder_field_031;
  py_decoder_field_032;
  py_decoder_field_033;
  py_decoder_field_034;
  py_decoder_field_035;
  py_decoder_field_036;
  py_decoder_field_037;
  py_decoder_field_038;
  py_decoder_field_039;
  py_decoder_field_040;
  py_decoder_field_041;
  py_decoder_field_042;
  py_decoder_field_043;
  py_decoder_field_044;
  py_decoder_field_045;
  py_decoder_field_046;
  py_decoder_field_047;
  py_decoder_field_048;
  py_decoder_field_049;
  py_decoder_field_050;
  py_decoder_field_051;
  py_decoder_field_052;
  py_decoder_field_053;
  py_decoder_field_054;
  py_decoder_field_055;
  py_decoder_field_056;
  py_decoder_field_057;
  py_decoder_field_058;
  py_decoder_field_059;
  py_decoder_field_060;
  py_decoder_field_061;
  py_decoder_field_062;
  py_decoder_field_063;
  py_decoder_field_064;
  py_decoder_field_065;
  py_decoder_field_066;
  py_decoder_field_067;
  py_decoder_field_068;
  py_decoder_field_069;
  py_decoder_field_070;
  py_decoder_field_071;
  py_decoder_field_072;
  py_decoder_field_073;
  py_decoder_field_074;
  py_decoder_field_075;
  py_decoder_field_076;
  py_decoder_field_077;
  py_decoder_field_078;
  py_decoder_field_079;
  py_decoder_field_080;
  py_decoder_field_081;
  py_decoder_field_082;
  py_decoder_field_083;
  py_decoder_field_084;
  py_decoder_field_085;
  py_decoder_field_086;
  py_decoder_field_087;
  py_decoder_field_088;
  py_decoder_field_089;
  py_decoder_field_090;
  py_decoder_field_091;
  py_decoder_field_092;
  py_decoder_field_093;
  py_decoder_field_094;
  py_decoder_field_095;
  py_decoder_field_096;
  py_decoder_field_097;
  py_decoder_field_098;
  py_decoder_field_099;
  py_decoder_field_100;
  py_decoder_field_101;
  py_decoder_field_102;
  py_decoder_field_103;
  py_decoder_field_104;
  py_decoder_field_105;
  py_decoder_field_106;
  py_decoder_field_107;
  py_decoder_field_108;
  py_decoder_field_109;
  py_decoder_field_110;
  py_decoder_field_111;
  py_decoder_field_112;
  py_decoder_field_113;
  py_decoder_field_114;
  py_decoder_field_115;
  py_decoder_field_116;
  py_decoder_field_117;
  py_decoder_field_118;
  py_decoder_field_119;
  py_decoder_field_120;
  py_decoder_field_121;
  py_decoder_field_122;
  py_decoder_field_123;
  py_decoder_field_124;
  py_decoder_field_125;
  py_decoder_field_126;
  py_decoder_field_127;
  py_decoder_field_128;
  py_decoder_field_129;
  py_decoder_field_130;
  py_decoder_field_131;
  py_decoder_field_132;
  py_decoder_field_133;
  py_decoder_field_134;
  py_decoder_field_135;
  py_decoder_field_136;
  py_decoder_field_137;
  py_decoder_field_138;
  py_decoder_field_139;
  py_decoder_field_140;
  py_decoder_field_141;
  py_decoder_field_142;
  py_decoder_field_143;
  py_decoder_field_144;
  py_decoder_field_145;
  py_decoder_field_146;
  py_decoder_field_147;
  py_decoder_field_148;
  py_decoder_field_149;
  py_decoder_field_150;
  py_decoder_field_151;
  py_decoder_field_152;
  py_decoder_field_153;
  py_decoder_field_154;
  py_decoder_field_155;
  py_decoder_field_156;
  py_decoder_field_157;
  py_decoder_field_158;
  py_decoder_field_159;
  py_decoder_field_160;
  py_decoder_field_161;
  py_decoder_field_162;
  py_decoder_field_163;
  py_decoder_field_164;
  py_decoder_field_165;
  py_decoder_field_166;
  py_decoder_field_167;
  py_decoder_field_168;
  py_decoder_field_169;
  py_decoder_field_170;
  py_decoder_field_171;
  py_decoder_field_172;
  py_decoder_field_173;
  py_decoder_field_174;
  py_decoder_field_175;
  py_decoder_field_176;
  py_decoder_field_177;
  py_decoder_field_178;
  py_decoder_field_179;
  py_decoder_field_180;
  py_decoder_field_181;
  py_decoder_field_182;
  py_decoder_field_183;
  py_decoder_field_184;
  py_decoder_field_185;
  py_decoder_field_186;
  py_decoder_field_187;
  py_decoder_field_188;
  py_decoder_field_189;
  py_decoder_field_190;
  py_decoder_field_191;
  py_decoder_field_192;
  py_decoder_field_193;
  py_decoder_field_194;
  py_decoder_field_195;
  py_decoder_field_196;
  py_decoder_field_197;
  py_decoder_field_198;
  py_decoder_field_199;
  py_decoder_field_200;
  py_decoder_field_201;
  py_decoder_field_202;
  py_decoder_field_203;
  py_decoder_field_204;
  py_decoder_field_205;
  py_decoder_field_206;
  py_decoder_field_207;
  py_decoder_field_208;
  py_decoder_field_209;
  py_decoder_field_210;
  py_decoder_field_211;
  py_decoder_field_212;
  py_decoder_field_213;
  py_decoder_field_214;
  py_decoder_field_215;
  py_decoder_field_216;
  py_decoder_field_217;
  py_decoder_field_218;
  py_decoder_field_219;
  py_decoder_field_220;
  py_decoder_field_221;
  py_decoder_field_222;
  py_decoder_field_223;
  py_decoder_field_224;
  py_decoder_field_225;
  py_decoder_field_226;
  py_decoder_field_227;
  py_decoder_field_228;
  py_decoder_field_229;
  py_decoder_field_230;
  py_decoder_field_231;
  py_decoder_field_232;
  py_decoder_field_233;
  py_decoder_field_234;
  py_decoder_field_235;
  py_decoder_field_236;
  py_decoder_field_237;
  py_decoder_field_238;
  py_decoder_field_239;
  py_decoder_field_240;
  py_decoder_field_241;
  py_decoder_field_242;
  py_decoder_field_243;
  py_decoder_field_244;
  py_decoder_field_245;
  py_decoder_field_246;
  py_decoder_field_247;
  py_decoder_field_248;
  py_decoder_field_249;
  py_decoder_field_250;
  py_decoder_field_251;
  py_decoder_field_252;
  py_decoder_field_253;
  py_decoder_field_254;
  py_decoder_field_255;
  py_decoder_field_256;
  py_decoder_field_257;
  py_decoder_field_258;
  py_decoder_field_259;
  py_decoder_field_260;
  py_decoder_field_261;
  py_decoder_field_262;
  py_decoder_field_263;
  py_decoder_field_264;
  py_decoder_field_265;
  py_decoder_field_266;
  py_decoder_field_267;
  py_decoder_field_268;
  py_decoder_field_269;
  py_decoder_field_270;
  py_decoder_field_271;
  py_decoder_field_272;
  py_decoder_field_273;
  py_decoder_field_274;
  py_decoder_field_275;
  py_decoder_field_276].
