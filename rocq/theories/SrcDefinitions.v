(* GENERATED by tools/pyast.py from /repo/src/arinc424/definitions/*.py: its abstract syntax tree. *)
From Coq Require Import List String ZArith.
From Verif Require Import PySyntax.
Import ListNotations.
Local Open Scope string_scope.
Local Open Scope Z_scope.

(* src/arinc424/definitions/Airport.py:6-148 *)
Definition py_Airport_Airport : stmt :=
  SClass "Airport"
    [SAssign (EName "cont_idx") (EInt 21);
    SAssign (EName "app_idx") (EInt 22);
    SAssign (EName "continuations") (EList [(EStr "A"); (EStr "P"); (EStr "Q")]);
    SAssign (EName "name") (EStr "Airport");
    SDef "application_type" [("self", None); ("line", None)]
      [SReturn (Some (EItem (EName "line") (EAttr (EName "self") "app_idx")))];
    SDef "read" [("self", None); ("line", None); ("primary", None)]
      [SIf (EName "primary")
        [SReturn (Some (ECall (EAttr (EName "self") "read_primary") [(EName "line")] []))]
        [];
      SAssign (EName "application") (EItem (EName "line") (EAttr (EName "self") "app_idx"));
      SMatch (EName "application")
        [(PValue (EStr "A"), [SReturn (Some (ECall (EAttr (EName "self") "read_cont") [(EName "line")] []))]);
        (PValue (EStr "P"), [SReturn (Some (ECall (EAttr (EName "self") "read_flight0") [(EName "line")] []))]);
        (PValue (EStr "Q"), [SReturn (Some (ECall (EAttr (EName "self") "read_flight1") [(EName "line")] []))]);
        (PWild, [SReturn (Some (EList []))])]];
    SDef "read_primary" [("self", None); ("r", None)]
      [SReturn (Some (EList [(ECall (EName "Field") [(EStr "Record Type"); (EItem (EName "r") (EInt 0)); (EAttr (EName "decoder") "field_002")] []); (ECall (EName "Field") [(EStr "Customer / Area Code"); (ESlice (EName "r") (Some (EInt 1)) (Some (EInt 4))); (EAttr (EName "decoder") "field_003")] []); (ECall (EName "Field") [(EStr "Section Code"); (EBin OpAdd (EItem (EName "r") (EInt 4)) (EItem (EName "r") (EInt 12))); (EAttr (EName "decoder") "field_004")] []); (ECall (EName "Field") [(EStr "Airport ICAO Identifier"); (ESlice (EName "r") (Some (EInt 6)) (Some (EInt 10))); (EAttr (EName "decoder") "field_006")] []); (ECall (EName "Field") [(EStr "ICAO Code"); (ESlice (EName "r") (Some (EInt 10)) (Some (EInt 12))); (EAttr (EName "decoder") "field_014")] []); (ECall (EName "Field") [(EStr "ATA/IATA Designator"); (ESlice (EName "r") (Some (EInt 13)) (Some (EInt 16))); (EAttr (EName "decoder") "field_107")] []); (ECall (EName "Field") [(EStr "Continuation Record No"); (EItem (EName "r") (EInt 21)); (EAttr (EName "decoder") "field_016")] []); (ECall (EName "Field") [(EStr "Speed Limit Altitude"); (ESlice (EName "r") (Some (EInt 22)) (Some (EInt 27))); (EAttr (EName "decoder") "field_073")] []); (ECall (EName "Field") [(EStr "Longest Runway"); (ESlice (EName "r") (Some (EInt 27)) (Some (EInt 30))); (EAttr (EName "decoder") "field_054")] []); (ECall (EName "Field") [(EStr "IFR Capability"); (EItem (EName "r") (EInt 30)); (EAttr (EName "decoder") "field_108")] []); (ECall (EName "Field") [(EStr "Longest Runway Surface Code"); (EItem (EName "r") (EInt 31)); (EAttr (EName "decoder") "field_249")] []); (ECall (EName "Field") [(EStr "Airport Reference Pt. Latitude"); (ESlice (EName "r") (Some (EInt 32)) (Some (EInt 41))); (EAttr (EName "decoder") "field_036")] []); (ECall (EName "Field") [(EStr "Airport Reference Pt. Longitude"); (ESlice (EName "r") (Some (EInt 41)) (Some (EInt 51))); (EAttr (EName "decoder") "field_037")] []); (ECall (EName "Field") [(EStr "Magnetic Variation"); (ESlice (EName "r") (Some (EInt 51)) (Some (EInt 56))); (EAttr (EName "decoder") "field_039")] []); (ECall (EName "Field") [(EStr "Airport Elevation"); (ESlice (EName "r") (Some (EInt 56)) (Some (EInt 61))); (EAttr (EName "decoder") "field_055")] []); (ECall (EName "Field") [(EStr "Speed Limit"); (ESlice (EName "r") (Some (EInt 61)) (Some (EInt 64))); (EAttr (EName "decoder") "field_072")] []); (ECall (EName "Field") [(EStr "Recommended Navaid"); (ESlice (EName "r") (Some (EInt 64)) (Some (EInt 68))); (EAttr (EName "decoder") "field_023")] []); (ECall (EName "Field") [(EStr "ICAO Code (2)"); (ESlice (EName "r") (Some (EInt 68)) (Some (EInt 70))); (EAttr (EName "decoder") "field_014")] []); (ECall (EName "Field") [(EStr "Transition Altitude"); (ESlice (EName "r") (Some (EInt 70)) (Some (EInt 75))); (EAttr (EName "decoder") "field_053")] []); (ECall (EName "Field") [(EStr "Transition Level"); (ESlice (EName "r") (Some (EInt 75)) (Some (EInt 80))); (EAttr (EName "decoder") "field_053")] []); (ECall (EName "Field") [(EStr "Public Military Indicator"); (EItem (EName "r") (EInt 80)); (EAttr (EName "decoder") "field_177")] []); (ECall (EName "Field") [(EStr "Time Zone"); (ESlice (EName "r") (Some (EInt 81)) (Some (EInt 84))); (EAttr (EName "decoder") "field_178")] []); (ECall (EName "Field") [(EStr "Daylight Indicator"); (EItem (EName "r") (EInt 84)); (EAttr (EName "decoder") "field_179")] []); (ECall (EName "Field") [(EStr "Magnetic/True Indicator"); (EItem (EName "r") (EInt 85)); (EAttr (EName "decoder") "field_165")] []); (ECall (EName "Field") [(EStr "Datum Code"); (ESlice (EName "r") (Some (EInt 86)) (Some (EInt 89))); (EAttr (EName "decoder") "field_197")] []); (ECall (EName "Field") [(EStr "Airport Name"); (ESlice (EName "r") (Some (EInt 93)) (Some (EInt 123))); (EAttr (EName "decoder") "field_071")] []); (ECall (EName "Field") [(EStr "File Record No"); (ESlice (EName "r") (Some (EInt 123)) (Some (EInt 128))); (EAttr (EName "decoder") "field_031")] []); (ECall (EName "Field") [(EStr "Cycle Date"); (ESlice (EName "r") (Some (EInt 128)) (Some (EInt 132))); (EAttr (EName "decoder") "field_032")] [])]))];
    SDef "read_cont" [("self", None); ("r", None)]
      [SReturn (Some (EList [(ECall (EName "Field") [(EStr "Record Type"); (EItem (EName "r") (EInt 0)); (EAttr (EName "decoder") "field_002")] []); (ECall (EName "Field") [(EStr "Customer / Area Code"); (ESlice (EName "r") (Some (EInt 1)) (Some (EInt 4))); (EAttr (EName "decoder") "field_003")] []); (ECall (EName "Field") [(EStr "Section Code"); (EBin OpAdd (EItem (EName "r") (EInt 4)) (EItem (EName "r") (EInt 12))); (EAttr (EName "decoder") "field_004")] []); (ECall (EName "Field") [(EStr "Airport ICAO Identifier"); (ESlice (EName "r") (Some (EInt 6)) (Some (EInt 10))); (EAttr (EName "decoder") "field_006")] []); (ECall (EName "Field") [(EStr "ICAO Code"); (ESlice (EName "r") (Some (EInt 10)) (Some (EInt 12))); (EAttr (EName "decoder") "field_014")] []); (ECall (EName "Field") [(EStr "ATA/IATA Designator"); (ESlice (EName "r") (Some (EInt 13)) (Some (EInt 16))); (EAttr (EName "decoder") "field_107")] []); (ECall (EName "Field") [(EStr "Continuation Record No"); (EItem (EName "r") (EInt 21)); (EAttr (EName "decoder") "field_016")] []); (ECall (EName "Field") [(EStr "Application Type"); (EItem (EName "r") (EInt 22)); (EAttr (EName "decoder") "field_091")] []); (ECall (EName "Field") [(EStr "Notes"); (ESlice (EName "r") (Some (EInt 23)) (Some (EInt 92))); (EAttr (EName "decoder") "field_061")] []); (ECall (EName "Field") [(EStr "File Record No"); (ESlice (EName "r") (Some (EInt 123)) (Some (EInt 128))); (EAttr (EName "decoder") "field_031")] []); (ECall (EName "Field") [(EStr "Cycle Date"); (ESlice (EName "r") (Some (EInt 128)) (Some (EInt 132))); (EAttr (EName "decoder") "field_032")] [])]))];
    SDef "read_flight0" [("self", None); ("r", None)]
      [SReturn (Some (EList [(ECall (EName "Field") [(EStr "Record Type"); (EItem (EName "r") (EInt 0)); (EAttr (EName "decoder") "field_002")] []); (ECall (EName "Field") [(EStr "Customer / Area Code"); (ESlice (EName "r") (Some (EInt 1)) (Some (EInt 4))); (EAttr (EName "decoder") "field_003")] []); (ECall (EName "Field") [(EStr "Section Code"); (EBin OpAdd (EItem (EName "r") (EInt 4)) (EItem (EName "r") (EInt 12))); (EAttr (EName "decoder") "field_004")] []); (ECall (EName "Field") [(EStr "Heliport Identifier"); (ESlice (EName "r") (Some (EInt 6)) (Some (EInt 10))); (EAttr (EName "decoder") "field_006")] []); (ECall (EName "Field") [(EStr "ICAO Code"); (ESlice (EName "r") (Some (EInt 10)) (Some (EInt 12))); (EAttr (EName "decoder") "field_014")] []); (ECall (EName "Field") [(EStr "ATA/IATA Designator"); (ESlice (EName "r") (Some (EInt 13)) (Some (EInt 16))); (EAttr (EName "decoder") "field_107")] []); (ECall (EName "Field") [(EStr "Continuation Record No"); (EItem (EName "r") (EInt 21)); (EAttr (EName "decoder") "field_016")] []); (ECall (EName "Field") [(EStr "Application Type"); (EItem (EName "r") (EInt 22)); (EAttr (EName "decoder") "field_091")] []); (ECall (EName "Field") [(EStr "FIR Identifier"); (ESlice (EName "r") (Some (EInt 23)) (Some (EInt 27))); (EAttr (EName "decoder") "field_116")] []); (ECall (EName "Field") [(EStr "UIR Identifier"); (ESlice (EName "r") (Some (EInt 27)) (Some (EInt 31))); (EAttr (EName "decoder") "field_116")] []); (ECall (EName "Field") [(EStr "Start/End Indicator"); (EItem (EName "r") (EInt 31)); (EAttr (EName "decoder") "field_152")] []); (ECall (EName "Field") [(EStr "Start/End Date/Time"); (ESlice (EName "r") (Some (EInt 32)) (Some (EInt 43))); (EAttr (EName "decoder") "field_153")] []); (ECall (EName "Field") [(EStr "Controlled A/S Indicator"); (EItem (EName "r") (EInt 66)); (EAttr (EName "decoder") "field_217")] []); (ECall (EName "Field") [(EStr "Controlled A/S Airport Ident"); (ESlice (EName "r") (Some (EInt 67)) (Some (EInt 71))); (EAttr (EName "decoder") "field_006")] []); (ECall (EName "Field") [(EStr "Controlled A/S Airport ICAO"); (ESlice (EName "r") (Some (EInt 71)) (Some (EInt 73))); (EAttr (EName "decoder") "field_014")] []); (ECall (EName "Field") [(EStr "File Record No"); (ESlice (EName "r") (Some (EInt 123)) (Some (EInt 128))); (EAttr (EName "decoder") "field_031")] []); (ECall (EName "Field") [(EStr "Cycle Date"); (ESlice (EName "r") (Some (EInt 128)) (Some (EInt 132))); (EAttr (EName "decoder") "field_032")] [])]))];
    SDef "read_flight1" [("self", None); ("r", None)]
      [SReturn (Some (EList [(ECall (EName "Field") [(EStr "Record Type"); (EItem (EName "r") (EInt 0)); (EAttr (EName "decoder") "field_002")] []); (ECall (EName "Field") [(EStr "Customer / Area Code"); (ESlice (EName "r") (Some (EInt 1)) (Some (EInt 4))); (EAttr (EName "decoder") "field_003")] []); (ECall (EName "Field") [(EStr "Section Code"); (EBin OpAdd (EItem (EName "r") (EInt 4)) (EItem (EName "r") (EInt 12))); (EAttr (EName "decoder") "field_004")] []); (ECall (EName "Field") [(EStr "Airport ICAO Identifier"); (ESlice (EName "r") (Some (EInt 6)) (Some (EInt 10))); (EAttr (EName "decoder") "field_006")] []); (ECall (EName "Field") [(EStr "ICAO Code"); (ESlice (EName "r") (Some (EInt 10)) (Some (EInt 12))); (EAttr (EName "decoder") "field_014")] []); (ECall (EName "Field") [(EStr "ATA/IATA Designator"); (ESlice (EName "r") (Some (EInt 13)) (Some (EInt 16))); (EAttr (EName "decoder") "field_107")] []); (ECall (EName "Field") [(EStr "Continuation Record No"); (EItem (EName "r") (EInt 21)); (EAttr (EName "decoder") "field_016")] []); (ECall (EName "Field") [(EStr "Speed Limit Altitude"); (ESlice (EName "r") (Some (EInt 22)) (Some (EInt 27))); (EAttr (EName "decoder") "field_073")] []); (ECall (EName "Field") [(EStr "Longest Runway"); (ESlice (EName "r") (Some (EInt 27)) (Some (EInt 30))); (EAttr (EName "decoder") "field_054")] []); (ECall (EName "Field") [(EStr "IFR Capability"); (EItem (EName "r") (EInt 30)); (EAttr (EName "decoder") "field_108")] []); (ECall (EName "Field") [(EStr "Longest Runway Surface Code"); (EItem (EName "r") (EInt 31)); (EAttr (EName "decoder") "field_249")] []); (ECall (EName "Field") [(EStr "Airport Reference Pt. Latitude"); (ESlice (EName "r") (Some (EInt 32)) (Some (EInt 41))); (EAttr (EName "decoder") "field_036")] []); (ECall (EName "Field") [(EStr "Airport Reference Pt. Longitude"); (ESlice (EName "r") (Some (EInt 41)) (Some (EInt 51))); (EAttr (EName "decoder") "field_037")] []); (ECall (EName "Field") [(EStr "Magnetic Variation"); (ESlice (EName "r") (Some (EInt 51)) (Some (EInt 56))); (EAttr (EName "decoder") "field_039")] []); (ECall (EName "Field") [(EStr "Airport Elevation"); (ESlice (EName "r") (Some (EInt 56)) (Some (EInt 61))); (EAttr (EName "decoder") "field_055")] []); (ECall (EName "Field") [(EStr "Speed Limit"); (ESlice (EName "r") (Some (EInt 61)) (Some (EInt 64))); (EAttr (EName "decoder") "field_072")] []); (ECall (EName "Field") [(EStr "Recommended Navaid"); (ESlice (EName "r") (Some (EInt 64)) (Some (EInt 68))); (EAttr (EName "decoder") "field_023")] []); (ECall (EName "Field") [(EStr "ICAO Code (2)"); (ESlice (EName "r") (Some (EInt 68)) (Some (EInt 70))); (EAttr (EName "decoder") "field_014")] []); (ECall (EName "Field") [(EStr "Transition Altitude"); (ESlice (EName "r") (Some (EInt 70)) (Some (EInt 75))); (EAttr (EName "decoder") "field_053")] []); (ECall (EName "Field") [(EStr "Transition Level"); (ESlice (EName "r") (Some (EInt 75)) (Some (EInt 80))); (EAttr (EName "decoder") "field_053")] []); (ECall (EName "Field") [(EStr "Public Military Indicator"); (EItem (EName "r") (EInt 80)); (EAttr (EName "decoder") "field_177")] []); (ECall (EName "Field") [(EStr "Time Zone"); (ESlice (EName "r") (Some (EInt 81)) (Some (EInt 84))); (EAttr (EName "decoder") "field_178")] []); (ECall (EName "Field") [(EStr "Daylight Indicator"); (EItem (EName "r") (EInt 84)); (EAttr (EName "decoder") "field_179")] []); (ECall (EName "Field") [(EStr "Magnetic/True Indicator"); (EItem (EName "r") (EInt 85)); (EAttr (EName "decoder") "field_165")] []); (ECall (EName "Field") [(EStr "Datum Code"); (ESlice (EName "r") (Some (EInt 86)) (Some (EInt 89))); (EAttr (EName "decoder") "field_197")] []); (ECall (EName "Field") [(EStr "Airport Name"); (ESlice (EName "r") (Some (EInt 93)) (Some (EInt 123))); (EAttr (EName "decoder") "field_071")] []); (ECall (EName "Field") [(EStr "File Record No"); (ESlice (EName "r") (Some (EInt 123)) (Some (EInt 128))); (EAttr (EName "decoder") "field_031")] []); (ECall (EName "Field") [(EStr "Cycle Date"); (ESlice (EName "r") (Some (EInt 128)) (Some (EInt 132))); (EAttr (EName "decoder") "field_032")] [])]))]].

(* src/arinc424/definitions/Airport.py *)
Definition py_Airport : pymodule := [
  SFrom "arinc424.decoder" "Field" "Field";
  SImport "arinc424.decoder" "decoder";
  py_Airport_Airport].

(* src/arinc424/definitions/AirportCommunication.py:6-115 *)
Definition py_AirportCommunication_AirportCommunication : stmt :=
  SClass "AirportCommunication"
    [SAssign (EName "cont_idx") (EInt 25);
    SAssign (EName "app_idx") (EInt 26);
    SAssign (EName "continuations") (EList [(EStr "N")]);
    SAssign (EName "name") (EStr "Airport Communications");
    SDef "application_type" [("self", None); ("line", None)]
      [SReturn (Some (EItem (EName "line") (EAttr (EName "self") "app_idx")))];
    SDef "read" [("self", None); ("line", None); ("primary", None)]
      [SIf (EName "primary")
        [SReturn (Some (ECall (EAttr (EName "self") "read_primary") [(EName "line")] []))]
        [];
      SAssign (EName "application") (EItem (EName "line") (EAttr (EName "self") "app_idx"));
      SMatch (EName "application")
        [(PValue (EStr "N"), [SReturn (Some (ECall (EAttr (EName "self") "read_cont_narr") [(EName "line")] []))]);
        (PWild, [SReturn (Some (EList []))])]];
    SDef "read_primary" [("self", None); ("r", None)]
      [SReturn (Some (EList [(ECall (EName "Field") [(EStr "Record Type"); (EItem (EName "r") (EInt 0)); (EAttr (EName "decoder") "field_002")] []); (ECall (EName "Field") [(EStr "Customer / Area Code"); (ESlice (EName "r") (Some (EInt 1)) (Some (EInt 4))); (EAttr (EName "decoder") "field_003")] []); (ECall (EName "Field") [(EStr "Section Code"); (EBin OpAdd (EItem (EName "r") (EInt 4)) (EItem (EName "r") (EInt 12))); (EAttr (EName "decoder") "field_004")] []); (ECall (EName "Field") [(EStr "Airport Identifier"); (ESlice (EName "r") (Some (EInt 6)) (Some (EInt 10))); (EAttr (EName "decoder") "field_006")] []); (ECall (EName "Field") [(EStr "ICAO Code"); (ESlice (EName "r") (Some (EInt 10)) (Some (EInt 12))); (EAttr (EName "decoder") "field_014")] []); (ECall (EName "Field") [(EStr "Communications Type"); (ESlice (EName "r") (Some (EInt 13)) (Some (EInt 16))); (EAttr (EName "decoder") "field_101")] []); (ECall (EName "Field") [(EStr "Communications Freq"); (ESlice (EName "r") (Some (EInt 16)) (Some (EInt 23))); (EAttr (EName "decoder") "field_103")] []); (ECall (EName "Field") [(EStr "Guard/Transmit"); (EItem (EName "r") (EInt 23)); (EAttr (EName "decoder") "field_182")] []); (ECall (EName "Field") [(EStr "Frequency Units"); (EItem (EName "r") (EInt 24)); (EAttr (EName "decoder") "field_104")] []); (ECall (EName "Field") [(EStr "Continuation Record No"); (EItem (EName "r") (EInt 25)); (EAttr (EName "decoder") "field_016")] []); (ECall (EName "Field") [(EStr "Service Indicator"); (ESlice (EName "r") (Some (EInt 26)) (Some (EInt 29))); (EAttr (EName "decoder") "field_106")] []); (ECall (EName "Field") [(EStr "Radar Service"); (EItem (EName "r") (EInt 29)); (EAttr (EName "decoder") "field_102")] []); (ECall (EName "Field") [(EStr "Modulation"); (EItem (EName "r") (EInt 30)); (EAttr (EName "decoder") "field_198")] []); (ECall (EName "Field") [(EStr "Signal Emission"); (EItem (EName "r") (EInt 31)); (EAttr (EName "decoder") "field_199")] []); (ECall (EName "Field") [(EStr "Latitude"); (ESlice (EName "r") (Some (EInt 32)) (Some (EInt 41))); (EAttr (EName "decoder") "field_036")] []); (ECall (EName "Field") [(EStr "Longitude"); (ESlice (EName "r") (Some (EInt 41)) (Some (EInt 51))); (EAttr (EName "decoder") "field_037")] []); (ECall (EName "Field") [(EStr "Magnetic Variation"); (ESlice (EName "r") (Some (EInt 51)) (Some (EInt 56))); (EAttr (EName "decoder") "field_039")] []); (ECall (EName "Field") [(EStr "Facility Elevation"); (ESlice (EName "r") (Some (EInt 56)) (Some (EInt 61))); (EAttr (EName "decoder") "field_092")] []); (ECall (EName "Field") [(EStr "H24 Indicator"); (EItem (EName "r") (EInt 61)); (EAttr (EName "decoder") "field_181")] []); (ECall (EName "Field") [(EStr "Sectorization"); (ESlice (EName "r") (Some (EInt 62)) (Some (EInt 68))); (EAttr (EName "decoder") "field_183")] []); (ECall (EName "Field") [(EStr "Altitude Description"); (EItem (EName "r") (EInt 68)); (EAttr (EName "decoder") "field_029")] []); (ECall (EName "Field") [(EStr "Communication Altitude"); (ESlice (EName "r") (Some (EInt 69)) (Some (EInt 74))); (EAttr (EName "decoder") "field_184")] []); (ECall (EName "Field") [(EStr "Communication Altitude (2)"); (ESlice (EName "r") (Some (EInt 74)) (Some (EInt 79))); (EAttr (EName "decoder") "field_184")] []); (ECall (EName "Field") [(EStr "Sector Facility"); (ESlice (EName "r") (Some (EInt 79)) (Some (EInt 83))); (EAttr (EName "decoder") "field_185")] []); (ECall (EName "Field") [(EStr "ICAO Code (2)"); (ESlice (EName "r") (Some (EInt 83)) (Some (EInt 85))); (EAttr (EName "decoder") "field_014")] []); (ECall (EName "Field") [(EStr "Section (2)"); (ESlice (EName "r") (Some (EInt 85)) (Some (EInt 87))); (EAttr (EName "decoder") "field_004")] []); (ECall (EName "Field") [(EStr "Distance Description"); (EItem (EName "r") (EInt 87)); (EAttr (EName "decoder") "field_187")] []); (ECall (EName "Field") [(EStr "Communications Distance"); (ESlice (EName "r") (Some (EInt 88)) (Some (EInt 90))); (EAttr (EName "decoder") "field_188")] []); (ECall (EName "Field") [(EStr "Remote Facility"); (ESlice (EName "r") (Some (EInt 90)) (Some (EInt 94))); (EAttr (EName "decoder") "field_200")] []); (ECall (EName "Field") [(EStr "ICAO Code (3)"); (ESlice (EName "r") (Some (EInt 94)) (Some (EInt 96))); (EAttr (EName "decoder") "field_014")] []); (ECall (EName "Field") [(EStr "Section (3)"); (ESlice (EName "r") (Some (EInt 96)) (Some (EInt 98))); (EAttr (EName "decoder") "field_004")] []); (ECall (EName "Field") [(EStr "Call Sign"); (ESlice (EName "r") (Some (EInt 98)) (Some (EInt 123))); (EAttr (EName "decoder") "field_105")] []); (ECall (EName "Field") [(EStr "File Record No"); (ESlice (EName "r") (Some (EInt 123)) (Some (EInt 128))); (EAttr (EName "decoder") "field_031")] []); (ECall (EName "Field") [(EStr "Cycle Date"); (ESlice (EName "r") (Some (EInt 128)) (Some (EInt 132))); (EAttr (EName "decoder") "field_032")] [])]))];
    SDef "read_cont_narr" [("self", None); ("r", None)]
      [SReturn (Some (EList [(ECall (EName "Field") [(EStr "Record Type"); (EItem (EName "r") (EInt 0)); (EAttr (EName "decoder") "field_002")] []); (ECall (EName "Field") [(EStr "Customer / Area Code"); (ESlice (EName "r") (Some (EInt 1)) (Some (EInt 4))); (EAttr (EName "decoder") "field_003")] []); (ECall (EName "Field") [(EStr "Section Code"); (EBin OpAdd (EItem (EName "r") (EInt 4)) (EItem (EName "r") (EInt 12))); (EAttr (EName "decoder") "field_004")] []); (ECall (EName "Field") [(EStr "Airport Identifier"); (ESlice (EName "r") (Some (EInt 6)) (Some (EInt 10))); (EAttr (EName "decoder") "field_006")] []); (ECall (EName "Field") [(EStr "ICAO Code"); (ESlice (EName "r") (Some (EInt 10)) (Some (EInt 12))); (EAttr (EName "decoder") "field_014")] []); (ECall (EName "Field") [(EStr "Communications Type"); (ESlice (EName "r") (Some (EInt 13)) (Some (EInt 16))); (EAttr (EName "decoder") "field_101")] []); (ECall (EName "Field") [(EStr "Communications Freq"); (ESlice (EName "r") (Some (EInt 16)) (Some (EInt 23))); (EAttr (EName "decoder") "field_103")] []); (ECall (EName "Field") [(EStr "Guard/Transmit"); (EItem (EName "r") (EInt 23)); (EAttr (EName "decoder") "field_182")] []); (ECall (EName "Field") [(EStr "Frequency Units"); (EItem (EName "r") (EInt 24)); (EAttr (EName "decoder") "field_104")] []); (ECall (EName "Field") [(EStr "Continuation Record No"); (EItem (EName "r") (EInt 25)); (EAttr (EName "decoder") "field_016")] []); (ECall (EName "Field") [(EStr "Application Type"); (EItem (EName "r") (EInt 26)); (EAttr (EName "decoder") "field_091")] []); (ECall (EName "Field") [(EStr "Narrative"); (ESlice (EName "r") (Some (EInt 27)) (Some (EInt 87))); (EAttr (EName "decoder") "field_186")] []); (ECall (EName "Field") [(EStr "File Record No"); (ESlice (EName "r") (Some (EInt 123)) (Some (EInt 128))); (EAttr (EName "decoder") "field_031")] []); (ECall (EName "Field") [(EStr "Cycle Date"); (ESlice (EName "r") (Some (EInt 128)) (Some (EInt 132))); (EAttr (EName "decoder") "field_032")] [])]))];
    SDef "read_time" [("self", None); ("r", None)]
      [SReturn (Some (EList [(ECall (EName "Field") [(EStr "Record Type"); (EItem (EName "r") (EInt 0)); (EAttr (EName "decoder") "field_002")] []); (ECall (EName "Field") [(EStr "Customer / Area Code"); (ESlice (EName "r") (Some (EInt 1)) (Some (EInt 4))); (EAttr (EName "decoder") "field_003")] []); (ECall (EName "Field") [(EStr "Section Code"); (EBin OpAdd (EItem (EName "r") (EInt 4)) (EItem (EName "r") (EInt 12))); (EAttr (EName "decoder") "field_004")] []); (ECall (EName "Field") [(EStr "Airport Identifier"); (ESlice (EName "r") (Some (EInt 6)) (Some (EInt 10))); (EAttr (EName "decoder") "field_006")] []); (ECall (EName "Field") [(EStr "ICAO Code"); (ESlice (EName "r") (Some (EInt 10)) (Some (EInt 12))); (EAttr (EName "decoder") "field_014")] []); (ECall (EName "Field") [(EStr "Communications Type"); (ESlice (EName "r") (Some (EInt 13)) (Some (EInt 16))); (EAttr (EName "decoder") "field_101")] []); (ECall (EName "Field") [(EStr "Communications Freq"); (ESlice (EName "r") (Some (EInt 16)) (Some (EInt 23))); (EAttr (EName "decoder") "field_103")] []); (ECall (EName "Field") [(EStr "Guard/Transmit"); (EItem (EName "r") (EInt 23)); (EAttr (EName "decoder") "field_182")] []); (ECall (EName "Field") [(EStr "Frequency Units"); (EItem (EName "r") (EInt 24)); (EAttr (EName "decoder") "field_104")] []); (ECall (EName "Field") [(EStr "Continuation Record No"); (EItem (EName "r") (EInt 25)); (EAttr (EName "decoder") "field_016")] []); (ECall (EName "Field") [(EStr "Application Type"); (EItem (EName "r") (EInt 26)); (EAttr (EName "decoder") "field_091")] []); (ECall (EName "Field") [(EStr "Time Code"); (EItem (EName "r") (EInt 27)); (EAttr (EName "decoder") "field_131")] []); (ECall (EName "Field") [(EStr "NOTAM"); (EItem (EName "r") (EInt 28)); (EAttr (EName "decoder") "field_132")] []); (ECall (EName "Field") [(EStr "Time Indicator"); (EItem (EName "r") (EInt 29)); (EAttr (EName "decoder") "field_138")] []); (ECall (EName "Field") [(EStr "Time of Operaion"); (ESlice (EName "r") (Some (EInt 30)) (Some (EInt 40))); (EAttr (EName "decoder") "field_195")] []); (ECall (EName "Field") [(EStr "Time of Operaion (2)"); (ESlice (EName "r") (Some (EInt 40)) (Some (EInt 50))); (EAttr (EName "decoder") "field_195")] []); (ECall (EName "Field") [(EStr "Time of Operaion (2)"); (ESlice (EName "r") (Some (EInt 50)) (Some (EInt 60))); (EAttr (EName "decoder") "field_195")] []); (ECall (EName "Field") [(EStr "Time of Operaion (3)"); (ESlice (EName "r") (Some (EInt 60)) (Some (EInt 70))); (EAttr (EName "decoder") "field_195")] []); (ECall (EName "Field") [(EStr "Time of Operaion (4)"); (ESlice (EName "r") (Some (EInt 70)) (Some (EInt 80))); (EAttr (EName "decoder") "field_195")] []); (ECall (EName "Field") [(EStr "Time of Operaion (5)"); (ESlice (EName "r") (Some (EInt 80)) (Some (EInt 90))); (EAttr (EName "decoder") "field_195")] []); (ECall (EName "Field") [(EStr "Time of Operaion (6)"); (ESlice (EName "r") (Some (EInt 90)) (Some (EInt 100))); (EAttr (EName "decoder") "field_195")] []); (ECall (EName "Field") [(EStr "File Record No"); (ESlice (EName "r") (Some (EInt 123)) (Some (EInt 128))); (EAttr (EName "decoder") "field_031")] []); (ECall (EName "Field") [(EStr "Cycle Date"); (ESlice (EName "r") (Some (EInt 128)) (Some (EInt 132))); (EAttr (EName "decoder") "field_032")] [])]))]].

(* src/arinc424/definitions/AirportCommunication.py *)
Definition py_AirportCommunication : pymodule := [
  SFrom "arinc424.decoder" "Field" "Field";
  SImport "arinc424.decoder" "decoder";
  py_AirportCommunication_AirportCommunication].

(* src/arinc424/definitions/AirportGate.py:6-59 *)
Definition py_AirportGate_AirportGate : stmt :=
  SClass "AirportGate"
    [SAssign (EName "cont_idx") (EInt 21);
    SAssign (EName "app_idx") (EInt 22);
    SAssign (EName "continuations") (EList [(EStr "A")]);
    SAssign (EName "name") (EStr "Airport Gate");
    SDef "application_type" [("self", None); ("line", None)]
      [SReturn (Some (EItem (EName "line") (EAttr (EName "self") "app_idx")))];
    SDef "read" [("self", None); ("line", None); ("primary", None)]
      [SIf (EName "primary")
        [SReturn (Some (ECall (EAttr (EName "self") "read_primary") [(EName "line")] []))]
        [];
      SAssign (EName "application") (EItem (EName "line") (EAttr (EName "self") "app_idx"));
      SMatch (EName "application")
        [(PValue (EStr "A"), [SReturn (Some (ECall (EAttr (EName "self") "read_cont") [(EName "line")] []))]);
        (PWild, [SReturn (Some (EList []))])]];
    SDef "read_primary" [("self", None); ("r", None)]
      [SReturn (Some (EList [(ECall (EName "Field") [(EStr "Record Type"); (EItem (EName "r") (EInt 0)); (EAttr (EName "decoder") "field_002")] []); (ECall (EName "Field") [(EStr "Customer / Area Code"); (ESlice (EName "r") (Some (EInt 1)) (Some (EInt 4))); (EAttr (EName "decoder") "field_003")] []); (ECall (EName "Field") [(EStr "Section Code"); (EBin OpAdd (EItem (EName "r") (EInt 4)) (EItem (EName "r") (EInt 12))); (EAttr (EName "decoder") "field_004")] []); (ECall (EName "Field") [(EStr "Airport ICAO Identifier"); (ESlice (EName "r") (Some (EInt 6)) (Some (EInt 10))); (EAttr (EName "decoder") "field_006")] []); (ECall (EName "Field") [(EStr "ICAO Code"); (ESlice (EName "r") (Some (EInt 10)) (Some (EInt 12))); (EAttr (EName "decoder") "field_014")] []); (ECall (EName "Field") [(EStr "Gate Identifier"); (ESlice (EName "r") (Some (EInt 13)) (Some (EInt 18))); (EAttr (EName "decoder") "field_056")] []); (ECall (EName "Field") [(EStr "Continuation Record No"); (EItem (EName "r") (EInt 21)); (EAttr (EName "decoder") "field_016")] []); (ECall (EName "Field") [(EStr "Gate Latitude"); (ESlice (EName "r") (Some (EInt 32)) (Some (EInt 41))); (EAttr (EName "decoder") "field_036")] []); (ECall (EName "Field") [(EStr "Gate Longitude"); (ESlice (EName "r") (Some (EInt 41)) (Some (EInt 51))); (EAttr (EName "decoder") "field_037")] []); (ECall (EName "Field") [(EStr "Name"); (ESlice (EName "r") (Some (EInt 98)) (Some (EInt 123))); (EAttr (EName "decoder") "field_060")] []); (ECall (EName "Field") [(EStr "File Record No"); (ESlice (EName "r") (Some (EInt 123)) (Some (EInt 128))); (EAttr (EName "decoder") "field_031")] []); (ECall (EName "Field") [(EStr "Cycle Date"); (ESlice (EName "r") (Some (EInt 128)) (Some (EInt 132))); (EAttr (EName "decoder") "field_032")] [])]))];
    SDef "read_cont" [("self", None); ("r", None)]
      [SReturn (Some (EList [(ECall (EName "Field") [(EStr "Record Type"); (EItem (EName "r") (EInt 0)); (EAttr (EName "decoder") "field_002")] []); (ECall (EName "Field") [(EStr "Customer / Area Code"); (ESlice (EName "r") (Some (EInt 1)) (Some (EInt 4))); (EAttr (EName "decoder") "field_003")] []); (ECall (EName "Field") [(EStr "Section Code"); (EBin OpAdd (EItem (EName "r") (EInt 4)) (EItem (EName "r") (EInt 12))); (EAttr (EName "decoder") "field_004")] []); (ECall (EName "Field") [(EStr "Airport ICAO Identifier"); (ESlice (EName "r") (Some (EInt 6)) (Some (EInt 10))); (EAttr (EName "decoder") "field_006")] []); (ECall (EName "Field") [(EStr "ICAO Code"); (ESlice (EName "r") (Some (EInt 10)) (Some (EInt 12))); (EAttr (EName "decoder") "field_014")] []); (ECall (EName "Field") [(EStr "Gate Identifier"); (ESlice (EName "r") (Some (EInt 13)) (Some (EInt 18))); (EAttr (EName "decoder") "field_056")] []); (ECall (EName "Field") [(EStr "Continuation Record No"); (EItem (EName "r") (EInt 21)); (EAttr (EName "decoder") "field_016")] []); (ECall (EName "Field") [(EStr "Application Notes"); (EItem (EName "r") (EInt 22)); (EAttr (EName "decoder") "field_091")] []); (ECall (EName "Field") [(EStr "Notes"); (ESlice (EName "r") (Some (EInt 23)) (Some (EInt 92))); (EAttr (EName "decoder") "field_061")] []); (ECall (EName "Field") [(EStr "File Record No"); (ESlice (EName "r") (Some (EInt 123)) (Some (EInt 128))); (EAttr (EName "decoder") "field_031")] []); (ECall (EName "Field") [(EStr "Cycle Date"); (ESlice (EName "r") (Some (EInt 128)) (Some (EInt 132))); (EAttr (EName "decoder") "field_032")] [])]))]].

(* src/arinc424/definitions/AirportGate.py:66-99 *)
Definition py_AirportGate_CompanyRoute : stmt :=
  SClass "CompanyRoute"
    [SDef "read" [("self", None); ("r", None)]
      [SReturn (Some (EList [(ECall (EName "Field") [(EStr "Record Type"); (EItem (EName "r") (EInt 0)); (EAttr (EName "decoder") "field_002")] []); (ECall (EName "Field") [(EStr "Customer"); (ESlice (EName "r") (Some (EInt 1)) (Some (EInt 4))); (EAttr (EName "decoder") "field_003")] []); (ECall (EName "Field") [(EStr "Section Code"); (ESlice (EName "r") (Some (EInt 4)) (Some (EInt 6))); (EAttr (EName "decoder") "field_004")] []); (ECall (EName "Field") [(EStr "From Airport/Fix"); (ESlice (EName "r") (Some (EInt 6)) (Some (EInt 11))); (EAttr (EName "decoder") "field_075")] []); (ECall (EName "Field") [(EStr "ICAO Code"); (ESlice (EName "r") (Some (EInt 12)) (Some (EInt 14))); (EAttr (EName "decoder") "field_014")] []); (ECall (EName "Field") [(EStr "Airspace Center"); (ESlice (EName "r") (Some (EInt 9)) (Some (EInt 14))); (EAttr (EName "decoder") "field_214")] []); (ECall (EName "Field") [(EStr "Section Code (2)"); (ESlice (EName "r") (Some (EInt 14)) (Some (EInt 16))); (EAttr (EName "decoder") "field_004")] []); (ECall (EName "Field") [(EStr "To Airport/Fix"); (ESlice (EName "r") (Some (EInt 16)) (Some (EInt 21))); (EAttr (EName "decoder") "field_075")] []); (ECall (EName "Field") [(EStr "ICAO Code (2)"); (ESlice (EName "r") (Some (EInt 22)) (Some (EInt 24))); (EAttr (EName "decoder") "field_014")] []); (ECall (EName "Field") [(EStr "Section Code (3)"); (ESlice (EName "r") (Some (EInt 24)) (Some (EInt 26))); (EAttr (EName "decoder") "field_004")] []); (ECall (EName "Field") [(EStr "Company Route ID"); (ESlice (EName "r") (Some (EInt 26)) (Some (EInt 36))); (EAttr (EName "decoder") "field_076")] []); (ECall (EName "Field") [(EStr "Sequence Number"); (ESlice (EName "r") (Some (EInt 36)) (Some (EInt 39))); (EAttr (EName "decoder") "field_012")] []); (ECall (EName "Field") [(EStr "VIA"); (ESlice (EName "r") (Some (EInt 39)) (Some (EInt 42))); (EAttr (EName "decoder") "field_077")] []); (ECall (EName "Field") [(EStr "SID/STAR/App/Awy"); (ESlice (EName "r") (Some (EInt 42)) (Some (EInt 48))); (EAttr (EName "decoder") "field_078")] []); (ECall (EName "Field") [(EStr "Area Code"); (ESlice (EName "r") (Some (EInt 48)) (Some (EInt 51))); (EAttr (EName "decoder") "field_003")] []); (ECall (EName "Field") [(EStr "To Fix"); (ESlice (EName "r") (Some (EInt 51)) (Some (EInt 57))); (EAttr (EName "decoder") "field_132")] []); (ECall (EName "Field") [(EStr "ICAO Code"); (ESlice (EName "r") (Some (EInt 57)) (Some (EInt 59))); (EAttr (EName "decoder") "field_118")] []); (ECall (EName "Field") [(EStr "Section Code (4)"); (EItem (EName "r") (EInt 59)); (EAttr (EName "decoder") "field_036")] []); (ECall (EName "Field") [(EStr "RUnway Trans"); (ESlice (EName "r") (Some (EInt 61)) (Some (EInt 66))); (EAttr (EName "decoder") "field_037")] []); (ECall (EName "Field") [(EStr "ENRT Trans"); (ESlice (EName "r") (Some (EInt 66)) (Some (EInt 71))); (EAttr (EName "decoder") "field_036")] []); (ECall (EName "Field") [(EStr "Cruise Altitude"); (ESlice (EName "r") (Some (EInt 72)) (Some (EInt 77))); (EAttr (EName "decoder") "field_037")] []); (ECall (EName "Field") [(EStr "Terminal/Alternate Airport"); (ESlice (EName "r") (Some (EInt 77)) (Some (EInt 81))); (EAttr (EName "decoder") "field_119")] []); (ECall (EName "Field") [(EStr "ICAO Code"); (ESlice (EName "r") (Some (EInt 81)) (Some (EInt 83))); (EAttr (EName "decoder") "field_120")] []); (ECall (EName "Field") [(EStr "Alternate Distance"); (ESlice (EName "r") (Some (EInt 83)) (Some (EInt 87))); (EAttr (EName "decoder") "field_211")] []); (ECall (EName "Field") [(EStr "Cost Index"); (ESlice (EName "r") (Some (EInt 87)) (Some (EInt 90))); (EAttr (EName "decoder") "field_121")] []); (ECall (EName "Field") [(EStr "Enroute Alternate Airport"); (ESlice (EName "r") (Some (EInt 90)) (Some (EInt 94))); (EAttr (EName "decoder") "field_133")] []); (ECall (EName "Field") [(EStr "File Record No"); (ESlice (EName "r") (Some (EInt 123)) (Some (EInt 128))); (EAttr (EName "decoder") "field_031")] []); (ECall (EName "Field") [(EStr "Cycle Date"); (ESlice (EName "r") (Some (EInt 128)) (Some (EInt 132))); (EAttr (EName "decoder") "field_032")] [])]))]].

(* src/arinc424/definitions/AirportGate.py *)
Definition py_AirportGate : pymodule := [
  SFrom "arinc424.decoder" "Field" "Field";
  SImport "arinc424.decoder" "decoder";
  py_AirportGate_AirportGate;
  py_AirportGate_CompanyRoute].

(* src/arinc424/definitions/AirwaysMarker.py:6-63 *)
Definition py_AirwaysMarker_AirwaysMarker : stmt :=
  SClass "AirwaysMarker"
    [SAssign (EName "cont_idx") (EInt 21);
    SAssign (EName "app_idx") (EInt 22);
    SAssign (EName "continuations") (EList [(EStr "A")]);
    SAssign (EName "name") (EStr "Airways Marker");
    SDef "application_type" [("self", None); ("line", None)]
      [SReturn (Some (EItem (EName "line") (EAttr (EName "self") "app_idx")))];
    SDef "read" [("self", None); ("line", None); ("primary", None)]
      [SIf (EName "primary")
        [SReturn (Some (ECall (EAttr (EName "self") "read_primary") [(EName "line")] []))]
        [];
      SAssign (EName "application") (EItem (EName "line") (EAttr (EName "self") "app_idx"));
      SMatch (EName "application")
        [(PValue (EStr "A"), [SReturn (Some (ECall (EAttr (EName "self") "read_cont") [(EName "line")] []))]);
        (PWild, [SReturn (Some (EList []))])]];
    SDef "read_primary" [("self", None); ("r", None)]
      [SReturn (Some (EList [(ECall (EName "Field") [(EStr "Record Type"); (EItem (EName "r") (EInt 0)); (EAttr (EName "decoder") "field_002")] []); (ECall (EName "Field") [(EStr "Customer / Area Code"); (ESlice (EName "r") (Some (EInt 1)) (Some (EInt 4))); (EAttr (EName "decoder") "field_003")] []); (ECall (EName "Field") [(EStr "Section Code"); (ESlice (EName "r") (Some (EInt 4)) (Some (EInt 6))); (EAttr (EName "decoder") "field_004")] []); (ECall (EName "Field") [(EStr "Marker Identifier"); (ESlice (EName "r") (Some (EInt 13)) (Some (EInt 17))); (EAttr (EName "decoder") "field_110")] []); (ECall (EName "Field") [(EStr "ICAO Code"); (ESlice (EName "r") (Some (EInt 19)) (Some (EInt 21))); (EAttr (EName "decoder") "field_014")] []); (ECall (EName "Field") [(EStr "Continuation Record No"); (EItem (EName "r") (EInt 21)); (EAttr (EName "decoder") "field_016")] []); (ECall (EName "Field") [(EStr "Marker Code"); (ESlice (EName "r") (Some (EInt 22)) (Some (EInt 26))); (EAttr (EName "decoder") "field_111")] []); (ECall (EName "Field") [(EStr "Marker Shape"); (EItem (EName "r") (EInt 27)); (EAttr (EName "decoder") "field_112")] []); (ECall (EName "Field") [(EStr "Marker Power"); (EItem (EName "r") (EInt 28)); (EAttr (EName "decoder") "field_113")] []); (ECall (EName "Field") [(EStr "Marker Latitude"); (ESlice (EName "r") (Some (EInt 32)) (Some (EInt 41))); (EAttr (EName "decoder") "field_036")] []); (ECall (EName "Field") [(EStr "Marker Longitude"); (ESlice (EName "r") (Some (EInt 41)) (Some (EInt 51))); (EAttr (EName "decoder") "field_037")] []); (ECall (EName "Field") [(EStr "Minor Axis"); (ESlice (EName "r") (Some (EInt 51)) (Some (EInt 55))); (EAttr (EName "decoder") "field_100")] []); (ECall (EName "Field") [(EStr "Magnetic Variation"); (ESlice (EName "r") (Some (EInt 74)) (Some (EInt 79))); (EAttr (EName "decoder") "field_039")] []); (ECall (EName "Field") [(EStr "Facility Elevation"); (ESlice (EName "r") (Some (EInt 79)) (Some (EInt 84))); (EAttr (EName "decoder") "field_092")] []); (ECall (EName "Field") [(EStr "Datum Code"); (ESlice (EName "r") (Some (EInt 84)) (Some (EInt 87))); (EAttr (EName "decoder") "field_197")] []); (ECall (EName "Field") [(EStr "Marker Name"); (ESlice (EName "r") (Some (EInt 93)) (Some (EInt 123))); (EAttr (EName "decoder") "field_071")] []); (ECall (EName "Field") [(EStr "File Record No"); (ESlice (EName "r") (Some (EInt 123)) (Some (EInt 128))); (EAttr (EName "decoder") "field_031")] []); (ECall (EName "Field") [(EStr "Cycle Date"); (ESlice (EName "r") (Some (EInt 128)) (Some (EInt 132))); (EAttr (EName "decoder") "field_032")] [])]))];
    SDef "read_cont" [("self", None); ("r", None)]
      [SReturn (Some (EList [(ECall (EName "Field") [(EStr "Record Type"); (EItem (EName "r") (EInt 0)); (EAttr (EName "decoder") "field_002")] []); (ECall (EName "Field") [(EStr "Customer / Area Code"); (ESlice (EName "r") (Some (EInt 1)) (Some (EInt 4))); (EAttr (EName "decoder") "field_003")] []); (ECall (EName "Field") [(EStr "Section Code"); (ESlice (EName "r") (Some (EInt 4)) (Some (EInt 6))); (EAttr (EName "decoder") "field_004")] []); (ECall (EName "Field") [(EStr "Marker Identifier"); (ESlice (EName "r") (Some (EInt 13)) (Some (EInt 17))); (EAttr (EName "decoder") "field_110")] []); (ECall (EName "Field") [(EStr "ICAO Code"); (ESlice (EName "r") (Some (EInt 19)) (Some (EInt 21))); (EAttr (EName "decoder") "field_014")] []); (ECall (EName "Field") [(EStr "Continuation Record No"); (EItem (EName "r") (EInt 21)); (EAttr (EName "decoder") "field_016")] []); (ECall (EName "Field") [(EStr "Application Type"); (EItem (EName "r") (EInt 22)); (EAttr (EName "decoder") "field_091")] []); (ECall (EName "Field") [(EStr "File Record No"); (ESlice (EName "r") (Some (EInt 123)) (Some (EInt 128))); (EAttr (EName "decoder") "field_031")] []); (ECall (EName "Field") [(EStr "Cycle Date"); (ESlice (EName "r") (Some (EInt 128)) (Some (EInt 132))); (EAttr (EName "decoder") "field_032")] [])]))]].

(* src/arinc424/definitions/AirwaysMarker.py *)
Definition py_AirwaysMarker : pymodule := [
  SFrom "arinc424.decoder" "Field" "Field";
  SImport "arinc424.decoder" "decoder";
  py_AirwaysMarker_AirwaysMarker].

(* src/arinc424/definitions/Alternate.py:6-38 *)
Definition py_Alternate_Alternate : stmt :=
  SClass "Alternate"
    [SDef "read" [("self", None); ("r", None); ("primary", None)]
      [SReturn (Some (EList [(ECall (EName "Field") [(EStr "Record Type"); (EItem (EName "r") (EInt 0)); (EAttr (EName "decoder") "field_002")] []); (ECall (EName "Field") [(EStr "Customer / Area Code"); (ESlice (EName "r") (Some (EInt 1)) (Some (EInt 4))); (EAttr (EName "decoder") "field_003")] []); (ECall (EName "Field") [(EStr "Section Code"); (ESlice (EName "r") (Some (EInt 4)) (Some (EInt 6))); (EAttr (EName "decoder") "field_004")] []); (ECall (EName "Field") [(EStr "Alternate Related Airport to Fix"); (ESlice (EName "r") (Some (EInt 6)) (Some (EInt 11))); (EAttr (EName "decoder") "field_075")] []); (ECall (EName "Field") [(EStr "Alternate Related ICAO Code"); (ESlice (EName "r") (Some (EInt 11)) (Some (EInt 13))); (EAttr (EName "decoder") "field_014")] []); (ECall (EName "Field") [(EStr "Alternate Section"); (ESlice (EName "r") (Some (EInt 13)) (Some (EInt 15))); (EAttr (EName "decoder") "field_004")] []); (ECall (EName "Field") [(EStr "Alternate Record Type"); (ESlice (EName "r") (Some (EInt 15)) (Some (EInt 17))); (EAttr (EName "decoder") "field_250")] []); (ECall (EName "Field") [(EStr "Distance to Alternate"); (ESlice (EName "r") (Some (EInt 19)) (Some (EInt 22))); (EAttr (EName "decoder") "field_251")] []); (ECall (EName "Field") [(EStr "Alternate Type"); (EItem (EName "r") (EInt 22)); (EAttr (EName "decoder") "field_252")] []); (ECall (EName "Field") [(EStr "Primary Alternate Identifier"); (ESlice (EName "r") (Some (EInt 23)) (Some (EInt 33))); (EAttr (EName "decoder") "field_253")] []); (ECall (EName "Field") [(EStr "Distance to Alternate (2)"); (ESlice (EName "r") (Some (EInt 35)) (Some (EInt 38))); (EAttr (EName "decoder") "field_251")] []); (ECall (EName "Field") [(EStr "Alternate Type (2)"); (EItem (EName "r") (EInt 38)); (EAttr (EName "decoder") "field_252")] []); (ECall (EName "Field") [(EStr "Additional Alternate Identifier One"); (ESlice (EName "r") (Some (EInt 39)) (Some (EInt 49))); (EAttr (EName "decoder") "field_253")] []); (ECall (EName "Field") [(EStr "Distance to Alternate (3)"); (ESlice (EName "r") (Some (EInt 51)) (Some (EInt 54))); (EAttr (EName "decoder") "field_251")] []); (ECall (EName "Field") [(EStr "Alternate Type (3)"); (EItem (EName "r") (EInt 54)); (EAttr (EName "decoder") "field_252")] []); (ECall (EName "Field") [(EStr "Additional Alternate Identifier Two"); (ESlice (EName "r") (Some (EInt 55)) (Some (EInt 65))); (EAttr (EName "decoder") "field_253")] []); (ECall (EName "Field") [(EStr "Distance to Alternate (3)"); (ESlice (EName "r") (Some (EInt 67)) (Some (EInt 70))); (EAttr (EName "decoder") "field_251")] []); (ECall (EName "Field") [(EStr "Alternate Type (3)"); (EItem (EName "r") (EInt 70)); (EAttr (EName "decoder") "field_252")] []); (ECall (EName "Field") [(EStr "Additional Alternate Identifier (3))"); (ESlice (EName "r") (Some (EInt 71)) (Some (EInt 81))); (EAttr (EName "decoder") "field_253")] []); (ECall (EName "Field") [(EStr "Distance to Alternate (4)"); (ESlice (EName "r") (Some (EInt 83)) (Some (EInt 86))); (EAttr (EName "decoder") "field_251")] []); (ECall (EName "Field") [(EStr "Alternate Type (4)"); (EItem (EName "r") (EInt 86)); (EAttr (EName "decoder") "field_252")] []); (ECall (EName "Field") [(EStr "Additional Alternate Identifier (4)"); (ESlice (EName "r") (Some (EInt 87)) (Some (EInt 97))); (EAttr (EName "decoder") "field_253")] []); (ECall (EName "Field") [(EStr "Distance to Alternate (5)"); (ESlice (EName "r") (Some (EInt 99)) (Some (EInt 102))); (EAttr (EName "decoder") "field_251")] []); (ECall (EName "Field") [(EStr "Alternate Type (5)"); (EItem (EName "r") (EInt 102)); (EAttr (EName "decoder") "field_252")] []); (ECall (EName "Field") [(EStr "Additional Alternate Identifier (5)"); (ESlice (EName "r") (Some (EInt 103)) (Some (EInt 113))); (EAttr (EName "decoder") "field_253")] []); (ECall (EName "Field") [(EStr "File Record No"); (ESlice (EName "r") (Some (EInt 123)) (Some (EInt 128))); (EAttr (EName "decoder") "field_031")] []); (ECall (EName "Field") [(EStr "Cycle Date"); (ESlice (EName "r") (Some (EInt 128)) (Some (EInt 132))); (EAttr (EName "decoder") "field_032")] [])]))]].

(* src/arinc424/definitions/Alternate.py *)
Definition py_Alternate : pymodule := [
  SFrom "arinc424.decoder" "Field" "Field";
  SImport "arinc424.decoder" "decoder";
  py_Alternate_Alternate].

(* src/arinc424/definitions/CompanyRoute.py:9-42 *)
Definition py_CompanyRoute_CompanyRoute : stmt :=
  SClass "CompanyRoute"
    [SDef "read" [("self", None); ("r", None); ("primary", None)]
      [SReturn (Some (EList [(ECall (EName "Field") [(EStr "Record Type"); (EItem (EName "r") (EInt 0)); (EAttr (EName "decoder") "field_002")] []); (ECall (EName "Field") [(EStr "Customer"); (ESlice (EName "r") (Some (EInt 1)) (Some (EInt 4))); (EAttr (EName "decoder") "field_003")] []); (ECall (EName "Field") [(EStr "Section Code"); (ESlice (EName "r") (Some (EInt 4)) (Some (EInt 6))); (EAttr (EName "decoder") "field_004")] []); (ECall (EName "Field") [(EStr "From Airport/Fix"); (ESlice (EName "r") (Some (EInt 6)) (Some (EInt 11))); (EAttr (EName "decoder") "field_075")] []); (ECall (EName "Field") [(EStr "ICAO Code"); (ESlice (EName "r") (Some (EInt 12)) (Some (EInt 14))); (EAttr (EName "decoder") "field_014")] []); (ECall (EName "Field") [(EStr "Airspace Center"); (ESlice (EName "r") (Some (EInt 9)) (Some (EInt 14))); (EAttr (EName "decoder") "field_214")] []); (ECall (EName "Field") [(EStr "Section Code (2)"); (ESlice (EName "r") (Some (EInt 14)) (Some (EInt 16))); (EAttr (EName "decoder") "field_004")] []); (ECall (EName "Field") [(EStr "To Airport/Fix"); (ESlice (EName "r") (Some (EInt 16)) (Some (EInt 21))); (EAttr (EName "decoder") "field_075")] []); (ECall (EName "Field") [(EStr "ICAO Code (2)"); (ESlice (EName "r") (Some (EInt 22)) (Some (EInt 24))); (EAttr (EName "decoder") "field_014")] []); (ECall (EName "Field") [(EStr "Section Code (3)"); (ESlice (EName "r") (Some (EInt 24)) (Some (EInt 26))); (EAttr (EName "decoder") "field_004")] []); (ECall (EName "Field") [(EStr "Company Route ID"); (ESlice (EName "r") (Some (EInt 26)) (Some (EInt 36))); (EAttr (EName "decoder") "field_076")] []); (ECall (EName "Field") [(EStr "Sequence Number"); (ESlice (EName "r") (Some (EInt 36)) (Some (EInt 39))); (EAttr (EName "decoder") "field_012")] []); (ECall (EName "Field") [(EStr "VIA"); (ESlice (EName "r") (Some (EInt 39)) (Some (EInt 42))); (EAttr (EName "decoder") "field_077")] []); (ECall (EName "Field") [(EStr "SID/STAR/App/Awy"); (ESlice (EName "r") (Some (EInt 42)) (Some (EInt 48))); (EAttr (EName "decoder") "field_078")] []); (ECall (EName "Field") [(EStr "Area Code"); (ESlice (EName "r") (Some (EInt 48)) (Some (EInt 51))); (EAttr (EName "decoder") "field_003")] []); (ECall (EName "Field") [(EStr "To Fix"); (ESlice (EName "r") (Some (EInt 51)) (Some (EInt 57))); (EAttr (EName "decoder") "field_132")] []); (ECall (EName "Field") [(EStr "ICAO Code"); (ESlice (EName "r") (Some (EInt 57)) (Some (EInt 59))); (EAttr (EName "decoder") "field_118")] []); (ECall (EName "Field") [(EStr "Section Code (4)"); (EItem (EName "r") (EInt 59)); (EAttr (EName "decoder") "field_036")] []); (ECall (EName "Field") [(EStr "RUnway Trans"); (ESlice (EName "r") (Some (EInt 61)) (Some (EInt 66))); (EAttr (EName "decoder") "field_037")] []); (ECall (EName "Field") [(EStr "ENRT Trans"); (ESlice (EName "r") (Some (EInt 66)) (Some (EInt 71))); (EAttr (EName "decoder") "field_036")] []); (ECall (EName "Field") [(EStr "Cruise Altitude"); (ESlice (EName "r") (Some (EInt 72)) (Some (EInt 77))); (EAttr (EName "decoder") "field_037")] []); (ECall (EName "Field") [(EStr "Terminal/Alternate Airport"); (ESlice (EName "r") (Some (EInt 77)) (Some (EInt 81))); (EAttr (EName "decoder") "field_119")] []); (ECall (EName "Field") [(EStr "ICAO Code"); (ESlice (EName "r") (Some (EInt 81)) (Some (EInt 83))); (EAttr (EName "decoder") "field_120")] []); (ECall (EName "Field") [(EStr "Alternate Distance"); (ESlice (EName "r") (Some (EInt 83)) (Some (EInt 87))); (EAttr (EName "decoder") "field_211")] []); (ECall (EName "Field") [(EStr "Cost Index"); (ESlice (EName "r") (Some (EInt 87)) (Some (EInt 90))); (EAttr (EName "decoder") "field_121")] []); (ECall (EName "Field") [(EStr "Enroute Alternate Airport"); (ESlice (EName "r") (Some (EInt 90)) (Some (EInt 94))); (EAttr (EName "decoder") "field_133")] []); (ECall (EName "Field") [(EStr "File Record No"); (ESlice (EName "r") (Some (EInt 123)) (Some (EInt 128))); (EAttr (EName "decoder") "field_031")] []); (ECall (EName "Field") [(EStr "Cycle Date"); (ESlice (EName "r") (Some (EInt 128)) (Some (EInt 132))); (EAttr (EName "decoder") "field_032")] [])]))]].

(* src/arinc424/definitions/CompanyRoute.py *)
Definition py_CompanyRoute : pymodule := [
  SFrom "arinc424.decoder" "Field" "Field";
  SImport "arinc424.decoder" "decoder";
  py_CompanyRoute_CompanyRoute].

(* src/arinc424/definitions/ControlledAirspace.py:13-97 *)
Definition py_ControlledAirspace_ControlledAirspace : stmt :=
  SClass "ControlledAirspace"
    [SAssign (EName "cont_idx") (EInt 24);
    SAssign (EName "app_idx") (EInt 25);
    SAssign (EName "continuations") (EList [(EStr "A")]);
    SAssign (EName "name") (EStr "Controlled Airspace");
    SDef "application_type" [("self", None); ("line", None)]
      [SReturn (Some (EItem (EName "line") (EAttr (EName "self") "app_idx")))];
    SDef "read" [("self", None); ("line", None); ("primary", None)]
      [SIf (EName "primary")
        [SReturn (Some (ECall (EAttr (EName "self") "read_primary") [(EName "line")] []))]
        [];
      SAssign (EName "application") (EItem (EName "line") (EAttr (EName "self") "app_idx"));
      SMatch (EName "application")
        [(PValue (EStr "A"), [SReturn (Some (ECall (EAttr (EName "self") "read_cont") [(EName "line")] []))]);
        (PWild, [SReturn (Some (EList []))])]];
    SDef "read_primary" [("self", None); ("r", None)]
      [SReturn (Some (EList [(ECall (EName "Field") [(EStr "Record Type"); (EItem (EName "r") (EInt 0)); (EAttr (EName "decoder") "field_002")] []); (ECall (EName "Field") [(EStr "Customer / Area Code"); (ESlice (EName "r") (Some (EInt 1)) (Some (EInt 4))); (EAttr (EName "decoder") "field_003")] []); (ECall (EName "Field") [(EStr "Section Code"); (ESlice (EName "r") (Some (EInt 4)) (Some (EInt 6))); (EAttr (EName "decoder") "field_004")] []); (ECall (EName "Field") [(EStr "ICAO Code"); (ESlice (EName "r") (Some (EInt 6)) (Some (EInt 8))); (EAttr (EName "decoder") "field_014")] []); (ECall (EName "Field") [(EStr "Airspace Type"); (EItem (EName "r") (EInt 9)); (EAttr (EName "decoder") "field_213")] []); (ECall (EName "Field") [(EStr "Airspace Center"); (ESlice (EName "r") (Some (EInt 9)) (Some (EInt 14))); (EAttr (EName "decoder") "field_214")] []); (ECall (EName "Field") [(EStr "Section Code (2)"); (ESlice (EName "r") (Some (EInt 14)) (Some (EInt 16))); (EAttr (EName "decoder") "field_004")] []); (ECall (EName "Field") [(EStr "Airspace Classification"); (EItem (EName "r") (EInt 16)); (EAttr (EName "decoder") "field_215")] []); (ECall (EName "Field") [(EStr "Multiple Code"); (EItem (EName "r") (EInt 19)); (EAttr (EName "decoder") "field_130")] []); (ECall (EName "Field") [(EStr "Sequence Number"); (ESlice (EName "r") (Some (EInt 20)) (Some (EInt 24))); (EAttr (EName "decoder") "field_012")] []); (ECall (EName "Field") [(EStr "Continuation Record No"); (EItem (EName "r") (EInt 24)); (EAttr (EName "decoder") "field_016")] []); (ECall (EName "Field") [(EStr "Level"); (EItem (EName "r") (EInt 25)); (EAttr (EName "decoder") "field_019")] []); (ECall (EName "Field") [(EStr "Time Code"); (EItem (EName "r") (EInt 26)); (EAttr (EName "decoder") "field_131")] []); (ECall (EName "Field") [(EStr "NOTAM"); (EItem (EName "r") (EInt 27)); (EAttr (EName "decoder") "field_132")] []); (ECall (EName "Field") [(EStr "Boundary Via"); (ESlice (EName "r") (Some (EInt 30)) (Some (EInt 32))); (EAttr (EName "decoder") "field_118")] []); (ECall (EName "Field") [(EStr "Latitude"); (ESlice (EName "r") (Some (EInt 32)) (Some (EInt 41))); (EAttr (EName "decoder") "field_036")] []); (ECall (EName "Field") [(EStr "Longitude"); (ESlice (EName "r") (Some (EInt 41)) (Some (EInt 51))); (EAttr (EName "decoder") "field_037")] []); (ECall (EName "Field") [(EStr "Arc Origin Latitude"); (ESlice (EName "r") (Some (EInt 51)) (Some (EInt 60))); (EAttr (EName "decoder") "field_036")] []); (ECall (EName "Field") [(EStr "Arc Origin Longitude"); (ESlice (EName "r") (Some (EInt 60)) (Some (EInt 70))); (EAttr (EName "decoder") "field_037")] []); (ECall (EName "Field") [(EStr "Arc Distance"); (ESlice (EName "r") (Some (EInt 70)) (Some (EInt 74))); (EAttr (EName "decoder") "field_119")] []); (ECall (EName "Field") [(EStr "Arc Bearing"); (ESlice (EName "r") (Some (EInt 74)) (Some (EInt 78))); (EAttr (EName "decoder") "field_120")] []); (ECall (EName "Field") [(EStr "RNP"); (ESlice (EName "r") (Some (EInt 78)) (Some (EInt 81))); (EAttr (EName "decoder") "field_211")] []); (ECall (EName "Field") [(EStr "Lower Limit"); (ESlice (EName "r") (Some (EInt 81)) (Some (EInt 86))); (EAttr (EName "decoder") "field_121")] []); (ECall (EName "Field") [(EStr "Unit Indicator"); (EItem (EName "r") (EInt 86)); (EAttr (EName "decoder") "field_133")] []); (ECall (EName "Field") [(EStr "Upper Limit"); (ESlice (EName "r") (Some (EInt 87)) (Some (EInt 92))); (EAttr (EName "decoder") "field_121")] []); (ECall (EName "Field") [(EStr "Unit Indicator (2)"); (EItem (EName "r") (EInt 92)); (EAttr (EName "decoder") "field_133")] []); (ECall (EName "Field") [(EStr "Controlled Airspace Name"); (ESlice (EName "r") (Some (EInt 93)) (Some (EInt 123))); (EAttr (EName "decoder") "field_216")] []); (ECall (EName "Field") [(EStr "File Record No"); (ESlice (EName "r") (Some (EInt 123)) (Some (EInt 128))); (EAttr (EName "decoder") "field_031")] []); (ECall (EName "Field") [(EStr "Cycle Date"); (ESlice (EName "r") (Some (EInt 128)) (Some (EInt 132))); (EAttr (EName "decoder") "field_032")] [])]))];
    SDef "read_cont" [("self", None); ("r", None)]
      [SReturn (Some (EList [(ECall (EName "Field") [(EStr "Record Type"); (EItem (EName "r") (EInt 0)); (EAttr (EName "decoder") "field_002")] []); (ECall (EName "Field") [(EStr "Customer / Area Code"); (ESlice (EName "r") (Some (EInt 1)) (Some (EInt 4))); (EAttr (EName "decoder") "field_003")] []); (ECall (EName "Field") [(EStr "Section Code"); (ESlice (EName "r") (Some (EInt 4)) (Some (EInt 6))); (EAttr (EName "decoder") "field_004")] []); (ECall (EName "Field") [(EStr "ICAO Code"); (ESlice (EName "r") (Some (EInt 6)) (Some (EInt 8))); (EAttr (EName "decoder") "field_014")] []); (ECall (EName "Field") [(EStr "Airspace Type"); (EItem (EName "r") (EInt 9)); (EAttr (EName "decoder") "field_213")] []); (ECall (EName "Field") [(EStr "Airspace Center"); (ESlice (EName "r") (Some (EInt 9)) (Some (EInt 14))); (EAttr (EName "decoder") "field_214")] []); (ECall (EName "Field") [(EStr "Section Code (2)"); (ESlice (EName "r") (Some (EInt 14)) (Some (EInt 16))); (EAttr (EName "decoder") "field_004")] []); (ECall (EName "Field") [(EStr "Airspace Classification"); (EItem (EName "r") (EInt 16)); (EAttr (EName "decoder") "field_215")] []); (ECall (EName "Field") [(EStr "Multiple Code"); (EItem (EName "r") (EInt 19)); (EAttr (EName "decoder") "field_130")] []); (ECall (EName "Field") [(EStr "Sequence Number"); (ESlice (EName "r") (Some (EInt 20)) (Some (EInt 24))); (EAttr (EName "decoder") "field_012")] []); (ECall (EName "Field") [(EStr "Continuation Record No"); (EItem (EName "r") (EInt 24)); (EAttr (EName "decoder") "field_016")] []); (ECall (EName "Field") [(EStr "Application Type"); (EItem (EName "r") (EInt 25)); (EAttr (EName "decoder") "field_091")] []); (ECall (EName "Field") [(EStr "Time Code"); (EItem (EName "r") (EInt 26)); (EAttr (EName "decoder") "field_131")] []); (ECall (EName "Field") [(EStr "NOTAM"); (EItem (EName "r") (EInt 27)); (EAttr (EName "decoder") "field_132")] []); (ECall (EName "Field") [(EStr "Time Indicator"); (EItem (EName "r") (EInt 28)); (EAttr (EName "decoder") "field_138")] []); (ECall (EName "Field") [(EStr "Time of Operations"); (ESlice (EName "r") (Some (EInt 29)) (Some (EInt 39))); (EAttr (EName "decoder") "field_195")] []); (ECall (EName "Field") [(EStr "Time of Operations (2)"); (ESlice (EName "r") (Some (EInt 39)) (Some (EInt 49))); (EAttr (EName "decoder") "field_195")] []); (ECall (EName "Field") [(EStr "Time of Operations (3)"); (ESlice (EName "r") (Some (EInt 49)) (Some (EInt 59))); (EAttr (EName "decoder") "field_195")] []); (ECall (EName "Field") [(EStr "Time of Operations (4)"); (ESlice (EName "r") (Some (EInt 59)) (Some (EInt 69))); (EAttr (EName "decoder") "field_195")] []); (ECall (EName "Field") [(EStr "Time of Operations (5)"); (ESlice (EName "r") (Some (EInt 69)) (Some (EInt 79))); (EAttr (EName "decoder") "field_195")] []); (ECall (EName "Field") [(EStr "Time of Operations (6)"); (ESlice (EName "r") (Some (EInt 79)) (Some (EInt 89))); (EAttr (EName "decoder") "field_195")] []); (ECall (EName "Field") [(EStr "Time of Operations (7)"); (ESlice (EName "r") (Some (EInt 89)) (Some (EInt 99))); (EAttr (EName "decoder") "field_195")] []); (ECall (EName "Field") [(EStr "Controlling Agency"); (ESlice (EName "r") (Some (EInt 99)) (Some (EInt 123))); (EAttr (EName "decoder") "field_140")] []); (ECall (EName "Field") [(EStr "File Record No"); (ESlice (EName "r") (Some (EInt 123)) (Some (EInt 128))); (EAttr (EName "decoder") "field_031")] []); (ECall (EName "Field") [(EStr "Cycle Date"); (ESlice (EName "r") (Some (EInt 128)) (Some (EInt 132))); (EAttr (EName "decoder") "field_032")] [])]))]].

(* src/arinc424/definitions/ControlledAirspace.py *)
Definition py_ControlledAirspace : pymodule := [
  SFrom "arinc424.decoder" "Field" "Field";
  SImport "arinc424.decoder" "decoder";
  py_ControlledAirspace_ControlledAirspace].

(* src/arinc424/definitions/CruisingTables.py:6-35 *)
Definition py_CruisingTables_CruisingTables : stmt :=
  SClass "CruisingTables"
    [SDef "read" [("self", None); ("line", None); ("primary", None)]
      [SReturn (Some (ECall (EAttr (EName "self") "read_primary") [(EName "line")] []))];
    SDef "read_primary" [("self", None); ("r", None)]
      [SReturn (Some (EList [(ECall (EName "Field") [(EStr "Record Type"); (EItem (EName "r") (EInt 0)); (EAttr (EName "decoder") "field_002")] []); (ECall (EName "Field") [(EStr "Section Code"); (ESlice (EName "r") (Some (EInt 4)) (Some (EInt 6))); (EAttr (EName "decoder") "field_004")] []); (ECall (EName "Field") [(EStr "Cruise Table Identifier"); (ESlice (EName "r") (Some (EInt 6)) (Some (EInt 8))); (EAttr (EName "decoder") "field_134")] []); (ECall (EName "Field") [(EStr "Sequence Number"); (EItem (EName "r") (EInt 8)); (EAttr (EName "decoder") "field_012")] []); (ECall (EName "Field") [(EStr "Course From"); (ESlice (EName "r") (Some (EInt 28)) (Some (EInt 32))); (EAttr (EName "decoder") "field_135")] []); (ECall (EName "Field") [(EStr "Course To"); (ESlice (EName "r") (Some (EInt 32)) (Some (EInt 36))); (EAttr (EName "decoder") "field_135")] []); (ECall (EName "Field") [(EStr "Mag/True"); (EItem (EName "r") (EInt 36)); (EAttr (EName "decoder") "field_165")] []); (ECall (EName "Field") [(EStr "Cruise Level From"); (ESlice (EName "r") (Some (EInt 39)) (Some (EInt 44))); (EAttr (EName "decoder") "field_136")] []); (ECall (EName "Field") [(EStr "Vertical Separation"); (ESlice (EName "r") (Some (EInt 44)) (Some (EInt 49))); (EAttr (EName "decoder") "field_137")] []); (ECall (EName "Field") [(EStr "Cruise Level To "); (ESlice (EName "r") (Some (EInt 49)) (Some (EInt 54))); (EAttr (EName "decoder") "field_136")] []); (ECall (EName "Field") [(EStr "Cruise Level From (2)"); (ESlice (EName "r") (Some (EInt 54)) (Some (EInt 59))); (EAttr (EName "decoder") "field_136")] []); (ECall (EName "Field") [(EStr "Vertical Separation (2)"); (ESlice (EName "r") (Some (EInt 59)) (Some (EInt 64))); (EAttr (EName "decoder") "field_137")] []); (ECall (EName "Field") [(EStr "Cruise Level To (2)"); (ESlice (EName "r") (Some (EInt 64)) (Some (EInt 69))); (EAttr (EName "decoder") "field_136")] []); (ECall (EName "Field") [(EStr "Cruise Level From (3)"); (ESlice (EName "r") (Some (EInt 69)) (Some (EInt 74))); (EAttr (EName "decoder") "field_136")] []); (ECall (EName "Field") [(EStr "Vertical Separation (3)"); (ESlice (EName "r") (Some (EInt 74)) (Some (EInt 79))); (EAttr (EName "decoder") "field_137")] []); (ECall (EName "Field") [(EStr "Cruise Level To (3)"); (ESlice (EName "r") (Some (EInt 79)) (Some (EInt 84))); (EAttr (EName "decoder") "field_136")] []); (ECall (EName "Field") [(EStr "Cruise Level From (4)"); (ESlice (EName "r") (Some (EInt 84)) (Some (EInt 89))); (EAttr (EName "decoder") "field_136")] []); (ECall (EName "Field") [(EStr "Vertical Separation (4)"); (ESlice (EName "r") (Some (EInt 89)) (Some (EInt 94))); (EAttr (EName "decoder") "field_137")] []); (ECall (EName "Field") [(EStr "Cruise Level To (4)"); (ESlice (EName "r") (Some (EInt 94)) (Some (EInt 99))); (EAttr (EName "decoder") "field_136")] []); (ECall (EName "Field") [(EStr "File Record No"); (ESlice (EName "r") (Some (EInt 123)) (Some (EInt 128))); (EAttr (EName "decoder") "field_031")] []); (ECall (EName "Field") [(EStr "Cycle Date"); (ESlice (EName "r") (Some (EInt 128)) (Some (EInt 132))); (EAttr (EName "decoder") "field_032")] [])]))]].

(* src/arinc424/definitions/CruisingTables.py *)
Definition py_CruisingTables : pymodule := [
  SFrom "arinc424.decoder" "Field" "Field";
  SImport "arinc424.decoder" "decoder";
  py_CruisingTables_CruisingTables].

(* src/arinc424/definitions/EnrouteAirways.py:6-153 *)
Definition py_EnrouteAirways_EnrouteAirways : stmt :=
  SClass "EnrouteAirways"
    [SAssign (EName "cont_idx") (EInt 38);
    SAssign (EName "app_idx") (EInt 39);
    SAssign (EName "continuations") (EList [(EStr "A"); (EStr "P"); (EStr "Q")]);
    SAssign (EName "name") (EStr "Enroute Airways");
    SDef "application_type" [("self", None); ("line", None)]
      [SReturn (Some (EItem (EName "line") (EAttr (EName "self") "app_idx")))];
    SDef "read" [("self", None); ("line", None); ("primary", None)]
      [SIf (EName "primary")
        [SReturn (Some (ECall (EAttr (EName "self") "read_primary") [(EName "line")] []))]
        [];
      SAssign (EName "application") (EItem (EName "line") (EAttr (EName "self") "app_idx"));
      SMatch (EName "application")
        [(PValue (EStr "A"), [SReturn (Some (ECall (EAttr (EName "self") "read_cont") [(EName "line")] []))]);
        (PValue (EStr "P"), [SReturn (Some (ECall (EAttr (EName "self") "read_flight_plan0") [(EName "line")] []))]);
        (PValue (EStr "Q"), [SReturn (Some (ECall (EAttr (EName "self") "read_flight_plan1") [(EName "line")] []))]);
        (PWild, [SRaise (ECall (EName "ValueError") [(EStr "Unknown Application Type")] [])])]];
    SDef "read_primary" [("self", None); ("r", None)]
      [SReturn (Some (EList [(ECall (EName "Field") [(EStr "Record Type"); (EItem (EName "r") (EInt 0)); (EAttr (EName "decoder") "field_002")] []); (ECall (EName "Field") [(EStr "Customer / Area Code"); (ESlice (EName "r") (Some (EInt 1)) (Some (EInt 4))); (EAttr (EName "decoder") "field_003")] []); (ECall (EName "Field") [(EStr "Section Code"); (ESlice (EName "r") (Some (EInt 4)) (Some (EInt 6))); (EAttr (EName "decoder") "field_004")] []); (ECall (EName "Field") [(EStr "Route Identifier"); (ESlice (EName "r") (Some (EInt 13)) (Some (EInt 18))); (EAttr (EName "decoder") "field_008")] []); (ECall (EName "Field") [(EStr "Sequence Number"); (ESlice (EName "r") (Some (EInt 25)) (Some (EInt 29))); (EAttr (EName "decoder") "field_012")] []); (ECall (EName "Field") [(EStr "Fix Identifier"); (ESlice (EName "r") (Some (EInt 29)) (Some (EInt 34))); (EAttr (EName "decoder") "field_013")] []); (ECall (EName "Field") [(EStr "ICAO Code"); (ESlice (EName "r") (Some (EInt 34)) (Some (EInt 36))); (EAttr (EName "decoder") "field_014")] []); (ECall (EName "Field") [(EStr "Section Code (2)"); (ESlice (EName "r") (Some (EInt 36)) (Some (EInt 38))); (EAttr (EName "decoder") "field_004")] []); (ECall (EName "Field") [(EStr "Continuation Record No"); (EItem (EName "r") (EInt 38)); (EAttr (EName "decoder") "field_016")] []); (ECall (EName "Field") [(EStr "Waypoint Desc Code"); (ESlice (EName "r") (Some (EInt 39)) (Some (EInt 43))); (EAttr (EName "decoder") "field_017")] []); (ECall (EName "Field") [(EStr "Boundary Code"); (EItem (EName "r") (EInt 43)); (EAttr (EName "decoder") "field_018")] []); (ECall (EName "Field") [(EStr "Route Type"); (EItem (EName "r") (EInt 44)); (EAttr (EName "decoder") "field_007")] []); (ECall (EName "Field") [(EStr "Level"); (EItem (EName "r") (EInt 45)); (EAttr (EName "decoder") "field_019")] []); (ECall (EName "Field") [(EStr "Direction Restriction"); (EItem (EName "r") (EInt 46)); (EAttr (EName "decoder") "field_115")] []); (ECall (EName "Field") [(EStr "Cruise Table Indicator"); (ESlice (EName "r") (Some (EInt 47)) (Some (EInt 49))); (EAttr (EName "decoder") "field_134")] []); (ECall (EName "Field") [(EStr "EU Indicator"); (EItem (EName "r") (EInt 49)); (EAttr (EName "decoder") "field_164")] []); (ECall (EName "Field") [(EStr "Recommended NAVAID"); (ESlice (EName "r") (Some (EInt 50)) (Some (EInt 54))); (EAttr (EName "decoder") "field_023")] []); (ECall (EName "Field") [(EStr "ICAO Code (2)"); (ESlice (EName "r") (Some (EInt 54)) (Some (EInt 56))); (EAttr (EName "decoder") "field_014")] []); (ECall (EName "Field") [(EStr "RNP"); (ESlice (EName "r") (Some (EInt 56)) (Some (EInt 59))); (EAttr (EName "decoder") "field_211")] []); (ECall (EName "Field") [(EStr "Theta"); (ESlice (EName "r") (Some (EInt 62)) (Some (EInt 66))); (EAttr (EName "decoder") "field_024")] []); (ECall (EName "Field") [(EStr "Rho"); (ESlice (EName "r") (Some (EInt 66)) (Some (EInt 70))); (EAttr (EName "decoder") "field_025")] []); (ECall (EName "Field") [(EStr "Outbound Magnetic Course"); (ESlice (EName "r") (Some (EInt 70)) (Some (EInt 74))); (EAttr (EName "decoder") "field_026")] []); (ECall (EName "Field") [(EStr "Route Distance From"); (ESlice (EName "r") (Some (EInt 74)) (Some (EInt 78))); (EAttr (EName "decoder") "field_027")] []); (ECall (EName "Field") [(EStr "Inbound Magnetic Course"); (ESlice (EName "r") (Some (EInt 78)) (Some (EInt 82))); (EAttr (EName "decoder") "field_028")] []); (ECall (EName "Field") [(EStr "Minimum Altitude"); (ESlice (EName "r") (Some (EInt 83)) (Some (EInt 88))); (EAttr (EName "decoder") "field_030")] []); (ECall (EName "Field") [(EStr "Minimum Altitude (2)"); (ESlice (EName "r") (Some (EInt 88)) (Some (EInt 93))); (EAttr (EName "decoder") "field_030")] []); (ECall (EName "Field") [(EStr "Maximum Altitude"); (ESlice (EName "r") (Some (EInt 93)) (Some (EInt 98))); (EAttr (EName "decoder") "field_127")] []); (ECall (EName "Field") [(EStr "Fix Radius Transition Indicator"); (ESlice (EName "r") (Some (EInt 98)) (Some (EInt 101))); (EAttr (EName "decoder") "field_254")] []); (ECall (EName "Field") [(EStr "File Record No"); (ESlice (EName "r") (Some (EInt 123)) (Some (EInt 128))); (EAttr (EName "decoder") "field_031")] []); (ECall (EName "Field") [(EStr "Cycle Date"); (ESlice (EName "r") (Some (EInt 128)) (Some (EInt 132))); (EAttr (EName "decoder") "field_032")] [])]))];
    SDef "read_cont" [("self", None); ("r", None)]
      [SReturn (Some (EList [(ECall (EName "Field") [(EStr "Record Type"); (EItem (EName "r") (EInt 0)); (EAttr (EName "decoder") "field_002")] []); (ECall (EName "Field") [(EStr "Customer / Area Code"); (ESlice (EName "r") (Some (EInt 1)) (Some (EInt 4))); (EAttr (EName "decoder") "field_003")] []); (ECall (EName "Field") [(EStr "Section Code"); (ESlice (EName "r") (Some (EInt 4)) (Some (EInt 6))); (EAttr (EName "decoder") "field_004")] []); (ECall (EName "Field") [(EStr "Route Identifier"); (ESlice (EName "r") (Some (EInt 13)) (Some (EInt 18))); (EAttr (EName "decoder") "field_008")] []); (ECall (EName "Field") [(EStr "Sequence Number"); (ESlice (EName "r") (Some (EInt 25)) (Some (EInt 29))); (EAttr (EName "decoder") "field_012")] []); (ECall (EName "Field") [(EStr "Fix Identifier"); (ESlice (EName "r") (Some (EInt 29)) (Some (EInt 34))); (EAttr (EName "decoder") "field_013")] []); (ECall (EName "Field") [(EStr "ICAO Code"); (ESlice (EName "r") (Some (EInt 34)) (Some (EInt 36))); (EAttr (EName "decoder") "field_014")] []); (ECall (EName "Field") [(EStr "Section Code (2)"); (ESlice (EName "r") (Some (EInt 36)) (Some (EInt 38))); (EAttr (EName "decoder") "field_004")] []); (ECall (EName "Field") [(EStr "Continuation Record No"); (EItem (EName "r") (EInt 38)); (EAttr (EName "decoder") "field_016")] []); (ECall (EName "Field") [(EStr "Application Type"); (EItem (EName "r") (EInt 39)); (EAttr (EName "decoder") "field_091")] []); (ECall (EName "Field") [(EStr "Notes"); (ESlice (EName "r") (Some (EInt 40)) (Some (EInt 109))); (EAttr (EName "decoder") "field_061")] []); (ECall (EName "Field") [(EStr "File Record No"); (ESlice (EName "r") (Some (EInt 123)) (Some (EInt 128))); (EAttr (EName "decoder") "field_031")] []); (ECall (EName "Field") [(EStr "Cycle Date"); (ESlice (EName "r") (Some (EInt 128)) (Some (EInt 132))); (EAttr (EName "decoder") "field_032")] [])]))];
    SDef "read_flight_plan0" [("self", None); ("r", None)]
      [SReturn (Some (EList [(ECall (EName "Field") [(EStr "Record Type"); (EItem (EName "r") (EInt 0)); (EAttr (EName "decoder") "field_002")] []); (ECall (EName "Field") [(EStr "Customer / Area Code"); (ESlice (EName "r") (Some (EInt 1)) (Some (EInt 4))); (EAttr (EName "decoder") "field_003")] []); (ECall (EName "Field") [(EStr "Section Code"); (ESlice (EName "r") (Some (EInt 4)) (Some (EInt 6))); (EAttr (EName "decoder") "field_004")] []); (ECall (EName "Field") [(EStr "Route Identifier"); (ESlice (EName "r") (Some (EInt 13)) (Some (EInt 18))); (EAttr (EName "decoder") "field_008")] []); (ECall (EName "Field") [(EStr "Sequence Number"); (ESlice (EName "r") (Some (EInt 25)) (Some (EInt 29))); (EAttr (EName "decoder") "field_012")] []); (ECall (EName "Field") [(EStr "Fix Identifier"); (ESlice (EName "r") (Some (EInt 29)) (Some (EInt 34))); (EAttr (EName "decoder") "field_013")] []); (ECall (EName "Field") [(EStr "ICAO Code"); (ESlice (EName "r") (Some (EInt 34)) (Some (EInt 36))); (EAttr (EName "decoder") "field_014")] []); (ECall (EName "Field") [(EStr "Section Code (2)"); (ESlice (EName "r") (Some (EInt 36)) (Some (EInt 38))); (EAttr (EName "decoder") "field_004")] []); (ECall (EName "Field") [(EStr "Continuation Record No"); (EItem (EName "r") (EInt 38)); (EAttr (EName "decoder") "field_016")] []); (ECall (EName "Field") [(EStr "Application Type"); (EItem (EName "r") (EInt 39)); (EAttr (EName "decoder") "field_091")] []); (ECall (EName "Field") [(EStr "Start/End Indicator"); (EItem (EName "r") (EInt 40)); (EAttr (EName "decoder") "field_152")] []); (ECall (EName "Field") [(EStr "Start/End Date"); (ESlice (EName "r") (Some (EInt 41)) (Some (EInt 52))); (EAttr (EName "decoder") "field_153")] []); (ECall (EName "Field") [(EStr "Restr. Air ICAO Code"); (ESlice (EName "r") (Some (EInt 66)) (Some (EInt 68))); (EAttr (EName "decoder") "field_014")] []); (ECall (EName "Field") [(EStr "Restr. Air Type"); (EItem (EName "r") (EInt 68)); (EAttr (EName "decoder") "field_128")] []); (ECall (EName "Field") [(EStr "Restr. Air Designation"); (ESlice (EName "r") (Some (EInt 69)) (Some (EInt 79))); (EAttr (EName "decoder") "field_129")] []); (ECall (EName "Field") [(EStr "Restr. Air Multiple Code"); (EItem (EName "r") (EInt 79)); (EAttr (EName "decoder") "field_130")] []); (ECall (EName "Field") [(EStr "Restr. Air ICAO Code (2)"); (ESlice (EName "r") (Some (EInt 80)) (Some (EInt 82))); (EAttr (EName "decoder") "field_014")] []); (ECall (EName "Field") [(EStr "Restr. Air Type (2)"); (EItem (EName "r") (EInt 82)); (EAttr (EName "decoder") "field_012")] []); (ECall (EName "Field") [(EStr "Restr. Air Designation (2)"); (ESlice (EName "r") (Some (EInt 83)) (Some (EInt 93))); (EAttr (EName "decoder") "field_129")] []); (ECall (EName "Field") [(EStr "Restr. Air Multiple Code (2)"); (EItem (EName "r") (EInt 93)); (EAttr (EName "decoder") "field_130")] []); (ECall (EName "Field") [(EStr "Restr. Air ICAO Code (3)"); (ESlice (EName "r") (Some (EInt 94)) (Some (EInt 96))); (EAttr (EName "decoder") "field_014")] []); (ECall (EName "Field") [(EStr "Restr. Air Type (3)"); (EItem (EName "r") (EInt 96)); (EAttr (EName "decoder") "field_012")] []); (ECall (EName "Field") [(EStr "Restr. Air Designation (3)"); (ESlice (EName "r") (Some (EInt 97)) (Some (EInt 107))); (EAttr (EName "decoder") "field_129")] []); (ECall (EName "Field") [(EStr "Restr. Air Multiple Code (3)"); (EItem (EName "r") (EInt 107)); (EAttr (EName "decoder") "field_130")] []); (ECall (EName "Field") [(EStr "Restr. Air ICAO Code (4)"); (ESlice (EName "r") (Some (EInt 108)) (Some (EInt 110))); (EAttr (EName "decoder") "field_014")] []); (ECall (EName "Field") [(EStr "Restr. Air Type (4)"); (EItem (EName "r") (EInt 110)); (EAttr (EName "decoder") "field_012")] []); (ECall (EName "Field") [(EStr "Restr. Air Designation (4)"); (ESlice (EName "r") (Some (EInt 111)) (Some (EInt 121))); (EAttr (EName "decoder") "field_129")] []); (ECall (EName "Field") [(EStr "Restr. Air Link Continuation"); (EItem (EName "r") (EInt 122)); (EAttr (EName "decoder") "field_174")] []); (ECall (EName "Field") [(EStr "File Record No"); (ESlice (EName "r") (Some (EInt 123)) (Some (EInt 128))); (EAttr (EName "decoder") "field_031")] []); (ECall (EName "Field") [(EStr "Cycle Date"); (ESlice (EName "r") (Some (EInt 128)) (Some (EInt 132))); (EAttr (EName "decoder") "field_032")] [])]))];
    SDef "read_flight_plan1" [("self", None); ("r", None)]
      [SReturn (Some (EList [(ECall (EName "Field") [(EStr "Record Type"); (EItem (EName "r") (EInt 0)); (EAttr (EName "decoder") "field_002")] []); (ECall (EName "Field") [(EStr "Customer / Area Code"); (ESlice (EName "r") (Some (EInt 1)) (Some (EInt 4))); (EAttr (EName "decoder") "field_003")] []); (ECall (EName "Field") [(EStr "Section Code"); (ESlice (EName "r") (Some (EInt 4)) (Some (EInt 6))); (EAttr (EName "decoder") "field_004")] []); (ECall (EName "Field") [(EStr "Route Identifier"); (ESlice (EName "r") (Some (EInt 13)) (Some (EInt 18))); (EAttr (EName "decoder") "field_008")] []); (ECall (EName "Field") [(EStr "Sequence Number"); (ESlice (EName "r") (Some (EInt 25)) (Some (EInt 29))); (EAttr (EName "decoder") "field_012")] []); (ECall (EName "Field") [(EStr "Fix Identifier"); (ESlice (EName "r") (Some (EInt 29)) (Some (EInt 34))); (EAttr (EName "decoder") "field_013")] []); (ECall (EName "Field") [(EStr "ICAO Code"); (ESlice (EName "r") (Some (EInt 34)) (Some (EInt 36))); (EAttr (EName "decoder") "field_014")] []); (ECall (EName "Field") [(EStr "Section Code (2)"); (ESlice (EName "r") (Some (EInt 36)) (Some (EInt 38))); (EAttr (EName "decoder") "field_004")] []); (ECall (EName "Field") [(EStr "Continuation Record No"); (EItem (EName "r") (EInt 38)); (EAttr (EName "decoder") "field_016")] []); (ECall (EName "Field") [(EStr "Waypoint Desc Code"); (ESlice (EName "r") (Some (EInt 39)) (Some (EInt 43))); (EAttr (EName "decoder") "field_017")] []); (ECall (EName "Field") [(EStr "Boundary Code"); (EItem (EName "r") (EInt 43)); (EAttr (EName "decoder") "field_018")] []); (ECall (EName "Field") [(EStr "Route Type"); (EItem (EName "r") (EInt 44)); (EAttr (EName "decoder") "field_007")] []); (ECall (EName "Field") [(EStr "Level"); (EItem (EName "r") (EInt 45)); (EAttr (EName "decoder") "field_019")] []); (ECall (EName "Field") [(EStr "Direction Restriction"); (EItem (EName "r") (EInt 46)); (EAttr (EName "decoder") "field_115")] []); (ECall (EName "Field") [(EStr "Cruise Table Indicator"); (ESlice (EName "r") (Some (EInt 47)) (Some (EInt 49))); (EAttr (EName "decoder") "field_134")] []); (ECall (EName "Field") [(EStr "EU Indicator"); (EItem (EName "r") (EInt 49)); (EAttr (EName "decoder") "field_164")] []); (ECall (EName "Field") [(EStr "Recommended NAVAID"); (ESlice (EName "r") (Some (EInt 50)) (Some (EInt 54))); (EAttr (EName "decoder") "field_023")] []); (ECall (EName "Field") [(EStr "ICAO Code (2)"); (ESlice (EName "r") (Some (EInt 54)) (Some (EInt 56))); (EAttr (EName "decoder") "field_014")] []); (ECall (EName "Field") [(EStr "RNP"); (ESlice (EName "r") (Some (EInt 56)) (Some (EInt 59))); (EAttr (EName "decoder") "field_211")] []); (ECall (EName "Field") [(EStr "Theta"); (ESlice (EName "r") (Some (EInt 62)) (Some (EInt 66))); (EAttr (EName "decoder") "field_024")] []); (ECall (EName "Field") [(EStr "Rho"); (ESlice (EName "r") (Some (EInt 66)) (Some (EInt 70))); (EAttr (EName "decoder") "field_025")] []); (ECall (EName "Field") [(EStr "Outbound Magnetic Course"); (ESlice (EName "r") (Some (EInt 70)) (Some (EInt 74))); (EAttr (EName "decoder") "field_026")] []); (ECall (EName "Field") [(EStr "Route Distance From"); (ESlice (EName "r") (Some (EInt 74)) (Some (EInt 78))); (EAttr (EName "decoder") "field_027")] []); (ECall (EName "Field") [(EStr "Inbound Magnetic Course"); (ESlice (EName "r") (Some (EInt 78)) (Some (EInt 82))); (EAttr (EName "decoder") "field_028")] []); (ECall (EName "Field") [(EStr "Minimum Altitude"); (ESlice (EName "r") (Some (EInt 83)) (Some (EInt 88))); (EAttr (EName "decoder") "field_030")] []); (ECall (EName "Field") [(EStr "Minimum Altitude (2)"); (ESlice (EName "r") (Some (EInt 88)) (Some (EInt 93))); (EAttr (EName "decoder") "field_030")] []); (ECall (EName "Field") [(EStr "Maximum Altitude"); (ESlice (EName "r") (Some (EInt 93)) (Some (EInt 98))); (EAttr (EName "decoder") "field_127")] []); (ECall (EName "Field") [(EStr "Fix Radius Transition Indicator"); (ESlice (EName "r") (Some (EInt 98)) (Some (EInt 101))); (EAttr (EName "decoder") "field_254")] []); (ECall (EName "Field") [(EStr "File Record No"); (ESlice (EName "r") (Some (EInt 123)) (Some (EInt 128))); (EAttr (EName "decoder") "field_031")] []); (ECall (EName "Field") [(EStr "Cycle Date"); (ESlice (EName "r") (Some (EInt 128)) (Some (EInt 132))); (EAttr (EName "decoder") "field_032")] [])]))]].

(* src/arinc424/definitions/EnrouteAirways.py *)
Definition py_EnrouteAirways : pymodule := [
  SFrom "arinc424.decoder" "Field" "Field";
  SImport "arinc424.decoder" "decoder";
  py_EnrouteAirways_EnrouteAirways].

(* src/arinc424/definitions/EnrouteAirwaysRestriction.py:6-262 *)
Definition py_EnrouteAirwaysRestriction_EnrouteAirwaysRestriction : stmt :=
  SClass "EnrouteAirwaysRestriction"
    [SAssign (EName "continuations") (EList [(EStr "AE"); (EStr "TC"); (EStr "NR")]);
    SAssign (EName "name") (EStr "Enroute Airways");
    SDef "application_type" [("self", None); ("line", None)]
      [SReturn (Some (ESlice (EName "line") (Some (EInt 15)) (Some (EInt 17))))];
    SDef "read" [("self", None); ("line", None); ("primary", None)]
      [SAssign (EName "application") (ECall (EAttr (EName "self") "application_type") [(EName "line")] []);
      SIf (EName "primary")
        [SMatch (EName "application")
          [(PValue (EStr "AE"), [SReturn (Some (ECall (EAttr (EName "self") "primary_altitude_exclude") [(EName "line")] []))]);
          (PValue (EStr "TC"), [SReturn (Some (ECall (EAttr (EName "self") "primary_cruise_table") [(EName "line")] []))]);
          (PValue (EStr "SC"), [SReturn (Some (ECall (EAttr (EName "self") "primary_seasonal_closure") [(EName "line")] []))]);
          (PValue (EStr "NR"), [SReturn (Some (ECall (EAttr (EName "self") "primary_note_restriction") [(EName "line")] []))]);
          (PWild, [SRaise (ECall (EName "ValueError") [(EStr "Unknown Restricted Airway Type")] [])])]]
        [SMatch (EName "application")
          [(PValue (EStr "AE"), [SReturn (Some (ECall (EAttr (EName "self") "cont_altitude_exclude") [(EName "line")] []))]);
          (PValue (EStr "TC"), [SReturn (Some (ECall (EAttr (EName "self") "cont_cruise_table") [(EName "line")] []))]);
          (PValue (EStr "NR"), [SReturn (Some (ECall (EAttr (EName "self") "cont_note_restriction") [(EName "line")] []))]);
          (PWild, [SRaise (ECall (EName "ValueError") [(EStr "Unknown Restricted Airway Type")] [])])]]];
    SDef "primary_altitude_exclude" [("self", None); ("r", None)]
      [SReturn (Some (EList [(ECall (EName "Field") [(EStr "Record Type"); (EItem (EName "r") (EInt 0)); (EAttr (EName "decoder") "field_002")] []); (ECall (EName "Field") [(EStr "Customer / Area Code"); (ESlice (EName "r") (Some (EInt 1)) (Some (EInt 4))); (EAttr (EName "decoder") "field_003")] []); (ECall (EName "Field") [(EStr "Section Code"); (ESlice (EName "r") (Some (EInt 4)) (Some (EInt 6))); (EAttr (EName "decoder") "field_004")] []); (ECall (EName "Field") [(EStr "Route Identifier"); (ESlice (EName "r") (Some (EInt 6)) (Some (EInt 11))); (EAttr (EName "decoder") "field_008")] []); (ECall (EName "Field") [(EStr "Restriction Identifier"); (ESlice (EName "r") (Some (EInt 12)) (Some (EInt 15))); (EAttr (EName "decoder") "field_154")] []); (ECall (EName "Field") [(EStr "Restriction Type"); (ESlice (EName "r") (Some (EInt 15)) (Some (EInt 17))); (EAttr (EName "decoder") "field_201")] []); (ECall (EName "Field") [(EStr "Continuation Record No"); (EItem (EName "r") (EInt 17)); (EAttr (EName "decoder") "field_016")] []); (ECall (EName "Field") [(EStr "Start Fix Identifier"); (ESlice (EName "r") (Some (EInt 18)) (Some (EInt 23))); (EAttr (EName "decoder") "field_013")] []); (ECall (EName "Field") [(EStr "Start Fix ICAO Code"); (ESlice (EName "r") (Some (EInt 23)) (Some (EInt 25))); (EAttr (EName "decoder") "field_014")] []); (ECall (EName "Field") [(EStr "Start Fix Section Code"); (ESlice (EName "r") (Some (EInt 25)) (Some (EInt 27))); (EAttr (EName "decoder") "field_004")] []); (ECall (EName "Field") [(EStr "End Fix Identifier"); (ESlice (EName "r") (Some (EInt 27)) (Some (EInt 32))); (EAttr (EName "decoder") "field_013")] []); (ECall (EName "Field") [(EStr "End Fix ICAO Code"); (ESlice (EName "r") (Some (EInt 32)) (Some (EInt 34))); (EAttr (EName "decoder") "field_014")] []); (ECall (EName "Field") [(EStr "End Fix Section Code"); (ESlice (EName "r") (Some (EInt 34)) (Some (EInt 36))); (EAttr (EName "decoder") "field_004")] []); (ECall (EName "Field") [(EStr "Start Date"); (ESlice (EName "r") (Some (EInt 37)) (Some (EInt 44))); (EAttr (EName "decoder") "field_157")] []); (ECall (EName "Field") [(EStr "End Date"); (ESlice (EName "r") (Some (EInt 44)) (Some (EInt 51))); (EAttr (EName "decoder") "field_157")] []); (ECall (EName "Field") [(EStr "Time Code"); (EItem (EName "r") (EInt 51)); (EAttr (EName "decoder") "field_131")] []); (ECall (EName "Field") [(EStr "Time Indicator"); (EItem (EName "r") (EInt 52)); (EAttr (EName "decoder") "field_138")] []); (ECall (EName "Field") [(EStr "Time of Operation"); (ESlice (EName "r") (Some (EInt 53)) (Some (EInt 63))); (EAttr (EName "decoder") "field_195")] []); (ECall (EName "Field") [(EStr "Time of Operation"); (ESlice (EName "r") (Some (EInt 63)) (Some (EInt 73))); (EAttr (EName "decoder") "field_195")] []); (ECall (EName "Field") [(EStr "Time of Operation"); (ESlice (EName "r") (Some (EInt 73)) (Some (EInt 83))); (EAttr (EName "decoder") "field_195")] []); (ECall (EName "Field") [(EStr "Time of Operation"); (ESlice (EName "r") (Some (EInt 83)) (Some (EInt 93))); (EAttr (EName "decoder") "field_195")] []); (ECall (EName "Field") [(EStr "Exclusion Indicator"); (EItem (EName "r") (EInt 93)); (EAttr (EName "decoder") "field_202")] []); (ECall (EName "Field") [(EStr "Units of Altitude"); (EItem (EName "r") (EInt 94)); (EAttr (EName "decoder") "field_160")] []); (ECall (EName "Field") [(EStr "Restriction Altitude"); (ESlice (EName "r") (Some (EInt 95)) (Some (EInt 98))); (EAttr (EName "decoder") "field_161")] []); (ECall (EName "Field") [(EStr "Block Indicator"); (EItem (EName "r") (EInt 98)); (EAttr (EName "decoder") "field_203")] []); (ECall (EName "Field") [(EStr "Restriction Altitude"); (ESlice (EName "r") (Some (EInt 99)) (Some (EInt 102))); (EAttr (EName "decoder") "field_161")] []); (ECall (EName "Field") [(EStr "Block Indicator"); (EItem (EName "r") (EInt 102)); (EAttr (EName "decoder") "field_203")] []); (ECall (EName "Field") [(EStr "Restriction Altitude"); (ESlice (EName "r") (Some (EInt 103)) (Some (EInt 106))); (EAttr (EName "decoder") "field_161")] []); (ECall (EName "Field") [(EStr "Block Indicator"); (EItem (EName "r") (EInt 106)); (EAttr (EName "decoder") "field_203")] []); (ECall (EName "Field") [(EStr "Restriction Altitude"); (ESlice (EName "r") (Some (EInt 107)) (Some (EInt 110))); (EAttr (EName "decoder") "field_161")] []); (ECall (EName "Field") [(EStr "Block Indicator"); (EItem (EName "r") (EInt 110)); (EAttr (EName "decoder") "field_203")] []); (ECall (EName "Field") [(EStr "Restriction Altitude"); (ESlice (EName "r") (Some (EInt 111)) (Some (EInt 114))); (EAttr (EName "decoder") "field_161")] []); (ECall (EName "Field") [(EStr "Block Indicator"); (EItem (EName "r") (EInt 114)); (EAttr (EName "decoder") "field_203")] []); (ECall (EName "Field") [(EStr "Restriction Altitude"); (ESlice (EName "r") (Some (EInt 115)) (Some (EInt 118))); (EAttr (EName "decoder") "field_161")] []); (ECall (EName "Field") [(EStr "Block Indicator"); (EItem (EName "r") (EInt 118)); (EAttr (EName "decoder") "field_203")] []); (ECall (EName "Field") [(EStr "Restriction Altitude"); (ESlice (EName "r") (Some (EInt 119)) (Some (EInt 122))); (EAttr (EName "decoder") "field_161")] []); (ECall (EName "Field") [(EStr "Block Indicator"); (EItem (EName "r") (EInt 122)); (EAttr (EName "decoder") "field_203")] []); (ECall (EName "Field") [(EStr "File Record No"); (ESlice (EName "r") (Some (EInt 123)) (Some (EInt 128))); (EAttr (EName "decoder") "field_031")] []); (ECall (EName "Field") [(EStr "Cycle Date"); (ESlice (EName "r") (Some (EInt 128)) (Some (EInt 132))); (EAttr (EName "decoder") "field_032")] [])]))];
    SDef "cont_altitude_exclude" [("self", None); ("r", None)]
      [SReturn (Some (EList [(ECall (EName "Field") [(EStr "Record Type"); (EItem (EName "r") (EInt 0)); (EAttr (EName "decoder") "field_002")] []); (ECall (EName "Field") [(EStr "Customer / Area Code"); (ESlice (EName "r") (Some (EInt 1)) (Some (EInt 4))); (EAttr (EName "decoder") "field_003")] []); (ECall (EName "Field") [(EStr "Section Code"); (ESlice (EName "r") (Some (EInt 4)) (Some (EInt 6))); (EAttr (EName "decoder") "field_004")] []); (ECall (EName "Field") [(EStr "Route Identifier"); (ESlice (EName "r") (Some (EInt 6)) (Some (EInt 11))); (EAttr (EName "decoder") "field_008")] []); (ECall (EName "Field") [(EStr "Restriction Identifier"); (ESlice (EName "r") (Some (EInt 12)) (Some (EInt 15))); (EAttr (EName "decoder") "field_154")] []); (ECall (EName "Field") [(EStr "Restriction Type"); (ESlice (EName "r") (Some (EInt 15)) (Some (EInt 17))); (EAttr (EName "decoder") "field_201")] []); (ECall (EName "Field") [(EStr "Continuation Record No"); (EItem (EName "r") (EInt 17)); (EAttr (EName "decoder") "field_016")] []); (ECall (EName "Field") [(EStr "Application Type"); (EItem (EName "r") (EInt 18)); (EAttr (EName "decoder") "field_091")] []); (ECall (EName "Field") [(EStr "Time Code"); (EItem (EName "r") (EInt 51)); (EAttr (EName "decoder") "field_131")] []); (ECall (EName "Field") [(EStr "Time Indicator"); (EItem (EName "r") (EInt 52)); (EAttr (EName "decoder") "field_138")] []); (ECall (EName "Field") [(EStr "Time of Operation"); (ESlice (EName "r") (Some (EInt 53)) (Some (EInt 63))); (EAttr (EName "decoder") "field_195")] []); (ECall (EName "Field") [(EStr "Time of Operation (2)"); (ESlice (EName "r") (Some (EInt 63)) (Some (EInt 73))); (EAttr (EName "decoder") "field_195")] []); (ECall (EName "Field") [(EStr "Time of Operation (3)"); (ESlice (EName "r") (Some (EInt 73)) (Some (EInt 83))); (EAttr (EName "decoder") "field_195")] []); (ECall (EName "Field") [(EStr "Time of Operation (4)"); (ESlice (EName "r") (Some (EInt 83)) (Some (EInt 93))); (EAttr (EName "decoder") "field_195")] []); (ECall (EName "Field") [(EStr "Exclusion Operator"); (EItem (EName "r") (EInt 93)); (EAttr (EName "decoder") "field_202")] []); (ECall (EName "Field") [(EStr "Units of Altitude"); (EItem (EName "r") (EInt 94)); (EAttr (EName "decoder") "field_160")] []); (ECall (EName "Field") [(EStr "Restriction Altitude"); (ESlice (EName "r") (Some (EInt 95)) (Some (EInt 98))); (EAttr (EName "decoder") "field_161")] []); (ECall (EName "Field") [(EStr "Block Indicator"); (EItem (EName "r") (EInt 98)); (EAttr (EName "decoder") "field_203")] []); (ECall (EName "Field") [(EStr "Restriction Altitude (2)"); (ESlice (EName "r") (Some (EInt 99)) (Some (EInt 102))); (EAttr (EName "decoder") "field_161")] []); (ECall (EName "Field") [(EStr "Block Indicator (2)"); (EItem (EName "r") (EInt 102)); (EAttr (EName "decoder") "field_203")] []); (ECall (EName "Field") [(EStr "Restriction Altitude (3)"); (ESlice (EName "r") (Some (EInt 103)) (Some (EInt 106))); (EAttr (EName "decoder") "field_161")] []); (ECall (EName "Field") [(EStr "Block Indicator (3)"); (EItem (EName "r") (EInt 106)); (EAttr (EName "decoder") "field_203")] []); (ECall (EName "Field") [(EStr "Restriction Altitude (4)"); (ESlice (EName "r") (Some (EInt 107)) (Some (EInt 110))); (EAttr (EName "decoder") "field_161")] []); (ECall (EName "Field") [(EStr "Block Indicator (4)"); (EItem (EName "r") (EInt 110)); (EAttr (EName "decoder") "field_203")] []); (ECall (EName "Field") [(EStr "Restriction Altitude (5)"); (ESlice (EName "r") (Some (EInt 111)) (Some (EInt 114))); (EAttr (EName "decoder") "field_161")] []); (ECall (EName "Field") [(EStr "Block Indicator (5)"); (EItem (EName "r") (EInt 114)); (EAttr (EName "decoder") "field_203")] []); (ECall (EName "Field") [(EStr "Restriction Altitude (6)"); (ESlice (EName "r") (Some (EInt 115)) (Some (EInt 118))); (EAttr (EName "decoder") "field_161")] []); (ECall (EName "Field") [(EStr "Block Indicator (6)"); (EItem (EName "r") (EInt 118)); (EAttr (EName "decoder") "field_203")] []); (ECall (EName "Field") [(EStr "Restriction Altitude (7)"); (ESlice (EName "r") (Some (EInt 119)) (Some (EInt 122))); (EAttr (EName "decoder") "field_161")] []); (ECall (EName "Field") [(EStr "Block Indicator (7)"); (EItem (EName "r") (EInt 122)); (EAttr (EName "decoder") "field_203")] []); (ECall (EName "Field") [(EStr "File Record No"); (ESlice (EName "r") (Some (EInt 123)) (Some (EInt 128))); (EAttr (EName "decoder") "field_031")] []); (ECall (EName "Field") [(EStr "Cycle Date"); (ESlice (EName "r") (Some (EInt 128)) (Some (EInt 132))); (EAttr (EName "decoder") "field_032")] [])]))];
    SDef "primary_note_restriction" [("self", None); ("r", None)]
      [SReturn (Some (EList [(ECall (EName "Field") [(EStr "Record Type"); (EItem (EName "r") (EInt 0)); (EAttr (EName "decoder") "field_002")] []); (ECall (EName "Field") [(EStr "Customer / Area Code"); (ESlice (EName "r") (Some (EInt 1)) (Some (EInt 4))); (EAttr (EName "decoder") "field_003")] []); (ECall (EName "Field") [(EStr "Section Code"); (ESlice (EName "r") (Some (EInt 4)) (Some (EInt 6))); (EAttr (EName "decoder") "field_004")] []); (ECall (EName "Field") [(EStr "Route Identifier"); (ESlice (EName "r") (Some (EInt 7)) (Some (EInt 11))); (EAttr (EName "decoder") "field_008")] []); (ECall (EName "Field") [(EStr "Restriction Identifier"); (ESlice (EName "r") (Some (EInt 12)) (Some (EInt 15))); (EAttr (EName "decoder") "field_154")] []); (ECall (EName "Field") [(EStr "Restriction Type"); (ESlice (EName "r") (Some (EInt 15)) (Some (EInt 17))); (EAttr (EName "decoder") "field_201")] []); (ECall (EName "Field") [(EStr "Continuation Record No"); (EItem (EName "r") (EInt 17)); (EAttr (EName "decoder") "field_016")] []); (ECall (EName "Field") [(EStr "Start Fix Identifier"); (ESlice (EName "r") (Some (EInt 18)) (Some (EInt 23))); (EAttr (EName "decoder") "field_013")] []); (ECall (EName "Field") [(EStr "Start Fix ICAO Code"); (ESlice (EName "r") (Some (EInt 23)) (Some (EInt 25))); (EAttr (EName "decoder") "field_014")] []); (ECall (EName "Field") [(EStr "Start Fix Section Code"); (EItem (EName "r") (EInt 25)); (EAttr (EName "decoder") "field_004")] []); (ECall (EName "Field") [(EStr "End Fix Identifier"); (ESlice (EName "r") (Some (EInt 27)) (Some (EInt 32))); (EAttr (EName "decoder") "field_013")] []); (ECall (EName "Field") [(EStr "End Fix ICAO Code"); (ESlice (EName "r") (Some (EInt 32)) (Some (EInt 34))); (EAttr (EName "decoder") "field_014")] []); (ECall (EName "Field") [(EStr "End Fix Section Code"); (ESlice (EName "r") (Some (EInt 34)) (Some (EInt 36))); (EAttr (EName "decoder") "field_004")] []); (ECall (EName "Field") [(EStr "Start Date"); (ESlice (EName "r") (Some (EInt 37)) (Some (EInt 44))); (EAttr (EName "decoder") "field_157")] []); (ECall (EName "Field") [(EStr "End Date"); (ESlice (EName "r") (Some (EInt 44)) (Some (EInt 51))); (EAttr (EName "decoder") "field_157")] []); (ECall (EName "Field") [(EStr "Restriction Notes"); (ESlice (EName "r") (Some (EInt 51)) (Some (EInt 120))); (EAttr (EName "decoder") "field_163")] []); (ECall (EName "Field") [(EStr "File Record No"); (ESlice (EName "r") (Some (EInt 123)) (Some (EInt 128))); (EAttr (EName "decoder") "field_031")] []); (ECall (EName "Field") [(EStr "Cycle Date"); (ESlice (EName "r") (Some (EInt 128)) (Some (EInt 132))); (EAttr (EName "decoder") "field_032")] [])]))];
    SDef "cont_note_restriction" [("self", None); ("r", None)]
      [SReturn (Some (EList [(ECall (EName "Field") [(EStr "Record Type"); (EItem (EName "r") (EInt 0)); (EAttr (EName "decoder") "field_002")] []); (ECall (EName "Field") [(EStr "Customer / Area Code"); (ESlice (EName "r") (Some (EInt 1)) (Some (EInt 4))); (EAttr (EName "decoder") "field_003")] []); (ECall (EName "Field") [(EStr "Section Code"); (ESlice (EName "r") (Some (EInt 4)) (Some (EInt 6))); (EAttr (EName "decoder") "field_004")] []); (ECall (EName "Field") [(EStr "Route Identifier"); (ESlice (EName "r") (Some (EInt 7)) (Some (EInt 11))); (EAttr (EName "decoder") "field_008")] []); (ECall (EName "Field") [(EStr "Restriction Identifier"); (ESlice (EName "r") (Some (EInt 12)) (Some (EInt 15))); (EAttr (EName "decoder") "field_154")] []); (ECall (EName "Field") [(EStr "Restriction Type"); (ESlice (EName "r") (Some (EInt 15)) (Some (EInt 17))); (EAttr (EName "decoder") "field_201")] []); (ECall (EName "Field") [(EStr "Continuation Record No"); (EItem (EName "r") (EInt 17)); (EAttr (EName "decoder") "field_016")] []); (ECall (EName "Field") [(EStr "Application Type"); (EItem (EName "r") (EInt 18)); (EAttr (EName "decoder") "field_091")] []); (ECall (EName "Field") [(EStr "Restriction Notes"); (ESlice (EName "r") (Some (EInt 51)) (Some (EInt 120))); (EAttr (EName "decoder") "field_163")] []); (ECall (EName "Field") [(EStr "File Record No"); (ESlice (EName "r") (Some (EInt 123)) (Some (EInt 128))); (EAttr (EName "decoder") "field_031")] []); (ECall (EName "Field") [(EStr "Cycle Date"); (ESlice (EName "r") (Some (EInt 128)) (Some (EInt 132))); (EAttr (EName "decoder") "field_032")] [])]))];
    SDef "primary_seasonal_closure" [("self", None); ("r", None)]
      [SReturn (Some (EList [(ECall (EName "Field") [(EStr "Record Type"); (EItem (EName "r") (EInt 0)); (EAttr (EName "decoder") "field_002")] []); (ECall (EName "Field") [(EStr "Customer / Area Code"); (ESlice (EName "r") (Some (EInt 1)) (Some (EInt 4))); (EAttr (EName "decoder") "field_003")] []); (ECall (EName "Field") [(EStr "Section Code"); (ESlice (EName "r") (Some (EInt 4)) (Some (EInt 6))); (EAttr (EName "decoder") "field_004")] []); (ECall (EName "Field") [(EStr "Route Identifier"); (ESlice (EName "r") (Some (EInt 6)) (Some (EInt 11))); (EAttr (EName "decoder") "field_008")] []); (ECall (EName "Field") [(EStr "Restriction Identifier"); (ESlice (EName "r") (Some (EInt 12)) (Some (EInt 15))); (EAttr (EName "decoder") "field_154")] []); (ECall (EName "Field") [(EStr "Restriction Type"); (ESlice (EName "r") (Some (EInt 15)) (Some (EInt 17))); (EAttr (EName "decoder") "field_201")] []); (ECall (EName "Field") [(EStr "Continuation Record No"); (EItem (EName "r") (EInt 17)); (EAttr (EName "decoder") "field_016")] []); (ECall (EName "Field") [(EStr "Start Fix Identifier"); (ESlice (EName "r") (Some (EInt 18)) (Some (EInt 23))); (EAttr (EName "decoder") "field_013")] []); (ECall (EName "Field") [(EStr "Start Fix ICAO Code"); (ESlice (EName "r") (Some (EInt 23)) (Some (EInt 25))); (EAttr (EName "decoder") "field_014")] []); (ECall (EName "Field") [(EStr "Start Fix Section Code"); (ESlice (EName "r") (Some (EInt 25)) (Some (EInt 27))); (EAttr (EName "decoder") "field_004")] []); (ECall (EName "Field") [(EStr "End Fix Identifier"); (ESlice (EName "r") (Some (EInt 27)) (Some (EInt 32))); (EAttr (EName "decoder") "field_013")] []); (ECall (EName "Field") [(EStr "End Fix ICAO Code"); (ESlice (EName "r") (Some (EInt 32)) (Some (EInt 34))); (EAttr (EName "decoder") "field_014")] []); (ECall (EName "Field") [(EStr "End Fix Section Code"); (ESlice (EName "r") (Some (EInt 34)) (Some (EInt 36))); (EAttr (EName "decoder") "field_004")] []); (ECall (EName "Field") [(EStr "Start Date"); (ESlice (EName "r") (Some (EInt 37)) (Some (EInt 44))); (EAttr (EName "decoder") "field_157")] []); (ECall (EName "Field") [(EStr "End Date"); (ESlice (EName "r") (Some (EInt 44)) (Some (EInt 51))); (EAttr (EName "decoder") "field_157")] []); (ECall (EName "Field") [(EStr "Time Code"); (EItem (EName "r") (EInt 51)); (EAttr (EName "decoder") "field_131")] []); (ECall (EName "Field") [(EStr "Time Indicator"); (EItem (EName "r") (EInt 52)); (EAttr (EName "decoder") "field_138")] []); (ECall (EName "Field") [(EStr "Time of Operation"); (ESlice (EName "r") (Some (EInt 53)) (Some (EInt 63))); (EAttr (EName "decoder") "field_195")] []); (ECall (EName "Field") [(EStr "Time of Operation (2)"); (ESlice (EName "r") (Some (EInt 63)) (Some (EInt 73))); (EAttr (EName "decoder") "field_195")] []); (ECall (EName "Field") [(EStr "Time of Operation (3)"); (ESlice (EName "r") (Some (EInt 73)) (Some (EInt 83))); (EAttr (EName "decoder") "field_195")] []); (ECall (EName "Field") [(EStr "Time of Operation (4)"); (ESlice (EName "r") (Some (EInt 83)) (Some (EInt 93))); (EAttr (EName "decoder") "field_195")] []); (ECall (EName "Field") [(EStr "Cruise Table Ident"); (ESlice (EName "r") (Some (EInt 93)) (Some (EInt 95))); (EAttr (EName "decoder") "field_134")] []); (ECall (EName "Field") [(EStr "File Record No"); (ESlice (EName "r") (Some (EInt 123)) (Some (EInt 128))); (EAttr (EName "decoder") "field_031")] []); (ECall (EName "Field") [(EStr "Cycle Date"); (ESlice (EName "r") (Some (EInt 128)) (Some (EInt 132))); (EAttr (EName "decoder") "field_032")] [])]))];
    SDef "primary_cruise_table" [("self", None); ("r", None)]
      [SReturn (Some (EList [(ECall (EName "Field") [(EStr "Record Type"); (EItem (EName "r") (EInt 0)); (EAttr (EName "decoder") "field_002")] []); (ECall (EName "Field") [(EStr "Customer / Area Code"); (ESlice (EName "r") (Some (EInt 1)) (Some (EInt 4))); (EAttr (EName "decoder") "field_003")] []); (ECall (EName "Field") [(EStr "Section Code"); (ESlice (EName "r") (Some (EInt 4)) (Some (EInt 6))); (EAttr (EName "decoder") "field_004")] []); (ECall (EName "Field") [(EStr "Route Identifier"); (ESlice (EName "r") (Some (EInt 6)) (Some (EInt 11))); (EAttr (EName "decoder") "field_008")] []); (ECall (EName "Field") [(EStr "Restriction Identifier"); (ESlice (EName "r") (Some (EInt 12)) (Some (EInt 15))); (EAttr (EName "decoder") "field_154")] []); (ECall (EName "Field") [(EStr "Restriction Type"); (ESlice (EName "r") (Some (EInt 15)) (Some (EInt 17))); (EAttr (EName "decoder") "field_201")] []); (ECall (EName "Field") [(EStr "Continuation Record No"); (EItem (EName "r") (EInt 17)); (EAttr (EName "decoder") "field_016")] []); (ECall (EName "Field") [(EStr "Start Fix Identifier"); (ESlice (EName "r") (Some (EInt 18)) (Some (EInt 23))); (EAttr (EName "decoder") "field_013")] []); (ECall (EName "Field") [(EStr "Start Fix ICAO Code"); (ESlice (EName "r") (Some (EInt 23)) (Some (EInt 25))); (EAttr (EName "decoder") "field_014")] []); (ECall (EName "Field") [(EStr "Start Fix Section Code"); (ESlice (EName "r") (Some (EInt 25)) (Some (EInt 27))); (EAttr (EName "decoder") "field_004")] []); (ECall (EName "Field") [(EStr "End Fix Identifier"); (ESlice (EName "r") (Some (EInt 27)) (Some (EInt 32))); (EAttr (EName "decoder") "field_013")] []); (ECall (EName "Field") [(EStr "End Fix ICAO Code"); (ESlice (EName "r") (Some (EInt 32)) (Some (EInt 34))); (EAttr (EName "decoder") "field_014")] []); (ECall (EName "Field") [(EStr "End Fix Section Code"); (ESlice (EName "r") (Some (EInt 34)) (Some (EInt 36))); (EAttr (EName "decoder") "field_004")] []); (ECall (EName "Field") [(EStr "Start Date"); (ESlice (EName "r") (Some (EInt 37)) (Some (EInt 44))); (EAttr (EName "decoder") "field_157")] []); (ECall (EName "Field") [(EStr "End Date"); (ESlice (EName "r") (Some (EInt 44)) (Some (EInt 51))); (EAttr (EName "decoder") "field_157")] []); (ECall (EName "Field") [(EStr "Time Code"); (EItem (EName "r") (EInt 51)); (EAttr (EName "decoder") "field_131")] []); (ECall (EName "Field") [(EStr "Time Indicator"); (EItem (EName "r") (EInt 52)); (EAttr (EName "decoder") "field_138")] []); (ECall (EName "Field") [(EStr "Time of Operation"); (ESlice (EName "r") (Some (EInt 53)) (Some (EInt 63))); (EAttr (EName "decoder") "field_195")] []); (ECall (EName "Field") [(EStr "Time of Operation (2)"); (ESlice (EName "r") (Some (EInt 63)) (Some (EInt 73))); (EAttr (EName "decoder") "field_195")] []); (ECall (EName "Field") [(EStr "Time of Operation (3)"); (ESlice (EName "r") (Some (EInt 73)) (Some (EInt 83))); (EAttr (EName "decoder") "field_195")] []); (ECall (EName "Field") [(EStr "Time of Operation (4)"); (ESlice (EName "r") (Some (EInt 83)) (Some (EInt 93))); (EAttr (EName "decoder") "field_195")] []); (ECall (EName "Field") [(EStr "Cruise Table Ident"); (ESlice (EName "r") (Some (EInt 93)) (Some (EInt 95))); (EAttr (EName "decoder") "field_134")] []); (ECall (EName "Field") [(EStr "File Record No"); (ESlice (EName "r") (Some (EInt 123)) (Some (EInt 128))); (EAttr (EName "decoder") "field_031")] []); (ECall (EName "Field") [(EStr "Cycle Date"); (ESlice (EName "r") (Some (EInt 128)) (Some (EInt 132))); (EAttr (EName "decoder") "field_032")] [])]))];
    SDef "cont_cruise_table" [("self", None); ("r", None)]
      [SReturn (Some (EList [(ECall (EName "Field") [(EStr "Record Type"); (EItem (EName "r") (EInt 0)); (EAttr (EName "decoder") "field_002")] []); (ECall (EName "Field") [(EStr "Customer / Area Code"); (ESlice (EName "r") (Some (EInt 1)) (Some (EInt 4))); (EAttr (EName "decoder") "field_003")] []); (ECall (EName "Field") [(EStr "Section Code"); (ESlice (EName "r") (Some (EInt 4)) (Some (EInt 6))); (EAttr (EName "decoder") "field_004")] []); (ECall (EName "Field") [(EStr "Route Identifier"); (ESlice (EName "r") (Some (EInt 6)) (Some (EInt 11))); (EAttr (EName "decoder") "field_008")] []); (ECall (EName "Field") [(EStr "Restriction Identifier"); (ESlice (EName "r") (Some (EInt 12)) (Some (EInt 15))); (EAttr (EName "decoder") "field_154")] []); (ECall (EName "Field") [(EStr "Restriction Type"); (ESlice (EName "r") (Some (EInt 15)) (Some (EInt 17))); (EAttr (EName "decoder") "field_201")] []); (ECall (EName "Field") [(EStr "Continuation Record No"); (EItem (EName "r") (EInt 17)); (EAttr (EName "decoder") "field_016")] []); (ECall (EName "Field") [(EStr "Application Type"); (EItem (EName "r") (EInt 18)); (EAttr (EName "decoder") "field_091")] []); (ECall (EName "Field") [(EStr "Time Code"); (EItem (EName "r") (EInt 51)); (EAttr (EName "decoder") "field_131")] []); (ECall (EName "Field") [(EStr "Time Indicator"); (EItem (EName "r") (EInt 52)); (EAttr (EName "decoder") "field_138")] []); (ECall (EName "Field") [(EStr "Time of Operation"); (ESlice (EName "r") (Some (EInt 53)) (Some (EInt 63))); (EAttr (EName "decoder") "field_195")] []); (ECall (EName "Field") [(EStr "Time of Operation (2)"); (ESlice (EName "r") (Some (EInt 63)) (Some (EInt 73))); (EAttr (EName "decoder") "field_195")] []); (ECall (EName "Field") [(EStr "Time of Operation (3)"); (ESlice (EName "r") (Some (EInt 73)) (Some (EInt 83))); (EAttr (EName "decoder") "field_195")] []); (ECall (EName "Field") [(EStr "Time of Operation (4)"); (ESlice (EName "r") (Some (EInt 83)) (Some (EInt 93))); (EAttr (EName "decoder") "field_195")] []); (ECall (EName "Field") [(EStr "Cruise Table Ident"); (ESlice (EName "r") (Some (EInt 93)) (Some (EInt 95))); (EAttr (EName "decoder") "field_134")] []); (ECall (EName "Field") [(EStr "File Record No"); (ESlice (EName "r") (Some (EInt 123)) (Some (EInt 128))); (EAttr (EName "decoder") "field_031")] []); (ECall (EName "Field") [(EStr "Cycle Date"); (ESlice (EName "r") (Some (EInt 128)) (Some (EInt 132))); (EAttr (EName "decoder") "field_032")] [])]))]].

(* src/arinc424/definitions/EnrouteAirwaysRestriction.py *)
Definition py_EnrouteAirwaysRestriction : pymodule := [
  SFrom "arinc424.decoder" "Field" "Field";
  SImport "arinc424.decoder" "decoder";
  py_EnrouteAirwaysRestriction_EnrouteAirwaysRestriction].

(* src/arinc424/definitions/EnrouteCommunications.py:6-113 *)
Definition py_EnrouteCommunications_EnrouteCommunications : stmt :=
  SClass "EnrouteCommunications"
    [SAssign (EName "cont_idx") (EInt 55);
    SAssign (EName "app_idx") (EInt 56);
    SAssign (EName "continuations") (EList [(EStr " "); (EStr "T")]);
    SAssign (EName "name") (EStr "Enroute Communications");
    SDef "application_type" [("self", None); ("line", None)]
      [SReturn (Some (EItem (EName "line") (EAttr (EName "self") "app_idx")))];
    SDef "read" [("self", None); ("line", None); ("primary", None)]
      [SIf (EName "primary")
        [SReturn (Some (ECall (EAttr (EName "self") "read_primary") [(EName "line")] []))]
        [];
      SAssign (EName "application") (EItem (EName "line") (EAttr (EName "self") "app_idx"));
      SMatch (EName "application")
        [(PValue (EStr " "), [SReturn (Some (ECall (EAttr (EName "self") "read_cont") [(EName "line")] []))]);
        (PValue (EStr "T"), [SReturn (Some (ECall (EAttr (EName "self") "read_timeop") [(EName "line")] []))]);
        (PWild, [SRaise (ECall (EName "ValueError") [(ECall (EAttr (EStr "{}
{}
{}") "format") [(EStr "Unknown Application"); (EName "application"); (EName "line")] [])] [])])]];
    SDef "read_primary" [("self", None); ("r", None)]
      [SReturn (Some (EList [(ECall (EName "Field") [(EStr "Record Type"); (EItem (EName "r") (EInt 0)); (EAttr (EName "decoder") "field_002")] []); (ECall (EName "Field") [(EStr "Customer / Area Code"); (ESlice (EName "r") (Some (EInt 1)) (Some (EInt 4))); (EAttr (EName "decoder") "field_003")] []); (ECall (EName "Field") [(EStr "Section Code"); (ESlice (EName "r") (Some (EInt 4)) (Some (EInt 6))); (EAttr (EName "decoder") "field_004")] []); (ECall (EName "Field") [(EStr "FIR/RDO Ident"); (ESlice (EName "r") (Some (EInt 6)) (Some (EInt 10))); (EAttr (EName "decoder") "field_190")] []); (ECall (EName "Field") [(EStr "FIR/UIR Address"); (ESlice (EName "r") (Some (EInt 10)) (Some (EInt 14))); (EAttr (EName "decoder") "field_151")] []); (ECall (EName "Field") [(EStr "Indicator"); (EItem (EName "r") (EInt 14)); (EAttr (EName "decoder") "field_117")] []); (ECall (EName "Field") [(EStr "Remote Name"); (ESlice (EName "r") (Some (EInt 18)) (Some (EInt 43))); (EAttr (EName "decoder") "field_189")] []); (ECall (EName "Field") [(EStr "Communications Type"); (ESlice (EName "r") (Some (EInt 43)) (Some (EInt 46))); (EAttr (EName "decoder") "field_101")] []); (ECall (EName "Field") [(EStr "Comm Frequency"); (ESlice (EName "r") (Some (EInt 46)) (Some (EInt 53))); (EAttr (EName "decoder") "field_103")] []); (ECall (EName "Field") [(EStr "Guard/Transmit"); (EItem (EName "r") (EInt 53)); (EAttr (EName "decoder") "field_182")] []); (ECall (EName "Field") [(EStr "Frequency Units"); (EItem (EName "r") (EInt 54)); (EAttr (EName "decoder") "field_104")] []); (ECall (EName "Field") [(EStr "Continuation Record No"); (EItem (EName "r") (EInt 55)); (EAttr (EName "decoder") "field_016")] []); (ECall (EName "Field") [(EStr "Service Indicator"); (ESlice (EName "r") (Some (EInt 56)) (Some (EInt 59))); (EAttr (EName "decoder") "field_106")] []); (ECall (EName "Field") [(EStr "Radar Service"); (EItem (EName "r") (EInt 59)); (EAttr (EName "decoder") "field_102")] []); (ECall (EName "Field") [(EStr "Modulation"); (EItem (EName "r") (EInt 60)); (EAttr (EName "decoder") "field_198")] []); (ECall (EName "Field") [(EStr "Signal Emission"); (EItem (EName "r") (EInt 61)); (EAttr (EName "decoder") "field_199")] []); (ECall (EName "Field") [(EStr "Latitude"); (ESlice (EName "r") (Some (EInt 62)) (Some (EInt 71))); (EAttr (EName "decoder") "field_036")] []); (ECall (EName "Field") [(EStr "Longitude"); (ESlice (EName "r") (Some (EInt 71)) (Some (EInt 81))); (EAttr (EName "decoder") "field_037")] []); (ECall (EName "Field") [(EStr "Magnetic Variation"); (ESlice (EName "r") (Some (EInt 81)) (Some (EInt 86))); (EAttr (EName "decoder") "field_039")] []); (ECall (EName "Field") [(EStr "Facility Elevation"); (ESlice (EName "r") (Some (EInt 86)) (Some (EInt 91))); (EAttr (EName "decoder") "field_092")] []); (ECall (EName "Field") [(EStr "H24 Indicator"); (EItem (EName "r") (EInt 91)); (EAttr (EName "decoder") "field_181")] []); (ECall (EName "Field") [(EStr "Altitude Description"); (EItem (EName "r") (EInt 92)); (EAttr (EName "decoder") "field_029")] []); (ECall (EName "Field") [(EStr "Communication Altitude"); (ESlice (EName "r") (Some (EInt 93)) (Some (EInt 98))); (EAttr (EName "decoder") "field_184")] []); (ECall (EName "Field") [(EStr "Communication Altitude (2)"); (ESlice (EName "r") (Some (EInt 98)) (Some (EInt 103))); (EAttr (EName "decoder") "field_184")] []); (ECall (EName "Field") [(EStr "Remote Facility"); (ESlice (EName "r") (Some (EInt 103)) (Some (EInt 107))); (EAttr (EName "decoder") "field_200")] []); (ECall (EName "Field") [(EStr "ICAO Code"); (ESlice (EName "r") (Some (EInt 107)) (Some (EInt 109))); (EAttr (EName "decoder") "field_014")] []); (ECall (EName "Field") [(EStr "Section Code (2)"); (ESlice (EName "r") (Some (EInt 109)) (Some (EInt 111))); (EAttr (EName "decoder") "field_004")] []); (ECall (EName "Field") [(EStr "File Record No"); (ESlice (EName "r") (Some (EInt 123)) (Some (EInt 128))); (EAttr (EName "decoder") "field_031")] []); (ECall (EName "Field") [(EStr "Cycle Date"); (ESlice (EName "r") (Some (EInt 128)) (Some (EInt 132))); (EAttr (EName "decoder") "field_032")] [])]))];
    SDef "read_cont" [("self", None); ("r", None)]
      [SReturn (Some (EList [(ECall (EName "Field") [(EStr "Record Type"); (EItem (EName "r") (EInt 0)); (EAttr (EName "decoder") "field_002")] []); (ECall (EName "Field") [(EStr "Customer / Area Code"); (ESlice (EName "r") (Some (EInt 1)) (Some (EInt 4))); (EAttr (EName "decoder") "field_003")] []); (ECall (EName "Field") [(EStr "Section Code"); (ESlice (EName "r") (Some (EInt 4)) (Some (EInt 6))); (EAttr (EName "decoder") "field_004")] []); (ECall (EName "Field") [(EStr "FIR/RDO Ident"); (ESlice (EName "r") (Some (EInt 6)) (Some (EInt 10))); (EAttr (EName "decoder") "field_190")] []); (ECall (EName "Field") [(EStr "FIR/UIR Address"); (ESlice (EName "r") (Some (EInt 10)) (Some (EInt 14))); (EAttr (EName "decoder") "field_151")] []); (ECall (EName "Field") [(EStr "Indicator"); (EItem (EName "r") (EInt 14)); (EAttr (EName "decoder") "field_117")] []); (ECall (EName "Field") [(EStr "Remote Name"); (ESlice (EName "r") (Some (EInt 18)) (Some (EInt 43))); (EAttr (EName "decoder") "field_189")] []); (ECall (EName "Field") [(EStr "Communications Type"); (ESlice (EName "r") (Some (EInt 43)) (Some (EInt 46))); (EAttr (EName "decoder") "field_101")] []); (ECall (EName "Field") [(EStr "Comm Frequency"); (ESlice (EName "r") (Some (EInt 46)) (Some (EInt 53))); (EAttr (EName "decoder") "field_103")] []); (ECall (EName "Field") [(EStr "Guard/Transmit"); (EItem (EName "r") (EInt 53)); (EAttr (EName "decoder") "field_182")] []); (ECall (EName "Field") [(EStr "Frequency Units"); (EItem (EName "r") (EInt 54)); (EAttr (EName "decoder") "field_104")] []); (ECall (EName "Field") [(EStr "Continuation Record No"); (EItem (EName "r") (EInt 55)); (EAttr (EName "decoder") "field_016")] []); (ECall (EName "Field") [(EStr "Application Type"); (EItem (EName "r") (EInt 56)); (EAttr (EName "decoder") "field_091")] []); (ECall (EName "Field") [(EStr "Time Code"); (EItem (EName "r") (EInt 57)); (EAttr (EName "decoder") "field_131")] []); (ECall (EName "Field") [(EStr "NOTAM"); (EItem (EName "r") (EInt 58)); (EAttr (EName "decoder") "field_132")] []); (ECall (EName "Field") [(EStr "Time Indicator"); (EItem (EName "r") (EInt 59)); (EAttr (EName "decoder") "field_138")] []); (ECall (EName "Field") [(EStr "Time of Operation"); (ESlice (EName "r") (Some (EInt 60)) (Some (EInt 70))); (EAttr (EName "decoder") "field_195")] []); (ECall (EName "Field") [(EStr "Call Sign"); (ESlice (EName "r") (Some (EInt 93)) (Some (EInt 123))); (EAttr (EName "decoder") "field_105")] []); (ECall (EName "Field") [(EStr "File Record No"); (ESlice (EName "r") (Some (EInt 123)) (Some (EInt 128))); (EAttr (EName "decoder") "field_031")] []); (ECall (EName "Field") [(EStr "Cycle Date"); (ESlice (EName "r") (Some (EInt 128)) (Some (EInt 132))); (EAttr (EName "decoder") "field_032")] [])]))];
    SDef "read_timeop" [("self", None); ("r", None)]
      [SReturn (Some (EList [(ECall (EName "Field") [(EStr "Record Type"); (EItem (EName "r") (EInt 0)); (EAttr (EName "decoder") "field_002")] []); (ECall (EName "Field") [(EStr "Customer / Area Code"); (ESlice (EName "r") (Some (EInt 1)) (Some (EInt 4))); (EAttr (EName "decoder") "field_003")] []); (ECall (EName "Field") [(EStr "Section Code"); (ESlice (EName "r") (Some (EInt 4)) (Some (EInt 6))); (EAttr (EName "decoder") "field_004")] []); (ECall (EName "Field") [(EStr "FIR/RDO Ident"); (ESlice (EName "r") (Some (EInt 6)) (Some (EInt 10))); (EAttr (EName "decoder") "field_190")] []); (ECall (EName "Field") [(EStr "FIR/UIR Address"); (ESlice (EName "r") (Some (EInt 10)) (Some (EInt 14))); (EAttr (EName "decoder") "field_151")] []); (ECall (EName "Field") [(EStr "Indicator"); (EItem (EName "r") (EInt 14)); (EAttr (EName "decoder") "field_117")] []); (ECall (EName "Field") [(EStr "Remote Name"); (ESlice (EName "r") (Some (EInt 18)) (Some (EInt 43))); (EAttr (EName "decoder") "field_189")] []); (ECall (EName "Field") [(EStr "Communications Type"); (ESlice (EName "r") (Some (EInt 43)) (Some (EInt 46))); (EAttr (EName "decoder") "field_101")] []); (ECall (EName "Field") [(EStr "Comm Frequency"); (ESlice (EName "r") (Some (EInt 46)) (Some (EInt 53))); (EAttr (EName "decoder") "field_103")] []); (ECall (EName "Field") [(EStr "Guard/Transmit"); (EItem (EName "r") (EInt 53)); (EAttr (EName "decoder") "field_182")] []); (ECall (EName "Field") [(EStr "Frequency Units"); (EItem (EName "r") (EInt 54)); (EAttr (EName "decoder") "field_104")] []); (ECall (EName "Field") [(EStr "Continuation Record No"); (EItem (EName "r") (EInt 55)); (EAttr (EName "decoder") "field_016")] []); (ECall (EName "Field") [(EStr "Application Type"); (EItem (EName "r") (EInt 56)); (EAttr (EName "decoder") "field_091")] []); (ECall (EName "Field") [(EStr "Time of Operation"); (ESlice (EName "r") (Some (EInt 60)) (Some (EInt 70))); (EAttr (EName "decoder") "field_195")] []); (ECall (EName "Field") [(EStr "Time of Operation (2)"); (ESlice (EName "r") (Some (EInt 70)) (Some (EInt 80))); (EAttr (EName "decoder") "field_195")] []); (ECall (EName "Field") [(EStr "Time of Operation (3)"); (ESlice (EName "r") (Some (EInt 80)) (Some (EInt 90))); (EAttr (EName "decoder") "field_195")] []); (ECall (EName "Field") [(EStr "Time of Operation (4)"); (ESlice (EName "r") (Some (EInt 90)) (Some (EInt 100))); (EAttr (EName "decoder") "field_195")] []); (ECall (EName "Field") [(EStr "Time of Operation (5)"); (ESlice (EName "r") (Some (EInt 100)) (Some (EInt 110))); (EAttr (EName "decoder") "field_195")] []); (ECall (EName "Field") [(EStr "Time of Operation (6)"); (ESlice (EName "r") (Some (EInt 110)) (Some (EInt 120))); (EAttr (EName "decoder") "field_195")] []); (ECall (EName "Field") [(EStr "File Record No"); (ESlice (EName "r") (Some (EInt 123)) (Some (EInt 128))); (EAttr (EName "decoder") "field_031")] []); (ECall (EName "Field") [(EStr "Cycle Date"); (ESlice (EName "r") (Some (EInt 128)) (Some (EInt 132))); (EAttr (EName "decoder") "field_032")] [])]))]].

(* src/arinc424/definitions/EnrouteCommunications.py *)
Definition py_EnrouteCommunications : pymodule := [
  SFrom "arinc424.decoder" "Field" "Field";
  SImport "arinc424.decoder" "decoder";
  py_EnrouteCommunications_EnrouteCommunications].

(* src/arinc424/definitions/FIRUIR.py:6-74 *)
Definition py_FIRUIR_FIRUIR : stmt :=
  SClass "FIRUIR"
    [SAssign (EName "cont_idx") (EInt 19);
    SAssign (EName "app_idx") (EInt 20);
    SAssign (EName "continuations") (EList [(EStr "A")]);
    SAssign (EName "name") (EStr "FIR/UIR");
    SDef "application_type" [("self", None); ("line", None)]
      [SReturn (Some (EItem (EName "line") (EAttr (EName "self") "app_idx")))];
    SDef "read" [("self", None); ("line", None); ("primary", None)]
      [SIf (EName "primary")
        [SReturn (Some (ECall (EAttr (EName "self") "read_primary") [(EName "line")] []))]
        [];
      SAssign (EName "application") (EItem (EName "line") (EAttr (EName "self") "app_idx"));
      SMatch (EName "application")
        [(PValue (EStr "A"), [SReturn (Some (ECall (EAttr (EName "self") "read_cont") [(EName "line")] []))]);
        (PWild, [SReturn (Some (EList []))])]];
    SDef "read_primary" [("self", None); ("r", None)]
      [SReturn (Some (EList [(ECall (EName "Field") [(EStr "Record Type"); (EItem (EName "r") (EInt 0)); (EAttr (EName "decoder") "field_002")] []); (ECall (EName "Field") [(EStr "Customer / Area Code"); (ESlice (EName "r") (Some (EInt 1)) (Some (EInt 4))); (EAttr (EName "decoder") "field_003")] []); (ECall (EName "Field") [(EStr "Section Code"); (ESlice (EName "r") (Some (EInt 4)) (Some (EInt 6))); (EAttr (EName "decoder") "field_004")] []); (ECall (EName "Field") [(EStr "FIR/UIR Identifier"); (ESlice (EName "r") (Some (EInt 6)) (Some (EInt 10))); (EAttr (EName "decoder") "field_116")] []); (ECall (EName "Field") [(EStr "FIR/UIR Address"); (ESlice (EName "r") (Some (EInt 10)) (Some (EInt 14))); (EAttr (EName "decoder") "field_151")] []); (ECall (EName "Field") [(EStr "FIR/UIR Indicator"); (EItem (EName "r") (EInt 14)); (EAttr (EName "decoder") "field_117")] []); (ECall (EName "Field") [(EStr "Sequence Number"); (ESlice (EName "r") (Some (EInt 15)) (Some (EInt 19))); (EAttr (EName "decoder") "field_012")] []); (ECall (EName "Field") [(EStr "Continuation Record No"); (EItem (EName "r") (EInt 19)); (EAttr (EName "decoder") "field_016")] []); (ECall (EName "Field") [(EStr "Adjacent FIR Identifier"); (ESlice (EName "r") (Some (EInt 20)) (Some (EInt 24))); (EAttr (EName "decoder") "field_116")] []); (ECall (EName "Field") [(EStr "Adjacent UIR Identifier"); (ESlice (EName "r") (Some (EInt 24)) (Some (EInt 28))); (EAttr (EName "decoder") "field_116")] []); (ECall (EName "Field") [(EStr "Reporting Units Speed"); (EItem (EName "r") (EInt 28)); (EAttr (EName "decoder") "field_122")] []); (ECall (EName "Field") [(EStr "Reporting Units Altitude"); (EItem (EName "r") (EInt 29)); (EAttr (EName "decoder") "field_123")] []); (ECall (EName "Field") [(EStr "Entry Report"); (EItem (EName "r") (EInt 30)); (EAttr (EName "decoder") "field_124")] []); (ECall (EName "Field") [(EStr "Boundary Via"); (ESlice (EName "r") (Some (EInt 32)) (Some (EInt 34))); (EAttr (EName "decoder") "field_118")] []); (ECall (EName "Field") [(EStr "FIR/UIR Latitude"); (ESlice (EName "r") (Some (EInt 34)) (Some (EInt 43))); (EAttr (EName "decoder") "field_036")] []); (ECall (EName "Field") [(EStr "FIR/UIR Longitude"); (ESlice (EName "r") (Some (EInt 43)) (Some (EInt 53))); (EAttr (EName "decoder") "field_037")] []); (ECall (EName "Field") [(EStr "Arc Origin Latitude"); (ESlice (EName "r") (Some (EInt 53)) (Some (EInt 62))); (EAttr (EName "decoder") "field_036")] []); (ECall (EName "Field") [(EStr "Arc Origin Longitude"); (ESlice (EName "r") (Some (EInt 62)) (Some (EInt 72))); (EAttr (EName "decoder") "field_037")] []); (ECall (EName "Field") [(EStr "Arc Distance"); (ESlice (EName "r") (Some (EInt 72)) (Some (EInt 76))); (EAttr (EName "decoder") "field_119")] []); (ECall (EName "Field") [(EStr "Arc Bearing"); (ESlice (EName "r") (Some (EInt 76)) (Some (EInt 80))); (EAttr (EName "decoder") "field_120")] []); (ECall (EName "Field") [(EStr "FIR Upper Limit"); (ESlice (EName "r") (Some (EInt 80)) (Some (EInt 85))); (EAttr (EName "decoder") "field_121")] []); (ECall (EName "Field") [(EStr "UIR Lower Limit"); (ESlice (EName "r") (Some (EInt 85)) (Some (EInt 90))); (EAttr (EName "decoder") "field_121")] []); (ECall (EName "Field") [(EStr "UIR Upper Limit"); (ESlice (EName "r") (Some (EInt 90)) (Some (EInt 95))); (EAttr (EName "decoder") "field_121")] []); (ECall (EName "Field") [(EStr "Cruise Table Ind"); (ESlice (EName "r") (Some (EInt 95)) (Some (EInt 97))); (EAttr (EName "decoder") "field_134")] []); (ECall (EName "Field") [(EStr "FIR/UIR Name"); (ESlice (EName "r") (Some (EInt 98)) (Some (EInt 123))); (EAttr (EName "decoder") "field_125")] []); (ECall (EName "Field") [(EStr "File Record No"); (ESlice (EName "r") (Some (EInt 123)) (Some (EInt 128))); (EAttr (EName "decoder") "field_031")] []); (ECall (EName "Field") [(EStr "Cycle Date"); (ESlice (EName "r") (Some (EInt 128)) (Some (EInt 132))); (EAttr (EName "decoder") "field_032")] [])]))];
    SDef "read_cont" [("self", None); ("r", None)]
      [SReturn (Some (EList [(ECall (EName "Field") [(EStr "Record Type"); (EItem (EName "r") (EInt 0)); (EAttr (EName "decoder") "field_002")] []); (ECall (EName "Field") [(EStr "Customer / Area Code"); (ESlice (EName "r") (Some (EInt 1)) (Some (EInt 4))); (EAttr (EName "decoder") "field_003")] []); (ECall (EName "Field") [(EStr "Section Code"); (ESlice (EName "r") (Some (EInt 4)) (Some (EInt 6))); (EAttr (EName "decoder") "field_004")] []); (ECall (EName "Field") [(EStr "FIR/UIR Identifier"); (ESlice (EName "r") (Some (EInt 6)) (Some (EInt 10))); (EAttr (EName "decoder") "field_116")] []); (ECall (EName "Field") [(EStr "FIR/UIR Address"); (ESlice (EName "r") (Some (EInt 10)) (Some (EInt 14))); (EAttr (EName "decoder") "field_151")] []); (ECall (EName "Field") [(EStr "FIR/UIR Indicator"); (EItem (EName "r") (EInt 14)); (EAttr (EName "decoder") "field_117")] []); (ECall (EName "Field") [(EStr "Sequence Number"); (ESlice (EName "r") (Some (EInt 15)) (Some (EInt 19))); (EAttr (EName "decoder") "field_012")] []); (ECall (EName "Field") [(EStr "Continuation Record No"); (EItem (EName "r") (EInt 19)); (EAttr (EName "decoder") "field_016")] []); (ECall (EName "Field") [(EStr "Application Type"); (EItem (EName "r") (EInt 20)); (EAttr (EName "decoder") "field_091")] []); (ECall (EName "Field") [(EStr "File Record No"); (ESlice (EName "r") (Some (EInt 123)) (Some (EInt 128))); (EAttr (EName "decoder") "field_031")] []); (ECall (EName "Field") [(EStr "Cycle Date"); (ESlice (EName "r") (Some (EInt 128)) (Some (EInt 132))); (EAttr (EName "decoder") "field_032")] [])]))]].

(* src/arinc424/definitions/FIRUIR.py *)
Definition py_FIRUIR : pymodule := [
  SFrom "arinc424.decoder" "Field" "Field";
  SImport "arinc424.decoder" "decoder";
  py_FIRUIR_FIRUIR].

(* src/arinc424/definitions/FlightPlanning.py:6-153 *)
Definition py_FlightPlanning_FlightPlanning : stmt :=
  SClass "FlightPlanning"
    [SAssign (EName "cont_idx") (EInt 69);
    SAssign (EName "app_idx") (EInt 70);
    SAssign (EName "continuations") (EList [(EStr "A"); (EStr "T")]);
    SAssign (EName "name") (EStr "Flight Planning Arrival/Departure");
    SDef "application_type" [("self", None); ("line", None)]
      [SReturn (Some (EItem (EName "line") (EAttr (EName "self") "app_idx")))];
    SDef "read" [("self", None); ("line", None); ("primary", None)]
      [SIf (EName "primary")
        [SReturn (Some (ECall (EAttr (EName "self") "read_primary") [(EName "line")] []))]
        [];
      SAssign (EName "application") (EItem (EName "line") (EAttr (EName "self") "app_idx"));
      SMatch (EName "application")
        [(PValue (EStr "A"), [SReturn (Some (ECall (EAttr (EName "self") "read_cont") [(EName "line")] []))]);
        (PValue (EStr "T"), [SReturn (Some (ECall (EAttr (EName "self") "read_timeop") [(EName "line")] []))]);
        (PWild, [SReturn (Some (EList []))])]];
    SDef "read_primary" [("self", None); ("r", None)]
      [SReturn (Some (EList [(ECall (EName "Field") [(EStr "Record Type"); (EItem (EName "r") (EInt 0)); (EAttr (EName "decoder") "field_002")] []); (ECall (EName "Field") [(EStr "Customer / Area Code"); (ESlice (EName "r") (Some (EInt 1)) (Some (EInt 4))); (EAttr (EName "decoder") "field_003")] []); (ECall (EName "Field") [(EStr "Section Code"); (EBin OpAdd (EItem (EName "r") (EInt 4)) (EItem (EName "r") (EInt 12))); (EAttr (EName "decoder") "field_004")] []); (ECall (EName "Field") [(EStr "Airport Identifier"); (ESlice (EName "r") (Some (EInt 6)) (Some (EInt 10))); (EAttr (EName "decoder") "field_006")] []); (ECall (EName "Field") [(EStr "ICAO Code"); (ESlice (EName "r") (Some (EInt 10)) (Some (EInt 12))); (EAttr (EName "decoder") "field_014")] []); (ECall (EName "Field") [(EStr "SID/STAR/Approach Identifier"); (ESlice (EName "r") (Some (EInt 13)) (Some (EInt 19))); (EAttr (EName "decoder") "field_009")] []); (ECall (EName "Field") [(EStr "Procedure Type"); (EItem (EName "r") (EInt 19)); (EAttr (EName "decoder") "field_230")] []); (ECall (EName "Field") [(EStr "Runway Transition Identifier"); (ESlice (EName "r") (Some (EInt 20)) (Some (EInt 25))); (EAttr (EName "decoder") "field_011")] []); (ECall (EName "Field") [(EStr "Runway Transition Fix"); (ESlice (EName "r") (Some (EInt 25)) (Some (EInt 30))); (EAttr (EName "decoder") "field_013")] []); (ECall (EName "Field") [(EStr "ICAO Code (2)"); (ESlice (EName "r") (Some (EInt 30)) (Some (EInt 32))); (EAttr (EName "decoder") "field_014")] []); (ECall (EName "Field") [(EStr "Section Code (2)"); (ESlice (EName "r") (Some (EInt 32)) (Some (EInt 34))); (EAttr (EName "decoder") "field_004")] []); (ECall (EName "Field") [(EStr "Runway Transition Along Track Dist"); (ESlice (EName "r") (Some (EInt 34)) (Some (EInt 37))); (EAttr (EName "decoder") "field_231")] []); (ECall (EName "Field") [(EStr "Common Segment Transition Fix"); (ESlice (EName "r") (Some (EInt 37)) (Some (EInt 42))); (EAttr (EName "decoder") "field_013")] []); (ECall (EName "Field") [(EStr "ICAO Code (3)"); (ESlice (EName "r") (Some (EInt 42)) (Some (EInt 44))); (EAttr (EName "decoder") "field_014")] []); (ECall (EName "Field") [(EStr "Section Code (3)"); (ESlice (EName "r") (Some (EInt 44)) (Some (EInt 46))); (EAttr (EName "decoder") "field_004")] []); (ECall (EName "Field") [(EStr "Common Segment Along Track Dist"); (ESlice (EName "r") (Some (EInt 46)) (Some (EInt 49))); (EAttr (EName "decoder") "field_231")] []); (ECall (EName "Field") [(EStr "Enroute Transition Identifier"); (ESlice (EName "r") (Some (EInt 49)) (Some (EInt 54))); (EAttr (EName "decoder") "field_011")] []); (ECall (EName "Field") [(EStr "Enroute Transition Fix"); (ESlice (EName "r") (Some (EInt 54)) (Some (EInt 59))); (EAttr (EName "decoder") "field_013")] []); (ECall (EName "Field") [(EStr "ICAO Code (4)"); (ESlice (EName "r") (Some (EInt 59)) (Some (EInt 61))); (EAttr (EName "decoder") "field_014")] []); (ECall (EName "Field") [(EStr "Section Code (4)"); (ESlice (EName "r") (Some (EInt 61)) (Some (EInt 63))); (EAttr (EName "decoder") "field_004")] []); (ECall (EName "Field") [(EStr "Enroute Transition Along Track Dist"); (ESlice (EName "r") (Some (EInt 63)) (Some (EInt 66))); (EAttr (EName "decoder") "field_231")] []); (ECall (EName "Field") [(EStr "Sequence Number"); (ESlice (EName "r") (Some (EInt 66)) (Some (EInt 69))); (EAttr (EName "decoder") "field_012")] []); (ECall (EName "Field") [(EStr "Continuation Number"); (EItem (EName "r") (EInt 69)); (EAttr (EName "decoder") "field_016")] []); (ECall (EName "Field") [(EStr "Number of Engines"); (ESlice (EName "r") (Some (EInt 70)) (Some (EInt 74))); (EAttr (EName "decoder") "field_232")] []); (ECall (EName "Field") [(EStr "Turboprop/Jet Indicator"); (EItem (EName "r") (EInt 74)); (EAttr (EName "decoder") "field_233")] []); (ECall (EName "Field") [(EStr "RNAV Flag"); (EItem (EName "r") (EInt 75)); (EAttr (EName "decoder") "field_234")] []); (ECall (EName "Field") [(EStr "ATC Weight Category"); (EItem (EName "r") (EInt 76)); (EAttr (EName "decoder") "field_235")] []); (ECall (EName "Field") [(EStr "ATC Identifier"); (ESlice (EName "r") (Some (EInt 77)) (Some (EInt 84))); (EAttr (EName "decoder") "field_236")] []); (ECall (EName "Field") [(EStr "Time Code"); (EItem (EName "r") (EInt 84)); (EAttr (EName "decoder") "field_131")] []); (ECall (EName "Field") [(EStr "Procedure Description"); (ESlice (EName "r") (Some (EInt 85)) (Some (EInt 100))); (EAttr (EName "decoder") "field_237")] []); (ECall (EName "Field") [(EStr "Leg Type Code"); (ESlice (EName "r") (Some (EInt 100)) (Some (EInt 102))); (EAttr (EName "decoder") "field_238")] []); (ECall (EName "Field") [(EStr "Reporting Code"); (EItem (EName "r") (EInt 102)); (EAttr (EName "decoder") "field_239")] []); (ECall (EName "Field") [(EStr "Initial Departure Magnetic Course"); (ESlice (EName "r") (Some (EInt 103)) (Some (EInt 107))); (EAttr (EName "decoder") "field_026")] []); (ECall (EName "Field") [(EStr "Altitude Description"); (EItem (EName "r") (EInt 107)); (EAttr (EName "decoder") "field_029")] []); (ECall (EName "Field") [(EStr "Altitude"); (ESlice (EName "r") (Some (EInt 108)) (Some (EInt 111))); (EAttr (EName "decoder") "field_240")] []); (ECall (EName "Field") [(EStr "Altitude (2)"); (ESlice (EName "r") (Some (EInt 111)) (Some (EInt 114))); (EAttr (EName "decoder") "field_240")] []); (ECall (EName "Field") [(EStr "Speed Limit"); (ESlice (EName "r") (Some (EInt 114)) (Some (EInt 117))); (EAttr (EName "decoder") "field_072")] []); (ECall (EName "Field") [(EStr "Initial Cruise Table"); (ESlice (EName "r") (Some (EInt 117)) (Some (EInt 119))); (EAttr (EName "decoder") "field_134")] []); (ECall (EName "Field") [(EStr "Speed Limit Description"); (EItem (EName "r") (EInt 119)); (EAttr (EName "decoder") "field_261")] []); (ECall (EName "Field") [(EStr "File Record No"); (ESlice (EName "r") (Some (EInt 123)) (Some (EInt 128))); (EAttr (EName "decoder") "field_031")] []); (ECall (EName "Field") [(EStr "Cycle Date"); (ESlice (EName "r") (Some (EInt 128)) (Some (EInt 132))); (EAttr (EName "decoder") "field_032")] [])]))];
    SDef "read_cont" [("self", None); ("r", None)]
      [SReturn (Some (EList [(ECall (EName "Field") [(EStr "Record Type"); (EItem (EName "r") (EInt 0)); (EAttr (EName "decoder") "field_002")] []); (ECall (EName "Field") [(EStr "Customer / Area Code"); (ESlice (EName "r") (Some (EInt 1)) (Some (EInt 4))); (EAttr (EName "decoder") "field_003")] []); (ECall (EName "Field") [(EStr "Section Code"); (EBin OpAdd (EItem (EName "r") (EInt 4)) (EItem (EName "r") (EInt 12))); (EAttr (EName "decoder") "field_004")] []); (ECall (EName "Field") [(EStr "Airport Identifier"); (ESlice (EName "r") (Some (EInt 6)) (Some (EInt 10))); (EAttr (EName "decoder") "field_006")] []); (ECall (EName "Field") [(EStr "ICAO Code"); (ESlice (EName "r") (Some (EInt 10)) (Some (EInt 12))); (EAttr (EName "decoder") "field_014")] []); (ECall (EName "Field") [(EStr "SID/STAR/Approach Identifier"); (ESlice (EName "r") (Some (EInt 13)) (Some (EInt 19))); (EAttr (EName "decoder") "field_009")] []); (ECall (EName "Field") [(EStr "Procedure Type"); (EItem (EName "r") (EInt 19)); (EAttr (EName "decoder") "field_230")] []); (ECall (EName "Field") [(EStr "Runway Transition Identifier"); (ESlice (EName "r") (Some (EInt 20)) (Some (EInt 25))); (EAttr (EName "decoder") "field_011")] []); (ECall (EName "Field") [(EStr "Runway Transition Fix"); (ESlice (EName "r") (Some (EInt 25)) (Some (EInt 30))); (EAttr (EName "decoder") "field_013")] []); (ECall (EName "Field") [(EStr "ICAO Code (2)"); (ESlice (EName "r") (Some (EInt 30)) (Some (EInt 32))); (EAttr (EName "decoder") "field_014")] []); (ECall (EName "Field") [(EStr "Section Code (2)"); (ESlice (EName "r") (Some (EInt 32)) (Some (EInt 34))); (EAttr (EName "decoder") "field_004")] []); (ECall (EName "Field") [(EStr "Runway Transition Along Track Dist"); (ESlice (EName "r") (Some (EInt 34)) (Some (EInt 37))); (EAttr (EName "decoder") "field_231")] []); (ECall (EName "Field") [(EStr "Common Segment Transition Fix"); (ESlice (EName "r") (Some (EInt 37)) (Some (EInt 42))); (EAttr (EName "decoder") "field_013")] []); (ECall (EName "Field") [(EStr "ICAO Code (3)"); (ESlice (EName "r") (Some (EInt 42)) (Some (EInt 44))); (EAttr (EName "decoder") "field_014")] []); (ECall (EName "Field") [(EStr "Section Code (3)"); (ESlice (EName "r") (Some (EInt 44)) (Some (EInt 46))); (EAttr (EName "decoder") "field_004")] []); (ECall (EName "Field") [(EStr "Common Segment Along Track Dist"); (ESlice (EName "r") (Some (EInt 46)) (Some (EInt 49))); (EAttr (EName "decoder") "field_231")] []); (ECall (EName "Field") [(EStr "Enroute Transition Identifier"); (ESlice (EName "r") (Some (EInt 49)) (Some (EInt 54))); (EAttr (EName "decoder") "field_011")] []); (ECall (EName "Field") [(EStr "Enroute Transition Fix"); (ESlice (EName "r") (Some (EInt 54)) (Some (EInt 59))); (EAttr (EName "decoder") "field_013")] []); (ECall (EName "Field") [(EStr "ICAO Code (4)"); (ESlice (EName "r") (Some (EInt 59)) (Some (EInt 61))); (EAttr (EName "decoder") "field_014")] []); (ECall (EName "Field") [(EStr "Section Code (4)"); (ESlice (EName "r") (Some (EInt 61)) (Some (EInt 63))); (EAttr (EName "decoder") "field_004")] []); (ECall (EName "Field") [(EStr "Enroute Transition Along Track Dist"); (ESlice (EName "r") (Some (EInt 63)) (Some (EInt 66))); (EAttr (EName "decoder") "field_231")] []); (ECall (EName "Field") [(EStr "Sequence Number"); (ESlice (EName "r") (Some (EInt 66)) (Some (EInt 69))); (EAttr (EName "decoder") "field_012")] []); (ECall (EName "Field") [(EStr "Continuation Number"); (EItem (EName "r") (EInt 69)); (EAttr (EName "decoder") "field_016")] []); (ECall (EName "Field") [(EStr "Application Type"); (EItem (EName "r") (EInt 70)); (EAttr (EName "decoder") "field_091")] []); (ECall (EName "Field") [(EStr "Intermediate Fix Identifier"); (ESlice (EName "r") (Some (EInt 71)) (Some (EInt 76))); (EAttr (EName "decoder") "field_013")] []); (ECall (EName "Field") [(EStr "ICAO Code (5)"); (ESlice (EName "r") (Some (EInt 76)) (Some (EInt 78))); (EAttr (EName "decoder") "field_014")] []); (ECall (EName "Field") [(EStr "Section Code (5)"); (ESlice (EName "r") (Some (EInt 91)) (Some (EInt 93))); (EAttr (EName "decoder") "field_004")] []); (ECall (EName "Field") [(EStr "Intermediate Distance"); (ESlice (EName "r") (Some (EInt 106)) (Some (EInt 109))); (EAttr (EName "decoder") "field_231")] []); (ECall (EName "Field") [(EStr "Fix Related Transition Code"); (EItem (EName "r") (EInt 109)); (EAttr (EName "decoder") "field_241")] []); (ECall (EName "Field") [(EStr "Intermediate Fix Identifier"); (ESlice (EName "r") (Some (EInt 110)) (Some (EInt 115))); (EAttr (EName "decoder") "field_013")] []); (ECall (EName "Field") [(EStr "ICAO Code (6)"); (ESlice (EName "r") (Some (EInt 115)) (Some (EInt 117))); (EAttr (EName "decoder") "field_014")] []); (ECall (EName "Field") [(EStr "Section Code (6)"); (EItem (EName "r") (EInt 118)); (EAttr (EName "decoder") "field_004")] []); (ECall (EName "Field") [(EStr "Intermediate Distance"); (ESlice (EName "r") (Some (EInt 119)) (Some (EInt 122))); (EAttr (EName "decoder") "field_231")] []); (ECall (EName "Field") [(EStr "Fix Related Transition Code"); (EItem (EName "r") (EInt 122)); (EAttr (EName "decoder") "field_241")] []); (ECall (EName "Field") [(EStr "File Record No"); (ESlice (EName "r") (Some (EInt 123)) (Some (EInt 128))); (EAttr (EName "decoder") "field_031")] []); (ECall (EName "Field") [(EStr "Cycle Date"); (ESlice (EName "r") (Some (EInt 128)) (Some (EInt 132))); (EAttr (EName "decoder") "field_032")] [])]))];
    SDef "read_timeop" [("self", None); ("r", None)]
      [SReturn (Some (EList [(ECall (EName "Field") [(EStr "Record Type"); (EItem (EName "r") (EInt 0)); (EAttr (EName "decoder") "field_002")] []); (ECall (EName "Field") [(EStr "Customer / Area Code"); (ESlice (EName "r") (Some (EInt 1)) (Some (EInt 4))); (EAttr (EName "decoder") "field_003")] []); (ECall (EName "Field") [(EStr "Section Code"); (EBin OpAdd (EItem (EName "r") (EInt 4)) (EItem (EName "r") (EInt 12))); (EAttr (EName "decoder") "field_004")] []); (ECall (EName "Field") [(EStr "Airport Identifier"); (ESlice (EName "r") (Some (EInt 6)) (Some (EInt 10))); (EAttr (EName "decoder") "field_006")] []); (ECall (EName "Field") [(EStr "ICAO Code"); (ESlice (EName "r") (Some (EInt 10)) (Some (EInt 12))); (EAttr (EName "decoder") "field_014")] []); (ECall (EName "Field") [(EStr "SID/STAR/Approach Identifier"); (ESlice (EName "r") (Some (EInt 13)) (Some (EInt 19))); (EAttr (EName "decoder") "field_009")] []); (ECall (EName "Field") [(EStr "Procedure Type"); (EItem (EName "r") (EInt 19)); (EAttr (EName "decoder") "field_230")] []); (ECall (EName "Field") [(EStr "Runway Transition Identifier"); (ESlice (EName "r") (Some (EInt 20)) (Some (EInt 25))); (EAttr (EName "decoder") "field_011")] []); (ECall (EName "Field") [(EStr "Runway Transition Fix"); (ESlice (EName "r") (Some (EInt 25)) (Some (EInt 30))); (EAttr (EName "decoder") "field_013")] []); (ECall (EName "Field") [(EStr "ICAO Code (2)"); (ESlice (EName "r") (Some (EInt 30)) (Some (EInt 32))); (EAttr (EName "decoder") "field_014")] []); (ECall (EName "Field") [(EStr "Section Code (2)"); (ESlice (EName "r") (Some (EInt 32)) (Some (EInt 34))); (EAttr (EName "decoder") "field_004")] []); (ECall (EName "Field") [(EStr "Runway Transition Along Track Dist"); (ESlice (EName "r") (Some (EInt 34)) (Some (EInt 37))); (EAttr (EName "decoder") "field_231")] []); (ECall (EName "Field") [(EStr "Common Segment Transition Fix"); (ESlice (EName "r") (Some (EInt 37)) (Some (EInt 42))); (EAttr (EName "decoder") "field_013")] []); (ECall (EName "Field") [(EStr "ICAO Code (3)"); (ESlice (EName "r") (Some (EInt 42)) (Some (EInt 44))); (EAttr (EName "decoder") "field_014")] []); (ECall (EName "Field") [(EStr "Section Code (3)"); (ESlice (EName "r") (Some (EInt 44)) (Some (EInt 46))); (EAttr (EName "decoder") "field_004")] []); (ECall (EName "Field") [(EStr "Common Segment Along Track Dist"); (ESlice (EName "r") (Some (EInt 46)) (Some (EInt 49))); (EAttr (EName "decoder") "field_231")] []); (ECall (EName "Field") [(EStr "Enroute Transition Identifier"); (ESlice (EName "r") (Some (EInt 49)) (Some (EInt 54))); (EAttr (EName "decoder") "field_011")] []); (ECall (EName "Field") [(EStr "Enroute Transition Fix"); (ESlice (EName "r") (Some (EInt 54)) (Some (EInt 59))); (EAttr (EName "decoder") "field_013")] []); (ECall (EName "Field") [(EStr "ICAO Code (4)"); (ESlice (EName "r") (Some (EInt 59)) (Some (EInt 61))); (EAttr (EName "decoder") "field_014")] []); (ECall (EName "Field") [(EStr "Section Code (4)"); (ESlice (EName "r") (Some (EInt 61)) (Some (EInt 63))); (EAttr (EName "decoder") "field_004")] []); (ECall (EName "Field") [(EStr "Enroute Transition Along Track Dist"); (ESlice (EName "r") (Some (EInt 63)) (Some (EInt 66))); (EAttr (EName "decoder") "field_231")] []); (ECall (EName "Field") [(EStr "Sequence Number"); (ESlice (EName "r") (Some (EInt 66)) (Some (EInt 69))); (EAttr (EName "decoder") "field_012")] []); (ECall (EName "Field") [(EStr "Continuation Number"); (EItem (EName "r") (EInt 69)); (EAttr (EName "decoder") "field_016")] []); (ECall (EName "Field") [(EStr "Application Type"); (EItem (EName "r") (EInt 70)); (EAttr (EName "decoder") "field_091")] []); (ECall (EName "Field") [(EStr "Time Code"); (EItem (EName "r") (EInt 71)); (EAttr (EName "decoder") "field_131")] []); (ECall (EName "Field") [(EStr "Time Indicator"); (EItem (EName "r") (EInt 72)); (EAttr (EName "decoder") "field_138")] []); (ECall (EName "Field") [(EStr "Time of Operation"); (ESlice (EName "r") (Some (EInt 73)) (Some (EInt 83))); (EAttr (EName "decoder") "field_195")] []); (ECall (EName "Field") [(EStr "Time of Operation (1)"); (ESlice (EName "r") (Some (EInt 83)) (Some (EInt 93))); (EAttr (EName "decoder") "field_195")] []); (ECall (EName "Field") [(EStr "Time of Operation (2)"); (ESlice (EName "r") (Some (EInt 93)) (Some (EInt 103))); (EAttr (EName "decoder") "field_195")] []); (ECall (EName "Field") [(EStr "Time of Operation (3)"); (ESlice (EName "r") (Some (EInt 103)) (Some (EInt 113))); (EAttr (EName "decoder") "field_195")] []); (ECall (EName "Field") [(EStr "Time of Operation (4)"); (ESlice (EName "r") (Some (EInt 113)) (Some (EInt 123))); (EAttr (EName "decoder") "field_195")] []); (ECall (EName "Field") [(EStr "File Record No"); (ESlice (EName "r") (Some (EInt 123)) (Some (EInt 128))); (EAttr (EName "decoder") "field_031")] []); (ECall (EName "Field") [(EStr "Cycle Date"); (ESlice (EName "r") (Some (EInt 128)) (Some (EInt 132))); (EAttr (EName "decoder") "field_032")] [])]))]].

(* src/arinc424/definitions/FlightPlanning.py *)
Definition py_FlightPlanning : pymodule := [
  SFrom "arinc424.decoder" "Field" "Field";
  SImport "arinc424.decoder" "decoder";
  py_FlightPlanning_FlightPlanning].

(* src/arinc424/definitions/GLS.py:6-71 *)
Definition py_GLS_GLS : stmt :=
  SClass "GLS"
    [SAssign (EName "cont_idx") (EInt 21);
    SAssign (EName "app_idx") (EInt 22);
    SAssign (EName "continuations") (EList [(EStr "A")]);
    SAssign (EName "name") (EStr "GLS");
    SDef "application_type" [("self", None); ("line", None)]
      [SReturn (Some (EItem (EName "line") (EAttr (EName "self") "app_idx")))];
    SDef "read" [("self", None); ("line", None); ("primary", None)]
      [SIf (EName "primary")
        [SReturn (Some (ECall (EAttr (EName "self") "read_primary") [(EName "line")] []))]
        [];
      SAssign (EName "application") (EItem (EName "line") (EAttr (EName "self") "app_idx"));
      SMatch (EName "application")
        [(PValue (EStr "A"), [SReturn (Some (ECall (EAttr (EName "self") "read_cont") [(EName "line")] []))]);
        (PWild, [SReturn (Some (EList []))])]];
    SDef "read_primary" [("self", None); ("r", None)]
      [SReturn (Some (EList [(ECall (EName "Field") [(EStr "Record Type"); (EItem (EName "r") (EInt 0)); (EAttr (EName "decoder") "field_002")] []); (ECall (EName "Field") [(EStr "Customer / Area Code"); (ESlice (EName "r") (Some (EInt 1)) (Some (EInt 4))); (EAttr (EName "decoder") "field_003")] []); (ECall (EName "Field") [(EStr "Section Code"); (EBin OpAdd (EItem (EName "r") (EInt 4)) (EItem (EName "r") (EInt 12))); (EAttr (EName "decoder") "field_004")] []); (ECall (EName "Field") [(EStr "Airport and Heliport Identifier"); (ESlice (EName "r") (Some (EInt 6)) (Some (EInt 10))); (EAttr (EName "decoder") "field_006")] []); (ECall (EName "Field") [(EStr "ICAO Code"); (ESlice (EName "r") (Some (EInt 10)) (Some (EInt 12))); (EAttr (EName "decoder") "field_014")] []); (ECall (EName "Field") [(EStr "GLS Ref Path Identifier"); (ESlice (EName "r") (Some (EInt 13)) (Some (EInt 17))); (EAttr (EName "decoder") "field_044")] []); (ECall (EName "Field") [(EStr "GLS Category"); (EItem (EName "r") (EInt 17)); (EAttr (EName "decoder") "field_080")] []); (ECall (EName "Field") [(EStr "Continuation Record No"); (ESlice (EName "r") (Some (EInt 18)) (Some (EInt 21))); (EAttr (EName "decoder") "field_016")] []); (ECall (EName "Field") [(EStr "GLS Channel"); (ESlice (EName "r") (Some (EInt 22)) (Some (EInt 27))); (EAttr (EName "decoder") "field_244")] []); (ECall (EName "Field") [(EStr "Runway Identifier"); (ESlice (EName "r") (Some (EInt 27)) (Some (EInt 32))); (EAttr (EName "decoder") "field_046")] []); (ECall (EName "Field") [(EStr "GLS Approach Bearing"); (ESlice (EName "r") (Some (EInt 51)) (Some (EInt 55))); (EAttr (EName "decoder") "field_047")] []); (ECall (EName "Field") [(EStr "Station Latitude"); (ESlice (EName "r") (Some (EInt 55)) (Some (EInt 64))); (EAttr (EName "decoder") "field_036")] []); (ECall (EName "Field") [(EStr "Station Longitude"); (ESlice (EName "r") (Some (EInt 64)) (Some (EInt 74))); (EAttr (EName "decoder") "field_037")] []); (ECall (EName "Field") [(EStr "GLS Station Ident"); (ESlice (EName "r") (Some (EInt 74)) (Some (EInt 78))); (EAttr (EName "decoder") "field_243")] []); (ECall (EName "Field") [(EStr "Service Volume Radius"); (ESlice (EName "r") (Some (EInt 83)) (Some (EInt 85))); (EAttr (EName "decoder") "field_245")] []); (ECall (EName "Field") [(EStr "TDMA Slots"); (ESlice (EName "r") (Some (EInt 85)) (Some (EInt 87))); (EAttr (EName "decoder") "field_246")] []); (ECall (EName "Field") [(EStr "GLS Approach Slope"); (ESlice (EName "r") (Some (EInt 87)) (Some (EInt 90))); (EAttr (EName "decoder") "field_052")] []); (ECall (EName "Field") [(EStr "Magnetic Variation"); (ESlice (EName "r") (Some (EInt 90)) (Some (EInt 95))); (EAttr (EName "decoder") "field_039")] []); (ECall (EName "Field") [(EStr "Station Elevation"); (ESlice (EName "r") (Some (EInt 97)) (Some (EInt 102))); (EAttr (EName "decoder") "field_074")] []); (ECall (EName "Field") [(EStr "Datum Code"); (ESlice (EName "r") (Some (EInt 102)) (Some (EInt 105))); (EAttr (EName "decoder") "field_197")] []); (ECall (EName "Field") [(EStr "Station Type"); (ESlice (EName "r") (Some (EInt 105)) (Some (EInt 108))); (EAttr (EName "decoder") "field_247")] []); (ECall (EName "Field") [(EStr "Station Elevation WGS"); (ESlice (EName "r") (Some (EInt 110)) (Some (EInt 115))); (EAttr (EName "decoder") "field_248")] []); (ECall (EName "Field") [(EStr "File Record No"); (ESlice (EName "r") (Some (EInt 123)) (Some (EInt 128))); (EAttr (EName "decoder") "field_031")] []); (ECall (EName "Field") [(EStr "Cycle Date"); (ESlice (EName "r") (Some (EInt 128)) (Some (EInt 132))); (EAttr (EName "decoder") "field_032")] [])]))];
    SDef "read_cont" [("self", None); ("r", None)]
      [SReturn (Some (EList [(ECall (EName "Field") [(EStr "Record Type"); (EItem (EName "r") (EInt 0)); (EAttr (EName "decoder") "field_002")] []); (ECall (EName "Field") [(EStr "Customer / Area Code"); (ESlice (EName "r") (Some (EInt 1)) (Some (EInt 4))); (EAttr (EName "decoder") "field_003")] []); (ECall (EName "Field") [(EStr "Section Code"); (EBin OpAdd (EItem (EName "r") (EInt 4)) (EItem (EName "r") (EInt 12))); (EAttr (EName "decoder") "field_004")] []); (ECall (EName "Field") [(EStr "Airport and Heliport Identifier"); (ESlice (EName "r") (Some (EInt 6)) (Some (EInt 10))); (EAttr (EName "decoder") "field_006")] []); (ECall (EName "Field") [(EStr "ICAO Code"); (ESlice (EName "r") (Some (EInt 10)) (Some (EInt 12))); (EAttr (EName "decoder") "field_014")] []); (ECall (EName "Field") [(EStr "GLS Ref Path Identifier"); (ESlice (EName "r") (Some (EInt 13)) (Some (EInt 17))); (EAttr (EName "decoder") "field_044")] []); (ECall (EName "Field") [(EStr "GLS Category"); (EItem (EName "r") (EInt 17)); (EAttr (EName "decoder") "field_080")] []); (ECall (EName "Field") [(EStr "Continuation Record No"); (ESlice (EName "r") (Some (EInt 18)) (Some (EInt 21))); (EAttr (EName "decoder") "field_016")] []); (ECall (EName "Field") [(EStr "Application Type"); (EItem (EName "r") (EInt 22)); (EAttr (EName "decoder") "field_091")] []); (ECall (EName "Field") [(EStr "File Record No"); (ESlice (EName "r") (Some (EInt 123)) (Some (EInt 128))); (EAttr (EName "decoder") "field_031")] []); (ECall (EName "Field") [(EStr "Cycle Date"); (ESlice (EName "r") (Some (EInt 128)) (Some (EInt 132))); (EAttr (EName "decoder") "field_032")] [])]))]].

(* src/arinc424/definitions/GLS.py *)
Definition py_GLS : pymodule := [
  SFrom "arinc424.decoder" "Field" "Field";
  SImport "arinc424.decoder" "decoder";
  py_GLS_GLS].

(* src/arinc424/definitions/GeoReferenceTable.py:16-77 *)
Definition py_GeoReferenceTable_GeoReferenceTable : stmt :=
  SClass "GeoReferenceTable"
    [SAssign (EName "cont_idx") (EInt 38);
    SAssign (EName "app_idx") (EInt 39);
    SAssign (EName "continuations") (EList [(EStr "A")]);
    SAssign (EName "name") (EStr "Geographical Reference Table");
    SDef "application_type" [("self", None); ("line", None)]
      [SReturn (Some (EItem (EName "line") (EAttr (EName "self") "app_idx")))];
    SDef "read" [("self", None); ("line", None); ("primary", None)]
      [SIf (EName "primary")
        [SReturn (Some (ECall (EAttr (EName "self") "read_primary") [(EName "line")] []))]
        [];
      SAssign (EName "application") (EItem (EName "line") (EAttr (EName "self") "app_idx"));
      SMatch (EName "application")
        [(PValue (EStr "A"), [SReturn (Some (ECall (EAttr (EName "self") "read_cont") [(EName "line")] []))]);
        (PWild, [SReturn (Some (EList []))])]];
    SDef "read_primary" [("self", None); ("r", None)]
      [SReturn (Some (EList [(ECall (EName "Field") [(EStr "Record Type"); (EItem (EName "r") (EInt 0)); (EAttr (EName "decoder") "field_002")] []); (ECall (EName "Field") [(EStr "Customer / Area Code"); (ESlice (EName "r") (Some (EInt 1)) (Some (EInt 4))); (EAttr (EName "decoder") "field_003")] []); (ECall (EName "Field") [(EStr "Section Code"); (ESlice (EName "r") (Some (EInt 4)) (Some (EInt 6))); (EAttr (EName "decoder") "field_004")] []); (ECall (EName "Field") [(EStr "Geographical Ref Table ID"); (ESlice (EName "r") (Some (EInt 6)) (Some (EInt 8))); (EAttr (EName "decoder") "field_218")] []); (ECall (EName "Field") [(EStr "Sequence Number"); (EItem (EName "r") (EInt 8)); (EAttr (EName "decoder") "field_012")] []); (ECall (EName "Field") [(EStr "Geographical Entity"); (ESlice (EName "r") (Some (EInt 9)) (Some (EInt 38))); (EAttr (EName "decoder") "field_219")] []); (ECall (EName "Field") [(EStr "Continuation Record No"); (EItem (EName "r") (EInt 38)); (EAttr (EName "decoder") "field_016")] []); (ECall (EName "Field") [(EStr "Preferred Route Ident"); (ESlice (EName "r") (Some (EInt 40)) (Some (EInt 50))); (EAttr (EName "decoder") "field_008")] []); (ECall (EName "Field") [(EStr "Preferred Route Use Ind"); (ESlice (EName "r") (Some (EInt 50)) (Some (EInt 52))); (EAttr (EName "decoder") "field_220")] []); (ECall (EName "Field") [(EStr "Preferred Route Ident (2)"); (ESlice (EName "r") (Some (EInt 52)) (Some (EInt 62))); (EAttr (EName "decoder") "field_008")] []); (ECall (EName "Field") [(EStr "Preferred Route Use Ind (2)"); (ESlice (EName "r") (Some (EInt 62)) (Some (EInt 64))); (EAttr (EName "decoder") "field_220")] []); (ECall (EName "Field") [(EStr "Preferred Route Ident (3)"); (ESlice (EName "r") (Some (EInt 64)) (Some (EInt 74))); (EAttr (EName "decoder") "field_008")] []); (ECall (EName "Field") [(EStr "Preferred Route Use Ind (3)"); (ESlice (EName "r") (Some (EInt 74)) (Some (EInt 76))); (EAttr (EName "decoder") "field_220")] []); (ECall (EName "Field") [(EStr "Preferred Route Ident (4)"); (ESlice (EName "r") (Some (EInt 76)) (Some (EInt 86))); (EAttr (EName "decoder") "field_008")] []); (ECall (EName "Field") [(EStr "Preferred Route Use Ind (4)"); (ESlice (EName "r") (Some (EInt 86)) (Some (EInt 88))); (EAttr (EName "decoder") "field_220")] []); (ECall (EName "Field") [(EStr "Preferred Route Ident (4)"); (ESlice (EName "r") (Some (EInt 88)) (Some (EInt 98))); (EAttr (EName "decoder") "field_008")] []); (ECall (EName "Field") [(EStr "Preferred Route Use Ind (4)"); (ESlice (EName "r") (Some (EInt 98)) (Some (EInt 100))); (EAttr (EName "decoder") "field_220")] []); (ECall (EName "Field") [(EStr "Preferred Route Ident (5)"); (ESlice (EName "r") (Some (EInt 100)) (Some (EInt 110))); (EAttr (EName "decoder") "field_008")] []); (ECall (EName "Field") [(EStr "Preferred Route Use Ind (5)"); (ESlice (EName "r") (Some (EInt 110)) (Some (EInt 112))); (EAttr (EName "decoder") "field_220")] []); (ECall (EName "Field") [(EStr "File Record No"); (ESlice (EName "r") (Some (EInt 123)) (Some (EInt 128))); (EAttr (EName "decoder") "field_031")] []); (ECall (EName "Field") [(EStr "Cycle Date"); (ESlice (EName "r") (Some (EInt 128)) (Some (EInt 132))); (EAttr (EName "decoder") "field_032")] [])]))];
    SDef "read_cont" [("self", None); ("r", None)]
      [SReturn (Some (EList [(ECall (EName "Field") [(EStr "Record Type"); (EItem (EName "r") (EInt 0)); (EAttr (EName "decoder") "field_002")] []); (ECall (EName "Field") [(EStr "Customer / Area Code"); (ESlice (EName "r") (Some (EInt 1)) (Some (EInt 4))); (EAttr (EName "decoder") "field_003")] []); (ECall (EName "Field") [(EStr "Section Code"); (ESlice (EName "r") (Some (EInt 4)) (Some (EInt 6))); (EAttr (EName "decoder") "field_004")] []); (ECall (EName "Field") [(EStr "Geographical Ref Table ID"); (ESlice (EName "r") (Some (EInt 6)) (Some (EInt 8))); (EAttr (EName "decoder") "field_218")] []); (ECall (EName "Field") [(EStr "Sequence Number"); (EItem (EName "r") (EInt 8)); (EAttr (EName "decoder") "field_012")] []); (ECall (EName "Field") [(EStr "Geographical Entity"); (ESlice (EName "r") (Some (EInt 9)) (Some (EInt 38))); (EAttr (EName "decoder") "field_219")] []); (ECall (EName "Field") [(EStr "Continuation Record No"); (EItem (EName "r") (EInt 38)); (EAttr (EName "decoder") "field_016")] []); (ECall (EName "Field") [(EStr "Application Type"); (EItem (EName "r") (EInt 39)); (EAttr (EName "decoder") "field_091")] []); (ECall (EName "Field") [(EStr "File Record No"); (ESlice (EName "r") (Some (EInt 123)) (Some (EInt 128))); (EAttr (EName "decoder") "field_031")] []); (ECall (EName "Field") [(EStr "Cycle Date"); (ESlice (EName "r") (Some (EInt 128)) (Some (EInt 132))); (EAttr (EName "decoder") "field_032")] [])]))]].

(* src/arinc424/definitions/GeoReferenceTable.py *)
Definition py_GeoReferenceTable : pymodule := [
  SFrom "arinc424.decoder" "Field" "Field";
  SImport "arinc424.decoder" "decoder";
  py_GeoReferenceTable_GeoReferenceTable].

(* src/arinc424/definitions/GridMORA.py:8-52 *)
Definition py_GridMORA_GridMORA : stmt :=
  SClass "GridMORA"
    [SDef "read" [("self", None); ("line", None); ("primary", None)]
      [SReturn (Some (ECall (EAttr (EName "self") "read_primary") [(EName "line")] []))];
    SDef "read_primary" [("self", None); ("r", None)]
      [SReturn (Some (EList [(ECall (EName "Field") [(EStr "Record Type"); (EItem (EName "r") (EInt 0)); (EAttr (EName "decoder") "field_002")] []); (ECall (EName "Field") [(EStr "Section Code"); (ESlice (EName "r") (Some (EInt 4)) (Some (EInt 6))); (EAttr (EName "decoder") "field_004")] []); (ECall (EName "Field") [(EStr "Starting Latitude"); (ESlice (EName "r") (Some (EInt 13)) (Some (EInt 16))); (EAttr (EName "decoder") "field_141")] []); (ECall (EName "Field") [(EStr "Starting Longitude"); (ESlice (EName "r") (Some (EInt 16)) (Some (EInt 20))); (EAttr (EName "decoder") "field_142")] []); (ECall (EName "Field") [(EStr "MORA"); (ESlice (EName "r") (Some (EInt 30)) (Some (EInt 33))); (EAttr (EName "decoder") "field_143")] []); (ECall (EName "Field") [(EStr "MORA (2)"); (ESlice (EName "r") (Some (EInt 33)) (Some (EInt 36))); (EAttr (EName "decoder") "field_143")] []); (ECall (EName "Field") [(EStr "MORA (3)"); (ESlice (EName "r") (Some (EInt 36)) (Some (EInt 39))); (EAttr (EName "decoder") "field_143")] []); (ECall (EName "Field") [(EStr "MORA (4)"); (ESlice (EName "r") (Some (EInt 39)) (Some (EInt 42))); (EAttr (EName "decoder") "field_143")] []); (ECall (EName "Field") [(EStr "MORA (5)"); (ESlice (EName "r") (Some (EInt 42)) (Some (EInt 45))); (EAttr (EName "decoder") "field_143")] []); (ECall (EName "Field") [(EStr "MORA (6)"); (ESlice (EName "r") (Some (EInt 45)) (Some (EInt 48))); (EAttr (EName "decoder") "field_143")] []); (ECall (EName "Field") [(EStr "MORA (7)"); (ESlice (EName "r") (Some (EInt 48)) (Some (EInt 51))); (EAttr (EName "decoder") "field_143")] []); (ECall (EName "Field") [(EStr "MORA (8)"); (ESlice (EName "r") (Some (EInt 51)) (Some (EInt 54))); (EAttr (EName "decoder") "field_143")] []); (ECall (EName "Field") [(EStr "MORA (9)"); (ESlice (EName "r") (Some (EInt 54)) (Some (EInt 57))); (EAttr (EName "decoder") "field_143")] []); (ECall (EName "Field") [(EStr "MORA (10)"); (ESlice (EName "r") (Some (EInt 57)) (Some (EInt 60))); (EAttr (EName "decoder") "field_143")] []); (ECall (EName "Field") [(EStr "MORA (11)"); (ESlice (EName "r") (Some (EInt 60)) (Some (EInt 63))); (EAttr (EName "decoder") "field_143")] []); (ECall (EName "Field") [(EStr "MORA (12)"); (ESlice (EName "r") (Some (EInt 63)) (Some (EInt 66))); (EAttr (EName "decoder") "field_143")] []); (ECall (EName "Field") [(EStr "MORA (13)"); (ESlice (EName "r") (Some (EInt 66)) (Some (EInt 69))); (EAttr (EName "decoder") "field_143")] []); (ECall (EName "Field") [(EStr "MORA (14)"); (ESlice (EName "r") (Some (EInt 69)) (Some (EInt 72))); (EAttr (EName "decoder") "field_143")] []); (ECall (EName "Field") [(EStr "MORA (15)"); (ESlice (EName "r") (Some (EInt 72)) (Some (EInt 75))); (EAttr (EName "decoder") "field_143")] []); (ECall (EName "Field") [(EStr "MORA (16)"); (ESlice (EName "r") (Some (EInt 75)) (Some (EInt 78))); (EAttr (EName "decoder") "field_143")] []); (ECall (EName "Field") [(EStr "MORA (17)"); (ESlice (EName "r") (Some (EInt 78)) (Some (EInt 81))); (EAttr (EName "decoder") "field_143")] []); (ECall (EName "Field") [(EStr "MORA (18)"); (ESlice (EName "r") (Some (EInt 81)) (Some (EInt 84))); (EAttr (EName "decoder") "field_143")] []); (ECall (EName "Field") [(EStr "MORA (19)"); (ESlice (EName "r") (Some (EInt 84)) (Some (EInt 87))); (EAttr (EName "decoder") "field_143")] []); (ECall (EName "Field") [(EStr "MORA (21)"); (ESlice (EName "r") (Some (EInt 87)) (Some (EInt 90))); (EAttr (EName "decoder") "field_143")] []); (ECall (EName "Field") [(EStr "MORA (22)"); (ESlice (EName "r") (Some (EInt 90)) (Some (EInt 93))); (EAttr (EName "decoder") "field_143")] []); (ECall (EName "Field") [(EStr "MORA (23)"); (ESlice (EName "r") (Some (EInt 93)) (Some (EInt 96))); (EAttr (EName "decoder") "field_143")] []); (ECall (EName "Field") [(EStr "MORA (24)"); (ESlice (EName "r") (Some (EInt 96)) (Some (EInt 99))); (EAttr (EName "decoder") "field_143")] []); (ECall (EName "Field") [(EStr "MORA (25)"); (ESlice (EName "r") (Some (EInt 99)) (Some (EInt 102))); (EAttr (EName "decoder") "field_143")] []); (ECall (EName "Field") [(EStr "MORA (26)"); (ESlice (EName "r") (Some (EInt 102)) (Some (EInt 105))); (EAttr (EName "decoder") "field_143")] []); (ECall (EName "Field") [(EStr "MORA (27)"); (ESlice (EName "r") (Some (EInt 105)) (Some (EInt 108))); (EAttr (EName "decoder") "field_143")] []); (ECall (EName "Field") [(EStr "MORA (28)"); (ESlice (EName "r") (Some (EInt 108)) (Some (EInt 111))); (EAttr (EName "decoder") "field_143")] []); (ECall (EName "Field") [(EStr "MORA (29)"); (ESlice (EName "r") (Some (EInt 111)) (Some (EInt 114))); (EAttr (EName "decoder") "field_143")] []); (ECall (EName "Field") [(EStr "MORA (30)"); (ESlice (EName "r") (Some (EInt 114)) (Some (EInt 117))); (EAttr (EName "decoder") "field_143")] []); (ECall (EName "Field") [(EStr "MORA (31)"); (ESlice (EName "r") (Some (EInt 117)) (Some (EInt 120))); (EAttr (EName "decoder") "field_143")] []); (ECall (EName "Field") [(EStr "File Record No"); (ESlice (EName "r") (Some (EInt 123)) (Some (EInt 128))); (EAttr (EName "decoder") "field_031")] []); (ECall (EName "Field") [(EStr "Cycle Date"); (ESlice (EName "r") (Some (EInt 128)) (Some (EInt 132))); (EAttr (EName "decoder") "field_032")] [])]))]].

(* src/arinc424/definitions/GridMORA.py *)
Definition py_GridMORA : pymodule := [
  SFrom "arinc424.decoder" "Field" "Field";
  SImport "arinc424.decoder" "decoder";
  py_GridMORA_GridMORA].

(* src/arinc424/definitions/Heliport.py:6-120 *)
Definition py_Heliport_Heliport : stmt :=
  SClass "Heliport"
    [SAssign (EName "cont_idx") (EInt 21);
    SAssign (EName "app_idx") (EInt 22);
    SAssign (EName "continuations") (EList [(EStr "A"); (EStr "P"); (EStr "Q")]);
    SAssign (EName "name") (EStr "Heliport");
    SDef "application_type" [("self", None); ("line", None)]
      [SReturn (Some (EItem (EName "line") (EAttr (EName "self") "app_idx")))];
    SDef "read" [("self", None); ("line", None); ("primary", None)]
      [SIf (EName "primary")
        [SReturn (Some (ECall (EAttr (EName "self") "read_primary") [(EName "line")] []))]
        [];
      SAssign (EName "application") (EItem (EName "line") (EAttr (EName "self") "app_idx"));
      SMatch (EName "application")
        [(PValue (EStr "A"), [SReturn (Some (ECall (EAttr (EName "self") "read_cont") [(EName "line")] []))]);
        (PValue (EStr "P"), [SReturn (Some (ECall (EAttr (EName "self") "read_flight0") [(EName "line")] []))]);
        (PValue (EStr "Q"), [SReturn (Some (ECall (EAttr (EName "self") "read_flight1") [(EName "line")] []))]);
        (PWild, [SReturn (Some (EList []))])]];
    SDef "read_primary" [("self", None); ("r", None)]
      [SReturn (Some (EList [(ECall (EName "Field") [(EStr "Record Type"); (EItem (EName "r") (EInt 0)); (EAttr (EName "decoder") "field_002")] []); (ECall (EName "Field") [(EStr "Customer / Area Code"); (ESlice (EName "r") (Some (EInt 1)) (Some (EInt 4))); (EAttr (EName "decoder") "field_003")] []); (ECall (EName "Field") [(EStr "Section Code"); (EBin OpAdd (EItem (EName "r") (EInt 4)) (EItem (EName "r") (EInt 12))); (EAttr (EName "decoder") "field_004")] []); (ECall (EName "Field") [(EStr "Heliport Identifier"); (ESlice (EName "r") (Some (EInt 6)) (Some (EInt 10))); (EAttr (EName "decoder") "field_006")] []); (ECall (EName "Field") [(EStr "ICAO Code"); (ESlice (EName "r") (Some (EInt 10)) (Some (EInt 12))); (EAttr (EName "decoder") "field_014")] []); (ECall (EName "Field") [(EStr "ATA/IATA Designator"); (ESlice (EName "r") (Some (EInt 13)) (Some (EInt 16))); (EAttr (EName "decoder") "field_107")] []); (ECall (EName "Field") [(EStr "PAD Identifier"); (ESlice (EName "r") (Some (EInt 16)) (Some (EInt 21))); (EAttr (EName "decoder") "field_180")] []); (ECall (EName "Field") [(EStr "Continuation Record No"); (EItem (EName "r") (EInt 21)); (EAttr (EName "decoder") "field_016")] []); (ECall (EName "Field") [(EStr "Speed Limit Altitude"); (ESlice (EName "r") (Some (EInt 22)) (Some (EInt 27))); (EAttr (EName "decoder") "field_073")] []); (ECall (EName "Field") [(EStr "Datum Code"); (ESlice (EName "r") (Some (EInt 27)) (Some (EInt 30))); (EAttr (EName "decoder") "field_197")] []); (ECall (EName "Field") [(EStr "IFR Indicator"); (EItem (EName "r") (EInt 30)); (EAttr (EName "decoder") "field_108")] []); (ECall (EName "Field") [(EStr "Latitude"); (ESlice (EName "r") (Some (EInt 32)) (Some (EInt 41))); (EAttr (EName "decoder") "field_036")] []); (ECall (EName "Field") [(EStr "Longitude"); (ESlice (EName "r") (Some (EInt 41)) (Some (EInt 51))); (EAttr (EName "decoder") "field_037")] []); (ECall (EName "Field") [(EStr "Magnetic Variation"); (ESlice (EName "r") (Some (EInt 51)) (Some (EInt 56))); (EAttr (EName "decoder") "field_039")] []); (ECall (EName "Field") [(EStr "Heliport Elevation"); (ESlice (EName "r") (Some (EInt 56)) (Some (EInt 61))); (EAttr (EName "decoder") "field_055")] []); (ECall (EName "Field") [(EStr "Speed Limit"); (ESlice (EName "r") (Some (EInt 61)) (Some (EInt 64))); (EAttr (EName "decoder") "field_072")] []); (ECall (EName "Field") [(EStr "Recommended VHF Navaid"); (ESlice (EName "r") (Some (EInt 64)) (Some (EInt 68))); (EAttr (EName "decoder") "field_023")] []); (ECall (EName "Field") [(EStr "ICAO Code (2)"); (ESlice (EName "r") (Some (EInt 68)) (Some (EInt 70))); (EAttr (EName "decoder") "field_014")] []); (ECall (EName "Field") [(EStr "Transition Altitude"); (ESlice (EName "r") (Some (EInt 70)) (Some (EInt 75))); (EAttr (EName "decoder") "field_053")] []); (ECall (EName "Field") [(EStr "Transition Level"); (ESlice (EName "r") (Some (EInt 75)) (Some (EInt 80))); (EAttr (EName "decoder") "field_053")] []); (ECall (EName "Field") [(EStr "Public Military Indicator"); (EItem (EName "r") (EInt 80)); (EAttr (EName "decoder") "field_177")] []); (ECall (EName "Field") [(EStr "Time Zone"); (ESlice (EName "r") (Some (EInt 81)) (Some (EInt 84))); (EAttr (EName "decoder") "field_178")] []); (ECall (EName "Field") [(EStr "Daylight Indicator"); (EItem (EName "r") (EInt 84)); (EAttr (EName "decoder") "field_179")] []); (ECall (EName "Field") [(EStr "Pad Dimensions"); (ESlice (EName "r") (Some (EInt 85)) (Some (EInt 91))); (EAttr (EName "decoder") "field_176")] []); (ECall (EName "Field") [(EStr "Magnetic/True Indicator"); (EItem (EName "r") (EInt 91)); (EAttr (EName "decoder") "field_165")] []); (ECall (EName "Field") [(EStr "Heliport Name"); (ESlice (EName "r") (Some (EInt 93)) (Some (EInt 123))); (EAttr (EName "decoder") "field_071")] []); (ECall (EName "Field") [(EStr "File Record No"); (ESlice (EName "r") (Some (EInt 123)) (Some (EInt 128))); (EAttr (EName "decoder") "field_031")] []); (ECall (EName "Field") [(EStr "Cycle Date"); (ESlice (EName "r") (Some (EInt 128)) (Some (EInt 132))); (EAttr (EName "decoder") "field_032")] [])]))];
    SDef "read_cont" [("self", None); ("r", None)]
      [SReturn (Some (EList [(ECall (EName "Field") [(EStr "Record Type"); (EItem (EName "r") (EInt 0)); (EAttr (EName "decoder") "field_002")] []); (ECall (EName "Field") [(EStr "Customer / Area Code"); (ESlice (EName "r") (Some (EInt 1)) (Some (EInt 4))); (EAttr (EName "decoder") "field_003")] []); (ECall (EName "Field") [(EStr "Section Code"); (EBin OpAdd (EItem (EName "r") (EInt 4)) (EItem (EName "r") (EInt 12))); (EAttr (EName "decoder") "field_004")] []); (ECall (EName "Field") [(EStr "Heliport Identifier"); (ESlice (EName "r") (Some (EInt 6)) (Some (EInt 10))); (EAttr (EName "decoder") "field_006")] []); (ECall (EName "Field") [(EStr "ICAO Code"); (ESlice (EName "r") (Some (EInt 10)) (Some (EInt 12))); (EAttr (EName "decoder") "field_014")] []); (ECall (EName "Field") [(EStr "ATA/IATA Designator"); (ESlice (EName "r") (Some (EInt 13)) (Some (EInt 16))); (EAttr (EName "decoder") "field_107")] []); (ECall (EName "Field") [(EStr "PAD Identifier"); (ESlice (EName "r") (Some (EInt 16)) (Some (EInt 21))); (EAttr (EName "decoder") "field_180")] []); (ECall (EName "Field") [(EStr "Continuation Record No"); (EItem (EName "r") (EInt 21)); (EAttr (EName "decoder") "field_016")] []); (ECall (EName "Field") [(EStr "Application Type"); (EItem (EName "r") (EInt 22)); (EAttr (EName "decoder") "field_091")] []); (ECall (EName "Field") [(EStr "Notes"); (ESlice (EName "r") (Some (EInt 23)) (Some (EInt 92))); (EAttr (EName "decoder") "field_061")] []); (ECall (EName "Field") [(EStr "File Record No"); (ESlice (EName "r") (Some (EInt 123)) (Some (EInt 128))); (EAttr (EName "decoder") "field_031")] []); (ECall (EName "Field") [(EStr "Cycle Date"); (ESlice (EName "r") (Some (EInt 128)) (Some (EInt 132))); (EAttr (EName "decoder") "field_032")] [])]))];
    SDef "read_flight0" [("self", None); ("r", None)]
      [SReturn (Some (EList [(ECall (EName "Field") [(EStr "Record Type"); (EItem (EName "r") (EInt 0)); (EAttr (EName "decoder") "field_002")] []); (ECall (EName "Field") [(EStr "Customer / Area Code"); (ESlice (EName "r") (Some (EInt 1)) (Some (EInt 4))); (EAttr (EName "decoder") "field_003")] []); (ECall (EName "Field") [(EStr "Section Code"); (EBin OpAdd (EItem (EName "r") (EInt 4)) (EItem (EName "r") (EInt 12))); (EAttr (EName "decoder") "field_004")] []); (ECall (EName "Field") [(EStr "Heliport Identifier"); (ESlice (EName "r") (Some (EInt 6)) (Some (EInt 10))); (EAttr (EName "decoder") "field_006")] []); (ECall (EName "Field") [(EStr "ICAO Code"); (ESlice (EName "r") (Some (EInt 10)) (Some (EInt 12))); (EAttr (EName "decoder") "field_014")] []); (ECall (EName "Field") [(EStr "ATA/IATA Designator"); (ESlice (EName "r") (Some (EInt 13)) (Some (EInt 16))); (EAttr (EName "decoder") "field_107")] []); (ECall (EName "Field") [(EStr "PAD Identifier"); (ESlice (EName "r") (Some (EInt 16)) (Some (EInt 21))); (EAttr (EName "decoder") "field_180")] []); (ECall (EName "Field") [(EStr "Continuation Record No"); (EItem (EName "r") (EInt 21)); (EAttr (EName "decoder") "field_016")] []); (ECall (EName "Field") [(EStr "Application Type"); (EItem (EName "r") (EInt 22)); (EAttr (EName "decoder") "field_091")] []); (ECall (EName "Field") [(EStr "FIR Identifier"); (ESlice (EName "r") (Some (EInt 23)) (Some (EInt 27))); (EAttr (EName "decoder") "field_116")] []); (ECall (EName "Field") [(EStr "UIR Identifier"); (ESlice (EName "r") (Some (EInt 27)) (Some (EInt 31))); (EAttr (EName "decoder") "field_116")] []); (ECall (EName "Field") [(EStr "Start/End Indicator"); (EItem (EName "r") (EInt 31)); (EAttr (EName "decoder") "field_152")] []); (ECall (EName "Field") [(EStr "Start/End Date/Time"); (ESlice (EName "r") (Some (EInt 32)) (Some (EInt 43))); (EAttr (EName "decoder") "field_153")] []); (ECall (EName "Field") [(EStr "Controlled A/S Indicator"); (EItem (EName "r") (EInt 66)); (EAttr (EName "decoder") "field_217")] []); (ECall (EName "Field") [(EStr "Controlled A/S Airport Indentifier"); (ESlice (EName "r") (Some (EInt 67)) (Some (EInt 71))); (EAttr (EName "decoder") "field_006")] []); (ECall (EName "Field") [(EStr "Controlled A/S Airport ICAO"); (ESlice (EName "r") (Some (EInt 71)) (Some (EInt 73))); (EAttr (EName "decoder") "field_014")] []); (ECall (EName "Field") [(EStr "File Record No"); (ESlice (EName "r") (Some (EInt 123)) (Some (EInt 128))); (EAttr (EName "decoder") "field_031")] []); (ECall (EName "Field") [(EStr "Cycle Date"); (ESlice (EName "r") (Some (EInt 128)) (Some (EInt 132))); (EAttr (EName "decoder") "field_032")] [])]))];
    SDef "read_flight1" [("self", None); ("r", None)]
      [SReturn (Some (EList [(ECall (EName "Field") [(EStr "Record Type"); (EItem (EName "r") (EInt 0)); (EAttr (EName "decoder") "field_002")] []); (ECall (EName "Field") [(EStr "Customer / Area Code"); (ESlice (EName "r") (Some (EInt 1)) (Some (EInt 4))); (EAttr (EName "decoder") "field_003")] []); (ECall (EName "Field") [(EStr "Section Code"); (EBin OpAdd (EItem (EName "r") (EInt 4)) (EItem (EName "r") (EInt 12))); (EAttr (EName "decoder") "field_004")] []); (ECall (EName "Field") [(EStr "Heliport Identifier"); (ESlice (EName "r") (Some (EInt 6)) (Some (EInt 10))); (EAttr (EName "decoder") "field_006")] []); (ECall (EName "Field") [(EStr "ICAO Code"); (ESlice (EName "r") (Some (EInt 10)) (Some (EInt 12))); (EAttr (EName "decoder") "field_014")] []); (ECall (EName "Field") [(EStr "ATA/IATA Designator"); (ESlice (EName "r") (Some (EInt 13)) (Some (EInt 16))); (EAttr (EName "decoder") "field_107")] []); (ECall (EName "Field") [(EStr "PAD Identifier"); (ESlice (EName "r") (Some (EInt 16)) (Some (EInt 21))); (EAttr (EName "decoder") "field_180")] []); (ECall (EName "Field") [(EStr "Continuation Record No"); (EItem (EName "r") (EInt 21)); (EAttr (EName "decoder") "field_016")] []); (ECall (EName "Field") [(EStr "Application Type"); (EItem (EName "r") (EInt 22)); (EAttr (EName "decoder") "field_091")] []); (ECall (EName "Field") [(EStr "Notes"); (ESlice (EName "r") (Some (EInt 23)) (Some (EInt 92))); (EAttr (EName "decoder") "field_061")] []); (ECall (EName "Field") [(EStr "File Record No"); (ESlice (EName "r") (Some (EInt 123)) (Some (EInt 128))); (EAttr (EName "decoder") "field_031")] []); (ECall (EName "Field") [(EStr "Cycle Date"); (ESlice (EName "r") (Some (EInt 128)) (Some (EInt 132))); (EAttr (EName "decoder") "field_032")] [])]))]].

(* src/arinc424/definitions/Heliport.py *)
Definition py_Heliport : pymodule := [
  SFrom "arinc424.decoder" "Field" "Field";
  SImport "arinc424.decoder" "decoder";
  py_Heliport_Heliport].

(* src/arinc424/definitions/HeliportCommunications.py:6-114 *)
Definition py_HeliportCommunications_HeliportCommunications : stmt :=
  SClass "HeliportCommunications"
    [SAssign (EName "cont_idx") (EInt 25);
    SAssign (EName "app_idx") (EInt 26);
    SAssign (EName "continuations") (EList [(EStr "A"); (EStr "T")]);
    SAssign (EName "name") (EStr "Heliport Communications");
    SDef "application_type" [("self", None); ("line", None)]
      [SReturn (Some (EItem (EName "line") (EAttr (EName "self") "app_idx")))];
    SDef "read" [("self", None); ("line", None); ("primary", None)]
      [SIf (EName "primary")
        [SReturn (Some (ECall (EAttr (EName "self") "read_primary") [(EName "line")] []))]
        [];
      SAssign (EName "application") (EItem (EName "line") (EAttr (EName "self") "app_idx"));
      SMatch (EName "application")
        [(PValue (EStr "A"), [SReturn (Some (ECall (EAttr (EName "self") "read_cont") [(EName "line")] []))]);
        (PValue (EStr "T"), [SReturn (Some (ECall (EAttr (EName "self") "read_timeop") [(EName "line")] []))]);
        (PWild, [SRaise (ECall (EName "ValueError") [(EStr "Unknown Application Type")] [])])]];
    SDef "read_primary" [("self", None); ("r", None)]
      [SReturn (Some (EList [(ECall (EName "Field") [(EStr "Record Type"); (EItem (EName "r") (EInt 0)); (EAttr (EName "decoder") "field_002")] []); (ECall (EName "Field") [(EStr "Customer / Area Code"); (ESlice (EName "r") (Some (EInt 1)) (Some (EInt 4))); (EAttr (EName "decoder") "field_003")] []); (ECall (EName "Field") [(EStr "Section Code"); (EBin OpAdd (EItem (EName "r") (EInt 4)) (EItem (EName "r") (EInt 12))); (EAttr (EName "decoder") "field_004")] []); (ECall (EName "Field") [(EStr "Heliport Identifier"); (ESlice (EName "r") (Some (EInt 6)) (Some (EInt 10))); (EAttr (EName "decoder") "field_006")] []); (ECall (EName "Field") [(EStr "ICAO Code"); (ESlice (EName "r") (Some (EInt 10)) (Some (EInt 12))); (EAttr (EName "decoder") "field_014")] []); (ECall (EName "Field") [(EStr "Communications Type"); (ESlice (EName "r") (Some (EInt 13)) (Some (EInt 16))); (EAttr (EName "decoder") "field_101")] []); (ECall (EName "Field") [(EStr "Communications Freq"); (ESlice (EName "r") (Some (EInt 16)) (Some (EInt 23))); (EAttr (EName "decoder") "field_103")] []); (ECall (EName "Field") [(EStr "Guard/Transmit"); (EItem (EName "r") (EInt 23)); (EAttr (EName "decoder") "field_182")] []); (ECall (EName "Field") [(EStr "Frequency Units"); (EItem (EName "r") (EInt 24)); (EAttr (EName "decoder") "field_104")] []); (ECall (EName "Field") [(EStr "Continuation Record No"); (EItem (EName "r") (EInt 25)); (EAttr (EName "decoder") "field_016")] []); (ECall (EName "Field") [(EStr "Service Indicator"); (ESlice (EName "r") (Some (EInt 26)) (Some (EInt 29))); (EAttr (EName "decoder") "field_106")] []); (ECall (EName "Field") [(EStr "Radar Service"); (EItem (EName "r") (EInt 29)); (EAttr (EName "decoder") "field_102")] []); (ECall (EName "Field") [(EStr "Modulation"); (EItem (EName "r") (EInt 30)); (EAttr (EName "decoder") "field_198")] []); (ECall (EName "Field") [(EStr "Signal Emission"); (EItem (EName "r") (EInt 31)); (EAttr (EName "decoder") "field_199")] []); (ECall (EName "Field") [(EStr "Latitude"); (ESlice (EName "r") (Some (EInt 32)) (Some (EInt 41))); (EAttr (EName "decoder") "field_036")] []); (ECall (EName "Field") [(EStr "Longitude"); (ESlice (EName "r") (Some (EInt 41)) (Some (EInt 51))); (EAttr (EName "decoder") "field_036")] []); (ECall (EName "Field") [(EStr "Magnetic Variation"); (ESlice (EName "r") (Some (EInt 51)) (Some (EInt 56))); (EAttr (EName "decoder") "field_039")] []); (ECall (EName "Field") [(EStr "Facility Elevation"); (ESlice (EName "r") (Some (EInt 56)) (Some (EInt 61))); (EAttr (EName "decoder") "field_092")] []); (ECall (EName "Field") [(EStr "H24 Indicator"); (EItem (EName "r") (EInt 61)); (EAttr (EName "decoder") "field_181")] []); (ECall (EName "Field") [(EStr "Sectorization"); (ESlice (EName "r") (Some (EInt 62)) (Some (EInt 68))); (EAttr (EName "decoder") "field_183")] []); (ECall (EName "Field") [(EStr "Altitude Description"); (EItem (EName "r") (EInt 68)); (EAttr (EName "decoder") "field_029")] []); (ECall (EName "Field") [(EStr "Communication Altitude"); (ESlice (EName "r") (Some (EInt 69)) (Some (EInt 74))); (EAttr (EName "decoder") "field_184")] []); (ECall (EName "Field") [(EStr "Communication Altitude (2)"); (ESlice (EName "r") (Some (EInt 74)) (Some (EInt 79))); (EAttr (EName "decoder") "field_184")] []); (ECall (EName "Field") [(EStr "Sector Facility"); (ESlice (EName "r") (Some (EInt 79)) (Some (EInt 83))); (EAttr (EName "decoder") "field_185")] []); (ECall (EName "Field") [(EStr "ICAO Code (2)"); (ESlice (EName "r") (Some (EInt 83)) (Some (EInt 85))); (EAttr (EName "decoder") "field_014")] []); (ECall (EName "Field") [(EStr "Section Code (2)"); (ESlice (EName "r") (Some (EInt 85)) (Some (EInt 87))); (EAttr (EName "decoder") "field_004")] []); (ECall (EName "Field") [(EStr "Distance Description"); (EItem (EName "r") (EInt 87)); (EAttr (EName "decoder") "field_187")] []); (ECall (EName "Field") [(EStr "Communications Distance"); (ESlice (EName "r") (Some (EInt 88)) (Some (EInt 90))); (EAttr (EName "decoder") "field_188")] []); (ECall (EName "Field") [(EStr "Remote Facility"); (ESlice (EName "r") (Some (EInt 90)) (Some (EInt 94))); (EAttr (EName "decoder") "field_200")] []); (ECall (EName "Field") [(EStr "ICAO Code (3)"); (ESlice (EName "r") (Some (EInt 94)) (Some (EInt 96))); (EAttr (EName "decoder") "field_014")] []); (ECall (EName "Field") [(EStr "Section Code (3)"); (ESlice (EName "r") (Some (EInt 96)) (Some (EInt 98))); (EAttr (EName "decoder") "field_004")] []); (ECall (EName "Field") [(EStr "Call Sign"); (ESlice (EName "r") (Some (EInt 98)) (Some (EInt 123))); (EAttr (EName "decoder") "field_105")] []); (ECall (EName "Field") [(EStr "File Record No"); (ESlice (EName "r") (Some (EInt 123)) (Some (EInt 128))); (EAttr (EName "decoder") "field_031")] []); (ECall (EName "Field") [(EStr "Cycle Date"); (ESlice (EName "r") (Some (EInt 128)) (Some (EInt 132))); (EAttr (EName "decoder") "field_032")] [])]))];
    SDef "read_cont" [("self", None); ("r", None)]
      [SReturn (Some (EList [(ECall (EName "Field") [(EStr "Record Type"); (EItem (EName "r") (EInt 0)); (EAttr (EName "decoder") "field_002")] []); (ECall (EName "Field") [(EStr "Customer / Area Code"); (ESlice (EName "r") (Some (EInt 1)) (Some (EInt 4))); (EAttr (EName "decoder") "field_003")] []); (ECall (EName "Field") [(EStr "Section Code"); (EBin OpAdd (EItem (EName "r") (EInt 4)) (EItem (EName "r") (EInt 12))); (EAttr (EName "decoder") "field_004")] []); (ECall (EName "Field") [(EStr "Heliport Identifier"); (ESlice (EName "r") (Some (EInt 6)) (Some (EInt 10))); (EAttr (EName "decoder") "field_006")] []); (ECall (EName "Field") [(EStr "ICAO Code"); (ESlice (EName "r") (Some (EInt 10)) (Some (EInt 12))); (EAttr (EName "decoder") "field_014")] []); (ECall (EName "Field") [(EStr "Communications Type"); (ESlice (EName "r") (Some (EInt 13)) (Some (EInt 16))); (EAttr (EName "decoder") "field_101")] []); (ECall (EName "Field") [(EStr "Communications Freq"); (ESlice (EName "r") (Some (EInt 16)) (Some (EInt 23))); (EAttr (EName "decoder") "field_103")] []); (ECall (EName "Field") [(EStr "Guard/Transmit"); (EItem (EName "r") (EInt 23)); (EAttr (EName "decoder") "field_182")] []); (ECall (EName "Field") [(EStr "Frequency Units"); (EItem (EName "r") (EInt 24)); (EAttr (EName "decoder") "field_104")] []); (ECall (EName "Field") [(EStr "Continuation Record No"); (EItem (EName "r") (EInt 25)); (EAttr (EName "decoder") "field_016")] []); (ECall (EName "Field") [(EStr "Application Type"); (EItem (EName "r") (EInt 26)); (EAttr (EName "decoder") "field_091")] []); (ECall (EName "Field") [(EStr "Narrative"); (ESlice (EName "r") (Some (EInt 27)) (Some (EInt 87))); (EAttr (EName "decoder") "field_186")] []); (ECall (EName "Field") [(EStr "File Record No"); (ESlice (EName "r") (Some (EInt 123)) (Some (EInt 128))); (EAttr (EName "decoder") "field_031")] []); (ECall (EName "Field") [(EStr "Cycle Date"); (ESlice (EName "r") (Some (EInt 128)) (Some (EInt 132))); (EAttr (EName "decoder") "field_032")] [])]))];
    SDef "read_timeop" [("self", None); ("r", None)]
      [SReturn (Some (EList [(ECall (EName "Field") [(EStr "Record Type"); (EItem (EName "r") (EInt 0)); (EAttr (EName "decoder") "field_002")] []); (ECall (EName "Field") [(EStr "Customer / Area Code"); (ESlice (EName "r") (Some (EInt 1)) (Some (EInt 4))); (EAttr (EName "decoder") "field_003")] []); (ECall (EName "Field") [(EStr "Section Code"); (EBin OpAdd (EItem (EName "r") (EInt 4)) (EItem (EName "r") (EInt 12))); (EAttr (EName "decoder") "field_004")] []); (ECall (EName "Field") [(EStr "Heliport Identifier"); (ESlice (EName "r") (Some (EInt 6)) (Some (EInt 10))); (EAttr (EName "decoder") "field_006")] []); (ECall (EName "Field") [(EStr "ICAO Code"); (ESlice (EName "r") (Some (EInt 10)) (Some (EInt 12))); (EAttr (EName "decoder") "field_014")] []); (ECall (EName "Field") [(EStr "Communications Type"); (ESlice (EName "r") (Some (EInt 13)) (Some (EInt 16))); (EAttr (EName "decoder") "field_101")] []); (ECall (EName "Field") [(EStr "Communications Freq"); (ESlice (EName "r") (Some (EInt 16)) (Some (EInt 23))); (EAttr (EName "decoder") "field_103")] []); (ECall (EName "Field") [(EStr "Guard/Transmit"); (EItem (EName "r") (EInt 23)); (EAttr (EName "decoder") "field_182")] []); (ECall (EName "Field") [(EStr "Frequency Units"); (EItem (EName "r") (EInt 24)); (EAttr (EName "decoder") "field_104")] []); (ECall (EName "Field") [(EStr "Continuation Record No"); (EItem (EName "r") (EInt 25)); (EAttr (EName "decoder") "field_016")] []); (ECall (EName "Field") [(EStr "Application Type"); (EItem (EName "r") (EInt 26)); (EAttr (EName "decoder") "field_091")] []); (ECall (EName "Field") [(EStr "Time Code"); (EItem (EName "r") (EInt 27)); (EAttr (EName "decoder") "field_131")] []); (ECall (EName "Field") [(EStr "NOTAM"); (EItem (EName "r") (EInt 28)); (EAttr (EName "decoder") "field_132")] []); (ECall (EName "Field") [(EStr "Time Indicator"); (EItem (EName "r") (EInt 29)); (EAttr (EName "decoder") "field_138")] []); (ECall (EName "Field") [(EStr "Time of Operation"); (ESlice (EName "r") (Some (EInt 30)) (Some (EInt 40))); (EAttr (EName "decoder") "field_195")] []); (ECall (EName "Field") [(EStr "Time of Operation (2)"); (ESlice (EName "r") (Some (EInt 40)) (Some (EInt 50))); (EAttr (EName "decoder") "field_195")] []); (ECall (EName "Field") [(EStr "Time of Operation (3)"); (ESlice (EName "r") (Some (EInt 50)) (Some (EInt 60))); (EAttr (EName "decoder") "field_195")] []); (ECall (EName "Field") [(EStr "Time of Operation (4)"); (ESlice (EName "r") (Some (EInt 60)) (Some (EInt 70))); (EAttr (EName "decoder") "field_195")] []); (ECall (EName "Field") [(EStr "Time of Operation (5)"); (ESlice (EName "r") (Some (EInt 70)) (Some (EInt 80))); (EAttr (EName "decoder") "field_195")] []); (ECall (EName "Field") [(EStr "Time of Operation (6)"); (ESlice (EName "r") (Some (EInt 80)) (Some (EInt 90))); (EAttr (EName "decoder") "field_195")] []); (ECall (EName "Field") [(EStr "Time of Operation (7)"); (ESlice (EName "r") (Some (EInt 90)) (Some (EInt 100))); (EAttr (EName "decoder") "field_195")] []); (ECall (EName "Field") [(EStr "File Record No"); (ESlice (EName "r") (Some (EInt 123)) (Some (EInt 128))); (EAttr (EName "decoder") "field_031")] []); (ECall (EName "Field") [(EStr "Cycle Date"); (ESlice (EName "r") (Some (EInt 128)) (Some (EInt 132))); (EAttr (EName "decoder") "field_032")] [])]))]].

(* src/arinc424/definitions/HeliportCommunications.py *)
Definition py_HeliportCommunications : pymodule := [
  SFrom "arinc424.decoder" "Field" "Field";
  SImport "arinc424.decoder" "decoder";
  py_HeliportCommunications_HeliportCommunications].

(* src/arinc424/definitions/HeliportTerminalWaypoint.py:6-112 *)
Definition py_HeliportTerminalWaypoint_HeliportTerminalWaypoint : stmt :=
  SClass "HeliportTerminalWaypoint"
    [SAssign (EName "cont_idx") (EInt 21);
    SAssign (EName "app_idx") (EInt 22);
    SAssign (EName "continuations") (EList [(EStr "A"); (EStr "P")]);
    SAssign (EName "name") (EStr "Heliport Terminal Waypoint");
    SDef "application_type" [("self", None); ("line", None)]
      [SReturn (Some (EItem (EName "line") (EAttr (EName "self") "app_idx")))];
    SDef "read" [("self", None); ("line", None); ("primary", None)]
      [SIf (EName "primary")
        [SReturn (Some (ECall (EAttr (EName "self") "read_primary") [(EName "line")] []))]
        [];
      SAssign (EName "application") (EItem (EName "line") (EAttr (EName "self") "app_idx"));
      SMatch (EName "application")
        [(PValue (EStr "A"), [SReturn (Some (ECall (EAttr (EName "self") "read_cont") [(EName "line")] []))]);
        (PValue (EStr "P"), [SReturn (Some (ECall (EAttr (EName "self") "read_flight0") [(EName "line")] []))]);
        (PWild, [SReturn (Some (ECall (EAttr (EName "self") "read_flight1") [(EName "line")] []))])]];
    SDef "read_primary" [("self", None); ("r", None)]
      [SReturn (Some (EList [(ECall (EName "Field") [(EStr "Record Type"); (EItem (EName "r") (EInt 0)); (EAttr (EName "decoder") "field_002")] []); (ECall (EName "Field") [(EStr "Customer / Area Code"); (ESlice (EName "r") (Some (EInt 1)) (Some (EInt 4))); (EAttr (EName "decoder") "field_003")] []); (ECall (EName "Field") [(EStr "Section Code"); (EBin OpAdd (EItem (EName "r") (EInt 4)) (EItem (EName "r") (EInt 12))); (EAttr (EName "decoder") "field_004")] []); (ECall (EName "Field") [(EStr "Heliport Identifier"); (ESlice (EName "r") (Some (EInt 6)) (Some (EInt 10))); (EAttr (EName "decoder") "field_006")] []); (ECall (EName "Field") [(EStr "ICAO Code"); (ESlice (EName "r") (Some (EInt 10)) (Some (EInt 12))); (EAttr (EName "decoder") "field_014")] []); (ECall (EName "Field") [(EStr "Waypoint Identifier"); (ESlice (EName "r") (Some (EInt 13)) (Some (EInt 18))); (EAttr (EName "decoder") "field_013")] []); (ECall (EName "Field") [(EStr "ICAO Code (2)"); (ESlice (EName "r") (Some (EInt 19)) (Some (EInt 21))); (EAttr (EName "decoder") "field_014")] []); (ECall (EName "Field") [(EStr "Continuation Record No"); (EItem (EName "r") (EInt 21)); (EAttr (EName "decoder") "field_016")] []); (ECall (EName "Field") [(EStr "Waypoint Type"); (ESlice (EName "r") (Some (EInt 26)) (Some (EInt 29))); (EAttr (EName "decoder") "field_042")] []); (ECall (EName "Field") [(EStr "Waypoint Usage"); (ESlice (EName "r") (Some (EInt 29)) (Some (EInt 31))); (EAttr (EName "decoder") "field_082")] []); (ECall (EName "Field") [(EStr "Waypoint Latitude"); (ESlice (EName "r") (Some (EInt 32)) (Some (EInt 41))); (EAttr (EName "decoder") "field_036")] []); (ECall (EName "Field") [(EStr "Waypoint Longitude"); (ESlice (EName "r") (Some (EInt 41)) (Some (EInt 51))); (EAttr (EName "decoder") "field_037")] []); (ECall (EName "Field") [(EStr "Dynamic Magnetic Variation"); (ESlice (EName "r") (Some (EInt 74)) (Some (EInt 79))); (EAttr (EName "decoder") "field_039")] []); (ECall (EName "Field") [(EStr "Datum Code"); (ESlice (EName "r") (Some (EInt 84)) (Some (EInt 87))); (EAttr (EName "decoder") "field_197")] []); (ECall (EName "Field") [(EStr "Name Format Indicator"); (ESlice (EName "r") (Some (EInt 95)) (Some (EInt 98))); (EAttr (EName "decoder") "field_196")] []); (ECall (EName "Field") [(EStr "Waypoint Name/Description"); (ESlice (EName "r") (Some (EInt 98)) (Some (EInt 123))); (EAttr (EName "decoder") "field_043")] []); (ECall (EName "Field") [(EStr "File Record No"); (ESlice (EName "r") (Some (EInt 123)) (Some (EInt 128))); (EAttr (EName "decoder") "field_031")] []); (ECall (EName "Field") [(EStr "Cycle Date"); (ESlice (EName "r") (Some (EInt 128)) (Some (EInt 132))); (EAttr (EName "decoder") "field_032")] [])]))];
    SDef "read_cont" [("self", None); ("r", None)]
      [SReturn (Some (EList [(ECall (EName "Field") [(EStr "Record Type"); (EItem (EName "r") (EInt 0)); (EAttr (EName "decoder") "field_002")] []); (ECall (EName "Field") [(EStr "Customer / Area Code"); (ESlice (EName "r") (Some (EInt 1)) (Some (EInt 4))); (EAttr (EName "decoder") "field_003")] []); (ECall (EName "Field") [(EStr "Section Code"); (EBin OpAdd (EItem (EName "r") (EInt 4)) (EItem (EName "r") (EInt 12))); (EAttr (EName "decoder") "field_004")] []); (ECall (EName "Field") [(EStr "Heliport Identifier"); (ESlice (EName "r") (Some (EInt 6)) (Some (EInt 10))); (EAttr (EName "decoder") "field_006")] []); (ECall (EName "Field") [(EStr "ICAO Code"); (ESlice (EName "r") (Some (EInt 10)) (Some (EInt 12))); (EAttr (EName "decoder") "field_014")] []); (ECall (EName "Field") [(EStr "Waypoint Identifier"); (ESlice (EName "r") (Some (EInt 13)) (Some (EInt 18))); (EAttr (EName "decoder") "field_013")] []); (ECall (EName "Field") [(EStr "ICAO Code (2)"); (ESlice (EName "r") (Some (EInt 19)) (Some (EInt 21))); (EAttr (EName "decoder") "field_014")] []); (ECall (EName "Field") [(EStr "Continuation Record No"); (EItem (EName "r") (EInt 21)); (EAttr (EName "decoder") "field_016")] []); (ECall (EName "Field") [(EStr "Application Type"); (EItem (EName "r") (EInt 22)); (EAttr (EName "decoder") "field_091")] []); (ECall (EName "Field") [(EStr "Notes"); (ESlice (EName "r") (Some (EInt 23)) (Some (EInt 92))); (EAttr (EName "decoder") "field_061")] []); (ECall (EName "Field") [(EStr "File Record No"); (ESlice (EName "r") (Some (EInt 123)) (Some (EInt 128))); (EAttr (EName "decoder") "field_031")] []); (ECall (EName "Field") [(EStr "Cycle Date"); (ESlice (EName "r") (Some (EInt 128)) (Some (EInt 132))); (EAttr (EName "decoder") "field_032")] [])]))];
    SDef "read_flight0" [("self", None); ("r", None)]
      [SReturn (Some (EList [(ECall (EName "Field") [(EStr "Record Type"); (EItem (EName "r") (EInt 0)); (EAttr (EName "decoder") "field_002")] []); (ECall (EName "Field") [(EStr "Customer / Area Code"); (ESlice (EName "r") (Some (EInt 1)) (Some (EInt 4))); (EAttr (EName "decoder") "field_003")] []); (ECall (EName "Field") [(EStr "Section Code"); (EBin OpAdd (EItem (EName "r") (EInt 4)) (EItem (EName "r") (EInt 12))); (EAttr (EName "decoder") "field_004")] []); (ECall (EName "Field") [(EStr "Heliport Identifier"); (ESlice (EName "r") (Some (EInt 6)) (Some (EInt 10))); (EAttr (EName "decoder") "field_006")] []); (ECall (EName "Field") [(EStr "ICAO Code"); (ESlice (EName "r") (Some (EInt 10)) (Some (EInt 12))); (EAttr (EName "decoder") "field_014")] []); (ECall (EName "Field") [(EStr "Waypoint Identifier"); (ESlice (EName "r") (Some (EInt 13)) (Some (EInt 18))); (EAttr (EName "decoder") "field_013")] []); (ECall (EName "Field") [(EStr "ICAO Code (2)"); (ESlice (EName "r") (Some (EInt 19)) (Some (EInt 21))); (EAttr (EName "decoder") "field_014")] []); (ECall (EName "Field") [(EStr "Continuation Record No"); (EItem (EName "r") (EInt 21)); (EAttr (EName "decoder") "field_016")] []); (ECall (EName "Field") [(EStr "Application Type"); (EItem (EName "r") (EInt 22)); (EAttr (EName "decoder") "field_091")] []); (ECall (EName "Field") [(EStr "FIR Identifier"); (ESlice (EName "r") (Some (EInt 23)) (Some (EInt 27))); (EAttr (EName "decoder") "field_116")] []); (ECall (EName "Field") [(EStr "UIR Identifier"); (ESlice (EName "r") (Some (EInt 27)) (Some (EInt 31))); (EAttr (EName "decoder") "field_116")] []); (ECall (EName "Field") [(EStr "Start/End Indicator"); (EItem (EName "r") (EInt 31)); (EAttr (EName "decoder") "field_152")] []); (ECall (EName "Field") [(EStr "Start/End Date"); (ESlice (EName "r") (Some (EInt 32)) (Some (EInt 43))); (EAttr (EName "decoder") "field_153")] []); (ECall (EName "Field") [(EStr "File Record No"); (ESlice (EName "r") (Some (EInt 123)) (Some (EInt 128))); (EAttr (EName "decoder") "field_031")] []); (ECall (EName "Field") [(EStr "Cycle Date"); (ESlice (EName "r") (Some (EInt 128)) (Some (EInt 132))); (EAttr (EName "decoder") "field_032")] [])]))];
    SDef "read_flight1" [("self", None); ("r", None)]
      [SReturn (Some (EList [(ECall (EName "Field") [(EStr "Record Type"); (EItem (EName "r") (EInt 0)); (EAttr (EName "decoder") "field_002")] []); (ECall (EName "Field") [(EStr "Customer / Area Code"); (ESlice (EName "r") (Some (EInt 1)) (Some (EInt 4))); (EAttr (EName "decoder") "field_003")] []); (ECall (EName "Field") [(EStr "Section Code"); (EBin OpAdd (EItem (EName "r") (EInt 4)) (EItem (EName "r") (EInt 12))); (EAttr (EName "decoder") "field_004")] []); (ECall (EName "Field") [(EStr "Heliport Identifier"); (ESlice (EName "r") (Some (EInt 6)) (Some (EInt 10))); (EAttr (EName "decoder") "field_006")] []); (ECall (EName "Field") [(EStr "ICAO Code"); (ESlice (EName "r") (Some (EInt 10)) (Some (EInt 12))); (EAttr (EName "decoder") "field_014")] []); (ECall (EName "Field") [(EStr "Waypoint Identifier"); (ESlice (EName "r") (Some (EInt 13)) (Some (EInt 18))); (EAttr (EName "decoder") "field_013")] []); (ECall (EName "Field") [(EStr "ICAO Code (2)"); (ESlice (EName "r") (Some (EInt 19)) (Some (EInt 21))); (EAttr (EName "decoder") "field_014")] []); (ECall (EName "Field") [(EStr "Continuation Record No"); (EItem (EName "r") (EInt 21)); (EAttr (EName "decoder") "field_016")] []); (ECall (EName "Field") [(EStr "Waypoint Type"); (ESlice (EName "r") (Some (EInt 26)) (Some (EInt 29))); (EAttr (EName "decoder") "field_042")] []); (ECall (EName "Field") [(EStr "Waypoint Usage"); (ESlice (EName "r") (Some (EInt 29)) (Some (EInt 31))); (EAttr (EName "decoder") "field_082")] []); (ECall (EName "Field") [(EStr "Waypoint Latitude"); (ESlice (EName "r") (Some (EInt 32)) (Some (EInt 41))); (EAttr (EName "decoder") "field_036")] []); (ECall (EName "Field") [(EStr "Waypoint Longitude"); (ESlice (EName "r") (Some (EInt 41)) (Some (EInt 51))); (EAttr (EName "decoder") "field_037")] []); (ECall (EName "Field") [(EStr "Dynamic Magnetic Variation"); (ESlice (EName "r") (Some (EInt 74)) (Some (EInt 79))); (EAttr (EName "decoder") "field_039")] []); (ECall (EName "Field") [(EStr "Datum Code"); (ESlice (EName "r") (Some (EInt 84)) (Some (EInt 87))); (EAttr (EName "decoder") "field_197")] []); (ECall (EName "Field") [(EStr "Name Format Indicator"); (ESlice (EName "r") (Some (EInt 95)) (Some (EInt 98))); (EAttr (EName "decoder") "field_196")] []); (ECall (EName "Field") [(EStr "Waypoint Name/Description"); (ESlice (EName "r") (Some (EInt 98)) (Some (EInt 123))); (EAttr (EName "decoder") "field_043")] []); (ECall (EName "Field") [(EStr "File Record No"); (ESlice (EName "r") (Some (EInt 123)) (Some (EInt 128))); (EAttr (EName "decoder") "field_031")] []); (ECall (EName "Field") [(EStr "Cycle Date"); (ESlice (EName "r") (Some (EInt 128)) (Some (EInt 132))); (EAttr (EName "decoder") "field_032")] [])]))]].

(* src/arinc424/definitions/HeliportTerminalWaypoint.py *)
Definition py_HeliportTerminalWaypoint : pymodule := [
  SFrom "arinc424.decoder" "Field" "Field";
  SImport "arinc424.decoder" "decoder";
  py_HeliportTerminalWaypoint_HeliportTerminalWaypoint].

(* src/arinc424/definitions/HoldingPattern.py:6-84 *)
Definition py_HoldingPattern_HoldingPattern : stmt :=
  SClass "HoldingPattern"
    [SAssign (EName "cont_idx") (EInt 38);
    SAssign (EName "app_idx") (EInt 39);
    SAssign (EName "continuations") (EList [(EStr "A")]);
    SAssign (EName "name") (EStr "Holding Pattern");
    SDef "application_type" [("self", None); ("line", None)]
      [SReturn (Some (EItem (EName "line") (EAttr (EName "self") "app_idx")))];
    SDef "read" [("self", None); ("line", None); ("primary", None)]
      [SIf (EName "primary")
        [SReturn (Some (ECall (EAttr (EName "self") "read_primary") [(EName "line")] []))]
        [];
      SAssign (EName "application") (EItem (EName "line") (EAttr (EName "self") "app_idx"));
      SMatch (EName "application")
        [(PValue (EStr "A"), [SReturn (Some (ECall (EAttr (EName "self") "read_cont") [(EName "line")] []))]);
        (PWild, [SReturn (Some (EList []))])]];
    SDef "read_primary" [("self", None); ("r", None)]
      [SReturn (Some (EList [(ECall (EName "Field") [(EStr "Record Type"); (EItem (EName "r") (EInt 0)); (EAttr (EName "decoder") "field_002")] []); (ECall (EName "Field") [(EStr "Customer / Area Code"); (ESlice (EName "r") (Some (EInt 1)) (Some (EInt 4))); (EAttr (EName "decoder") "field_003")] []); (ECall (EName "Field") [(EStr "Section Code"); (ESlice (EName "r") (Some (EInt 4)) (Some (EInt 6))); (EAttr (EName "decoder") "field_004")] []); (ECall (EName "Field") [(EStr "Region Code"); (ESlice (EName "r") (Some (EInt 6)) (Some (EInt 10))); (EAttr (EName "decoder") "field_041")] []); (ECall (EName "Field") [(EStr "ICAO Code"); (ESlice (EName "r") (Some (EInt 10)) (Some (EInt 12))); (EAttr (EName "decoder") "field_014")] []); (ECall (EName "Field") [(EStr "Duplicate Identifier"); (ESlice (EName "r") (Some (EInt 27)) (Some (EInt 29))); (EAttr (EName "decoder") "field_114")] []); (ECall (EName "Field") [(EStr "Fix Identifier"); (ESlice (EName "r") (Some (EInt 29)) (Some (EInt 34))); (EAttr (EName "decoder") "field_013")] []); (ECall (EName "Field") [(EStr "ICAO Code (2)"); (ESlice (EName "r") (Some (EInt 34)) (Some (EInt 36))); (EAttr (EName "decoder") "field_014")] []); (ECall (EName "Field") [(EStr "Section Code (2)"); (ESlice (EName "r") (Some (EInt 36)) (Some (EInt 38))); (EAttr (EName "decoder") "field_004")] []); (ECall (EName "Field") [(EStr "Continuation Record No"); (EItem (EName "r") (EInt 38)); (EAttr (EName "decoder") "field_016")] []); (ECall (EName "Field") [(EStr "Inbound Holding Course"); (ESlice (EName "r") (Some (EInt 39)) (Some (EInt 43))); (EAttr (EName "decoder") "field_062")] []); (ECall (EName "Field") [(EStr "Turn Direction"); (EItem (EName "r") (EInt 43)); (EAttr (EName "decoder") "field_063")] []); (ECall (EName "Field") [(EStr "Leg Length"); (ESlice (EName "r") (Some (EInt 44)) (Some (EInt 47))); (EAttr (EName "decoder") "field_064")] []); (ECall (EName "Field") [(EStr "Leg Time"); (ESlice (EName "r") (Some (EInt 47)) (Some (EInt 49))); (EAttr (EName "decoder") "field_065")] []); (ECall (EName "Field") [(EStr "Minimum Altitude"); (ESlice (EName "r") (Some (EInt 49)) (Some (EInt 54))); (EAttr (EName "decoder") "field_030")] []); (ECall (EName "Field") [(EStr "Maximum Altitude"); (ESlice (EName "r") (Some (EInt 54)) (Some (EInt 59))); (EAttr (EName "decoder") "field_127")] []); (ECall (EName "Field") [(EStr "Holding Speed"); (ESlice (EName "r") (Some (EInt 59)) (Some (EInt 62))); (EAttr (EName "decoder") "field_175")] []); (ECall (EName "Field") [(EStr "RNP"); (ESlice (EName "r") (Some (EInt 62)) (Some (EInt 65))); (EAttr (EName "decoder") "field_211")] []); (ECall (EName "Field") [(EStr "Arc Radius"); (ESlice (EName "r") (Some (EInt 65)) (Some (EInt 71))); (EAttr (EName "decoder") "field_204")] []); (ECall (EName "Field") [(EStr "Name"); (ESlice (EName "r") (Some (EInt 98)) (Some (EInt 123))); (EAttr (EName "decoder") "field_060")] []); (ECall (EName "Field") [(EStr "File Record No"); (ESlice (EName "r") (Some (EInt 123)) (Some (EInt 128))); (EAttr (EName "decoder") "field_031")] []); (ECall (EName "Field") [(EStr "Cycle Date"); (ESlice (EName "r") (Some (EInt 128)) (Some (EInt 132))); (EAttr (EName "decoder") "field_032")] [])]))];
    SDef "read_cont" [("self", None); ("r", None)]
      [SReturn (Some (EList [(ECall (EName "Field") [(EStr "Record Type"); (EItem (EName "r") (EInt 0)); (EAttr (EName "decoder") "field_002")] []); (ECall (EName "Field") [(EStr "Customer / Area Code"); (ESlice (EName "r") (Some (EInt 1)) (Some (EInt 4))); (EAttr (EName "decoder") "field_003")] []); (ECall (EName "Field") [(EStr "Section Code"); (ESlice (EName "r") (Some (EInt 4)) (Some (EInt 6))); (EAttr (EName "decoder") "field_004")] []); (ECall (EName "Field") [(EStr "Region Code"); (ESlice (EName "r") (Some (EInt 6)) (Some (EInt 10))); (EAttr (EName "decoder") "field_041")] []); (ECall (EName "Field") [(EStr "ICAO Code"); (ESlice (EName "r") (Some (EInt 10)) (Some (EInt 12))); (EAttr (EName "decoder") "field_014")] []); (ECall (EName "Field") [(EStr "Duplicate Identifier"); (ESlice (EName "r") (Some (EInt 27)) (Some (EInt 29))); (EAttr (EName "decoder") "field_114")] []); (ECall (EName "Field") [(EStr "Fix Identifier"); (ESlice (EName "r") (Some (EInt 29)) (Some (EInt 34))); (EAttr (EName "decoder") "field_013")] []); (ECall (EName "Field") [(EStr "ICAO Code (2)"); (ESlice (EName "r") (Some (EInt 34)) (Some (EInt 36))); (EAttr (EName "decoder") "field_014")] []); (ECall (EName "Field") [(EStr "Section Code (2)"); (ESlice (EName "r") (Some (EInt 36)) (Some (EInt 38))); (EAttr (EName "decoder") "field_004")] []); (ECall (EName "Field") [(EStr "Continuation Record No"); (EItem (EName "r") (EInt 38)); (EAttr (EName "decoder") "field_016")] []); (ECall (EName "Field") [(EStr "Application Type"); (EItem (EName "r") (EInt 40)); (EAttr (EName "decoder") "field_091")] []); (ECall (EName "Field") [(EStr "Notes"); (ESlice (EName "r") (Some (EInt 40)) (Some (EInt 109))); (EAttr (EName "decoder") "field_061")] []); (ECall (EName "Field") [(EStr "File Record No"); (ESlice (EName "r") (Some (EInt 123)) (Some (EInt 128))); (EAttr (EName "decoder") "field_031")] []); (ECall (EName "Field") [(EStr "Cycle Date"); (ESlice (EName "r") (Some (EInt 128)) (Some (EInt 132))); (EAttr (EName "decoder") "field_032")] [])]))]].

(* src/arinc424/definitions/HoldingPattern.py *)
Definition py_HoldingPattern : pymodule := [
  SFrom "arinc424.decoder" "Field" "Field";
  SImport "arinc424.decoder" "decoder";
  py_HoldingPattern_HoldingPattern].

(* src/arinc424/definitions/LocalizerGlideslope.py:6-103 *)
Definition py_LocalizerGlideslope_LocalizerGlideslope : stmt :=
  SClass "LocalizerGlideslope"
    [SAssign (EName "cont_idx") (EInt 21);
    SAssign (EName "app_idx") (EInt 22);
    SAssign (EName "continuations") (EList [(EStr "A"); (EStr "S")]);
    SAssign (EName "name") (EStr "Localizer and Glide Slope");
    SDef "application_type" [("self", None); ("line", None)]
      [SReturn (Some (EItem (EName "line") (EAttr (EName "self") "app_idx")))];
    SDef "read" [("self", None); ("line", None); ("primary", None)]
      [SIf (EName "primary")
        [SReturn (Some (ECall (EAttr (EName "self") "read_primary") [(EName "line")] []))]
        [];
      SAssign (EName "application") (EItem (EName "line") (EAttr (EName "self") "app_idx"));
      SMatch (EName "application")
        [(PValue (EStr "A"), [SReturn (Some (ECall (EAttr (EName "self") "read_cont") [(EName "line")] []))]);
        (PValue (EStr "S"), [SReturn (Some (ECall (EAttr (EName "self") "read_sim") [(EName "line")] []))]);
        (PWild, [SReturn (Some (EList []))])]];
    SDef "read_primary" [("self", None); ("r", None)]
      [SReturn (Some (EList [(ECall (EName "Field") [(EStr "Record Type"); (EItem (EName "r") (EInt 0)); (EAttr (EName "decoder") "field_002")] []); (ECall (EName "Field") [(EStr "Customer / Area Code"); (ESlice (EName "r") (Some (EInt 1)) (Some (EInt 4))); (EAttr (EName "decoder") "field_003")] []); (ECall (EName "Field") [(EStr "Section Code"); (EBin OpAdd (EItem (EName "r") (EInt 4)) (EItem (EName "r") (EInt 12))); (EAttr (EName "decoder") "field_004")] []); (ECall (EName "Field") [(EStr "Airport Identifier"); (ESlice (EName "r") (Some (EInt 6)) (Some (EInt 10))); (EAttr (EName "decoder") "field_006")] []); (ECall (EName "Field") [(EStr "ICAO Code"); (ESlice (EName "r") (Some (EInt 10)) (Some (EInt 12))); (EAttr (EName "decoder") "field_014")] []); (ECall (EName "Field") [(EStr "Localizer Identifier"); (ESlice (EName "r") (Some (EInt 13)) (Some (EInt 17))); (EAttr (EName "decoder") "field_044")] []); (ECall (EName "Field") [(EStr "ILS Category"); (EItem (EName "r") (EInt 17)); (EAttr (EName "decoder") "field_080")] []); (ECall (EName "Field") [(EStr "Continuation Record No"); (EItem (EName "r") (EInt 21)); (EAttr (EName "decoder") "field_016")] []); (ECall (EName "Field") [(EStr "Localizer Frequency"); (ESlice (EName "r") (Some (EInt 22)) (Some (EInt 27))); (EAttr (EName "decoder") "field_045")] []); (ECall (EName "Field") [(EStr "Runway Identifier"); (ESlice (EName "r") (Some (EInt 27)) (Some (EInt 32))); (EAttr (EName "decoder") "field_046")] []); (ECall (EName "Field") [(EStr "Localizer Latitude"); (ESlice (EName "r") (Some (EInt 32)) (Some (EInt 41))); (EAttr (EName "decoder") "field_036")] []); (ECall (EName "Field") [(EStr "Localizer Longitude"); (ESlice (EName "r") (Some (EInt 41)) (Some (EInt 51))); (EAttr (EName "decoder") "field_037")] []); (ECall (EName "Field") [(EStr "Localizer Bearing"); (ESlice (EName "r") (Some (EInt 51)) (Some (EInt 55))); (EAttr (EName "decoder") "field_047")] []); (ECall (EName "Field") [(EStr "Glide Slope Latitude"); (ESlice (EName "r") (Some (EInt 55)) (Some (EInt 64))); (EAttr (EName "decoder") "field_036")] []); (ECall (EName "Field") [(EStr "Glide Slope Longitude"); (ESlice (EName "r") (Some (EInt 64)) (Some (EInt 74))); (EAttr (EName "decoder") "field_037")] []); (ECall (EName "Field") [(EStr "Localizer Position"); (ESlice (EName "r") (Some (EInt 74)) (Some (EInt 78))); (EAttr (EName "decoder") "field_048")] []); (ECall (EName "Field") [(EStr "Localizer Position Reference"); (EItem (EName "r") (EInt 78)); (EAttr (EName "decoder") "field_049")] []); (ECall (EName "Field") [(EStr "Glide Slope Position"); (ESlice (EName "r") (Some (EInt 79)) (Some (EInt 83))); (EAttr (EName "decoder") "field_050")] []); (ECall (EName "Field") [(EStr "Localizer Width"); (ESlice (EName "r") (Some (EInt 83)) (Some (EInt 87))); (EAttr (EName "decoder") "field_051")] []); (ECall (EName "Field") [(EStr "Glide Slope Angle"); (ESlice (EName "r") (Some (EInt 87)) (Some (EInt 90))); (EAttr (EName "decoder") "field_052")] []); (ECall (EName "Field") [(EStr "Station Declination"); (ESlice (EName "r") (Some (EInt 90)) (Some (EInt 95))); (EAttr (EName "decoder") "field_066")] []); (ECall (EName "Field") [(EStr "Glide Slope Height at Landing Threshold"); (ESlice (EName "r") (Some (EInt 95)) (Some (EInt 97))); (EAttr (EName "decoder") "field_067")] []); (ECall (EName "Field") [(EStr "Glide Slope Elevation"); (ESlice (EName "r") (Some (EInt 97)) (Some (EInt 102))); (EAttr (EName "decoder") "field_074")] []); (ECall (EName "Field") [(EStr "Supporting Facility ID Note 1"); (ESlice (EName "r") (Some (EInt 102)) (Some (EInt 106))); (EAttr (EName "decoder") "field_033")] []); (ECall (EName "Field") [(EStr "Supporting Facility ICAO Code Note 1"); (ESlice (EName "r") (Some (EInt 106)) (Some (EInt 108))); (EAttr (EName "decoder") "field_014")] []); (ECall (EName "Field") [(EStr "Supporting Facility Section Code Note 1"); (ESlice (EName "r") (Some (EInt 108)) (Some (EInt 110))); (EAttr (EName "decoder") "field_004")] []); (ECall (EName "Field") [(EStr "File Record No"); (ESlice (EName "r") (Some (EInt 123)) (Some (EInt 128))); (EAttr (EName "decoder") "field_031")] []); (ECall (EName "Field") [(EStr "Cycle Date"); (ESlice (EName "r") (Some (EInt 128)) (Some (EInt 132))); (EAttr (EName "decoder") "field_032")] [])]))];
    SDef "read_cont" [("self", None); ("r", None)]
      [SReturn (Some (EList [(ECall (EName "Field") [(EStr "Record Type"); (EItem (EName "r") (EInt 0)); (EAttr (EName "decoder") "field_002")] []); (ECall (EName "Field") [(EStr "Customer / Area Code"); (ESlice (EName "r") (Some (EInt 1)) (Some (EInt 4))); (EAttr (EName "decoder") "field_003")] []); (ECall (EName "Field") [(EStr "Section Code"); (EBin OpAdd (EItem (EName "r") (EInt 4)) (EItem (EName "r") (EInt 12))); (EAttr (EName "decoder") "field_004")] []); (ECall (EName "Field") [(EStr "Airport Identifier"); (ESlice (EName "r") (Some (EInt 6)) (Some (EInt 10))); (EAttr (EName "decoder") "field_006")] []); (ECall (EName "Field") [(EStr "ICAO Code"); (ESlice (EName "r") (Some (EInt 10)) (Some (EInt 12))); (EAttr (EName "decoder") "field_014")] []); (ECall (EName "Field") [(EStr "Localizer Identifier"); (ESlice (EName "r") (Some (EInt 13)) (Some (EInt 17))); (EAttr (EName "decoder") "field_044")] []); (ECall (EName "Field") [(EStr "ILS Category"); (EItem (EName "r") (EInt 17)); (EAttr (EName "decoder") "field_080")] []); (ECall (EName "Field") [(EStr "Continuation Record No"); (EItem (EName "r") (EInt 21)); (EAttr (EName "decoder") "field_016")] []); (ECall (EName "Field") [(EStr "Notes"); (ESlice (EName "r") (Some (EInt 23)) (Some (EInt 92))); (EAttr (EName "decoder") "field_061")] []); (ECall (EName "Field") [(EStr "File Record No"); (ESlice (EName "r") (Some (EInt 123)) (Some (EInt 128))); (EAttr (EName "decoder") "field_031")] []); (ECall (EName "Field") [(EStr "Cycle Date"); (ESlice (EName "r") (Some (EInt 128)) (Some (EInt 132))); (EAttr (EName "decoder") "field_032")] [])]))];
    SDef "read_sim" [("self", None); ("r", None)]
      [SReturn (Some (EList [(ECall (EName "Field") [(EStr "Record Type"); (EItem (EName "r") (EInt 0)); (EAttr (EName "decoder") "field_002")] []); (ECall (EName "Field") [(EStr "Customer / Area Code"); (ESlice (EName "r") (Some (EInt 1)) (Some (EInt 4))); (EAttr (EName "decoder") "field_003")] []); (ECall (EName "Field") [(EStr "Section Code"); (EBin OpAdd (EItem (EName "r") (EInt 4)) (EItem (EName "r") (EInt 12))); (EAttr (EName "decoder") "field_004")] []); (ECall (EName "Field") [(EStr "Airport Identifier"); (ESlice (EName "r") (Some (EInt 6)) (Some (EInt 10))); (EAttr (EName "decoder") "field_006")] []); (ECall (EName "Field") [(EStr "ICAO Code"); (ESlice (EName "r") (Some (EInt 10)) (Some (EInt 12))); (EAttr (EName "decoder") "field_014")] []); (ECall (EName "Field") [(EStr "Localizer Identifier"); (ESlice (EName "r") (Some (EInt 13)) (Some (EInt 17))); (EAttr (EName "decoder") "field_044")] []); (ECall (EName "Field") [(EStr "ILS Category"); (EItem (EName "r") (EInt 17)); (EAttr (EName "decoder") "field_080")] []); (ECall (EName "Field") [(EStr "Continuation Record No"); (EItem (EName "r") (EInt 21)); (EAttr (EName "decoder") "field_016")] []); (ECall (EName "Field") [(EStr "Application Type"); (EItem (EName "r") (EInt 22)); (EAttr (EName "decoder") "field_091")] []); (ECall (EName "Field") [(EStr "Facility Characteristics"); (ESlice (EName "r") (Some (EInt 27)) (Some (EInt 32))); (EAttr (EName "decoder") "field_093")] []); (ECall (EName "Field") [(EStr "Localizer True Bearing"); (ESlice (EName "r") (Some (EInt 51)) (Some (EInt 56))); (EAttr (EName "decoder") "field_094")] []); (ECall (EName "Field") [(EStr "Localizer Bearing Source"); (EItem (EName "r") (EInt 56)); (EAttr (EName "decoder") "field_095")] []); (ECall (EName "Field") [(EStr "Glide Slope Beam Width"); (ESlice (EName "r") (Some (EInt 87)) (Some (EInt 90))); (EAttr (EName "decoder") "field_096")] []); (ECall (EName "Field") [(EStr "Approach Route Ident"); (ESlice (EName "r") (Some (EInt 90)) (Some (EInt 96))); (EAttr (EName "decoder") "field_010")] []); (ECall (EName "Field") [(EStr "Approach Route Ident (2)"); (ESlice (EName "r") (Some (EInt 96)) (Some (EInt 102))); (EAttr (EName "decoder") "field_010")] []); (ECall (EName "Field") [(EStr "Approach Route Ident (3)"); (ESlice (EName "r") (Some (EInt 102)) (Some (EInt 108))); (EAttr (EName "decoder") "field_010")] []); (ECall (EName "Field") [(EStr "Approach Route Ident (4)"); (ESlice (EName "r") (Some (EInt 108)) (Some (EInt 114))); (EAttr (EName "decoder") "field_010")] []); (ECall (EName "Field") [(EStr "Approach Route Ident (5)"); (ESlice (EName "r") (Some (EInt 114)) (Some (EInt 120))); (EAttr (EName "decoder") "field_010")] []); (ECall (EName "Field") [(EStr "File Record No"); (ESlice (EName "r") (Some (EInt 123)) (Some (EInt 128))); (EAttr (EName "decoder") "field_031")] []); (ECall (EName "Field") [(EStr "Cycle Date"); (ESlice (EName "r") (Some (EInt 128)) (Some (EInt 132))); (EAttr (EName "decoder") "field_032")] [])]))]].

(* src/arinc424/definitions/LocalizerGlideslope.py *)
Definition py_LocalizerGlideslope : pymodule := [
  SFrom "arinc424.decoder" "Field" "Field";
  SImport "arinc424.decoder" "decoder";
  py_LocalizerGlideslope_LocalizerGlideslope].

(* src/arinc424/definitions/LocalizerMarker.py:6-69 *)
Definition py_LocalizerMarker_LocalizerMarker : stmt :=
  SClass "LocalizerMarker"
    [SAssign (EName "cont_idx") (EInt 21);
    SAssign (EName "app_idx") (EInt 22);
    SAssign (EName "continuations") (EList [(EStr "A")]);
    SAssign (EName "name") (EStr "Localizer Marker");
    SDef "application_type" [("self", None); ("line", None)]
      [SReturn (Some (EItem (EName "line") (EAttr (EName "self") "app_idx")))];
    SDef "read" [("self", None); ("line", None); ("primary", None)]
      [SIf (EName "primary")
        [SReturn (Some (ECall (EAttr (EName "self") "read_primary") [(EName "line")] []))]
        [];
      SAssign (EName "application") (EItem (EName "line") (EAttr (EName "self") "app_idx"));
      SMatch (EName "application")
        [(PValue (EStr "A"), [SReturn (Some (ECall (EAttr (EName "self") "read_cont") [(EName "line")] []))]);
        (PWild, [SReturn (Some (EList []))])]];
    SDef "read_primary" [("self", None); ("r", None)]
      [SReturn (Some (EList [(ECall (EName "Field") [(EStr "Record Type"); (EItem (EName "r") (EInt 0)); (EAttr (EName "decoder") "field_002")] []); (ECall (EName "Field") [(EStr "Customer / Area Code"); (ESlice (EName "r") (Some (EInt 1)) (Some (EInt 4))); (EAttr (EName "decoder") "field_003")] []); (ECall (EName "Field") [(EStr "Section Code"); (EBin OpAdd (EItem (EName "r") (EInt 4)) (EItem (EName "r") (EInt 12))); (EAttr (EName "decoder") "field_004")] []); (ECall (EName "Field") [(EStr "Airport Identifier"); (ESlice (EName "r") (Some (EInt 6)) (Some (EInt 10))); (EAttr (EName "decoder") "field_006")] []); (ECall (EName "Field") [(EStr "ICAO Code"); (ESlice (EName "r") (Some (EInt 10)) (Some (EInt 12))); (EAttr (EName "decoder") "field_014")] []); (ECall (EName "Field") [(EStr "Localizer Identifier"); (ESlice (EName "r") (Some (EInt 13)) (Some (EInt 17))); (EAttr (EName "decoder") "field_044")] []); (ECall (EName "Field") [(EStr "Marker Type"); (ESlice (EName "r") (Some (EInt 17)) (Some (EInt 20))); (EAttr (EName "decoder") "field_099")] []); (ECall (EName "Field") [(EStr "Continuation Record No"); (EItem (EName "r") (EInt 21)); (EAttr (EName "decoder") "field_016")] []); (ECall (EName "Field") [(EStr "Locator Frequency"); (ESlice (EName "r") (Some (EInt 22)) (Some (EInt 27))); (EAttr (EName "decoder") "field_034")] []); (ECall (EName "Field") [(EStr "Runway Identifier"); (ESlice (EName "r") (Some (EInt 27)) (Some (EInt 32))); (EAttr (EName "decoder") "field_046")] []); (ECall (EName "Field") [(EStr "Marker Latitude"); (ESlice (EName "r") (Some (EInt 32)) (Some (EInt 41))); (EAttr (EName "decoder") "field_036")] []); (ECall (EName "Field") [(EStr "Marker Longitude"); (ESlice (EName "r") (Some (EInt 41)) (Some (EInt 51))); (EAttr (EName "decoder") "field_037")] []); (ECall (EName "Field") [(EStr "Minor Axis Bearing"); (ESlice (EName "r") (Some (EInt 51)) (Some (EInt 55))); (EAttr (EName "decoder") "field_100")] []); (ECall (EName "Field") [(EStr "Locator Latitude"); (ESlice (EName "r") (Some (EInt 55)) (Some (EInt 64))); (EAttr (EName "decoder") "field_036")] []); (ECall (EName "Field") [(EStr "Locator Longitude"); (ESlice (EName "r") (Some (EInt 64)) (Some (EInt 74))); (EAttr (EName "decoder") "field_037")] []); (ECall (EName "Field") [(EStr "Localizer Class"); (ESlice (EName "r") (Some (EInt 74)) (Some (EInt 79))); (EAttr (EName "decoder") "field_035")] []); (ECall (EName "Field") [(EStr "Localizer Facility Characteristics"); (ESlice (EName "r") (Some (EInt 79)) (Some (EInt 83))); (EAttr (EName "decoder") "field_093")] []); (ECall (EName "Field") [(EStr "Localizer Identifier (2)"); (ESlice (EName "r") (Some (EInt 84)) (Some (EInt 88))); (EAttr (EName "decoder") "field_033")] []); (ECall (EName "Field") [(EStr "Magnetic Variation"); (ESlice (EName "r") (Some (EInt 90)) (Some (EInt 95))); (EAttr (EName "decoder") "field_039")] []); (ECall (EName "Field") [(EStr "Facility Elevation"); (ESlice (EName "r") (Some (EInt 97)) (Some (EInt 102))); (EAttr (EName "decoder") "field_092")] []); (ECall (EName "Field") [(EStr "File Record No"); (ESlice (EName "r") (Some (EInt 123)) (Some (EInt 128))); (EAttr (EName "decoder") "field_031")] []); (ECall (EName "Field") [(EStr "Cycle Date"); (ESlice (EName "r") (Some (EInt 128)) (Some (EInt 132))); (EAttr (EName "decoder") "field_032")] [])]))];
    SDef "read_cont" [("self", None); ("r", None)]
      [SReturn (Some (EList [(ECall (EName "Field") [(EStr "Record Type"); (EItem (EName "r") (EInt 0)); (EAttr (EName "decoder") "field_002")] []); (ECall (EName "Field") [(EStr "Customer / Area Code"); (ESlice (EName "r") (Some (EInt 1)) (Some (EInt 4))); (EAttr (EName "decoder") "field_003")] []); (ECall (EName "Field") [(EStr "Section Code"); (EBin OpAdd (EItem (EName "r") (EInt 4)) (EItem (EName "r") (EInt 12))); (EAttr (EName "decoder") "field_004")] []); (ECall (EName "Field") [(EStr "Airport Identifier"); (ESlice (EName "r") (Some (EInt 6)) (Some (EInt 10))); (EAttr (EName "decoder") "field_006")] []); (ECall (EName "Field") [(EStr "ICAO Code"); (ESlice (EName "r") (Some (EInt 10)) (Some (EInt 12))); (EAttr (EName "decoder") "field_014")] []); (ECall (EName "Field") [(EStr "Localizer Identifier"); (ESlice (EName "r") (Some (EInt 13)) (Some (EInt 17))); (EAttr (EName "decoder") "field_044")] []); (ECall (EName "Field") [(EStr "Marker Type"); (ESlice (EName "r") (Some (EInt 17)) (Some (EInt 20))); (EAttr (EName "decoder") "field_099")] []); (ECall (EName "Field") [(EStr "Continuation Record No"); (EItem (EName "r") (EInt 21)); (EAttr (EName "decoder") "field_016")] []); (ECall (EName "Field") [(EStr "Application Type"); (EItem (EName "r") (EInt 22)); (EAttr (EName "decoder") "field_091")] []); (ECall (EName "Field") [(EStr "File Record No"); (ESlice (EName "r") (Some (EInt 123)) (Some (EInt 128))); (EAttr (EName "decoder") "field_031")] []); (ECall (EName "Field") [(EStr "Cycle Date"); (ESlice (EName "r") (Some (EInt 128)) (Some (EInt 132))); (EAttr (EName "decoder") "field_032")] [])]))]].

(* src/arinc424/definitions/LocalizerMarker.py *)
Definition py_LocalizerMarker : pymodule := [
  SFrom "arinc424.decoder" "Field" "Field";
  SImport "arinc424.decoder" "decoder";
  py_LocalizerMarker_LocalizerMarker].

(* src/arinc424/definitions/MLS.py:7-97 *)
Definition py_MLS_MLS : stmt :=
  SClass "MLS"
    [SAssign (EName "cont_idx") (EInt 21);
    SAssign (EName "app_idx") (EInt 22);
    SAssign (EName "continuations") (EList [(EStr "A")]);
    SAssign (EName "name") (EStr "MLS");
    SDef "application_type" [("self", None); ("line", None)]
      [SReturn (Some (EItem (EName "line") (EAttr (EName "self") "app_idx")))];
    SDef "read" [("self", None); ("line", None); ("primary", None)]
      [SIf (EName "primary")
        [SReturn (Some (ECall (EAttr (EName "self") "read_primary") [(EName "line")] []))]
        [];
      SAssign (EName "application") (EItem (EName "line") (EAttr (EName "self") "app_idx"));
      SMatch (EName "application")
        [(PValue (EStr "A"), [SReturn (Some (ECall (EAttr (EName "self") "read_cont") [(EName "line")] []))]);
        (PWild, [SReturn (Some (EList []))])]];
    SDef "read_primary" [("self", None); ("r", None)]
      [SReturn (Some (EList [(ECall (EName "Field") [(EStr "Record Type"); (EItem (EName "r") (EInt 0)); (EAttr (EName "decoder") "field_002")] []); (ECall (EName "Field") [(EStr "Customer / Area Code"); (ESlice (EName "r") (Some (EInt 1)) (Some (EInt 4))); (EAttr (EName "decoder") "field_003")] []); (ECall (EName "Field") [(EStr "Section Code"); (EBin OpAdd (EItem (EName "r") (EInt 4)) (EItem (EName "r") (EInt 12))); (EAttr (EName "decoder") "field_004")] []); (ECall (EName "Field") [(EStr "Airport Identifier"); (ESlice (EName "r") (Some (EInt 6)) (Some (EInt 10))); (EAttr (EName "decoder") "field_006")] []); (ECall (EName "Field") [(EStr "ICAO Code"); (ESlice (EName "r") (Some (EInt 10)) (Some (EInt 12))); (EAttr (EName "decoder") "field_014")] []); (ECall (EName "Field") [(EStr "MLS Identifier"); (ESlice (EName "r") (Some (EInt 13)) (Some (EInt 17))); (EAttr (EName "decoder") "field_044")] []); (ECall (EName "Field") [(EStr "MLS Category"); (EItem (EName "r") (EInt 17)); (EAttr (EName "decoder") "field_080")] []); (ECall (EName "Field") [(EStr "Continuation Record No"); (EItem (EName "r") (EInt 21)); (EAttr (EName "decoder") "field_016")] []); (ECall (EName "Field") [(EStr "Channel"); (ESlice (EName "r") (Some (EInt 22)) (Some (EInt 25))); (EAttr (EName "decoder") "field_166")] []); (ECall (EName "Field") [(EStr "Runway Identifier"); (ESlice (EName "r") (Some (EInt 27)) (Some (EInt 32))); (EAttr (EName "decoder") "field_046")] []); (ECall (EName "Field") [(EStr "Azimuth Latitude"); (ESlice (EName "r") (Some (EInt 32)) (Some (EInt 41))); (EAttr (EName "decoder") "field_036")] []); (ECall (EName "Field") [(EStr "Azimuth Longitude"); (ESlice (EName "r") (Some (EInt 41)) (Some (EInt 51))); (EAttr (EName "decoder") "field_037")] []); (ECall (EName "Field") [(EStr "Azimuth Bearing"); (ESlice (EName "r") (Some (EInt 51)) (Some (EInt 55))); (EAttr (EName "decoder") "field_167")] []); (ECall (EName "Field") [(EStr "Elevation Latitude"); (ESlice (EName "r") (Some (EInt 55)) (Some (EInt 64))); (EAttr (EName "decoder") "field_036")] []); (ECall (EName "Field") [(EStr "Elevation Longitude"); (ESlice (EName "r") (Some (EInt 64)) (Some (EInt 74))); (EAttr (EName "decoder") "field_037")] []); (ECall (EName "Field") [(EStr "Azimuth Position"); (ESlice (EName "r") (Some (EInt 74)) (Some (EInt 78))); (EAttr (EName "decoder") "field_048")] []); (ECall (EName "Field") [(EStr "Azimuth Position Reference"); (EItem (EName "r") (EInt 78)); (EAttr (EName "decoder") "field_049")] []); (ECall (EName "Field") [(EStr "Elevation Position"); (ESlice (EName "r") (Some (EInt 79)) (Some (EInt 83))); (EAttr (EName "decoder") "field_050")] []); (ECall (EName "Field") [(EStr "Azimuth Proportional Angle Right"); (ESlice (EName "r") (Some (EInt 83)) (Some (EInt 86))); (EAttr (EName "decoder") "field_168")] []); (ECall (EName "Field") [(EStr "Azimuth Proportional Angle Left"); (ESlice (EName "r") (Some (EInt 86)) (Some (EInt 89))); (EAttr (EName "decoder") "field_168")] []); (ECall (EName "Field") [(EStr "Azimuth Coverage Right"); (ESlice (EName "r") (Some (EInt 89)) (Some (EInt 92))); (EAttr (EName "decoder") "field_172")] []); (ECall (EName "Field") [(EStr "Azimuth Coverage Left"); (ESlice (EName "r") (Some (EInt 92)) (Some (EInt 95))); (EAttr (EName "decoder") "field_172")] []); (ECall (EName "Field") [(EStr "Elevation Angle Span"); (ESlice (EName "r") (Some (EInt 95)) (Some (EInt 98))); (EAttr (EName "decoder") "field_169")] []); (ECall (EName "Field") [(EStr "Magnetic Variation"); (ESlice (EName "r") (Some (EInt 98)) (Some (EInt 103))); (EAttr (EName "decoder") "field_039")] []); (ECall (EName "Field") [(EStr "EL Elevation"); (ESlice (EName "r") (Some (EInt 103)) (Some (EInt 108))); (EAttr (EName "decoder") "field_074")] []); (ECall (EName "Field") [(EStr "Nominal Elevation Angle"); (ESlice (EName "r") (Some (EInt 108)) (Some (EInt 112))); (EAttr (EName "decoder") "field_173")] []); (ECall (EName "Field") [(EStr "Minimum Glide Path Angle"); (ESlice (EName "r") (Some (EInt 112)) (Some (EInt 115))); (EAttr (EName "decoder") "field_052")] []); (ECall (EName "Field") [(EStr "Supporting Facility Identifier"); (ESlice (EName "r") (Some (EInt 115)) (Some (EInt 119))); (EAttr (EName "decoder") "field_033")] []); (ECall (EName "Field") [(EStr "Supporting Facility ICAO Code"); (ESlice (EName "r") (Some (EInt 119)) (Some (EInt 121))); (EAttr (EName "decoder") "field_014")] []); (ECall (EName "Field") [(EStr "Supporting Facility Section"); (ESlice (EName "r") (Some (EInt 121)) (Some (EInt 123))); (EAttr (EName "decoder") "field_004")] []); (ECall (EName "Field") [(EStr "File Record No"); (ESlice (EName "r") (Some (EInt 123)) (Some (EInt 128))); (EAttr (EName "decoder") "field_031")] []); (ECall (EName "Field") [(EStr "Cycle Date"); (ESlice (EName "r") (Some (EInt 128)) (Some (EInt 132))); (EAttr (EName "decoder") "field_032")] [])]))];
    SDef "read_cont" [("self", None); ("r", None)]
      [SReturn (Some (EList [(ECall (EName "Field") [(EStr "Record Type"); (EItem (EName "r") (EInt 0)); (EAttr (EName "decoder") "field_002")] []); (ECall (EName "Field") [(EStr "Customer / Area Code"); (ESlice (EName "r") (Some (EInt 1)) (Some (EInt 4))); (EAttr (EName "decoder") "field_003")] []); (ECall (EName "Field") [(EStr "Section Code"); (EBin OpAdd (EItem (EName "r") (EInt 4)) (EItem (EName "r") (EInt 12))); (EAttr (EName "decoder") "field_004")] []); (ECall (EName "Field") [(EStr "Airport Identifier"); (ESlice (EName "r") (Some (EInt 6)) (Some (EInt 10))); (EAttr (EName "decoder") "field_006")] []); (ECall (EName "Field") [(EStr "ICAO Code"); (ESlice (EName "r") (Some (EInt 10)) (Some (EInt 12))); (EAttr (EName "decoder") "field_014")] []); (ECall (EName "Field") [(EStr "MLS Identifier"); (ESlice (EName "r") (Some (EInt 13)) (Some (EInt 17))); (EAttr (EName "decoder") "field_044")] []); (ECall (EName "Field") [(EStr "MLS Category"); (EItem (EName "r") (EInt 17)); (EAttr (EName "decoder") "field_080")] []); (ECall (EName "Field") [(EStr "Continuation Record No"); (EItem (EName "r") (EInt 21)); (EAttr (EName "decoder") "field_016")] []); (ECall (EName "Field") [(EStr "Application Type"); (EItem (EName "r") (EInt 22)); (EAttr (EName "decoder") "field_091")] []); (ECall (EName "Field") [(EStr "Facility Characteristics"); (ESlice (EName "r") (Some (EInt 27)) (Some (EInt 32))); (EAttr (EName "decoder") "field_093")] []); (ECall (EName "Field") [(EStr "Back Azimuth Latitude"); (ESlice (EName "r") (Some (EInt 32)) (Some (EInt 41))); (EAttr (EName "decoder") "field_036")] []); (ECall (EName "Field") [(EStr "Back Azimuth Longitude"); (ESlice (EName "r") (Some (EInt 41)) (Some (EInt 51))); (EAttr (EName "decoder") "field_037")] []); (ECall (EName "Field") [(EStr "Back Azimuth Bearing"); (ESlice (EName "r") (Some (EInt 51)) (Some (EInt 55))); (EAttr (EName "decoder") "field_167")] []); (ECall (EName "Field") [(EStr "MLS Datum Point Latitude"); (ESlice (EName "r") (Some (EInt 55)) (Some (EInt 64))); (EAttr (EName "decoder") "field_036")] []); (ECall (EName "Field") [(EStr "MLS Datum Point Longitude"); (ESlice (EName "r") (Some (EInt 64)) (Some (EInt 74))); (EAttr (EName "decoder") "field_037")] []); (ECall (EName "Field") [(EStr "Back Azimuth Position"); (ESlice (EName "r") (Some (EInt 74)) (Some (EInt 78))); (EAttr (EName "decoder") "field_048")] []); (ECall (EName "Field") [(EStr "Back Azimuth Position Reference"); (EItem (EName "r") (EInt 78)); (EAttr (EName "decoder") "field_049")] []); (ECall (EName "Field") [(EStr "Back Azimuth Proportional Angle Right"); (ESlice (EName "r") (Some (EInt 83)) (Some (EInt 86))); (EAttr (EName "decoder") "field_168")] []); (ECall (EName "Field") [(EStr "Back Azimuth Proportional Angle Left"); (ESlice (EName "r") (Some (EInt 86)) (Some (EInt 89))); (EAttr (EName "decoder") "field_168")] []); (ECall (EName "Field") [(EStr "Back Azimuth Coverage Right"); (ESlice (EName "r") (Some (EInt 89)) (Some (EInt 92))); (EAttr (EName "decoder") "field_172")] []); (ECall (EName "Field") [(EStr "Back Azimuth Coverage Left"); (ESlice (EName "r") (Some (EInt 92)) (Some (EInt 95))); (EAttr (EName "decoder") "field_172")] []); (ECall (EName "Field") [(EStr "Back Azimuth True Bearing"); (ESlice (EName "r") (Some (EInt 95)) (Some (EInt 98))); (EAttr (EName "decoder") "field_094")] []); (ECall (EName "Field") [(EStr "Back Azimuth Bearing Source"); (EItem (EName "r") (EInt 100)); (EAttr (EName "decoder") "field_095")] []); (ECall (EName "Field") [(EStr "Azimuth True Bearing"); (ESlice (EName "r") (Some (EInt 101)) (Some (EInt 106))); (EAttr (EName "decoder") "field_094")] []); (ECall (EName "Field") [(EStr "Azimuth Bearing Source"); (EItem (EName "r") (EInt 106)); (EAttr (EName "decoder") "field_095")] []); (ECall (EName "Field") [(EStr "Glide Path Height at Landing Threshold"); (ESlice (EName "r") (Some (EInt 107)) (Some (EInt 109))); (EAttr (EName "decoder") "field_067")] []); (ECall (EName "Field") [(EStr "File Record No"); (ESlice (EName "r") (Some (EInt 123)) (Some (EInt 128))); (EAttr (EName "decoder") "field_031")] []); (ECall (EName "Field") [(EStr "Cycle Date"); (ESlice (EName "r") (Some (EInt 128)) (Some (EInt 132))); (EAttr (EName "decoder") "field_032")] [])]))]].

(* src/arinc424/definitions/MLS.py *)
Definition py_MLS : pymodule := [
  SFrom "arinc424.decoder" "Field" "Field";
  SImport "arinc424.decoder" "decoder";
  py_MLS_MLS].

(* src/arinc424/definitions/MSA.py:5-88 *)
Definition py_MSA_MSA : stmt :=
  SClass "MSA"
    [SAssign (EName "cont_idx") (EInt 38);
    SAssign (EName "app_idx") (EInt 39);
    SAssign (EName "continuations") (EList [(EStr "A")]);
    SAssign (EName "name") (EStr "MSA");
    SDef "application_type" [("self", None); ("line", None)]
      [SReturn (Some (EItem (EName "line") (EAttr (EName "self") "app_idx")))];
    SDef "__init__" [("self", None); ("heliport", None)]
      [SAssign (EAttr (EName "self") "heliport") (EName "heliport");
      SIf (ECmp CmpIs (EAttr (EName "self") "heliport") (EBool false))
        [SAssign (EAttr (EName "self") "id_name") (EStr "Airport Identifier")]
        [SAssign (EAttr (EName "self") "id_name") (EStr "Heliport Identifier")]];
    SDef "read" [("self", None); ("line", None); ("primary", None)]
      [SIf (EName "primary")
        [SReturn (Some (ECall (EAttr (EName "self") "read_primary") [(EName "line")] []))]
        [];
      SAssign (EName "application") (EItem (EName "line") (EAttr (EName "self") "app_idx"));
      SMatch (EName "application")
        [(PValue (EStr "A"), [SReturn (Some (ECall (EAttr (EName "self") "read_cont") [(EName "line")] []))]);
        (PWild, [SReturn (Some (EList []))])]];
    SDef "read_primary" [("self", None); ("r", None)]
      [SReturn (Some (EList [(ECall (EName "Field") [(EStr "Record Type"); (EItem (EName "r") (EInt 0)); (EAttr (EName "decoder") "field_002")] []); (ECall (EName "Field") [(EStr "Customer / Area Code"); (ESlice (EName "r") (Some (EInt 1)) (Some (EInt 4))); (EAttr (EName "decoder") "field_003")] []); (ECall (EName "Field") [(EStr "Section Code"); (EBin OpAdd (EItem (EName "r") (EInt 4)) (EItem (EName "r") (EInt 12))); (EAttr (EName "decoder") "field_004")] []); (ECall (EName "Field") [(EAttr (EName "self") "id_name"); (ESlice (EName "r") (Some (EInt 6)) (Some (EInt 10))); (EAttr (EName "decoder") "field_006")] []); (ECall (EName "Field") [(EStr "ICAO Code"); (ESlice (EName "r") (Some (EInt 10)) (Some (EInt 12))); (EAttr (EName "decoder") "field_014")] []); (ECall (EName "Field") [(EStr "MSA Center"); (ESlice (EName "r") (Some (EInt 13)) (Some (EInt 17))); (EAttr (EName "decoder") "field_144")] []); (ECall (EName "Field") [(EStr "ICAO Code (2)"); (ESlice (EName "r") (Some (EInt 18)) (Some (EInt 20))); (EAttr (EName "decoder") "field_014")] []); (ECall (EName "Field") [(EStr "Section Code (2)"); (ESlice (EName "r") (Some (EInt 20)) (Some (EInt 22))); (EAttr (EName "decoder") "field_004")] []); (ECall (EName "Field") [(EStr "Multiple Code"); (EItem (EName "r") (EInt 22)); (EAttr (EName "decoder") "field_130")] []); (ECall (EName "Field") [(EStr "Continuation Record No"); (EItem (EName "r") (EInt 38)); (EAttr (EName "decoder") "field_016")] []); (ECall (EName "Field") [(EStr "Sector Bearing"); (ESlice (EName "r") (Some (EInt 42)) (Some (EInt 48))); (EAttr (EName "decoder") "field_146")] []); (ECall (EName "Field") [(EStr "Sector Altitude"); (ESlice (EName "r") (Some (EInt 48)) (Some (EInt 51))); (EAttr (EName "decoder") "field_147")] []); (ECall (EName "Field") [(EStr "Sector Radius"); (ESlice (EName "r") (Some (EInt 51)) (Some (EInt 53))); (EAttr (EName "decoder") "field_145")] []); (ECall (EName "Field") [(EStr "Sector Bearing (2)"); (ESlice (EName "r") (Some (EInt 53)) (Some (EInt 59))); (EAttr (EName "decoder") "field_146")] []); (ECall (EName "Field") [(EStr "Sector Altitude (2)"); (ESlice (EName "r") (Some (EInt 59)) (Some (EInt 62))); (EAttr (EName "decoder") "field_147")] []); (ECall (EName "Field") [(EStr "Sector Radius (2)"); (ESlice (EName "r") (Some (EInt 62)) (Some (EInt 64))); (EAttr (EName "decoder") "field_145")] []); (ECall (EName "Field") [(EStr "Sector Bearing (3)"); (ESlice (EName "r") (Some (EInt 64)) (Some (EInt 70))); (EAttr (EName "decoder") "field_146")] []); (ECall (EName "Field") [(EStr "Sector Altitude (3)"); (ESlice (EName "r") (Some (EInt 70)) (Some (EInt 73))); (EAttr (EName "decoder") "field_147")] []); (ECall (EName "Field") [(EStr "Sector Radius (3)"); (ESlice (EName "r") (Some (EInt 73)) (Some (EInt 75))); (EAttr (EName "decoder") "field_145")] []); (ECall (EName "Field") [(EStr "Sector Bearing (4)"); (ESlice (EName "r") (Some (EInt 75)) (Some (EInt 81))); (EAttr (EName "decoder") "field_146")] []); (ECall (EName "Field") [(EStr "Sector Altitude (4)"); (ESlice (EName "r") (Some (EInt 81)) (Some (EInt 84))); (EAttr (EName "decoder") "field_147")] []); (ECall (EName "Field") [(EStr "Sector Radius (4)"); (ESlice (EName "r") (Some (EInt 84)) (Some (EInt 86))); (EAttr (EName "decoder") "field_145")] []); (ECall (EName "Field") [(EStr "Sector Bearing (5)"); (ESlice (EName "r") (Some (EInt 86)) (Some (EInt 92))); (EAttr (EName "decoder") "field_146")] []); (ECall (EName "Field") [(EStr "Sector Altitude (5)"); (ESlice (EName "r") (Some (EInt 92)) (Some (EInt 95))); (EAttr (EName "decoder") "field_147")] []); (ECall (EName "Field") [(EStr "Sector Radius (5)"); (ESlice (EName "r") (Some (EInt 95)) (Some (EInt 97))); (EAttr (EName "decoder") "field_145")] []); (ECall (EName "Field") [(EStr "Sector Bearing (6)"); (ESlice (EName "r") (Some (EInt 97)) (Some (EInt 103))); (EAttr (EName "decoder") "field_146")] []); (ECall (EName "Field") [(EStr "Sector Altitude (6)"); (ESlice (EName "r") (Some (EInt 103)) (Some (EInt 106))); (EAttr (EName "decoder") "field_147")] []); (ECall (EName "Field") [(EStr "Sector Radius (6)"); (ESlice (EName "r") (Some (EInt 106)) (Some (EInt 108))); (EAttr (EName "decoder") "field_145")] []); (ECall (EName "Field") [(EStr "Sector Bearing (7)"); (ESlice (EName "r") (Some (EInt 108)) (Some (EInt 114))); (EAttr (EName "decoder") "field_146")] []); (ECall (EName "Field") [(EStr "Sector Altitude (7)"); (ESlice (EName "r") (Some (EInt 114)) (Some (EInt 117))); (EAttr (EName "decoder") "field_147")] []); (ECall (EName "Field") [(EStr "Sector Radius (7)"); (ESlice (EName "r") (Some (EInt 117)) (Some (EInt 119))); (EAttr (EName "decoder") "field_145")] []); (ECall (EName "Field") [(EStr "Magnetic/True Bearing"); (EItem (EName "r") (EInt 119)); (EAttr (EName "decoder") "field_165")] []); (ECall (EName "Field") [(EStr "File Record No"); (ESlice (EName "r") (Some (EInt 123)) (Some (EInt 128))); (EAttr (EName "decoder") "field_031")] []); (ECall (EName "Field") [(EStr "Cycle Date"); (ESlice (EName "r") (Some (EInt 128)) (Some (EInt 132))); (EAttr (EName "decoder") "field_032")] [])]))];
    SDef "read_cont" [("self", None); ("r", None)]
      [SReturn (Some (EList [(ECall (EName "Field") [(EStr "Record Type"); (EItem (EName "r") (EInt 0)); (EAttr (EName "decoder") "field_002")] []); (ECall (EName "Field") [(EStr "Customer / Area Code"); (ESlice (EName "r") (Some (EInt 1)) (Some (EInt 4))); (EAttr (EName "decoder") "field_003")] []); (ECall (EName "Field") [(EStr "Section Code"); (EBin OpAdd (EItem (EName "r") (EInt 4)) (EItem (EName "r") (EInt 12))); (EAttr (EName "decoder") "field_004")] []); (ECall (EName "Field") [(EAttr (EName "self") "id_name"); (ESlice (EName "r") (Some (EInt 6)) (Some (EInt 10))); (EAttr (EName "decoder") "field_006")] []); (ECall (EName "Field") [(EStr "ICAO Code"); (ESlice (EName "r") (Some (EInt 10)) (Some (EInt 12))); (EAttr (EName "decoder") "field_014")] []); (ECall (EName "Field") [(EStr "MSA Center"); (ESlice (EName "r") (Some (EInt 13)) (Some (EInt 17))); (EAttr (EName "decoder") "field_144")] []); (ECall (EName "Field") [(EStr "ICAO Code (2)"); (ESlice (EName "r") (Some (EInt 18)) (Some (EInt 20))); (EAttr (EName "decoder") "field_014")] []); (ECall (EName "Field") [(EStr "Section Code (2)"); (ESlice (EName "r") (Some (EInt 20)) (Some (EInt 22))); (EAttr (EName "decoder") "field_004")] []); (ECall (EName "Field") [(EStr "Multiple Code"); (EItem (EName "r") (EInt 22)); (EAttr (EName "decoder") "field_130")] []); (ECall (EName "Field") [(EStr "Continuation Record No"); (EItem (EName "r") (EInt 38)); (EAttr (EName "decoder") "field_016")] []); (ECall (EName "Field") [(EStr "Application Type"); (EItem (EName "r") (EInt 39)); (EAttr (EName "decoder") "field_091")] []); (ECall (EName "Field") [(EStr "Notes"); (ESlice (EName "r") (Some (EInt 40)) (Some (EInt 109))); (EAttr (EName "decoder") "field_061")] []); (ECall (EName "Field") [(EStr "File Record No"); (ESlice (EName "r") (Some (EInt 123)) (Some (EInt 128))); (EAttr (EName "decoder") "field_031")] []); (ECall (EName "Field") [(EStr "Cycle Date"); (ESlice (EName "r") (Some (EInt 128)) (Some (EInt 132))); (EAttr (EName "decoder") "field_032")] [])]))]].

(* src/arinc424/definitions/MSA.py *)
Definition py_MSA : pymodule := [
  SFrom "arinc424.decoder" "Field" "Field";
  SImport "arinc424.decoder" "decoder";
  py_MSA_MSA].

(* src/arinc424/definitions/NDBNavaid.py:6-131 *)
Definition py_NDBNavaid_NDBNavaid : stmt :=
  SClass "NDBNavaid"
    [SAssign (EName "cont_idx") (EInt 21);
    SAssign (EName "app_idx") (EInt 22);
    SAssign (EName "continuations") (EList [(EStr "A"); (EStr "P"); (EStr "Q"); (EStr "S")]);
    SAssign (EName "name") (EStr "NDB Navaid");
    SDef "application_type" [("self", None); ("line", None)]
      [SReturn (Some (EItem (EName "line") (EAttr (EName "self") "app_idx")))];
    SDef "read" [("self", None); ("line", None); ("primary", None)]
      [SIf (EName "primary")
        [SReturn (Some (ECall (EAttr (EName "self") "read_primary") [(EName "line")] []))]
        [];
      SAssign (EName "application") (EItem (EName "line") (EAttr (EName "self") "app_idx"));
      SMatch (EName "application")
        [(PValue (EStr "A"), [SReturn (Some (ECall (EAttr (EName "self") "read_cont") [(EName "line")] []))]);
        (PValue (EStr "P"), [SReturn (Some (ECall (EAttr (EName "self") "read_flight_plan0") [(EName "line")] []))]);
        (PValue (EStr "Q"), [SReturn (Some (ECall (EAttr (EName "self") "read_flight_plan1") [(EName "line")] []))]);
        (PValue (EStr "S"), [SReturn (Some (ECall (EAttr (EName "self") "read_sim") [(EName "line")] []))]);
        (PWild, [SReturn (Some (EList []))])]];
    SDef "read_primary" [("self", None); ("r", None)]
      [SReturn (Some (EList [(ECall (EName "Field") [(EStr "Record Type"); (EItem (EName "r") (EInt 0)); (EAttr (EName "decoder") "field_002")] []); (ECall (EName "Field") [(EStr "Customer / Area Code"); (ESlice (EName "r") (Some (EInt 1)) (Some (EInt 4))); (EAttr (EName "decoder") "field_003")] []); (ECall (EName "Field") [(EStr "Section Code"); (ESlice (EName "r") (Some (EInt 4)) (Some (EInt 6))); (EAttr (EName "decoder") "field_004")] []); (ECall (EName "Field") [(EStr "Airport ICAO Identifier"); (ESlice (EName "r") (Some (EInt 6)) (Some (EInt 10))); (EAttr (EName "decoder") "field_006")] []); (ECall (EName "Field") [(EStr "ICAO Code"); (ESlice (EName "r") (Some (EInt 10)) (Some (EInt 12))); (EAttr (EName "decoder") "field_014")] []); (ECall (EName "Field") [(EStr "NDB Identifier"); (ESlice (EName "r") (Some (EInt 13)) (Some (EInt 17))); (EAttr (EName "decoder") "field_033")] []); (ECall (EName "Field") [(EStr "ICAO Code (2)"); (ESlice (EName "r") (Some (EInt 19)) (Some (EInt 21))); (EAttr (EName "decoder") "field_014")] []); (ECall (EName "Field") [(EStr "Continuation Record No"); (EItem (EName "r") (EInt 21)); (EAttr (EName "decoder") "field_016")] []); (ECall (EName "Field") [(EStr "NDB Frequency"); (ESlice (EName "r") (Some (EInt 22)) (Some (EInt 27))); (EAttr (EName "decoder") "field_034")] []); (ECall (EName "Field") [(EStr "NDB Class"); (ESlice (EName "r") (Some (EInt 27)) (Some (EInt 31))); (EAttr (EName "decoder") "field_035")] []); (ECall (EName "Field") [(EStr "NDB Latitude"); (ESlice (EName "r") (Some (EInt 32)) (Some (EInt 41))); (EAttr (EName "decoder") "field_036")] []); (ECall (EName "Field") [(EStr "NDB Longitude"); (ESlice (EName "r") (Some (EInt 41)) (Some (EInt 51))); (EAttr (EName "decoder") "field_037")] []); (ECall (EName "Field") [(EStr "Magnetic Variation"); (ESlice (EName "r") (Some (EInt 74)) (Some (EInt 79))); (EAttr (EName "decoder") "field_039")] []); (ECall (EName "Field") [(EStr "Datum Code"); (ESlice (EName "r") (Some (EInt 90)) (Some (EInt 93))); (EAttr (EName "decoder") "field_197")] []); (ECall (EName "Field") [(EStr "NDB Name"); (ESlice (EName "r") (Some (EInt 93)) (Some (EInt 123))); (EAttr (EName "decoder") "field_071")] []); (ECall (EName "Field") [(EStr "File Record No"); (ESlice (EName "r") (Some (EInt 123)) (Some (EInt 128))); (EAttr (EName "decoder") "field_031")] []); (ECall (EName "Field") [(EStr "Cycle Date"); (ESlice (EName "r") (Some (EInt 128)) (Some (EInt 132))); (EAttr (EName "decoder") "field_032")] [])]))];
    SDef "read_cont" [("self", None); ("r", None)]
      [SReturn (Some (EList [(ECall (EName "Field") [(EStr "Record Type"); (EItem (EName "r") (EInt 0)); (EAttr (EName "decoder") "field_002")] []); (ECall (EName "Field") [(EStr "Customer / Area Code"); (ESlice (EName "r") (Some (EInt 1)) (Some (EInt 4))); (EAttr (EName "decoder") "field_003")] []); (ECall (EName "Field") [(EStr "Section Code"); (ESlice (EName "r") (Some (EInt 4)) (Some (EInt 6))); (EAttr (EName "decoder") "field_004")] []); (ECall (EName "Field") [(EStr "Airport ICAO Identifier"); (ESlice (EName "r") (Some (EInt 6)) (Some (EInt 10))); (EAttr (EName "decoder") "field_006")] []); (ECall (EName "Field") [(EStr "ICAO Code"); (ESlice (EName "r") (Some (EInt 10)) (Some (EInt 12))); (EAttr (EName "decoder") "field_014")] []); (ECall (EName "Field") [(EStr "NDB Identifier"); (ESlice (EName "r") (Some (EInt 13)) (Some (EInt 17))); (EAttr (EName "decoder") "field_033")] []); (ECall (EName "Field") [(EStr "ICAO Code (2)"); (ESlice (EName "r") (Some (EInt 19)) (Some (EInt 21))); (EAttr (EName "decoder") "field_014")] []); (ECall (EName "Field") [(EStr "Continuation Record No"); (EItem (EName "r") (EInt 21)); (EAttr (EName "decoder") "field_016")] []); (ECall (EName "Field") [(EStr "Application Type"); (EItem (EName "r") (EInt 22)); (EAttr (EName "decoder") "field_091")] []); (ECall (EName "Field") [(EStr "Notes"); (ESlice (EName "r") (Some (EInt 23)) (Some (EInt 92))); (EAttr (EName "decoder") "field_061")] []); (ECall (EName "Field") [(EStr "File Record No"); (ESlice (EName "r") (Some (EInt 123)) (Some (EInt 128))); (EAttr (EName "decoder") "field_031")] []); (ECall (EName "Field") [(EStr "Cycle Date"); (ESlice (EName "r") (Some (EInt 128)) (Some (EInt 132))); (EAttr (EName "decoder") "field_032")] [])]))];
    SDef "read_sim" [("self", None); ("r", None)]
      [SReturn (Some (EList [(ECall (EName "Field") [(EStr "Record Type"); (EItem (EName "r") (EInt 0)); (EAttr (EName "decoder") "field_002")] []); (ECall (EName "Field") [(EStr "Customer / Area Code"); (ESlice (EName "r") (Some (EInt 1)) (Some (EInt 4))); (EAttr (EName "decoder") "field_003")] []); (ECall (EName "Field") [(EStr "Section Code"); (ESlice (EName "r") (Some (EInt 4)) (Some (EInt 6))); (EAttr (EName "decoder") "field_004")] []); (ECall (EName "Field") [(EStr "Airport ICAO Identifier"); (ESlice (EName "r") (Some (EInt 6)) (Some (EInt 10))); (EAttr (EName "decoder") "field_006")] []); (ECall (EName "Field") [(EStr "ICAO Code"); (ESlice (EName "r") (Some (EInt 10)) (Some (EInt 12))); (EAttr (EName "decoder") "field_014")] []); (ECall (EName "Field") [(EStr "NDB Identifier"); (ESlice (EName "r") (Some (EInt 13)) (Some (EInt 17))); (EAttr (EName "decoder") "field_033")] []); (ECall (EName "Field") [(EStr "ICAO Code (2)"); (ESlice (EName "r") (Some (EInt 19)) (Some (EInt 21))); (EAttr (EName "decoder") "field_014")] []); (ECall (EName "Field") [(EStr "Continuation Record No"); (EItem (EName "r") (EInt 21)); (EAttr (EName "decoder") "field_016")] []); (ECall (EName "Field") [(EStr "Application Type"); (EItem (EName "r") (EInt 22)); (EAttr (EName "decoder") "field_091")] []); (ECall (EName "Field") [(EStr "Facility Characteristics"); (ESlice (EName "r") (Some (EInt 27)) (Some (EInt 32))); (EAttr (EName "decoder") "field_093")] []); (ECall (EName "Field") [(EStr "Facility Elevation"); (ESlice (EName "r") (Some (EInt 79)) (Some (EInt 84))); (EAttr (EName "decoder") "field_092")] []); (ECall (EName "Field") [(EStr "File Record No"); (ESlice (EName "r") (Some (EInt 123)) (Some (EInt 128))); (EAttr (EName "decoder") "field_031")] []); (ECall (EName "Field") [(EStr "Cycle Date"); (ESlice (EName "r") (Some (EInt 128)) (Some (EInt 132))); (EAttr (EName "decoder") "field_032")] [])]))];
    SDef "read_flight_plan0" [("self", None); ("r", None)]
      [SReturn (Some (EList [(ECall (EName "Field") [(EStr "Record Type"); (EItem (EName "r") (EInt 0)); (EAttr (EName "decoder") "field_002")] []); (ECall (EName "Field") [(EStr "Customer / Area Code"); (ESlice (EName "r") (Some (EInt 1)) (Some (EInt 4))); (EAttr (EName "decoder") "field_003")] []); (ECall (EName "Field") [(EStr "Section Code"); (ESlice (EName "r") (Some (EInt 4)) (Some (EInt 6))); (EAttr (EName "decoder") "field_004")] []); (ECall (EName "Field") [(EStr "Airport ICAO Identifier"); (ESlice (EName "r") (Some (EInt 6)) (Some (EInt 10))); (EAttr (EName "decoder") "field_006")] []); (ECall (EName "Field") [(EStr "ICAO Code"); (ESlice (EName "r") (Some (EInt 10)) (Some (EInt 12))); (EAttr (EName "decoder") "field_014")] []); (ECall (EName "Field") [(EStr "NDB Identifier"); (ESlice (EName "r") (Some (EInt 13)) (Some (EInt 17))); (EAttr (EName "decoder") "field_033")] []); (ECall (EName "Field") [(EStr "ICAO Code (2)"); (ESlice (EName "r") (Some (EInt 19)) (Some (EInt 21))); (EAttr (EName "decoder") "field_014")] []); (ECall (EName "Field") [(EStr "Continuation Record No"); (EItem (EName "r") (EInt 21)); (EAttr (EName "decoder") "field_016")] []); (ECall (EName "Field") [(EStr "Application Type"); (EItem (EName "r") (EInt 22)); (EAttr (EName "decoder") "field_091")] []); (ECall (EName "Field") [(EStr "FIR Identifier"); (ESlice (EName "r") (Some (EInt 23)) (Some (EInt 27))); (EAttr (EName "decoder") "field_116")] []); (ECall (EName "Field") [(EStr "UIR Identifier"); (ESlice (EName "r") (Some (EInt 28)) (Some (EInt 31))); (EAttr (EName "decoder") "field_116")] []); (ECall (EName "Field") [(EStr "Start/End Indicator"); (EItem (EName "r") (EInt 32)); (EAttr (EName "decoder") "field_152")] []); (ECall (EName "Field") [(EStr "Start/End Date"); (ESlice (EName "r") (Some (EInt 32)) (Some (EInt 43))); (EAttr (EName "decoder") "field_153")] []); (ECall (EName "Field") [(EStr "File Record No"); (ESlice (EName "r") (Some (EInt 123)) (Some (EInt 128))); (EAttr (EName "decoder") "field_031")] []); (ECall (EName "Field") [(EStr "Cycle Date"); (ESlice (EName "r") (Some (EInt 128)) (Some (EInt 132))); (EAttr (EName "decoder") "field_032")] [])]))];
    SDef "read_flight_plan1" [("self", None); ("r", None)]
      [SReturn (Some (EList [(ECall (EName "Field") [(EStr "Record Type"); (EItem (EName "r") (EInt 0)); (EAttr (EName "decoder") "field_002")] []); (ECall (EName "Field") [(EStr "Customer / Area Code"); (ESlice (EName "r") (Some (EInt 1)) (Some (EInt 4))); (EAttr (EName "decoder") "field_003")] []); (ECall (EName "Field") [(EStr "Section Code"); (ESlice (EName "r") (Some (EInt 4)) (Some (EInt 6))); (EAttr (EName "decoder") "field_004")] []); (ECall (EName "Field") [(EStr "Airport ICAO Identifier"); (ESlice (EName "r") (Some (EInt 6)) (Some (EInt 10))); (EAttr (EName "decoder") "field_006")] []); (ECall (EName "Field") [(EStr "ICAO Code"); (ESlice (EName "r") (Some (EInt 10)) (Some (EInt 12))); (EAttr (EName "decoder") "field_014")] []); (ECall (EName "Field") [(EStr "NDB Identifier"); (ESlice (EName "r") (Some (EInt 13)) (Some (EInt 17))); (EAttr (EName "decoder") "field_033")] []); (ECall (EName "Field") [(EStr "ICAO Code (2)"); (ESlice (EName "r") (Some (EInt 19)) (Some (EInt 21))); (EAttr (EName "decoder") "field_014")] []); (ECall (EName "Field") [(EStr "Continuation Record No"); (EItem (EName "r") (EInt 21)); (EAttr (EName "decoder") "field_016")] []); (ECall (EName "Field") [(EStr "NDB Frequency"); (ESlice (EName "r") (Some (EInt 22)) (Some (EInt 27))); (EAttr (EName "decoder") "field_034")] []); (ECall (EName "Field") [(EStr "NDB Class"); (ESlice (EName "r") (Some (EInt 27)) (Some (EInt 31))); (EAttr (EName "decoder") "field_035")] []); (ECall (EName "Field") [(EStr "NDB Latitude"); (ESlice (EName "r") (Some (EInt 32)) (Some (EInt 41))); (EAttr (EName "decoder") "field_036")] []); (ECall (EName "Field") [(EStr "NDB Longitude"); (ESlice (EName "r") (Some (EInt 41)) (Some (EInt 51))); (EAttr (EName "decoder") "field_037")] []); (ECall (EName "Field") [(EStr "Magnetic Variation"); (ESlice (EName "r") (Some (EInt 74)) (Some (EInt 79))); (EAttr (EName "decoder") "field_039")] []); (ECall (EName "Field") [(EStr "Datum Code"); (ESlice (EName "r") (Some (EInt 90)) (Some (EInt 93))); (EAttr (EName "decoder") "field_197")] []); (ECall (EName "Field") [(EStr "NDB Name"); (ESlice (EName "r") (Some (EInt 93)) (Some (EInt 123))); (EAttr (EName "decoder") "field_071")] []); (ECall (EName "Field") [(EStr "File Record No"); (ESlice (EName "r") (Some (EInt 123)) (Some (EInt 128))); (EAttr (EName "decoder") "field_031")] []); (ECall (EName "Field") [(EStr "Cycle Date"); (ESlice (EName "r") (Some (EInt 128)) (Some (EInt 132))); (EAttr (EName "decoder") "field_032")] [])]))]].

(* src/arinc424/definitions/NDBNavaid.py *)
Definition py_NDBNavaid : pymodule := [
  SFrom "arinc424.decoder" "Field" "Field";
  SImport "arinc424.decoder" "decoder";
  py_NDBNavaid_NDBNavaid].

(* src/arinc424/definitions/PathPoint.py:6-83 *)
Definition py_PathPoint_PathPoint : stmt :=
  SClass "PathPoint"
    [SAssign (EName "cont_idx") (EInt 26);
    SAssign (EName "app_idx") (EInt 27);
    SAssign (EName "continuations") (EList [(EStr "E")]);
    SAssign (EName "name") (EStr "Path Point");
    SDef "application_type" [("self", None); ("line", None)]
      [SReturn (Some (EItem (EName "line") (EAttr (EName "self") "app_idx")))];
    SDef "read" [("self", None); ("line", None); ("primary", None)]
      [SIf (EName "primary")
        [SReturn (Some (ECall (EAttr (EName "self") "read_primary") [(EName "line")] []))]
        [];
      SAssign (EName "application") (EItem (EName "line") (EAttr (EName "self") "app_idx"));
      SMatch (EName "application")
        [(PValue (EStr "E"), [SReturn (Some (ECall (EAttr (EName "self") "read_cont") [(EName "line")] []))]);
        (PWild, [SRaise (ECall (EName "ValueError") [(EStr "bad path point"); (EItem (EName "line") (EAttr (EName "self") "app_idx"))] [])])]];
    SDef "read_primary" [("self", None); ("r", None)]
      [SReturn (Some (EList [(ECall (EName "Field") [(EStr "Record Type"); (EItem (EName "r") (EInt 0)); (EAttr (EName "decoder") "field_002")] []); (ECall (EName "Field") [(EStr "Customer / Area Code"); (ESlice (EName "r") (Some (EInt 1)) (Some (EInt 4))); (EAttr (EName "decoder") "field_003")] []); (ECall (EName "Field") [(EStr "Section Code"); (EBin OpAdd (EItem (EName "r") (EInt 4)) (EItem (EName "r") (EInt 12))); (EAttr (EName "decoder") "field_004")] []); (ECall (EName "Field") [(EStr "Airport Identifier"); (ESlice (EName "r") (Some (EInt 6)) (Some (EInt 10))); (EAttr (EName "decoder") "field_006")] []); (ECall (EName "Field") [(EStr "ICAO Code"); (ESlice (EName "r") (Some (EInt 10)) (Some (EInt 12))); (EAttr (EName "decoder") "field_014")] []); (ECall (EName "Field") [(EStr "Approach Procedure Ident"); (ESlice (EName "r") (Some (EInt 13)) (Some (EInt 19))); (EAttr (EName "decoder") "field_010")] []); (ECall (EName "Field") [(EStr "Runway or Helipad Ident"); (ESlice (EName "r") (Some (EInt 19)) (Some (EInt 24))); (EAttr (EName "decoder") "field_046")] []); (ECall (EName "Field") [(EStr "Operation Type"); (ESlice (EName "r") (Some (EInt 24)) (Some (EInt 26))); (EAttr (EName "decoder") "field_223")] []); (ECall (EName "Field") [(EStr "Continuation Record No"); (EItem (EName "r") (EInt 26)); (EAttr (EName "decoder") "field_016")] []); (ECall (EName "Field") [(EStr "Route Identifier"); (EItem (EName "r") (EInt 27)); (EAttr (EName "decoder") "field_224")] []); (ECall (EName "Field") [(EStr "SBAS Service Provider Ident"); (ESlice (EName "r") (Some (EInt 28)) (Some (EInt 30))); (EAttr (EName "decoder") "field_255")] []); (ECall (EName "Field") [(EStr "Reference Path Data Selector"); (ESlice (EName "r") (Some (EInt 30)) (Some (EInt 32))); (EAttr (EName "decoder") "field_256")] []); (ECall (EName "Field") [(EStr "Reference Path Identifier"); (ESlice (EName "r") (Some (EInt 32)) (Some (EInt 36))); (EAttr (EName "decoder") "field_257")] []); (ECall (EName "Field") [(EStr "Approach Performance Designator"); (EItem (EName "r") (EInt 36)); (EAttr (EName "decoder") "field_258")] []); (ECall (EName "Field") [(EStr "Landing Threshold Point Latitude"); (ESlice (EName "r") (Some (EInt 37)) (Some (EInt 48))); (EAttr (EName "decoder") "field_267")] []); (ECall (EName "Field") [(EStr "Landing Threshold Point Longitude"); (ESlice (EName "r") (Some (EInt 48)) (Some (EInt 60))); (EAttr (EName "decoder") "field_268")] []); (ECall (EName "Field") [(EStr "(LTP) Ellipsoid Height"); (ESlice (EName "r") (Some (EInt 60)) (Some (EInt 66))); (EAttr (EName "decoder") "field_225")] []); (ECall (EName "Field") [(EStr "Glide Path Angle"); (ESlice (EName "r") (Some (EInt 66)) (Some (EInt 70))); (EAttr (EName "decoder") "field_226")] []); (ECall (EName "Field") [(EStr "Flight Path Alignment Point Latitude"); (ESlice (EName "r") (Some (EInt 70)) (Some (EInt 81))); (EAttr (EName "decoder") "field_267")] []); (ECall (EName "Field") [(EStr "Flight Path Alignment Point Longitude"); (ESlice (EName "r") (Some (EInt 81)) (Some (EInt 93))); (EAttr (EName "decoder") "field_268")] []); (ECall (EName "Field") [(EStr "Course Width at Threshold Note 4"); (ESlice (EName "r") (Some (EInt 93)) (Some (EInt 98))); (EAttr (EName "decoder") "field_228")] []); (ECall (EName "Field") [(EStr "Length Offset"); (ESlice (EName "r") (Some (EInt 98)) (Some (EInt 102))); (EAttr (EName "decoder") "field_259")] []); (ECall (EName "Field") [(EStr "Path Point TCH"); (ESlice (EName "r") (Some (EInt 102)) (Some (EInt 108))); (EAttr (EName "decoder") "field_265")] []); (ECall (EName "Field") [(EStr "TCH Units Indicator"); (EItem (EName "r") (EInt 108)); (EAttr (EName "decoder") "field_266")] []); (ECall (EName "Field") [(EStr "HAL"); (ESlice (EName "r") (Some (EInt 109)) (Some (EInt 112))); (EAttr (EName "decoder") "field_263")] []); (ECall (EName "Field") [(EStr "VAL"); (ESlice (EName "r") (Some (EInt 112)) (Some (EInt 115))); (EAttr (EName "decoder") "field_264")] []); (ECall (EName "Field") [(EStr "SBAS FAS Data CRC Remainder"); (ESlice (EName "r") (Some (EInt 115)) (Some (EInt 123))); (EAttr (EName "decoder") "field_229")] []); (ECall (EName "Field") [(EStr "File Record No"); (ESlice (EName "r") (Some (EInt 123)) (Some (EInt 128))); (EAttr (EName "decoder") "field_031")] []); (ECall (EName "Field") [(EStr "Cycle Date"); (ESlice (EName "r") (Some (EInt 128)) (Some (EInt 132))); (EAttr (EName "decoder") "field_032")] [])]))];
    SDef "read_cont" [("self", None); ("r", None)]
      [SReturn (Some (EList [(ECall (EName "Field") [(EStr "Record Type"); (EItem (EName "r") (EInt 0)); (EAttr (EName "decoder") "field_002")] []); (ECall (EName "Field") [(EStr "Customer / Area Code"); (ESlice (EName "r") (Some (EInt 1)) (Some (EInt 4))); (EAttr (EName "decoder") "field_003")] []); (ECall (EName "Field") [(EStr "Section Code"); (EBin OpAdd (EItem (EName "r") (EInt 4)) (EItem (EName "r") (EInt 12))); (EAttr (EName "decoder") "field_004")] []); (ECall (EName "Field") [(EStr "Airport Identifier"); (ESlice (EName "r") (Some (EInt 6)) (Some (EInt 10))); (EAttr (EName "decoder") "field_006")] []); (ECall (EName "Field") [(EStr "ICAO Code"); (ESlice (EName "r") (Some (EInt 10)) (Some (EInt 12))); (EAttr (EName "decoder") "field_014")] []); (ECall (EName "Field") [(EStr "Approach Procedure Ident"); (ESlice (EName "r") (Some (EInt 13)) (Some (EInt 19))); (EAttr (EName "decoder") "field_010")] []); (ECall (EName "Field") [(EStr "Runway or Helipad Ident"); (ESlice (EName "r") (Some (EInt 19)) (Some (EInt 24))); (EAttr (EName "decoder") "field_046")] []); (ECall (EName "Field") [(EStr "Operation Type"); (ESlice (EName "r") (Some (EInt 24)) (Some (EInt 26))); (EAttr (EName "decoder") "field_223")] []); (ECall (EName "Field") [(EStr "Continuation Record No"); (EItem (EName "r") (EInt 26)); (EAttr (EName "decoder") "field_016")] []); (ECall (EName "Field") [(EStr "Application Type"); (EItem (EName "r") (EInt 27)); (EAttr (EName "decoder") "field_091")] []); (ECall (EName "Field") [(EStr "(FPAP) Ellipsoid Height"); (ESlice (EName "r") (Some (EInt 28)) (Some (EInt 34))); (EAttr (EName "decoder") "field_225")] []); (ECall (EName "Field") [(EStr "(FPAP) Orthometric Height"); (ESlice (EName "r") (Some (EInt 34)) (Some (EInt 40))); (EAttr (EName "decoder") "field_227")] []); (ECall (EName "Field") [(EStr "(LTP) Orthometric Height"); (ESlice (EName "r") (Some (EInt 40)) (Some (EInt 46))); (EAttr (EName "decoder") "field_227")] []); (ECall (EName "Field") [(EStr "Approach Type Identifier"); (ESlice (EName "r") (Some (EInt 46)) (Some (EInt 56))); (EAttr (EName "decoder") "field_262")] []); (ECall (EName "Field") [(EStr "GNSS Channel Number"); (ESlice (EName "r") (Some (EInt 56)) (Some (EInt 61))); (EAttr (EName "decoder") "field_244")] []); (ECall (EName "Field") [(EStr "Helicopter Procedure Course"); (ESlice (EName "r") (Some (EInt 71)) (Some (EInt 74))); (EAttr (EName "decoder") "field_269")] []); (ECall (EName "Field") [(EStr "File Record No"); (ESlice (EName "r") (Some (EInt 123)) (Some (EInt 128))); (EAttr (EName "decoder") "field_031")] []); (ECall (EName "Field") [(EStr "Cycle Date"); (ESlice (EName "r") (Some (EInt 128)) (Some (EInt 132))); (EAttr (EName "decoder") "field_032")] [])]))]].

(* src/arinc424/definitions/PathPoint.py *)
Definition py_PathPoint : pymodule := [
  SFrom "arinc424.decoder" "Field" "Field";
  SImport "arinc424.decoder" "decoder";
  py_PathPoint_PathPoint].

(* src/arinc424/definitions/PreferredRoute.py:10-108 *)
Definition py_PreferredRoute_PreferredRoute : stmt :=
  SClass "PreferredRoute"
    [SAssign (EName "cont_idx") (EInt 38);
    SAssign (EName "app_idx") (EInt 39);
    SAssign (EName "continuations") (EList [(EStr "A"); (EStr "T")]);
    SAssign (EName "name") (EStr "Preferred Route");
    SDef "application_type" [("self", None); ("line", None)]
      [SReturn (Some (EItem (EName "line") (EAttr (EName "self") "app_idx")))];
    SDef "read" [("self", None); ("line", None); ("primary", None)]
      [SIf (EName "primary")
        [SReturn (Some (ECall (EAttr (EName "self") "read_primary") [(EName "line")] []))]
        [];
      SAssign (EName "application") (EItem (EName "line") (EAttr (EName "self") "app_idx"));
      SMatch (EName "application")
        [(PValue (EStr "A"), [SReturn (Some (ECall (EAttr (EName "self") "read_cont") [(EName "line")] []))]);
        (PValue (EStr "T"), [SReturn (Some (ECall (EAttr (EName "self") "read_timeop") [(EName "line")] []))]);
        (PWild, [SReturn (Some (EList []))])]];
    SDef "read_primary" [("self", None); ("r", None)]
      [SReturn (Some (EList [(ECall (EName "Field") [(EStr "Record Type"); (EItem (EName "r") (EInt 0)); (EAttr (EName "decoder") "field_002")] []); (ECall (EName "Field") [(EStr "Customer / Area Code"); (ESlice (EName "r") (Some (EInt 1)) (Some (EInt 4))); (EAttr (EName "decoder") "field_003")] []); (ECall (EName "Field") [(EStr "Section Code"); (ESlice (EName "r") (Some (EInt 4)) (Some (EInt 6))); (EAttr (EName "decoder") "field_004")] []); (ECall (EName "Field") [(EStr "Route Identifier"); (ESlice (EName "r") (Some (EInt 13)) (Some (EInt 23))); (EAttr (EName "decoder") "field_008")] []); (ECall (EName "Field") [(EStr "Preferred Route Use Ind"); (ESlice (EName "r") (Some (EInt 23)) (Some (EInt 25))); (EAttr (EName "decoder") "field_220")] []); (ECall (EName "Field") [(EStr "Sequence Number"); (ESlice (EName "r") (Some (EInt 25)) (Some (EInt 29))); (EAttr (EName "decoder") "field_012")] []); (ECall (EName "Field") [(EStr "Continuation Record No"); (EItem (EName "r") (EInt 38)); (EAttr (EName "decoder") "field_016")] []); (ECall (EName "Field") [(EStr "To Fix Identifier"); (ESlice (EName "r") (Some (EInt 39)) (Some (EInt 44))); (EAttr (EName "decoder") "field_083")] []); (ECall (EName "Field") [(EStr "ICAO Code"); (ESlice (EName "r") (Some (EInt 44)) (Some (EInt 46))); (EAttr (EName "decoder") "field_014")] []); (ECall (EName "Field") [(EStr "Section Code (2)"); (ESlice (EName "r") (Some (EInt 46)) (Some (EInt 48))); (EAttr (EName "decoder") "field_004")] []); (ECall (EName "Field") [(EStr "VIA Code"); (ESlice (EName "r") (Some (EInt 48)) (Some (EInt 51))); (EAttr (EName "decoder") "field_077")] []); (ECall (EName "Field") [(EStr "SID/STAR/AWY Ident"); (ESlice (EName "r") (Some (EInt 51)) (Some (EInt 57))); (EAttr (EName "decoder") "field_078")] []); (ECall (EName "Field") [(EStr "AREA Code"); (ESlice (EName "r") (Some (EInt 57)) (Some (EInt 60))); (EAttr (EName "decoder") "field_003")] []); (ECall (EName "Field") [(EStr "Level"); (EItem (EName "r") (EInt 60)); (EAttr (EName "decoder") "field_019")] []); (ECall (EName "Field") [(EStr "Route Type"); (EItem (EName "r") (EInt 61)); (EAttr (EName "decoder") "field_007")] []); (ECall (EName "Field") [(EStr "Initial Airport/Fix"); (ESlice (EName "r") (Some (EInt 62)) (Some (EInt 67))); (EAttr (EName "decoder") "field_194")] []); (ECall (EName "Field") [(EStr "ICAO Code"); (ESlice (EName "r") (Some (EInt 67)) (Some (EInt 69))); (EAttr (EName "decoder") "field_014")] []); (ECall (EName "Field") [(EStr "Section Code"); (ESlice (EName "r") (Some (EInt 69)) (Some (EInt 71))); (EAttr (EName "decoder") "field_004")] []); (ECall (EName "Field") [(EStr "Terminus Airport/Fix"); (ESlice (EName "r") (Some (EInt 71)) (Some (EInt 76))); (EAttr (EName "decoder") "field_194")] []); (ECall (EName "Field") [(EStr "ICAO Code"); (ESlice (EName "r") (Some (EInt 76)) (Some (EInt 78))); (EAttr (EName "decoder") "field_014")] []); (ECall (EName "Field") [(EStr "Section Code"); (ESlice (EName "r") (Some (EInt 78)) (Some (EInt 80))); (EAttr (EName "decoder") "field_004")] []); (ECall (EName "Field") [(EStr "Minimum Altitude"); (ESlice (EName "r") (Some (EInt 80)) (Some (EInt 85))); (EAttr (EName "decoder") "field_030")] []); (ECall (EName "Field") [(EStr "Maximum Altitude"); (ESlice (EName "r") (Some (EInt 85)) (Some (EInt 90))); (EAttr (EName "decoder") "field_127")] []); (ECall (EName "Field") [(EStr "Time Code"); (EItem (EName "r") (EInt 90)); (EAttr (EName "decoder") "field_131")] []); (ECall (EName "Field") [(EStr "Aircraft Use Group"); (ESlice (EName "r") (Some (EInt 91)) (Some (EInt 93))); (EAttr (EName "decoder") "field_221")] []); (ECall (EName "Field") [(EStr "Direction Restriction"); (EItem (EName "r") (EInt 93)); (EAttr (EName "decoder") "field_115")] []); (ECall (EName "Field") [(EStr "Altitude Description"); (EItem (EName "r") (EInt 94)); (EAttr (EName "decoder") "field_029")] []); (ECall (EName "Field") [(EStr "Altitude One"); (ESlice (EName "r") (Some (EInt 95)) (Some (EInt 100))); (EAttr (EName "decoder") "field_030")] []); (ECall (EName "Field") [(EStr "Altitude Two"); (ESlice (EName "r") (Some (EInt 100)) (Some (EInt 105))); (EAttr (EName "decoder") "field_030")] []); (ECall (EName "Field") [(EStr "File Record No"); (ESlice (EName "r") (Some (EInt 123)) (Some (EInt 128))); (EAttr (EName "decoder") "field_031")] []); (ECall (EName "Field") [(EStr "Cycle Date"); (ESlice (EName "r") (Some (EInt 128)) (Some (EInt 132))); (EAttr (EName "decoder") "field_032")] [])]))];
    SDef "read_timeop" [("self", None); ("r", None)]
      [SReturn (Some (EList [(ECall (EName "Field") [(EStr "Record Type"); (EItem (EName "r") (EInt 0)); (EAttr (EName "decoder") "field_002")] []); (ECall (EName "Field") [(EStr "Customer / Area Code"); (ESlice (EName "r") (Some (EInt 1)) (Some (EInt 4))); (EAttr (EName "decoder") "field_003")] []); (ECall (EName "Field") [(EStr "Section Code"); (ESlice (EName "r") (Some (EInt 4)) (Some (EInt 6))); (EAttr (EName "decoder") "field_004")] []); (ECall (EName "Field") [(EStr "Route Identifier"); (ESlice (EName "r") (Some (EInt 13)) (Some (EInt 23))); (EAttr (EName "decoder") "field_008")] []); (ECall (EName "Field") [(EStr "Preferred Route Use Ind"); (ESlice (EName "r") (Some (EInt 23)) (Some (EInt 25))); (EAttr (EName "decoder") "field_220")] []); (ECall (EName "Field") [(EStr "Sequence Number"); (ESlice (EName "r") (Some (EInt 25)) (Some (EInt 29))); (EAttr (EName "decoder") "field_012")] []); (ECall (EName "Field") [(EStr "Continuation Record No"); (EItem (EName "r") (EInt 38)); (EAttr (EName "decoder") "field_016")] []); (ECall (EName "Field") [(EStr "Application Type"); (EItem (EName "r") (EInt 39)); (EAttr (EName "decoder") "field_091")] []); (ECall (EName "Field") [(EStr "Time Code"); (EItem (EName "r") (EInt 40)); (EAttr (EName "decoder") "field_131")] []); (ECall (EName "Field") [(EStr "Time Indicator"); (EItem (EName "r") (EInt 41)); (EAttr (EName "decoder") "field_138")] []); (ECall (EName "Field") [(EStr "Time of Operation"); (ESlice (EName "r") (Some (EInt 42)) (Some (EInt 52))); (EAttr (EName "decoder") "field_195")] []); (ECall (EName "Field") [(EStr "Time of Operation (2)"); (ESlice (EName "r") (Some (EInt 52)) (Some (EInt 62))); (EAttr (EName "decoder") "field_195")] []); (ECall (EName "Field") [(EStr "Time of Operation (3)"); (ESlice (EName "r") (Some (EInt 62)) (Some (EInt 72))); (EAttr (EName "decoder") "field_195")] []); (ECall (EName "Field") [(EStr "Time of Operation (4)"); (ESlice (EName "r") (Some (EInt 72)) (Some (EInt 82))); (EAttr (EName "decoder") "field_195")] []); (ECall (EName "Field") [(EStr "Time of Operation (5)"); (ESlice (EName "r") (Some (EInt 82)) (Some (EInt 92))); (EAttr (EName "decoder") "field_195")] []); (ECall (EName "Field") [(EStr "Time of Operation (6)"); (ESlice (EName "r") (Some (EInt 92)) (Some (EInt 102))); (EAttr (EName "decoder") "field_195")] []); (ECall (EName "Field") [(EStr "Time of Operation (7)"); (ESlice (EName "r") (Some (EInt 102)) (Some (EInt 112))); (EAttr (EName "decoder") "field_195")] []); (ECall (EName "Field") [(EStr "File Record No"); (ESlice (EName "r") (Some (EInt 123)) (Some (EInt 128))); (EAttr (EName "decoder") "field_031")] []); (ECall (EName "Field") [(EStr "Cycle Date"); (ESlice (EName "r") (Some (EInt 128)) (Some (EInt 132))); (EAttr (EName "decoder") "field_032")] [])]))];
    SDef "read_cont" [("self", None); ("r", None)]
      [SReturn (Some (EList [(ECall (EName "Field") [(EStr "Record Type"); (EItem (EName "r") (EInt 0)); (EAttr (EName "decoder") "field_002")] []); (ECall (EName "Field") [(EStr "Customer / Area Code"); (ESlice (EName "r") (Some (EInt 1)) (Some (EInt 4))); (EAttr (EName "decoder") "field_003")] []); (ECall (EName "Field") [(EStr "Section Code"); (ESlice (EName "r") (Some (EInt 4)) (Some (EInt 6))); (EAttr (EName "decoder") "field_004")] []); (ECall (EName "Field") [(EStr "Route Identifier"); (ESlice (EName "r") (Some (EInt 13)) (Some (EInt 23))); (EAttr (EName "decoder") "field_008")] []); (ECall (EName "Field") [(EStr "Preferred Route Use Ind"); (ESlice (EName "r") (Some (EInt 23)) (Some (EInt 25))); (EAttr (EName "decoder") "field_220")] []); (ECall (EName "Field") [(EStr "Sequence Number"); (ESlice (EName "r") (Some (EInt 25)) (Some (EInt 29))); (EAttr (EName "decoder") "field_012")] []); (ECall (EName "Field") [(EStr "Continuation Record No"); (EItem (EName "r") (EInt 38)); (EAttr (EName "decoder") "field_016")] []); (ECall (EName "Field") [(EStr "Application Type"); (EItem (EName "r") (EInt 39)); (EAttr (EName "decoder") "field_091")] []); (ECall (EName "Field") [(EStr "Notes"); (ESlice (EName "r") (Some (EInt 40)) (Some (EInt 109))); (EAttr (EName "decoder") "field_061")] []); (ECall (EName "Field") [(EStr "File Record No"); (ESlice (EName "r") (Some (EInt 123)) (Some (EInt 128))); (EAttr (EName "decoder") "field_031")] []); (ECall (EName "Field") [(EStr "Cycle Date"); (ESlice (EName "r") (Some (EInt 128)) (Some (EInt 132))); (EAttr (EName "decoder") "field_032")] [])]))]].

(* src/arinc424/definitions/PreferredRoute.py *)
Definition py_PreferredRoute : pymodule := [
  SFrom "arinc424.decoder" "Field" "Field";
  SImport "arinc424.decoder" "decoder";
  py_PreferredRoute_PreferredRoute].

(* src/arinc424/definitions/RestrictiveAirspace.py:6-138 *)
Definition py_RestrictiveAirspace_RestrictiveAirspace : stmt :=
  SClass "RestrictiveAirspace"
    [SAssign (EName "cont_idx") (EInt 24);
    SAssign (EName "app_idx") (EInt 25);
    SAssign (EName "continuations") (EList [(EStr "T"); (EStr "P"); (EStr "C")]);
    SAssign (EName "name") (EStr "Restrictive Airspace");
    SDef "application_type" [("self", None); ("line", None)]
      [SReturn (Some (EItem (EName "line") (EAttr (EName "self") "app_idx")))];
    SDef "read" [("self", None); ("line", None); ("primary", None)]
      [SIf (EName "primary")
        [SReturn (Some (ECall (EAttr (EName "self") "read_primary") [(EName "line")] []))]
        [];
      SAssign (EName "application") (EItem (EName "line") (EAttr (EName "self") "app_idx"));
      SMatch (EName "application")
        [(PValue (EStr "T"), [SReturn (Some (ECall (EAttr (EName "self") "read_time") [(EName "line")] []))]);
        (PValue (EStr "P"), [SReturn (Some (ECall (EAttr (EName "self") "read_flight0") [(EName "line")] []))]);
        (PValue (EStr "C"), [SReturn (Some (ECall (EAttr (EName "self") "read_callsign") [(EName "line")] []))]);
        (PWild, [SReturn (Some (EList []))])]];
    SDef "read_primary" [("self", None); ("r", None)]
      [SReturn (Some (EList [(ECall (EName "Field") [(EStr "Record Type"); (EItem (EName "r") (EInt 0)); (EAttr (EName "decoder") "field_002")] []); (ECall (EName "Field") [(EStr "Customer / Area Code"); (ESlice (EName "r") (Some (EInt 1)) (Some (EInt 4))); (EAttr (EName "decoder") "field_003")] []); (ECall (EName "Field") [(EStr "Section Code"); (ESlice (EName "r") (Some (EInt 4)) (Some (EInt 6))); (EAttr (EName "decoder") "field_004")] []); (ECall (EName "Field") [(EStr "ICAO Code"); (ESlice (EName "r") (Some (EInt 6)) (Some (EInt 8))); (EAttr (EName "decoder") "field_014")] []); (ECall (EName "Field") [(EStr "Restrictive Type"); (EItem (EName "r") (EInt 8)); (EAttr (EName "decoder") "field_128")] []); (ECall (EName "Field") [(EStr "Restrictive Airspace Designation"); (ESlice (EName "r") (Some (EInt 9)) (Some (EInt 19))); (EAttr (EName "decoder") "field_129")] []); (ECall (EName "Field") [(EStr "Multiple Code"); (EItem (EName "r") (EInt 19)); (EAttr (EName "decoder") "field_130")] []); (ECall (EName "Field") [(EStr "Sequence Number"); (ESlice (EName "r") (Some (EInt 20)) (Some (EInt 24))); (EAttr (EName "decoder") "field_012")] []); (ECall (EName "Field") [(EStr "Continuation Record No"); (EItem (EName "r") (EInt 24)); (EAttr (EName "decoder") "field_016")] []); (ECall (EName "Field") [(EStr "Level"); (EItem (EName "r") (EInt 25)); (EAttr (EName "decoder") "field_019")] []); (ECall (EName "Field") [(EStr "Time Code"); (EItem (EName "r") (EInt 26)); (EAttr (EName "decoder") "field_131")] []); (ECall (EName "Field") [(EStr "NOTAM"); (EItem (EName "r") (EInt 27)); (EAttr (EName "decoder") "field_132")] []); (ECall (EName "Field") [(EStr "Boundary Via"); (ESlice (EName "r") (Some (EInt 30)) (Some (EInt 32))); (EAttr (EName "decoder") "field_118")] []); (ECall (EName "Field") [(EStr "Latitude"); (ESlice (EName "r") (Some (EInt 32)) (Some (EInt 41))); (EAttr (EName "decoder") "field_036")] []); (ECall (EName "Field") [(EStr "Longitude"); (ESlice (EName "r") (Some (EInt 41)) (Some (EInt 51))); (EAttr (EName "decoder") "field_037")] []); (ECall (EName "Field") [(EStr "Arc Origin Latitude"); (ESlice (EName "r") (Some (EInt 51)) (Some (EInt 60))); (EAttr (EName "decoder") "field_036")] []); (ECall (EName "Field") [(EStr "Arc Origin Longitude"); (ESlice (EName "r") (Some (EInt 60)) (Some (EInt 70))); (EAttr (EName "decoder") "field_037")] []); (ECall (EName "Field") [(EStr "Arc Distance"); (ESlice (EName "r") (Some (EInt 70)) (Some (EInt 74))); (EAttr (EName "decoder") "field_119")] []); (ECall (EName "Field") [(EStr "Arc Bearing"); (ESlice (EName "r") (Some (EInt 74)) (Some (EInt 78))); (EAttr (EName "decoder") "field_120")] []); (ECall (EName "Field") [(EStr "Lower Limit"); (ESlice (EName "r") (Some (EInt 82)) (Some (EInt 86))); (EAttr (EName "decoder") "field_121")] []); (ECall (EName "Field") [(EStr "Unit Indicator"); (EItem (EName "r") (EInt 86)); (EAttr (EName "decoder") "field_133")] []); (ECall (EName "Field") [(EStr "Upper Limit"); (ESlice (EName "r") (Some (EInt 87)) (Some (EInt 92))); (EAttr (EName "decoder") "field_121")] []); (ECall (EName "Field") [(EStr "Unit Indicator (2)"); (EItem (EName "r") (EInt 92)); (EAttr (EName "decoder") "field_133")] []); (ECall (EName "Field") [(EStr "Restrictive Airspace Name"); (ESlice (EName "r") (Some (EInt 93)) (Some (EInt 123))); (EAttr (EName "decoder") "field_126")] []); (ECall (EName "Field") [(EStr "File Record No"); (ESlice (EName "r") (Some (EInt 123)) (Some (EInt 128))); (EAttr (EName "decoder") "field_031")] []); (ECall (EName "Field") [(EStr "Cycle Date"); (ESlice (EName "r") (Some (EInt 128)) (Some (EInt 132))); (EAttr (EName "decoder") "field_032")] [])]))];
    SDef "read_time" [("self", None); ("r", None)]
      [SReturn (Some (EList [(ECall (EName "Field") [(EStr "Record Type"); (EItem (EName "r") (EInt 0)); (EAttr (EName "decoder") "field_002")] []); (ECall (EName "Field") [(EStr "Customer / Area Code"); (ESlice (EName "r") (Some (EInt 1)) (Some (EInt 4))); (EAttr (EName "decoder") "field_003")] []); (ECall (EName "Field") [(EStr "Section Code"); (ESlice (EName "r") (Some (EInt 4)) (Some (EInt 6))); (EAttr (EName "decoder") "field_004")] []); (ECall (EName "Field") [(EStr "ICAO Code"); (ESlice (EName "r") (Some (EInt 6)) (Some (EInt 8))); (EAttr (EName "decoder") "field_014")] []); (ECall (EName "Field") [(EStr "Restrictive Type"); (EItem (EName "r") (EInt 8)); (EAttr (EName "decoder") "field_128")] []); (ECall (EName "Field") [(EStr "Restrictive Airspace Designation"); (ESlice (EName "r") (Some (EInt 9)) (Some (EInt 19))); (EAttr (EName "decoder") "field_129")] []); (ECall (EName "Field") [(EStr "Multiple Code"); (EItem (EName "r") (EInt 19)); (EAttr (EName "decoder") "field_130")] []); (ECall (EName "Field") [(EStr "Sequence Number"); (ESlice (EName "r") (Some (EInt 20)) (Some (EInt 24))); (EAttr (EName "decoder") "field_012")] []); (ECall (EName "Field") [(EStr "Continuation Record No"); (EItem (EName "r") (EInt 24)); (EAttr (EName "decoder") "field_016")] []); (ECall (EName "Field") [(EStr "Application Type"); (EItem (EName "r") (EInt 25)); (EAttr (EName "decoder") "field_091")] []); (ECall (EName "Field") [(EStr "Time Code"); (EItem (EName "r") (EInt 26)); (EAttr (EName "decoder") "field_131")] []); (ECall (EName "Field") [(EStr "NOTAM"); (EItem (EName "r") (EInt 27)); (EAttr (EName "decoder") "field_132")] []); (ECall (EName "Field") [(EStr "Time Indicator"); (EItem (EName "r") (EInt 27)); (EAttr (EName "decoder") "field_138")] []); (ECall (EName "Field") [(EStr "Time of Operations"); (ESlice (EName "r") (Some (EInt 29)) (Some (EInt 39))); (EAttr (EName "decoder") "field_195")] []); (ECall (EName "Field") [(EStr "Time of Operations (2)"); (ESlice (EName "r") (Some (EInt 39)) (Some (EInt 49))); (EAttr (EName "decoder") "field_195")] []); (ECall (EName "Field") [(EStr "Time of Operations (3)"); (ESlice (EName "r") (Some (EInt 49)) (Some (EInt 59))); (EAttr (EName "decoder") "field_195")] []); (ECall (EName "Field") [(EStr "Time of Operations (4)"); (ESlice (EName "r") (Some (EInt 59)) (Some (EInt 69))); (EAttr (EName "decoder") "field_195")] []); (ECall (EName "Field") [(EStr "Time of Operations (5)"); (ESlice (EName "r") (Some (EInt 69)) (Some (EInt 79))); (EAttr (EName "decoder") "field_195")] []); (ECall (EName "Field") [(EStr "Time of Operations (6)"); (ESlice (EName "r") (Some (EInt 79)) (Some (EInt 89))); (EAttr (EName "decoder") "field_195")] []); (ECall (EName "Field") [(EStr "Time of Operations (7)"); (ESlice (EName "r") (Some (EInt 89)) (Some (EInt 99))); (EAttr (EName "decoder") "field_195")] []); (ECall (EName "Field") [(EStr "Controlling Agency"); (ESlice (EName "r") (Some (EInt 99)) (Some (EInt 123))); (EAttr (EName "decoder") "field_140")] []); (ECall (EName "Field") [(EStr "File Record No"); (ESlice (EName "r") (Some (EInt 123)) (Some (EInt 128))); (EAttr (EName "decoder") "field_031")] []); (ECall (EName "Field") [(EStr "Cycle Date"); (ESlice (EName "r") (Some (EInt 128)) (Some (EInt 132))); (EAttr (EName "decoder") "field_032")] [])]))];
    SDef "read_flight0" [("self", None); ("r", None)]
      [SReturn (Some (EList [(ECall (EName "Field") [(EStr "Record Type"); (EItem (EName "r") (EInt 0)); (EAttr (EName "decoder") "field_002")] []); (ECall (EName "Field") [(EStr "Customer / Area Code"); (ESlice (EName "r") (Some (EInt 1)) (Some (EInt 4))); (EAttr (EName "decoder") "field_003")] []); (ECall (EName "Field") [(EStr "Section Code"); (ESlice (EName "r") (Some (EInt 4)) (Some (EInt 6))); (EAttr (EName "decoder") "field_004")] []); (ECall (EName "Field") [(EStr "ICAO Code"); (ESlice (EName "r") (Some (EInt 6)) (Some (EInt 8))); (EAttr (EName "decoder") "field_014")] []); (ECall (EName "Field") [(EStr "Restrictive Type"); (EItem (EName "r") (EInt 8)); (EAttr (EName "decoder") "field_128")] []); (ECall (EName "Field") [(EStr "Restrictive Airspace Designation"); (ESlice (EName "r") (Some (EInt 9)) (Some (EInt 19))); (EAttr (EName "decoder") "field_129")] []); (ECall (EName "Field") [(EStr "Multiple Code"); (EItem (EName "r") (EInt 19)); (EAttr (EName "decoder") "field_130")] []); (ECall (EName "Field") [(EStr "Sequence Number"); (ESlice (EName "r") (Some (EInt 20)) (Some (EInt 24))); (EAttr (EName "decoder") "field_012")] []); (ECall (EName "Field") [(EStr "Continuation Record No"); (EItem (EName "r") (EInt 24)); (EAttr (EName "decoder") "field_016")] []); (ECall (EName "Field") [(EStr "Application Type"); (EItem (EName "r") (EInt 25)); (EAttr (EName "decoder") "field_091")] []); (ECall (EName "Field") [(EStr "Start/End Indicator"); (EItem (EName "r") (EInt 29)); (EAttr (EName "decoder") "field_152")] []); (ECall (EName "Field") [(EStr "Start/End Date"); (ESlice (EName "r") (Some (EInt 30)) (Some (EInt 41))); (EAttr (EName "decoder") "field_153")] []); (ECall (EName "Field") [(EStr "File Record No"); (ESlice (EName "r") (Some (EInt 123)) (Some (EInt 128))); (EAttr (EName "decoder") "field_031")] []); (ECall (EName "Field") [(EStr "Cycle Date"); (ESlice (EName "r") (Some (EInt 128)) (Some (EInt 132))); (EAttr (EName "decoder") "field_032")] [])]))];
    SDef "read_callsign" [("self", None); ("r", None)]
      [SReturn (Some (EList [(ECall (EName "Field") [(EStr "Record Type"); (EItem (EName "r") (EInt 0)); (EAttr (EName "decoder") "field_002")] []); (ECall (EName "Field") [(EStr "Customer / Area Code"); (ESlice (EName "r") (Some (EInt 1)) (Some (EInt 4))); (EAttr (EName "decoder") "field_003")] []); (ECall (EName "Field") [(EStr "Section Code"); (ESlice (EName "r") (Some (EInt 4)) (Some (EInt 6))); (EAttr (EName "decoder") "field_004")] []); (ECall (EName "Field") [(EStr "ICAO Code"); (ESlice (EName "r") (Some (EInt 6)) (Some (EInt 8))); (EAttr (EName "decoder") "field_014")] []); (ECall (EName "Field") [(EStr "Restrictive Type"); (EItem (EName "r") (EInt 8)); (EAttr (EName "decoder") "field_128")] []); (ECall (EName "Field") [(EStr "Restrictive Airspace Designation"); (ESlice (EName "r") (Some (EInt 9)) (Some (EInt 19))); (EAttr (EName "decoder") "field_129")] []); (ECall (EName "Field") [(EStr "Multiple Code"); (EItem (EName "r") (EInt 19)); (EAttr (EName "decoder") "field_130")] []); (ECall (EName "Field") [(EStr "Sequence Number"); (ESlice (EName "r") (Some (EInt 20)) (Some (EInt 24))); (EAttr (EName "decoder") "field_012")] []); (ECall (EName "Field") [(EStr "Continuation Record No"); (EItem (EName "r") (EInt 24)); (EAttr (EName "decoder") "field_016")] []); (ECall (EName "Field") [(EStr "Application Type"); (EItem (EName "r") (EInt 25)); (EAttr (EName "decoder") "field_091")] []); (ECall (EName "Field") [(EStr "Time Code"); (EItem (EName "r") (EInt 26)); (EAttr (EName "decoder") "field_131")] []); (ECall (EName "Field") [(EStr "NOTAM"); (EItem (EName "r") (EInt 27)); (EAttr (EName "decoder") "field_132")] []); (ECall (EName "Field") [(EStr "Time Indicator"); (EItem (EName "r") (EInt 27)); (EAttr (EName "decoder") "field_138")] []); (ECall (EName "Field") [(EStr "Time of Operations"); (ESlice (EName "r") (Some (EInt 29)) (Some (EInt 39))); (EAttr (EName "decoder") "field_195")] []); (ECall (EName "Field") [(EStr "Time of Operations (2)"); (ESlice (EName "r") (Some (EInt 39)) (Some (EInt 49))); (EAttr (EName "decoder") "field_195")] []); (ECall (EName "Field") [(EStr "Time of Operations (3)"); (ESlice (EName "r") (Some (EInt 49)) (Some (EInt 59))); (EAttr (EName "decoder") "field_195")] []); (ECall (EName "Field") [(EStr "Time of Operations (4)"); (ESlice (EName "r") (Some (EInt 59)) (Some (EInt 69))); (EAttr (EName "decoder") "field_195")] []); (ECall (EName "Field") [(EStr "Time of Operations (5)"); (ESlice (EName "r") (Some (EInt 69)) (Some (EInt 79))); (EAttr (EName "decoder") "field_195")] []); (ECall (EName "Field") [(EStr "Time of Operations (6)"); (ESlice (EName "r") (Some (EInt 79)) (Some (EInt 89))); (EAttr (EName "decoder") "field_195")] []); (ECall (EName "Field") [(EStr "Time of Operations (7)"); (ESlice (EName "r") (Some (EInt 89)) (Some (EInt 99))); (EAttr (EName "decoder") "field_195")] []); (ECall (EName "Field") [(EStr "Controlling Agency"); (ESlice (EName "r") (Some (EInt 99)) (Some (EInt 123))); (EAttr (EName "decoder") "field_140")] []); (ECall (EName "Field") [(EStr "File Record No"); (ESlice (EName "r") (Some (EInt 123)) (Some (EInt 128))); (EAttr (EName "decoder") "field_031")] []); (ECall (EName "Field") [(EStr "Cycle Date"); (ESlice (EName "r") (Some (EInt 128)) (Some (EInt 132))); (EAttr (EName "decoder") "field_032")] [])]))]].

(* src/arinc424/definitions/RestrictiveAirspace.py *)
Definition py_RestrictiveAirspace : pymodule := [
  SFrom "arinc424.decoder" "Field" "Field";
  SImport "arinc424.decoder" "decoder";
  py_RestrictiveAirspace_RestrictiveAirspace].

(* src/arinc424/definitions/Runway.py:6-90 *)
Definition py_Runway_Runway : stmt :=
  SClass "Runway"
    [SAssign (EName "cont_idx") (EInt 21);
    SAssign (EName "app_idx") (EInt 22);
    SAssign (EName "continuations") (EList [(EStr "A"); (EStr "S")]);
    SAssign (EName "name") (EStr "Runway");
    SDef "application_type" [("self", None); ("line", None)]
      [SReturn (Some (EItem (EName "line") (EAttr (EName "self") "app_idx")))];
    SDef "read" [("self", None); ("line", None); ("primary", None)]
      [SIf (EName "primary")
        [SReturn (Some (ECall (EAttr (EName "self") "read_primary") [(EName "line")] []))]
        [];
      SAssign (EName "application") (EItem (EName "line") (EAttr (EName "self") "app_idx"));
      SMatch (EName "application")
        [(PValue (EStr "A"), [SReturn (Some (ECall (EAttr (EName "self") "read_cont") [(EName "line")] []))]);
        (PValue (EStr "S"), [SReturn (Some (ECall (EAttr (EName "self") "read_sim") [(EName "line")] []))]);
        (PWild, [SReturn (Some (EList []))])]];
    SDef "read_primary" [("self", None); ("r", None)]
      [SReturn (Some (EList [(ECall (EName "Field") [(EStr "Record Type"); (EItem (EName "r") (EInt 0)); (EAttr (EName "decoder") "field_002")] []); (ECall (EName "Field") [(EStr "Customer / Area Code"); (ESlice (EName "r") (Some (EInt 1)) (Some (EInt 4))); (EAttr (EName "decoder") "field_003")] []); (ECall (EName "Field") [(EStr "Section Code"); (EBin OpAdd (EItem (EName "r") (EInt 4)) (EItem (EName "r") (EInt 12))); (EAttr (EName "decoder") "field_004")] []); (ECall (EName "Field") [(EStr "Airport ICAO Identifier"); (ESlice (EName "r") (Some (EInt 6)) (Some (EInt 10))); (EAttr (EName "decoder") "field_006")] []); (ECall (EName "Field") [(EStr "ICAO Code"); (ESlice (EName "r") (Some (EInt 10)) (Some (EInt 12))); (EAttr (EName "decoder") "field_014")] []); (ECall (EName "Field") [(EStr "Runway Identifier"); (ESlice (EName "r") (Some (EInt 13)) (Some (EInt 18))); (EAttr (EName "decoder") "field_046")] []); (ECall (EName "Field") [(EStr "Continuation Record No"); (EItem (EName "r") (EInt 21)); (EAttr (EName "decoder") "field_016")] []); (ECall (EName "Field") [(EStr "Runway Length"); (ESlice (EName "r") (Some (EInt 22)) (Some (EInt 27))); (EAttr (EName "decoder") "field_057")] []); (ECall (EName "Field") [(EStr "Runway Magnetic Bearing"); (ESlice (EName "r") (Some (EInt 27)) (Some (EInt 31))); (EAttr (EName "decoder") "field_058")] []); (ECall (EName "Field") [(EStr "Runway Latitude"); (ESlice (EName "r") (Some (EInt 32)) (Some (EInt 41))); (EAttr (EName "decoder") "field_036")] []); (ECall (EName "Field") [(EStr "Runway Longitude"); (ESlice (EName "r") (Some (EInt 41)) (Some (EInt 51))); (EAttr (EName "decoder") "field_037")] []); (ECall (EName "Field") [(EStr "Runway Gradient"); (ESlice (EName "r") (Some (EInt 51)) (Some (EInt 56))); (EAttr (EName "decoder") "field_212")] []); (ECall (EName "Field") [(EStr "(LTP) Ellipsoid Height"); (ESlice (EName "r") (Some (EInt 60)) (Some (EInt 66))); (EAttr (EName "decoder") "field_225")] []); (ECall (EName "Field") [(EStr "Landing Threshold Elevation"); (ESlice (EName "r") (Some (EInt 66)) (Some (EInt 71))); (EAttr (EName "decoder") "field_068")] []); (ECall (EName "Field") [(EStr "Displaced Threshold Dist"); (ESlice (EName "r") (Some (EInt 71)) (Some (EInt 75))); (EAttr (EName "decoder") "field_069")] []); (ECall (EName "Field") [(EStr "Threshold Crossing Height"); (ESlice (EName "r") (Some (EInt 75)) (Some (EInt 77))); (EAttr (EName "decoder") "field_067")] []); (ECall (EName "Field") [(EStr "Runway Width"); (ESlice (EName "r") (Some (EInt 77)) (Some (EInt 80))); (EAttr (EName "decoder") "field_109")] []); (ECall (EName "Field") [(EStr "TCH Value Indicator"); (EItem (EName "r") (EInt 80)); (EAttr (EName "decoder") "field_270")] []); (ECall (EName "Field") [(EStr "Localizer/MLS/GLS Ref Path Ident"); (ESlice (EName "r") (Some (EInt 81)) (Some (EInt 85))); (EAttr (EName "decoder") "field_044")] []); (ECall (EName "Field") [(EStr "Localizer/MLS/GLS Category/Class"); (EItem (EName "r") (EInt 85)); (EAttr (EName "decoder") "field_080")] []); (ECall (EName "Field") [(EStr "Stopway"); (ESlice (EName "r") (Some (EInt 86)) (Some (EInt 90))); (EAttr (EName "decoder") "field_079")] []); (ECall (EName "Field") [(EStr "Localizer/MLS/GLS Ref Path Ident (2)"); (ESlice (EName "r") (Some (EInt 90)) (Some (EInt 94))); (EAttr (EName "decoder") "field_044")] []); (ECall (EName "Field") [(EStr "Localizer/MLS/GLS Category/Class (2)"); (EItem (EName "r") (EInt 94)); (EAttr (EName "decoder") "field_080")] []); (ECall (EName "Field") [(EStr "Runway Description"); (ESlice (EName "r") (Some (EInt 101)) (Some (EInt 123))); (EAttr (EName "decoder") "field_059")] []); (ECall (EName "Field") [(EStr "File Record No"); (ESlice (EName "r") (Some (EInt 123)) (Some (EInt 128))); (EAttr (EName "decoder") "field_031")] []); (ECall (EName "Field") [(EStr "Cycle Date"); (ESlice (EName "r") (Some (EInt 128)) (Some (EInt 132))); (EAttr (EName "decoder") "field_032")] [])]))];
    SDef "read_cont" [("self", None); ("r", None)]
      [SReturn (Some (EList [(ECall (EName "Field") [(EStr "Record Type"); (EItem (EName "r") (EInt 0)); (EAttr (EName "decoder") "field_002")] []); (ECall (EName "Field") [(EStr "Customer / Area Code"); (ESlice (EName "r") (Some (EInt 1)) (Some (EInt 4))); (EAttr (EName "decoder") "field_003")] []); (ECall (EName "Field") [(EStr "Section Code"); (EBin OpAdd (EItem (EName "r") (EInt 4)) (EItem (EName "r") (EInt 12))); (EAttr (EName "decoder") "field_004")] []); (ECall (EName "Field") [(EStr "Airport ICAO Identifier"); (ESlice (EName "r") (Some (EInt 6)) (Some (EInt 10))); (EAttr (EName "decoder") "field_006")] []); (ECall (EName "Field") [(EStr "ICAO Code"); (ESlice (EName "r") (Some (EInt 10)) (Some (EInt 12))); (EAttr (EName "decoder") "field_014")] []); (ECall (EName "Field") [(EStr "Runway Identifier"); (ESlice (EName "r") (Some (EInt 13)) (Some (EInt 18))); (EAttr (EName "decoder") "field_046")] []); (ECall (EName "Field") [(EStr "Continuation Record No"); (EItem (EName "r") (EInt 21)); (EAttr (EName "decoder") "field_016")] []); (ECall (EName "Field") [(EStr "Notes"); (ESlice (EName "r") (Some (EInt 23)) (Some (EInt 92))); (EAttr (EName "decoder") "field_061")] []); (ECall (EName "Field") [(EStr "File Record No"); (ESlice (EName "r") (Some (EInt 123)) (Some (EInt 128))); (EAttr (EName "decoder") "field_031")] []); (ECall (EName "Field") [(EStr "Cycle Date"); (ESlice (EName "r") (Some (EInt 128)) (Some (EInt 132))); (EAttr (EName "decoder") "field_032")] [])]))];
    SDef "read_sim" [("self", None); ("r", None)]
      [SReturn (Some (EList [(ECall (EName "Field") [(EStr "Record Type"); (EItem (EName "r") (EInt 0)); (EAttr (EName "decoder") "field_002")] []); (ECall (EName "Field") [(EStr "Customer / Area Code"); (ESlice (EName "r") (Some (EInt 1)) (Some (EInt 4))); (EAttr (EName "decoder") "field_003")] []); (ECall (EName "Field") [(EStr "Section Code"); (EBin OpAdd (EItem (EName "r") (EInt 4)) (EItem (EName "r") (EInt 12))); (EAttr (EName "decoder") "field_004")] []); (ECall (EName "Field") [(EStr "Airport ICAO Identifier"); (ESlice (EName "r") (Some (EInt 6)) (Some (EInt 10))); (EAttr (EName "decoder") "field_006")] []); (ECall (EName "Field") [(EStr "ICAO Code"); (ESlice (EName "r") (Some (EInt 10)) (Some (EInt 12))); (EAttr (EName "decoder") "field_014")] []); (ECall (EName "Field") [(EStr "Runway Identifier"); (ESlice (EName "r") (Some (EInt 13)) (Some (EInt 18))); (EAttr (EName "decoder") "field_046")] []); (ECall (EName "Field") [(EStr "Continuation Record No"); (EItem (EName "r") (EInt 21)); (EAttr (EName "decoder") "field_016")] []); (ECall (EName "Field") [(EStr "Application Type"); (EItem (EName "r") (EInt 22)); (EAttr (EName "decoder") "field_091")] []); (ECall (EName "Field") [(EStr "Runway True Bearing"); (ESlice (EName "r") (Some (EInt 51)) (Some (EInt 56))); (EAttr (EName "decoder") "field_094")] []); (ECall (EName "Field") [(EStr "True Bearing Source"); (EItem (EName "r") (EInt 56)); (EAttr (EName "decoder") "field_095")] []); (ECall (EName "Field") [(EStr "TDZE Location"); (EItem (EName "r") (EInt 65)); (EAttr (EName "decoder") "field_098")] []); (ECall (EName "Field") [(EStr "Touchdown Zone Elevation"); (ESlice (EName "r") (Some (EInt 66)) (Some (EInt 71))); (EAttr (EName "decoder") "field_097")] []); (ECall (EName "Field") [(EStr "File Record No"); (ESlice (EName "r") (Some (EInt 123)) (Some (EInt 128))); (EAttr (EName "decoder") "field_031")] []); (ECall (EName "Field") [(EStr "Cycle Date"); (ESlice (EName "r") (Some (EInt 128)) (Some (EInt 132))); (EAttr (EName "decoder") "field_032")] [])]))]].

(* src/arinc424/definitions/Runway.py *)
Definition py_Runway : pymodule := [
  SFrom "arinc424.decoder" "Field" "Field";
  SImport "arinc424.decoder" "decoder";
  py_Runway_Runway].

(* src/arinc424/definitions/SIDSTARApproach.py:6-171 *)
Definition py_SIDSTARApproach_SIDSTARApproach : stmt :=
  SClass "SIDSTARApproach"
    [SAssign (EName "cont_idx") (EInt 38);
    SAssign (EName "app_idx") (EInt 39);
    SAssign (EName "continuations") (EList [(EStr "E"); (EStr "P"); (EStr "W")]);
    SAssign (EName "name") (EStr "SID/STAR/Approach");
    SDef "application_type" [("self", None); ("line", None)]
      [SReturn (Some (EItem (EName "line") (EAttr (EName "self") "app_idx")))];
    SDef "read" [("self", None); ("line", None); ("primary", None)]
      [SIf (EName "primary")
        [SReturn (Some (ECall (EAttr (EName "self") "read_primary") [(EName "line")] []))]
        [];
      SAssign (EName "application") (EItem (EName "line") (EAttr (EName "self") "app_idx"));
      SMatch (EName "application")
        [(PValue (EStr "E"), [SReturn (Some (ECall (EAttr (EName "self") "read_ext") [(EName "line")] []))]);
        (PValue (EStr "P"), [SReturn (Some (ECall (EAttr (EName "self") "read_flight0") [(EName "line")] []))]);
        (PValue (EStr "W"), [SReturn (Some (ECall (EAttr (EName "self") "read_data") [(EName "line")] []))]);
        (PWild, [SReturn (Some (EList []))])]];
    SDef "read_primary" [("self", None); ("r", None)]
      [SReturn (Some (EList [(ECall (EName "Field") [(EStr "Record Type"); (EItem (EName "r") (EInt 0)); (EAttr (EName "decoder") "field_002")] []); (ECall (EName "Field") [(EStr "Customer / Area Code"); (ESlice (EName "r") (Some (EInt 1)) (Some (EInt 4))); (EAttr (EName "decoder") "field_003")] []); (ECall (EName "Field") [(EStr "Section Code"); (EBin OpAdd (EItem (EName "r") (EInt 4)) (EItem (EName "r") (EInt 12))); (EAttr (EName "decoder") "field_004")] []); (ECall (EName "Field") [(EStr "Airport Identifier"); (ESlice (EName "r") (Some (EInt 6)) (Some (EInt 10))); (EAttr (EName "decoder") "field_006")] []); (ECall (EName "Field") [(EStr "ICAO Code"); (ESlice (EName "r") (Some (EInt 10)) (Some (EInt 12))); (EAttr (EName "decoder") "field_014")] []); (ECall (EName "Field") [(EStr "SID/STAR/Approach Identifier"); (ESlice (EName "r") (Some (EInt 13)) (Some (EInt 19))); (EAttr (EName "decoder") "field_009")] []); (ECall (EName "Field") [(EStr "Route Type"); (EItem (EName "r") (EInt 19)); (EAttr (EName "decoder") "field_007")] []); (ECall (EName "Field") [(EStr "Transition Identifier"); (ESlice (EName "r") (Some (EInt 20)) (Some (EInt 25))); (EAttr (EName "decoder") "field_011")] []); (ECall (EName "Field") [(EStr "Sequence Number"); (ESlice (EName "r") (Some (EInt 26)) (Some (EInt 29))); (EAttr (EName "decoder") "field_012")] []); (ECall (EName "Field") [(EStr "Fix Identifier"); (ESlice (EName "r") (Some (EInt 29)) (Some (EInt 34))); (EAttr (EName "decoder") "field_013")] []); (ECall (EName "Field") [(EStr "ICAO Code (2)"); (ESlice (EName "r") (Some (EInt 34)) (Some (EInt 36))); (EAttr (EName "decoder") "field_014")] []); (ECall (EName "Field") [(EStr "Section Code (2)"); (ESlice (EName "r") (Some (EInt 36)) (Some (EInt 38))); (EAttr (EName "decoder") "field_004")] []); (ECall (EName "Field") [(EStr "Continuation Record No"); (EItem (EName "r") (EInt 38)); (EAttr (EName "decoder") "field_016")] []); (ECall (EName "Field") [(EStr "Waypoint Description Code"); (ESlice (EName "r") (Some (EInt 39)) (Some (EInt 43))); (EAttr (EName "decoder") "field_017")] []); (ECall (EName "Field") [(EStr "Turn Direction"); (EItem (EName "r") (EInt 43)); (EAttr (EName "decoder") "field_020")] []); (ECall (EName "Field") [(EStr "RNP"); (ESlice (EName "r") (Some (EInt 44)) (Some (EInt 47))); (EAttr (EName "decoder") "field_211")] []); (ECall (EName "Field") [(EStr "Path and Termination"); (ESlice (EName "r") (Some (EInt 47)) (Some (EInt 49))); (EAttr (EName "decoder") "field_021")] []); (ECall (EName "Field") [(EStr "Turn Direction Valid"); (EItem (EName "r") (EInt 49)); (EAttr (EName "decoder") "field_022")] []); (ECall (EName "Field") [(EStr "Recommended Navaid"); (ESlice (EName "r") (Some (EInt 50)) (Some (EInt 54))); (EAttr (EName "decoder") "field_023")] []); (ECall (EName "Field") [(EStr "ICAO Code (3)"); (ESlice (EName "r") (Some (EInt 54)) (Some (EInt 56))); (EAttr (EName "decoder") "field_014")] []); (ECall (EName "Field") [(EStr "Arc Radius"); (ESlice (EName "r") (Some (EInt 56)) (Some (EInt 62))); (EAttr (EName "decoder") "field_204")] []); (ECall (EName "Field") [(EStr "Theta"); (ESlice (EName "r") (Some (EInt 62)) (Some (EInt 66))); (EAttr (EName "decoder") "field_024")] []); (ECall (EName "Field") [(EStr "Rho"); (ESlice (EName "r") (Some (EInt 66)) (Some (EInt 70))); (EAttr (EName "decoder") "field_025")] []); (ECall (EName "Field") [(EStr "Magnetic Course"); (ESlice (EName "r") (Some (EInt 70)) (Some (EInt 74))); (EAttr (EName "decoder") "field_026")] []); (ECall (EName "Field") [(EStr "Route / Holding Distance or Time"); (ESlice (EName "r") (Some (EInt 74)) (Some (EInt 78))); (EAttr (EName "decoder") "field_027")] []); (ECall (EName "Field") [(EStr "Recommended Navaid (2)"); (ESlice (EName "r") (Some (EInt 78)) (Some (EInt 80))); (EAttr (EName "decoder") "field_004")] []); (ECall (EName "Field") [(EStr "Altitude Description"); (EItem (EName "r") (EInt 82)); (EAttr (EName "decoder") "field_029")] []); (ECall (EName "Field") [(EStr "ATC Indicator"); (EItem (EName "r") (EInt 83)); (EAttr (EName "decoder") "field_081")] []); (ECall (EName "Field") [(EStr "Altitude"); (ESlice (EName "r") (Some (EInt 84)) (Some (EInt 89))); (EAttr (EName "decoder") "field_030")] []); (ECall (EName "Field") [(EStr "Altitude (2)"); (ESlice (EName "r") (Some (EInt 89)) (Some (EInt 94))); (EAttr (EName "decoder") "field_030")] []); (ECall (EName "Field") [(EStr "Transition Altitude"); (ESlice (EName "r") (Some (EInt 94)) (Some (EInt 99))); (EAttr (EName "decoder") "field_053")] []); (ECall (EName "Field") [(EStr "Speed Limit"); (ESlice (EName "r") (Some (EInt 99)) (Some (EInt 102))); (EAttr (EName "decoder") "field_072")] []); (ECall (EName "Field") [(EStr "Vertical Angle"); (ESlice (EName "r") (Some (EInt 102)) (Some (EInt 106))); (EAttr (EName "decoder") "field_070")] []); (ECall (EName "Field") [(EStr "Center Fix or TAA Procedure Turn Indicator"); (ESlice (EName "r") (Some (EInt 106)) (Some (EInt 111))); (EAttr (EName "decoder") "field_144")] []); (ECall (EName "Field") [(EStr "Multiple Code or TAA Sector Identifier"); (EItem (EName "r") (EInt 111)); (EAttr (EName "decoder") "field_130")] []); (ECall (EName "Field") [(EStr "ICAO Code (4)"); (ESlice (EName "r") (Some (EInt 112)) (Some (EInt 113))); (EAttr (EName "decoder") "field_014")] []); (ECall (EName "Field") [(EStr "Section Code (3)"); (ESlice (EName "r") (Some (EInt 114)) (Some (EInt 116))); (EAttr (EName "decoder") "field_004")] []); (ECall (EName "Field") [(EStr "GNSS/FMS Indication"); (EItem (EName "r") (EInt 116)); (EAttr (EName "decoder") "field_222")] []); (ECall (EName "Field") [(EStr "Speed Limit Description"); (EItem (EName "r") (EInt 117)); (EAttr (EName "decoder") "field_261")] []); (ECall (EName "Field") [(EStr "Apch Route Qualifier 1"); (EItem (EName "r") (EInt 118)); (EAttr (EName "decoder") "field_007")] []); (ECall (EName "Field") [(EStr "Apch Route Qualifier 2"); (EItem (EName "r") (EInt 119)); (EAttr (EName "decoder") "field_007")] []); (ECall (EName "Field") [(EStr "File Record No"); (ESlice (EName "r") (Some (EInt 123)) (Some (EInt 128))); (EAttr (EName "decoder") "field_031")] []); (ECall (EName "Field") [(EStr "Cycle Date"); (ESlice (EName "r") (Some (EInt 128)) (Some (EInt 132))); (EAttr (EName "decoder") "field_032")] [])]))];
    SDef "read_ext" [("self", None); ("r", None)]
      [SReturn (Some (EList [(ECall (EName "Field") [(EStr "Record Type"); (EItem (EName "r") (EInt 0)); (EAttr (EName "decoder") "field_002")] []); (ECall (EName "Field") [(EStr "Customer / Area Code"); (ESlice (EName "r") (Some (EInt 1)) (Some (EInt 4))); (EAttr (EName "decoder") "field_003")] []); (ECall (EName "Field") [(EStr "Section Code"); (EBin OpAdd (EItem (EName "r") (EInt 4)) (EItem (EName "r") (EInt 12))); (EAttr (EName "decoder") "field_004")] []); (ECall (EName "Field") [(EStr "Airport Identifier"); (ESlice (EName "r") (Some (EInt 6)) (Some (EInt 10))); (EAttr (EName "decoder") "field_006")] []); (ECall (EName "Field") [(EStr "ICAO Code"); (ESlice (EName "r") (Some (EInt 10)) (Some (EInt 12))); (EAttr (EName "decoder") "field_014")] []); (ECall (EName "Field") [(EStr "SID/STAR/Approach Identifier"); (ESlice (EName "r") (Some (EInt 13)) (Some (EInt 19))); (EAttr (EName "decoder") "field_009")] []); (ECall (EName "Field") [(EStr "Route Type"); (EItem (EName "r") (EInt 19)); (EAttr (EName "decoder") "field_007")] []); (ECall (EName "Field") [(EStr "Transition Identifier"); (ESlice (EName "r") (Some (EInt 20)) (Some (EInt 25))); (EAttr (EName "decoder") "field_011")] []); (ECall (EName "Field") [(EStr "Sequence Number"); (ESlice (EName "r") (Some (EInt 26)) (Some (EInt 29))); (EAttr (EName "decoder") "field_012")] []); (ECall (EName "Field") [(EStr "Fix Identifier"); (ESlice (EName "r") (Some (EInt 29)) (Some (EInt 34))); (EAttr (EName "decoder") "field_013")] []); (ECall (EName "Field") [(EStr "ICAO Code (2)"); (ESlice (EName "r") (Some (EInt 34)) (Some (EInt 36))); (EAttr (EName "decoder") "field_014")] []); (ECall (EName "Field") [(EStr "Section Code (2)"); (ESlice (EName "r") (Some (EInt 36)) (Some (EInt 38))); (EAttr (EName "decoder") "field_004")] []); (ECall (EName "Field") [(EStr "Continuation Record No"); (EItem (EName "r") (EInt 38)); (EAttr (EName "decoder") "field_016")] []); (ECall (EName "Field") [(EStr "Application Type"); (EItem (EName "r") (EInt 39)); (EAttr (EName "decoder") "field_091")] []); (ECall (EName "Field") [(EStr "CAT A Decision Height"); (ESlice (EName "r") (Some (EInt 40)) (Some (EInt 44))); (EAttr (EName "decoder") "field_170")] []); (ECall (EName "Field") [(EStr "CAT B Decision Height"); (ESlice (EName "r") (Some (EInt 44)) (Some (EInt 48))); (EAttr (EName "decoder") "field_170")] []); (ECall (EName "Field") [(EStr "CAT C Decision Height"); (ESlice (EName "r") (Some (EInt 48)) (Some (EInt 52))); (EAttr (EName "decoder") "field_170")] []); (ECall (EName "Field") [(EStr "CAT D Decision Height"); (ESlice (EName "r") (Some (EInt 52)) (Some (EInt 56))); (EAttr (EName "decoder") "field_170")] []); (ECall (EName "Field") [(EStr "CAT A Minimum Descent Altitude"); (ESlice (EName "r") (Some (EInt 56)) (Some (EInt 60))); (EAttr (EName "decoder") "field_171")] []); (ECall (EName "Field") [(EStr "CAT B Minimum Descent Altitude"); (ESlice (EName "r") (Some (EInt 60)) (Some (EInt 64))); (EAttr (EName "decoder") "field_171")] []); (ECall (EName "Field") [(EStr "CAT C Minimum Descent Altitude"); (ESlice (EName "r") (Some (EInt 64)) (Some (EInt 68))); (EAttr (EName "decoder") "field_171")] []); (ECall (EName "Field") [(EStr "CAT D Minimum Descent Altitude"); (ESlice (EName "r") (Some (EInt 68)) (Some (EInt 72))); (EAttr (EName "decoder") "field_171")] []); (ECall (EName "Field") [(EStr "Procedure TCH"); (ESlice (EName "r") (Some (EInt 72)) (Some (EInt 75))); (EAttr (EName "decoder") "field_067")] []); (ECall (EName "Field") [(EStr "Localizer Only Altitude Desc"); (EItem (EName "r") (EInt 75)); (EAttr (EName "decoder") "field_029")] []); (ECall (EName "Field") [(EStr "Localizer Only Altitude"); (ESlice (EName "r") (Some (EInt 76)) (Some (EInt 81))); (EAttr (EName "decoder") "field_030")] []); (ECall (EName "Field") [(EStr "Localizer Only Vertical Angle"); (ESlice (EName "r") (Some (EInt 81)) (Some (EInt 85))); (EAttr (EName "decoder") "field_070")] []); (ECall (EName "Field") [(EStr "RNP"); (ESlice (EName "r") (Some (EInt 89)) (Some (EInt 92))); (EAttr (EName "decoder") "field_211")] []); (ECall (EName "Field") [(EStr "Apch Route Qualifier 1"); (EItem (EName "r") (EInt 118)); (EAttr (EName "decoder") "field_007")] []); (ECall (EName "Field") [(EStr "Apch Route Qualifier 2"); (EItem (EName "r") (EInt 119)); (EAttr (EName "decoder") "field_007")] []); (ECall (EName "Field") [(EStr "File Record No"); (ESlice (EName "r") (Some (EInt 123)) (Some (EInt 128))); (EAttr (EName "decoder") "field_031")] []); (ECall (EName "Field") [(EStr "Cycle Date"); (ESlice (EName "r") (Some (EInt 128)) (Some (EInt 132))); (EAttr (EName "decoder") "field_032")] [])]))];
    SDef "read_flight0" [("self", None); ("r", None)]
      [SReturn (Some (EList [(ECall (EName "Field") [(EStr "Record Type"); (EItem (EName "r") (EInt 0)); (EAttr (EName "decoder") "field_002")] []); (ECall (EName "Field") [(EStr "Customer / Area Code"); (ESlice (EName "r") (Some (EInt 1)) (Some (EInt 4))); (EAttr (EName "decoder") "field_003")] []); (ECall (EName "Field") [(EStr "Section Code"); (EBin OpAdd (EItem (EName "r") (EInt 4)) (EItem (EName "r") (EInt 12))); (EAttr (EName "decoder") "field_004")] []); (ECall (EName "Field") [(EStr "Airport Identifier"); (ESlice (EName "r") (Some (EInt 6)) (Some (EInt 10))); (EAttr (EName "decoder") "field_006")] []); (ECall (EName "Field") [(EStr "ICAO Code"); (ESlice (EName "r") (Some (EInt 10)) (Some (EInt 12))); (EAttr (EName "decoder") "field_014")] []); (ECall (EName "Field") [(EStr "SID/STAR/Approach Identifier"); (ESlice (EName "r") (Some (EInt 13)) (Some (EInt 19))); (EAttr (EName "decoder") "field_009")] []); (ECall (EName "Field") [(EStr "Route Type"); (EItem (EName "r") (EInt 19)); (EAttr (EName "decoder") "field_007")] []); (ECall (EName "Field") [(EStr "Transition Identifier"); (ESlice (EName "r") (Some (EInt 20)) (Some (EInt 25))); (EAttr (EName "decoder") "field_011")] []); (ECall (EName "Field") [(EStr "Sequence Number"); (ESlice (EName "r") (Some (EInt 26)) (Some (EInt 29))); (EAttr (EName "decoder") "field_012")] []); (ECall (EName "Field") [(EStr "Fix Identifier"); (ESlice (EName "r") (Some (EInt 29)) (Some (EInt 34))); (EAttr (EName "decoder") "field_013")] []); (ECall (EName "Field") [(EStr "ICAO Code (2)"); (ESlice (EName "r") (Some (EInt 34)) (Some (EInt 36))); (EAttr (EName "decoder") "field_014")] []); (ECall (EName "Field") [(EStr "Section Code (2)"); (ESlice (EName "r") (Some (EInt 36)) (Some (EInt 38))); (EAttr (EName "decoder") "field_004")] []); (ECall (EName "Field") [(EStr "Continuation Record No"); (EItem (EName "r") (EInt 38)); (EAttr (EName "decoder") "field_016")] []); (ECall (EName "Field") [(EStr "Application Type"); (EItem (EName "r") (EInt 39)); (EAttr (EName "decoder") "field_091")] []); (ECall (EName "Field") [(EStr "Start/End Indicator"); (EItem (EName "r") (EInt 40)); (EAttr (EName "decoder") "field_152")] []); (ECall (EName "Field") [(EStr "Start/End Date"); (ESlice (EName "r") (Some (EInt 41)) (Some (EInt 45))); (EAttr (EName "decoder") "field_153")] []); (ECall (EName "Field") [(EStr "Leg Distance"); (ESlice (EName "r") (Some (EInt 74)) (Some (EInt 78))); (EAttr (EName "decoder") "field_260")] []); (ECall (EName "Field") [(EStr "File Record No"); (ESlice (EName "r") (Some (EInt 123)) (Some (EInt 128))); (EAttr (EName "decoder") "field_031")] []); (ECall (EName "Field") [(EStr "Cycle Date"); (ESlice (EName "r") (Some (EInt 128)) (Some (EInt 132))); (EAttr (EName "decoder") "field_032")] [])]))];
    SDef "read_data" [("self", None); ("r", None)]
      [SReturn (Some (EList [(ECall (EName "Field") [(EStr "Record Type"); (EItem (EName "r") (EInt 0)); (EAttr (EName "decoder") "field_002")] []); (ECall (EName "Field") [(EStr "Customer / Area Code"); (ESlice (EName "r") (Some (EInt 1)) (Some (EInt 4))); (EAttr (EName "decoder") "field_003")] []); (ECall (EName "Field") [(EStr "Section Code"); (EBin OpAdd (EItem (EName "r") (EInt 4)) (EItem (EName "r") (EInt 12))); (EAttr (EName "decoder") "field_004")] []); (ECall (EName "Field") [(EStr "Airport Identifier"); (ESlice (EName "r") (Some (EInt 6)) (Some (EInt 10))); (EAttr (EName "decoder") "field_006")] []); (ECall (EName "Field") [(EStr "ICAO Code"); (ESlice (EName "r") (Some (EInt 10)) (Some (EInt 12))); (EAttr (EName "decoder") "field_014")] []); (ECall (EName "Field") [(EStr "SID/STAR/Approach Identifier"); (ESlice (EName "r") (Some (EInt 13)) (Some (EInt 19))); (EAttr (EName "decoder") "field_009")] []); (ECall (EName "Field") [(EStr "Route Type"); (EItem (EName "r") (EInt 19)); (EAttr (EName "decoder") "field_007")] []); (ECall (EName "Field") [(EStr "Transition Identifier"); (ESlice (EName "r") (Some (EInt 20)) (Some (EInt 25))); (EAttr (EName "decoder") "field_011")] []); (ECall (EName "Field") [(EStr "Sequence Number"); (ESlice (EName "r") (Some (EInt 26)) (Some (EInt 29))); (EAttr (EName "decoder") "field_012")] []); (ECall (EName "Field") [(EStr "Fix Identifier"); (ESlice (EName "r") (Some (EInt 29)) (Some (EInt 34))); (EAttr (EName "decoder") "field_013")] []); (ECall (EName "Field") [(EStr "ICAO Code (2)"); (ESlice (EName "r") (Some (EInt 34)) (Some (EInt 36))); (EAttr (EName "decoder") "field_014")] []); (ECall (EName "Field") [(EStr "Section Code (2)"); (ESlice (EName "r") (Some (EInt 36)) (Some (EInt 38))); (EAttr (EName "decoder") "field_004")] []); (ECall (EName "Field") [(EStr "Continuation Record No"); (EItem (EName "r") (EInt 38)); (EAttr (EName "decoder") "field_016")] []); (ECall (EName "Field") [(EStr "Application Type"); (EItem (EName "r") (EInt 39)); (EAttr (EName "decoder") "field_091")] []); (ECall (EName "Field") [(EStr "FAS Block Provided"); (EItem (EName "r") (EInt 40)); (EAttr (EName "decoder") "field_276")] []); (ECall (EName "Field") [(EStr "FAS Block Provided Level of Service Name"); (ESlice (EName "r") (Some (EInt 41)) (Some (EInt 51))); (EAttr (EName "decoder") "field_275")] []); (ECall (EName "Field") [(EStr "LNAV/VNAV Authorized for SBAS"); (EItem (EName "r") (EInt 51)); (EAttr (EName "decoder") "field_276")] []); (ECall (EName "Field") [(EStr "LNAV/VNAV Level of Service Name"); (ESlice (EName "r") (Some (EInt 52)) (Some (EInt 62))); (EAttr (EName "decoder") "field_275")] []); (ECall (EName "Field") [(EStr "LNAV Authorized for SBAS"); (EItem (EName "r") (EInt 62)); (EAttr (EName "decoder") "field_276")] []); (ECall (EName "Field") [(EStr "LNAV Level of Service Name"); (ESlice (EName "r") (Some (EInt 63)) (Some (EInt 73))); (EAttr (EName "decoder") "field_275")] []); (ECall (EName "Field") [(EStr "Apch Route Qualifier 1"); (EItem (EName "r") (EInt 118)); (EAttr (EName "decoder") "field_007")] []); (ECall (EName "Field") [(EStr "Apch Route Qualifier 2"); (EItem (EName "r") (EInt 119)); (EAttr (EName "decoder") "field_007")] []); (ECall (EName "Field") [(EStr "File Record No"); (ESlice (EName "r") (Some (EInt 123)) (Some (EInt 128))); (EAttr (EName "decoder") "field_031")] []); (ECall (EName "Field") [(EStr "Cycle Date"); (ESlice (EName "r") (Some (EInt 128)) (Some (EInt 132))); (EAttr (EName "decoder") "field_032")] [])]))]].

(* src/arinc424/definitions/SIDSTARApproach.py *)
Definition py_SIDSTARApproach : pymodule := [
  SFrom "arinc424.decoder" "Field" "Field";
  SImport "arinc424.decoder" "decoder";
  py_SIDSTARApproach_SIDSTARApproach].

(* src/arinc424/definitions/TAA.py:6-94 *)
Definition py_TAA_TAA : stmt :=
  SClass "TAA"
    [SAssign (EName "cont_idx") (EInt 29);
    SAssign (EName "app_idx") (EInt 30);
    SAssign (EName "continuations") (EList [(EStr "A")]);
    SAssign (EName "name") (EStr "TAA");
    SDef "application_type" [("self", None); ("line", None)]
      [SReturn (Some (EItem (EName "line") (EAttr (EName "self") "app_idx")))];
    SDef "__init__" [("self", None); ("heliport", (Some (EBool false)))]
      [SAssign (EAttr (EName "self") "heliport") (EName "heliport");
      SIf (ECmp CmpIs (EAttr (EName "self") "heliport") (EBool false))
        [SAssign (EAttr (EName "self") "id_name") (EStr "Airport Identifier")]
        [SAssign (EAttr (EName "self") "id_name") (EStr "Heliport Identifier")]];
    SDef "read" [("self", None); ("line", None); ("primary", None)]
      [SIf (EName "primary")
        [SReturn (Some (ECall (EAttr (EName "self") "read_primary") [(EName "line")] []))]
        [];
      SAssign (EName "application") (EItem (EName "line") (EAttr (EName "self") "app_idx"));
      SMatch (EName "application")
        [(PValue (EStr "A"), [SReturn (Some (ECall (EAttr (EName "self") "read_cont") [(EName "line")] []))]);
        (PWild, [SReturn (Some (EList []))])]];
    SDef "read_primary" [("self", None); ("r", None)]
      [SReturn (Some (EList [(ECall (EName "Field") [(EStr "Record Type"); (EItem (EName "r") (EInt 0)); (EAttr (EName "decoder") "field_002")] []); (ECall (EName "Field") [(EStr "Customer / Area Code"); (ESlice (EName "r") (Some (EInt 1)) (Some (EInt 4))); (EAttr (EName "decoder") "field_003")] []); (ECall (EName "Field") [(EStr "Section Code"); (EBin OpAdd (EItem (EName "r") (EInt 4)) (EItem (EName "r") (EInt 12))); (EAttr (EName "decoder") "field_004")] []); (ECall (EName "Field") [(EAttr (EName "self") "id_name"); (ESlice (EName "r") (Some (EInt 6)) (Some (EInt 10))); (EAttr (EName "decoder") "field_006")] []); (ECall (EName "Field") [(EStr "ICAO Code"); (ESlice (EName "r") (Some (EInt 10)) (Some (EInt 12))); (EAttr (EName "decoder") "field_014")] []); (ECall (EName "Field") [(EStr "Approach Identifier"); (ESlice (EName "r") (Some (EInt 13)) (Some (EInt 19))); (EAttr (EName "decoder") "field_010")] []); (ECall (EName "Field") [(EStr "TAA Waypoint"); (ESlice (EName "r") (Some (EInt 19)) (Some (EInt 24))); (EAttr (EName "decoder") "field_273")] []); (ECall (EName "Field") [(EStr "TAA Procedure Turn"); (ESlice (EName "r") (Some (EInt 20)) (Some (EInt 24))); (EAttr (EName "decoder") "field_271")] []); (ECall (EName "Field") [(EStr "ICAO Code (2)"); (ESlice (EName "r") (Some (EInt 24)) (Some (EInt 26))); (EAttr (EName "decoder") "field_014")] []); (ECall (EName "Field") [(EStr "Section Code (2)"); (ESlice (EName "r") (Some (EInt 26)) (Some (EInt 28))); (EAttr (EName "decoder") "field_004")] []); (ECall (EName "Field") [(EStr "TAA Fix Position Indicator"); (EItem (EName "r") (EInt 28)); (EAttr (EName "decoder") "field_272")] []); (ECall (EName "Field") [(EStr "Continuation Record No"); (EItem (EName "r") (EInt 29)); (EAttr (EName "decoder") "field_016")] []); (ECall (EName "Field") [(EStr "Mag/True Indicator"); (EItem (EName "r") (EInt 40)); (EAttr (EName "decoder") "field_165")] []); (ECall (EName "Field") [(EStr "Sector Radius"); (ESlice (EName "r") (Some (EInt 41)) (Some (EInt 45))); (EAttr (EName "decoder") "field_274")] []); (ECall (EName "Field") [(EStr "Sector Bearing"); (ESlice (EName "r") (Some (EInt 45)) (Some (EInt 51))); (EAttr (EName "decoder") "field_146")] []); (ECall (EName "Field") [(EStr "Sector Minimum Altitude"); (ESlice (EName "r") (Some (EInt 51)) (Some (EInt 54))); (EAttr (EName "decoder") "field_147")] []); (ECall (EName "Field") [(EStr "Sector Radius (2)"); (ESlice (EName "r") (Some (EInt 54)) (Some (EInt 58))); (EAttr (EName "decoder") "field_274")] []); (ECall (EName "Field") [(EStr "Sector Bearing (2)"); (ESlice (EName "r") (Some (EInt 58)) (Some (EInt 64))); (EAttr (EName "decoder") "field_146")] []); (ECall (EName "Field") [(EStr "Sector Minimum Altitude (2)"); (ESlice (EName "r") (Some (EInt 64)) (Some (EInt 67))); (EAttr (EName "decoder") "field_147")] []); (ECall (EName "Field") [(EStr "Sector Radius (3)"); (ESlice (EName "r") (Some (EInt 67)) (Some (EInt 71))); (EAttr (EName "decoder") "field_274")] []); (ECall (EName "Field") [(EStr "Sector Bearing (3)"); (ESlice (EName "r") (Some (EInt 71)) (Some (EInt 77))); (EAttr (EName "decoder") "field_146")] []); (ECall (EName "Field") [(EStr "Sector Minimum Altitude (3)"); (ESlice (EName "r") (Some (EInt 77)) (Some (EInt 80))); (EAttr (EName "decoder") "field_147")] []); (ECall (EName "Field") [(EStr "Sector Radius (4)"); (ESlice (EName "r") (Some (EInt 80)) (Some (EInt 84))); (EAttr (EName "decoder") "field_274")] []); (ECall (EName "Field") [(EStr "Sector Bearing (4)"); (ESlice (EName "r") (Some (EInt 84)) (Some (EInt 90))); (EAttr (EName "decoder") "field_146")] []); (ECall (EName "Field") [(EStr "Sector Minimum Altitude (4)"); (ESlice (EName "r") (Some (EInt 90)) (Some (EInt 93))); (EAttr (EName "decoder") "field_147")] []); (ECall (EName "Field") [(EStr "Sector Radius (5)"); (ESlice (EName "r") (Some (EInt 93)) (Some (EInt 97))); (EAttr (EName "decoder") "field_274")] []); (ECall (EName "Field") [(EStr "Sector Bearing (5)"); (ESlice (EName "r") (Some (EInt 97)) (Some (EInt 103))); (EAttr (EName "decoder") "field_146")] []); (ECall (EName "Field") [(EStr "Sector Minimum Altitude (5)"); (ESlice (EName "r") (Some (EInt 103)) (Some (EInt 106))); (EAttr (EName "decoder") "field_147")] []); (ECall (EName "Field") [(EStr "Sector Radius (6)"); (ESlice (EName "r") (Some (EInt 106)) (Some (EInt 110))); (EAttr (EName "decoder") "field_274")] []); (ECall (EName "Field") [(EStr "Sector Bearing (6)"); (ESlice (EName "r") (Some (EInt 110)) (Some (EInt 116))); (EAttr (EName "decoder") "field_146")] []); (ECall (EName "Field") [(EStr "Sector Minimum Altitude (6)"); (ESlice (EName "r") (Some (EInt 116)) (Some (EInt 119))); (EAttr (EName "decoder") "field_147")] []); (ECall (EName "Field") [(EStr "File Record No"); (ESlice (EName "r") (Some (EInt 123)) (Some (EInt 128))); (EAttr (EName "decoder") "field_031")] []); (ECall (EName "Field") [(EStr "Cycle Date"); (ESlice (EName "r") (Some (EInt 128)) (Some (EInt 132))); (EAttr (EName "decoder") "field_032")] [])]))];
    SDef "read_cont" [("self", None); ("r", None)]
      [SReturn (Some (EList [(ECall (EName "Field") [(EStr "Record Type"); (EItem (EName "r") (EInt 0)); (EAttr (EName "decoder") "field_002")] []); (ECall (EName "Field") [(EStr "Customer / Area Code"); (ESlice (EName "r") (Some (EInt 1)) (Some (EInt 4))); (EAttr (EName "decoder") "field_003")] []); (ECall (EName "Field") [(EStr "Section Code"); (EBin OpAdd (EItem (EName "r") (EInt 4)) (EItem (EName "r") (EInt 12))); (EAttr (EName "decoder") "field_004")] []); (ECall (EName "Field") [(EAttr (EName "self") "id_name"); (ESlice (EName "r") (Some (EInt 6)) (Some (EInt 10))); (EAttr (EName "decoder") "field_006")] []); (ECall (EName "Field") [(EStr "ICAO Code"); (ESlice (EName "r") (Some (EInt 10)) (Some (EInt 12))); (EAttr (EName "decoder") "field_014")] []); (ECall (EName "Field") [(EStr "Approach Identifier"); (ESlice (EName "r") (Some (EInt 13)) (Some (EInt 19))); (EAttr (EName "decoder") "field_010")] []); (ECall (EName "Field") [(EStr "TAA Sector Identifier"); (EItem (EName "r") (EInt 19)); (EAttr (EName "decoder") "field_272")] []); (ECall (EName "Field") [(EStr "TAA Procedure Turn"); (ESlice (EName "r") (Some (EInt 20)) (Some (EInt 24))); (EAttr (EName "decoder") "field_271")] []); (ECall (EName "Field") [(EStr "TAA IAF Waypoint"); (ESlice (EName "r") (Some (EInt 29)) (Some (EInt 34))); (EAttr (EName "decoder") "field_273")] []); (ECall (EName "Field") [(EStr "ICAO Code (2)"); (ESlice (EName "r") (Some (EInt 10)) (Some (EInt 12))); (EAttr (EName "decoder") "field_014")] []); (ECall (EName "Field") [(EStr "Section Code (2)"); (ESlice (EName "r") (Some (EInt 36)) (Some (EInt 38))); (EAttr (EName "decoder") "field_004")] []); (ECall (EName "Field") [(EStr "Continuation Record No"); (EItem (EName "r") (EInt 38)); (EAttr (EName "decoder") "field_016")] []); (ECall (EName "Field") [(EStr "Application Notes"); (EItem (EName "r") (EInt 39)); (EAttr (EName "decoder") "field_091")] []); (ECall (EName "Field") [(EStr "Notes"); (ESlice (EName "r") (Some (EInt 50)) (Some (EInt 109))); (EAttr (EName "decoder") "field_061")] []); (ECall (EName "Field") [(EStr "File Record No"); (ESlice (EName "r") (Some (EInt 123)) (Some (EInt 128))); (EAttr (EName "decoder") "field_031")] []); (ECall (EName "Field") [(EStr "Cycle Date"); (ESlice (EName "r") (Some (EInt 128)) (Some (EInt 132))); (EAttr (EName "decoder") "field_032")] [])]))]].

(* src/arinc424/definitions/TAA.py *)
Definition py_TAA : pymodule := [
  SFrom "arinc424.decoder" "Field" "Field";
  SImport "arinc424.decoder" "decoder";
  py_TAA_TAA].

(* src/arinc424/definitions/VHFNavaid.py:17-202 *)
Definition py_VHFNavaid_VHFNavaid : stmt :=
  SClass "VHFNavaid"
    [SAssign (EName "cont_idx") (EInt 21);
    SAssign (EName "app_idx") (EInt 22);
    SAssign (EName "continuations") (EList [(EStr "A"); (EStr "L"); (EStr "P"); (EStr "S")]);
    SAssign (EName "name") (EStr "VHF Navaid");
    SDef "application_type" [("self", None); ("line", None)]
      [SReturn (Some (EItem (EName "line") (EAttr (EName "self") "app_idx")))];
    SDef "read" [("self", None); ("line", None); ("primary", None)]
      [SIf (EName "primary")
        [SReturn (Some (ECall (EAttr (EName "self") "read_primary") [(EName "line")] []))]
        [];
      SAssign (EName "application") (EItem (EName "line") (EAttr (EName "self") "app_idx"));
      SMatch (EName "application")
        [(PValue (EStr "A"), [SReturn (Some (ECall (EAttr (EName "self") "read_cont") [(EName "line")] []))]);
        (PValue (EStr "L"), [SReturn (Some (ECall (EAttr (EName "self") "read_lim") [(EName "line")] []))]);
        (PValue (EStr "P"), [SReturn (Some (ECall (EAttr (EName "self") "read_flight_plan0") [(EName "line")] []))]);
        (PValue (EStr "S"), [SReturn (Some (ECall (EAttr (EName "self") "read_sim") [(EName "line")] []))]);
        (PWild, [SReturn (Some (EList []))])]];
    SDef "read_primary" [("self", None); ("r", None)]
      [SReturn (Some (EList [(ECall (EName "Field") [(EStr "Record Type"); (EItem (EName "r") (EInt 0)); (EAttr (EName "decoder") "field_002")] []); (ECall (EName "Field") [(EStr "Customer / Area Code"); (ESlice (EName "r") (Some (EInt 1)) (Some (EInt 4))); (EAttr (EName "decoder") "field_003")] []); (ECall (EName "Field") [(EStr "Section Code"); (ESlice (EName "r") (Some (EInt 4)) (Some (EInt 6))); (EAttr (EName "decoder") "field_004")] []); (ECall (EName "Field") [(EStr "Airport ICAO Identifier"); (ESlice (EName "r") (Some (EInt 6)) (Some (EInt 10))); (EAttr (EName "decoder") "field_006")] []); (ECall (EName "Field") [(EStr "ICAO Code"); (ESlice (EName "r") (Some (EInt 10)) (Some (EInt 12))); (EAttr (EName "decoder") "field_014")] []); (ECall (EName "Field") [(EStr "VOR Identifier"); (ESlice (EName "r") (Some (EInt 13)) (Some (EInt 17))); (EAttr (EName "decoder") "field_033")] []); (ECall (EName "Field") [(EStr "ICAO Code (2)"); (ESlice (EName "r") (Some (EInt 19)) (Some (EInt 21))); (EAttr (EName "decoder") "field_014")] []); (ECall (EName "Field") [(EStr "Continuation Record No"); (EItem (EName "r") (EInt 21)); (EAttr (EName "decoder") "field_016")] []); (ECall (EName "Field") [(EStr "Frequency"); (ESlice (EName "r") (Some (EInt 22)) (Some (EInt 27))); (EAttr (EName "decoder") "field_034")] []); (ECall (EName "Field") [(EStr "Class"); (ESlice (EName "r") (Some (EInt 27)) (Some (EInt 29))); (EAttr (EName "decoder") "field_035")] []); (ECall (EName "Field") [(EStr "VOR Latitude"); (ESlice (EName "r") (Some (EInt 32)) (Some (EInt 41))); (EAttr (EName "decoder") "field_036")] []); (ECall (EName "Field") [(EStr "VOR Longitude"); (ESlice (EName "r") (Some (EInt 41)) (Some (EInt 51))); (EAttr (EName "decoder") "field_037")] []); (ECall (EName "Field") [(EStr "DME Ident"); (ESlice (EName "r") (Some (EInt 51)) (Some (EInt 55))); (EAttr (EName "decoder") "field_038")] []); (ECall (EName "Field") [(EStr "DME Latitude"); (ESlice (EName "r") (Some (EInt 55)) (Some (EInt 64))); (EAttr (EName "decoder") "field_036")] []); (ECall (EName "Field") [(EStr "DME Longitude"); (ESlice (EName "r") (Some (EInt 64)) (Some (EInt 74))); (EAttr (EName "decoder") "field_037")] []); (ECall (EName "Field") [(EStr "Station Declination"); (ESlice (EName "r") (Some (EInt 74)) (Some (EInt 79))); (EAttr (EName "decoder") "field_066")] []); (ECall (EName "Field") [(EStr "DME Elevation"); (ESlice (EName "r") (Some (EInt 79)) (Some (EInt 84))); (EAttr (EName "decoder") "field_040")] []); (ECall (EName "Field") [(EStr "Figure of Merit"); (EItem (EName "r") (EInt 84)); (EAttr (EName "decoder") "field_149")] []); (ECall (EName "Field") [(EStr "ILS/DME Bias"); (ESlice (EName "r") (Some (EInt 85)) (Some (EInt 87))); (EAttr (EName "decoder") "field_090")] []); (ECall (EName "Field") [(EStr "Frequency Protection"); (ESlice (EName "r") (Some (EInt 87)) (Some (EInt 90))); (EAttr (EName "decoder") "field_150")] []); (ECall (EName "Field") [(EStr "Datum Code"); (ESlice (EName "r") (Some (EInt 90)) (Some (EInt 93))); (EAttr (EName "decoder") "field_197")] []); (ECall (EName "Field") [(EStr "VOR Name"); (ESlice (EName "r") (Some (EInt 93)) (Some (EInt 123))); (EAttr (EName "decoder") "field_071")] []); (ECall (EName "Field") [(EStr "File Record No"); (ESlice (EName "r") (Some (EInt 123)) (Some (EInt 128))); (EAttr (EName "decoder") "field_031")] []); (ECall (EName "Field") [(EStr "Cycle Date"); (ESlice (EName "r") (Some (EInt 128)) (Some (EInt 132))); (EAttr (EName "decoder") "field_032")] [])]))];
    SDef "read_cont" [("self", None); ("r", None)]
      [SReturn (Some (EList [(ECall (EName "Field") [(EStr "Record Type"); (EItem (EName "r") (EInt 0)); (EAttr (EName "decoder") "field_002")] []); (ECall (EName "Field") [(EStr "Customer / Area Code"); (ESlice (EName "r") (Some (EInt 1)) (Some (EInt 4))); (EAttr (EName "decoder") "field_003")] []); (ECall (EName "Field") [(EStr "Section Code"); (ESlice (EName "r") (Some (EInt 4)) (Some (EInt 6))); (EAttr (EName "decoder") "field_004")] []); (ECall (EName "Field") [(EStr "Airport ICAO Identifier"); (ESlice (EName "r") (Some (EInt 6)) (Some (EInt 10))); (EAttr (EName "decoder") "field_006")] []); (ECall (EName "Field") [(EStr "ICAO Code"); (ESlice (EName "r") (Some (EInt 10)) (Some (EInt 12))); (EAttr (EName "decoder") "field_014")] []); (ECall (EName "Field") [(EStr "VOR Identifier"); (ESlice (EName "r") (Some (EInt 13)) (Some (EInt 17))); (EAttr (EName "decoder") "field_033")] []); (ECall (EName "Field") [(EStr "ICAO Code (2)"); (ESlice (EName "r") (Some (EInt 19)) (Some (EInt 21))); (EAttr (EName "decoder") "field_014")] []); (ECall (EName "Field") [(EStr "Continuation Record No"); (EItem (EName "r") (EInt 21)); (EAttr (EName "decoder") "field_016")] []); (ECall (EName "Field") [(EStr "Application Type"); (EItem (EName "r") (EInt 22)); (EAttr (EName "decoder") "field_091")] []); (ECall (EName "Field") [(EStr "Notes"); (ESlice (EName "r") (Some (EInt 23)) (Some (EInt 92))); (EAttr (EName "decoder") "field_061")] []); (ECall (EName "Field") [(EStr "File Record No"); (ESlice (EName "r") (Some (EInt 123)) (Some (EInt 128))); (EAttr (EName "decoder") "field_031")] []); (ECall (EName "Field") [(EStr "Cycle Date"); (ESlice (EName "r") (Some (EInt 128)) (Some (EInt 132))); (EAttr (EName "decoder") "field_032")] [])]))];
    SDef "read_sim" [("self", None); ("r", None)]
      [SReturn (Some (EList [(ECall (EName "Field") [(EStr "Record Type"); (EItem (EName "r") (EInt 0)); (EAttr (EName "decoder") "field_002")] []); (ECall (EName "Field") [(EStr "Customer / Area Code"); (ESlice (EName "r") (Some (EInt 1)) (Some (EInt 4))); (EAttr (EName "decoder") "field_003")] []); (ECall (EName "Field") [(EStr "Section Code"); (ESlice (EName "r") (Some (EInt 4)) (Some (EInt 6))); (EAttr (EName "decoder") "field_004")] []); (ECall (EName "Field") [(EStr "Airport ICAO Identifier"); (ESlice (EName "r") (Some (EInt 6)) (Some (EInt 10))); (EAttr (EName "decoder") "field_006")] []); (ECall (EName "Field") [(EStr "ICAO Code"); (ESlice (EName "r") (Some (EInt 10)) (Some (EInt 12))); (EAttr (EName "decoder") "field_014")] []); (ECall (EName "Field") [(EStr "VOR Identifier"); (ESlice (EName "r") (Some (EInt 13)) (Some (EInt 17))); (EAttr (EName "decoder") "field_033")] []); (ECall (EName "Field") [(EStr "ICAO Code (2)"); (ESlice (EName "r") (Some (EInt 19)) (Some (EInt 21))); (EAttr (EName "decoder") "field_014")] []); (ECall (EName "Field") [(EStr "Continuation Record No"); (EItem (EName "r") (EInt 21)); (EAttr (EName "decoder") "field_016")] []); (ECall (EName "Field") [(EStr "Application Type"); (EItem (EName "r") (EInt 22)); (EAttr (EName "decoder") "field_091")] []); (ECall (EName "Field") [(EStr "Facility Characteristics"); (ESlice (EName "r") (Some (EInt 27)) (Some (EInt 32))); (EAttr (EName "decoder") "field_093")] []); (ECall (EName "Field") [(EStr "Magnetic Variation"); (ESlice (EName "r") (Some (EInt 74)) (Some (EInt 79))); (EAttr (EName "decoder") "field_039")] []); (ECall (EName "Field") [(EStr "Facility Elevation"); (ESlice (EName "r") (Some (EInt 79)) (Some (EInt 84))); (EAttr (EName "decoder") "field_092")] []); (ECall (EName "Field") [(EStr "File Record No"); (ESlice (EName "r") (Some (EInt 123)) (Some (EInt 128))); (EAttr (EName "decoder") "field_031")] []); (ECall (EName "Field") [(EStr "Cycle Date"); (ESlice (EName "r") (Some (EInt 128)) (Some (EInt 132))); (EAttr (EName "decoder") "field_032")] [])]))];
    SDef "read_flight_plan0" [("self", None); ("r", None)]
      [SReturn (Some (EList [(ECall (EName "Field") [(EStr "Record Type"); (EItem (EName "r") (EInt 0)); (EAttr (EName "decoder") "field_002")] []); (ECall (EName "Field") [(EStr "Customer / Area Code"); (ESlice (EName "r") (Some (EInt 1)) (Some (EInt 4))); (EAttr (EName "decoder") "field_003")] []); (ECall (EName "Field") [(EStr "Section Code"); (ESlice (EName "r") (Some (EInt 4)) (Some (EInt 6))); (EAttr (EName "decoder") "field_004")] []); (ECall (EName "Field") [(EStr "Airport ICAO Identifier"); (ESlice (EName "r") (Some (EInt 6)) (Some (EInt 10))); (EAttr (EName "decoder") "field_006")] []); (ECall (EName "Field") [(EStr "ICAO Code"); (ESlice (EName "r") (Some (EInt 10)) (Some (EInt 12))); (EAttr (EName "decoder") "field_014")] []); (ECall (EName "Field") [(EStr "VOR Identifier"); (ESlice (EName "r") (Some (EInt 13)) (Some (EInt 17))); (EAttr (EName "decoder") "field_033")] []); (ECall (EName "Field") [(EStr "ICAO Code (2)"); (ESlice (EName "r") (Some (EInt 19)) (Some (EInt 21))); (EAttr (EName "decoder") "field_014")] []); (ECall (EName "Field") [(EStr "Continuation Record No"); (EItem (EName "r") (EInt 21)); (EAttr (EName "decoder") "field_016")] []); (ECall (EName "Field") [(EStr "Application Type"); (EItem (EName "r") (EInt 22)); (EAttr (EName "decoder") "field_091")] []); (ECall (EName "Field") [(EStr "FIR Identifier"); (ESlice (EName "r") (Some (EInt 23)) (Some (EInt 27))); (EAttr (EName "decoder") "field_116")] []); (ECall (EName "Field") [(EStr "UIR Identifier"); (ESlice (EName "r") (Some (EInt 28)) (Some (EInt 31))); (EAttr (EName "decoder") "field_116")] []); (ECall (EName "Field") [(EStr "Start/End Indicator"); (EItem (EName "r") (EInt 32)); (EAttr (EName "decoder") "field_152")] []); (ECall (EName "Field") [(EStr "Start/End Date"); (ESlice (EName "r") (Some (EInt 32)) (Some (EInt 43))); (EAttr (EName "decoder") "field_153")] []); (ECall (EName "Field") [(EStr "File Record No"); (ESlice (EName "r") (Some (EInt 123)) (Some (EInt 128))); (EAttr (EName "decoder") "field_031")] []); (ECall (EName "Field") [(EStr "Cycle Date"); (ESlice (EName "r") (Some (EInt 128)) (Some (EInt 132))); (EAttr (EName "decoder") "field_032")] [])]))];
    SDef "read_flight_plan1" [("self", None); ("r", None)]
      [SReturn (Some (EList [(ECall (EName "Field") [(EStr "Record Type"); (EItem (EName "r") (EInt 0)); (EAttr (EName "decoder") "field_002")] []); (ECall (EName "Field") [(EStr "Customer / Area Code"); (ESlice (EName "r") (Some (EInt 1)) (Some (EInt 4))); (EAttr (EName "decoder") "field_003")] []); (ECall (EName "Field") [(EStr "Section Code"); (ESlice (EName "r") (Some (EInt 4)) (Some (EInt 6))); (EAttr (EName "decoder") "field_004")] []); (ECall (EName "Field") [(EStr "Airport ICAO Identifier"); (ESlice (EName "r") (Some (EInt 6)) (Some (EInt 10))); (EAttr (EName "decoder") "field_006")] []); (ECall (EName "Field") [(EStr "ICAO Code"); (ESlice (EName "r") (Some (EInt 10)) (Some (EInt 12))); (EAttr (EName "decoder") "field_014")] []); (ECall (EName "Field") [(EStr "VOR Identifier"); (ESlice (EName "r") (Some (EInt 13)) (Some (EInt 17))); (EAttr (EName "decoder") "field_033")] []); (ECall (EName "Field") [(EStr "ICAO Code (2)"); (ESlice (EName "r") (Some (EInt 19)) (Some (EInt 21))); (EAttr (EName "decoder") "field_014")] []); (ECall (EName "Field") [(EStr "Continuation Record No"); (EItem (EName "r") (EInt 21)); (EAttr (EName "decoder") "field_016")] []); (ECall (EName "Field") [(EStr "Frequency"); (ESlice (EName "r") (Some (EInt 22)) (Some (EInt 27))); (EAttr (EName "decoder") "field_034")] []); (ECall (EName "Field") [(EStr "Class"); (ESlice (EName "r") (Some (EInt 27)) (Some (EInt 29))); (EAttr (EName "decoder") "field_035")] []); (ECall (EName "Field") [(EStr "VOR Latitude"); (ESlice (EName "r") (Some (EInt 32)) (Some (EInt 41))); (EAttr (EName "decoder") "field_036")] []); (ECall (EName "Field") [(EStr "VOR Longitude"); (ESlice (EName "r") (Some (EInt 41)) (Some (EInt 51))); (EAttr (EName "decoder") "field_037")] []); (ECall (EName "Field") [(EStr "DME Ident"); (ESlice (EName "r") (Some (EInt 51)) (Some (EInt 55))); (EAttr (EName "decoder") "field_038")] []); (ECall (EName "Field") [(EStr "DME Latitude"); (ESlice (EName "r") (Some (EInt 55)) (Some (EInt 64))); (EAttr (EName "decoder") "field_036")] []); (ECall (EName "Field") [(EStr "DME Longitude"); (ESlice (EName "r") (Some (EInt 64)) (Some (EInt 74))); (EAttr (EName "decoder") "field_037")] []); (ECall (EName "Field") [(EStr "Station Declination"); (ESlice (EName "r") (Some (EInt 74)) (Some (EInt 79))); (EAttr (EName "decoder") "field_066")] []); (ECall (EName "Field") [(EStr "DME Elevation"); (ESlice (EName "r") (Some (EInt 79)) (Some (EInt 84))); (EAttr (EName "decoder") "field_040")] []); (ECall (EName "Field") [(EStr "Figure of Merit"); (EItem (EName "r") (EInt 84)); (EAttr (EName "decoder") "field_149")] []); (ECall (EName "Field") [(EStr "ILS/DME Bias"); (ESlice (EName "r") (Some (EInt 85)) (Some (EInt 87))); (EAttr (EName "decoder") "field_090")] []); (ECall (EName "Field") [(EStr "Frequency Protection"); (ESlice (EName "r") (Some (EInt 87)) (Some (EInt 90))); (EAttr (EName "decoder") "field_150")] []); (ECall (EName "Field") [(EStr "Datum Code"); (ESlice (EName "r") (Some (EInt 90)) (Some (EInt 93))); (EAttr (EName "decoder") "field_197")] []); (ECall (EName "Field") [(EStr "VOR Name"); (ESlice (EName "r") (Some (EInt 93)) (Some (EInt 123))); (EAttr (EName "decoder") "field_071")] []); (ECall (EName "Field") [(EStr "File Record No"); (ESlice (EName "r") (Some (EInt 123)) (Some (EInt 128))); (EAttr (EName "decoder") "field_031")] []); (ECall (EName "Field") [(EStr "Cycle Date"); (ESlice (EName "r") (Some (EInt 128)) (Some (EInt 132))); (EAttr (EName "decoder") "field_032")] [])]))];
    SDef "read_lim" [("self", None); ("r", None)]
      [SReturn (Some (EList [(ECall (EName "Field") [(EStr "Record Type"); (EItem (EName "r") (EInt 0)); (EAttr (EName "decoder") "field_002")] []); (ECall (EName "Field") [(EStr "Customer / Area Code"); (ESlice (EName "r") (Some (EInt 1)) (Some (EInt 4))); (EAttr (EName "decoder") "field_003")] []); (ECall (EName "Field") [(EStr "Section Code"); (ESlice (EName "r") (Some (EInt 4)) (Some (EInt 6))); (EAttr (EName "decoder") "field_004")] []); (ECall (EName "Field") [(EStr "Airport ICAO Identifier"); (ESlice (EName "r") (Some (EInt 6)) (Some (EInt 10))); (EAttr (EName "decoder") "field_006")] []); (ECall (EName "Field") [(EStr "ICAO Code"); (ESlice (EName "r") (Some (EInt 10)) (Some (EInt 12))); (EAttr (EName "decoder") "field_014")] []); (ECall (EName "Field") [(EStr "VOR Identifier"); (ESlice (EName "r") (Some (EInt 13)) (Some (EInt 17))); (EAttr (EName "decoder") "field_033")] []); (ECall (EName "Field") [(EStr "ICAO Code (2)"); (ESlice (EName "r") (Some (EInt 19)) (Some (EInt 21))); (EAttr (EName "decoder") "field_014")] []); (ECall (EName "Field") [(EStr "Continuation Record No"); (EItem (EName "r") (EInt 21)); (EAttr (EName "decoder") "field_016")] []); (ECall (EName "Field") [(EStr "Application Type"); (EItem (EName "r") (EInt 22)); (EAttr (EName "decoder") "field_091")] []); (ECall (EName "Field") [(EStr "Navaid Limitation Code"); (EItem (EName "r") (EInt 23)); (EAttr (EName "decoder") "field_205")] []); (ECall (EName "Field") [(EStr "Component Affected Indicator"); (EItem (EName "r") (EInt 24)); (EAttr (EName "decoder") "field_206")] []); (ECall (EName "Field") [(EStr "Sequence Number"); (ESlice (EName "r") (Some (EInt 25)) (Some (EInt 27))); (EAttr (EName "decoder") "field_012")] []); (ECall (EName "Field") [(EStr "Sector From/Sector To"); (ESlice (EName "r") (Some (EInt 27)) (Some (EInt 29))); (EAttr (EName "decoder") "field_207")] []); (ECall (EName "Field") [(EStr "Distance Description"); (EItem (EName "r") (EInt 29)); (EAttr (EName "decoder") "field_187")] []); (ECall (EName "Field") [(EStr "Distance Limitation"); (ESlice (EName "r") (Some (EInt 30)) (Some (EInt 36))); (EAttr (EName "decoder") "field_208")] []); (ECall (EName "Field") [(EStr "Altitude Description"); (EItem (EName "r") (EInt 36)); (EAttr (EName "decoder") "field_029")] []); (ECall (EName "Field") [(EStr "Altitude Limitation"); (ESlice (EName "r") (Some (EInt 37)) (Some (EInt 43))); (EAttr (EName "decoder") "field_029")] []); (ECall (EName "Field") [(EStr "Sector From/Sector To (2)"); (ESlice (EName "r") (Some (EInt 43)) (Some (EInt 45))); (EAttr (EName "decoder") "field_207")] []); (ECall (EName "Field") [(EStr "Distance Description (2)"); (EItem (EName "r") (EInt 45)); (EAttr (EName "decoder") "field_187")] []); (ECall (EName "Field") [(EStr "Distance Limitation (2)"); (ESlice (EName "r") (Some (EInt 46)) (Some (EInt 52))); (EAttr (EName "decoder") "field_208")] []); (ECall (EName "Field") [(EStr "Altitude Description (2)"); (EItem (EName "r") (EInt 52)); (EAttr (EName "decoder") "field_029")] []); (ECall (EName "Field") [(EStr "Altitude Limitation (2)"); (ESlice (EName "r") (Some (EInt 53)) (Some (EInt 59))); (EAttr (EName "decoder") "field_209")] []); (ECall (EName "Field") [(EStr "Sector From/Sector To (3)"); (ESlice (EName "r") (Some (EInt 59)) (Some (EInt 61))); (EAttr (EName "decoder") "field_207")] []); (ECall (EName "Field") [(EStr "Distance Description (3)"); (EItem (EName "r") (EInt 61)); (EAttr (EName "decoder") "field_187")] []); (ECall (EName "Field") [(EStr "Distance Limitation (3)"); (ESlice (EName "r") (Some (EInt 62)) (Some (EInt 68))); (EAttr (EName "decoder") "field_208")] []); (ECall (EName "Field") [(EStr "Altitude Description (3)"); (EItem (EName "r") (EInt 68)); (EAttr (EName "decoder") "field_029")] []); (ECall (EName "Field") [(EStr "Altitude Limitation (3)"); (ESlice (EName "r") (Some (EInt 69)) (Some (EInt 75))); (EAttr (EName "decoder") "field_209")] []); (ECall (EName "Field") [(EStr "Sector From/Sector To (4)"); (ESlice (EName "r") (Some (EInt 75)) (Some (EInt 77))); (EAttr (EName "decoder") "field_207")] []); (ECall (EName "Field") [(EStr "Distance Description (4)"); (EItem (EName "r") (EInt 77)); (EAttr (EName "decoder") "field_187")] []); (ECall (EName "Field") [(EStr "Distance Limitation (4)"); (ESlice (EName "r") (Some (EInt 79)) (Some (EInt 84))); (EAttr (EName "decoder") "field_208")] []); (ECall (EName "Field") [(EStr "Altitude Description (4)"); (EItem (EName "r") (EInt 84)); (EAttr (EName "decoder") "field_029")] []); (ECall (EName "Field") [(EStr "Altitude Limitation (4)"); (ESlice (EName "r") (Some (EInt 85)) (Some (EInt 91))); (EAttr (EName "decoder") "field_209")] []); (ECall (EName "Field") [(EStr "Sector From/Sector To (5)"); (ESlice (EName "r") (Some (EInt 91)) (Some (EInt 93))); (EAttr (EName "decoder") "field_207")] []); (ECall (EName "Field") [(EStr "Distance Description (5)"); (EItem (EName "r") (EInt 93)); (EAttr (EName "decoder") "field_187")] []); (ECall (EName "Field") [(EStr "Distance Limitation (5)"); (ESlice (EName "r") (Some (EInt 94)) (Some (EInt 100))); (EAttr (EName "decoder") "field_208")] []); (ECall (EName "Field") [(EStr "Altitude Description (5)"); (EItem (EName "r") (EInt 101)); (EAttr (EName "decoder") "field_029")] []); (ECall (EName "Field") [(EStr "Altitude Limitation (5)"); (ESlice (EName "r") (Some (EInt 101)) (Some (EInt 107))); (EAttr (EName "decoder") "field_209")] []); (ECall (EName "Field") [(EStr "Sequence End Indicator"); (EItem (EName "r") (EInt 107)); (EAttr (EName "decoder") "field_210")] []); (ECall (EName "Field") [(EStr "File Record No"); (ESlice (EName "r") (Some (EInt 123)) (Some (EInt 128))); (EAttr (EName "decoder") "field_031")] []); (ECall (EName "Field") [(EStr "Cycle Date"); (ESlice (EName "r") (Some (EInt 128)) (Some (EInt 132))); (EAttr (EName "decoder") "field_032")] [])]))]].

(* src/arinc424/definitions/VHFNavaid.py *)
Definition py_VHFNavaid : pymodule := [
  SFrom "arinc424.decoder" "Field" "Field";
  SImport "arinc424.decoder" "decoder";
  py_VHFNavaid_VHFNavaid].

(* src/arinc424/definitions/Waypoint.py:6-120 *)
Definition py_Waypoint_Waypoint : stmt :=
  SClass "Waypoint"
    [SAssign (EName "cont_idx") (EInt 21);
    SAssign (EName "app_idx") (EInt 22);
    SAssign (EName "continuations") (EList [(EStr "A"); (EStr "P"); (EStr "Q")]);
    SAssign (EName "name") (EStr "Waypoint");
    SDef "application_type" [("self", None); ("line", None)]
      [SReturn (Some (EItem (EName "line") (EAttr (EName "self") "app_idx")))];
    SDef "__init__" [("self", None); ("enroute", None)]
      [SAssign (EAttr (EName "self") "enroute") (EName "enroute")];
    SDef "read" [("self", None); ("line", None); ("primary", None)]
      [SIf (EName "primary")
        [SReturn (Some (ECall (EAttr (EName "self") "read_primary") [(EName "line")] []))]
        [];
      SAssign (EName "application") (EItem (EName "line") (EAttr (EName "self") "app_idx"));
      SMatch (EName "application")
        [(PValue (EStr "A"), [SReturn (Some (ECall (EAttr (EName "self") "read_cont") [(EName "line")] []))]);
        (PValue (EStr "P"), [SReturn (Some (ECall (EAttr (EName "self") "read_flight_plan0") [(EName "line")] []))]);
        (PValue (EStr "Q"), [SReturn (Some (ECall (EAttr (EName "self") "read_flight_plan1") [(EName "line")] []))]);
        (PWild, [SReturn (Some (EList []))])]];
    SDef "read_primary" [("self", None); ("r", None)]
      [SReturn (Some (EList [(ECall (EName "Field") [(EStr "Record Type"); (EItem (EName "r") (EInt 0)); (EAttr (EName "decoder") "field_002")] []); (ECall (EName "Field") [(EStr "Customer / Area Code"); (ESlice (EName "r") (Some (EInt 1)) (Some (EInt 4))); (EAttr (EName "decoder") "field_003")] []); (ECall (EName "Field") [(EStr "Section Code"); (EIfExp (ECmp CmpIs (EAttr (EName "self") "enroute") (EBool true)) (ESlice (EName "r") (Some (EInt 4)) (Some (EInt 6))) (EBin OpAdd (EItem (EName "r") (EInt 4)) (EItem (EName "r") (EInt 12)))); (EAttr (EName "decoder") "field_004")] []); (ECall (EName "Field") [(EStr "Region Code"); (ESlice (EName "r") (Some (EInt 6)) (Some (EInt 10))); (EAttr (EName "decoder") "field_041")] []); (ECall (EName "Field") [(EStr "ICAO Code"); (ESlice (EName "r") (Some (EInt 10)) (Some (EInt 12))); (EAttr (EName "decoder") "field_014")] []); (ECall (EName "Field") [(EStr "Waypoint Identifier"); (ESlice (EName "r") (Some (EInt 13)) (Some (EInt 18))); (EAttr (EName "decoder") "field_013")] []); (ECall (EName "Field") [(EStr "ICAO Code (2)"); (ESlice (EName "r") (Some (EInt 19)) (Some (EInt 21))); (EAttr (EName "decoder") "field_014")] []); (ECall (EName "Field") [(EStr "Continuation Record No"); (EItem (EName "r") (EInt 21)); (EAttr (EName "decoder") "field_016")] []); (ECall (EName "Field") [(EStr "Waypoint Type"); (ESlice (EName "r") (Some (EInt 26)) (Some (EInt 29))); (EAttr (EName "decoder") "field_042")] []); (ECall (EName "Field") [(EStr "Waypoint Usage"); (ESlice (EName "r") (Some (EInt 29)) (Some (EInt 31))); (EAttr (EName "decoder") "field_082")] []); (ECall (EName "Field") [(EStr "Waypoint Latitude"); (ESlice (EName "r") (Some (EInt 32)) (Some (EInt 41))); (EAttr (EName "decoder") "field_036")] []); (ECall (EName "Field") [(EStr "Waypoint Longitude"); (ESlice (EName "r") (Some (EInt 41)) (Some (EInt 51))); (EAttr (EName "decoder") "field_037")] []); (ECall (EName "Field") [(EStr "Dynamic Mag. Variation"); (ESlice (EName "r") (Some (EInt 74)) (Some (EInt 79))); (EAttr (EName "decoder") "field_039")] []); (ECall (EName "Field") [(EStr "Datum Code"); (ESlice (EName "r") (Some (EInt 84)) (Some (EInt 87))); (EAttr (EName "decoder") "field_197")] []); (ECall (EName "Field") [(EStr "Name Format Indicator"); (ESlice (EName "r") (Some (EInt 95)) (Some (EInt 98))); (EAttr (EName "decoder") "field_196")] []); (ECall (EName "Field") [(EStr "Waypoint Name / Desc"); (ESlice (EName "r") (Some (EInt 98)) (Some (EInt 123))); (EAttr (EName "decoder") "field_043")] []); (ECall (EName "Field") [(EStr "File Record No"); (ESlice (EName "r") (Some (EInt 123)) (Some (EInt 128))); (EAttr (EName "decoder") "field_031")] []); (ECall (EName "Field") [(EStr "Cycle Date"); (ESlice (EName "r") (Some (EInt 128)) (Some (EInt 132))); (EAttr (EName "decoder") "field_032")] [])]))];
    SDef "read_cont" [("self", None); ("r", None)]
      [SReturn (Some (EList [(ECall (EName "Field") [(EStr "Record Type"); (EItem (EName "r") (EInt 0)); (EAttr (EName "decoder") "field_002")] []); (ECall (EName "Field") [(EStr "Customer / Area Code"); (ESlice (EName "r") (Some (EInt 1)) (Some (EInt 4))); (EAttr (EName "decoder") "field_003")] []); (ECall (EName "Field") [(EStr "Section Code"); (EIfExp (ECmp CmpIs (EAttr (EName "self") "enroute") (EBool true)) (ESlice (EName "r") (Some (EInt 4)) (Some (EInt 6))) (EBin OpAdd (EItem (EName "r") (EInt 4)) (EItem (EName "r") (EInt 12)))); (EAttr (EName "decoder") "field_004")] []); (ECall (EName "Field") [(EStr "Region Code"); (ESlice (EName "r") (Some (EInt 6)) (Some (EInt 10))); (EAttr (EName "decoder") "field_041")] []); (ECall (EName "Field") [(EStr "ICAO Code"); (ESlice (EName "r") (Some (EInt 10)) (Some (EInt 12))); (EAttr (EName "decoder") "field_014")] []); (ECall (EName "Field") [(EStr "Waypoint Identifier"); (ESlice (EName "r") (Some (EInt 13)) (Some (EInt 18))); (EAttr (EName "decoder") "field_013")] []); (ECall (EName "Field") [(EStr "ICAO Code (2)"); (ESlice (EName "r") (Some (EInt 19)) (Some (EInt 21))); (EAttr (EName "decoder") "field_014")] []); (ECall (EName "Field") [(EStr "Continuation Record No"); (EItem (EName "r") (EInt 21)); (EAttr (EName "decoder") "field_016")] []); (ECall (EName "Field") [(EStr "Application Type"); (EItem (EName "r") (EInt 22)); (EAttr (EName "decoder") "field_091")] []); (ECall (EName "Field") [(EStr "Notes"); (ESlice (EName "r") (Some (EInt 23)) (Some (EInt 123))); (EAttr (EName "decoder") "field_061")] []); (ECall (EName "Field") [(EStr "File Record No"); (ESlice (EName "r") (Some (EInt 123)) (Some (EInt 128))); (EAttr (EName "decoder") "field_031")] []); (ECall (EName "Field") [(EStr "Cycle Date"); (ESlice (EName "r") (Some (EInt 128)) (Some (EInt 132))); (EAttr (EName "decoder") "field_032")] [])]))];
    SDef "read_flight_plan0" [("self", None); ("r", None)]
      [SReturn (Some (EList [(ECall (EName "Field") [(EStr "Record Type"); (EItem (EName "r") (EInt 0)); (EAttr (EName "decoder") "field_002")] []); (ECall (EName "Field") [(EStr "Customer / Area Code"); (ESlice (EName "r") (Some (EInt 1)) (Some (EInt 4))); (EAttr (EName "decoder") "field_003")] []); (ECall (EName "Field") [(EStr "Section Code"); (EIfExp (ECmp CmpIs (EAttr (EName "self") "enroute") (EBool true)) (ESlice (EName "r") (Some (EInt 4)) (Some (EInt 6))) (EBin OpAdd (EItem (EName "r") (EInt 4)) (EItem (EName "r") (EInt 12)))); (EAttr (EName "decoder") "field_004")] []); (ECall (EName "Field") [(EStr "Region Code"); (ESlice (EName "r") (Some (EInt 6)) (Some (EInt 10))); (EAttr (EName "decoder") "field_041")] []); (ECall (EName "Field") [(EStr "ICAO Code"); (ESlice (EName "r") (Some (EInt 10)) (Some (EInt 12))); (EAttr (EName "decoder") "field_014")] []); (ECall (EName "Field") [(EStr "Waypoint Identifier"); (ESlice (EName "r") (Some (EInt 13)) (Some (EInt 18))); (EAttr (EName "decoder") "field_013")] []); (ECall (EName "Field") [(EStr "ICAO Code (2)"); (ESlice (EName "r") (Some (EInt 19)) (Some (EInt 21))); (EAttr (EName "decoder") "field_014")] []); (ECall (EName "Field") [(EStr "Continuation Record No"); (EItem (EName "r") (EInt 21)); (EAttr (EName "decoder") "field_016")] []); (ECall (EName "Field") [(EStr "Application Type"); (EItem (EName "r") (EInt 22)); (EAttr (EName "decoder") "field_091")] []); (ECall (EName "Field") [(EStr "FIR Identifier"); (ESlice (EName "r") (Some (EInt 23)) (Some (EInt 27))); (EAttr (EName "decoder") "field_116")] []); (ECall (EName "Field") [(EStr "UIR Identifier"); (ESlice (EName "r") (Some (EInt 27)) (Some (EInt 31))); (EAttr (EName "decoder") "field_116")] []); (ECall (EName "Field") [(EStr "Start/End Indicator"); (EItem (EName "r") (EInt 31)); (EAttr (EName "decoder") "field_152")] []); (ECall (EName "Field") [(EStr "Start/End Date"); (ESlice (EName "r") (Some (EInt 32)) (Some (EInt 43))); (EAttr (EName "decoder") "field_153")] []); (ECall (EName "Field") [(EStr "File Record No"); (ESlice (EName "r") (Some (EInt 123)) (Some (EInt 128))); (EAttr (EName "decoder") "field_031")] []); (ECall (EName "Field") [(EStr "Cycle Date"); (ESlice (EName "r") (Some (EInt 128)) (Some (EInt 132))); (EAttr (EName "decoder") "field_032")] [])]))];
    SDef "read_flight_plan1" [("self", None); ("r", None)]
      [SReturn (Some (EList [(ECall (EName "Field") [(EStr "Record Type"); (EItem (EName "r") (EInt 0)); (EAttr (EName "decoder") "field_002")] []); (ECall (EName "Field") [(EStr "Customer / Area Code"); (ESlice (EName "r") (Some (EInt 1)) (Some (EInt 4))); (EAttr (EName "decoder") "field_003")] []); (ECall (EName "Field") [(EStr "Section Code"); (EIfExp (ECmp CmpIs (EAttr (EName "self") "enroute") (EBool true)) (ESlice (EName "r") (Some (EInt 4)) (Some (EInt 6))) (EBin OpAdd (EItem (EName "r") (EInt 4)) (EItem (EName "r") (EInt 12)))); (EAttr (EName "decoder") "field_004")] []); (ECall (EName "Field") [(EStr "Region Code"); (ESlice (EName "r") (Some (EInt 6)) (Some (EInt 10))); (EAttr (EName "decoder") "field_041")] []); (ECall (EName "Field") [(EStr "ICAO Code"); (ESlice (EName "r") (Some (EInt 10)) (Some (EInt 12))); (EAttr (EName "decoder") "field_014")] []); (ECall (EName "Field") [(EStr "Waypoint Identifier"); (ESlice (EName "r") (Some (EInt 13)) (Some (EInt 18))); (EAttr (EName "decoder") "field_013")] []); (ECall (EName "Field") [(EStr "ICAO Code (2)"); (ESlice (EName "r") (Some (EInt 19)) (Some (EInt 21))); (EAttr (EName "decoder") "field_014")] []); (ECall (EName "Field") [(EStr "Continuation Record No"); (EItem (EName "r") (EInt 21)); (EAttr (EName "decoder") "field_016")] []); (ECall (EName "Field") [(EStr "Waypoint Type"); (ESlice (EName "r") (Some (EInt 26)) (Some (EInt 29))); (EAttr (EName "decoder") "field_042")] []); (ECall (EName "Field") [(EStr "Waypoint Usage"); (ESlice (EName "r") (Some (EInt 29)) (Some (EInt 31))); (EAttr (EName "decoder") "field_082")] []); (ECall (EName "Field") [(EStr "Waypoint Latitude"); (ESlice (EName "r") (Some (EInt 32)) (Some (EInt 41))); (EAttr (EName "decoder") "field_036")] []); (ECall (EName "Field") [(EStr "Waypoint Longitude"); (ESlice (EName "r") (Some (EInt 41)) (Some (EInt 51))); (EAttr (EName "decoder") "field_037")] []); (ECall (EName "Field") [(EStr "Dynamic Mag. Variation"); (ESlice (EName "r") (Some (EInt 74)) (Some (EInt 79))); (EAttr (EName "decoder") "field_039")] []); (ECall (EName "Field") [(EStr "Datum Code"); (ESlice (EName "r") (Some (EInt 84)) (Some (EInt 87))); (EAttr (EName "decoder") "field_197")] []); (ECall (EName "Field") [(EStr "Name Format Indicator"); (ESlice (EName "r") (Some (EInt 95)) (Some (EInt 98))); (EAttr (EName "decoder") "field_196")] []); (ECall (EName "Field") [(EStr "Waypoint Name / Desc"); (ESlice (EName "r") (Some (EInt 98)) (Some (EInt 123))); (EAttr (EName "decoder") "field_043")] []); (ECall (EName "Field") [(EStr "File Record No"); (ESlice (EName "r") (Some (EInt 123)) (Some (EInt 128))); (EAttr (EName "decoder") "field_031")] []); (ECall (EName "Field") [(EStr "Cycle Date"); (ESlice (EName "r") (Some (EInt 128)) (Some (EInt 132))); (EAttr (EName "decoder") "field_032")] [])]))]].

(* src/arinc424/definitions/Waypoint.py *)
Definition py_Waypoint : pymodule := [
  SFrom "arinc424.decoder" "Field" "Field";
  SImport "arinc424.decoder" "decoder";
  py_Waypoint_Waypoint].

