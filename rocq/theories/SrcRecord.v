(* GENERATED by tools/pyast.py from /repo/src/arinc424/record.py: its abstract syntax tree. *)
From Coq Require Import List String ZArith.
From Verif Require Import PySyntax.
Import ListNotations.
Local Open Scope string_scope.
Local Open Scope Z_scope.

(* src/arinc424/record.py:40-41 *)
Definition py_record_def_val : stmt :=
  SDef "def_val" []
    [SReturn (Some (EBool false))].

(* src/arinc424/record.py:89-187 *)
Definition py_record_Record : stmt :=
  SClass "Record"
    [SDef "__init__" [("self", None)]
      [SAssign (EAttr (EName "self") "ident") (EStr "");
      SAssign (EAttr (EName "self") "raw") (EStr "");
      SAssign (EAttr (EName "self") "continuation") (EStr "");
      SAssign (EAttr (EName "self") "fields") (EList []);
      SAssign (EAttr (EName "self") "definition") (ENeg (EInt 1))];
    SDef "primary" [("self", None)]
      [SIf (ECmp CmpEq (EAttr (EName "self") "definition") (ENeg (EInt 1)))
        [SReturn (Some (EBool false))]
        [];
      SReturn (Some (EOr (ECmp CmpEq (EAttr (EName "self") "continuation") (EStr "0")) (ECmp CmpEq (EAttr (EName "self") "continuation") (EStr "1"))))];
    SDef "hasCont" [("self", None)]
      [SIf (ECmp CmpIs (ECall (EAttr (EName "self") "primary") [] []) (EBool false))
        [SReturn (Some (EBool false))]
        [];
      SReturn (Some (ECmp CmpEq (EAttr (EName "self") "continuation") (EStr "1")))];
    SDef "validate" [("self", None); ("line", None)]
      [SAssign (EName "line") (ECall (EAttr (EName "line") "strip") [] []);
      SIf (ECmp CmpIs (ECall (EAttr (EName "line") "startswith") [(ETuple [(EStr "S"); (EStr "T")])] []) (EBool false))
        [SReturn (Some (EBool false))]
        [];
      SIf (ECmp CmpNe (ECall (EName "len") [(EName "line")] []) (EInt 132))
        [SReturn (Some (EBool false))]
        [];
      SIf (ECmp CmpIs (ECall (EAttr (ESlice (EName "line") (Some (ENeg (EInt 9))) None) "isnumeric") [] []) (EBool false))
        [SReturn (Some (EBool false))]
        [];
      SReturn (Some (EBool true))];
    SDef "read" [("self", None); ("line", None)]
      [SIf (ECmp CmpIs (ECall (EAttr (EName "self") "validate") [(EName "line")] []) (EBool false))
        [SReturn (Some (EBool false))]
        [];
      SAssign (EAttr (EName "self") "raw") (ECall (EAttr (EName "line") "strip") [] []);
      SAssign (EName "identifier_1") (ESlice (EName "line") (Some (EInt 4)) (Some (EInt 6)));
      SAssign (EName "identifier_2") (EBin OpAdd (EItem (EName "line") (EInt 4)) (EItem (EName "line") (EInt 12)));
      SIf (ECmp CmpIn (EName "identifier_1") (EName "records"))
        [SAssign (EAttr (EName "self") "ident") (EName "identifier_1")]
        [SIf (ECmp CmpIn (EName "identifier_2") (EName "records"))
          [SAssign (EAttr (EName "self") "ident") (EName "identifier_2")]
          [SReturn (Some (EBool false))]];
      SAssign (EAttr (EName "self") "definition") (EItem (EName "records") (EAttr (EName "self") "ident"));
      SIf (ECall (EName "hasattr") [(EAttr (EName "self") "definition"); (EStr "cont_idx")] [])
        [SAssign (EAttr (EName "self") "continuation") (EItem (EAttr (EName "self") "raw") (EAttr (EAttr (EName "self") "definition") "cont_idx"));
        SIf (ECmp CmpEq (ECall (EAttr (EAttr (EName "self") "continuation") "isalnum") [] []) (EBool false))
          [SExpr (ECall (EName "print") [(EFString [(EStr "Unsupported "); (EAttr (EAttr (EName "self") "definition") "name"); (EStr " Continuation Record Number: """); (EAttr (EName "self") "continuation"); (EStr """")])] []);
          SExpr (ECall (EName "print") [(EStr "Valid Continuation Record Numbers are 0, 1, 2 (through 9) A, B, C (through Z)")] []);
          SExpr (ECall (EName "print") [(EFString [(EStr "Record: "); (EAttr (EName "self") "raw")])] []);
          SReturn (Some (EBool false))]
          [];
        SIf (ECmp CmpIs (ECall (EAttr (EName "self") "primary") [] []) (EBool false))
          [SIf (ECall (EName "hasattr") [(EAttr (EName "self") "definition"); (EStr "app_idx")] [])
            [SAssign (EName "application_type") (ECall (EAttr (EAttr (EName "self") "definition") "application_type") [(EAttr (EName "self") "raw")] []);
            SIf (EAnd (ECmp CmpNotIn (EName "application_type") (EAttr (EAttr (EName "self") "definition") "continuations")) (ENot (EStr "J")))
              [SExpr (ECall (EName "print") [(EFString [(EStr "Unsupported "); (EAttr (EAttr (EName "self") "definition") "name"); (EStr " Application Type: """); (EName "application_type"); (EStr """")])] []);
              SExpr (ECall (EName "print") [(EFString [(EStr "Supported application types for "); (EAttr (EAttr (EName "self") "definition") "name"); (EStr " are: "); (EAttr (EAttr (EName "self") "definition") "continuations")])] []);
              SExpr (ECall (EName "print") [(EFString [(EStr "Record: "); (EAttr (EName "self") "raw")])] []);
              SReturn (Some (EBool false))]
              []]
            [SRaise (ECall (EName "ValueError") [(EStr "no hasattr(self.definition, 'app_idx')")] [])]]
          []]
        [];
      SAssign (EAttr (EName "self") "fields") (ECall (EAttr (EAttr (EName "self") "definition") "read") [(EName "line"); (ECall (EAttr (EName "self") "primary") [] [])] []);
      SIf (ENot (EAttr (EName "self") "fields"))
        [SReturn (Some (EBool false))]
        [];
      SReturn (Some (EBool true))];
    SDef "decode" [("self", None); ("output", (Some (EBool true)))]
      [SAssign (EName "table") (ECall (EName "PrettyTable") [] [("field_names", (EList [(EStr "Field"); (EStr "Value"); (EStr "Decoded")]))]);
      SAssign (EAttr (EName "table") "align") (EStr "l");
      SFor "field" (EAttr (EName "self") "fields")
        [SExpr (ECall (EAttr (EName "table") "add_row") [(EList [(EAttr (EName "field") "name"); (ECall (EAttr (EStr "'{}'") "format") [(EAttr (EName "field") "value")] []); (ECall (EAttr (EName "field") "decode") [(EName "self")] [])])] [])];
      SIf (ECmp CmpIs (EName "output") (EBool true))
        [SExpr (ECall (EName "print") [(EName "table")] [])]
        [];
      SReturn (Some (ECall (EAttr (EName "table") "get_string") [] []))];
    SDef "json" [("self", None); ("output", (Some (EBool true))); ("single_line", (Some (EBool true)))]
      [SAssign (EName "d") (EDict []);
      SFor "field" (EAttr (EName "self") "fields")
        [SExpr (ECall (EAttr (EName "d") "update") [(EDict [((EAttr (EName "field") "name"), (EAttr (EName "field") "value"))])] [])];
      SIf (EName "single_line")
        [SAssign (EName "data") (ECall (EAttr (EName "json") "dumps") [(EName "d")] [])]
        [SAssign (EName "data") (ECall (EAttr (EName "json") "dumps") [(EName "d")] [("sort_keys", (EBool true)); ("indent", (EInt 4)); ("separators", (ETuple [(EStr ","); (EStr ": ")]))])];
      SIf (ECmp CmpIs (EName "output") (EBool true))
        [SExpr (ECall (EName "print") [(EName "data")] [])]
        [];
      SReturn (Some (EName "data"))]].

(* src/arinc424/record.py *)
Definition py_record : pymodule := [
  SImport "json" "json";
  SFrom "collections" "defaultdict" "defaultdict";
  SFrom "prettytable" "PrettyTable" "PrettyTable";
  SFrom "arinc424.definitions.GridMORA" "GridMORA" "GridMORA";
  SFrom "arinc424.definitions.VHFNavaid" "VHFNavaid" "VHFNavaid";
  SFrom "arinc424.definitions.NDBNavaid" "NDBNavaid" "NDBNavaid";
  SFrom "arinc424.definitions.Waypoint" "Waypoint" "Waypoint";
  SFrom "arinc424.definitions.AirwaysMarker" "AirwaysMarker" "AirwaysMarker";
  SFrom "arinc424.definitions.HoldingPattern" "HoldingPattern" "HoldingPattern";
  SFrom "arinc424.definitions.PreferredRoute" "PreferredRoute" "PreferredRoute";
  SFrom "arinc424.definitions.EnrouteAirways" "EnrouteAirways" "EnrouteAirways";
  SFrom "arinc424.definitions.EnrouteAirwaysRestriction" "EnrouteAirwaysRestriction" "EnrouteAirwaysRestriction";
  SFrom "arinc424.definitions.EnrouteCommunications" "EnrouteCommunications" "EnrouteCommunications";
  SFrom "arinc424.definitions.Heliport" "Heliport" "Heliport";
  SFrom "arinc424.definitions.HeliportTerminalWaypoint" "HeliportTerminalWaypoint" "HeliportTerminalWaypoint";
  SFrom "arinc424.definitions.SIDSTARApproach" "SIDSTARApproach" "SIDSTARApproach";
  SFrom "arinc424.definitions.TAA" "TAA" "TAA";
  SFrom "arinc424.definitions.MSA" "MSA" "MSA";
  SFrom "arinc424.definitions.HeliportCommunications" "HeliportCommunications" "HeliportCommunications";
  SFrom "arinc424.definitions.Airport" "Airport" "Airport";
  SFrom "arinc424.definitions.AirportGate" "AirportGate" "AirportGate";
  SFrom "arinc424.definitions.Runway" "Runway" "Runway";
  SFrom "arinc424.definitions.LocalizerGlideslope" "LocalizerGlideslope" "LocalizerGlideslope";
  SFrom "arinc424.definitions.LocalizerMarker" "LocalizerMarker" "LocalizerMarker";
  SFrom "arinc424.definitions.PathPoint" "PathPoint" "PathPoint";
  SFrom "arinc424.definitions.FlightPlanning" "FlightPlanning" "FlightPlanning";
  SFrom "arinc424.definitions.GLS" "GLS" "GLS";
  SFrom "arinc424.definitions.AirportCommunication" "AirportCommunication" "AirportCommunication";
  SFrom "arinc424.definitions.CompanyRoute" "CompanyRoute" "CompanyRoute";
  SFrom "arinc424.definitions.Alternate" "Alternate" "Alternate";
  SFrom "arinc424.definitions.CruisingTables" "CruisingTables" "CruisingTables";
  SFrom "arinc424.definitions.GeoReferenceTable" "GeoReferenceTable" "GeoReferenceTable";
  SFrom "arinc424.definitions.ControlledAirspace" "ControlledAirspace" "ControlledAirspace";
  SFrom "arinc424.definitions.FIRUIR" "FIRUIR" "FIRUIR";
  SFrom "arinc424.definitions.RestrictiveAirspace" "RestrictiveAirspace" "RestrictiveAirspace";
  SFrom "arinc424.definitions.MLS" "MLS" "MLS";
  py_record_def_val;
  SAssign (EName "records") (ECall (EName "defaultdict") [(EName "def_val")] []);
  SAssign (EItem (EName "records") (EStr "AS")) (ECall (EName "GridMORA") [] []);
  SAssign (EItem (EName "records") (EStr "D ")) (ECall (EName "VHFNavaid") [] []);
  SAssign (EItem (EName "records") (EStr "DB")) (ECall (EName "NDBNavaid") [] []);
  SAssign (EItem (EName "records") (EStr "EA")) (ECall (EName "Waypoint") [(EBool true)] []);
  SAssign (EItem (EName "records") (EStr "EM")) (ECall (EName "AirwaysMarker") [] []);
  SAssign (EItem (EName "records") (EStr "EP")) (ECall (EName "HoldingPattern") [] []);
  SAssign (EItem (EName "records") (EStr "ER")) (ECall (EName "EnrouteAirways") [] []);
  SAssign (EItem (EName "records") (EStr "ET")) (ECall (EName "PreferredRoute") [] []);
  SAssign (EItem (EName "records") (EStr "EU")) (ECall (EName "EnrouteAirwaysRestriction") [] []);
  SAssign (EItem (EName "records") (EStr "EV")) (ECall (EName "EnrouteCommunications") [] []);
  SAssign (EItem (EName "records") (EStr "HA")) (ECall (EName "Heliport") [] []);
  SAssign (EItem (EName "records") (EStr "HC")) (ECall (EName "HeliportTerminalWaypoint") [] []);
  SAssign (EItem (EName "records") (EStr "HD")) (ECall (EName "SIDSTARApproach") [] []);
  SAssign (EItem (EName "records") (EStr "HE")) (ECall (EName "SIDSTARApproach") [] []);
  SAssign (EItem (EName "records") (EStr "HF")) (ECall (EName "SIDSTARApproach") [] []);
  SAssign (EItem (EName "records") (EStr "HK")) (ECall (EName "TAA") [(EBool true)] []);
  SAssign (EItem (EName "records") (EStr "HS")) (ECall (EName "MSA") [(EBool true)] []);
  SAssign (EItem (EName "records") (EStr "HV")) (ECall (EName "HeliportCommunications") [] []);
  SAssign (EItem (EName "records") (EStr "PA")) (ECall (EName "Airport") [] []);
  SAssign (EItem (EName "records") (EStr "PB")) (ECall (EName "AirportGate") [] []);
  SAssign (EItem (EName "records") (EStr "PC")) (ECall (EName "Waypoint") [(EBool false)] []);
  SAssign (EItem (EName "records") (EStr "PD")) (ECall (EName "SIDSTARApproach") [] []);
  SAssign (EItem (EName "records") (EStr "PE")) (ECall (EName "SIDSTARApproach") [] []);
  SAssign (EItem (EName "records") (EStr "PF")) (ECall (EName "SIDSTARApproach") [] []);
  SAssign (EItem (EName "records") (EStr "PG")) (ECall (EName "Runway") [] []);
  SAssign (EItem (EName "records") (EStr "PI")) (ECall (EName "LocalizerGlideslope") [] []);
  SAssign (EItem (EName "records") (EStr "PK")) (ECall (EName "TAA") [] []);
  SAssign (EItem (EName "records") (EStr "PL")) (ECall (EName "MLS") [] []);
  SAssign (EItem (EName "records") (EStr "PM")) (ECall (EName "LocalizerMarker") [] []);
  SAssign (EItem (EName "records") (EStr "PN")) (ECall (EName "NDBNavaid") [] []);
  SAssign (EItem (EName "records") (EStr "PP")) (ECall (EName "PathPoint") [] []);
  SAssign (EItem (EName "records") (EStr "PR")) (ECall (EName "FlightPlanning") [] []);
  SAssign (EItem (EName "records") (EStr "PS")) (ECall (EName "MSA") [(EBool false)] []);
  SAssign (EItem (EName "records") (EStr "PT")) (ECall (EName "GLS") [] []);
  SAssign (EItem (EName "records") (EStr "PV")) (ECall (EName "AirportCommunication") [] []);
  SAssign (EItem (EName "records") (EStr "R ")) (ECall (EName "CompanyRoute") [] []);
  SAssign (EItem (EName "records") (EStr "RA")) (ECall (EName "Alternate") [] []);
  SAssign (EItem (EName "records") (EStr "TC")) (ECall (EName "CruisingTables") [] []);
  SAssign (EItem (EName "records") (EStr "TG")) (ECall (EName "GeoReferenceTable") [] []);
  SAssign (EItem (EName "records") (EStr "UC")) (ECall (EName "ControlledAirspace") [] []);
  SAssign (EItem (EName "records") (EStr "UF")) (ECall (EName "FIRUIR") [] []);
  SAssign (EItem (EName "records") (EStr "UR")) (ECall (EName "RestrictiveAirspace") [] []);
  py_record_Record].
