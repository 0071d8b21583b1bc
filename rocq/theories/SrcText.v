(* GENERATED by tools/pytext.py: parsing the text of a file (PyText.v) gives its tree (Src*.v). *)
From Coq Require Import List String.
From Verif Require Import PySyntax PyLex PyParse PyText SrcDecoder SrcDefinitions SrcRecord SrcInit Source.
Import ListNotations.
Local Open Scope string_scope.

Lemma text_decoder_tree : parse_python "arinc424" (join text_decoder) = Some py_decoder.
Proof. vm_compute. reflexivity. Qed.
Lemma text_Airport_tree : parse_python "arinc424.definitions" (join text_Airport) = Some py_Airport.
Proof. vm_compute. reflexivity. Qed.
Lemma text_AirportCommunication_tree : parse_python "arinc424.definitions" (join text_AirportCommunication) = Some py_AirportCommunication.
Proof. vm_compute. reflexivity. Qed.
Lemma text_AirportGate_tree : parse_python "arinc424.definitions" (join text_AirportGate) = Some py_AirportGate.
Proof. vm_compute. reflexivity. Qed.
Lemma text_AirwaysMarker_tree : parse_python "arinc424.definitions" (join text_AirwaysMarker) = Some py_AirwaysMarker.
Proof. vm_compute. reflexivity. Qed.
Lemma text_Alternate_tree : parse_python "arinc424.definitions" (join text_Alternate) = Some py_Alternate.
Proof. vm_compute. reflexivity. Qed.
Lemma text_CompanyRoute_tree : parse_python "arinc424.definitions" (join text_CompanyRoute) = Some py_CompanyRoute.
Proof. vm_compute. reflexivity. Qed.
Lemma text_ControlledAirspace_tree : parse_python "arinc424.definitions" (join text_ControlledAirspace) = Some py_ControlledAirspace.
Proof. vm_compute. reflexivity. Qed.
Lemma text_CruisingTables_tree : parse_python "arinc424.definitions" (join text_CruisingTables) = Some py_CruisingTables.
Proof. vm_compute. reflexivity. Qed.
Lemma text_EnrouteAirways_tree : parse_python "arinc424.definitions" (join text_EnrouteAirways) = Some py_EnrouteAirways.
Proof. vm_compute. reflexivity. Qed.
Lemma text_EnrouteAirwaysRestriction_tree : parse_python "arinc424.definitions" (join text_EnrouteAirwaysRestriction) = Some py_EnrouteAirwaysRestriction.
Proof. vm_compute. reflexivity. Qed.
Lemma text_EnrouteCommunications_tree : parse_python "arinc424.definitions" (join text_EnrouteCommunications) = Some py_EnrouteCommunications.
Proof. vm_compute. reflexivity. Qed.
Lemma text_FIRUIR_tree : parse_python "arinc424.definitions" (join text_FIRUIR) = Some py_FIRUIR.
Proof. vm_compute. reflexivity. Qed.
Lemma text_FlightPlanning_tree : parse_python "arinc424.definitions" (join text_FlightPlanning) = Some py_FlightPlanning.
Proof. vm_compute. reflexivity. Qed.
Lemma text_GLS_tree : parse_python "arinc424.definitions" (join text_GLS) = Some py_GLS.
Proof. vm_compute. reflexivity. Qed.
Lemma text_GeoReferenceTable_tree : parse_python "arinc424.definitions" (join text_GeoReferenceTable) = Some py_GeoReferenceTable.
Proof. vm_compute. reflexivity. Qed.
Lemma text_GridMORA_tree : parse_python "arinc424.definitions" (join text_GridMORA) = Some py_GridMORA.
Proof. vm_compute. reflexivity. Qed.
Lemma text_Heliport_tree : parse_python "arinc424.definitions" (join text_Heliport) = Some py_Heliport.
Proof. vm_compute. reflexivity. Qed.
Lemma text_HeliportCommunications_tree : parse_python "arinc424.definitions" (join text_HeliportCommunications) = Some py_HeliportCommunications.
Proof. vm_compute. reflexivity. Qed.
Lemma text_HeliportTerminalWaypoint_tree : parse_python "arinc424.definitions" (join text_HeliportTerminalWaypoint) = Some py_HeliportTerminalWaypoint.
Proof. vm_compute. reflexivity. Qed.
Lemma text_HoldingPattern_tree : parse_python "arinc424.definitions" (join text_HoldingPattern) = Some py_HoldingPattern.
Proof. vm_compute. reflexivity. Qed.
Lemma text_LocalizerGlideslope_tree : parse_python "arinc424.definitions" (join text_LocalizerGlideslope) = Some py_LocalizerGlideslope.
Proof. vm_compute. reflexivity. Qed.
Lemma text_LocalizerMarker_tree : parse_python "arinc424.definitions" (join text_LocalizerMarker) = Some py_LocalizerMarker.
Proof. vm_compute. reflexivity. Qed.
Lemma text_MLS_tree : parse_python "arinc424.definitions" (join text_MLS) = Some py_MLS.
Proof. vm_compute. reflexivity. Qed.
Lemma text_MSA_tree : parse_python "arinc424.definitions" (join text_MSA) = Some py_MSA.
Proof. vm_compute. reflexivity. Qed.
Lemma text_NDBNavaid_tree : parse_python "arinc424.definitions" (join text_NDBNavaid) = Some py_NDBNavaid.
Proof. vm_compute. reflexivity. Qed.
Lemma text_PathPoint_tree : parse_python "arinc424.definitions" (join text_PathPoint) = Some py_PathPoint.
Proof. vm_compute. reflexivity. Qed.
Lemma text_PreferredRoute_tree : parse_python "arinc424.definitions" (join text_PreferredRoute) = Some py_PreferredRoute.
Proof. vm_compute. reflexivity. Qed.
Lemma text_RestrictiveAirspace_tree : parse_python "arinc424.definitions" (join text_RestrictiveAirspace) = Some py_RestrictiveAirspace.
Proof. vm_compute. reflexivity. Qed.
Lemma text_Runway_tree : parse_python "arinc424.definitions" (join text_Runway) = Some py_Runway.
Proof. vm_compute. reflexivity. Qed.
Lemma text_SIDSTARApproach_tree : parse_python "arinc424.definitions" (join text_SIDSTARApproach) = Some py_SIDSTARApproach.
Proof. vm_compute. reflexivity. Qed.
Lemma text_TAA_tree : parse_python "arinc424.definitions" (join text_TAA) = Some py_TAA.
Proof. vm_compute. reflexivity. Qed.
Lemma text_VHFNavaid_tree : parse_python "arinc424.definitions" (join text_VHFNavaid) = Some py_VHFNavaid.
Proof. vm_compute. reflexivity. Qed.
Lemma text_Waypoint_tree : parse_python "arinc424.definitions" (join text_Waypoint) = Some py_Waypoint.
Proof. vm_compute. reflexivity. Qed.
Lemma text_record_tree : parse_python "arinc424" (join text_record) = Some py_record.
Proof. vm_compute. reflexivity. Qed.
Lemma text_init_tree : parse_python "arinc424" (join text_init) = Some py_init.
Proof. vm_compute. reflexivity. Qed.

Lemma texts_trees : map (fun f => (fst (fst f), parse_python (snd (fst f)) (join (snd f)))) files = map (fun m => (fst m, Some (snd m))) source.
Proof.
  unfold files, source. cbn [map fst snd].
  rewrite text_decoder_tree, text_Airport_tree, text_AirportCommunication_tree, text_AirportGate_tree, text_AirwaysMarker_tree, text_Alternate_tree, text_CompanyRoute_tree, text_ControlledAirspace_tree, text_CruisingTables_tree, text_EnrouteAirways_tree, text_EnrouteAirwaysRestriction_tree, text_EnrouteCommunications_tree, text_FIRUIR_tree, text_FlightPlanning_tree, text_GLS_tree, text_GeoReferenceTable_tree, text_GridMORA_tree, text_Heliport_tree, text_HeliportCommunications_tree, text_HeliportTerminalWaypoint_tree, text_HoldingPattern_tree, text_LocalizerGlideslope_tree, text_LocalizerMarker_tree, text_MLS_tree, text_MSA_tree, text_NDBNavaid_tree, text_PathPoint_tree, text_PreferredRoute_tree, text_RestrictiveAirspace_tree, text_Runway_tree, text_SIDSTARApproach_tree, text_TAA_tree, text_VHFNavaid_tree, text_Waypoint_tree, text_record_tree, text_init_tree. reflexivity.
Qed.
