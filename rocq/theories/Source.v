(* GENERATED by tools/pyast.py: the modules of /repo/src/arinc424. *)
From Coq Require Import List String.
From Verif Require Import PySyntax SrcDecoder SrcDefinitions SrcRecord SrcInit.
Import ListNotations.
Local Open Scope string_scope.

(* every module by its name *)
Definition source : list (string * pymodule) := [
  ("arinc424.decoder", py_decoder);
  ("arinc424.definitions.Airport", py_Airport);
  ("arinc424.definitions.AirportCommunication", py_AirportCommunication);
  ("arinc424.definitions.AirportGate", py_AirportGate);
  ("arinc424.definitions.AirwaysMarker", py_AirwaysMarker);
  ("arinc424.definitions.Alternate", py_Alternate);
  ("arinc424.definitions.CompanyRoute", py_CompanyRoute);
  ("arinc424.definitions.ControlledAirspace", py_ControlledAirspace);
  ("arinc424.definitions.CruisingTables", py_CruisingTables);
  ("arinc424.definitions.EnrouteAirways", py_EnrouteAirways);
  ("arinc424.definitions.EnrouteAirwaysRestriction", py_EnrouteAirwaysRestriction);
  ("arinc424.definitions.EnrouteCommunications", py_EnrouteCommunications);
  ("arinc424.definitions.FIRUIR", py_FIRUIR);
  ("arinc424.definitions.FlightPlanning", py_FlightPlanning);
  ("arinc424.definitions.GLS", py_GLS);
  ("arinc424.definitions.GeoReferenceTable", py_GeoReferenceTable);
  ("arinc424.definitions.GridMORA", py_GridMORA);
  ("arinc424.definitions.Heliport", py_Heliport);
  ("arinc424.definitions.HeliportCommunications", py_HeliportCommunications);
  ("arinc424.definitions.HeliportTerminalWaypoint", py_HeliportTerminalWaypoint);
  ("arinc424.definitions.HoldingPattern", py_HoldingPattern);
  ("arinc424.definitions.LocalizerGlideslope", py_LocalizerGlideslope);
  ("arinc424.definitions.LocalizerMarker", py_LocalizerMarker);
  ("arinc424.definitions.MLS", py_MLS);
  ("arinc424.definitions.MSA", py_MSA);
  ("arinc424.definitions.NDBNavaid", py_NDBNavaid);
  ("arinc424.definitions.PathPoint", py_PathPoint);
  ("arinc424.definitions.PreferredRoute", py_PreferredRoute);
  ("arinc424.definitions.RestrictiveAirspace", py_RestrictiveAirspace);
  ("arinc424.definitions.Runway", py_Runway);
  ("arinc424.definitions.SIDSTARApproach", py_SIDSTARApproach);
  ("arinc424.definitions.TAA", py_TAA);
  ("arinc424.definitions.VHFNavaid", py_VHFNavaid);
  ("arinc424.definitions.Waypoint", py_Waypoint);
  ("arinc424.record", py_record);
  ("arinc424", py_init)].
