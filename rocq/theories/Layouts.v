(* GENERATED by tools/gen.py from /repo/src/arinc424/definitions/*.py and record.py.
   Field("name", r[a:b], decoder.field_NNN) becomes Row (lit "name") (Sl a b) FNNN;
   r[i] becomes At i; r[i]+r[j] becomes AtAt i j.  Left out: the class CompanyRoute at
   AirportGate.py:66-99, which nothing imports (record.py:30 imports CompanyRoute.py). *)
From Coq Require Import List String.
From Verif Require Import PyBase DecoderTables Decoder.
Import ListNotations.
Open Scope string_scope.
Open Scope list_scope.

(* ======== class Airport, src/arinc424/definitions/Airport.py ======== *)
(* src/arinc424/definitions/Airport.py:33-63  Airport.read_primary *)
Definition Airport_read_primary_rows : list row := [
  Row (lit "Record Type") (At 0) F002;
  Row (lit "Customer / Area Code") (Sl 1 4) F003;
  Row (lit "Section Code") (AtAt 4 12) F004;
  Row (lit "Airport ICAO Identifier") (Sl 6 10) F006;
  Row (lit "ICAO Code") (Sl 10 12) F014;
  Row (lit "ATA/IATA Designator") (Sl 13 16) F107;
  Row (lit "Continuation Record No") (At 21) F016;
  Row (lit "Speed Limit Altitude") (Sl 22 27) F073;
  Row (lit "Longest Runway") (Sl 27 30) F054;
  Row (lit "IFR Capability") (At 30) F108;
  Row (lit "Longest Runway Surface Code") (At 31) F249;
  Row (lit "Airport Reference Pt. Latitude") (Sl 32 41) F036;
  Row (lit "Airport Reference Pt. Longitude") (Sl 41 51) F037;
  Row (lit "Magnetic Variation") (Sl 51 56) F039;
  Row (lit "Airport Elevation") (Sl 56 61) F055;
  Row (lit "Speed Limit") (Sl 61 64) F072;
  Row (lit "Recommended Navaid") (Sl 64 68) F023;
  Row (lit "ICAO Code (2)") (Sl 68 70) F014;
  Row (lit "Transition Altitude") (Sl 70 75) F053;
  Row (lit "Transition Level") (Sl 75 80) F053;
  Row (lit "Public Military Indicator") (At 80) F177;
  Row (lit "Time Zone") (Sl 81 84) F178;
  Row (lit "Daylight Indicator") (At 84) F179;
  Row (lit "Magnetic/True Indicator") (At 85) F165;
  Row (lit "Datum Code") (Sl 86 89) F197;
  Row (lit "Airport Name") (Sl 93 123) F071;
  Row (lit "File Record No") (Sl 123 128) F031;
  Row (lit "Cycle Date") (Sl 128 132) F032].

(* src/arinc424/definitions/Airport.py:66-79  Airport.read_cont *)
Definition Airport_read_cont_rows : list row := [
  Row (lit "Record Type") (At 0) F002;
  Row (lit "Customer / Area Code") (Sl 1 4) F003;
  Row (lit "Section Code") (AtAt 4 12) F004;
  Row (lit "Airport ICAO Identifier") (Sl 6 10) F006;
  Row (lit "ICAO Code") (Sl 10 12) F014;
  Row (lit "ATA/IATA Designator") (Sl 13 16) F107;
  Row (lit "Continuation Record No") (At 21) F016;
  Row (lit "Application Type") (At 22) F091;
  Row (lit "Notes") (Sl 23 92) F061;
  Row (lit "File Record No") (Sl 123 128) F031;
  Row (lit "Cycle Date") (Sl 128 132) F032].

(* src/arinc424/definitions/Airport.py:87-106  Airport.read_flight0 *)
Definition Airport_read_flight0_rows : list row := [
  Row (lit "Record Type") (At 0) F002;
  Row (lit "Customer / Area Code") (Sl 1 4) F003;
  Row (lit "Section Code") (AtAt 4 12) F004;
  Row (lit "Heliport Identifier") (Sl 6 10) F006;
  Row (lit "ICAO Code") (Sl 10 12) F014;
  Row (lit "ATA/IATA Designator") (Sl 13 16) F107;
  Row (lit "Continuation Record No") (At 21) F016;
  Row (lit "Application Type") (At 22) F091;
  Row (lit "FIR Identifier") (Sl 23 27) F116;
  Row (lit "UIR Identifier") (Sl 27 31) F116;
  Row (lit "Start/End Indicator") (At 31) F152;
  Row (lit "Start/End Date/Time") (Sl 32 43) F153;
  Row (lit "Controlled A/S Indicator") (At 66) F217;
  Row (lit "Controlled A/S Airport Ident") (Sl 67 71) F006;
  Row (lit "Controlled A/S Airport ICAO") (Sl 71 73) F014;
  Row (lit "File Record No") (Sl 123 128) F031;
  Row (lit "Cycle Date") (Sl 128 132) F032].

(* src/arinc424/definitions/Airport.py:118-148  Airport.read_flight1 *)
Definition Airport_read_flight1_rows : list row := [
  Row (lit "Record Type") (At 0) F002;
  Row (lit "Customer / Area Code") (Sl 1 4) F003;
  Row (lit "Section Code") (AtAt 4 12) F004;
  Row (lit "Airport ICAO Identifier") (Sl 6 10) F006;
  Row (lit "ICAO Code") (Sl 10 12) F014;
  Row (lit "ATA/IATA Designator") (Sl 13 16) F107;
  Row (lit "Continuation Record No") (At 21) F016;
  Row (lit "Speed Limit Altitude") (Sl 22 27) F073;
  Row (lit "Longest Runway") (Sl 27 30) F054;
  Row (lit "IFR Capability") (At 30) F108;
  Row (lit "Longest Runway Surface Code") (At 31) F249;
  Row (lit "Airport Reference Pt. Latitude") (Sl 32 41) F036;
  Row (lit "Airport Reference Pt. Longitude") (Sl 41 51) F037;
  Row (lit "Magnetic Variation") (Sl 51 56) F039;
  Row (lit "Airport Elevation") (Sl 56 61) F055;
  Row (lit "Speed Limit") (Sl 61 64) F072;
  Row (lit "Recommended Navaid") (Sl 64 68) F023;
  Row (lit "ICAO Code (2)") (Sl 68 70) F014;
  Row (lit "Transition Altitude") (Sl 70 75) F053;
  Row (lit "Transition Level") (Sl 75 80) F053;
  Row (lit "Public Military Indicator") (At 80) F177;
  Row (lit "Time Zone") (Sl 81 84) F178;
  Row (lit "Daylight Indicator") (At 84) F179;
  Row (lit "Magnetic/True Indicator") (At 85) F165;
  Row (lit "Datum Code") (Sl 86 89) F197;
  Row (lit "Airport Name") (Sl 93 123) F071;
  Row (lit "File Record No") (Sl 123 128) F031;
  Row (lit "Cycle Date") (Sl 128 132) F032].

(* src/arinc424/definitions/Airport.py:16-30  Airport.read *)
Definition Airport_read (line : str) (primary : bool) : result (list field) :=
  if primary then build Airport_read_primary_rows line else
  bindR (index line 22) (fun application =>
  if str_eqb application (lit "A") then build Airport_read_cont_rows line else
  if str_eqb application (lit "P") then build Airport_read_flight0_rows line else
  if str_eqb application (lit "Q") then build Airport_read_flight1_rows line else
  Ok []).

(* ======== class AirportCommunication, src/arinc424/definitions/AirportCommunication.py ======== *)
(* src/arinc424/definitions/AirportCommunication.py:32-68  AirportCommunication.read_primary *)
Definition AirportCommunication_read_primary_rows : list row := [
  Row (lit "Record Type") (At 0) F002;
  Row (lit "Customer / Area Code") (Sl 1 4) F003;
  Row (lit "Section Code") (AtAt 4 12) F004;
  Row (lit "Airport Identifier") (Sl 6 10) F006;
  Row (lit "ICAO Code") (Sl 10 12) F014;
  Row (lit "Communications Type") (Sl 13 16) F101;
  Row (lit "Communications Freq") (Sl 16 23) F103;
  Row (lit "Guard/Transmit") (At 23) F182;
  Row (lit "Frequency Units") (At 24) F104;
  Row (lit "Continuation Record No") (At 25) F016;
  Row (lit "Service Indicator") (Sl 26 29) F106;
  Row (lit "Radar Service") (At 29) F102;
  Row (lit "Modulation") (At 30) F198;
  Row (lit "Signal Emission") (At 31) F199;
  Row (lit "Latitude") (Sl 32 41) F036;
  Row (lit "Longitude") (Sl 41 51) F037;
  Row (lit "Magnetic Variation") (Sl 51 56) F039;
  Row (lit "Facility Elevation") (Sl 56 61) F092;
  Row (lit "H24 Indicator") (At 61) F181;
  Row (lit "Sectorization") (Sl 62 68) F183;
  Row (lit "Altitude Description") (At 68) F029;
  Row (lit "Communication Altitude") (Sl 69 74) F184;
  Row (lit "Communication Altitude (2)") (Sl 74 79) F184;
  Row (lit "Sector Facility") (Sl 79 83) F185;
  Row (lit "ICAO Code (2)") (Sl 83 85) F014;
  Row (lit "Section (2)") (Sl 85 87) F004;
  Row (lit "Distance Description") (At 87) F187;
  Row (lit "Communications Distance") (Sl 88 90) F188;
  Row (lit "Remote Facility") (Sl 90 94) F200;
  Row (lit "ICAO Code (3)") (Sl 94 96) F014;
  Row (lit "Section (3)") (Sl 96 98) F004;
  Row (lit "Call Sign") (Sl 98 123) F105;
  Row (lit "File Record No") (Sl 123 128) F031;
  Row (lit "Cycle Date") (Sl 128 132) F032].

(* src/arinc424/definitions/AirportCommunication.py:71-87  AirportCommunication.read_cont_narr *)
Definition AirportCommunication_read_cont_narr_rows : list row := [
  Row (lit "Record Type") (At 0) F002;
  Row (lit "Customer / Area Code") (Sl 1 4) F003;
  Row (lit "Section Code") (AtAt 4 12) F004;
  Row (lit "Airport Identifier") (Sl 6 10) F006;
  Row (lit "ICAO Code") (Sl 10 12) F014;
  Row (lit "Communications Type") (Sl 13 16) F101;
  Row (lit "Communications Freq") (Sl 16 23) F103;
  Row (lit "Guard/Transmit") (At 23) F182;
  Row (lit "Frequency Units") (At 24) F104;
  Row (lit "Continuation Record No") (At 25) F016;
  Row (lit "Application Type") (At 26) F091;
  Row (lit "Narrative") (Sl 27 87) F186;
  Row (lit "File Record No") (Sl 123 128) F031;
  Row (lit "Cycle Date") (Sl 128 132) F032].

(* src/arinc424/definitions/AirportCommunication.py:90-115  AirportCommunication.read_time *)
Definition AirportCommunication_read_time_rows : list row := [
  Row (lit "Record Type") (At 0) F002;
  Row (lit "Customer / Area Code") (Sl 1 4) F003;
  Row (lit "Section Code") (AtAt 4 12) F004;
  Row (lit "Airport Identifier") (Sl 6 10) F006;
  Row (lit "ICAO Code") (Sl 10 12) F014;
  Row (lit "Communications Type") (Sl 13 16) F101;
  Row (lit "Communications Freq") (Sl 16 23) F103;
  Row (lit "Guard/Transmit") (At 23) F182;
  Row (lit "Frequency Units") (At 24) F104;
  Row (lit "Continuation Record No") (At 25) F016;
  Row (lit "Application Type") (At 26) F091;
  Row (lit "Time Code") (At 27) F131;
  Row (lit "NOTAM") (At 28) F132;
  Row (lit "Time Indicator") (At 29) F138;
  Row (lit "Time of Operaion") (Sl 30 40) F195;
  Row (lit "Time of Operaion (2)") (Sl 40 50) F195;
  Row (lit "Time of Operaion (2)") (Sl 50 60) F195;
  Row (lit "Time of Operaion (3)") (Sl 60 70) F195;
  Row (lit "Time of Operaion (4)") (Sl 70 80) F195;
  Row (lit "Time of Operaion (5)") (Sl 80 90) F195;
  Row (lit "Time of Operaion (6)") (Sl 90 100) F195;
  Row (lit "File Record No") (Sl 123 128) F031;
  Row (lit "Cycle Date") (Sl 128 132) F032].

(* src/arinc424/definitions/AirportCommunication.py:16-29  AirportCommunication.read *)
Definition AirportCommunication_read (line : str) (primary : bool) : result (list field) :=
  if primary then build AirportCommunication_read_primary_rows line else
  bindR (index line 26) (fun application =>
  if str_eqb application (lit "N") then build AirportCommunication_read_cont_narr_rows line else
  Ok []).

(* ======== class AirportGate, src/arinc424/definitions/AirportGate.py ======== *)
(* src/arinc424/definitions/AirportGate.py:29-43  AirportGate.read_primary *)
Definition AirportGate_read_primary_rows : list row := [
  Row (lit "Record Type") (At 0) F002;
  Row (lit "Customer / Area Code") (Sl 1 4) F003;
  Row (lit "Section Code") (AtAt 4 12) F004;
  Row (lit "Airport ICAO Identifier") (Sl 6 10) F006;
  Row (lit "ICAO Code") (Sl 10 12) F014;
  Row (lit "Gate Identifier") (Sl 13 18) F056;
  Row (lit "Continuation Record No") (At 21) F016;
  Row (lit "Gate Latitude") (Sl 32 41) F036;
  Row (lit "Gate Longitude") (Sl 41 51) F037;
  Row (lit "Name") (Sl 98 123) F060;
  Row (lit "File Record No") (Sl 123 128) F031;
  Row (lit "Cycle Date") (Sl 128 132) F032].

(* src/arinc424/definitions/AirportGate.py:46-59  AirportGate.read_cont *)
Definition AirportGate_read_cont_rows : list row := [
  Row (lit "Record Type") (At 0) F002;
  Row (lit "Customer / Area Code") (Sl 1 4) F003;
  Row (lit "Section Code") (AtAt 4 12) F004;
  Row (lit "Airport ICAO Identifier") (Sl 6 10) F006;
  Row (lit "ICAO Code") (Sl 10 12) F014;
  Row (lit "Gate Identifier") (Sl 13 18) F056;
  Row (lit "Continuation Record No") (At 21) F016;
  Row (lit "Application Notes") (At 22) F091;
  Row (lit "Notes") (Sl 23 92) F061;
  Row (lit "File Record No") (Sl 123 128) F031;
  Row (lit "Cycle Date") (Sl 128 132) F032].

(* src/arinc424/definitions/AirportGate.py:16-26  AirportGate.read *)
Definition AirportGate_read (line : str) (primary : bool) : result (list field) :=
  if primary then build AirportGate_read_primary_rows line else
  bindR (index line 22) (fun application =>
  if str_eqb application (lit "A") then build AirportGate_read_cont_rows line else
  Ok []).

(* ======== class AirwaysMarker, src/arinc424/definitions/AirwaysMarker.py ======== *)
(* src/arinc424/definitions/AirwaysMarker.py:29-49  AirwaysMarker.read_primary *)
Definition AirwaysMarker_read_primary_rows : list row := [
  Row (lit "Record Type") (At 0) F002;
  Row (lit "Customer / Area Code") (Sl 1 4) F003;
  Row (lit "Section Code") (Sl 4 6) F004;
  Row (lit "Marker Identifier") (Sl 13 17) F110;
  Row (lit "ICAO Code") (Sl 19 21) F014;
  Row (lit "Continuation Record No") (At 21) F016;
  Row (lit "Marker Code") (Sl 22 26) F111;
  Row (lit "Marker Shape") (At 27) F112;
  Row (lit "Marker Power") (At 28) F113;
  Row (lit "Marker Latitude") (Sl 32 41) F036;
  Row (lit "Marker Longitude") (Sl 41 51) F037;
  Row (lit "Minor Axis") (Sl 51 55) F100;
  Row (lit "Magnetic Variation") (Sl 74 79) F039;
  Row (lit "Facility Elevation") (Sl 79 84) F092;
  Row (lit "Datum Code") (Sl 84 87) F197;
  Row (lit "Marker Name") (Sl 93 123) F071;
  Row (lit "File Record No") (Sl 123 128) F031;
  Row (lit "Cycle Date") (Sl 128 132) F032].

(* src/arinc424/definitions/AirwaysMarker.py:52-63  AirwaysMarker.read_cont *)
Definition AirwaysMarker_read_cont_rows : list row := [
  Row (lit "Record Type") (At 0) F002;
  Row (lit "Customer / Area Code") (Sl 1 4) F003;
  Row (lit "Section Code") (Sl 4 6) F004;
  Row (lit "Marker Identifier") (Sl 13 17) F110;
  Row (lit "ICAO Code") (Sl 19 21) F014;
  Row (lit "Continuation Record No") (At 21) F016;
  Row (lit "Application Type") (At 22) F091;
  Row (lit "File Record No") (Sl 123 128) F031;
  Row (lit "Cycle Date") (Sl 128 132) F032].

(* src/arinc424/definitions/AirwaysMarker.py:16-26  AirwaysMarker.read *)
Definition AirwaysMarker_read (line : str) (primary : bool) : result (list field) :=
  if primary then build AirwaysMarker_read_primary_rows line else
  bindR (index line 22) (fun application =>
  if str_eqb application (lit "A") then build AirwaysMarker_read_cont_rows line else
  Ok []).

(* ======== class Alternate, src/arinc424/definitions/Alternate.py ======== *)
(* src/arinc424/definitions/Alternate.py:9-38  Alternate.read *)
Definition Alternate_read_rows : list row := [
  Row (lit "Record Type") (At 0) F002;
  Row (lit "Customer / Area Code") (Sl 1 4) F003;
  Row (lit "Section Code") (Sl 4 6) F004;
  Row (lit "Alternate Related Airport to Fix") (Sl 6 11) F075;
  Row (lit "Alternate Related ICAO Code") (Sl 11 13) F014;
  Row (lit "Alternate Section") (Sl 13 15) F004;
  Row (lit "Alternate Record Type") (Sl 15 17) F250;
  Row (lit "Distance to Alternate") (Sl 19 22) F251;
  Row (lit "Alternate Type") (At 22) F252;
  Row (lit "Primary Alternate Identifier") (Sl 23 33) F253;
  Row (lit "Distance to Alternate (2)") (Sl 35 38) F251;
  Row (lit "Alternate Type (2)") (At 38) F252;
  Row (lit "Additional Alternate Identifier One") (Sl 39 49) F253;
  Row (lit "Distance to Alternate (3)") (Sl 51 54) F251;
  Row (lit "Alternate Type (3)") (At 54) F252;
  Row (lit "Additional Alternate Identifier Two") (Sl 55 65) F253;
  Row (lit "Distance to Alternate (3)") (Sl 67 70) F251;
  Row (lit "Alternate Type (3)") (At 70) F252;
  Row (lit "Additional Alternate Identifier (3))") (Sl 71 81) F253;
  Row (lit "Distance to Alternate (4)") (Sl 83 86) F251;
  Row (lit "Alternate Type (4)") (At 86) F252;
  Row (lit "Additional Alternate Identifier (4)") (Sl 87 97) F253;
  Row (lit "Distance to Alternate (5)") (Sl 99 102) F251;
  Row (lit "Alternate Type (5)") (At 102) F252;
  Row (lit "Additional Alternate Identifier (5)") (Sl 103 113) F253;
  Row (lit "File Record No") (Sl 123 128) F031;
  Row (lit "Cycle Date") (Sl 128 132) F032].

(* src/arinc424/definitions/Alternate.py:9-38  Alternate.read *)
Definition Alternate_read (line : str) (primary : bool) : result (list field) :=
  build Alternate_read_rows line.

(* ======== class CompanyRoute, src/arinc424/definitions/CompanyRoute.py ======== *)
(* src/arinc424/definitions/CompanyRoute.py:12-42  CompanyRoute.read *)
Definition CompanyRoute_read_rows : list row := [
  Row (lit "Record Type") (At 0) F002;
  Row (lit "Customer") (Sl 1 4) F003;
  Row (lit "Section Code") (Sl 4 6) F004;
  Row (lit "From Airport/Fix") (Sl 6 11) F075;
  Row (lit "ICAO Code") (Sl 12 14) F014;
  Row (lit "Airspace Center") (Sl 9 14) F214;
  Row (lit "Section Code (2)") (Sl 14 16) F004;
  Row (lit "To Airport/Fix") (Sl 16 21) F075;
  Row (lit "ICAO Code (2)") (Sl 22 24) F014;
  Row (lit "Section Code (3)") (Sl 24 26) F004;
  Row (lit "Company Route ID") (Sl 26 36) F076;
  Row (lit "Sequence Number") (Sl 36 39) F012;
  Row (lit "VIA") (Sl 39 42) F077;
  Row (lit "SID/STAR/App/Awy") (Sl 42 48) F078;
  Row (lit "Area Code") (Sl 48 51) F003;
  Row (lit "To Fix") (Sl 51 57) F132;
  Row (lit "ICAO Code") (Sl 57 59) F118;
  Row (lit "Section Code (4)") (At 59) F036;
  Row (lit "RUnway Trans") (Sl 61 66) F037;
  Row (lit "ENRT Trans") (Sl 66 71) F036;
  Row (lit "Cruise Altitude") (Sl 72 77) F037;
  Row (lit "Terminal/Alternate Airport") (Sl 77 81) F119;
  Row (lit "ICAO Code") (Sl 81 83) F120;
  Row (lit "Alternate Distance") (Sl 83 87) F211;
  Row (lit "Cost Index") (Sl 87 90) F121;
  Row (lit "Enroute Alternate Airport") (Sl 90 94) F133;
  Row (lit "File Record No") (Sl 123 128) F031;
  Row (lit "Cycle Date") (Sl 128 132) F032].

(* src/arinc424/definitions/CompanyRoute.py:12-42  CompanyRoute.read *)
Definition CompanyRoute_read (line : str) (primary : bool) : result (list field) :=
  build CompanyRoute_read_rows line.

(* ======== class ControlledAirspace, src/arinc424/definitions/ControlledAirspace.py ======== *)
(* src/arinc424/definitions/ControlledAirspace.py:36-67  ControlledAirspace.read_primary *)
Definition ControlledAirspace_read_primary_rows : list row := [
  Row (lit "Record Type") (At 0) F002;
  Row (lit "Customer / Area Code") (Sl 1 4) F003;
  Row (lit "Section Code") (Sl 4 6) F004;
  Row (lit "ICAO Code") (Sl 6 8) F014;
  Row (lit "Airspace Type") (At 9) F213;
  Row (lit "Airspace Center") (Sl 9 14) F214;
  Row (lit "Section Code (2)") (Sl 14 16) F004;
  Row (lit "Airspace Classification") (At 16) F215;
  Row (lit "Multiple Code") (At 19) F130;
  Row (lit "Sequence Number") (Sl 20 24) F012;
  Row (lit "Continuation Record No") (At 24) F016;
  Row (lit "Level") (At 25) F019;
  Row (lit "Time Code") (At 26) F131;
  Row (lit "NOTAM") (At 27) F132;
  Row (lit "Boundary Via") (Sl 30 32) F118;
  Row (lit "Latitude") (Sl 32 41) F036;
  Row (lit "Longitude") (Sl 41 51) F037;
  Row (lit "Arc Origin Latitude") (Sl 51 60) F036;
  Row (lit "Arc Origin Longitude") (Sl 60 70) F037;
  Row (lit "Arc Distance") (Sl 70 74) F119;
  Row (lit "Arc Bearing") (Sl 74 78) F120;
  Row (lit "RNP") (Sl 78 81) F211;
  Row (lit "Lower Limit") (Sl 81 86) F121;
  Row (lit "Unit Indicator") (At 86) F133;
  Row (lit "Upper Limit") (Sl 87 92) F121;
  Row (lit "Unit Indicator (2)") (At 92) F133;
  Row (lit "Controlled Airspace Name") (Sl 93 123) F216;
  Row (lit "File Record No") (Sl 123 128) F031;
  Row (lit "Cycle Date") (Sl 128 132) F032].

(* src/arinc424/definitions/ControlledAirspace.py:70-97  ControlledAirspace.read_cont *)
Definition ControlledAirspace_read_cont_rows : list row := [
  Row (lit "Record Type") (At 0) F002;
  Row (lit "Customer / Area Code") (Sl 1 4) F003;
  Row (lit "Section Code") (Sl 4 6) F004;
  Row (lit "ICAO Code") (Sl 6 8) F014;
  Row (lit "Airspace Type") (At 9) F213;
  Row (lit "Airspace Center") (Sl 9 14) F214;
  Row (lit "Section Code (2)") (Sl 14 16) F004;
  Row (lit "Airspace Classification") (At 16) F215;
  Row (lit "Multiple Code") (At 19) F130;
  Row (lit "Sequence Number") (Sl 20 24) F012;
  Row (lit "Continuation Record No") (At 24) F016;
  Row (lit "Application Type") (At 25) F091;
  Row (lit "Time Code") (At 26) F131;
  Row (lit "NOTAM") (At 27) F132;
  Row (lit "Time Indicator") (At 28) F138;
  Row (lit "Time of Operations") (Sl 29 39) F195;
  Row (lit "Time of Operations (2)") (Sl 39 49) F195;
  Row (lit "Time of Operations (3)") (Sl 49 59) F195;
  Row (lit "Time of Operations (4)") (Sl 59 69) F195;
  Row (lit "Time of Operations (5)") (Sl 69 79) F195;
  Row (lit "Time of Operations (6)") (Sl 79 89) F195;
  Row (lit "Time of Operations (7)") (Sl 89 99) F195;
  Row (lit "Controlling Agency") (Sl 99 123) F140;
  Row (lit "File Record No") (Sl 123 128) F031;
  Row (lit "Cycle Date") (Sl 128 132) F032].

(* src/arinc424/definitions/ControlledAirspace.py:23-33  ControlledAirspace.read *)
Definition ControlledAirspace_read (line : str) (primary : bool) : result (list field) :=
  if primary then build ControlledAirspace_read_primary_rows line else
  bindR (index line 25) (fun application =>
  if str_eqb application (lit "A") then build ControlledAirspace_read_cont_rows line else
  Ok []).

(* ======== class CruisingTables, src/arinc424/definitions/CruisingTables.py ======== *)
(* src/arinc424/definitions/CruisingTables.py:12-35  CruisingTables.read_primary *)
Definition CruisingTables_read_primary_rows : list row := [
  Row (lit "Record Type") (At 0) F002;
  Row (lit "Section Code") (Sl 4 6) F004;
  Row (lit "Cruise Table Identifier") (Sl 6 8) F134;
  Row (lit "Sequence Number") (At 8) F012;
  Row (lit "Course From") (Sl 28 32) F135;
  Row (lit "Course To") (Sl 32 36) F135;
  Row (lit "Mag/True") (At 36) F165;
  Row (lit "Cruise Level From") (Sl 39 44) F136;
  Row (lit "Vertical Separation") (Sl 44 49) F137;
  Row (lit "Cruise Level To ") (Sl 49 54) F136;
  Row (lit "Cruise Level From (2)") (Sl 54 59) F136;
  Row (lit "Vertical Separation (2)") (Sl 59 64) F137;
  Row (lit "Cruise Level To (2)") (Sl 64 69) F136;
  Row (lit "Cruise Level From (3)") (Sl 69 74) F136;
  Row (lit "Vertical Separation (3)") (Sl 74 79) F137;
  Row (lit "Cruise Level To (3)") (Sl 79 84) F136;
  Row (lit "Cruise Level From (4)") (Sl 84 89) F136;
  Row (lit "Vertical Separation (4)") (Sl 89 94) F137;
  Row (lit "Cruise Level To (4)") (Sl 94 99) F136;
  Row (lit "File Record No") (Sl 123 128) F031;
  Row (lit "Cycle Date") (Sl 128 132) F032].

(* src/arinc424/definitions/CruisingTables.py:8-9  CruisingTables.read *)
Definition CruisingTables_read (line : str) (primary : bool) : result (list field) :=
  build CruisingTables_read_primary_rows line.

(* ======== class EnrouteAirways, src/arinc424/definitions/EnrouteAirways.py ======== *)
(* src/arinc424/definitions/EnrouteAirways.py:33-65  EnrouteAirways.read_primary *)
Definition EnrouteAirways_read_primary_rows : list row := [
  Row (lit "Record Type") (At 0) F002;
  Row (lit "Customer / Area Code") (Sl 1 4) F003;
  Row (lit "Section Code") (Sl 4 6) F004;
  Row (lit "Route Identifier") (Sl 13 18) F008;
  Row (lit "Sequence Number") (Sl 25 29) F012;
  Row (lit "Fix Identifier") (Sl 29 34) F013;
  Row (lit "ICAO Code") (Sl 34 36) F014;
  Row (lit "Section Code (2)") (Sl 36 38) F004;
  Row (lit "Continuation Record No") (At 38) F016;
  Row (lit "Waypoint Desc Code") (Sl 39 43) F017;
  Row (lit "Boundary Code") (At 43) F018;
  Row (lit "Route Type") (At 44) F007;
  Row (lit "Level") (At 45) F019;
  Row (lit "Direction Restriction") (At 46) F115;
  Row (lit "Cruise Table Indicator") (Sl 47 49) F134;
  Row (lit "EU Indicator") (At 49) F164;
  Row (lit "Recommended NAVAID") (Sl 50 54) F023;
  Row (lit "ICAO Code (2)") (Sl 54 56) F014;
  Row (lit "RNP") (Sl 56 59) F211;
  Row (lit "Theta") (Sl 62 66) F024;
  Row (lit "Rho") (Sl 66 70) F025;
  Row (lit "Outbound Magnetic Course") (Sl 70 74) F026;
  Row (lit "Route Distance From") (Sl 74 78) F027;
  Row (lit "Inbound Magnetic Course") (Sl 78 82) F028;
  Row (lit "Minimum Altitude") (Sl 83 88) F030;
  Row (lit "Minimum Altitude (2)") (Sl 88 93) F030;
  Row (lit "Maximum Altitude") (Sl 93 98) F127;
  Row (lit "Fix Radius Transition Indicator") (Sl 98 101) F254;
  Row (lit "File Record No") (Sl 123 128) F031;
  Row (lit "Cycle Date") (Sl 128 132) F032].

(* src/arinc424/definitions/EnrouteAirways.py:68-83  EnrouteAirways.read_cont *)
Definition EnrouteAirways_read_cont_rows : list row := [
  Row (lit "Record Type") (At 0) F002;
  Row (lit "Customer / Area Code") (Sl 1 4) F003;
  Row (lit "Section Code") (Sl 4 6) F004;
  Row (lit "Route Identifier") (Sl 13 18) F008;
  Row (lit "Sequence Number") (Sl 25 29) F012;
  Row (lit "Fix Identifier") (Sl 29 34) F013;
  Row (lit "ICAO Code") (Sl 34 36) F014;
  Row (lit "Section Code (2)") (Sl 36 38) F004;
  Row (lit "Continuation Record No") (At 38) F016;
  Row (lit "Application Type") (At 39) F091;
  Row (lit "Notes") (Sl 40 109) F061;
  Row (lit "File Record No") (Sl 123 128) F031;
  Row (lit "Cycle Date") (Sl 128 132) F032].

(* src/arinc424/definitions/EnrouteAirways.py:86-118  EnrouteAirways.read_flight_plan0 *)
Definition EnrouteAirways_read_flight_plan0_rows : list row := [
  Row (lit "Record Type") (At 0) F002;
  Row (lit "Customer / Area Code") (Sl 1 4) F003;
  Row (lit "Section Code") (Sl 4 6) F004;
  Row (lit "Route Identifier") (Sl 13 18) F008;
  Row (lit "Sequence Number") (Sl 25 29) F012;
  Row (lit "Fix Identifier") (Sl 29 34) F013;
  Row (lit "ICAO Code") (Sl 34 36) F014;
  Row (lit "Section Code (2)") (Sl 36 38) F004;
  Row (lit "Continuation Record No") (At 38) F016;
  Row (lit "Application Type") (At 39) F091;
  Row (lit "Start/End Indicator") (At 40) F152;
  Row (lit "Start/End Date") (Sl 41 52) F153;
  Row (lit "Restr. Air ICAO Code") (Sl 66 68) F014;
  Row (lit "Restr. Air Type") (At 68) F128;
  Row (lit "Restr. Air Designation") (Sl 69 79) F129;
  Row (lit "Restr. Air Multiple Code") (At 79) F130;
  Row (lit "Restr. Air ICAO Code (2)") (Sl 80 82) F014;
  Row (lit "Restr. Air Type (2)") (At 82) F012;
  Row (lit "Restr. Air Designation (2)") (Sl 83 93) F129;
  Row (lit "Restr. Air Multiple Code (2)") (At 93) F130;
  Row (lit "Restr. Air ICAO Code (3)") (Sl 94 96) F014;
  Row (lit "Restr. Air Type (3)") (At 96) F012;
  Row (lit "Restr. Air Designation (3)") (Sl 97 107) F129;
  Row (lit "Restr. Air Multiple Code (3)") (At 107) F130;
  Row (lit "Restr. Air ICAO Code (4)") (Sl 108 110) F014;
  Row (lit "Restr. Air Type (4)") (At 110) F012;
  Row (lit "Restr. Air Designation (4)") (Sl 111 121) F129;
  Row (lit "Restr. Air Link Continuation") (At 122) F174;
  Row (lit "File Record No") (Sl 123 128) F031;
  Row (lit "Cycle Date") (Sl 128 132) F032].

(* src/arinc424/definitions/EnrouteAirways.py:121-153  EnrouteAirways.read_flight_plan1 *)
Definition EnrouteAirways_read_flight_plan1_rows : list row := [
  Row (lit "Record Type") (At 0) F002;
  Row (lit "Customer / Area Code") (Sl 1 4) F003;
  Row (lit "Section Code") (Sl 4 6) F004;
  Row (lit "Route Identifier") (Sl 13 18) F008;
  Row (lit "Sequence Number") (Sl 25 29) F012;
  Row (lit "Fix Identifier") (Sl 29 34) F013;
  Row (lit "ICAO Code") (Sl 34 36) F014;
  Row (lit "Section Code (2)") (Sl 36 38) F004;
  Row (lit "Continuation Record No") (At 38) F016;
  Row (lit "Waypoint Desc Code") (Sl 39 43) F017;
  Row (lit "Boundary Code") (At 43) F018;
  Row (lit "Route Type") (At 44) F007;
  Row (lit "Level") (At 45) F019;
  Row (lit "Direction Restriction") (At 46) F115;
  Row (lit "Cruise Table Indicator") (Sl 47 49) F134;
  Row (lit "EU Indicator") (At 49) F164;
  Row (lit "Recommended NAVAID") (Sl 50 54) F023;
  Row (lit "ICAO Code (2)") (Sl 54 56) F014;
  Row (lit "RNP") (Sl 56 59) F211;
  Row (lit "Theta") (Sl 62 66) F024;
  Row (lit "Rho") (Sl 66 70) F025;
  Row (lit "Outbound Magnetic Course") (Sl 70 74) F026;
  Row (lit "Route Distance From") (Sl 74 78) F027;
  Row (lit "Inbound Magnetic Course") (Sl 78 82) F028;
  Row (lit "Minimum Altitude") (Sl 83 88) F030;
  Row (lit "Minimum Altitude (2)") (Sl 88 93) F030;
  Row (lit "Maximum Altitude") (Sl 93 98) F127;
  Row (lit "Fix Radius Transition Indicator") (Sl 98 101) F254;
  Row (lit "File Record No") (Sl 123 128) F031;
  Row (lit "Cycle Date") (Sl 128 132) F032].

(* src/arinc424/definitions/EnrouteAirways.py:16-30  EnrouteAirways.read *)
Definition EnrouteAirways_read (line : str) (primary : bool) : result (list field) :=
  if primary then build EnrouteAirways_read_primary_rows line else
  bindR (index line 39) (fun application =>
  if str_eqb application (lit "A") then build EnrouteAirways_read_cont_rows line else
  if str_eqb application (lit "P") then build EnrouteAirways_read_flight_plan0_rows line else
  if str_eqb application (lit "Q") then build EnrouteAirways_read_flight_plan1_rows line else
  Err ValueError).

(* ======== class EnrouteAirwaysRestriction, src/arinc424/definitions/EnrouteAirwaysRestriction.py ======== *)
(* src/arinc424/definitions/EnrouteAirwaysRestriction.py:48-89  EnrouteAirwaysRestriction.primary_altitude_exclude *)
Definition EnrouteAirwaysRestriction_primary_altitude_exclude_rows : list row := [
  Row (lit "Record Type") (At 0) F002;
  Row (lit "Customer / Area Code") (Sl 1 4) F003;
  Row (lit "Section Code") (Sl 4 6) F004;
  Row (lit "Route Identifier") (Sl 6 11) F008;
  Row (lit "Restriction Identifier") (Sl 12 15) F154;
  Row (lit "Restriction Type") (Sl 15 17) F201;
  Row (lit "Continuation Record No") (At 17) F016;
  Row (lit "Start Fix Identifier") (Sl 18 23) F013;
  Row (lit "Start Fix ICAO Code") (Sl 23 25) F014;
  Row (lit "Start Fix Section Code") (Sl 25 27) F004;
  Row (lit "End Fix Identifier") (Sl 27 32) F013;
  Row (lit "End Fix ICAO Code") (Sl 32 34) F014;
  Row (lit "End Fix Section Code") (Sl 34 36) F004;
  Row (lit "Start Date") (Sl 37 44) F157;
  Row (lit "End Date") (Sl 44 51) F157;
  Row (lit "Time Code") (At 51) F131;
  Row (lit "Time Indicator") (At 52) F138;
  Row (lit "Time of Operation") (Sl 53 63) F195;
  Row (lit "Time of Operation") (Sl 63 73) F195;
  Row (lit "Time of Operation") (Sl 73 83) F195;
  Row (lit "Time of Operation") (Sl 83 93) F195;
  Row (lit "Exclusion Indicator") (At 93) F202;
  Row (lit "Units of Altitude") (At 94) F160;
  Row (lit "Restriction Altitude") (Sl 95 98) F161;
  Row (lit "Block Indicator") (At 98) F203;
  Row (lit "Restriction Altitude") (Sl 99 102) F161;
  Row (lit "Block Indicator") (At 102) F203;
  Row (lit "Restriction Altitude") (Sl 103 106) F161;
  Row (lit "Block Indicator") (At 106) F203;
  Row (lit "Restriction Altitude") (Sl 107 110) F161;
  Row (lit "Block Indicator") (At 110) F203;
  Row (lit "Restriction Altitude") (Sl 111 114) F161;
  Row (lit "Block Indicator") (At 114) F203;
  Row (lit "Restriction Altitude") (Sl 115 118) F161;
  Row (lit "Block Indicator") (At 118) F203;
  Row (lit "Restriction Altitude") (Sl 119 122) F161;
  Row (lit "Block Indicator") (At 122) F203;
  Row (lit "File Record No") (Sl 123 128) F031;
  Row (lit "Cycle Date") (Sl 128 132) F032].

(* src/arinc424/definitions/EnrouteAirwaysRestriction.py:91-125  EnrouteAirwaysRestriction.cont_altitude_exclude *)
Definition EnrouteAirwaysRestriction_cont_altitude_exclude_rows : list row := [
  Row (lit "Record Type") (At 0) F002;
  Row (lit "Customer / Area Code") (Sl 1 4) F003;
  Row (lit "Section Code") (Sl 4 6) F004;
  Row (lit "Route Identifier") (Sl 6 11) F008;
  Row (lit "Restriction Identifier") (Sl 12 15) F154;
  Row (lit "Restriction Type") (Sl 15 17) F201;
  Row (lit "Continuation Record No") (At 17) F016;
  Row (lit "Application Type") (At 18) F091;
  Row (lit "Time Code") (At 51) F131;
  Row (lit "Time Indicator") (At 52) F138;
  Row (lit "Time of Operation") (Sl 53 63) F195;
  Row (lit "Time of Operation (2)") (Sl 63 73) F195;
  Row (lit "Time of Operation (3)") (Sl 73 83) F195;
  Row (lit "Time of Operation (4)") (Sl 83 93) F195;
  Row (lit "Exclusion Operator") (At 93) F202;
  Row (lit "Units of Altitude") (At 94) F160;
  Row (lit "Restriction Altitude") (Sl 95 98) F161;
  Row (lit "Block Indicator") (At 98) F203;
  Row (lit "Restriction Altitude (2)") (Sl 99 102) F161;
  Row (lit "Block Indicator (2)") (At 102) F203;
  Row (lit "Restriction Altitude (3)") (Sl 103 106) F161;
  Row (lit "Block Indicator (3)") (At 106) F203;
  Row (lit "Restriction Altitude (4)") (Sl 107 110) F161;
  Row (lit "Block Indicator (4)") (At 110) F203;
  Row (lit "Restriction Altitude (5)") (Sl 111 114) F161;
  Row (lit "Block Indicator (5)") (At 114) F203;
  Row (lit "Restriction Altitude (6)") (Sl 115 118) F161;
  Row (lit "Block Indicator (6)") (At 118) F203;
  Row (lit "Restriction Altitude (7)") (Sl 119 122) F161;
  Row (lit "Block Indicator (7)") (At 122) F203;
  Row (lit "File Record No") (Sl 123 128) F031;
  Row (lit "Cycle Date") (Sl 128 132) F032].

(* src/arinc424/definitions/EnrouteAirwaysRestriction.py:134-154  EnrouteAirwaysRestriction.primary_note_restriction *)
Definition EnrouteAirwaysRestriction_primary_note_restriction_rows : list row := [
  Row (lit "Record Type") (At 0) F002;
  Row (lit "Customer / Area Code") (Sl 1 4) F003;
  Row (lit "Section Code") (Sl 4 6) F004;
  Row (lit "Route Identifier") (Sl 7 11) F008;
  Row (lit "Restriction Identifier") (Sl 12 15) F154;
  Row (lit "Restriction Type") (Sl 15 17) F201;
  Row (lit "Continuation Record No") (At 17) F016;
  Row (lit "Start Fix Identifier") (Sl 18 23) F013;
  Row (lit "Start Fix ICAO Code") (Sl 23 25) F014;
  Row (lit "Start Fix Section Code") (At 25) F004;
  Row (lit "End Fix Identifier") (Sl 27 32) F013;
  Row (lit "End Fix ICAO Code") (Sl 32 34) F014;
  Row (lit "End Fix Section Code") (Sl 34 36) F004;
  Row (lit "Start Date") (Sl 37 44) F157;
  Row (lit "End Date") (Sl 44 51) F157;
  Row (lit "Restriction Notes") (Sl 51 120) F163;
  Row (lit "File Record No") (Sl 123 128) F031;
  Row (lit "Cycle Date") (Sl 128 132) F032].

(* src/arinc424/definitions/EnrouteAirwaysRestriction.py:157-170  EnrouteAirwaysRestriction.cont_note_restriction *)
Definition EnrouteAirwaysRestriction_cont_note_restriction_rows : list row := [
  Row (lit "Record Type") (At 0) F002;
  Row (lit "Customer / Area Code") (Sl 1 4) F003;
  Row (lit "Section Code") (Sl 4 6) F004;
  Row (lit "Route Identifier") (Sl 7 11) F008;
  Row (lit "Restriction Identifier") (Sl 12 15) F154;
  Row (lit "Restriction Type") (Sl 15 17) F201;
  Row (lit "Continuation Record No") (At 17) F016;
  Row (lit "Application Type") (At 18) F091;
  Row (lit "Restriction Notes") (Sl 51 120) F163;
  Row (lit "File Record No") (Sl 123 128) F031;
  Row (lit "Cycle Date") (Sl 128 132) F032].

(* src/arinc424/definitions/EnrouteAirwaysRestriction.py:179-205  EnrouteAirwaysRestriction.primary_seasonal_closure *)
Definition EnrouteAirwaysRestriction_primary_seasonal_closure_rows : list row := [
  Row (lit "Record Type") (At 0) F002;
  Row (lit "Customer / Area Code") (Sl 1 4) F003;
  Row (lit "Section Code") (Sl 4 6) F004;
  Row (lit "Route Identifier") (Sl 6 11) F008;
  Row (lit "Restriction Identifier") (Sl 12 15) F154;
  Row (lit "Restriction Type") (Sl 15 17) F201;
  Row (lit "Continuation Record No") (At 17) F016;
  Row (lit "Start Fix Identifier") (Sl 18 23) F013;
  Row (lit "Start Fix ICAO Code") (Sl 23 25) F014;
  Row (lit "Start Fix Section Code") (Sl 25 27) F004;
  Row (lit "End Fix Identifier") (Sl 27 32) F013;
  Row (lit "End Fix ICAO Code") (Sl 32 34) F014;
  Row (lit "End Fix Section Code") (Sl 34 36) F004;
  Row (lit "Start Date") (Sl 37 44) F157;
  Row (lit "End Date") (Sl 44 51) F157;
  Row (lit "Time Code") (At 51) F131;
  Row (lit "Time Indicator") (At 52) F138;
  Row (lit "Time of Operation") (Sl 53 63) F195;
  Row (lit "Time of Operation (2)") (Sl 63 73) F195;
  Row (lit "Time of Operation (3)") (Sl 73 83) F195;
  Row (lit "Time of Operation (4)") (Sl 83 93) F195;
  Row (lit "Cruise Table Ident") (Sl 93 95) F134;
  Row (lit "File Record No") (Sl 123 128) F031;
  Row (lit "Cycle Date") (Sl 128 132) F032].

(* src/arinc424/definitions/EnrouteAirwaysRestriction.py:214-240  EnrouteAirwaysRestriction.primary_cruise_table *)
Definition EnrouteAirwaysRestriction_primary_cruise_table_rows : list row := [
  Row (lit "Record Type") (At 0) F002;
  Row (lit "Customer / Area Code") (Sl 1 4) F003;
  Row (lit "Section Code") (Sl 4 6) F004;
  Row (lit "Route Identifier") (Sl 6 11) F008;
  Row (lit "Restriction Identifier") (Sl 12 15) F154;
  Row (lit "Restriction Type") (Sl 15 17) F201;
  Row (lit "Continuation Record No") (At 17) F016;
  Row (lit "Start Fix Identifier") (Sl 18 23) F013;
  Row (lit "Start Fix ICAO Code") (Sl 23 25) F014;
  Row (lit "Start Fix Section Code") (Sl 25 27) F004;
  Row (lit "End Fix Identifier") (Sl 27 32) F013;
  Row (lit "End Fix ICAO Code") (Sl 32 34) F014;
  Row (lit "End Fix Section Code") (Sl 34 36) F004;
  Row (lit "Start Date") (Sl 37 44) F157;
  Row (lit "End Date") (Sl 44 51) F157;
  Row (lit "Time Code") (At 51) F131;
  Row (lit "Time Indicator") (At 52) F138;
  Row (lit "Time of Operation") (Sl 53 63) F195;
  Row (lit "Time of Operation (2)") (Sl 63 73) F195;
  Row (lit "Time of Operation (3)") (Sl 73 83) F195;
  Row (lit "Time of Operation (4)") (Sl 83 93) F195;
  Row (lit "Cruise Table Ident") (Sl 93 95) F134;
  Row (lit "File Record No") (Sl 123 128) F031;
  Row (lit "Cycle Date") (Sl 128 132) F032].

(* src/arinc424/definitions/EnrouteAirwaysRestriction.py:243-262  EnrouteAirwaysRestriction.cont_cruise_table *)
Definition EnrouteAirwaysRestriction_cont_cruise_table_rows : list row := [
  Row (lit "Record Type") (At 0) F002;
  Row (lit "Customer / Area Code") (Sl 1 4) F003;
  Row (lit "Section Code") (Sl 4 6) F004;
  Row (lit "Route Identifier") (Sl 6 11) F008;
  Row (lit "Restriction Identifier") (Sl 12 15) F154;
  Row (lit "Restriction Type") (Sl 15 17) F201;
  Row (lit "Continuation Record No") (At 17) F016;
  Row (lit "Application Type") (At 18) F091;
  Row (lit "Time Code") (At 51) F131;
  Row (lit "Time Indicator") (At 52) F138;
  Row (lit "Time of Operation") (Sl 53 63) F195;
  Row (lit "Time of Operation (2)") (Sl 63 73) F195;
  Row (lit "Time of Operation (3)") (Sl 73 83) F195;
  Row (lit "Time of Operation (4)") (Sl 83 93) F195;
  Row (lit "Cruise Table Ident") (Sl 93 95) F134;
  Row (lit "File Record No") (Sl 123 128) F031;
  Row (lit "Cycle Date") (Sl 128 132) F032].

(* src/arinc424/definitions/EnrouteAirwaysRestriction.py:14-39  EnrouteAirwaysRestriction.read *)
Definition EnrouteAirwaysRestriction_read (line : str) (primary : bool) : result (list field) :=
  let application := slice 15 17 line in   (* application_type, line 11-12 *)
  if primary then
    if str_eqb application (lit "AE") then build EnrouteAirwaysRestriction_primary_altitude_exclude_rows line else
    if str_eqb application (lit "TC") then build EnrouteAirwaysRestriction_primary_cruise_table_rows line else
    if str_eqb application (lit "SC") then build EnrouteAirwaysRestriction_primary_seasonal_closure_rows line else
    if str_eqb application (lit "NR") then build EnrouteAirwaysRestriction_primary_note_restriction_rows line else
    Err ValueError
  else
    if str_eqb application (lit "AE") then build EnrouteAirwaysRestriction_cont_altitude_exclude_rows line else
    if str_eqb application (lit "TC") then build EnrouteAirwaysRestriction_cont_cruise_table_rows line else
    if str_eqb application (lit "NR") then build EnrouteAirwaysRestriction_cont_note_restriction_rows line else
    Err ValueError.

(* ======== class EnrouteCommunications, src/arinc424/definitions/EnrouteCommunications.py ======== *)
(* src/arinc424/definitions/EnrouteCommunications.py:31-62  EnrouteCommunications.read_primary *)
Definition EnrouteCommunications_read_primary_rows : list row := [
  Row (lit "Record Type") (At 0) F002;
  Row (lit "Customer / Area Code") (Sl 1 4) F003;
  Row (lit "Section Code") (Sl 4 6) F004;
  Row (lit "FIR/RDO Ident") (Sl 6 10) F190;
  Row (lit "FIR/UIR Address") (Sl 10 14) F151;
  Row (lit "Indicator") (At 14) F117;
  Row (lit "Remote Name") (Sl 18 43) F189;
  Row (lit "Communications Type") (Sl 43 46) F101;
  Row (lit "Comm Frequency") (Sl 46 53) F103;
  Row (lit "Guard/Transmit") (At 53) F182;
  Row (lit "Frequency Units") (At 54) F104;
  Row (lit "Continuation Record No") (At 55) F016;
  Row (lit "Service Indicator") (Sl 56 59) F106;
  Row (lit "Radar Service") (At 59) F102;
  Row (lit "Modulation") (At 60) F198;
  Row (lit "Signal Emission") (At 61) F199;
  Row (lit "Latitude") (Sl 62 71) F036;
  Row (lit "Longitude") (Sl 71 81) F037;
  Row (lit "Magnetic Variation") (Sl 81 86) F039;
  Row (lit "Facility Elevation") (Sl 86 91) F092;
  Row (lit "H24 Indicator") (At 91) F181;
  Row (lit "Altitude Description") (At 92) F029;
  Row (lit "Communication Altitude") (Sl 93 98) F184;
  Row (lit "Communication Altitude (2)") (Sl 98 103) F184;
  Row (lit "Remote Facility") (Sl 103 107) F200;
  Row (lit "ICAO Code") (Sl 107 109) F014;
  Row (lit "Section Code (2)") (Sl 109 111) F004;
  Row (lit "File Record No") (Sl 123 128) F031;
  Row (lit "Cycle Date") (Sl 128 132) F032].

(* src/arinc424/definitions/EnrouteCommunications.py:65-87  EnrouteCommunications.read_cont *)
Definition EnrouteCommunications_read_cont_rows : list row := [
  Row (lit "Record Type") (At 0) F002;
  Row (lit "Customer / Area Code") (Sl 1 4) F003;
  Row (lit "Section Code") (Sl 4 6) F004;
  Row (lit "FIR/RDO Ident") (Sl 6 10) F190;
  Row (lit "FIR/UIR Address") (Sl 10 14) F151;
  Row (lit "Indicator") (At 14) F117;
  Row (lit "Remote Name") (Sl 18 43) F189;
  Row (lit "Communications Type") (Sl 43 46) F101;
  Row (lit "Comm Frequency") (Sl 46 53) F103;
  Row (lit "Guard/Transmit") (At 53) F182;
  Row (lit "Frequency Units") (At 54) F104;
  Row (lit "Continuation Record No") (At 55) F016;
  Row (lit "Application Type") (At 56) F091;
  Row (lit "Time Code") (At 57) F131;
  Row (lit "NOTAM") (At 58) F132;
  Row (lit "Time Indicator") (At 59) F138;
  Row (lit "Time of Operation") (Sl 60 70) F195;
  Row (lit "Call Sign") (Sl 93 123) F105;
  Row (lit "File Record No") (Sl 123 128) F031;
  Row (lit "Cycle Date") (Sl 128 132) F032].

(* src/arinc424/definitions/EnrouteCommunications.py:90-113  EnrouteCommunications.read_timeop *)
Definition EnrouteCommunications_read_timeop_rows : list row := [
  Row (lit "Record Type") (At 0) F002;
  Row (lit "Customer / Area Code") (Sl 1 4) F003;
  Row (lit "Section Code") (Sl 4 6) F004;
  Row (lit "FIR/RDO Ident") (Sl 6 10) F190;
  Row (lit "FIR/UIR Address") (Sl 10 14) F151;
  Row (lit "Indicator") (At 14) F117;
  Row (lit "Remote Name") (Sl 18 43) F189;
  Row (lit "Communications Type") (Sl 43 46) F101;
  Row (lit "Comm Frequency") (Sl 46 53) F103;
  Row (lit "Guard/Transmit") (At 53) F182;
  Row (lit "Frequency Units") (At 54) F104;
  Row (lit "Continuation Record No") (At 55) F016;
  Row (lit "Application Type") (At 56) F091;
  Row (lit "Time of Operation") (Sl 60 70) F195;
  Row (lit "Time of Operation (2)") (Sl 70 80) F195;
  Row (lit "Time of Operation (3)") (Sl 80 90) F195;
  Row (lit "Time of Operation (4)") (Sl 90 100) F195;
  Row (lit "Time of Operation (5)") (Sl 100 110) F195;
  Row (lit "Time of Operation (6)") (Sl 110 120) F195;
  Row (lit "File Record No") (Sl 123 128) F031;
  Row (lit "Cycle Date") (Sl 128 132) F032].

(* src/arinc424/definitions/EnrouteCommunications.py:16-28  EnrouteCommunications.read *)
Definition EnrouteCommunications_read (line : str) (primary : bool) : result (list field) :=
  if primary then build EnrouteCommunications_read_primary_rows line else
  bindR (index line 56) (fun application =>
  if str_eqb application (lit " ") then build EnrouteCommunications_read_cont_rows line else
  if str_eqb application (lit "T") then build EnrouteCommunications_read_timeop_rows line else
  Err ValueError).

(* ======== class FIRUIR, src/arinc424/definitions/FIRUIR.py ======== *)
(* src/arinc424/definitions/FIRUIR.py:29-58  FIRUIR.read_primary *)
Definition FIRUIR_read_primary_rows : list row := [
  Row (lit "Record Type") (At 0) F002;
  Row (lit "Customer / Area Code") (Sl 1 4) F003;
  Row (lit "Section Code") (Sl 4 6) F004;
  Row (lit "FIR/UIR Identifier") (Sl 6 10) F116;
  Row (lit "FIR/UIR Address") (Sl 10 14) F151;
  Row (lit "FIR/UIR Indicator") (At 14) F117;
  Row (lit "Sequence Number") (Sl 15 19) F012;
  Row (lit "Continuation Record No") (At 19) F016;
  Row (lit "Adjacent FIR Identifier") (Sl 20 24) F116;
  Row (lit "Adjacent UIR Identifier") (Sl 24 28) F116;
  Row (lit "Reporting Units Speed") (At 28) F122;
  Row (lit "Reporting Units Altitude") (At 29) F123;
  Row (lit "Entry Report") (At 30) F124;
  Row (lit "Boundary Via") (Sl 32 34) F118;
  Row (lit "FIR/UIR Latitude") (Sl 34 43) F036;
  Row (lit "FIR/UIR Longitude") (Sl 43 53) F037;
  Row (lit "Arc Origin Latitude") (Sl 53 62) F036;
  Row (lit "Arc Origin Longitude") (Sl 62 72) F037;
  Row (lit "Arc Distance") (Sl 72 76) F119;
  Row (lit "Arc Bearing") (Sl 76 80) F120;
  Row (lit "FIR Upper Limit") (Sl 80 85) F121;
  Row (lit "UIR Lower Limit") (Sl 85 90) F121;
  Row (lit "UIR Upper Limit") (Sl 90 95) F121;
  Row (lit "Cruise Table Ind") (Sl 95 97) F134;
  Row (lit "FIR/UIR Name") (Sl 98 123) F125;
  Row (lit "File Record No") (Sl 123 128) F031;
  Row (lit "Cycle Date") (Sl 128 132) F032].

(* src/arinc424/definitions/FIRUIR.py:61-74  FIRUIR.read_cont *)
Definition FIRUIR_read_cont_rows : list row := [
  Row (lit "Record Type") (At 0) F002;
  Row (lit "Customer / Area Code") (Sl 1 4) F003;
  Row (lit "Section Code") (Sl 4 6) F004;
  Row (lit "FIR/UIR Identifier") (Sl 6 10) F116;
  Row (lit "FIR/UIR Address") (Sl 10 14) F151;
  Row (lit "FIR/UIR Indicator") (At 14) F117;
  Row (lit "Sequence Number") (Sl 15 19) F012;
  Row (lit "Continuation Record No") (At 19) F016;
  Row (lit "Application Type") (At 20) F091;
  Row (lit "File Record No") (Sl 123 128) F031;
  Row (lit "Cycle Date") (Sl 128 132) F032].

(* src/arinc424/definitions/FIRUIR.py:16-26  FIRUIR.read *)
Definition FIRUIR_read (line : str) (primary : bool) : result (list field) :=
  if primary then build FIRUIR_read_primary_rows line else
  bindR (index line 20) (fun application =>
  if str_eqb application (lit "A") then build FIRUIR_read_cont_rows line else
  Ok []).

(* ======== class FlightPlanning, src/arinc424/definitions/FlightPlanning.py ======== *)
(* src/arinc424/definitions/FlightPlanning.py:31-74  FlightPlanning.read_primary *)
Definition FlightPlanning_read_primary_rows : list row := [
  Row (lit "Record Type") (At 0) F002;
  Row (lit "Customer / Area Code") (Sl 1 4) F003;
  Row (lit "Section Code") (AtAt 4 12) F004;
  Row (lit "Airport Identifier") (Sl 6 10) F006;
  Row (lit "ICAO Code") (Sl 10 12) F014;
  Row (lit "SID/STAR/Approach Identifier") (Sl 13 19) F009;
  Row (lit "Procedure Type") (At 19) F230;
  Row (lit "Runway Transition Identifier") (Sl 20 25) F011;
  Row (lit "Runway Transition Fix") (Sl 25 30) F013;
  Row (lit "ICAO Code (2)") (Sl 30 32) F014;
  Row (lit "Section Code (2)") (Sl 32 34) F004;
  Row (lit "Runway Transition Along Track Dist") (Sl 34 37) F231;
  Row (lit "Common Segment Transition Fix") (Sl 37 42) F013;
  Row (lit "ICAO Code (3)") (Sl 42 44) F014;
  Row (lit "Section Code (3)") (Sl 44 46) F004;
  Row (lit "Common Segment Along Track Dist") (Sl 46 49) F231;
  Row (lit "Enroute Transition Identifier") (Sl 49 54) F011;
  Row (lit "Enroute Transition Fix") (Sl 54 59) F013;
  Row (lit "ICAO Code (4)") (Sl 59 61) F014;
  Row (lit "Section Code (4)") (Sl 61 63) F004;
  Row (lit "Enroute Transition Along Track Dist") (Sl 63 66) F231;
  Row (lit "Sequence Number") (Sl 66 69) F012;
  Row (lit "Continuation Number") (At 69) F016;
  Row (lit "Number of Engines") (Sl 70 74) F232;
  Row (lit "Turboprop/Jet Indicator") (At 74) F233;
  Row (lit "RNAV Flag") (At 75) F234;
  Row (lit "ATC Weight Category") (At 76) F235;
  Row (lit "ATC Identifier") (Sl 77 84) F236;
  Row (lit "Time Code") (At 84) F131;
  Row (lit "Procedure Description") (Sl 85 100) F237;
  Row (lit "Leg Type Code") (Sl 100 102) F238;
  Row (lit "Reporting Code") (At 102) F239;
  Row (lit "Initial Departure Magnetic Course") (Sl 103 107) F026;
  Row (lit "Altitude Description") (At 107) F029;
  Row (lit "Altitude") (Sl 108 111) F240;
  Row (lit "Altitude (2)") (Sl 111 114) F240;
  Row (lit "Speed Limit") (Sl 114 117) F072;
  Row (lit "Initial Cruise Table") (Sl 117 119) F134;
  Row (lit "Speed Limit Description") (At 119) F261;
  Row (lit "File Record No") (Sl 123 128) F031;
  Row (lit "Cycle Date") (Sl 128 132) F032].

(* src/arinc424/definitions/FlightPlanning.py:77-115  FlightPlanning.read_cont *)
Definition FlightPlanning_read_cont_rows : list row := [
  Row (lit "Record Type") (At 0) F002;
  Row (lit "Customer / Area Code") (Sl 1 4) F003;
  Row (lit "Section Code") (AtAt 4 12) F004;
  Row (lit "Airport Identifier") (Sl 6 10) F006;
  Row (lit "ICAO Code") (Sl 10 12) F014;
  Row (lit "SID/STAR/Approach Identifier") (Sl 13 19) F009;
  Row (lit "Procedure Type") (At 19) F230;
  Row (lit "Runway Transition Identifier") (Sl 20 25) F011;
  Row (lit "Runway Transition Fix") (Sl 25 30) F013;
  Row (lit "ICAO Code (2)") (Sl 30 32) F014;
  Row (lit "Section Code (2)") (Sl 32 34) F004;
  Row (lit "Runway Transition Along Track Dist") (Sl 34 37) F231;
  Row (lit "Common Segment Transition Fix") (Sl 37 42) F013;
  Row (lit "ICAO Code (3)") (Sl 42 44) F014;
  Row (lit "Section Code (3)") (Sl 44 46) F004;
  Row (lit "Common Segment Along Track Dist") (Sl 46 49) F231;
  Row (lit "Enroute Transition Identifier") (Sl 49 54) F011;
  Row (lit "Enroute Transition Fix") (Sl 54 59) F013;
  Row (lit "ICAO Code (4)") (Sl 59 61) F014;
  Row (lit "Section Code (4)") (Sl 61 63) F004;
  Row (lit "Enroute Transition Along Track Dist") (Sl 63 66) F231;
  Row (lit "Sequence Number") (Sl 66 69) F012;
  Row (lit "Continuation Number") (At 69) F016;
  Row (lit "Application Type") (At 70) F091;
  Row (lit "Intermediate Fix Identifier") (Sl 71 76) F013;
  Row (lit "ICAO Code (5)") (Sl 76 78) F014;
  Row (lit "Section Code (5)") (Sl 91 93) F004;
  Row (lit "Intermediate Distance") (Sl 106 109) F231;
  Row (lit "Fix Related Transition Code") (At 109) F241;
  Row (lit "Intermediate Fix Identifier") (Sl 110 115) F013;
  Row (lit "ICAO Code (6)") (Sl 115 117) F014;
  Row (lit "Section Code (6)") (At 118) F004;
  Row (lit "Intermediate Distance") (Sl 119 122) F231;
  Row (lit "Fix Related Transition Code") (At 122) F241;
  Row (lit "File Record No") (Sl 123 128) F031;
  Row (lit "Cycle Date") (Sl 128 132) F032].

(* src/arinc424/definitions/FlightPlanning.py:118-153  FlightPlanning.read_timeop *)
Definition FlightPlanning_read_timeop_rows : list row := [
  Row (lit "Record Type") (At 0) F002;
  Row (lit "Customer / Area Code") (Sl 1 4) F003;
  Row (lit "Section Code") (AtAt 4 12) F004;
  Row (lit "Airport Identifier") (Sl 6 10) F006;
  Row (lit "ICAO Code") (Sl 10 12) F014;
  Row (lit "SID/STAR/Approach Identifier") (Sl 13 19) F009;
  Row (lit "Procedure Type") (At 19) F230;
  Row (lit "Runway Transition Identifier") (Sl 20 25) F011;
  Row (lit "Runway Transition Fix") (Sl 25 30) F013;
  Row (lit "ICAO Code (2)") (Sl 30 32) F014;
  Row (lit "Section Code (2)") (Sl 32 34) F004;
  Row (lit "Runway Transition Along Track Dist") (Sl 34 37) F231;
  Row (lit "Common Segment Transition Fix") (Sl 37 42) F013;
  Row (lit "ICAO Code (3)") (Sl 42 44) F014;
  Row (lit "Section Code (3)") (Sl 44 46) F004;
  Row (lit "Common Segment Along Track Dist") (Sl 46 49) F231;
  Row (lit "Enroute Transition Identifier") (Sl 49 54) F011;
  Row (lit "Enroute Transition Fix") (Sl 54 59) F013;
  Row (lit "ICAO Code (4)") (Sl 59 61) F014;
  Row (lit "Section Code (4)") (Sl 61 63) F004;
  Row (lit "Enroute Transition Along Track Dist") (Sl 63 66) F231;
  Row (lit "Sequence Number") (Sl 66 69) F012;
  Row (lit "Continuation Number") (At 69) F016;
  Row (lit "Application Type") (At 70) F091;
  Row (lit "Time Code") (At 71) F131;
  Row (lit "Time Indicator") (At 72) F138;
  Row (lit "Time of Operation") (Sl 73 83) F195;
  Row (lit "Time of Operation (1)") (Sl 83 93) F195;
  Row (lit "Time of Operation (2)") (Sl 93 103) F195;
  Row (lit "Time of Operation (3)") (Sl 103 113) F195;
  Row (lit "Time of Operation (4)") (Sl 113 123) F195;
  Row (lit "File Record No") (Sl 123 128) F031;
  Row (lit "Cycle Date") (Sl 128 132) F032].

(* src/arinc424/definitions/FlightPlanning.py:16-28  FlightPlanning.read *)
Definition FlightPlanning_read (line : str) (primary : bool) : result (list field) :=
  if primary then build FlightPlanning_read_primary_rows line else
  bindR (index line 70) (fun application =>
  if str_eqb application (lit "A") then build FlightPlanning_read_cont_rows line else
  if str_eqb application (lit "T") then build FlightPlanning_read_timeop_rows line else
  Ok []).

(* ======== class GLS, src/arinc424/definitions/GLS.py ======== *)
(* src/arinc424/definitions/GLS.py:29-55  GLS.read_primary *)
Definition GLS_read_primary_rows : list row := [
  Row (lit "Record Type") (At 0) F002;
  Row (lit "Customer / Area Code") (Sl 1 4) F003;
  Row (lit "Section Code") (AtAt 4 12) F004;
  Row (lit "Airport and Heliport Identifier") (Sl 6 10) F006;
  Row (lit "ICAO Code") (Sl 10 12) F014;
  Row (lit "GLS Ref Path Identifier") (Sl 13 17) F044;
  Row (lit "GLS Category") (At 17) F080;
  Row (lit "Continuation Record No") (Sl 18 21) F016;
  Row (lit "GLS Channel") (Sl 22 27) F244;
  Row (lit "Runway Identifier") (Sl 27 32) F046;
  Row (lit "GLS Approach Bearing") (Sl 51 55) F047;
  Row (lit "Station Latitude") (Sl 55 64) F036;
  Row (lit "Station Longitude") (Sl 64 74) F037;
  Row (lit "GLS Station Ident") (Sl 74 78) F243;
  Row (lit "Service Volume Radius") (Sl 83 85) F245;
  Row (lit "TDMA Slots") (Sl 85 87) F246;
  Row (lit "GLS Approach Slope") (Sl 87 90) F052;
  Row (lit "Magnetic Variation") (Sl 90 95) F039;
  Row (lit "Station Elevation") (Sl 97 102) F074;
  Row (lit "Datum Code") (Sl 102 105) F197;
  Row (lit "Station Type") (Sl 105 108) F247;
  Row (lit "Station Elevation WGS") (Sl 110 115) F248;
  Row (lit "File Record No") (Sl 123 128) F031;
  Row (lit "Cycle Date") (Sl 128 132) F032].

(* src/arinc424/definitions/GLS.py:58-71  GLS.read_cont *)
Definition GLS_read_cont_rows : list row := [
  Row (lit "Record Type") (At 0) F002;
  Row (lit "Customer / Area Code") (Sl 1 4) F003;
  Row (lit "Section Code") (AtAt 4 12) F004;
  Row (lit "Airport and Heliport Identifier") (Sl 6 10) F006;
  Row (lit "ICAO Code") (Sl 10 12) F014;
  Row (lit "GLS Ref Path Identifier") (Sl 13 17) F044;
  Row (lit "GLS Category") (At 17) F080;
  Row (lit "Continuation Record No") (Sl 18 21) F016;
  Row (lit "Application Type") (At 22) F091;
  Row (lit "File Record No") (Sl 123 128) F031;
  Row (lit "Cycle Date") (Sl 128 132) F032].

(* src/arinc424/definitions/GLS.py:16-26  GLS.read *)
Definition GLS_read (line : str) (primary : bool) : result (list field) :=
  if primary then build GLS_read_primary_rows line else
  bindR (index line 22) (fun application =>
  if str_eqb application (lit "A") then build GLS_read_cont_rows line else
  Ok []).

(* ======== class GeoReferenceTable, src/arinc424/definitions/GeoReferenceTable.py ======== *)
(* src/arinc424/definitions/GeoReferenceTable.py:39-62  GeoReferenceTable.read_primary *)
Definition GeoReferenceTable_read_primary_rows : list row := [
  Row (lit "Record Type") (At 0) F002;
  Row (lit "Customer / Area Code") (Sl 1 4) F003;
  Row (lit "Section Code") (Sl 4 6) F004;
  Row (lit "Geographical Ref Table ID") (Sl 6 8) F218;
  Row (lit "Sequence Number") (At 8) F012;
  Row (lit "Geographical Entity") (Sl 9 38) F219;
  Row (lit "Continuation Record No") (At 38) F016;
  Row (lit "Preferred Route Ident") (Sl 40 50) F008;
  Row (lit "Preferred Route Use Ind") (Sl 50 52) F220;
  Row (lit "Preferred Route Ident (2)") (Sl 52 62) F008;
  Row (lit "Preferred Route Use Ind (2)") (Sl 62 64) F220;
  Row (lit "Preferred Route Ident (3)") (Sl 64 74) F008;
  Row (lit "Preferred Route Use Ind (3)") (Sl 74 76) F220;
  Row (lit "Preferred Route Ident (4)") (Sl 76 86) F008;
  Row (lit "Preferred Route Use Ind (4)") (Sl 86 88) F220;
  Row (lit "Preferred Route Ident (4)") (Sl 88 98) F008;
  Row (lit "Preferred Route Use Ind (4)") (Sl 98 100) F220;
  Row (lit "Preferred Route Ident (5)") (Sl 100 110) F008;
  Row (lit "Preferred Route Use Ind (5)") (Sl 110 112) F220;
  Row (lit "File Record No") (Sl 123 128) F031;
  Row (lit "Cycle Date") (Sl 128 132) F032].

(* src/arinc424/definitions/GeoReferenceTable.py:65-77  GeoReferenceTable.read_cont *)
Definition GeoReferenceTable_read_cont_rows : list row := [
  Row (lit "Record Type") (At 0) F002;
  Row (lit "Customer / Area Code") (Sl 1 4) F003;
  Row (lit "Section Code") (Sl 4 6) F004;
  Row (lit "Geographical Ref Table ID") (Sl 6 8) F218;
  Row (lit "Sequence Number") (At 8) F012;
  Row (lit "Geographical Entity") (Sl 9 38) F219;
  Row (lit "Continuation Record No") (At 38) F016;
  Row (lit "Application Type") (At 39) F091;
  Row (lit "File Record No") (Sl 123 128) F031;
  Row (lit "Cycle Date") (Sl 128 132) F032].

(* src/arinc424/definitions/GeoReferenceTable.py:26-36  GeoReferenceTable.read *)
Definition GeoReferenceTable_read (line : str) (primary : bool) : result (list field) :=
  if primary then build GeoReferenceTable_read_primary_rows line else
  bindR (index line 39) (fun application =>
  if str_eqb application (lit "A") then build GeoReferenceTable_read_cont_rows line else
  Ok []).

(* ======== class GridMORA, src/arinc424/definitions/GridMORA.py ======== *)
(* src/arinc424/definitions/GridMORA.py:14-52  GridMORA.read_primary *)
Definition GridMORA_read_primary_rows : list row := [
  Row (lit "Record Type") (At 0) F002;
  Row (lit "Section Code") (Sl 4 6) F004;
  Row (lit "Starting Latitude") (Sl 13 16) F141;
  Row (lit "Starting Longitude") (Sl 16 20) F142;
  Row (lit "MORA") (Sl 30 33) F143;
  Row (lit "MORA (2)") (Sl 33 36) F143;
  Row (lit "MORA (3)") (Sl 36 39) F143;
  Row (lit "MORA (4)") (Sl 39 42) F143;
  Row (lit "MORA (5)") (Sl 42 45) F143;
  Row (lit "MORA (6)") (Sl 45 48) F143;
  Row (lit "MORA (7)") (Sl 48 51) F143;
  Row (lit "MORA (8)") (Sl 51 54) F143;
  Row (lit "MORA (9)") (Sl 54 57) F143;
  Row (lit "MORA (10)") (Sl 57 60) F143;
  Row (lit "MORA (11)") (Sl 60 63) F143;
  Row (lit "MORA (12)") (Sl 63 66) F143;
  Row (lit "MORA (13)") (Sl 66 69) F143;
  Row (lit "MORA (14)") (Sl 69 72) F143;
  Row (lit "MORA (15)") (Sl 72 75) F143;
  Row (lit "MORA (16)") (Sl 75 78) F143;
  Row (lit "MORA (17)") (Sl 78 81) F143;
  Row (lit "MORA (18)") (Sl 81 84) F143;
  Row (lit "MORA (19)") (Sl 84 87) F143;
  Row (lit "MORA (21)") (Sl 87 90) F143;
  Row (lit "MORA (22)") (Sl 90 93) F143;
  Row (lit "MORA (23)") (Sl 93 96) F143;
  Row (lit "MORA (24)") (Sl 96 99) F143;
  Row (lit "MORA (25)") (Sl 99 102) F143;
  Row (lit "MORA (26)") (Sl 102 105) F143;
  Row (lit "MORA (27)") (Sl 105 108) F143;
  Row (lit "MORA (28)") (Sl 108 111) F143;
  Row (lit "MORA (29)") (Sl 111 114) F143;
  Row (lit "MORA (30)") (Sl 114 117) F143;
  Row (lit "MORA (31)") (Sl 117 120) F143;
  Row (lit "File Record No") (Sl 123 128) F031;
  Row (lit "Cycle Date") (Sl 128 132) F032].

(* src/arinc424/definitions/GridMORA.py:10-11  GridMORA.read *)
Definition GridMORA_read (line : str) (primary : bool) : result (list field) :=
  build GridMORA_read_primary_rows line.

(* ======== class Heliport, src/arinc424/definitions/Heliport.py ======== *)
(* src/arinc424/definitions/Heliport.py:33-63  Heliport.read_primary *)
Definition Heliport_read_primary_rows : list row := [
  Row (lit "Record Type") (At 0) F002;
  Row (lit "Customer / Area Code") (Sl 1 4) F003;
  Row (lit "Section Code") (AtAt 4 12) F004;
  Row (lit "Heliport Identifier") (Sl 6 10) F006;
  Row (lit "ICAO Code") (Sl 10 12) F014;
  Row (lit "ATA/IATA Designator") (Sl 13 16) F107;
  Row (lit "PAD Identifier") (Sl 16 21) F180;
  Row (lit "Continuation Record No") (At 21) F016;
  Row (lit "Speed Limit Altitude") (Sl 22 27) F073;
  Row (lit "Datum Code") (Sl 27 30) F197;
  Row (lit "IFR Indicator") (At 30) F108;
  Row (lit "Latitude") (Sl 32 41) F036;
  Row (lit "Longitude") (Sl 41 51) F037;
  Row (lit "Magnetic Variation") (Sl 51 56) F039;
  Row (lit "Heliport Elevation") (Sl 56 61) F055;
  Row (lit "Speed Limit") (Sl 61 64) F072;
  Row (lit "Recommended VHF Navaid") (Sl 64 68) F023;
  Row (lit "ICAO Code (2)") (Sl 68 70) F014;
  Row (lit "Transition Altitude") (Sl 70 75) F053;
  Row (lit "Transition Level") (Sl 75 80) F053;
  Row (lit "Public Military Indicator") (At 80) F177;
  Row (lit "Time Zone") (Sl 81 84) F178;
  Row (lit "Daylight Indicator") (At 84) F179;
  Row (lit "Pad Dimensions") (Sl 85 91) F176;
  Row (lit "Magnetic/True Indicator") (At 91) F165;
  Row (lit "Heliport Name") (Sl 93 123) F071;
  Row (lit "File Record No") (Sl 123 128) F031;
  Row (lit "Cycle Date") (Sl 128 132) F032].

(* src/arinc424/definitions/Heliport.py:66-80  Heliport.read_cont *)
Definition Heliport_read_cont_rows : list row := [
  Row (lit "Record Type") (At 0) F002;
  Row (lit "Customer / Area Code") (Sl 1 4) F003;
  Row (lit "Section Code") (AtAt 4 12) F004;
  Row (lit "Heliport Identifier") (Sl 6 10) F006;
  Row (lit "ICAO Code") (Sl 10 12) F014;
  Row (lit "ATA/IATA Designator") (Sl 13 16) F107;
  Row (lit "PAD Identifier") (Sl 16 21) F180;
  Row (lit "Continuation Record No") (At 21) F016;
  Row (lit "Application Type") (At 22) F091;
  Row (lit "Notes") (Sl 23 92) F061;
  Row (lit "File Record No") (Sl 123 128) F031;
  Row (lit "Cycle Date") (Sl 128 132) F032].

(* src/arinc424/definitions/Heliport.py:83-103  Heliport.read_flight0 *)
Definition Heliport_read_flight0_rows : list row := [
  Row (lit "Record Type") (At 0) F002;
  Row (lit "Customer / Area Code") (Sl 1 4) F003;
  Row (lit "Section Code") (AtAt 4 12) F004;
  Row (lit "Heliport Identifier") (Sl 6 10) F006;
  Row (lit "ICAO Code") (Sl 10 12) F014;
  Row (lit "ATA/IATA Designator") (Sl 13 16) F107;
  Row (lit "PAD Identifier") (Sl 16 21) F180;
  Row (lit "Continuation Record No") (At 21) F016;
  Row (lit "Application Type") (At 22) F091;
  Row (lit "FIR Identifier") (Sl 23 27) F116;
  Row (lit "UIR Identifier") (Sl 27 31) F116;
  Row (lit "Start/End Indicator") (At 31) F152;
  Row (lit "Start/End Date/Time") (Sl 32 43) F153;
  Row (lit "Controlled A/S Indicator") (At 66) F217;
  Row (lit "Controlled A/S Airport Indentifier") (Sl 67 71) F006;
  Row (lit "Controlled A/S Airport ICAO") (Sl 71 73) F014;
  Row (lit "File Record No") (Sl 123 128) F031;
  Row (lit "Cycle Date") (Sl 128 132) F032].

(* src/arinc424/definitions/Heliport.py:106-120  Heliport.read_flight1 *)
Definition Heliport_read_flight1_rows : list row := [
  Row (lit "Record Type") (At 0) F002;
  Row (lit "Customer / Area Code") (Sl 1 4) F003;
  Row (lit "Section Code") (AtAt 4 12) F004;
  Row (lit "Heliport Identifier") (Sl 6 10) F006;
  Row (lit "ICAO Code") (Sl 10 12) F014;
  Row (lit "ATA/IATA Designator") (Sl 13 16) F107;
  Row (lit "PAD Identifier") (Sl 16 21) F180;
  Row (lit "Continuation Record No") (At 21) F016;
  Row (lit "Application Type") (At 22) F091;
  Row (lit "Notes") (Sl 23 92) F061;
  Row (lit "File Record No") (Sl 123 128) F031;
  Row (lit "Cycle Date") (Sl 128 132) F032].

(* src/arinc424/definitions/Heliport.py:16-30  Heliport.read *)
Definition Heliport_read (line : str) (primary : bool) : result (list field) :=
  if primary then build Heliport_read_primary_rows line else
  bindR (index line 22) (fun application =>
  if str_eqb application (lit "A") then build Heliport_read_cont_rows line else
  if str_eqb application (lit "P") then build Heliport_read_flight0_rows line else
  if str_eqb application (lit "Q") then build Heliport_read_flight1_rows line else
  Ok []).

(* ======== class HeliportCommunications, src/arinc424/definitions/HeliportCommunications.py ======== *)
(* src/arinc424/definitions/HeliportCommunications.py:31-67  HeliportCommunications.read_primary *)
Definition HeliportCommunications_read_primary_rows : list row := [
  Row (lit "Record Type") (At 0) F002;
  Row (lit "Customer / Area Code") (Sl 1 4) F003;
  Row (lit "Section Code") (AtAt 4 12) F004;
  Row (lit "Heliport Identifier") (Sl 6 10) F006;
  Row (lit "ICAO Code") (Sl 10 12) F014;
  Row (lit "Communications Type") (Sl 13 16) F101;
  Row (lit "Communications Freq") (Sl 16 23) F103;
  Row (lit "Guard/Transmit") (At 23) F182;
  Row (lit "Frequency Units") (At 24) F104;
  Row (lit "Continuation Record No") (At 25) F016;
  Row (lit "Service Indicator") (Sl 26 29) F106;
  Row (lit "Radar Service") (At 29) F102;
  Row (lit "Modulation") (At 30) F198;
  Row (lit "Signal Emission") (At 31) F199;
  Row (lit "Latitude") (Sl 32 41) F036;
  Row (lit "Longitude") (Sl 41 51) F036;
  Row (lit "Magnetic Variation") (Sl 51 56) F039;
  Row (lit "Facility Elevation") (Sl 56 61) F092;
  Row (lit "H24 Indicator") (At 61) F181;
  Row (lit "Sectorization") (Sl 62 68) F183;
  Row (lit "Altitude Description") (At 68) F029;
  Row (lit "Communication Altitude") (Sl 69 74) F184;
  Row (lit "Communication Altitude (2)") (Sl 74 79) F184;
  Row (lit "Sector Facility") (Sl 79 83) F185;
  Row (lit "ICAO Code (2)") (Sl 83 85) F014;
  Row (lit "Section Code (2)") (Sl 85 87) F004;
  Row (lit "Distance Description") (At 87) F187;
  Row (lit "Communications Distance") (Sl 88 90) F188;
  Row (lit "Remote Facility") (Sl 90 94) F200;
  Row (lit "ICAO Code (3)") (Sl 94 96) F014;
  Row (lit "Section Code (3)") (Sl 96 98) F004;
  Row (lit "Call Sign") (Sl 98 123) F105;
  Row (lit "File Record No") (Sl 123 128) F031;
  Row (lit "Cycle Date") (Sl 128 132) F032].

(* src/arinc424/definitions/HeliportCommunications.py:70-86  HeliportCommunications.read_cont *)
Definition HeliportCommunications_read_cont_rows : list row := [
  Row (lit "Record Type") (At 0) F002;
  Row (lit "Customer / Area Code") (Sl 1 4) F003;
  Row (lit "Section Code") (AtAt 4 12) F004;
  Row (lit "Heliport Identifier") (Sl 6 10) F006;
  Row (lit "ICAO Code") (Sl 10 12) F014;
  Row (lit "Communications Type") (Sl 13 16) F101;
  Row (lit "Communications Freq") (Sl 16 23) F103;
  Row (lit "Guard/Transmit") (At 23) F182;
  Row (lit "Frequency Units") (At 24) F104;
  Row (lit "Continuation Record No") (At 25) F016;
  Row (lit "Application Type") (At 26) F091;
  Row (lit "Narrative") (Sl 27 87) F186;
  Row (lit "File Record No") (Sl 123 128) F031;
  Row (lit "Cycle Date") (Sl 128 132) F032].

(* src/arinc424/definitions/HeliportCommunications.py:89-114  HeliportCommunications.read_timeop *)
Definition HeliportCommunications_read_timeop_rows : list row := [
  Row (lit "Record Type") (At 0) F002;
  Row (lit "Customer / Area Code") (Sl 1 4) F003;
  Row (lit "Section Code") (AtAt 4 12) F004;
  Row (lit "Heliport Identifier") (Sl 6 10) F006;
  Row (lit "ICAO Code") (Sl 10 12) F014;
  Row (lit "Communications Type") (Sl 13 16) F101;
  Row (lit "Communications Freq") (Sl 16 23) F103;
  Row (lit "Guard/Transmit") (At 23) F182;
  Row (lit "Frequency Units") (At 24) F104;
  Row (lit "Continuation Record No") (At 25) F016;
  Row (lit "Application Type") (At 26) F091;
  Row (lit "Time Code") (At 27) F131;
  Row (lit "NOTAM") (At 28) F132;
  Row (lit "Time Indicator") (At 29) F138;
  Row (lit "Time of Operation") (Sl 30 40) F195;
  Row (lit "Time of Operation (2)") (Sl 40 50) F195;
  Row (lit "Time of Operation (3)") (Sl 50 60) F195;
  Row (lit "Time of Operation (4)") (Sl 60 70) F195;
  Row (lit "Time of Operation (5)") (Sl 70 80) F195;
  Row (lit "Time of Operation (6)") (Sl 80 90) F195;
  Row (lit "Time of Operation (7)") (Sl 90 100) F195;
  Row (lit "File Record No") (Sl 123 128) F031;
  Row (lit "Cycle Date") (Sl 128 132) F032].

(* src/arinc424/definitions/HeliportCommunications.py:16-28  HeliportCommunications.read *)
Definition HeliportCommunications_read (line : str) (primary : bool) : result (list field) :=
  if primary then build HeliportCommunications_read_primary_rows line else
  bindR (index line 26) (fun application =>
  if str_eqb application (lit "A") then build HeliportCommunications_read_cont_rows line else
  if str_eqb application (lit "T") then build HeliportCommunications_read_timeop_rows line else
  Err ValueError).

(* ======== class HeliportTerminalWaypoint, src/arinc424/definitions/HeliportTerminalWaypoint.py ======== *)
(* src/arinc424/definitions/HeliportTerminalWaypoint.py:32-52  HeliportTerminalWaypoint.read_primary *)
Definition HeliportTerminalWaypoint_read_primary_rows : list row := [
  Row (lit "Record Type") (At 0) F002;
  Row (lit "Customer / Area Code") (Sl 1 4) F003;
  Row (lit "Section Code") (AtAt 4 12) F004;
  Row (lit "Heliport Identifier") (Sl 6 10) F006;
  Row (lit "ICAO Code") (Sl 10 12) F014;
  Row (lit "Waypoint Identifier") (Sl 13 18) F013;
  Row (lit "ICAO Code (2)") (Sl 19 21) F014;
  Row (lit "Continuation Record No") (At 21) F016;
  Row (lit "Waypoint Type") (Sl 26 29) F042;
  Row (lit "Waypoint Usage") (Sl 29 31) F082;
  Row (lit "Waypoint Latitude") (Sl 32 41) F036;
  Row (lit "Waypoint Longitude") (Sl 41 51) F037;
  Row (lit "Dynamic Magnetic Variation") (Sl 74 79) F039;
  Row (lit "Datum Code") (Sl 84 87) F197;
  Row (lit "Name Format Indicator") (Sl 95 98) F196;
  Row (lit "Waypoint Name/Description") (Sl 98 123) F043;
  Row (lit "File Record No") (Sl 123 128) F031;
  Row (lit "Cycle Date") (Sl 128 132) F032].

(* src/arinc424/definitions/HeliportTerminalWaypoint.py:55-69  HeliportTerminalWaypoint.read_cont *)
Definition HeliportTerminalWaypoint_read_cont_rows : list row := [
  Row (lit "Record Type") (At 0) F002;
  Row (lit "Customer / Area Code") (Sl 1 4) F003;
  Row (lit "Section Code") (AtAt 4 12) F004;
  Row (lit "Heliport Identifier") (Sl 6 10) F006;
  Row (lit "ICAO Code") (Sl 10 12) F014;
  Row (lit "Waypoint Identifier") (Sl 13 18) F013;
  Row (lit "ICAO Code (2)") (Sl 19 21) F014;
  Row (lit "Continuation Record No") (At 21) F016;
  Row (lit "Application Type") (At 22) F091;
  Row (lit "Notes") (Sl 23 92) F061;
  Row (lit "File Record No") (Sl 123 128) F031;
  Row (lit "Cycle Date") (Sl 128 132) F032].

(* src/arinc424/definitions/HeliportTerminalWaypoint.py:72-89  HeliportTerminalWaypoint.read_flight0 *)
Definition HeliportTerminalWaypoint_read_flight0_rows : list row := [
  Row (lit "Record Type") (At 0) F002;
  Row (lit "Customer / Area Code") (Sl 1 4) F003;
  Row (lit "Section Code") (AtAt 4 12) F004;
  Row (lit "Heliport Identifier") (Sl 6 10) F006;
  Row (lit "ICAO Code") (Sl 10 12) F014;
  Row (lit "Waypoint Identifier") (Sl 13 18) F013;
  Row (lit "ICAO Code (2)") (Sl 19 21) F014;
  Row (lit "Continuation Record No") (At 21) F016;
  Row (lit "Application Type") (At 22) F091;
  Row (lit "FIR Identifier") (Sl 23 27) F116;
  Row (lit "UIR Identifier") (Sl 27 31) F116;
  Row (lit "Start/End Indicator") (At 31) F152;
  Row (lit "Start/End Date") (Sl 32 43) F153;
  Row (lit "File Record No") (Sl 123 128) F031;
  Row (lit "Cycle Date") (Sl 128 132) F032].

(* src/arinc424/definitions/HeliportTerminalWaypoint.py:92-112  HeliportTerminalWaypoint.read_flight1 *)
Definition HeliportTerminalWaypoint_read_flight1_rows : list row := [
  Row (lit "Record Type") (At 0) F002;
  Row (lit "Customer / Area Code") (Sl 1 4) F003;
  Row (lit "Section Code") (AtAt 4 12) F004;
  Row (lit "Heliport Identifier") (Sl 6 10) F006;
  Row (lit "ICAO Code") (Sl 10 12) F014;
  Row (lit "Waypoint Identifier") (Sl 13 18) F013;
  Row (lit "ICAO Code (2)") (Sl 19 21) F014;
  Row (lit "Continuation Record No") (At 21) F016;
  Row (lit "Waypoint Type") (Sl 26 29) F042;
  Row (lit "Waypoint Usage") (Sl 29 31) F082;
  Row (lit "Waypoint Latitude") (Sl 32 41) F036;
  Row (lit "Waypoint Longitude") (Sl 41 51) F037;
  Row (lit "Dynamic Magnetic Variation") (Sl 74 79) F039;
  Row (lit "Datum Code") (Sl 84 87) F197;
  Row (lit "Name Format Indicator") (Sl 95 98) F196;
  Row (lit "Waypoint Name/Description") (Sl 98 123) F043;
  Row (lit "File Record No") (Sl 123 128) F031;
  Row (lit "Cycle Date") (Sl 128 132) F032].

(* src/arinc424/definitions/HeliportTerminalWaypoint.py:16-29  HeliportTerminalWaypoint.read *)
Definition HeliportTerminalWaypoint_read (line : str) (primary : bool) : result (list field) :=
  if primary then build HeliportTerminalWaypoint_read_primary_rows line else
  bindR (index line 22) (fun application =>
  if str_eqb application (lit "A") then build HeliportTerminalWaypoint_read_cont_rows line else
  if str_eqb application (lit "P") then build HeliportTerminalWaypoint_read_flight0_rows line else
  build HeliportTerminalWaypoint_read_flight1_rows line).

(* ======== class HoldingPattern, src/arinc424/definitions/HoldingPattern.py ======== *)
(* src/arinc424/definitions/HoldingPattern.py:41-65  HoldingPattern.read_primary *)
Definition HoldingPattern_read_primary_rows : list row := [
  Row (lit "Record Type") (At 0) F002;
  Row (lit "Customer / Area Code") (Sl 1 4) F003;
  Row (lit "Section Code") (Sl 4 6) F004;
  Row (lit "Region Code") (Sl 6 10) F041;
  Row (lit "ICAO Code") (Sl 10 12) F014;
  Row (lit "Duplicate Identifier") (Sl 27 29) F114;
  Row (lit "Fix Identifier") (Sl 29 34) F013;
  Row (lit "ICAO Code (2)") (Sl 34 36) F014;
  Row (lit "Section Code (2)") (Sl 36 38) F004;
  Row (lit "Continuation Record No") (At 38) F016;
  Row (lit "Inbound Holding Course") (Sl 39 43) F062;
  Row (lit "Turn Direction") (At 43) F063;
  Row (lit "Leg Length") (Sl 44 47) F064;
  Row (lit "Leg Time") (Sl 47 49) F065;
  Row (lit "Minimum Altitude") (Sl 49 54) F030;
  Row (lit "Maximum Altitude") (Sl 54 59) F127;
  Row (lit "Holding Speed") (Sl 59 62) F175;
  Row (lit "RNP") (Sl 62 65) F211;
  Row (lit "Arc Radius") (Sl 65 71) F204;
  Row (lit "Name") (Sl 98 123) F060;
  Row (lit "File Record No") (Sl 123 128) F031;
  Row (lit "Cycle Date") (Sl 128 132) F032].

(* src/arinc424/definitions/HoldingPattern.py:68-84  HoldingPattern.read_cont *)
Definition HoldingPattern_read_cont_rows : list row := [
  Row (lit "Record Type") (At 0) F002;
  Row (lit "Customer / Area Code") (Sl 1 4) F003;
  Row (lit "Section Code") (Sl 4 6) F004;
  Row (lit "Region Code") (Sl 6 10) F041;
  Row (lit "ICAO Code") (Sl 10 12) F014;
  Row (lit "Duplicate Identifier") (Sl 27 29) F114;
  Row (lit "Fix Identifier") (Sl 29 34) F013;
  Row (lit "ICAO Code (2)") (Sl 34 36) F014;
  Row (lit "Section Code (2)") (Sl 36 38) F004;
  Row (lit "Continuation Record No") (At 38) F016;
  Row (lit "Application Type") (At 40) F091;
  Row (lit "Notes") (Sl 40 109) F061;
  Row (lit "File Record No") (Sl 123 128) F031;
  Row (lit "Cycle Date") (Sl 128 132) F032].

(* src/arinc424/definitions/HoldingPattern.py:16-26  HoldingPattern.read *)
Definition HoldingPattern_read (line : str) (primary : bool) : result (list field) :=
  if primary then build HoldingPattern_read_primary_rows line else
  bindR (index line 39) (fun application =>
  if str_eqb application (lit "A") then build HoldingPattern_read_cont_rows line else
  Ok []).

(* ======== class LocalizerGlideslope, src/arinc424/definitions/LocalizerGlideslope.py ======== *)
(* src/arinc424/definitions/LocalizerGlideslope.py:31-61  LocalizerGlideslope.read_primary *)
Definition LocalizerGlideslope_read_primary_rows : list row := [
  Row (lit "Record Type") (At 0) F002;
  Row (lit "Customer / Area Code") (Sl 1 4) F003;
  Row (lit "Section Code") (AtAt 4 12) F004;
  Row (lit "Airport Identifier") (Sl 6 10) F006;
  Row (lit "ICAO Code") (Sl 10 12) F014;
  Row (lit "Localizer Identifier") (Sl 13 17) F044;
  Row (lit "ILS Category") (At 17) F080;
  Row (lit "Continuation Record No") (At 21) F016;
  Row (lit "Localizer Frequency") (Sl 22 27) F045;
  Row (lit "Runway Identifier") (Sl 27 32) F046;
  Row (lit "Localizer Latitude") (Sl 32 41) F036;
  Row (lit "Localizer Longitude") (Sl 41 51) F037;
  Row (lit "Localizer Bearing") (Sl 51 55) F047;
  Row (lit "Glide Slope Latitude") (Sl 55 64) F036;
  Row (lit "Glide Slope Longitude") (Sl 64 74) F037;
  Row (lit "Localizer Position") (Sl 74 78) F048;
  Row (lit "Localizer Position Reference") (At 78) F049;
  Row (lit "Glide Slope Position") (Sl 79 83) F050;
  Row (lit "Localizer Width") (Sl 83 87) F051;
  Row (lit "Glide Slope Angle") (Sl 87 90) F052;
  Row (lit "Station Declination") (Sl 90 95) F066;
  Row (lit "Glide Slope Height at Landing Threshold") (Sl 95 97) F067;
  Row (lit "Glide Slope Elevation") (Sl 97 102) F074;
  Row (lit "Supporting Facility ID Note 1") (Sl 102 106) F033;
  Row (lit "Supporting Facility ICAO Code Note 1") (Sl 106 108) F014;
  Row (lit "Supporting Facility Section Code Note 1") (Sl 108 110) F004;
  Row (lit "File Record No") (Sl 123 128) F031;
  Row (lit "Cycle Date") (Sl 128 132) F032].

(* src/arinc424/definitions/LocalizerGlideslope.py:64-77  LocalizerGlideslope.read_cont *)
Definition LocalizerGlideslope_read_cont_rows : list row := [
  Row (lit "Record Type") (At 0) F002;
  Row (lit "Customer / Area Code") (Sl 1 4) F003;
  Row (lit "Section Code") (AtAt 4 12) F004;
  Row (lit "Airport Identifier") (Sl 6 10) F006;
  Row (lit "ICAO Code") (Sl 10 12) F014;
  Row (lit "Localizer Identifier") (Sl 13 17) F044;
  Row (lit "ILS Category") (At 17) F080;
  Row (lit "Continuation Record No") (At 21) F016;
  Row (lit "Notes") (Sl 23 92) F061;
  Row (lit "File Record No") (Sl 123 128) F031;
  Row (lit "Cycle Date") (Sl 128 132) F032].

(* src/arinc424/definitions/LocalizerGlideslope.py:80-103  LocalizerGlideslope.read_sim *)
Definition LocalizerGlideslope_read_sim_rows : list row := [
  Row (lit "Record Type") (At 0) F002;
  Row (lit "Customer / Area Code") (Sl 1 4) F003;
  Row (lit "Section Code") (AtAt 4 12) F004;
  Row (lit "Airport Identifier") (Sl 6 10) F006;
  Row (lit "ICAO Code") (Sl 10 12) F014;
  Row (lit "Localizer Identifier") (Sl 13 17) F044;
  Row (lit "ILS Category") (At 17) F080;
  Row (lit "Continuation Record No") (At 21) F016;
  Row (lit "Application Type") (At 22) F091;
  Row (lit "Facility Characteristics") (Sl 27 32) F093;
  Row (lit "Localizer True Bearing") (Sl 51 56) F094;
  Row (lit "Localizer Bearing Source") (At 56) F095;
  Row (lit "Glide Slope Beam Width") (Sl 87 90) F096;
  Row (lit "Approach Route Ident") (Sl 90 96) F010;
  Row (lit "Approach Route Ident (2)") (Sl 96 102) F010;
  Row (lit "Approach Route Ident (3)") (Sl 102 108) F010;
  Row (lit "Approach Route Ident (4)") (Sl 108 114) F010;
  Row (lit "Approach Route Ident (5)") (Sl 114 120) F010;
  Row (lit "File Record No") (Sl 123 128) F031;
  Row (lit "Cycle Date") (Sl 128 132) F032].

(* src/arinc424/definitions/LocalizerGlideslope.py:16-28  LocalizerGlideslope.read *)
Definition LocalizerGlideslope_read (line : str) (primary : bool) : result (list field) :=
  if primary then build LocalizerGlideslope_read_primary_rows line else
  bindR (index line 22) (fun application =>
  if str_eqb application (lit "A") then build LocalizerGlideslope_read_cont_rows line else
  if str_eqb application (lit "S") then build LocalizerGlideslope_read_sim_rows line else
  Ok []).

(* ======== class LocalizerMarker, src/arinc424/definitions/LocalizerMarker.py ======== *)
(* src/arinc424/definitions/LocalizerMarker.py:29-53  LocalizerMarker.read_primary *)
Definition LocalizerMarker_read_primary_rows : list row := [
  Row (lit "Record Type") (At 0) F002;
  Row (lit "Customer / Area Code") (Sl 1 4) F003;
  Row (lit "Section Code") (AtAt 4 12) F004;
  Row (lit "Airport Identifier") (Sl 6 10) F006;
  Row (lit "ICAO Code") (Sl 10 12) F014;
  Row (lit "Localizer Identifier") (Sl 13 17) F044;
  Row (lit "Marker Type") (Sl 17 20) F099;
  Row (lit "Continuation Record No") (At 21) F016;
  Row (lit "Locator Frequency") (Sl 22 27) F034;
  Row (lit "Runway Identifier") (Sl 27 32) F046;
  Row (lit "Marker Latitude") (Sl 32 41) F036;
  Row (lit "Marker Longitude") (Sl 41 51) F037;
  Row (lit "Minor Axis Bearing") (Sl 51 55) F100;
  Row (lit "Locator Latitude") (Sl 55 64) F036;
  Row (lit "Locator Longitude") (Sl 64 74) F037;
  Row (lit "Localizer Class") (Sl 74 79) F035;
  Row (lit "Localizer Facility Characteristics") (Sl 79 83) F093;
  Row (lit "Localizer Identifier (2)") (Sl 84 88) F033;
  Row (lit "Magnetic Variation") (Sl 90 95) F039;
  Row (lit "Facility Elevation") (Sl 97 102) F092;
  Row (lit "File Record No") (Sl 123 128) F031;
  Row (lit "Cycle Date") (Sl 128 132) F032].

(* src/arinc424/definitions/LocalizerMarker.py:56-69  LocalizerMarker.read_cont *)
Definition LocalizerMarker_read_cont_rows : list row := [
  Row (lit "Record Type") (At 0) F002;
  Row (lit "Customer / Area Code") (Sl 1 4) F003;
  Row (lit "Section Code") (AtAt 4 12) F004;
  Row (lit "Airport Identifier") (Sl 6 10) F006;
  Row (lit "ICAO Code") (Sl 10 12) F014;
  Row (lit "Localizer Identifier") (Sl 13 17) F044;
  Row (lit "Marker Type") (Sl 17 20) F099;
  Row (lit "Continuation Record No") (At 21) F016;
  Row (lit "Application Type") (At 22) F091;
  Row (lit "File Record No") (Sl 123 128) F031;
  Row (lit "Cycle Date") (Sl 128 132) F032].

(* src/arinc424/definitions/LocalizerMarker.py:16-26  LocalizerMarker.read *)
Definition LocalizerMarker_read (line : str) (primary : bool) : result (list field) :=
  if primary then build LocalizerMarker_read_primary_rows line else
  bindR (index line 22) (fun application =>
  if str_eqb application (lit "A") then build LocalizerMarker_read_cont_rows line else
  Ok []).

(* ======== class MLS, src/arinc424/definitions/MLS.py ======== *)
(* src/arinc424/definitions/MLS.py:30-64  MLS.read_primary *)
Definition MLS_read_primary_rows : list row := [
  Row (lit "Record Type") (At 0) F002;
  Row (lit "Customer / Area Code") (Sl 1 4) F003;
  Row (lit "Section Code") (AtAt 4 12) F004;
  Row (lit "Airport Identifier") (Sl 6 10) F006;
  Row (lit "ICAO Code") (Sl 10 12) F014;
  Row (lit "MLS Identifier") (Sl 13 17) F044;
  Row (lit "MLS Category") (At 17) F080;
  Row (lit "Continuation Record No") (At 21) F016;
  Row (lit "Channel") (Sl 22 25) F166;
  Row (lit "Runway Identifier") (Sl 27 32) F046;
  Row (lit "Azimuth Latitude") (Sl 32 41) F036;
  Row (lit "Azimuth Longitude") (Sl 41 51) F037;
  Row (lit "Azimuth Bearing") (Sl 51 55) F167;
  Row (lit "Elevation Latitude") (Sl 55 64) F036;
  Row (lit "Elevation Longitude") (Sl 64 74) F037;
  Row (lit "Azimuth Position") (Sl 74 78) F048;
  Row (lit "Azimuth Position Reference") (At 78) F049;
  Row (lit "Elevation Position") (Sl 79 83) F050;
  Row (lit "Azimuth Proportional Angle Right") (Sl 83 86) F168;
  Row (lit "Azimuth Proportional Angle Left") (Sl 86 89) F168;
  Row (lit "Azimuth Coverage Right") (Sl 89 92) F172;
  Row (lit "Azimuth Coverage Left") (Sl 92 95) F172;
  Row (lit "Elevation Angle Span") (Sl 95 98) F169;
  Row (lit "Magnetic Variation") (Sl 98 103) F039;
  Row (lit "EL Elevation") (Sl 103 108) F074;
  Row (lit "Nominal Elevation Angle") (Sl 108 112) F173;
  Row (lit "Minimum Glide Path Angle") (Sl 112 115) F052;
  Row (lit "Supporting Facility Identifier") (Sl 115 119) F033;
  Row (lit "Supporting Facility ICAO Code") (Sl 119 121) F014;
  Row (lit "Supporting Facility Section") (Sl 121 123) F004;
  Row (lit "File Record No") (Sl 123 128) F031;
  Row (lit "Cycle Date") (Sl 128 132) F032].

(* src/arinc424/definitions/MLS.py:67-97  MLS.read_cont *)
Definition MLS_read_cont_rows : list row := [
  Row (lit "Record Type") (At 0) F002;
  Row (lit "Customer / Area Code") (Sl 1 4) F003;
  Row (lit "Section Code") (AtAt 4 12) F004;
  Row (lit "Airport Identifier") (Sl 6 10) F006;
  Row (lit "ICAO Code") (Sl 10 12) F014;
  Row (lit "MLS Identifier") (Sl 13 17) F044;
  Row (lit "MLS Category") (At 17) F080;
  Row (lit "Continuation Record No") (At 21) F016;
  Row (lit "Application Type") (At 22) F091;
  Row (lit "Facility Characteristics") (Sl 27 32) F093;
  Row (lit "Back Azimuth Latitude") (Sl 32 41) F036;
  Row (lit "Back Azimuth Longitude") (Sl 41 51) F037;
  Row (lit "Back Azimuth Bearing") (Sl 51 55) F167;
  Row (lit "MLS Datum Point Latitude") (Sl 55 64) F036;
  Row (lit "MLS Datum Point Longitude") (Sl 64 74) F037;
  Row (lit "Back Azimuth Position") (Sl 74 78) F048;
  Row (lit "Back Azimuth Position Reference") (At 78) F049;
  Row (lit "Back Azimuth Proportional Angle Right") (Sl 83 86) F168;
  Row (lit "Back Azimuth Proportional Angle Left") (Sl 86 89) F168;
  Row (lit "Back Azimuth Coverage Right") (Sl 89 92) F172;
  Row (lit "Back Azimuth Coverage Left") (Sl 92 95) F172;
  Row (lit "Back Azimuth True Bearing") (Sl 95 98) F094;
  Row (lit "Back Azimuth Bearing Source") (At 100) F095;
  Row (lit "Azimuth True Bearing") (Sl 101 106) F094;
  Row (lit "Azimuth Bearing Source") (At 106) F095;
  Row (lit "Glide Path Height at Landing Threshold") (Sl 107 109) F067;
  Row (lit "File Record No") (Sl 123 128) F031;
  Row (lit "Cycle Date") (Sl 128 132) F032].

(* src/arinc424/definitions/MLS.py:17-27  MLS.read *)
Definition MLS_read (line : str) (primary : bool) : result (list field) :=
  if primary then build MLS_read_primary_rows line else
  bindR (index line 22) (fun application =>
  if str_eqb application (lit "A") then build MLS_read_cont_rows line else
  Ok []).

(* ======== class MSA, src/arinc424/definitions/MSA.py ======== *)
(* src/arinc424/definitions/MSA.py:15-20  __init__: id_name *)
Definition MSA_id_name (heliport : bool) : str :=
  if heliport then lit "Heliport Identifier" else lit "Airport Identifier".

(* src/arinc424/definitions/MSA.py:34-70  MSA.read_primary *)
Definition MSA_read_primary_rows (heliport : bool) : list row := [
  Row (lit "Record Type") (At 0) F002;
  Row (lit "Customer / Area Code") (Sl 1 4) F003;
  Row (lit "Section Code") (AtAt 4 12) F004;
  Row (MSA_id_name heliport) (Sl 6 10) F006;
  Row (lit "ICAO Code") (Sl 10 12) F014;
  Row (lit "MSA Center") (Sl 13 17) F144;
  Row (lit "ICAO Code (2)") (Sl 18 20) F014;
  Row (lit "Section Code (2)") (Sl 20 22) F004;
  Row (lit "Multiple Code") (At 22) F130;
  Row (lit "Continuation Record No") (At 38) F016;
  Row (lit "Sector Bearing") (Sl 42 48) F146;
  Row (lit "Sector Altitude") (Sl 48 51) F147;
  Row (lit "Sector Radius") (Sl 51 53) F145;
  Row (lit "Sector Bearing (2)") (Sl 53 59) F146;
  Row (lit "Sector Altitude (2)") (Sl 59 62) F147;
  Row (lit "Sector Radius (2)") (Sl 62 64) F145;
  Row (lit "Sector Bearing (3)") (Sl 64 70) F146;
  Row (lit "Sector Altitude (3)") (Sl 70 73) F147;
  Row (lit "Sector Radius (3)") (Sl 73 75) F145;
  Row (lit "Sector Bearing (4)") (Sl 75 81) F146;
  Row (lit "Sector Altitude (4)") (Sl 81 84) F147;
  Row (lit "Sector Radius (4)") (Sl 84 86) F145;
  Row (lit "Sector Bearing (5)") (Sl 86 92) F146;
  Row (lit "Sector Altitude (5)") (Sl 92 95) F147;
  Row (lit "Sector Radius (5)") (Sl 95 97) F145;
  Row (lit "Sector Bearing (6)") (Sl 97 103) F146;
  Row (lit "Sector Altitude (6)") (Sl 103 106) F147;
  Row (lit "Sector Radius (6)") (Sl 106 108) F145;
  Row (lit "Sector Bearing (7)") (Sl 108 114) F146;
  Row (lit "Sector Altitude (7)") (Sl 114 117) F147;
  Row (lit "Sector Radius (7)") (Sl 117 119) F145;
  Row (lit "Magnetic/True Bearing") (At 119) F165;
  Row (lit "File Record No") (Sl 123 128) F031;
  Row (lit "Cycle Date") (Sl 128 132) F032].

(* src/arinc424/definitions/MSA.py:72-88  MSA.read_cont *)
Definition MSA_read_cont_rows (heliport : bool) : list row := [
  Row (lit "Record Type") (At 0) F002;
  Row (lit "Customer / Area Code") (Sl 1 4) F003;
  Row (lit "Section Code") (AtAt 4 12) F004;
  Row (MSA_id_name heliport) (Sl 6 10) F006;
  Row (lit "ICAO Code") (Sl 10 12) F014;
  Row (lit "MSA Center") (Sl 13 17) F144;
  Row (lit "ICAO Code (2)") (Sl 18 20) F014;
  Row (lit "Section Code (2)") (Sl 20 22) F004;
  Row (lit "Multiple Code") (At 22) F130;
  Row (lit "Continuation Record No") (At 38) F016;
  Row (lit "Application Type") (At 39) F091;
  Row (lit "Notes") (Sl 40 109) F061;
  Row (lit "File Record No") (Sl 123 128) F031;
  Row (lit "Cycle Date") (Sl 128 132) F032].

(* src/arinc424/definitions/MSA.py:22-32  MSA.read *)
Definition MSA_read (heliport : bool) (line : str) (primary : bool) : result (list field) :=
  if primary then build (MSA_read_primary_rows heliport) line else
  bindR (index line 39) (fun application =>
  if str_eqb application (lit "A") then build (MSA_read_cont_rows heliport) line else
  Ok []).

(* ======== class NDBNavaid, src/arinc424/definitions/NDBNavaid.py ======== *)
(* src/arinc424/definitions/NDBNavaid.py:35-54  NDBNavaid.read_primary *)
Definition NDBNavaid_read_primary_rows : list row := [
  Row (lit "Record Type") (At 0) F002;
  Row (lit "Customer / Area Code") (Sl 1 4) F003;
  Row (lit "Section Code") (Sl 4 6) F004;
  Row (lit "Airport ICAO Identifier") (Sl 6 10) F006;
  Row (lit "ICAO Code") (Sl 10 12) F014;
  Row (lit "NDB Identifier") (Sl 13 17) F033;
  Row (lit "ICAO Code (2)") (Sl 19 21) F014;
  Row (lit "Continuation Record No") (At 21) F016;
  Row (lit "NDB Frequency") (Sl 22 27) F034;
  Row (lit "NDB Class") (Sl 27 31) F035;
  Row (lit "NDB Latitude") (Sl 32 41) F036;
  Row (lit "NDB Longitude") (Sl 41 51) F037;
  Row (lit "Magnetic Variation") (Sl 74 79) F039;
  Row (lit "Datum Code") (Sl 90 93) F197;
  Row (lit "NDB Name") (Sl 93 123) F071;
  Row (lit "File Record No") (Sl 123 128) F031;
  Row (lit "Cycle Date") (Sl 128 132) F032].

(* src/arinc424/definitions/NDBNavaid.py:57-71  NDBNavaid.read_cont *)
Definition NDBNavaid_read_cont_rows : list row := [
  Row (lit "Record Type") (At 0) F002;
  Row (lit "Customer / Area Code") (Sl 1 4) F003;
  Row (lit "Section Code") (Sl 4 6) F004;
  Row (lit "Airport ICAO Identifier") (Sl 6 10) F006;
  Row (lit "ICAO Code") (Sl 10 12) F014;
  Row (lit "NDB Identifier") (Sl 13 17) F033;
  Row (lit "ICAO Code (2)") (Sl 19 21) F014;
  Row (lit "Continuation Record No") (At 21) F016;
  Row (lit "Application Type") (At 22) F091;
  Row (lit "Notes") (Sl 23 92) F061;
  Row (lit "File Record No") (Sl 123 128) F031;
  Row (lit "Cycle Date") (Sl 128 132) F032].

(* src/arinc424/definitions/NDBNavaid.py:74-89  NDBNavaid.read_sim *)
Definition NDBNavaid_read_sim_rows : list row := [
  Row (lit "Record Type") (At 0) F002;
  Row (lit "Customer / Area Code") (Sl 1 4) F003;
  Row (lit "Section Code") (Sl 4 6) F004;
  Row (lit "Airport ICAO Identifier") (Sl 6 10) F006;
  Row (lit "ICAO Code") (Sl 10 12) F014;
  Row (lit "NDB Identifier") (Sl 13 17) F033;
  Row (lit "ICAO Code (2)") (Sl 19 21) F014;
  Row (lit "Continuation Record No") (At 21) F016;
  Row (lit "Application Type") (At 22) F091;
  Row (lit "Facility Characteristics") (Sl 27 32) F093;
  Row (lit "Facility Elevation") (Sl 79 84) F092;
  Row (lit "File Record No") (Sl 123 128) F031;
  Row (lit "Cycle Date") (Sl 128 132) F032].

(* src/arinc424/definitions/NDBNavaid.py:92-109  NDBNavaid.read_flight_plan0 *)
Definition NDBNavaid_read_flight_plan0_rows : list row := [
  Row (lit "Record Type") (At 0) F002;
  Row (lit "Customer / Area Code") (Sl 1 4) F003;
  Row (lit "Section Code") (Sl 4 6) F004;
  Row (lit "Airport ICAO Identifier") (Sl 6 10) F006;
  Row (lit "ICAO Code") (Sl 10 12) F014;
  Row (lit "NDB Identifier") (Sl 13 17) F033;
  Row (lit "ICAO Code (2)") (Sl 19 21) F014;
  Row (lit "Continuation Record No") (At 21) F016;
  Row (lit "Application Type") (At 22) F091;
  Row (lit "FIR Identifier") (Sl 23 27) F116;
  Row (lit "UIR Identifier") (Sl 28 31) F116;
  Row (lit "Start/End Indicator") (At 32) F152;
  Row (lit "Start/End Date") (Sl 32 43) F153;
  Row (lit "File Record No") (Sl 123 128) F031;
  Row (lit "Cycle Date") (Sl 128 132) F032].

(* src/arinc424/definitions/NDBNavaid.py:112-131  NDBNavaid.read_flight_plan1 *)
Definition NDBNavaid_read_flight_plan1_rows : list row := [
  Row (lit "Record Type") (At 0) F002;
  Row (lit "Customer / Area Code") (Sl 1 4) F003;
  Row (lit "Section Code") (Sl 4 6) F004;
  Row (lit "Airport ICAO Identifier") (Sl 6 10) F006;
  Row (lit "ICAO Code") (Sl 10 12) F014;
  Row (lit "NDB Identifier") (Sl 13 17) F033;
  Row (lit "ICAO Code (2)") (Sl 19 21) F014;
  Row (lit "Continuation Record No") (At 21) F016;
  Row (lit "NDB Frequency") (Sl 22 27) F034;
  Row (lit "NDB Class") (Sl 27 31) F035;
  Row (lit "NDB Latitude") (Sl 32 41) F036;
  Row (lit "NDB Longitude") (Sl 41 51) F037;
  Row (lit "Magnetic Variation") (Sl 74 79) F039;
  Row (lit "Datum Code") (Sl 90 93) F197;
  Row (lit "NDB Name") (Sl 93 123) F071;
  Row (lit "File Record No") (Sl 123 128) F031;
  Row (lit "Cycle Date") (Sl 128 132) F032].

(* src/arinc424/definitions/NDBNavaid.py:16-32  NDBNavaid.read *)
Definition NDBNavaid_read (line : str) (primary : bool) : result (list field) :=
  if primary then build NDBNavaid_read_primary_rows line else
  bindR (index line 22) (fun application =>
  if str_eqb application (lit "A") then build NDBNavaid_read_cont_rows line else
  if str_eqb application (lit "P") then build NDBNavaid_read_flight_plan0_rows line else
  if str_eqb application (lit "Q") then build NDBNavaid_read_flight_plan1_rows line else
  if str_eqb application (lit "S") then build NDBNavaid_read_sim_rows line else
  Ok []).

(* ======== class PathPoint, src/arinc424/definitions/PathPoint.py ======== *)
(* src/arinc424/definitions/PathPoint.py:29-60  PathPoint.read_primary *)
Definition PathPoint_read_primary_rows : list row := [
  Row (lit "Record Type") (At 0) F002;
  Row (lit "Customer / Area Code") (Sl 1 4) F003;
  Row (lit "Section Code") (AtAt 4 12) F004;
  Row (lit "Airport Identifier") (Sl 6 10) F006;
  Row (lit "ICAO Code") (Sl 10 12) F014;
  Row (lit "Approach Procedure Ident") (Sl 13 19) F010;
  Row (lit "Runway or Helipad Ident") (Sl 19 24) F046;
  Row (lit "Operation Type") (Sl 24 26) F223;
  Row (lit "Continuation Record No") (At 26) F016;
  Row (lit "Route Identifier") (At 27) F224;
  Row (lit "SBAS Service Provider Ident") (Sl 28 30) F255;
  Row (lit "Reference Path Data Selector") (Sl 30 32) F256;
  Row (lit "Reference Path Identifier") (Sl 32 36) F257;
  Row (lit "Approach Performance Designator") (At 36) F258;
  Row (lit "Landing Threshold Point Latitude") (Sl 37 48) F267;
  Row (lit "Landing Threshold Point Longitude") (Sl 48 60) F268;
  Row (lit "(LTP) Ellipsoid Height") (Sl 60 66) F225;
  Row (lit "Glide Path Angle") (Sl 66 70) F226;
  Row (lit "Flight Path Alignment Point Latitude") (Sl 70 81) F267;
  Row (lit "Flight Path Alignment Point Longitude") (Sl 81 93) F268;
  Row (lit "Course Width at Threshold Note 4") (Sl 93 98) F228;
  Row (lit "Length Offset") (Sl 98 102) F259;
  Row (lit "Path Point TCH") (Sl 102 108) F265;
  Row (lit "TCH Units Indicator") (At 108) F266;
  Row (lit "HAL") (Sl 109 112) F263;
  Row (lit "VAL") (Sl 112 115) F264;
  Row (lit "SBAS FAS Data CRC Remainder") (Sl 115 123) F229;
  Row (lit "File Record No") (Sl 123 128) F031;
  Row (lit "Cycle Date") (Sl 128 132) F032].

(* src/arinc424/definitions/PathPoint.py:63-83  PathPoint.read_cont *)
Definition PathPoint_read_cont_rows : list row := [
  Row (lit "Record Type") (At 0) F002;
  Row (lit "Customer / Area Code") (Sl 1 4) F003;
  Row (lit "Section Code") (AtAt 4 12) F004;
  Row (lit "Airport Identifier") (Sl 6 10) F006;
  Row (lit "ICAO Code") (Sl 10 12) F014;
  Row (lit "Approach Procedure Ident") (Sl 13 19) F010;
  Row (lit "Runway or Helipad Ident") (Sl 19 24) F046;
  Row (lit "Operation Type") (Sl 24 26) F223;
  Row (lit "Continuation Record No") (At 26) F016;
  Row (lit "Application Type") (At 27) F091;
  Row (lit "(FPAP) Ellipsoid Height") (Sl 28 34) F225;
  Row (lit "(FPAP) Orthometric Height") (Sl 34 40) F227;
  Row (lit "(LTP) Orthometric Height") (Sl 40 46) F227;
  Row (lit "Approach Type Identifier") (Sl 46 56) F262;
  Row (lit "GNSS Channel Number") (Sl 56 61) F244;
  Row (lit "Helicopter Procedure Course") (Sl 71 74) F269;
  Row (lit "File Record No") (Sl 123 128) F031;
  Row (lit "Cycle Date") (Sl 128 132) F032].

(* src/arinc424/definitions/PathPoint.py:16-26  PathPoint.read *)
Definition PathPoint_read (line : str) (primary : bool) : result (list field) :=
  if primary then build PathPoint_read_primary_rows line else
  bindR (index line 27) (fun application =>
  if str_eqb application (lit "E") then build PathPoint_read_cont_rows line else
  Err ValueError).

(* ======== class PreferredRoute, src/arinc424/definitions/PreferredRoute.py ======== *)
(* src/arinc424/definitions/PreferredRoute.py:35-68  PreferredRoute.read_primary *)
Definition PreferredRoute_read_primary_rows : list row := [
  Row (lit "Record Type") (At 0) F002;
  Row (lit "Customer / Area Code") (Sl 1 4) F003;
  Row (lit "Section Code") (Sl 4 6) F004;
  Row (lit "Route Identifier") (Sl 13 23) F008;
  Row (lit "Preferred Route Use Ind") (Sl 23 25) F220;
  Row (lit "Sequence Number") (Sl 25 29) F012;
  Row (lit "Continuation Record No") (At 38) F016;
  Row (lit "To Fix Identifier") (Sl 39 44) F083;
  Row (lit "ICAO Code") (Sl 44 46) F014;
  Row (lit "Section Code (2)") (Sl 46 48) F004;
  Row (lit "VIA Code") (Sl 48 51) F077;
  Row (lit "SID/STAR/AWY Ident") (Sl 51 57) F078;
  Row (lit "AREA Code") (Sl 57 60) F003;
  Row (lit "Level") (At 60) F019;
  Row (lit "Route Type") (At 61) F007;
  Row (lit "Initial Airport/Fix") (Sl 62 67) F194;
  Row (lit "ICAO Code") (Sl 67 69) F014;
  Row (lit "Section Code") (Sl 69 71) F004;
  Row (lit "Terminus Airport/Fix") (Sl 71 76) F194;
  Row (lit "ICAO Code") (Sl 76 78) F014;
  Row (lit "Section Code") (Sl 78 80) F004;
  Row (lit "Minimum Altitude") (Sl 80 85) F030;
  Row (lit "Maximum Altitude") (Sl 85 90) F127;
  Row (lit "Time Code") (At 90) F131;
  Row (lit "Aircraft Use Group") (Sl 91 93) F221;
  Row (lit "Direction Restriction") (At 93) F115;
  Row (lit "Altitude Description") (At 94) F029;
  Row (lit "Altitude One") (Sl 95 100) F030;
  Row (lit "Altitude Two") (Sl 100 105) F030;
  Row (lit "File Record No") (Sl 123 128) F031;
  Row (lit "Cycle Date") (Sl 128 132) F032].

(* src/arinc424/definitions/PreferredRoute.py:71-92  PreferredRoute.read_timeop *)
Definition PreferredRoute_read_timeop_rows : list row := [
  Row (lit "Record Type") (At 0) F002;
  Row (lit "Customer / Area Code") (Sl 1 4) F003;
  Row (lit "Section Code") (Sl 4 6) F004;
  Row (lit "Route Identifier") (Sl 13 23) F008;
  Row (lit "Preferred Route Use Ind") (Sl 23 25) F220;
  Row (lit "Sequence Number") (Sl 25 29) F012;
  Row (lit "Continuation Record No") (At 38) F016;
  Row (lit "Application Type") (At 39) F091;
  Row (lit "Time Code") (At 40) F131;
  Row (lit "Time Indicator") (At 41) F138;
  Row (lit "Time of Operation") (Sl 42 52) F195;
  Row (lit "Time of Operation (2)") (Sl 52 62) F195;
  Row (lit "Time of Operation (3)") (Sl 62 72) F195;
  Row (lit "Time of Operation (4)") (Sl 72 82) F195;
  Row (lit "Time of Operation (5)") (Sl 82 92) F195;
  Row (lit "Time of Operation (6)") (Sl 92 102) F195;
  Row (lit "Time of Operation (7)") (Sl 102 112) F195;
  Row (lit "File Record No") (Sl 123 128) F031;
  Row (lit "Cycle Date") (Sl 128 132) F032].

(* src/arinc424/definitions/PreferredRoute.py:95-108  PreferredRoute.read_cont *)
Definition PreferredRoute_read_cont_rows : list row := [
  Row (lit "Record Type") (At 0) F002;
  Row (lit "Customer / Area Code") (Sl 1 4) F003;
  Row (lit "Section Code") (Sl 4 6) F004;
  Row (lit "Route Identifier") (Sl 13 23) F008;
  Row (lit "Preferred Route Use Ind") (Sl 23 25) F220;
  Row (lit "Sequence Number") (Sl 25 29) F012;
  Row (lit "Continuation Record No") (At 38) F016;
  Row (lit "Application Type") (At 39) F091;
  Row (lit "Notes") (Sl 40 109) F061;
  Row (lit "File Record No") (Sl 123 128) F031;
  Row (lit "Cycle Date") (Sl 128 132) F032].

(* src/arinc424/definitions/PreferredRoute.py:20-32  PreferredRoute.read *)
Definition PreferredRoute_read (line : str) (primary : bool) : result (list field) :=
  if primary then build PreferredRoute_read_primary_rows line else
  bindR (index line 39) (fun application =>
  if str_eqb application (lit "A") then build PreferredRoute_read_cont_rows line else
  if str_eqb application (lit "T") then build PreferredRoute_read_timeop_rows line else
  Ok []).

(* ======== class RestrictiveAirspace, src/arinc424/definitions/RestrictiveAirspace.py ======== *)
(* src/arinc424/definitions/RestrictiveAirspace.py:33-61  RestrictiveAirspace.read_primary *)
Definition RestrictiveAirspace_read_primary_rows : list row := [
  Row (lit "Record Type") (At 0) F002;
  Row (lit "Customer / Area Code") (Sl 1 4) F003;
  Row (lit "Section Code") (Sl 4 6) F004;
  Row (lit "ICAO Code") (Sl 6 8) F014;
  Row (lit "Restrictive Type") (At 8) F128;
  Row (lit "Restrictive Airspace Designation") (Sl 9 19) F129;
  Row (lit "Multiple Code") (At 19) F130;
  Row (lit "Sequence Number") (Sl 20 24) F012;
  Row (lit "Continuation Record No") (At 24) F016;
  Row (lit "Level") (At 25) F019;
  Row (lit "Time Code") (At 26) F131;
  Row (lit "NOTAM") (At 27) F132;
  Row (lit "Boundary Via") (Sl 30 32) F118;
  Row (lit "Latitude") (Sl 32 41) F036;
  Row (lit "Longitude") (Sl 41 51) F037;
  Row (lit "Arc Origin Latitude") (Sl 51 60) F036;
  Row (lit "Arc Origin Longitude") (Sl 60 70) F037;
  Row (lit "Arc Distance") (Sl 70 74) F119;
  Row (lit "Arc Bearing") (Sl 74 78) F120;
  Row (lit "Lower Limit") (Sl 82 86) F121;
  Row (lit "Unit Indicator") (At 86) F133;
  Row (lit "Upper Limit") (Sl 87 92) F121;
  Row (lit "Unit Indicator (2)") (At 92) F133;
  Row (lit "Restrictive Airspace Name") (Sl 93 123) F126;
  Row (lit "File Record No") (Sl 123 128) F031;
  Row (lit "Cycle Date") (Sl 128 132) F032].

(* src/arinc424/definitions/RestrictiveAirspace.py:64-89  RestrictiveAirspace.read_time *)
Definition RestrictiveAirspace_read_time_rows : list row := [
  Row (lit "Record Type") (At 0) F002;
  Row (lit "Customer / Area Code") (Sl 1 4) F003;
  Row (lit "Section Code") (Sl 4 6) F004;
  Row (lit "ICAO Code") (Sl 6 8) F014;
  Row (lit "Restrictive Type") (At 8) F128;
  Row (lit "Restrictive Airspace Designation") (Sl 9 19) F129;
  Row (lit "Multiple Code") (At 19) F130;
  Row (lit "Sequence Number") (Sl 20 24) F012;
  Row (lit "Continuation Record No") (At 24) F016;
  Row (lit "Application Type") (At 25) F091;
  Row (lit "Time Code") (At 26) F131;
  Row (lit "NOTAM") (At 27) F132;
  Row (lit "Time Indicator") (At 27) F138;
  Row (lit "Time of Operations") (Sl 29 39) F195;
  Row (lit "Time of Operations (2)") (Sl 39 49) F195;
  Row (lit "Time of Operations (3)") (Sl 49 59) F195;
  Row (lit "Time of Operations (4)") (Sl 59 69) F195;
  Row (lit "Time of Operations (5)") (Sl 69 79) F195;
  Row (lit "Time of Operations (6)") (Sl 79 89) F195;
  Row (lit "Time of Operations (7)") (Sl 89 99) F195;
  Row (lit "Controlling Agency") (Sl 99 123) F140;
  Row (lit "File Record No") (Sl 123 128) F031;
  Row (lit "Cycle Date") (Sl 128 132) F032].

(* src/arinc424/definitions/RestrictiveAirspace.py:92-108  RestrictiveAirspace.read_flight0 *)
Definition RestrictiveAirspace_read_flight0_rows : list row := [
  Row (lit "Record Type") (At 0) F002;
  Row (lit "Customer / Area Code") (Sl 1 4) F003;
  Row (lit "Section Code") (Sl 4 6) F004;
  Row (lit "ICAO Code") (Sl 6 8) F014;
  Row (lit "Restrictive Type") (At 8) F128;
  Row (lit "Restrictive Airspace Designation") (Sl 9 19) F129;
  Row (lit "Multiple Code") (At 19) F130;
  Row (lit "Sequence Number") (Sl 20 24) F012;
  Row (lit "Continuation Record No") (At 24) F016;
  Row (lit "Application Type") (At 25) F091;
  Row (lit "Start/End Indicator") (At 29) F152;
  Row (lit "Start/End Date") (Sl 30 41) F153;
  Row (lit "File Record No") (Sl 123 128) F031;
  Row (lit "Cycle Date") (Sl 128 132) F032].

(* src/arinc424/definitions/RestrictiveAirspace.py:113-138  RestrictiveAirspace.read_callsign *)
Definition RestrictiveAirspace_read_callsign_rows : list row := [
  Row (lit "Record Type") (At 0) F002;
  Row (lit "Customer / Area Code") (Sl 1 4) F003;
  Row (lit "Section Code") (Sl 4 6) F004;
  Row (lit "ICAO Code") (Sl 6 8) F014;
  Row (lit "Restrictive Type") (At 8) F128;
  Row (lit "Restrictive Airspace Designation") (Sl 9 19) F129;
  Row (lit "Multiple Code") (At 19) F130;
  Row (lit "Sequence Number") (Sl 20 24) F012;
  Row (lit "Continuation Record No") (At 24) F016;
  Row (lit "Application Type") (At 25) F091;
  Row (lit "Time Code") (At 26) F131;
  Row (lit "NOTAM") (At 27) F132;
  Row (lit "Time Indicator") (At 27) F138;
  Row (lit "Time of Operations") (Sl 29 39) F195;
  Row (lit "Time of Operations (2)") (Sl 39 49) F195;
  Row (lit "Time of Operations (3)") (Sl 49 59) F195;
  Row (lit "Time of Operations (4)") (Sl 59 69) F195;
  Row (lit "Time of Operations (5)") (Sl 69 79) F195;
  Row (lit "Time of Operations (6)") (Sl 79 89) F195;
  Row (lit "Time of Operations (7)") (Sl 89 99) F195;
  Row (lit "Controlling Agency") (Sl 99 123) F140;
  Row (lit "File Record No") (Sl 123 128) F031;
  Row (lit "Cycle Date") (Sl 128 132) F032].

(* src/arinc424/definitions/RestrictiveAirspace.py:16-30  RestrictiveAirspace.read *)
Definition RestrictiveAirspace_read (line : str) (primary : bool) : result (list field) :=
  if primary then build RestrictiveAirspace_read_primary_rows line else
  bindR (index line 25) (fun application =>
  if str_eqb application (lit "T") then build RestrictiveAirspace_read_time_rows line else
  if str_eqb application (lit "P") then build RestrictiveAirspace_read_flight0_rows line else
  if str_eqb application (lit "C") then build RestrictiveAirspace_read_callsign_rows line else
  Ok []).

(* ======== class Runway, src/arinc424/definitions/Runway.py ======== *)
(* src/arinc424/definitions/Runway.py:30-58  Runway.read_primary *)
Definition Runway_read_primary_rows : list row := [
  Row (lit "Record Type") (At 0) F002;
  Row (lit "Customer / Area Code") (Sl 1 4) F003;
  Row (lit "Section Code") (AtAt 4 12) F004;
  Row (lit "Airport ICAO Identifier") (Sl 6 10) F006;
  Row (lit "ICAO Code") (Sl 10 12) F014;
  Row (lit "Runway Identifier") (Sl 13 18) F046;
  Row (lit "Continuation Record No") (At 21) F016;
  Row (lit "Runway Length") (Sl 22 27) F057;
  Row (lit "Runway Magnetic Bearing") (Sl 27 31) F058;
  Row (lit "Runway Latitude") (Sl 32 41) F036;
  Row (lit "Runway Longitude") (Sl 41 51) F037;
  Row (lit "Runway Gradient") (Sl 51 56) F212;
  Row (lit "(LTP) Ellipsoid Height") (Sl 60 66) F225;
  Row (lit "Landing Threshold Elevation") (Sl 66 71) F068;
  Row (lit "Displaced Threshold Dist") (Sl 71 75) F069;
  Row (lit "Threshold Crossing Height") (Sl 75 77) F067;
  Row (lit "Runway Width") (Sl 77 80) F109;
  Row (lit "TCH Value Indicator") (At 80) F270;
  Row (lit "Localizer/MLS/GLS Ref Path Ident") (Sl 81 85) F044;
  Row (lit "Localizer/MLS/GLS Category/Class") (At 85) F080;
  Row (lit "Stopway") (Sl 86 90) F079;
  Row (lit "Localizer/MLS/GLS Ref Path Ident (2)") (Sl 90 94) F044;
  Row (lit "Localizer/MLS/GLS Category/Class (2)") (At 94) F080;
  Row (lit "Runway Description") (Sl 101 123) F059;
  Row (lit "File Record No") (Sl 123 128) F031;
  Row (lit "Cycle Date") (Sl 128 132) F032].

(* src/arinc424/definitions/Runway.py:60-72  Runway.read_cont *)
Definition Runway_read_cont_rows : list row := [
  Row (lit "Record Type") (At 0) F002;
  Row (lit "Customer / Area Code") (Sl 1 4) F003;
  Row (lit "Section Code") (AtAt 4 12) F004;
  Row (lit "Airport ICAO Identifier") (Sl 6 10) F006;
  Row (lit "ICAO Code") (Sl 10 12) F014;
  Row (lit "Runway Identifier") (Sl 13 18) F046;
  Row (lit "Continuation Record No") (At 21) F016;
  Row (lit "Notes") (Sl 23 92) F061;
  Row (lit "File Record No") (Sl 123 128) F031;
  Row (lit "Cycle Date") (Sl 128 132) F032].

(* src/arinc424/definitions/Runway.py:74-90  Runway.read_sim *)
Definition Runway_read_sim_rows : list row := [
  Row (lit "Record Type") (At 0) F002;
  Row (lit "Customer / Area Code") (Sl 1 4) F003;
  Row (lit "Section Code") (AtAt 4 12) F004;
  Row (lit "Airport ICAO Identifier") (Sl 6 10) F006;
  Row (lit "ICAO Code") (Sl 10 12) F014;
  Row (lit "Runway Identifier") (Sl 13 18) F046;
  Row (lit "Continuation Record No") (At 21) F016;
  Row (lit "Application Type") (At 22) F091;
  Row (lit "Runway True Bearing") (Sl 51 56) F094;
  Row (lit "True Bearing Source") (At 56) F095;
  Row (lit "TDZE Location") (At 65) F098;
  Row (lit "Touchdown Zone Elevation") (Sl 66 71) F097;
  Row (lit "File Record No") (Sl 123 128) F031;
  Row (lit "Cycle Date") (Sl 128 132) F032].

(* src/arinc424/definitions/Runway.py:16-28  Runway.read *)
Definition Runway_read (line : str) (primary : bool) : result (list field) :=
  if primary then build Runway_read_primary_rows line else
  bindR (index line 22) (fun application =>
  if str_eqb application (lit "A") then build Runway_read_cont_rows line else
  if str_eqb application (lit "S") then build Runway_read_sim_rows line else
  Ok []).

(* ======== class SIDSTARApproach, src/arinc424/definitions/SIDSTARApproach.py ======== *)
(* src/arinc424/definitions/SIDSTARApproach.py:34-79  SIDSTARApproach.read_primary *)
Definition SIDSTARApproach_read_primary_rows : list row := [
  Row (lit "Record Type") (At 0) F002;
  Row (lit "Customer / Area Code") (Sl 1 4) F003;
  Row (lit "Section Code") (AtAt 4 12) F004;
  Row (lit "Airport Identifier") (Sl 6 10) F006;
  Row (lit "ICAO Code") (Sl 10 12) F014;
  Row (lit "SID/STAR/Approach Identifier") (Sl 13 19) F009;
  Row (lit "Route Type") (At 19) F007;
  Row (lit "Transition Identifier") (Sl 20 25) F011;
  Row (lit "Sequence Number") (Sl 26 29) F012;
  Row (lit "Fix Identifier") (Sl 29 34) F013;
  Row (lit "ICAO Code (2)") (Sl 34 36) F014;
  Row (lit "Section Code (2)") (Sl 36 38) F004;
  Row (lit "Continuation Record No") (At 38) F016;
  Row (lit "Waypoint Description Code") (Sl 39 43) F017;
  Row (lit "Turn Direction") (At 43) F020;
  Row (lit "RNP") (Sl 44 47) F211;
  Row (lit "Path and Termination") (Sl 47 49) F021;
  Row (lit "Turn Direction Valid") (At 49) F022;
  Row (lit "Recommended Navaid") (Sl 50 54) F023;
  Row (lit "ICAO Code (3)") (Sl 54 56) F014;
  Row (lit "Arc Radius") (Sl 56 62) F204;
  Row (lit "Theta") (Sl 62 66) F024;
  Row (lit "Rho") (Sl 66 70) F025;
  Row (lit "Magnetic Course") (Sl 70 74) F026;
  Row (lit "Route / Holding Distance or Time") (Sl 74 78) F027;
  Row (lit "Recommended Navaid (2)") (Sl 78 80) F004;
  Row (lit "Altitude Description") (At 82) F029;
  Row (lit "ATC Indicator") (At 83) F081;
  Row (lit "Altitude") (Sl 84 89) F030;
  Row (lit "Altitude (2)") (Sl 89 94) F030;
  Row (lit "Transition Altitude") (Sl 94 99) F053;
  Row (lit "Speed Limit") (Sl 99 102) F072;
  Row (lit "Vertical Angle") (Sl 102 106) F070;
  Row (lit "Center Fix or TAA Procedure Turn Indicator") (Sl 106 111) F144;
  Row (lit "Multiple Code or TAA Sector Identifier") (At 111) F130;
  Row (lit "ICAO Code (4)") (Sl 112 113) F014;
  Row (lit "Section Code (3)") (Sl 114 116) F004;
  Row (lit "GNSS/FMS Indication") (At 116) F222;
  Row (lit "Speed Limit Description") (At 117) F261;
  Row (lit "Apch Route Qualifier 1") (At 118) F007;
  Row (lit "Apch Route Qualifier 2") (At 119) F007;
  Row (lit "File Record No") (Sl 123 128) F031;
  Row (lit "Cycle Date") (Sl 128 132) F032].

(* src/arinc424/definitions/SIDSTARApproach.py:83-116  SIDSTARApproach.read_ext *)
Definition SIDSTARApproach_read_ext_rows : list row := [
  Row (lit "Record Type") (At 0) F002;
  Row (lit "Customer / Area Code") (Sl 1 4) F003;
  Row (lit "Section Code") (AtAt 4 12) F004;
  Row (lit "Airport Identifier") (Sl 6 10) F006;
  Row (lit "ICAO Code") (Sl 10 12) F014;
  Row (lit "SID/STAR/Approach Identifier") (Sl 13 19) F009;
  Row (lit "Route Type") (At 19) F007;
  Row (lit "Transition Identifier") (Sl 20 25) F011;
  Row (lit "Sequence Number") (Sl 26 29) F012;
  Row (lit "Fix Identifier") (Sl 29 34) F013;
  Row (lit "ICAO Code (2)") (Sl 34 36) F014;
  Row (lit "Section Code (2)") (Sl 36 38) F004;
  Row (lit "Continuation Record No") (At 38) F016;
  Row (lit "Application Type") (At 39) F091;
  Row (lit "CAT A Decision Height") (Sl 40 44) F170;
  Row (lit "CAT B Decision Height") (Sl 44 48) F170;
  Row (lit "CAT C Decision Height") (Sl 48 52) F170;
  Row (lit "CAT D Decision Height") (Sl 52 56) F170;
  Row (lit "CAT A Minimum Descent Altitude") (Sl 56 60) F171;
  Row (lit "CAT B Minimum Descent Altitude") (Sl 60 64) F171;
  Row (lit "CAT C Minimum Descent Altitude") (Sl 64 68) F171;
  Row (lit "CAT D Minimum Descent Altitude") (Sl 68 72) F171;
  Row (lit "Procedure TCH") (Sl 72 75) F067;
  Row (lit "Localizer Only Altitude Desc") (At 75) F029;
  Row (lit "Localizer Only Altitude") (Sl 76 81) F030;
  Row (lit "Localizer Only Vertical Angle") (Sl 81 85) F070;
  Row (lit "RNP") (Sl 89 92) F211;
  Row (lit "Apch Route Qualifier 1") (At 118) F007;
  Row (lit "Apch Route Qualifier 2") (At 119) F007;
  Row (lit "File Record No") (Sl 123 128) F031;
  Row (lit "Cycle Date") (Sl 128 132) F032].

(* src/arinc424/definitions/SIDSTARApproach.py:120-141  SIDSTARApproach.read_flight0 *)
Definition SIDSTARApproach_read_flight0_rows : list row := [
  Row (lit "Record Type") (At 0) F002;
  Row (lit "Customer / Area Code") (Sl 1 4) F003;
  Row (lit "Section Code") (AtAt 4 12) F004;
  Row (lit "Airport Identifier") (Sl 6 10) F006;
  Row (lit "ICAO Code") (Sl 10 12) F014;
  Row (lit "SID/STAR/Approach Identifier") (Sl 13 19) F009;
  Row (lit "Route Type") (At 19) F007;
  Row (lit "Transition Identifier") (Sl 20 25) F011;
  Row (lit "Sequence Number") (Sl 26 29) F012;
  Row (lit "Fix Identifier") (Sl 29 34) F013;
  Row (lit "ICAO Code (2)") (Sl 34 36) F014;
  Row (lit "Section Code (2)") (Sl 36 38) F004;
  Row (lit "Continuation Record No") (At 38) F016;
  Row (lit "Application Type") (At 39) F091;
  Row (lit "Start/End Indicator") (At 40) F152;
  Row (lit "Start/End Date") (Sl 41 45) F153;
  Row (lit "Leg Distance") (Sl 74 78) F260;
  Row (lit "File Record No") (Sl 123 128) F031;
  Row (lit "Cycle Date") (Sl 128 132) F032].

(* src/arinc424/definitions/SIDSTARApproach.py:145-171  SIDSTARApproach.read_data *)
Definition SIDSTARApproach_read_data_rows : list row := [
  Row (lit "Record Type") (At 0) F002;
  Row (lit "Customer / Area Code") (Sl 1 4) F003;
  Row (lit "Section Code") (AtAt 4 12) F004;
  Row (lit "Airport Identifier") (Sl 6 10) F006;
  Row (lit "ICAO Code") (Sl 10 12) F014;
  Row (lit "SID/STAR/Approach Identifier") (Sl 13 19) F009;
  Row (lit "Route Type") (At 19) F007;
  Row (lit "Transition Identifier") (Sl 20 25) F011;
  Row (lit "Sequence Number") (Sl 26 29) F012;
  Row (lit "Fix Identifier") (Sl 29 34) F013;
  Row (lit "ICAO Code (2)") (Sl 34 36) F014;
  Row (lit "Section Code (2)") (Sl 36 38) F004;
  Row (lit "Continuation Record No") (At 38) F016;
  Row (lit "Application Type") (At 39) F091;
  Row (lit "FAS Block Provided") (At 40) F276;
  Row (lit "FAS Block Provided Level of Service Name") (Sl 41 51) F275;
  Row (lit "LNAV/VNAV Authorized for SBAS") (At 51) F276;
  Row (lit "LNAV/VNAV Level of Service Name") (Sl 52 62) F275;
  Row (lit "LNAV Authorized for SBAS") (At 62) F276;
  Row (lit "LNAV Level of Service Name") (Sl 63 73) F275;
  Row (lit "Apch Route Qualifier 1") (At 118) F007;
  Row (lit "Apch Route Qualifier 2") (At 119) F007;
  Row (lit "File Record No") (Sl 123 128) F031;
  Row (lit "Cycle Date") (Sl 128 132) F032].

(* src/arinc424/definitions/SIDSTARApproach.py:16-30  SIDSTARApproach.read *)
Definition SIDSTARApproach_read (line : str) (primary : bool) : result (list field) :=
  if primary then build SIDSTARApproach_read_primary_rows line else
  bindR (index line 39) (fun application =>
  if str_eqb application (lit "E") then build SIDSTARApproach_read_ext_rows line else
  if str_eqb application (lit "P") then build SIDSTARApproach_read_flight0_rows line else
  if str_eqb application (lit "W") then build SIDSTARApproach_read_data_rows line else
  Ok []).

(* ======== class TAA, src/arinc424/definitions/TAA.py ======== *)
(* src/arinc424/definitions/TAA.py:18-23  __init__: id_name *)
Definition TAA_id_name (heliport : bool) : str :=
  if heliport then lit "Heliport Identifier" else lit "Airport Identifier".

(* src/arinc424/definitions/TAA.py:38-73  TAA.read_primary *)
Definition TAA_read_primary_rows (heliport : bool) : list row := [
  Row (lit "Record Type") (At 0) F002;
  Row (lit "Customer / Area Code") (Sl 1 4) F003;
  Row (lit "Section Code") (AtAt 4 12) F004;
  Row (TAA_id_name heliport) (Sl 6 10) F006;
  Row (lit "ICAO Code") (Sl 10 12) F014;
  Row (lit "Approach Identifier") (Sl 13 19) F010;
  Row (lit "TAA Waypoint") (Sl 19 24) F273;
  Row (lit "TAA Procedure Turn") (Sl 20 24) F271;
  Row (lit "ICAO Code (2)") (Sl 24 26) F014;
  Row (lit "Section Code (2)") (Sl 26 28) F004;
  Row (lit "TAA Fix Position Indicator") (At 28) F272;
  Row (lit "Continuation Record No") (At 29) F016;
  Row (lit "Mag/True Indicator") (At 40) F165;
  Row (lit "Sector Radius") (Sl 41 45) F274;
  Row (lit "Sector Bearing") (Sl 45 51) F146;
  Row (lit "Sector Minimum Altitude") (Sl 51 54) F147;
  Row (lit "Sector Radius (2)") (Sl 54 58) F274;
  Row (lit "Sector Bearing (2)") (Sl 58 64) F146;
  Row (lit "Sector Minimum Altitude (2)") (Sl 64 67) F147;
  Row (lit "Sector Radius (3)") (Sl 67 71) F274;
  Row (lit "Sector Bearing (3)") (Sl 71 77) F146;
  Row (lit "Sector Minimum Altitude (3)") (Sl 77 80) F147;
  Row (lit "Sector Radius (4)") (Sl 80 84) F274;
  Row (lit "Sector Bearing (4)") (Sl 84 90) F146;
  Row (lit "Sector Minimum Altitude (4)") (Sl 90 93) F147;
  Row (lit "Sector Radius (5)") (Sl 93 97) F274;
  Row (lit "Sector Bearing (5)") (Sl 97 103) F146;
  Row (lit "Sector Minimum Altitude (5)") (Sl 103 106) F147;
  Row (lit "Sector Radius (6)") (Sl 106 110) F274;
  Row (lit "Sector Bearing (6)") (Sl 110 116) F146;
  Row (lit "Sector Minimum Altitude (6)") (Sl 116 119) F147;
  Row (lit "File Record No") (Sl 123 128) F031;
  Row (lit "Cycle Date") (Sl 128 132) F032].

(* src/arinc424/definitions/TAA.py:76-94  TAA.read_cont *)
Definition TAA_read_cont_rows (heliport : bool) : list row := [
  Row (lit "Record Type") (At 0) F002;
  Row (lit "Customer / Area Code") (Sl 1 4) F003;
  Row (lit "Section Code") (AtAt 4 12) F004;
  Row (TAA_id_name heliport) (Sl 6 10) F006;
  Row (lit "ICAO Code") (Sl 10 12) F014;
  Row (lit "Approach Identifier") (Sl 13 19) F010;
  Row (lit "TAA Sector Identifier") (At 19) F272;
  Row (lit "TAA Procedure Turn") (Sl 20 24) F271;
  Row (lit "TAA IAF Waypoint") (Sl 29 34) F273;
  Row (lit "ICAO Code (2)") (Sl 10 12) F014;
  Row (lit "Section Code (2)") (Sl 36 38) F004;
  Row (lit "Continuation Record No") (At 38) F016;
  Row (lit "Application Notes") (At 39) F091;
  Row (lit "Notes") (Sl 50 109) F061;
  Row (lit "File Record No") (Sl 123 128) F031;
  Row (lit "Cycle Date") (Sl 128 132) F032].

(* src/arinc424/definitions/TAA.py:25-35  TAA.read *)
Definition TAA_read (heliport : bool) (line : str) (primary : bool) : result (list field) :=
  if primary then build (TAA_read_primary_rows heliport) line else
  bindR (index line 30) (fun application =>
  if str_eqb application (lit "A") then build (TAA_read_cont_rows heliport) line else
  Ok []).

(* ======== class VHFNavaid, src/arinc424/definitions/VHFNavaid.py ======== *)
(* src/arinc424/definitions/VHFNavaid.py:46-72  VHFNavaid.read_primary *)
Definition VHFNavaid_read_primary_rows : list row := [
  Row (lit "Record Type") (At 0) F002;
  Row (lit "Customer / Area Code") (Sl 1 4) F003;
  Row (lit "Section Code") (Sl 4 6) F004;
  Row (lit "Airport ICAO Identifier") (Sl 6 10) F006;
  Row (lit "ICAO Code") (Sl 10 12) F014;
  Row (lit "VOR Identifier") (Sl 13 17) F033;
  Row (lit "ICAO Code (2)") (Sl 19 21) F014;
  Row (lit "Continuation Record No") (At 21) F016;
  Row (lit "Frequency") (Sl 22 27) F034;
  Row (lit "Class") (Sl 27 29) F035;
  Row (lit "VOR Latitude") (Sl 32 41) F036;
  Row (lit "VOR Longitude") (Sl 41 51) F037;
  Row (lit "DME Ident") (Sl 51 55) F038;
  Row (lit "DME Latitude") (Sl 55 64) F036;
  Row (lit "DME Longitude") (Sl 64 74) F037;
  Row (lit "Station Declination") (Sl 74 79) F066;
  Row (lit "DME Elevation") (Sl 79 84) F040;
  Row (lit "Figure of Merit") (At 84) F149;
  Row (lit "ILS/DME Bias") (Sl 85 87) F090;
  Row (lit "Frequency Protection") (Sl 87 90) F150;
  Row (lit "Datum Code") (Sl 90 93) F197;
  Row (lit "VOR Name") (Sl 93 123) F071;
  Row (lit "File Record No") (Sl 123 128) F031;
  Row (lit "Cycle Date") (Sl 128 132) F032].

(* src/arinc424/definitions/VHFNavaid.py:75-89  VHFNavaid.read_cont *)
Definition VHFNavaid_read_cont_rows : list row := [
  Row (lit "Record Type") (At 0) F002;
  Row (lit "Customer / Area Code") (Sl 1 4) F003;
  Row (lit "Section Code") (Sl 4 6) F004;
  Row (lit "Airport ICAO Identifier") (Sl 6 10) F006;
  Row (lit "ICAO Code") (Sl 10 12) F014;
  Row (lit "VOR Identifier") (Sl 13 17) F033;
  Row (lit "ICAO Code (2)") (Sl 19 21) F014;
  Row (lit "Continuation Record No") (At 21) F016;
  Row (lit "Application Type") (At 22) F091;
  Row (lit "Notes") (Sl 23 92) F061;
  Row (lit "File Record No") (Sl 123 128) F031;
  Row (lit "Cycle Date") (Sl 128 132) F032].

(* src/arinc424/definitions/VHFNavaid.py:92-108  VHFNavaid.read_sim *)
Definition VHFNavaid_read_sim_rows : list row := [
  Row (lit "Record Type") (At 0) F002;
  Row (lit "Customer / Area Code") (Sl 1 4) F003;
  Row (lit "Section Code") (Sl 4 6) F004;
  Row (lit "Airport ICAO Identifier") (Sl 6 10) F006;
  Row (lit "ICAO Code") (Sl 10 12) F014;
  Row (lit "VOR Identifier") (Sl 13 17) F033;
  Row (lit "ICAO Code (2)") (Sl 19 21) F014;
  Row (lit "Continuation Record No") (At 21) F016;
  Row (lit "Application Type") (At 22) F091;
  Row (lit "Facility Characteristics") (Sl 27 32) F093;
  Row (lit "Magnetic Variation") (Sl 74 79) F039;
  Row (lit "Facility Elevation") (Sl 79 84) F092;
  Row (lit "File Record No") (Sl 123 128) F031;
  Row (lit "Cycle Date") (Sl 128 132) F032].

(* src/arinc424/definitions/VHFNavaid.py:111-128  VHFNavaid.read_flight_plan0 *)
Definition VHFNavaid_read_flight_plan0_rows : list row := [
  Row (lit "Record Type") (At 0) F002;
  Row (lit "Customer / Area Code") (Sl 1 4) F003;
  Row (lit "Section Code") (Sl 4 6) F004;
  Row (lit "Airport ICAO Identifier") (Sl 6 10) F006;
  Row (lit "ICAO Code") (Sl 10 12) F014;
  Row (lit "VOR Identifier") (Sl 13 17) F033;
  Row (lit "ICAO Code (2)") (Sl 19 21) F014;
  Row (lit "Continuation Record No") (At 21) F016;
  Row (lit "Application Type") (At 22) F091;
  Row (lit "FIR Identifier") (Sl 23 27) F116;
  Row (lit "UIR Identifier") (Sl 28 31) F116;
  Row (lit "Start/End Indicator") (At 32) F152;
  Row (lit "Start/End Date") (Sl 32 43) F153;
  Row (lit "File Record No") (Sl 123 128) F031;
  Row (lit "Cycle Date") (Sl 128 132) F032].

(* src/arinc424/definitions/VHFNavaid.py:131-157  VHFNavaid.read_flight_plan1 *)
Definition VHFNavaid_read_flight_plan1_rows : list row := [
  Row (lit "Record Type") (At 0) F002;
  Row (lit "Customer / Area Code") (Sl 1 4) F003;
  Row (lit "Section Code") (Sl 4 6) F004;
  Row (lit "Airport ICAO Identifier") (Sl 6 10) F006;
  Row (lit "ICAO Code") (Sl 10 12) F014;
  Row (lit "VOR Identifier") (Sl 13 17) F033;
  Row (lit "ICAO Code (2)") (Sl 19 21) F014;
  Row (lit "Continuation Record No") (At 21) F016;
  Row (lit "Frequency") (Sl 22 27) F034;
  Row (lit "Class") (Sl 27 29) F035;
  Row (lit "VOR Latitude") (Sl 32 41) F036;
  Row (lit "VOR Longitude") (Sl 41 51) F037;
  Row (lit "DME Ident") (Sl 51 55) F038;
  Row (lit "DME Latitude") (Sl 55 64) F036;
  Row (lit "DME Longitude") (Sl 64 74) F037;
  Row (lit "Station Declination") (Sl 74 79) F066;
  Row (lit "DME Elevation") (Sl 79 84) F040;
  Row (lit "Figure of Merit") (At 84) F149;
  Row (lit "ILS/DME Bias") (Sl 85 87) F090;
  Row (lit "Frequency Protection") (Sl 87 90) F150;
  Row (lit "Datum Code") (Sl 90 93) F197;
  Row (lit "VOR Name") (Sl 93 123) F071;
  Row (lit "File Record No") (Sl 123 128) F031;
  Row (lit "Cycle Date") (Sl 128 132) F032].

(* src/arinc424/definitions/VHFNavaid.py:160-202  VHFNavaid.read_lim *)
Definition VHFNavaid_read_lim_rows : list row := [
  Row (lit "Record Type") (At 0) F002;
  Row (lit "Customer / Area Code") (Sl 1 4) F003;
  Row (lit "Section Code") (Sl 4 6) F004;
  Row (lit "Airport ICAO Identifier") (Sl 6 10) F006;
  Row (lit "ICAO Code") (Sl 10 12) F014;
  Row (lit "VOR Identifier") (Sl 13 17) F033;
  Row (lit "ICAO Code (2)") (Sl 19 21) F014;
  Row (lit "Continuation Record No") (At 21) F016;
  Row (lit "Application Type") (At 22) F091;
  Row (lit "Navaid Limitation Code") (At 23) F205;
  Row (lit "Component Affected Indicator") (At 24) F206;
  Row (lit "Sequence Number") (Sl 25 27) F012;
  Row (lit "Sector From/Sector To") (Sl 27 29) F207;
  Row (lit "Distance Description") (At 29) F187;
  Row (lit "Distance Limitation") (Sl 30 36) F208;
  Row (lit "Altitude Description") (At 36) F029;
  Row (lit "Altitude Limitation") (Sl 37 43) F029;
  Row (lit "Sector From/Sector To (2)") (Sl 43 45) F207;
  Row (lit "Distance Description (2)") (At 45) F187;
  Row (lit "Distance Limitation (2)") (Sl 46 52) F208;
  Row (lit "Altitude Description (2)") (At 52) F029;
  Row (lit "Altitude Limitation (2)") (Sl 53 59) F209;
  Row (lit "Sector From/Sector To (3)") (Sl 59 61) F207;
  Row (lit "Distance Description (3)") (At 61) F187;
  Row (lit "Distance Limitation (3)") (Sl 62 68) F208;
  Row (lit "Altitude Description (3)") (At 68) F029;
  Row (lit "Altitude Limitation (3)") (Sl 69 75) F209;
  Row (lit "Sector From/Sector To (4)") (Sl 75 77) F207;
  Row (lit "Distance Description (4)") (At 77) F187;
  Row (lit "Distance Limitation (4)") (Sl 79 84) F208;
  Row (lit "Altitude Description (4)") (At 84) F029;
  Row (lit "Altitude Limitation (4)") (Sl 85 91) F209;
  Row (lit "Sector From/Sector To (5)") (Sl 91 93) F207;
  Row (lit "Distance Description (5)") (At 93) F187;
  Row (lit "Distance Limitation (5)") (Sl 94 100) F208;
  Row (lit "Altitude Description (5)") (At 101) F029;
  Row (lit "Altitude Limitation (5)") (Sl 101 107) F209;
  Row (lit "Sequence End Indicator") (At 107) F210;
  Row (lit "File Record No") (Sl 123 128) F031;
  Row (lit "Cycle Date") (Sl 128 132) F032].

(* src/arinc424/definitions/VHFNavaid.py:27-43  VHFNavaid.read *)
Definition VHFNavaid_read (line : str) (primary : bool) : result (list field) :=
  if primary then build VHFNavaid_read_primary_rows line else
  bindR (index line 22) (fun application =>
  if str_eqb application (lit "A") then build VHFNavaid_read_cont_rows line else
  if str_eqb application (lit "L") then build VHFNavaid_read_lim_rows line else
  if str_eqb application (lit "P") then build VHFNavaid_read_flight_plan0_rows line else
  if str_eqb application (lit "S") then build VHFNavaid_read_sim_rows line else
  Ok []).

(* ======== class Waypoint, src/arinc424/definitions/Waypoint.py ======== *)
(* src/arinc424/definitions/Waypoint.py:36-57  Waypoint.read_primary *)
Definition Waypoint_read_primary_rows (enroute : bool) : list row := [
  Row (lit "Record Type") (At 0) F002;
  Row (lit "Customer / Area Code") (Sl 1 4) F003;
  Row (lit "Section Code") ((if enroute then Sl 4 6 else AtAt 4 12)) F004;
  Row (lit "Region Code") (Sl 6 10) F041;
  Row (lit "ICAO Code") (Sl 10 12) F014;
  Row (lit "Waypoint Identifier") (Sl 13 18) F013;
  Row (lit "ICAO Code (2)") (Sl 19 21) F014;
  Row (lit "Continuation Record No") (At 21) F016;
  Row (lit "Waypoint Type") (Sl 26 29) F042;
  Row (lit "Waypoint Usage") (Sl 29 31) F082;
  Row (lit "Waypoint Latitude") (Sl 32 41) F036;
  Row (lit "Waypoint Longitude") (Sl 41 51) F037;
  Row (lit "Dynamic Mag. Variation") (Sl 74 79) F039;
  Row (lit "Datum Code") (Sl 84 87) F197;
  Row (lit "Name Format Indicator") (Sl 95 98) F196;
  Row (lit "Waypoint Name / Desc") (Sl 98 123) F043;
  Row (lit "File Record No") (Sl 123 128) F031;
  Row (lit "Cycle Date") (Sl 128 132) F032].

(* src/arinc424/definitions/Waypoint.py:60-75  Waypoint.read_cont *)
Definition Waypoint_read_cont_rows (enroute : bool) : list row := [
  Row (lit "Record Type") (At 0) F002;
  Row (lit "Customer / Area Code") (Sl 1 4) F003;
  Row (lit "Section Code") ((if enroute then Sl 4 6 else AtAt 4 12)) F004;
  Row (lit "Region Code") (Sl 6 10) F041;
  Row (lit "ICAO Code") (Sl 10 12) F014;
  Row (lit "Waypoint Identifier") (Sl 13 18) F013;
  Row (lit "ICAO Code (2)") (Sl 19 21) F014;
  Row (lit "Continuation Record No") (At 21) F016;
  Row (lit "Application Type") (At 22) F091;
  Row (lit "Notes") (Sl 23 123) F061;
  Row (lit "File Record No") (Sl 123 128) F031;
  Row (lit "Cycle Date") (Sl 128 132) F032].

(* src/arinc424/definitions/Waypoint.py:78-96  Waypoint.read_flight_plan0 *)
Definition Waypoint_read_flight_plan0_rows (enroute : bool) : list row := [
  Row (lit "Record Type") (At 0) F002;
  Row (lit "Customer / Area Code") (Sl 1 4) F003;
  Row (lit "Section Code") ((if enroute then Sl 4 6 else AtAt 4 12)) F004;
  Row (lit "Region Code") (Sl 6 10) F041;
  Row (lit "ICAO Code") (Sl 10 12) F014;
  Row (lit "Waypoint Identifier") (Sl 13 18) F013;
  Row (lit "ICAO Code (2)") (Sl 19 21) F014;
  Row (lit "Continuation Record No") (At 21) F016;
  Row (lit "Application Type") (At 22) F091;
  Row (lit "FIR Identifier") (Sl 23 27) F116;
  Row (lit "UIR Identifier") (Sl 27 31) F116;
  Row (lit "Start/End Indicator") (At 31) F152;
  Row (lit "Start/End Date") (Sl 32 43) F153;
  Row (lit "File Record No") (Sl 123 128) F031;
  Row (lit "Cycle Date") (Sl 128 132) F032].

(* src/arinc424/definitions/Waypoint.py:99-120  Waypoint.read_flight_plan1 *)
Definition Waypoint_read_flight_plan1_rows (enroute : bool) : list row := [
  Row (lit "Record Type") (At 0) F002;
  Row (lit "Customer / Area Code") (Sl 1 4) F003;
  Row (lit "Section Code") ((if enroute then Sl 4 6 else AtAt 4 12)) F004;
  Row (lit "Region Code") (Sl 6 10) F041;
  Row (lit "ICAO Code") (Sl 10 12) F014;
  Row (lit "Waypoint Identifier") (Sl 13 18) F013;
  Row (lit "ICAO Code (2)") (Sl 19 21) F014;
  Row (lit "Continuation Record No") (At 21) F016;
  Row (lit "Waypoint Type") (Sl 26 29) F042;
  Row (lit "Waypoint Usage") (Sl 29 31) F082;
  Row (lit "Waypoint Latitude") (Sl 32 41) F036;
  Row (lit "Waypoint Longitude") (Sl 41 51) F037;
  Row (lit "Dynamic Mag. Variation") (Sl 74 79) F039;
  Row (lit "Datum Code") (Sl 84 87) F197;
  Row (lit "Name Format Indicator") (Sl 95 98) F196;
  Row (lit "Waypoint Name / Desc") (Sl 98 123) F043;
  Row (lit "File Record No") (Sl 123 128) F031;
  Row (lit "Cycle Date") (Sl 128 132) F032].

(* src/arinc424/definitions/Waypoint.py:19-33  Waypoint.read *)
Definition Waypoint_read (enroute : bool) (line : str) (primary : bool) : result (list field) :=
  if primary then build (Waypoint_read_primary_rows enroute) line else
  bindR (index line 22) (fun application =>
  if str_eqb application (lit "A") then build (Waypoint_read_cont_rows enroute) line else
  if str_eqb application (lit "P") then build (Waypoint_read_flight_plan0_rows enroute) line else
  if str_eqb application (lit "Q") then build (Waypoint_read_flight_plan1_rows enroute) line else
  Ok []).

(* An instance of one of the definition classes: record.py:44-85 stores these in `records`. *)
Inductive cls :=
| CAirport
| CAirportCommunication
| CAirportGate
| CAirwaysMarker
| CAlternate
| CCompanyRoute
| CControlledAirspace
| CCruisingTables
| CEnrouteAirways
| CEnrouteAirwaysRestriction
| CEnrouteCommunications
| CFIRUIR
| CFlightPlanning
| CGLS
| CGeoReferenceTable
| CGridMORA
| CHeliport
| CHeliportCommunications
| CHeliportTerminalWaypoint
| CHoldingPattern
| CLocalizerGlideslope
| CLocalizerMarker
| CMLS
| CMSA (heliport : bool)
| CNDBNavaid
| CPathPoint
| CPreferredRoute
| CRestrictiveAirspace
| CRunway
| CSIDSTARApproach
| CTAA (heliport : bool)
| CVHFNavaid
| CWaypoint (enroute : bool).

(* class attribute cont_idx (None: no such attribute), definitions/*.py *)
Definition cls_cont_idx (d : cls) : option nat :=
  match d with
  | CAirport => Some 21  (* Airport.py *)
  | CAirportCommunication => Some 25  (* AirportCommunication.py *)
  | CAirportGate => Some 21  (* AirportGate.py *)
  | CAirwaysMarker => Some 21  (* AirwaysMarker.py *)
  | CAlternate => None  (* Alternate.py *)
  | CCompanyRoute => None  (* CompanyRoute.py *)
  | CControlledAirspace => Some 24  (* ControlledAirspace.py *)
  | CCruisingTables => None  (* CruisingTables.py *)
  | CEnrouteAirways => Some 38  (* EnrouteAirways.py *)
  | CEnrouteAirwaysRestriction => None  (* EnrouteAirwaysRestriction.py *)
  | CEnrouteCommunications => Some 55  (* EnrouteCommunications.py *)
  | CFIRUIR => Some 19  (* FIRUIR.py *)
  | CFlightPlanning => Some 69  (* FlightPlanning.py *)
  | CGLS => Some 21  (* GLS.py *)
  | CGeoReferenceTable => Some 38  (* GeoReferenceTable.py *)
  | CGridMORA => None  (* GridMORA.py *)
  | CHeliport => Some 21  (* Heliport.py *)
  | CHeliportCommunications => Some 25  (* HeliportCommunications.py *)
  | CHeliportTerminalWaypoint => Some 21  (* HeliportTerminalWaypoint.py *)
  | CHoldingPattern => Some 38  (* HoldingPattern.py *)
  | CLocalizerGlideslope => Some 21  (* LocalizerGlideslope.py *)
  | CLocalizerMarker => Some 21  (* LocalizerMarker.py *)
  | CMLS => Some 21  (* MLS.py *)
  | CMSA _ => Some 38  (* MSA.py *)
  | CNDBNavaid => Some 21  (* NDBNavaid.py *)
  | CPathPoint => Some 26  (* PathPoint.py *)
  | CPreferredRoute => Some 38  (* PreferredRoute.py *)
  | CRestrictiveAirspace => Some 24  (* RestrictiveAirspace.py *)
  | CRunway => Some 21  (* Runway.py *)
  | CSIDSTARApproach => Some 38  (* SIDSTARApproach.py *)
  | CTAA _ => Some 29  (* TAA.py *)
  | CVHFNavaid => Some 21  (* VHFNavaid.py *)
  | CWaypoint _ => Some 21  (* Waypoint.py *)
  end.

(* class attribute app_idx, definitions/*.py *)
Definition cls_app_idx (d : cls) : option nat :=
  match d with
  | CAirport => Some 22  (* Airport.py *)
  | CAirportCommunication => Some 26  (* AirportCommunication.py *)
  | CAirportGate => Some 22  (* AirportGate.py *)
  | CAirwaysMarker => Some 22  (* AirwaysMarker.py *)
  | CAlternate => None  (* Alternate.py *)
  | CCompanyRoute => None  (* CompanyRoute.py *)
  | CControlledAirspace => Some 25  (* ControlledAirspace.py *)
  | CCruisingTables => None  (* CruisingTables.py *)
  | CEnrouteAirways => Some 39  (* EnrouteAirways.py *)
  | CEnrouteAirwaysRestriction => None  (* EnrouteAirwaysRestriction.py *)
  | CEnrouteCommunications => Some 56  (* EnrouteCommunications.py *)
  | CFIRUIR => Some 20  (* FIRUIR.py *)
  | CFlightPlanning => Some 70  (* FlightPlanning.py *)
  | CGLS => Some 22  (* GLS.py *)
  | CGeoReferenceTable => Some 39  (* GeoReferenceTable.py *)
  | CGridMORA => None  (* GridMORA.py *)
  | CHeliport => Some 22  (* Heliport.py *)
  | CHeliportCommunications => Some 26  (* HeliportCommunications.py *)
  | CHeliportTerminalWaypoint => Some 22  (* HeliportTerminalWaypoint.py *)
  | CHoldingPattern => Some 39  (* HoldingPattern.py *)
  | CLocalizerGlideslope => Some 22  (* LocalizerGlideslope.py *)
  | CLocalizerMarker => Some 22  (* LocalizerMarker.py *)
  | CMLS => Some 22  (* MLS.py *)
  | CMSA _ => Some 39  (* MSA.py *)
  | CNDBNavaid => Some 22  (* NDBNavaid.py *)
  | CPathPoint => Some 27  (* PathPoint.py *)
  | CPreferredRoute => Some 39  (* PreferredRoute.py *)
  | CRestrictiveAirspace => Some 25  (* RestrictiveAirspace.py *)
  | CRunway => Some 22  (* Runway.py *)
  | CSIDSTARApproach => Some 39  (* SIDSTARApproach.py *)
  | CTAA _ => Some 30  (* TAA.py *)
  | CVHFNavaid => Some 22  (* VHFNavaid.py *)
  | CWaypoint _ => Some 22  (* Waypoint.py *)
  end.

(* class attribute continuations ([]: no such attribute), definitions/*.py *)
Definition cls_continuations (d : cls) : list str :=
  match d with
  | CAirport => [(lit "A"); (lit "P"); (lit "Q")]
  | CAirportCommunication => [(lit "N")]
  | CAirportGate => [(lit "A")]
  | CAirwaysMarker => [(lit "A")]
  | CAlternate => []
  | CCompanyRoute => []
  | CControlledAirspace => [(lit "A")]
  | CCruisingTables => []
  | CEnrouteAirways => [(lit "A"); (lit "P"); (lit "Q")]
  | CEnrouteAirwaysRestriction => [(lit "AE"); (lit "TC"); (lit "NR")]
  | CEnrouteCommunications => [(lit " "); (lit "T")]
  | CFIRUIR => [(lit "A")]
  | CFlightPlanning => [(lit "A"); (lit "T")]
  | CGLS => [(lit "A")]
  | CGeoReferenceTable => [(lit "A")]
  | CGridMORA => []
  | CHeliport => [(lit "A"); (lit "P"); (lit "Q")]
  | CHeliportCommunications => [(lit "A"); (lit "T")]
  | CHeliportTerminalWaypoint => [(lit "A"); (lit "P")]
  | CHoldingPattern => [(lit "A")]
  | CLocalizerGlideslope => [(lit "A"); (lit "S")]
  | CLocalizerMarker => [(lit "A")]
  | CMLS => [(lit "A")]
  | CMSA _ => [(lit "A")]
  | CNDBNavaid => [(lit "A"); (lit "P"); (lit "Q"); (lit "S")]
  | CPathPoint => [(lit "E")]
  | CPreferredRoute => [(lit "A"); (lit "T")]
  | CRestrictiveAirspace => [(lit "T"); (lit "P"); (lit "C")]
  | CRunway => [(lit "A"); (lit "S")]
  | CSIDSTARApproach => [(lit "E"); (lit "P"); (lit "W")]
  | CTAA _ => [(lit "A")]
  | CVHFNavaid => [(lit "A"); (lit "L"); (lit "P"); (lit "S")]
  | CWaypoint _ => [(lit "A"); (lit "P"); (lit "Q")]
  end.

(* class attribute name ("": no such attribute), definitions/*.py *)
Definition cls_name (d : cls) : str :=
  match d with
  | CAirport => (lit "Airport")
  | CAirportCommunication => (lit "Airport Communications")
  | CAirportGate => (lit "Airport Gate")
  | CAirwaysMarker => (lit "Airways Marker")
  | CAlternate => (lit "")
  | CCompanyRoute => (lit "")
  | CControlledAirspace => (lit "Controlled Airspace")
  | CCruisingTables => (lit "")
  | CEnrouteAirways => (lit "Enroute Airways")
  | CEnrouteAirwaysRestriction => (lit "Enroute Airways")
  | CEnrouteCommunications => (lit "Enroute Communications")
  | CFIRUIR => (lit "FIR/UIR")
  | CFlightPlanning => (lit "Flight Planning Arrival/Departure")
  | CGLS => (lit "GLS")
  | CGeoReferenceTable => (lit "Geographical Reference Table")
  | CGridMORA => (lit "")
  | CHeliport => (lit "Heliport")
  | CHeliportCommunications => (lit "Heliport Communications")
  | CHeliportTerminalWaypoint => (lit "Heliport Terminal Waypoint")
  | CHoldingPattern => (lit "Holding Pattern")
  | CLocalizerGlideslope => (lit "Localizer and Glide Slope")
  | CLocalizerMarker => (lit "Localizer Marker")
  | CMLS => (lit "MLS")
  | CMSA _ => (lit "MSA")
  | CNDBNavaid => (lit "NDB Navaid")
  | CPathPoint => (lit "Path Point")
  | CPreferredRoute => (lit "Preferred Route")
  | CRestrictiveAirspace => (lit "Restrictive Airspace")
  | CRunway => (lit "Runway")
  | CSIDSTARApproach => (lit "SID/STAR/Approach")
  | CTAA _ => (lit "TAA")
  | CVHFNavaid => (lit "VHF Navaid")
  | CWaypoint _ => (lit "Waypoint")
  end.

(* method application_type, definitions/*.py: line[self.app_idx], or line[15:17] for
   EnrouteAirwaysRestriction.py:11-12; classes without the method (never asked) give Ok []. *)
Definition cls_application_type (d : cls) (line : str) : result str :=
  match d with
  | CEnrouteAirwaysRestriction => Ok (slice 15 17 line)
  | _ => match cls_app_idx d with Some i => index line i | None => Ok [] end
  end.

(* method read, dispatched on the class of the instance *)
Definition cls_read (d : cls) (line : str) (primary : bool) : result (list field) :=
  match d with
  | CAirport => Airport_read line primary
  | CAirportCommunication => AirportCommunication_read line primary
  | CAirportGate => AirportGate_read line primary
  | CAirwaysMarker => AirwaysMarker_read line primary
  | CAlternate => Alternate_read line primary
  | CCompanyRoute => CompanyRoute_read line primary
  | CControlledAirspace => ControlledAirspace_read line primary
  | CCruisingTables => CruisingTables_read line primary
  | CEnrouteAirways => EnrouteAirways_read line primary
  | CEnrouteAirwaysRestriction => EnrouteAirwaysRestriction_read line primary
  | CEnrouteCommunications => EnrouteCommunications_read line primary
  | CFIRUIR => FIRUIR_read line primary
  | CFlightPlanning => FlightPlanning_read line primary
  | CGLS => GLS_read line primary
  | CGeoReferenceTable => GeoReferenceTable_read line primary
  | CGridMORA => GridMORA_read line primary
  | CHeliport => Heliport_read line primary
  | CHeliportCommunications => HeliportCommunications_read line primary
  | CHeliportTerminalWaypoint => HeliportTerminalWaypoint_read line primary
  | CHoldingPattern => HoldingPattern_read line primary
  | CLocalizerGlideslope => LocalizerGlideslope_read line primary
  | CLocalizerMarker => LocalizerMarker_read line primary
  | CMLS => MLS_read line primary
  | CMSA p => MSA_read p line primary
  | CNDBNavaid => NDBNavaid_read line primary
  | CPathPoint => PathPoint_read line primary
  | CPreferredRoute => PreferredRoute_read line primary
  | CRestrictiveAirspace => RestrictiveAirspace_read line primary
  | CRunway => Runway_read line primary
  | CSIDSTARApproach => SIDSTARApproach_read line primary
  | CTAA p => TAA_read p line primary
  | CVHFNavaid => VHFNavaid_read line primary
  | CWaypoint p => Waypoint_read p line primary
  end.

(* Every field list of every class, with the class and method it comes from (not code: an index for the proofs and checks). *)
Definition all_layouts : list (str * cls * list row) := [
  (lit "Airport.read_primary", CAirport, Airport_read_primary_rows);
  (lit "Airport.read_cont", CAirport, Airport_read_cont_rows);
  (lit "Airport.read_flight0", CAirport, Airport_read_flight0_rows);
  (lit "Airport.read_flight1", CAirport, Airport_read_flight1_rows);
  (lit "AirportCommunication.read_primary", CAirportCommunication, AirportCommunication_read_primary_rows);
  (lit "AirportCommunication.read_cont_narr", CAirportCommunication, AirportCommunication_read_cont_narr_rows);
  (lit "AirportCommunication.read_time", CAirportCommunication, AirportCommunication_read_time_rows);
  (lit "AirportGate.read_primary", CAirportGate, AirportGate_read_primary_rows);
  (lit "AirportGate.read_cont", CAirportGate, AirportGate_read_cont_rows);
  (lit "AirwaysMarker.read_primary", CAirwaysMarker, AirwaysMarker_read_primary_rows);
  (lit "AirwaysMarker.read_cont", CAirwaysMarker, AirwaysMarker_read_cont_rows);
  (lit "Alternate.read", CAlternate, Alternate_read_rows);
  (lit "CompanyRoute.read", CCompanyRoute, CompanyRoute_read_rows);
  (lit "ControlledAirspace.read_primary", CControlledAirspace, ControlledAirspace_read_primary_rows);
  (lit "ControlledAirspace.read_cont", CControlledAirspace, ControlledAirspace_read_cont_rows);
  (lit "CruisingTables.read_primary", CCruisingTables, CruisingTables_read_primary_rows);
  (lit "EnrouteAirways.read_primary", CEnrouteAirways, EnrouteAirways_read_primary_rows);
  (lit "EnrouteAirways.read_cont", CEnrouteAirways, EnrouteAirways_read_cont_rows);
  (lit "EnrouteAirways.read_flight_plan0", CEnrouteAirways, EnrouteAirways_read_flight_plan0_rows);
  (lit "EnrouteAirways.read_flight_plan1", CEnrouteAirways, EnrouteAirways_read_flight_plan1_rows);
  (lit "EnrouteAirwaysRestriction.primary_altitude_exclude", CEnrouteAirwaysRestriction, EnrouteAirwaysRestriction_primary_altitude_exclude_rows);
  (lit "EnrouteAirwaysRestriction.cont_altitude_exclude", CEnrouteAirwaysRestriction, EnrouteAirwaysRestriction_cont_altitude_exclude_rows);
  (lit "EnrouteAirwaysRestriction.primary_note_restriction", CEnrouteAirwaysRestriction, EnrouteAirwaysRestriction_primary_note_restriction_rows);
  (lit "EnrouteAirwaysRestriction.cont_note_restriction", CEnrouteAirwaysRestriction, EnrouteAirwaysRestriction_cont_note_restriction_rows);
  (lit "EnrouteAirwaysRestriction.primary_seasonal_closure", CEnrouteAirwaysRestriction, EnrouteAirwaysRestriction_primary_seasonal_closure_rows);
  (lit "EnrouteAirwaysRestriction.primary_cruise_table", CEnrouteAirwaysRestriction, EnrouteAirwaysRestriction_primary_cruise_table_rows);
  (lit "EnrouteAirwaysRestriction.cont_cruise_table", CEnrouteAirwaysRestriction, EnrouteAirwaysRestriction_cont_cruise_table_rows);
  (lit "EnrouteCommunications.read_primary", CEnrouteCommunications, EnrouteCommunications_read_primary_rows);
  (lit "EnrouteCommunications.read_cont", CEnrouteCommunications, EnrouteCommunications_read_cont_rows);
  (lit "EnrouteCommunications.read_timeop", CEnrouteCommunications, EnrouteCommunications_read_timeop_rows);
  (lit "FIRUIR.read_primary", CFIRUIR, FIRUIR_read_primary_rows);
  (lit "FIRUIR.read_cont", CFIRUIR, FIRUIR_read_cont_rows);
  (lit "FlightPlanning.read_primary", CFlightPlanning, FlightPlanning_read_primary_rows);
  (lit "FlightPlanning.read_cont", CFlightPlanning, FlightPlanning_read_cont_rows);
  (lit "FlightPlanning.read_timeop", CFlightPlanning, FlightPlanning_read_timeop_rows);
  (lit "GLS.read_primary", CGLS, GLS_read_primary_rows);
  (lit "GLS.read_cont", CGLS, GLS_read_cont_rows);
  (lit "GeoReferenceTable.read_primary", CGeoReferenceTable, GeoReferenceTable_read_primary_rows);
  (lit "GeoReferenceTable.read_cont", CGeoReferenceTable, GeoReferenceTable_read_cont_rows);
  (lit "GridMORA.read_primary", CGridMORA, GridMORA_read_primary_rows);
  (lit "Heliport.read_primary", CHeliport, Heliport_read_primary_rows);
  (lit "Heliport.read_cont", CHeliport, Heliport_read_cont_rows);
  (lit "Heliport.read_flight0", CHeliport, Heliport_read_flight0_rows);
  (lit "Heliport.read_flight1", CHeliport, Heliport_read_flight1_rows);
  (lit "HeliportCommunications.read_primary", CHeliportCommunications, HeliportCommunications_read_primary_rows);
  (lit "HeliportCommunications.read_cont", CHeliportCommunications, HeliportCommunications_read_cont_rows);
  (lit "HeliportCommunications.read_timeop", CHeliportCommunications, HeliportCommunications_read_timeop_rows);
  (lit "HeliportTerminalWaypoint.read_primary", CHeliportTerminalWaypoint, HeliportTerminalWaypoint_read_primary_rows);
  (lit "HeliportTerminalWaypoint.read_cont", CHeliportTerminalWaypoint, HeliportTerminalWaypoint_read_cont_rows);
  (lit "HeliportTerminalWaypoint.read_flight0", CHeliportTerminalWaypoint, HeliportTerminalWaypoint_read_flight0_rows);
  (lit "HeliportTerminalWaypoint.read_flight1", CHeliportTerminalWaypoint, HeliportTerminalWaypoint_read_flight1_rows);
  (lit "HoldingPattern.read_primary", CHoldingPattern, HoldingPattern_read_primary_rows);
  (lit "HoldingPattern.read_cont", CHoldingPattern, HoldingPattern_read_cont_rows);
  (lit "LocalizerGlideslope.read_primary", CLocalizerGlideslope, LocalizerGlideslope_read_primary_rows);
  (lit "LocalizerGlideslope.read_cont", CLocalizerGlideslope, LocalizerGlideslope_read_cont_rows);
  (lit "LocalizerGlideslope.read_sim", CLocalizerGlideslope, LocalizerGlideslope_read_sim_rows);
  (lit "LocalizerMarker.read_primary", CLocalizerMarker, LocalizerMarker_read_primary_rows);
  (lit "LocalizerMarker.read_cont", CLocalizerMarker, LocalizerMarker_read_cont_rows);
  (lit "MLS.read_primary", CMLS, MLS_read_primary_rows);
  (lit "MLS.read_cont", CMLS, MLS_read_cont_rows);
  (lit "MSA.read_primary", CMSA false, MSA_read_primary_rows false);
  (lit "MSA.read_primary", CMSA true, MSA_read_primary_rows true);
  (lit "MSA.read_cont", CMSA false, MSA_read_cont_rows false);
  (lit "MSA.read_cont", CMSA true, MSA_read_cont_rows true);
  (lit "NDBNavaid.read_primary", CNDBNavaid, NDBNavaid_read_primary_rows);
  (lit "NDBNavaid.read_cont", CNDBNavaid, NDBNavaid_read_cont_rows);
  (lit "NDBNavaid.read_sim", CNDBNavaid, NDBNavaid_read_sim_rows);
  (lit "NDBNavaid.read_flight_plan0", CNDBNavaid, NDBNavaid_read_flight_plan0_rows);
  (lit "NDBNavaid.read_flight_plan1", CNDBNavaid, NDBNavaid_read_flight_plan1_rows);
  (lit "PathPoint.read_primary", CPathPoint, PathPoint_read_primary_rows);
  (lit "PathPoint.read_cont", CPathPoint, PathPoint_read_cont_rows);
  (lit "PreferredRoute.read_primary", CPreferredRoute, PreferredRoute_read_primary_rows);
  (lit "PreferredRoute.read_timeop", CPreferredRoute, PreferredRoute_read_timeop_rows);
  (lit "PreferredRoute.read_cont", CPreferredRoute, PreferredRoute_read_cont_rows);
  (lit "RestrictiveAirspace.read_primary", CRestrictiveAirspace, RestrictiveAirspace_read_primary_rows);
  (lit "RestrictiveAirspace.read_time", CRestrictiveAirspace, RestrictiveAirspace_read_time_rows);
  (lit "RestrictiveAirspace.read_flight0", CRestrictiveAirspace, RestrictiveAirspace_read_flight0_rows);
  (lit "RestrictiveAirspace.read_callsign", CRestrictiveAirspace, RestrictiveAirspace_read_callsign_rows);
  (lit "Runway.read_primary", CRunway, Runway_read_primary_rows);
  (lit "Runway.read_cont", CRunway, Runway_read_cont_rows);
  (lit "Runway.read_sim", CRunway, Runway_read_sim_rows);
  (lit "SIDSTARApproach.read_primary", CSIDSTARApproach, SIDSTARApproach_read_primary_rows);
  (lit "SIDSTARApproach.read_ext", CSIDSTARApproach, SIDSTARApproach_read_ext_rows);
  (lit "SIDSTARApproach.read_flight0", CSIDSTARApproach, SIDSTARApproach_read_flight0_rows);
  (lit "SIDSTARApproach.read_data", CSIDSTARApproach, SIDSTARApproach_read_data_rows);
  (lit "TAA.read_primary", CTAA false, TAA_read_primary_rows false);
  (lit "TAA.read_primary", CTAA true, TAA_read_primary_rows true);
  (lit "TAA.read_cont", CTAA false, TAA_read_cont_rows false);
  (lit "TAA.read_cont", CTAA true, TAA_read_cont_rows true);
  (lit "VHFNavaid.read_primary", CVHFNavaid, VHFNavaid_read_primary_rows);
  (lit "VHFNavaid.read_cont", CVHFNavaid, VHFNavaid_read_cont_rows);
  (lit "VHFNavaid.read_sim", CVHFNavaid, VHFNavaid_read_sim_rows);
  (lit "VHFNavaid.read_flight_plan0", CVHFNavaid, VHFNavaid_read_flight_plan0_rows);
  (lit "VHFNavaid.read_flight_plan1", CVHFNavaid, VHFNavaid_read_flight_plan1_rows);
  (lit "VHFNavaid.read_lim", CVHFNavaid, VHFNavaid_read_lim_rows);
  (lit "Waypoint.read_primary", CWaypoint false, Waypoint_read_primary_rows false);
  (lit "Waypoint.read_primary", CWaypoint true, Waypoint_read_primary_rows true);
  (lit "Waypoint.read_cont", CWaypoint false, Waypoint_read_cont_rows false);
  (lit "Waypoint.read_cont", CWaypoint true, Waypoint_read_cont_rows true);
  (lit "Waypoint.read_flight_plan0", CWaypoint false, Waypoint_read_flight_plan0_rows false);
  (lit "Waypoint.read_flight_plan0", CWaypoint true, Waypoint_read_flight_plan0_rows true);
  (lit "Waypoint.read_flight_plan1", CWaypoint false, Waypoint_read_flight_plan1_rows false);
  (lit "Waypoint.read_flight_plan1", CWaypoint true, Waypoint_read_flight_plan1_rows true)].

(* src/arinc424/record.py:45-86  the `records` dictionary *)
Definition records : list (str * cls) := [
  ((lit "AS"), CGridMORA);
  ((lit "D "), CVHFNavaid);
  ((lit "DB"), CNDBNavaid);
  ((lit "EA"), CWaypoint true);
  ((lit "EM"), CAirwaysMarker);
  ((lit "EP"), CHoldingPattern);
  ((lit "ER"), CEnrouteAirways);
  ((lit "ET"), CPreferredRoute);
  ((lit "EU"), CEnrouteAirwaysRestriction);
  ((lit "EV"), CEnrouteCommunications);
  ((lit "HA"), CHeliport);
  ((lit "HC"), CHeliportTerminalWaypoint);
  ((lit "HD"), CSIDSTARApproach);
  ((lit "HE"), CSIDSTARApproach);
  ((lit "HF"), CSIDSTARApproach);
  ((lit "HK"), CTAA true);
  ((lit "HS"), CMSA true);
  ((lit "HV"), CHeliportCommunications);
  ((lit "PA"), CAirport);
  ((lit "PB"), CAirportGate);
  ((lit "PC"), CWaypoint false);
  ((lit "PD"), CSIDSTARApproach);
  ((lit "PE"), CSIDSTARApproach);
  ((lit "PF"), CSIDSTARApproach);
  ((lit "PG"), CRunway);
  ((lit "PI"), CLocalizerGlideslope);
  ((lit "PK"), CTAA false);
  ((lit "PL"), CMLS);
  ((lit "PM"), CLocalizerMarker);
  ((lit "PN"), CNDBNavaid);
  ((lit "PP"), CPathPoint);
  ((lit "PR"), CFlightPlanning);
  ((lit "PS"), CMSA false);
  ((lit "PT"), CGLS);
  ((lit "PV"), CAirportCommunication);
  ((lit "R "), CCompanyRoute);
  ((lit "RA"), CAlternate);
  ((lit "TC"), CCruisingTables);
  ((lit "TG"), CGeoReferenceTable);
  ((lit "UC"), CControlledAirspace);
  ((lit "UF"), CFIRUIR);
  ((lit "UR"), CRestrictiveAirspace)].
