(* GENERATED by tools/catalogue.py.  The record catalogue: for each section code, which columns
   (1-based, inclusive, as in the standard) make up which field, and the ARINC 424 paragraph
   (FNNN: 5.NNN) by which the field is decoded. *)
From Coq Require Import List String.
From Verif Require Import Decoder.
Import ListNotations.
Open Scope string_scope.
Open Scope list_scope.

Record cell := Cell { c_name : string; c_cols : list nat; c_fn : fn }.
Definition fld (name : string) (first last : nat) (f : fn) : cell := Cell name (seq first (last + 1 - first)) f.
Definition fld2 (name : string) (i j : nat) (f : fn) : cell := Cell name [i; j] f.

(* A layout: the section codes it is for, whether it is for primary records (None: either), for which
   application type (None: any), and its fields. *)
Record entry := Entry { e_sections : list string; e_primary : option bool; e_app : option string; e_cells : list cell }.

(* Continuation record number column and application type column(s), by section code. *)
Definition cont_columns : list (string * option nat * list nat) := [
  ("AS", None, []);
  ("D ", Some 22, [23]);
  ("DB", Some 22, [23]);
  ("EA", Some 22, [23]);
  ("EM", Some 22, [23]);
  ("EP", Some 39, [40]);
  ("ER", Some 39, [40]);
  ("ET", Some 39, [40]);
  ("EU", None, [16; 17]);
  ("EV", Some 56, [57]);
  ("HA", Some 22, [23]);
  ("HC", Some 22, [23]);
  ("HD", Some 39, [40]);
  ("HE", Some 39, [40]);
  ("HF", Some 39, [40]);
  ("HK", Some 30, [31]);
  ("HS", Some 39, [40]);
  ("HV", Some 26, [27]);
  ("PA", Some 22, [23]);
  ("PB", Some 22, [23]);
  ("PC", Some 22, [23]);
  ("PD", Some 39, [40]);
  ("PE", Some 39, [40]);
  ("PF", Some 39, [40]);
  ("PG", Some 22, [23]);
  ("PI", Some 22, [23]);
  ("PK", Some 30, [31]);
  ("PL", Some 22, [23]);
  ("PM", Some 22, [23]);
  ("PN", Some 22, [23]);
  ("PP", Some 27, [28]);
  ("PR", Some 70, [71]);
  ("PS", Some 39, [40]);
  ("PT", Some 22, [23]);
  ("PV", Some 26, [27]);
  ("R ", None, []);
  ("RA", None, []);
  ("TC", None, []);
  ("TG", Some 39, [40]);
  ("UC", Some 25, [26]);
  ("UF", Some 20, [21]);
  ("UR", Some 25, [26])].

(* AS, GridMORA.py, read_primary *)
Definition cat_AS_1 : list cell := [
  fld "Record Type" 1 1 F002;
  fld "Section Code" 5 6 F004;
  fld "Starting Latitude" 14 16 F141;
  fld "Starting Longitude" 17 20 F142;
  fld "MORA" 31 33 F143;
  fld "MORA (2)" 34 36 F143;
  fld "MORA (3)" 37 39 F143;
  fld "MORA (4)" 40 42 F143;
  fld "MORA (5)" 43 45 F143;
  fld "MORA (6)" 46 48 F143;
  fld "MORA (7)" 49 51 F143;
  fld "MORA (8)" 52 54 F143;
  fld "MORA (9)" 55 57 F143;
  fld "MORA (10)" 58 60 F143;
  fld "MORA (11)" 61 63 F143;
  fld "MORA (12)" 64 66 F143;
  fld "MORA (13)" 67 69 F143;
  fld "MORA (14)" 70 72 F143;
  fld "MORA (15)" 73 75 F143;
  fld "MORA (16)" 76 78 F143;
  fld "MORA (17)" 79 81 F143;
  fld "MORA (18)" 82 84 F143;
  fld "MORA (19)" 85 87 F143;
  fld "MORA (21)" 88 90 F143;
  fld "MORA (22)" 91 93 F143;
  fld "MORA (23)" 94 96 F143;
  fld "MORA (24)" 97 99 F143;
  fld "MORA (25)" 100 102 F143;
  fld "MORA (26)" 103 105 F143;
  fld "MORA (27)" 106 108 F143;
  fld "MORA (28)" 109 111 F143;
  fld "MORA (29)" 112 114 F143;
  fld "MORA (30)" 115 117 F143;
  fld "MORA (31)" 118 120 F143;
  fld "File Record No" 124 128 F031;
  fld "Cycle Date" 129 132 F032].

(* D , VHFNavaid.py, read_primary *)
Definition cat_D_2 : list cell := [
  fld "Record Type" 1 1 F002;
  fld "Customer / Area Code" 2 4 F003;
  fld "Section Code" 5 6 F004;
  fld "Airport ICAO Identifier" 7 10 F006;
  fld "ICAO Code" 11 12 F014;
  fld "VOR Identifier" 14 17 F033;
  fld "ICAO Code (2)" 20 21 F014;
  fld "Continuation Record No" 22 22 F016;
  fld "Frequency" 23 27 F034;
  fld "Class" 28 29 F035;
  fld "VOR Latitude" 33 41 F036;
  fld "VOR Longitude" 42 51 F037;
  fld "DME Ident" 52 55 F038;
  fld "DME Latitude" 56 64 F036;
  fld "DME Longitude" 65 74 F037;
  fld "Station Declination" 75 79 F066;
  fld "DME Elevation" 80 84 F040;
  fld "Figure of Merit" 85 85 F149;
  fld "ILS/DME Bias" 86 87 F090;
  fld "Frequency Protection" 88 90 F150;
  fld "Datum Code" 91 93 F197;
  fld "VOR Name" 94 123 F071;
  fld "File Record No" 124 128 F031;
  fld "Cycle Date" 129 132 F032].

(* D , VHFNavaid.py, read_cont *)
Definition cat_D_3 : list cell := [
  fld "Record Type" 1 1 F002;
  fld "Customer / Area Code" 2 4 F003;
  fld "Section Code" 5 6 F004;
  fld "Airport ICAO Identifier" 7 10 F006;
  fld "ICAO Code" 11 12 F014;
  fld "VOR Identifier" 14 17 F033;
  fld "ICAO Code (2)" 20 21 F014;
  fld "Continuation Record No" 22 22 F016;
  fld "Application Type" 23 23 F091;
  fld "Notes" 24 92 F061;
  fld "File Record No" 124 128 F031;
  fld "Cycle Date" 129 132 F032].

(* D , VHFNavaid.py, read_lim *)
Definition cat_D_4 : list cell := [
  fld "Record Type" 1 1 F002;
  fld "Customer / Area Code" 2 4 F003;
  fld "Section Code" 5 6 F004;
  fld "Airport ICAO Identifier" 7 10 F006;
  fld "ICAO Code" 11 12 F014;
  fld "VOR Identifier" 14 17 F033;
  fld "ICAO Code (2)" 20 21 F014;
  fld "Continuation Record No" 22 22 F016;
  fld "Application Type" 23 23 F091;
  fld "Navaid Limitation Code" 24 24 F205;
  fld "Component Affected Indicator" 25 25 F206;
  fld "Sequence Number" 26 27 F012;
  fld "Sector From/Sector To" 28 29 F207;
  fld "Distance Description" 30 30 F187;
  fld "Distance Limitation" 31 36 F208;
  fld "Altitude Description" 37 37 F029;
  fld "Altitude Limitation" 38 43 F029;
  fld "Sector From/Sector To (2)" 44 45 F207;
  fld "Distance Description (2)" 46 46 F187;
  fld "Distance Limitation (2)" 47 52 F208;
  fld "Altitude Description (2)" 53 53 F029;
  fld "Altitude Limitation (2)" 54 59 F209;
  fld "Sector From/Sector To (3)" 60 61 F207;
  fld "Distance Description (3)" 62 62 F187;
  fld "Distance Limitation (3)" 63 68 F208;
  fld "Altitude Description (3)" 69 69 F029;
  fld "Altitude Limitation (3)" 70 75 F209;
  fld "Sector From/Sector To (4)" 76 77 F207;
  fld "Distance Description (4)" 78 78 F187;
  fld "Distance Limitation (4)" 80 84 F208;
  fld "Altitude Description (4)" 85 85 F029;
  fld "Altitude Limitation (4)" 86 91 F209;
  fld "Sector From/Sector To (5)" 92 93 F207;
  fld "Distance Description (5)" 94 94 F187;
  fld "Distance Limitation (5)" 95 100 F208;
  fld "Altitude Description (5)" 102 102 F029;
  fld "Altitude Limitation (5)" 102 107 F209;
  fld "Sequence End Indicator" 108 108 F210;
  fld "File Record No" 124 128 F031;
  fld "Cycle Date" 129 132 F032].

(* D , VHFNavaid.py, read_flight_plan0 *)
Definition cat_D_5 : list cell := [
  fld "Record Type" 1 1 F002;
  fld "Customer / Area Code" 2 4 F003;
  fld "Section Code" 5 6 F004;
  fld "Airport ICAO Identifier" 7 10 F006;
  fld "ICAO Code" 11 12 F014;
  fld "VOR Identifier" 14 17 F033;
  fld "ICAO Code (2)" 20 21 F014;
  fld "Continuation Record No" 22 22 F016;
  fld "Application Type" 23 23 F091;
  fld "FIR Identifier" 24 27 F116;
  fld "UIR Identifier" 29 31 F116;
  fld "Start/End Indicator" 33 33 F152;
  fld "Start/End Date" 33 43 F153;
  fld "File Record No" 124 128 F031;
  fld "Cycle Date" 129 132 F032].

(* D , VHFNavaid.py, read_sim *)
Definition cat_D_6 : list cell := [
  fld "Record Type" 1 1 F002;
  fld "Customer / Area Code" 2 4 F003;
  fld "Section Code" 5 6 F004;
  fld "Airport ICAO Identifier" 7 10 F006;
  fld "ICAO Code" 11 12 F014;
  fld "VOR Identifier" 14 17 F033;
  fld "ICAO Code (2)" 20 21 F014;
  fld "Continuation Record No" 22 22 F016;
  fld "Application Type" 23 23 F091;
  fld "Facility Characteristics" 28 32 F093;
  fld "Magnetic Variation" 75 79 F039;
  fld "Facility Elevation" 80 84 F092;
  fld "File Record No" 124 128 F031;
  fld "Cycle Date" 129 132 F032].

(* DB PN, NDBNavaid.py, read_primary *)
Definition cat_DB_7 : list cell := [
  fld "Record Type" 1 1 F002;
  fld "Customer / Area Code" 2 4 F003;
  fld "Section Code" 5 6 F004;
  fld "Airport ICAO Identifier" 7 10 F006;
  fld "ICAO Code" 11 12 F014;
  fld "NDB Identifier" 14 17 F033;
  fld "ICAO Code (2)" 20 21 F014;
  fld "Continuation Record No" 22 22 F016;
  fld "NDB Frequency" 23 27 F034;
  fld "NDB Class" 28 31 F035;
  fld "NDB Latitude" 33 41 F036;
  fld "NDB Longitude" 42 51 F037;
  fld "Magnetic Variation" 75 79 F039;
  fld "Datum Code" 91 93 F197;
  fld "NDB Name" 94 123 F071;
  fld "File Record No" 124 128 F031;
  fld "Cycle Date" 129 132 F032].

(* DB PN, NDBNavaid.py, read_cont *)
Definition cat_DB_8 : list cell := [
  fld "Record Type" 1 1 F002;
  fld "Customer / Area Code" 2 4 F003;
  fld "Section Code" 5 6 F004;
  fld "Airport ICAO Identifier" 7 10 F006;
  fld "ICAO Code" 11 12 F014;
  fld "NDB Identifier" 14 17 F033;
  fld "ICAO Code (2)" 20 21 F014;
  fld "Continuation Record No" 22 22 F016;
  fld "Application Type" 23 23 F091;
  fld "Notes" 24 92 F061;
  fld "File Record No" 124 128 F031;
  fld "Cycle Date" 129 132 F032].

(* DB PN, NDBNavaid.py, read_flight_plan0 *)
Definition cat_DB_9 : list cell := [
  fld "Record Type" 1 1 F002;
  fld "Customer / Area Code" 2 4 F003;
  fld "Section Code" 5 6 F004;
  fld "Airport ICAO Identifier" 7 10 F006;
  fld "ICAO Code" 11 12 F014;
  fld "NDB Identifier" 14 17 F033;
  fld "ICAO Code (2)" 20 21 F014;
  fld "Continuation Record No" 22 22 F016;
  fld "Application Type" 23 23 F091;
  fld "FIR Identifier" 24 27 F116;
  fld "UIR Identifier" 29 31 F116;
  fld "Start/End Indicator" 33 33 F152;
  fld "Start/End Date" 33 43 F153;
  fld "File Record No" 124 128 F031;
  fld "Cycle Date" 129 132 F032].

(* DB PN, NDBNavaid.py, read_flight_plan1 *)
Definition cat_DB_10 : list cell := [
  fld "Record Type" 1 1 F002;
  fld "Customer / Area Code" 2 4 F003;
  fld "Section Code" 5 6 F004;
  fld "Airport ICAO Identifier" 7 10 F006;
  fld "ICAO Code" 11 12 F014;
  fld "NDB Identifier" 14 17 F033;
  fld "ICAO Code (2)" 20 21 F014;
  fld "Continuation Record No" 22 22 F016;
  fld "NDB Frequency" 23 27 F034;
  fld "NDB Class" 28 31 F035;
  fld "NDB Latitude" 33 41 F036;
  fld "NDB Longitude" 42 51 F037;
  fld "Magnetic Variation" 75 79 F039;
  fld "Datum Code" 91 93 F197;
  fld "NDB Name" 94 123 F071;
  fld "File Record No" 124 128 F031;
  fld "Cycle Date" 129 132 F032].

(* DB PN, NDBNavaid.py, read_sim *)
Definition cat_DB_11 : list cell := [
  fld "Record Type" 1 1 F002;
  fld "Customer / Area Code" 2 4 F003;
  fld "Section Code" 5 6 F004;
  fld "Airport ICAO Identifier" 7 10 F006;
  fld "ICAO Code" 11 12 F014;
  fld "NDB Identifier" 14 17 F033;
  fld "ICAO Code (2)" 20 21 F014;
  fld "Continuation Record No" 22 22 F016;
  fld "Application Type" 23 23 F091;
  fld "Facility Characteristics" 28 32 F093;
  fld "Facility Elevation" 80 84 F092;
  fld "File Record No" 124 128 F031;
  fld "Cycle Date" 129 132 F032].

(* EA, Waypoint.py, read_primary *)
Definition cat_EA_12 : list cell := [
  fld "Record Type" 1 1 F002;
  fld "Customer / Area Code" 2 4 F003;
  fld "Section Code" 5 6 F004;
  fld "Region Code" 7 10 F041;
  fld "ICAO Code" 11 12 F014;
  fld "Waypoint Identifier" 14 18 F013;
  fld "ICAO Code (2)" 20 21 F014;
  fld "Continuation Record No" 22 22 F016;
  fld "Waypoint Type" 27 29 F042;
  fld "Waypoint Usage" 30 31 F082;
  fld "Waypoint Latitude" 33 41 F036;
  fld "Waypoint Longitude" 42 51 F037;
  fld "Dynamic Mag. Variation" 75 79 F039;
  fld "Datum Code" 85 87 F197;
  fld "Name Format Indicator" 96 98 F196;
  fld "Waypoint Name / Desc" 99 123 F043;
  fld "File Record No" 124 128 F031;
  fld "Cycle Date" 129 132 F032].

(* EA, Waypoint.py, read_cont *)
Definition cat_EA_13 : list cell := [
  fld "Record Type" 1 1 F002;
  fld "Customer / Area Code" 2 4 F003;
  fld "Section Code" 5 6 F004;
  fld "Region Code" 7 10 F041;
  fld "ICAO Code" 11 12 F014;
  fld "Waypoint Identifier" 14 18 F013;
  fld "ICAO Code (2)" 20 21 F014;
  fld "Continuation Record No" 22 22 F016;
  fld "Application Type" 23 23 F091;
  fld "Notes" 24 123 F061;
  fld "File Record No" 124 128 F031;
  fld "Cycle Date" 129 132 F032].

(* EA, Waypoint.py, read_flight_plan0 *)
Definition cat_EA_14 : list cell := [
  fld "Record Type" 1 1 F002;
  fld "Customer / Area Code" 2 4 F003;
  fld "Section Code" 5 6 F004;
  fld "Region Code" 7 10 F041;
  fld "ICAO Code" 11 12 F014;
  fld "Waypoint Identifier" 14 18 F013;
  fld "ICAO Code (2)" 20 21 F014;
  fld "Continuation Record No" 22 22 F016;
  fld "Application Type" 23 23 F091;
  fld "FIR Identifier" 24 27 F116;
  fld "UIR Identifier" 28 31 F116;
  fld "Start/End Indicator" 32 32 F152;
  fld "Start/End Date" 33 43 F153;
  fld "File Record No" 124 128 F031;
  fld "Cycle Date" 129 132 F032].

(* EA, Waypoint.py, read_flight_plan1 *)
Definition cat_EA_15 : list cell := [
  fld "Record Type" 1 1 F002;
  fld "Customer / Area Code" 2 4 F003;
  fld "Section Code" 5 6 F004;
  fld "Region Code" 7 10 F041;
  fld "ICAO Code" 11 12 F014;
  fld "Waypoint Identifier" 14 18 F013;
  fld "ICAO Code (2)" 20 21 F014;
  fld "Continuation Record No" 22 22 F016;
  fld "Waypoint Type" 27 29 F042;
  fld "Waypoint Usage" 30 31 F082;
  fld "Waypoint Latitude" 33 41 F036;
  fld "Waypoint Longitude" 42 51 F037;
  fld "Dynamic Mag. Variation" 75 79 F039;
  fld "Datum Code" 85 87 F197;
  fld "Name Format Indicator" 96 98 F196;
  fld "Waypoint Name / Desc" 99 123 F043;
  fld "File Record No" 124 128 F031;
  fld "Cycle Date" 129 132 F032].

(* EM, AirwaysMarker.py, read_primary *)
Definition cat_EM_16 : list cell := [
  fld "Record Type" 1 1 F002;
  fld "Customer / Area Code" 2 4 F003;
  fld "Section Code" 5 6 F004;
  fld "Marker Identifier" 14 17 F110;
  fld "ICAO Code" 20 21 F014;
  fld "Continuation Record No" 22 22 F016;
  fld "Marker Code" 23 26 F111;
  fld "Marker Shape" 28 28 F112;
  fld "Marker Power" 29 29 F113;
  fld "Marker Latitude" 33 41 F036;
  fld "Marker Longitude" 42 51 F037;
  fld "Minor Axis" 52 55 F100;
  fld "Magnetic Variation" 75 79 F039;
  fld "Facility Elevation" 80 84 F092;
  fld "Datum Code" 85 87 F197;
  fld "Marker Name" 94 123 F071;
  fld "File Record No" 124 128 F031;
  fld "Cycle Date" 129 132 F032].

(* EM, AirwaysMarker.py, read_cont *)
Definition cat_EM_17 : list cell := [
  fld "Record Type" 1 1 F002;
  fld "Customer / Area Code" 2 4 F003;
  fld "Section Code" 5 6 F004;
  fld "Marker Identifier" 14 17 F110;
  fld "ICAO Code" 20 21 F014;
  fld "Continuation Record No" 22 22 F016;
  fld "Application Type" 23 23 F091;
  fld "File Record No" 124 128 F031;
  fld "Cycle Date" 129 132 F032].

(* EP, HoldingPattern.py, read_primary *)
Definition cat_EP_18 : list cell := [
  fld "Record Type" 1 1 F002;
  fld "Customer / Area Code" 2 4 F003;
  fld "Section Code" 5 6 F004;
  fld "Region Code" 7 10 F041;
  fld "ICAO Code" 11 12 F014;
  fld "Duplicate Identifier" 28 29 F114;
  fld "Fix Identifier" 30 34 F013;
  fld "ICAO Code (2)" 35 36 F014;
  fld "Section Code (2)" 37 38 F004;
  fld "Continuation Record No" 39 39 F016;
  fld "Inbound Holding Course" 40 43 F062;
  fld "Turn Direction" 44 44 F063;
  fld "Leg Length" 45 47 F064;
  fld "Leg Time" 48 49 F065;
  fld "Minimum Altitude" 50 54 F030;
  fld "Maximum Altitude" 55 59 F127;
  fld "Holding Speed" 60 62 F175;
  fld "RNP" 63 65 F211;
  fld "Arc Radius" 66 71 F204;
  fld "Name" 99 123 F060;
  fld "File Record No" 124 128 F031;
  fld "Cycle Date" 129 132 F032].

(* EP, HoldingPattern.py, read_cont *)
Definition cat_EP_19 : list cell := [
  fld "Record Type" 1 1 F002;
  fld "Customer / Area Code" 2 4 F003;
  fld "Section Code" 5 6 F004;
  fld "Region Code" 7 10 F041;
  fld "ICAO Code" 11 12 F014;
  fld "Duplicate Identifier" 28 29 F114;
  fld "Fix Identifier" 30 34 F013;
  fld "ICAO Code (2)" 35 36 F014;
  fld "Section Code (2)" 37 38 F004;
  fld "Continuation Record No" 39 39 F016;
  fld "Application Type" 41 41 F091;
  fld "Notes" 41 109 F061;
  fld "File Record No" 124 128 F031;
  fld "Cycle Date" 129 132 F032].

(* ER, EnrouteAirways.py, read_primary *)
Definition cat_ER_20 : list cell := [
  fld "Record Type" 1 1 F002;
  fld "Customer / Area Code" 2 4 F003;
  fld "Section Code" 5 6 F004;
  fld "Route Identifier" 14 18 F008;
  fld "Sequence Number" 26 29 F012;
  fld "Fix Identifier" 30 34 F013;
  fld "ICAO Code" 35 36 F014;
  fld "Section Code (2)" 37 38 F004;
  fld "Continuation Record No" 39 39 F016;
  fld "Waypoint Desc Code" 40 43 F017;
  fld "Boundary Code" 44 44 F018;
  fld "Route Type" 45 45 F007;
  fld "Level" 46 46 F019;
  fld "Direction Restriction" 47 47 F115;
  fld "Cruise Table Indicator" 48 49 F134;
  fld "EU Indicator" 50 50 F164;
  fld "Recommended NAVAID" 51 54 F023;
  fld "ICAO Code (2)" 55 56 F014;
  fld "RNP" 57 59 F211;
  fld "Theta" 63 66 F024;
  fld "Rho" 67 70 F025;
  fld "Outbound Magnetic Course" 71 74 F026;
  fld "Route Distance From" 75 78 F027;
  fld "Inbound Magnetic Course" 79 82 F028;
  fld "Minimum Altitude" 84 88 F030;
  fld "Minimum Altitude (2)" 89 93 F030;
  fld "Maximum Altitude" 94 98 F127;
  fld "Fix Radius Transition Indicator" 99 101 F254;
  fld "File Record No" 124 128 F031;
  fld "Cycle Date" 129 132 F032].

(* ER, EnrouteAirways.py, read_cont *)
Definition cat_ER_21 : list cell := [
  fld "Record Type" 1 1 F002;
  fld "Customer / Area Code" 2 4 F003;
  fld "Section Code" 5 6 F004;
  fld "Route Identifier" 14 18 F008;
  fld "Sequence Number" 26 29 F012;
  fld "Fix Identifier" 30 34 F013;
  fld "ICAO Code" 35 36 F014;
  fld "Section Code (2)" 37 38 F004;
  fld "Continuation Record No" 39 39 F016;
  fld "Application Type" 40 40 F091;
  fld "Notes" 41 109 F061;
  fld "File Record No" 124 128 F031;
  fld "Cycle Date" 129 132 F032].

(* ER, EnrouteAirways.py, read_flight_plan0 *)
Definition cat_ER_22 : list cell := [
  fld "Record Type" 1 1 F002;
  fld "Customer / Area Code" 2 4 F003;
  fld "Section Code" 5 6 F004;
  fld "Route Identifier" 14 18 F008;
  fld "Sequence Number" 26 29 F012;
  fld "Fix Identifier" 30 34 F013;
  fld "ICAO Code" 35 36 F014;
  fld "Section Code (2)" 37 38 F004;
  fld "Continuation Record No" 39 39 F016;
  fld "Application Type" 40 40 F091;
  fld "Start/End Indicator" 41 41 F152;
  fld "Start/End Date" 42 52 F153;
  fld "Restr. Air ICAO Code" 67 68 F014;
  fld "Restr. Air Type" 69 69 F128;
  fld "Restr. Air Designation" 70 79 F129;
  fld "Restr. Air Multiple Code" 80 80 F130;
  fld "Restr. Air ICAO Code (2)" 81 82 F014;
  fld "Restr. Air Type (2)" 83 83 F012;
  fld "Restr. Air Designation (2)" 84 93 F129;
  fld "Restr. Air Multiple Code (2)" 94 94 F130;
  fld "Restr. Air ICAO Code (3)" 95 96 F014;
  fld "Restr. Air Type (3)" 97 97 F012;
  fld "Restr. Air Designation (3)" 98 107 F129;
  fld "Restr. Air Multiple Code (3)" 108 108 F130;
  fld "Restr. Air ICAO Code (4)" 109 110 F014;
  fld "Restr. Air Type (4)" 111 111 F012;
  fld "Restr. Air Designation (4)" 112 121 F129;
  fld "Restr. Air Link Continuation" 123 123 F174;
  fld "File Record No" 124 128 F031;
  fld "Cycle Date" 129 132 F032].

(* ER, EnrouteAirways.py, read_flight_plan1 *)
Definition cat_ER_23 : list cell := [
  fld "Record Type" 1 1 F002;
  fld "Customer / Area Code" 2 4 F003;
  fld "Section Code" 5 6 F004;
  fld "Route Identifier" 14 18 F008;
  fld "Sequence Number" 26 29 F012;
  fld "Fix Identifier" 30 34 F013;
  fld "ICAO Code" 35 36 F014;
  fld "Section Code (2)" 37 38 F004;
  fld "Continuation Record No" 39 39 F016;
  fld "Waypoint Desc Code" 40 43 F017;
  fld "Boundary Code" 44 44 F018;
  fld "Route Type" 45 45 F007;
  fld "Level" 46 46 F019;
  fld "Direction Restriction" 47 47 F115;
  fld "Cruise Table Indicator" 48 49 F134;
  fld "EU Indicator" 50 50 F164;
  fld "Recommended NAVAID" 51 54 F023;
  fld "ICAO Code (2)" 55 56 F014;
  fld "RNP" 57 59 F211;
  fld "Theta" 63 66 F024;
  fld "Rho" 67 70 F025;
  fld "Outbound Magnetic Course" 71 74 F026;
  fld "Route Distance From" 75 78 F027;
  fld "Inbound Magnetic Course" 79 82 F028;
  fld "Minimum Altitude" 84 88 F030;
  fld "Minimum Altitude (2)" 89 93 F030;
  fld "Maximum Altitude" 94 98 F127;
  fld "Fix Radius Transition Indicator" 99 101 F254;
  fld "File Record No" 124 128 F031;
  fld "Cycle Date" 129 132 F032].

(* ET, PreferredRoute.py, read_primary *)
Definition cat_ET_24 : list cell := [
  fld "Record Type" 1 1 F002;
  fld "Customer / Area Code" 2 4 F003;
  fld "Section Code" 5 6 F004;
  fld "Route Identifier" 14 23 F008;
  fld "Preferred Route Use Ind" 24 25 F220;
  fld "Sequence Number" 26 29 F012;
  fld "Continuation Record No" 39 39 F016;
  fld "To Fix Identifier" 40 44 F083;
  fld "ICAO Code" 45 46 F014;
  fld "Section Code (2)" 47 48 F004;
  fld "VIA Code" 49 51 F077;
  fld "SID/STAR/AWY Ident" 52 57 F078;
  fld "AREA Code" 58 60 F003;
  fld "Level" 61 61 F019;
  fld "Route Type" 62 62 F007;
  fld "Initial Airport/Fix" 63 67 F194;
  fld "ICAO Code" 68 69 F014;
  fld "Section Code" 70 71 F004;
  fld "Terminus Airport/Fix" 72 76 F194;
  fld "ICAO Code" 77 78 F014;
  fld "Section Code" 79 80 F004;
  fld "Minimum Altitude" 81 85 F030;
  fld "Maximum Altitude" 86 90 F127;
  fld "Time Code" 91 91 F131;
  fld "Aircraft Use Group" 92 93 F221;
  fld "Direction Restriction" 94 94 F115;
  fld "Altitude Description" 95 95 F029;
  fld "Altitude One" 96 100 F030;
  fld "Altitude Two" 101 105 F030;
  fld "File Record No" 124 128 F031;
  fld "Cycle Date" 129 132 F032].

(* ET, PreferredRoute.py, read_cont *)
Definition cat_ET_25 : list cell := [
  fld "Record Type" 1 1 F002;
  fld "Customer / Area Code" 2 4 F003;
  fld "Section Code" 5 6 F004;
  fld "Route Identifier" 14 23 F008;
  fld "Preferred Route Use Ind" 24 25 F220;
  fld "Sequence Number" 26 29 F012;
  fld "Continuation Record No" 39 39 F016;
  fld "Application Type" 40 40 F091;
  fld "Notes" 41 109 F061;
  fld "File Record No" 124 128 F031;
  fld "Cycle Date" 129 132 F032].

(* ET, PreferredRoute.py, read_timeop *)
Definition cat_ET_26 : list cell := [
  fld "Record Type" 1 1 F002;
  fld "Customer / Area Code" 2 4 F003;
  fld "Section Code" 5 6 F004;
  fld "Route Identifier" 14 23 F008;
  fld "Preferred Route Use Ind" 24 25 F220;
  fld "Sequence Number" 26 29 F012;
  fld "Continuation Record No" 39 39 F016;
  fld "Application Type" 40 40 F091;
  fld "Time Code" 41 41 F131;
  fld "Time Indicator" 42 42 F138;
  fld "Time of Operation" 43 52 F195;
  fld "Time of Operation (2)" 53 62 F195;
  fld "Time of Operation (3)" 63 72 F195;
  fld "Time of Operation (4)" 73 82 F195;
  fld "Time of Operation (5)" 83 92 F195;
  fld "Time of Operation (6)" 93 102 F195;
  fld "Time of Operation (7)" 103 112 F195;
  fld "File Record No" 124 128 F031;
  fld "Cycle Date" 129 132 F032].

(* EU, EnrouteAirwaysRestriction.py, primary_altitude_exclude *)
Definition cat_EU_27 : list cell := [
  fld "Record Type" 1 1 F002;
  fld "Customer / Area Code" 2 4 F003;
  fld "Section Code" 5 6 F004;
  fld "Route Identifier" 7 11 F008;
  fld "Restriction Identifier" 13 15 F154;
  fld "Restriction Type" 16 17 F201;
  fld "Continuation Record No" 18 18 F016;
  fld "Start Fix Identifier" 19 23 F013;
  fld "Start Fix ICAO Code" 24 25 F014;
  fld "Start Fix Section Code" 26 27 F004;
  fld "End Fix Identifier" 28 32 F013;
  fld "End Fix ICAO Code" 33 34 F014;
  fld "End Fix Section Code" 35 36 F004;
  fld "Start Date" 38 44 F157;
  fld "End Date" 45 51 F157;
  fld "Time Code" 52 52 F131;
  fld "Time Indicator" 53 53 F138;
  fld "Time of Operation" 54 63 F195;
  fld "Time of Operation" 64 73 F195;
  fld "Time of Operation" 74 83 F195;
  fld "Time of Operation" 84 93 F195;
  fld "Exclusion Indicator" 94 94 F202;
  fld "Units of Altitude" 95 95 F160;
  fld "Restriction Altitude" 96 98 F161;
  fld "Block Indicator" 99 99 F203;
  fld "Restriction Altitude" 100 102 F161;
  fld "Block Indicator" 103 103 F203;
  fld "Restriction Altitude" 104 106 F161;
  fld "Block Indicator" 107 107 F203;
  fld "Restriction Altitude" 108 110 F161;
  fld "Block Indicator" 111 111 F203;
  fld "Restriction Altitude" 112 114 F161;
  fld "Block Indicator" 115 115 F203;
  fld "Restriction Altitude" 116 118 F161;
  fld "Block Indicator" 119 119 F203;
  fld "Restriction Altitude" 120 122 F161;
  fld "Block Indicator" 123 123 F203;
  fld "File Record No" 124 128 F031;
  fld "Cycle Date" 129 132 F032].

(* EU, EnrouteAirwaysRestriction.py, primary_cruise_table *)
Definition cat_EU_28 : list cell := [
  fld "Record Type" 1 1 F002;
  fld "Customer / Area Code" 2 4 F003;
  fld "Section Code" 5 6 F004;
  fld "Route Identifier" 7 11 F008;
  fld "Restriction Identifier" 13 15 F154;
  fld "Restriction Type" 16 17 F201;
  fld "Continuation Record No" 18 18 F016;
  fld "Start Fix Identifier" 19 23 F013;
  fld "Start Fix ICAO Code" 24 25 F014;
  fld "Start Fix Section Code" 26 27 F004;
  fld "End Fix Identifier" 28 32 F013;
  fld "End Fix ICAO Code" 33 34 F014;
  fld "End Fix Section Code" 35 36 F004;
  fld "Start Date" 38 44 F157;
  fld "End Date" 45 51 F157;
  fld "Time Code" 52 52 F131;
  fld "Time Indicator" 53 53 F138;
  fld "Time of Operation" 54 63 F195;
  fld "Time of Operation (2)" 64 73 F195;
  fld "Time of Operation (3)" 74 83 F195;
  fld "Time of Operation (4)" 84 93 F195;
  fld "Cruise Table Ident" 94 95 F134;
  fld "File Record No" 124 128 F031;
  fld "Cycle Date" 129 132 F032].

(* EU, EnrouteAirwaysRestriction.py, primary_seasonal_closure *)
Definition cat_EU_29 : list cell := [
  fld "Record Type" 1 1 F002;
  fld "Customer / Area Code" 2 4 F003;
  fld "Section Code" 5 6 F004;
  fld "Route Identifier" 7 11 F008;
  fld "Restriction Identifier" 13 15 F154;
  fld "Restriction Type" 16 17 F201;
  fld "Continuation Record No" 18 18 F016;
  fld "Start Fix Identifier" 19 23 F013;
  fld "Start Fix ICAO Code" 24 25 F014;
  fld "Start Fix Section Code" 26 27 F004;
  fld "End Fix Identifier" 28 32 F013;
  fld "End Fix ICAO Code" 33 34 F014;
  fld "End Fix Section Code" 35 36 F004;
  fld "Start Date" 38 44 F157;
  fld "End Date" 45 51 F157;
  fld "Time Code" 52 52 F131;
  fld "Time Indicator" 53 53 F138;
  fld "Time of Operation" 54 63 F195;
  fld "Time of Operation (2)" 64 73 F195;
  fld "Time of Operation (3)" 74 83 F195;
  fld "Time of Operation (4)" 84 93 F195;
  fld "Cruise Table Ident" 94 95 F134;
  fld "File Record No" 124 128 F031;
  fld "Cycle Date" 129 132 F032].

(* EU, EnrouteAirwaysRestriction.py, primary_note_restriction *)
Definition cat_EU_30 : list cell := [
  fld "Record Type" 1 1 F002;
  fld "Customer / Area Code" 2 4 F003;
  fld "Section Code" 5 6 F004;
  fld "Route Identifier" 8 11 F008;
  fld "Restriction Identifier" 13 15 F154;
  fld "Restriction Type" 16 17 F201;
  fld "Continuation Record No" 18 18 F016;
  fld "Start Fix Identifier" 19 23 F013;
  fld "Start Fix ICAO Code" 24 25 F014;
  fld "Start Fix Section Code" 26 26 F004;
  fld "End Fix Identifier" 28 32 F013;
  fld "End Fix ICAO Code" 33 34 F014;
  fld "End Fix Section Code" 35 36 F004;
  fld "Start Date" 38 44 F157;
  fld "End Date" 45 51 F157;
  fld "Restriction Notes" 52 120 F163;
  fld "File Record No" 124 128 F031;
  fld "Cycle Date" 129 132 F032].

(* EU, EnrouteAirwaysRestriction.py, cont_altitude_exclude *)
Definition cat_EU_31 : list cell := [
  fld "Record Type" 1 1 F002;
  fld "Customer / Area Code" 2 4 F003;
  fld "Section Code" 5 6 F004;
  fld "Route Identifier" 7 11 F008;
  fld "Restriction Identifier" 13 15 F154;
  fld "Restriction Type" 16 17 F201;
  fld "Continuation Record No" 18 18 F016;
  fld "Application Type" 19 19 F091;
  fld "Time Code" 52 52 F131;
  fld "Time Indicator" 53 53 F138;
  fld "Time of Operation" 54 63 F195;
  fld "Time of Operation (2)" 64 73 F195;
  fld "Time of Operation (3)" 74 83 F195;
  fld "Time of Operation (4)" 84 93 F195;
  fld "Exclusion Operator" 94 94 F202;
  fld "Units of Altitude" 95 95 F160;
  fld "Restriction Altitude" 96 98 F161;
  fld "Block Indicator" 99 99 F203;
  fld "Restriction Altitude (2)" 100 102 F161;
  fld "Block Indicator (2)" 103 103 F203;
  fld "Restriction Altitude (3)" 104 106 F161;
  fld "Block Indicator (3)" 107 107 F203;
  fld "Restriction Altitude (4)" 108 110 F161;
  fld "Block Indicator (4)" 111 111 F203;
  fld "Restriction Altitude (5)" 112 114 F161;
  fld "Block Indicator (5)" 115 115 F203;
  fld "Restriction Altitude (6)" 116 118 F161;
  fld "Block Indicator (6)" 119 119 F203;
  fld "Restriction Altitude (7)" 120 122 F161;
  fld "Block Indicator (7)" 123 123 F203;
  fld "File Record No" 124 128 F031;
  fld "Cycle Date" 129 132 F032].

(* EU, EnrouteAirwaysRestriction.py, cont_cruise_table *)
Definition cat_EU_32 : list cell := [
  fld "Record Type" 1 1 F002;
  fld "Customer / Area Code" 2 4 F003;
  fld "Section Code" 5 6 F004;
  fld "Route Identifier" 7 11 F008;
  fld "Restriction Identifier" 13 15 F154;
  fld "Restriction Type" 16 17 F201;
  fld "Continuation Record No" 18 18 F016;
  fld "Application Type" 19 19 F091;
  fld "Time Code" 52 52 F131;
  fld "Time Indicator" 53 53 F138;
  fld "Time of Operation" 54 63 F195;
  fld "Time of Operation (2)" 64 73 F195;
  fld "Time of Operation (3)" 74 83 F195;
  fld "Time of Operation (4)" 84 93 F195;
  fld "Cruise Table Ident" 94 95 F134;
  fld "File Record No" 124 128 F031;
  fld "Cycle Date" 129 132 F032].

(* EU, EnrouteAirwaysRestriction.py, cont_note_restriction *)
Definition cat_EU_33 : list cell := [
  fld "Record Type" 1 1 F002;
  fld "Customer / Area Code" 2 4 F003;
  fld "Section Code" 5 6 F004;
  fld "Route Identifier" 8 11 F008;
  fld "Restriction Identifier" 13 15 F154;
  fld "Restriction Type" 16 17 F201;
  fld "Continuation Record No" 18 18 F016;
  fld "Application Type" 19 19 F091;
  fld "Restriction Notes" 52 120 F163;
  fld "File Record No" 124 128 F031;
  fld "Cycle Date" 129 132 F032].

(* EV, EnrouteCommunications.py, read_primary *)
Definition cat_EV_34 : list cell := [
  fld "Record Type" 1 1 F002;
  fld "Customer / Area Code" 2 4 F003;
  fld "Section Code" 5 6 F004;
  fld "FIR/RDO Ident" 7 10 F190;
  fld "FIR/UIR Address" 11 14 F151;
  fld "Indicator" 15 15 F117;
  fld "Remote Name" 19 43 F189;
  fld "Communications Type" 44 46 F101;
  fld "Comm Frequency" 47 53 F103;
  fld "Guard/Transmit" 54 54 F182;
  fld "Frequency Units" 55 55 F104;
  fld "Continuation Record No" 56 56 F016;
  fld "Service Indicator" 57 59 F106;
  fld "Radar Service" 60 60 F102;
  fld "Modulation" 61 61 F198;
  fld "Signal Emission" 62 62 F199;
  fld "Latitude" 63 71 F036;
  fld "Longitude" 72 81 F037;
  fld "Magnetic Variation" 82 86 F039;
  fld "Facility Elevation" 87 91 F092;
  fld "H24 Indicator" 92 92 F181;
  fld "Altitude Description" 93 93 F029;
  fld "Communication Altitude" 94 98 F184;
  fld "Communication Altitude (2)" 99 103 F184;
  fld "Remote Facility" 104 107 F200;
  fld "ICAO Code" 108 109 F014;
  fld "Section Code (2)" 110 111 F004;
  fld "File Record No" 124 128 F031;
  fld "Cycle Date" 129 132 F032].

(* EV, EnrouteCommunications.py, read_cont *)
Definition cat_EV_35 : list cell := [
  fld "Record Type" 1 1 F002;
  fld "Customer / Area Code" 2 4 F003;
  fld "Section Code" 5 6 F004;
  fld "FIR/RDO Ident" 7 10 F190;
  fld "FIR/UIR Address" 11 14 F151;
  fld "Indicator" 15 15 F117;
  fld "Remote Name" 19 43 F189;
  fld "Communications Type" 44 46 F101;
  fld "Comm Frequency" 47 53 F103;
  fld "Guard/Transmit" 54 54 F182;
  fld "Frequency Units" 55 55 F104;
  fld "Continuation Record No" 56 56 F016;
  fld "Application Type" 57 57 F091;
  fld "Time Code" 58 58 F131;
  fld "NOTAM" 59 59 F132;
  fld "Time Indicator" 60 60 F138;
  fld "Time of Operation" 61 70 F195;
  fld "Call Sign" 94 123 F105;
  fld "File Record No" 124 128 F031;
  fld "Cycle Date" 129 132 F032].

(* EV, EnrouteCommunications.py, read_timeop *)
Definition cat_EV_36 : list cell := [
  fld "Record Type" 1 1 F002;
  fld "Customer / Area Code" 2 4 F003;
  fld "Section Code" 5 6 F004;
  fld "FIR/RDO Ident" 7 10 F190;
  fld "FIR/UIR Address" 11 14 F151;
  fld "Indicator" 15 15 F117;
  fld "Remote Name" 19 43 F189;
  fld "Communications Type" 44 46 F101;
  fld "Comm Frequency" 47 53 F103;
  fld "Guard/Transmit" 54 54 F182;
  fld "Frequency Units" 55 55 F104;
  fld "Continuation Record No" 56 56 F016;
  fld "Application Type" 57 57 F091;
  fld "Time of Operation" 61 70 F195;
  fld "Time of Operation (2)" 71 80 F195;
  fld "Time of Operation (3)" 81 90 F195;
  fld "Time of Operation (4)" 91 100 F195;
  fld "Time of Operation (5)" 101 110 F195;
  fld "Time of Operation (6)" 111 120 F195;
  fld "File Record No" 124 128 F031;
  fld "Cycle Date" 129 132 F032].

(* HA, Heliport.py, read_primary *)
Definition cat_HA_37 : list cell := [
  fld "Record Type" 1 1 F002;
  fld "Customer / Area Code" 2 4 F003;
  fld2 "Section Code" 5 13 F004;
  fld "Heliport Identifier" 7 10 F006;
  fld "ICAO Code" 11 12 F014;
  fld "ATA/IATA Designator" 14 16 F107;
  fld "PAD Identifier" 17 21 F180;
  fld "Continuation Record No" 22 22 F016;
  fld "Speed Limit Altitude" 23 27 F073;
  fld "Datum Code" 28 30 F197;
  fld "IFR Indicator" 31 31 F108;
  fld "Latitude" 33 41 F036;
  fld "Longitude" 42 51 F037;
  fld "Magnetic Variation" 52 56 F039;
  fld "Heliport Elevation" 57 61 F055;
  fld "Speed Limit" 62 64 F072;
  fld "Recommended VHF Navaid" 65 68 F023;
  fld "ICAO Code (2)" 69 70 F014;
  fld "Transition Altitude" 71 75 F053;
  fld "Transition Level" 76 80 F053;
  fld "Public Military Indicator" 81 81 F177;
  fld "Time Zone" 82 84 F178;
  fld "Daylight Indicator" 85 85 F179;
  fld "Pad Dimensions" 86 91 F176;
  fld "Magnetic/True Indicator" 92 92 F165;
  fld "Heliport Name" 94 123 F071;
  fld "File Record No" 124 128 F031;
  fld "Cycle Date" 129 132 F032].

(* HA, Heliport.py, read_cont *)
Definition cat_HA_38 : list cell := [
  fld "Record Type" 1 1 F002;
  fld "Customer / Area Code" 2 4 F003;
  fld2 "Section Code" 5 13 F004;
  fld "Heliport Identifier" 7 10 F006;
  fld "ICAO Code" 11 12 F014;
  fld "ATA/IATA Designator" 14 16 F107;
  fld "PAD Identifier" 17 21 F180;
  fld "Continuation Record No" 22 22 F016;
  fld "Application Type" 23 23 F091;
  fld "Notes" 24 92 F061;
  fld "File Record No" 124 128 F031;
  fld "Cycle Date" 129 132 F032].

(* HA, Heliport.py, read_flight0 *)
Definition cat_HA_39 : list cell := [
  fld "Record Type" 1 1 F002;
  fld "Customer / Area Code" 2 4 F003;
  fld2 "Section Code" 5 13 F004;
  fld "Heliport Identifier" 7 10 F006;
  fld "ICAO Code" 11 12 F014;
  fld "ATA/IATA Designator" 14 16 F107;
  fld "PAD Identifier" 17 21 F180;
  fld "Continuation Record No" 22 22 F016;
  fld "Application Type" 23 23 F091;
  fld "FIR Identifier" 24 27 F116;
  fld "UIR Identifier" 28 31 F116;
  fld "Start/End Indicator" 32 32 F152;
  fld "Start/End Date/Time" 33 43 F153;
  fld "Controlled A/S Indicator" 67 67 F217;
  fld "Controlled A/S Airport Indentifier" 68 71 F006;
  fld "Controlled A/S Airport ICAO" 72 73 F014;
  fld "File Record No" 124 128 F031;
  fld "Cycle Date" 129 132 F032].

(* HA, Heliport.py, read_flight1 *)
Definition cat_HA_40 : list cell := [
  fld "Record Type" 1 1 F002;
  fld "Customer / Area Code" 2 4 F003;
  fld2 "Section Code" 5 13 F004;
  fld "Heliport Identifier" 7 10 F006;
  fld "ICAO Code" 11 12 F014;
  fld "ATA/IATA Designator" 14 16 F107;
  fld "PAD Identifier" 17 21 F180;
  fld "Continuation Record No" 22 22 F016;
  fld "Application Type" 23 23 F091;
  fld "Notes" 24 92 F061;
  fld "File Record No" 124 128 F031;
  fld "Cycle Date" 129 132 F032].

(* HC, HeliportTerminalWaypoint.py, read_primary *)
Definition cat_HC_41 : list cell := [
  fld "Record Type" 1 1 F002;
  fld "Customer / Area Code" 2 4 F003;
  fld2 "Section Code" 5 13 F004;
  fld "Heliport Identifier" 7 10 F006;
  fld "ICAO Code" 11 12 F014;
  fld "Waypoint Identifier" 14 18 F013;
  fld "ICAO Code (2)" 20 21 F014;
  fld "Continuation Record No" 22 22 F016;
  fld "Waypoint Type" 27 29 F042;
  fld "Waypoint Usage" 30 31 F082;
  fld "Waypoint Latitude" 33 41 F036;
  fld "Waypoint Longitude" 42 51 F037;
  fld "Dynamic Magnetic Variation" 75 79 F039;
  fld "Datum Code" 85 87 F197;
  fld "Name Format Indicator" 96 98 F196;
  fld "Waypoint Name/Description" 99 123 F043;
  fld "File Record No" 124 128 F031;
  fld "Cycle Date" 129 132 F032].

(* HC, HeliportTerminalWaypoint.py, read_cont *)
Definition cat_HC_42 : list cell := [
  fld "Record Type" 1 1 F002;
  fld "Customer / Area Code" 2 4 F003;
  fld2 "Section Code" 5 13 F004;
  fld "Heliport Identifier" 7 10 F006;
  fld "ICAO Code" 11 12 F014;
  fld "Waypoint Identifier" 14 18 F013;
  fld "ICAO Code (2)" 20 21 F014;
  fld "Continuation Record No" 22 22 F016;
  fld "Application Type" 23 23 F091;
  fld "Notes" 24 92 F061;
  fld "File Record No" 124 128 F031;
  fld "Cycle Date" 129 132 F032].

(* HC, HeliportTerminalWaypoint.py, read_flight0 *)
Definition cat_HC_43 : list cell := [
  fld "Record Type" 1 1 F002;
  fld "Customer / Area Code" 2 4 F003;
  fld2 "Section Code" 5 13 F004;
  fld "Heliport Identifier" 7 10 F006;
  fld "ICAO Code" 11 12 F014;
  fld "Waypoint Identifier" 14 18 F013;
  fld "ICAO Code (2)" 20 21 F014;
  fld "Continuation Record No" 22 22 F016;
  fld "Application Type" 23 23 F091;
  fld "FIR Identifier" 24 27 F116;
  fld "UIR Identifier" 28 31 F116;
  fld "Start/End Indicator" 32 32 F152;
  fld "Start/End Date" 33 43 F153;
  fld "File Record No" 124 128 F031;
  fld "Cycle Date" 129 132 F032].

(* HC, HeliportTerminalWaypoint.py, read_flight1 *)
Definition cat_HC_44 : list cell := [
  fld "Record Type" 1 1 F002;
  fld "Customer / Area Code" 2 4 F003;
  fld2 "Section Code" 5 13 F004;
  fld "Heliport Identifier" 7 10 F006;
  fld "ICAO Code" 11 12 F014;
  fld "Waypoint Identifier" 14 18 F013;
  fld "ICAO Code (2)" 20 21 F014;
  fld "Continuation Record No" 22 22 F016;
  fld "Waypoint Type" 27 29 F042;
  fld "Waypoint Usage" 30 31 F082;
  fld "Waypoint Latitude" 33 41 F036;
  fld "Waypoint Longitude" 42 51 F037;
  fld "Dynamic Magnetic Variation" 75 79 F039;
  fld "Datum Code" 85 87 F197;
  fld "Name Format Indicator" 96 98 F196;
  fld "Waypoint Name/Description" 99 123 F043;
  fld "File Record No" 124 128 F031;
  fld "Cycle Date" 129 132 F032].

(* HD HE HF PD PE PF, SIDSTARApproach.py, read_primary *)
Definition cat_HD_45 : list cell := [
  fld "Record Type" 1 1 F002;
  fld "Customer / Area Code" 2 4 F003;
  fld2 "Section Code" 5 13 F004;
  fld "Airport Identifier" 7 10 F006;
  fld "ICAO Code" 11 12 F014;
  fld "SID/STAR/Approach Identifier" 14 19 F009;
  fld "Route Type" 20 20 F007;
  fld "Transition Identifier" 21 25 F011;
  fld "Sequence Number" 27 29 F012;
  fld "Fix Identifier" 30 34 F013;
  fld "ICAO Code (2)" 35 36 F014;
  fld "Section Code (2)" 37 38 F004;
  fld "Continuation Record No" 39 39 F016;
  fld "Waypoint Description Code" 40 43 F017;
  fld "Turn Direction" 44 44 F020;
  fld "RNP" 45 47 F211;
  fld "Path and Termination" 48 49 F021;
  fld "Turn Direction Valid" 50 50 F022;
  fld "Recommended Navaid" 51 54 F023;
  fld "ICAO Code (3)" 55 56 F014;
  fld "Arc Radius" 57 62 F204;
  fld "Theta" 63 66 F024;
  fld "Rho" 67 70 F025;
  fld "Magnetic Course" 71 74 F026;
  fld "Route / Holding Distance or Time" 75 78 F027;
  fld "Recommended Navaid (2)" 79 80 F004;
  fld "Altitude Description" 83 83 F029;
  fld "ATC Indicator" 84 84 F081;
  fld "Altitude" 85 89 F030;
  fld "Altitude (2)" 90 94 F030;
  fld "Transition Altitude" 95 99 F053;
  fld "Speed Limit" 100 102 F072;
  fld "Vertical Angle" 103 106 F070;
  fld "Center Fix or TAA Procedure Turn Indicator" 107 111 F144;
  fld "Multiple Code or TAA Sector Identifier" 112 112 F130;
  fld "ICAO Code (4)" 113 113 F014;
  fld "Section Code (3)" 115 116 F004;
  fld "GNSS/FMS Indication" 117 117 F222;
  fld "Speed Limit Description" 118 118 F261;
  fld "Apch Route Qualifier 1" 119 119 F007;
  fld "Apch Route Qualifier 2" 120 120 F007;
  fld "File Record No" 124 128 F031;
  fld "Cycle Date" 129 132 F032].

(* HD HE HF PD PE PF, SIDSTARApproach.py, read_ext *)
Definition cat_HD_46 : list cell := [
  fld "Record Type" 1 1 F002;
  fld "Customer / Area Code" 2 4 F003;
  fld2 "Section Code" 5 13 F004;
  fld "Airport Identifier" 7 10 F006;
  fld "ICAO Code" 11 12 F014;
  fld "SID/STAR/Approach Identifier" 14 19 F009;
  fld "Route Type" 20 20 F007;
  fld "Transition Identifier" 21 25 F011;
  fld "Sequence Number" 27 29 F012;
  fld "Fix Identifier" 30 34 F013;
  fld "ICAO Code (2)" 35 36 F014;
  fld "Section Code (2)" 37 38 F004;
  fld "Continuation Record No" 39 39 F016;
  fld "Application Type" 40 40 F091;
  fld "CAT A Decision Height" 41 44 F170;
  fld "CAT B Decision Height" 45 48 F170;
  fld "CAT C Decision Height" 49 52 F170;
  fld "CAT D Decision Height" 53 56 F170;
  fld "CAT A Minimum Descent Altitude" 57 60 F171;
  fld "CAT B Minimum Descent Altitude" 61 64 F171;
  fld "CAT C Minimum Descent Altitude" 65 68 F171;
  fld "CAT D Minimum Descent Altitude" 69 72 F171;
  fld "Procedure TCH" 73 75 F067;
  fld "Localizer Only Altitude Desc" 76 76 F029;
  fld "Localizer Only Altitude" 77 81 F030;
  fld "Localizer Only Vertical Angle" 82 85 F070;
  fld "RNP" 90 92 F211;
  fld "Apch Route Qualifier 1" 119 119 F007;
  fld "Apch Route Qualifier 2" 120 120 F007;
  fld "File Record No" 124 128 F031;
  fld "Cycle Date" 129 132 F032].

(* HD HE HF PD PE PF, SIDSTARApproach.py, read_flight0 *)
Definition cat_HD_47 : list cell := [
  fld "Record Type" 1 1 F002;
  fld "Customer / Area Code" 2 4 F003;
  fld2 "Section Code" 5 13 F004;
  fld "Airport Identifier" 7 10 F006;
  fld "ICAO Code" 11 12 F014;
  fld "SID/STAR/Approach Identifier" 14 19 F009;
  fld "Route Type" 20 20 F007;
  fld "Transition Identifier" 21 25 F011;
  fld "Sequence Number" 27 29 F012;
  fld "Fix Identifier" 30 34 F013;
  fld "ICAO Code (2)" 35 36 F014;
  fld "Section Code (2)" 37 38 F004;
  fld "Continuation Record No" 39 39 F016;
  fld "Application Type" 40 40 F091;
  fld "Start/End Indicator" 41 41 F152;
  fld "Start/End Date" 42 45 F153;
  fld "Leg Distance" 75 78 F260;
  fld "File Record No" 124 128 F031;
  fld "Cycle Date" 129 132 F032].

(* HD HE HF PD PE PF, SIDSTARApproach.py, read_data *)
Definition cat_HD_48 : list cell := [
  fld "Record Type" 1 1 F002;
  fld "Customer / Area Code" 2 4 F003;
  fld2 "Section Code" 5 13 F004;
  fld "Airport Identifier" 7 10 F006;
  fld "ICAO Code" 11 12 F014;
  fld "SID/STAR/Approach Identifier" 14 19 F009;
  fld "Route Type" 20 20 F007;
  fld "Transition Identifier" 21 25 F011;
  fld "Sequence Number" 27 29 F012;
  fld "Fix Identifier" 30 34 F013;
  fld "ICAO Code (2)" 35 36 F014;
  fld "Section Code (2)" 37 38 F004;
  fld "Continuation Record No" 39 39 F016;
  fld "Application Type" 40 40 F091;
  fld "FAS Block Provided" 41 41 F276;
  fld "FAS Block Provided Level of Service Name" 42 51 F275;
  fld "LNAV/VNAV Authorized for SBAS" 52 52 F276;
  fld "LNAV/VNAV Level of Service Name" 53 62 F275;
  fld "LNAV Authorized for SBAS" 63 63 F276;
  fld "LNAV Level of Service Name" 64 73 F275;
  fld "Apch Route Qualifier 1" 119 119 F007;
  fld "Apch Route Qualifier 2" 120 120 F007;
  fld "File Record No" 124 128 F031;
  fld "Cycle Date" 129 132 F032].

(* HK, TAA.py, read_primary *)
Definition cat_HK_49 : list cell := [
  fld "Record Type" 1 1 F002;
  fld "Customer / Area Code" 2 4 F003;
  fld2 "Section Code" 5 13 F004;
  fld "Heliport Identifier" 7 10 F006;
  fld "ICAO Code" 11 12 F014;
  fld "Approach Identifier" 14 19 F010;
  fld "TAA Waypoint" 20 24 F273;
  fld "TAA Procedure Turn" 21 24 F271;
  fld "ICAO Code (2)" 25 26 F014;
  fld "Section Code (2)" 27 28 F004;
  fld "TAA Fix Position Indicator" 29 29 F272;
  fld "Continuation Record No" 30 30 F016;
  fld "Mag/True Indicator" 41 41 F165;
  fld "Sector Radius" 42 45 F274;
  fld "Sector Bearing" 46 51 F146;
  fld "Sector Minimum Altitude" 52 54 F147;
  fld "Sector Radius (2)" 55 58 F274;
  fld "Sector Bearing (2)" 59 64 F146;
  fld "Sector Minimum Altitude (2)" 65 67 F147;
  fld "Sector Radius (3)" 68 71 F274;
  fld "Sector Bearing (3)" 72 77 F146;
  fld "Sector Minimum Altitude (3)" 78 80 F147;
  fld "Sector Radius (4)" 81 84 F274;
  fld "Sector Bearing (4)" 85 90 F146;
  fld "Sector Minimum Altitude (4)" 91 93 F147;
  fld "Sector Radius (5)" 94 97 F274;
  fld "Sector Bearing (5)" 98 103 F146;
  fld "Sector Minimum Altitude (5)" 104 106 F147;
  fld "Sector Radius (6)" 107 110 F274;
  fld "Sector Bearing (6)" 111 116 F146;
  fld "Sector Minimum Altitude (6)" 117 119 F147;
  fld "File Record No" 124 128 F031;
  fld "Cycle Date" 129 132 F032].

(* HK, TAA.py, read_cont *)
Definition cat_HK_50 : list cell := [
  fld "Record Type" 1 1 F002;
  fld "Customer / Area Code" 2 4 F003;
  fld2 "Section Code" 5 13 F004;
  fld "Heliport Identifier" 7 10 F006;
  fld "ICAO Code" 11 12 F014;
  fld "Approach Identifier" 14 19 F010;
  fld "TAA Sector Identifier" 20 20 F272;
  fld "TAA Procedure Turn" 21 24 F271;
  fld "TAA IAF Waypoint" 30 34 F273;
  fld "ICAO Code (2)" 11 12 F014;
  fld "Section Code (2)" 37 38 F004;
  fld "Continuation Record No" 39 39 F016;
  fld "Application Notes" 40 40 F091;
  fld "Notes" 51 109 F061;
  fld "File Record No" 124 128 F031;
  fld "Cycle Date" 129 132 F032].

(* HS, MSA.py, read_primary *)
Definition cat_HS_51 : list cell := [
  fld "Record Type" 1 1 F002;
  fld "Customer / Area Code" 2 4 F003;
  fld2 "Section Code" 5 13 F004;
  fld "Heliport Identifier" 7 10 F006;
  fld "ICAO Code" 11 12 F014;
  fld "MSA Center" 14 17 F144;
  fld "ICAO Code (2)" 19 20 F014;
  fld "Section Code (2)" 21 22 F004;
  fld "Multiple Code" 23 23 F130;
  fld "Continuation Record No" 39 39 F016;
  fld "Sector Bearing" 43 48 F146;
  fld "Sector Altitude" 49 51 F147;
  fld "Sector Radius" 52 53 F145;
  fld "Sector Bearing (2)" 54 59 F146;
  fld "Sector Altitude (2)" 60 62 F147;
  fld "Sector Radius (2)" 63 64 F145;
  fld "Sector Bearing (3)" 65 70 F146;
  fld "Sector Altitude (3)" 71 73 F147;
  fld "Sector Radius (3)" 74 75 F145;
  fld "Sector Bearing (4)" 76 81 F146;
  fld "Sector Altitude (4)" 82 84 F147;
  fld "Sector Radius (4)" 85 86 F145;
  fld "Sector Bearing (5)" 87 92 F146;
  fld "Sector Altitude (5)" 93 95 F147;
  fld "Sector Radius (5)" 96 97 F145;
  fld "Sector Bearing (6)" 98 103 F146;
  fld "Sector Altitude (6)" 104 106 F147;
  fld "Sector Radius (6)" 107 108 F145;
  fld "Sector Bearing (7)" 109 114 F146;
  fld "Sector Altitude (7)" 115 117 F147;
  fld "Sector Radius (7)" 118 119 F145;
  fld "Magnetic/True Bearing" 120 120 F165;
  fld "File Record No" 124 128 F031;
  fld "Cycle Date" 129 132 F032].

(* HS, MSA.py, read_cont *)
Definition cat_HS_52 : list cell := [
  fld "Record Type" 1 1 F002;
  fld "Customer / Area Code" 2 4 F003;
  fld2 "Section Code" 5 13 F004;
  fld "Heliport Identifier" 7 10 F006;
  fld "ICAO Code" 11 12 F014;
  fld "MSA Center" 14 17 F144;
  fld "ICAO Code (2)" 19 20 F014;
  fld "Section Code (2)" 21 22 F004;
  fld "Multiple Code" 23 23 F130;
  fld "Continuation Record No" 39 39 F016;
  fld "Application Type" 40 40 F091;
  fld "Notes" 41 109 F061;
  fld "File Record No" 124 128 F031;
  fld "Cycle Date" 129 132 F032].

(* HV, HeliportCommunications.py, read_primary *)
Definition cat_HV_53 : list cell := [
  fld "Record Type" 1 1 F002;
  fld "Customer / Area Code" 2 4 F003;
  fld2 "Section Code" 5 13 F004;
  fld "Heliport Identifier" 7 10 F006;
  fld "ICAO Code" 11 12 F014;
  fld "Communications Type" 14 16 F101;
  fld "Communications Freq" 17 23 F103;
  fld "Guard/Transmit" 24 24 F182;
  fld "Frequency Units" 25 25 F104;
  fld "Continuation Record No" 26 26 F016;
  fld "Service Indicator" 27 29 F106;
  fld "Radar Service" 30 30 F102;
  fld "Modulation" 31 31 F198;
  fld "Signal Emission" 32 32 F199;
  fld "Latitude" 33 41 F036;
  fld "Longitude" 42 51 F036;
  fld "Magnetic Variation" 52 56 F039;
  fld "Facility Elevation" 57 61 F092;
  fld "H24 Indicator" 62 62 F181;
  fld "Sectorization" 63 68 F183;
  fld "Altitude Description" 69 69 F029;
  fld "Communication Altitude" 70 74 F184;
  fld "Communication Altitude (2)" 75 79 F184;
  fld "Sector Facility" 80 83 F185;
  fld "ICAO Code (2)" 84 85 F014;
  fld "Section Code (2)" 86 87 F004;
  fld "Distance Description" 88 88 F187;
  fld "Communications Distance" 89 90 F188;
  fld "Remote Facility" 91 94 F200;
  fld "ICAO Code (3)" 95 96 F014;
  fld "Section Code (3)" 97 98 F004;
  fld "Call Sign" 99 123 F105;
  fld "File Record No" 124 128 F031;
  fld "Cycle Date" 129 132 F032].

(* HV, HeliportCommunications.py, read_cont *)
Definition cat_HV_54 : list cell := [
  fld "Record Type" 1 1 F002;
  fld "Customer / Area Code" 2 4 F003;
  fld2 "Section Code" 5 13 F004;
  fld "Heliport Identifier" 7 10 F006;
  fld "ICAO Code" 11 12 F014;
  fld "Communications Type" 14 16 F101;
  fld "Communications Freq" 17 23 F103;
  fld "Guard/Transmit" 24 24 F182;
  fld "Frequency Units" 25 25 F104;
  fld "Continuation Record No" 26 26 F016;
  fld "Application Type" 27 27 F091;
  fld "Narrative" 28 87 F186;
  fld "File Record No" 124 128 F031;
  fld "Cycle Date" 129 132 F032].

(* HV, HeliportCommunications.py, read_timeop *)
Definition cat_HV_55 : list cell := [
  fld "Record Type" 1 1 F002;
  fld "Customer / Area Code" 2 4 F003;
  fld2 "Section Code" 5 13 F004;
  fld "Heliport Identifier" 7 10 F006;
  fld "ICAO Code" 11 12 F014;
  fld "Communications Type" 14 16 F101;
  fld "Communications Freq" 17 23 F103;
  fld "Guard/Transmit" 24 24 F182;
  fld "Frequency Units" 25 25 F104;
  fld "Continuation Record No" 26 26 F016;
  fld "Application Type" 27 27 F091;
  fld "Time Code" 28 28 F131;
  fld "NOTAM" 29 29 F132;
  fld "Time Indicator" 30 30 F138;
  fld "Time of Operation" 31 40 F195;
  fld "Time of Operation (2)" 41 50 F195;
  fld "Time of Operation (3)" 51 60 F195;
  fld "Time of Operation (4)" 61 70 F195;
  fld "Time of Operation (5)" 71 80 F195;
  fld "Time of Operation (6)" 81 90 F195;
  fld "Time of Operation (7)" 91 100 F195;
  fld "File Record No" 124 128 F031;
  fld "Cycle Date" 129 132 F032].

(* PA, Airport.py, read_primary *)
Definition cat_PA_56 : list cell := [
  fld "Record Type" 1 1 F002;
  fld "Customer / Area Code" 2 4 F003;
  fld2 "Section Code" 5 13 F004;
  fld "Airport ICAO Identifier" 7 10 F006;
  fld "ICAO Code" 11 12 F014;
  fld "ATA/IATA Designator" 14 16 F107;
  fld "Continuation Record No" 22 22 F016;
  fld "Speed Limit Altitude" 23 27 F073;
  fld "Longest Runway" 28 30 F054;
  fld "IFR Capability" 31 31 F108;
  fld "Longest Runway Surface Code" 32 32 F249;
  fld "Airport Reference Pt. Latitude" 33 41 F036;
  fld "Airport Reference Pt. Longitude" 42 51 F037;
  fld "Magnetic Variation" 52 56 F039;
  fld "Airport Elevation" 57 61 F055;
  fld "Speed Limit" 62 64 F072;
  fld "Recommended Navaid" 65 68 F023;
  fld "ICAO Code (2)" 69 70 F014;
  fld "Transition Altitude" 71 75 F053;
  fld "Transition Level" 76 80 F053;
  fld "Public Military Indicator" 81 81 F177;
  fld "Time Zone" 82 84 F178;
  fld "Daylight Indicator" 85 85 F179;
  fld "Magnetic/True Indicator" 86 86 F165;
  fld "Datum Code" 87 89 F197;
  fld "Airport Name" 94 123 F071;
  fld "File Record No" 124 128 F031;
  fld "Cycle Date" 129 132 F032].

(* PA, Airport.py, read_cont *)
Definition cat_PA_57 : list cell := [
  fld "Record Type" 1 1 F002;
  fld "Customer / Area Code" 2 4 F003;
  fld2 "Section Code" 5 13 F004;
  fld "Airport ICAO Identifier" 7 10 F006;
  fld "ICAO Code" 11 12 F014;
  fld "ATA/IATA Designator" 14 16 F107;
  fld "Continuation Record No" 22 22 F016;
  fld "Application Type" 23 23 F091;
  fld "Notes" 24 92 F061;
  fld "File Record No" 124 128 F031;
  fld "Cycle Date" 129 132 F032].

(* PA, Airport.py, read_flight0 *)
Definition cat_PA_58 : list cell := [
  fld "Record Type" 1 1 F002;
  fld "Customer / Area Code" 2 4 F003;
  fld2 "Section Code" 5 13 F004;
  fld "Heliport Identifier" 7 10 F006;
  fld "ICAO Code" 11 12 F014;
  fld "ATA/IATA Designator" 14 16 F107;
  fld "Continuation Record No" 22 22 F016;
  fld "Application Type" 23 23 F091;
  fld "FIR Identifier" 24 27 F116;
  fld "UIR Identifier" 28 31 F116;
  fld "Start/End Indicator" 32 32 F152;
  fld "Start/End Date/Time" 33 43 F153;
  fld "Controlled A/S Indicator" 67 67 F217;
  fld "Controlled A/S Airport Ident" 68 71 F006;
  fld "Controlled A/S Airport ICAO" 72 73 F014;
  fld "File Record No" 124 128 F031;
  fld "Cycle Date" 129 132 F032].

(* PA, Airport.py, read_flight1 *)
Definition cat_PA_59 : list cell := [
  fld "Record Type" 1 1 F002;
  fld "Customer / Area Code" 2 4 F003;
  fld2 "Section Code" 5 13 F004;
  fld "Airport ICAO Identifier" 7 10 F006;
  fld "ICAO Code" 11 12 F014;
  fld "ATA/IATA Designator" 14 16 F107;
  fld "Continuation Record No" 22 22 F016;
  fld "Speed Limit Altitude" 23 27 F073;
  fld "Longest Runway" 28 30 F054;
  fld "IFR Capability" 31 31 F108;
  fld "Longest Runway Surface Code" 32 32 F249;
  fld "Airport Reference Pt. Latitude" 33 41 F036;
  fld "Airport Reference Pt. Longitude" 42 51 F037;
  fld "Magnetic Variation" 52 56 F039;
  fld "Airport Elevation" 57 61 F055;
  fld "Speed Limit" 62 64 F072;
  fld "Recommended Navaid" 65 68 F023;
  fld "ICAO Code (2)" 69 70 F014;
  fld "Transition Altitude" 71 75 F053;
  fld "Transition Level" 76 80 F053;
  fld "Public Military Indicator" 81 81 F177;
  fld "Time Zone" 82 84 F178;
  fld "Daylight Indicator" 85 85 F179;
  fld "Magnetic/True Indicator" 86 86 F165;
  fld "Datum Code" 87 89 F197;
  fld "Airport Name" 94 123 F071;
  fld "File Record No" 124 128 F031;
  fld "Cycle Date" 129 132 F032].

(* PB, AirportGate.py, read_primary *)
Definition cat_PB_60 : list cell := [
  fld "Record Type" 1 1 F002;
  fld "Customer / Area Code" 2 4 F003;
  fld2 "Section Code" 5 13 F004;
  fld "Airport ICAO Identifier" 7 10 F006;
  fld "ICAO Code" 11 12 F014;
  fld "Gate Identifier" 14 18 F056;
  fld "Continuation Record No" 22 22 F016;
  fld "Gate Latitude" 33 41 F036;
  fld "Gate Longitude" 42 51 F037;
  fld "Name" 99 123 F060;
  fld "File Record No" 124 128 F031;
  fld "Cycle Date" 129 132 F032].

(* PB, AirportGate.py, read_cont *)
Definition cat_PB_61 : list cell := [
  fld "Record Type" 1 1 F002;
  fld "Customer / Area Code" 2 4 F003;
  fld2 "Section Code" 5 13 F004;
  fld "Airport ICAO Identifier" 7 10 F006;
  fld "ICAO Code" 11 12 F014;
  fld "Gate Identifier" 14 18 F056;
  fld "Continuation Record No" 22 22 F016;
  fld "Application Notes" 23 23 F091;
  fld "Notes" 24 92 F061;
  fld "File Record No" 124 128 F031;
  fld "Cycle Date" 129 132 F032].

(* PC, Waypoint.py, read_primary *)
Definition cat_PC_62 : list cell := [
  fld "Record Type" 1 1 F002;
  fld "Customer / Area Code" 2 4 F003;
  fld2 "Section Code" 5 13 F004;
  fld "Region Code" 7 10 F041;
  fld "ICAO Code" 11 12 F014;
  fld "Waypoint Identifier" 14 18 F013;
  fld "ICAO Code (2)" 20 21 F014;
  fld "Continuation Record No" 22 22 F016;
  fld "Waypoint Type" 27 29 F042;
  fld "Waypoint Usage" 30 31 F082;
  fld "Waypoint Latitude" 33 41 F036;
  fld "Waypoint Longitude" 42 51 F037;
  fld "Dynamic Mag. Variation" 75 79 F039;
  fld "Datum Code" 85 87 F197;
  fld "Name Format Indicator" 96 98 F196;
  fld "Waypoint Name / Desc" 99 123 F043;
  fld "File Record No" 124 128 F031;
  fld "Cycle Date" 129 132 F032].

(* PC, Waypoint.py, read_cont *)
Definition cat_PC_63 : list cell := [
  fld "Record Type" 1 1 F002;
  fld "Customer / Area Code" 2 4 F003;
  fld2 "Section Code" 5 13 F004;
  fld "Region Code" 7 10 F041;
  fld "ICAO Code" 11 12 F014;
  fld "Waypoint Identifier" 14 18 F013;
  fld "ICAO Code (2)" 20 21 F014;
  fld "Continuation Record No" 22 22 F016;
  fld "Application Type" 23 23 F091;
  fld "Notes" 24 123 F061;
  fld "File Record No" 124 128 F031;
  fld "Cycle Date" 129 132 F032].

(* PC, Waypoint.py, read_flight_plan0 *)
Definition cat_PC_64 : list cell := [
  fld "Record Type" 1 1 F002;
  fld "Customer / Area Code" 2 4 F003;
  fld2 "Section Code" 5 13 F004;
  fld "Region Code" 7 10 F041;
  fld "ICAO Code" 11 12 F014;
  fld "Waypoint Identifier" 14 18 F013;
  fld "ICAO Code (2)" 20 21 F014;
  fld "Continuation Record No" 22 22 F016;
  fld "Application Type" 23 23 F091;
  fld "FIR Identifier" 24 27 F116;
  fld "UIR Identifier" 28 31 F116;
  fld "Start/End Indicator" 32 32 F152;
  fld "Start/End Date" 33 43 F153;
  fld "File Record No" 124 128 F031;
  fld "Cycle Date" 129 132 F032].

(* PC, Waypoint.py, read_flight_plan1 *)
Definition cat_PC_65 : list cell := [
  fld "Record Type" 1 1 F002;
  fld "Customer / Area Code" 2 4 F003;
  fld2 "Section Code" 5 13 F004;
  fld "Region Code" 7 10 F041;
  fld "ICAO Code" 11 12 F014;
  fld "Waypoint Identifier" 14 18 F013;
  fld "ICAO Code (2)" 20 21 F014;
  fld "Continuation Record No" 22 22 F016;
  fld "Waypoint Type" 27 29 F042;
  fld "Waypoint Usage" 30 31 F082;
  fld "Waypoint Latitude" 33 41 F036;
  fld "Waypoint Longitude" 42 51 F037;
  fld "Dynamic Mag. Variation" 75 79 F039;
  fld "Datum Code" 85 87 F197;
  fld "Name Format Indicator" 96 98 F196;
  fld "Waypoint Name / Desc" 99 123 F043;
  fld "File Record No" 124 128 F031;
  fld "Cycle Date" 129 132 F032].

(* PG, Runway.py, read_primary *)
Definition cat_PG_66 : list cell := [
  fld "Record Type" 1 1 F002;
  fld "Customer / Area Code" 2 4 F003;
  fld2 "Section Code" 5 13 F004;
  fld "Airport ICAO Identifier" 7 10 F006;
  fld "ICAO Code" 11 12 F014;
  fld "Runway Identifier" 14 18 F046;
  fld "Continuation Record No" 22 22 F016;
  fld "Runway Length" 23 27 F057;
  fld "Runway Magnetic Bearing" 28 31 F058;
  fld "Runway Latitude" 33 41 F036;
  fld "Runway Longitude" 42 51 F037;
  fld "Runway Gradient" 52 56 F212;
  fld "(LTP) Ellipsoid Height" 61 66 F225;
  fld "Landing Threshold Elevation" 67 71 F068;
  fld "Displaced Threshold Dist" 72 75 F069;
  fld "Threshold Crossing Height" 76 77 F067;
  fld "Runway Width" 78 80 F109;
  fld "TCH Value Indicator" 81 81 F270;
  fld "Localizer/MLS/GLS Ref Path Ident" 82 85 F044;
  fld "Localizer/MLS/GLS Category/Class" 86 86 F080;
  fld "Stopway" 87 90 F079;
  fld "Localizer/MLS/GLS Ref Path Ident (2)" 91 94 F044;
  fld "Localizer/MLS/GLS Category/Class (2)" 95 95 F080;
  fld "Runway Description" 102 123 F059;
  fld "File Record No" 124 128 F031;
  fld "Cycle Date" 129 132 F032].

(* PG, Runway.py, read_cont *)
Definition cat_PG_67 : list cell := [
  fld "Record Type" 1 1 F002;
  fld "Customer / Area Code" 2 4 F003;
  fld2 "Section Code" 5 13 F004;
  fld "Airport ICAO Identifier" 7 10 F006;
  fld "ICAO Code" 11 12 F014;
  fld "Runway Identifier" 14 18 F046;
  fld "Continuation Record No" 22 22 F016;
  fld "Notes" 24 92 F061;
  fld "File Record No" 124 128 F031;
  fld "Cycle Date" 129 132 F032].

(* PG, Runway.py, read_sim *)
Definition cat_PG_68 : list cell := [
  fld "Record Type" 1 1 F002;
  fld "Customer / Area Code" 2 4 F003;
  fld2 "Section Code" 5 13 F004;
  fld "Airport ICAO Identifier" 7 10 F006;
  fld "ICAO Code" 11 12 F014;
  fld "Runway Identifier" 14 18 F046;
  fld "Continuation Record No" 22 22 F016;
  fld "Application Type" 23 23 F091;
  fld "Runway True Bearing" 52 56 F094;
  fld "True Bearing Source" 57 57 F095;
  fld "TDZE Location" 66 66 F098;
  fld "Touchdown Zone Elevation" 67 71 F097;
  fld "File Record No" 124 128 F031;
  fld "Cycle Date" 129 132 F032].

(* PI, LocalizerGlideslope.py, read_primary *)
Definition cat_PI_69 : list cell := [
  fld "Record Type" 1 1 F002;
  fld "Customer / Area Code" 2 4 F003;
  fld2 "Section Code" 5 13 F004;
  fld "Airport Identifier" 7 10 F006;
  fld "ICAO Code" 11 12 F014;
  fld "Localizer Identifier" 14 17 F044;
  fld "ILS Category" 18 18 F080;
  fld "Continuation Record No" 22 22 F016;
  fld "Localizer Frequency" 23 27 F045;
  fld "Runway Identifier" 28 32 F046;
  fld "Localizer Latitude" 33 41 F036;
  fld "Localizer Longitude" 42 51 F037;
  fld "Localizer Bearing" 52 55 F047;
  fld "Glide Slope Latitude" 56 64 F036;
  fld "Glide Slope Longitude" 65 74 F037;
  fld "Localizer Position" 75 78 F048;
  fld "Localizer Position Reference" 79 79 F049;
  fld "Glide Slope Position" 80 83 F050;
  fld "Localizer Width" 84 87 F051;
  fld "Glide Slope Angle" 88 90 F052;
  fld "Station Declination" 91 95 F066;
  fld "Glide Slope Height at Landing Threshold" 96 97 F067;
  fld "Glide Slope Elevation" 98 102 F074;
  fld "Supporting Facility ID Note 1" 103 106 F033;
  fld "Supporting Facility ICAO Code Note 1" 107 108 F014;
  fld "Supporting Facility Section Code Note 1" 109 110 F004;
  fld "File Record No" 124 128 F031;
  fld "Cycle Date" 129 132 F032].

(* PI, LocalizerGlideslope.py, read_cont *)
Definition cat_PI_70 : list cell := [
  fld "Record Type" 1 1 F002;
  fld "Customer / Area Code" 2 4 F003;
  fld2 "Section Code" 5 13 F004;
  fld "Airport Identifier" 7 10 F006;
  fld "ICAO Code" 11 12 F014;
  fld "Localizer Identifier" 14 17 F044;
  fld "ILS Category" 18 18 F080;
  fld "Continuation Record No" 22 22 F016;
  fld "Notes" 24 92 F061;
  fld "File Record No" 124 128 F031;
  fld "Cycle Date" 129 132 F032].

(* PI, LocalizerGlideslope.py, read_sim *)
Definition cat_PI_71 : list cell := [
  fld "Record Type" 1 1 F002;
  fld "Customer / Area Code" 2 4 F003;
  fld2 "Section Code" 5 13 F004;
  fld "Airport Identifier" 7 10 F006;
  fld "ICAO Code" 11 12 F014;
  fld "Localizer Identifier" 14 17 F044;
  fld "ILS Category" 18 18 F080;
  fld "Continuation Record No" 22 22 F016;
  fld "Application Type" 23 23 F091;
  fld "Facility Characteristics" 28 32 F093;
  fld "Localizer True Bearing" 52 56 F094;
  fld "Localizer Bearing Source" 57 57 F095;
  fld "Glide Slope Beam Width" 88 90 F096;
  fld "Approach Route Ident" 91 96 F010;
  fld "Approach Route Ident (2)" 97 102 F010;
  fld "Approach Route Ident (3)" 103 108 F010;
  fld "Approach Route Ident (4)" 109 114 F010;
  fld "Approach Route Ident (5)" 115 120 F010;
  fld "File Record No" 124 128 F031;
  fld "Cycle Date" 129 132 F032].

(* PK, TAA.py, read_primary *)
Definition cat_PK_72 : list cell := [
  fld "Record Type" 1 1 F002;
  fld "Customer / Area Code" 2 4 F003;
  fld2 "Section Code" 5 13 F004;
  fld "Airport Identifier" 7 10 F006;
  fld "ICAO Code" 11 12 F014;
  fld "Approach Identifier" 14 19 F010;
  fld "TAA Waypoint" 20 24 F273;
  fld "TAA Procedure Turn" 21 24 F271;
  fld "ICAO Code (2)" 25 26 F014;
  fld "Section Code (2)" 27 28 F004;
  fld "TAA Fix Position Indicator" 29 29 F272;
  fld "Continuation Record No" 30 30 F016;
  fld "Mag/True Indicator" 41 41 F165;
  fld "Sector Radius" 42 45 F274;
  fld "Sector Bearing" 46 51 F146;
  fld "Sector Minimum Altitude" 52 54 F147;
  fld "Sector Radius (2)" 55 58 F274;
  fld "Sector Bearing (2)" 59 64 F146;
  fld "Sector Minimum Altitude (2)" 65 67 F147;
  fld "Sector Radius (3)" 68 71 F274;
  fld "Sector Bearing (3)" 72 77 F146;
  fld "Sector Minimum Altitude (3)" 78 80 F147;
  fld "Sector Radius (4)" 81 84 F274;
  fld "Sector Bearing (4)" 85 90 F146;
  fld "Sector Minimum Altitude (4)" 91 93 F147;
  fld "Sector Radius (5)" 94 97 F274;
  fld "Sector Bearing (5)" 98 103 F146;
  fld "Sector Minimum Altitude (5)" 104 106 F147;
  fld "Sector Radius (6)" 107 110 F274;
  fld "Sector Bearing (6)" 111 116 F146;
  fld "Sector Minimum Altitude (6)" 117 119 F147;
  fld "File Record No" 124 128 F031;
  fld "Cycle Date" 129 132 F032].

(* PK, TAA.py, read_cont *)
Definition cat_PK_73 : list cell := [
  fld "Record Type" 1 1 F002;
  fld "Customer / Area Code" 2 4 F003;
  fld2 "Section Code" 5 13 F004;
  fld "Airport Identifier" 7 10 F006;
  fld "ICAO Code" 11 12 F014;
  fld "Approach Identifier" 14 19 F010;
  fld "TAA Sector Identifier" 20 20 F272;
  fld "TAA Procedure Turn" 21 24 F271;
  fld "TAA IAF Waypoint" 30 34 F273;
  fld "ICAO Code (2)" 11 12 F014;
  fld "Section Code (2)" 37 38 F004;
  fld "Continuation Record No" 39 39 F016;
  fld "Application Notes" 40 40 F091;
  fld "Notes" 51 109 F061;
  fld "File Record No" 124 128 F031;
  fld "Cycle Date" 129 132 F032].

(* PL, MLS.py, read_primary *)
Definition cat_PL_74 : list cell := [
  fld "Record Type" 1 1 F002;
  fld "Customer / Area Code" 2 4 F003;
  fld2 "Section Code" 5 13 F004;
  fld "Airport Identifier" 7 10 F006;
  fld "ICAO Code" 11 12 F014;
  fld "MLS Identifier" 14 17 F044;
  fld "MLS Category" 18 18 F080;
  fld "Continuation Record No" 22 22 F016;
  fld "Channel" 23 25 F166;
  fld "Runway Identifier" 28 32 F046;
  fld "Azimuth Latitude" 33 41 F036;
  fld "Azimuth Longitude" 42 51 F037;
  fld "Azimuth Bearing" 52 55 F167;
  fld "Elevation Latitude" 56 64 F036;
  fld "Elevation Longitude" 65 74 F037;
  fld "Azimuth Position" 75 78 F048;
  fld "Azimuth Position Reference" 79 79 F049;
  fld "Elevation Position" 80 83 F050;
  fld "Azimuth Proportional Angle Right" 84 86 F168;
  fld "Azimuth Proportional Angle Left" 87 89 F168;
  fld "Azimuth Coverage Right" 90 92 F172;
  fld "Azimuth Coverage Left" 93 95 F172;
  fld "Elevation Angle Span" 96 98 F169;
  fld "Magnetic Variation" 99 103 F039;
  fld "EL Elevation" 104 108 F074;
  fld "Nominal Elevation Angle" 109 112 F173;
  fld "Minimum Glide Path Angle" 113 115 F052;
  fld "Supporting Facility Identifier" 116 119 F033;
  fld "Supporting Facility ICAO Code" 120 121 F014;
  fld "Supporting Facility Section" 122 123 F004;
  fld "File Record No" 124 128 F031;
  fld "Cycle Date" 129 132 F032].

(* PL, MLS.py, read_cont *)
Definition cat_PL_75 : list cell := [
  fld "Record Type" 1 1 F002;
  fld "Customer / Area Code" 2 4 F003;
  fld2 "Section Code" 5 13 F004;
  fld "Airport Identifier" 7 10 F006;
  fld "ICAO Code" 11 12 F014;
  fld "MLS Identifier" 14 17 F044;
  fld "MLS Category" 18 18 F080;
  fld "Continuation Record No" 22 22 F016;
  fld "Application Type" 23 23 F091;
  fld "Facility Characteristics" 28 32 F093;
  fld "Back Azimuth Latitude" 33 41 F036;
  fld "Back Azimuth Longitude" 42 51 F037;
  fld "Back Azimuth Bearing" 52 55 F167;
  fld "MLS Datum Point Latitude" 56 64 F036;
  fld "MLS Datum Point Longitude" 65 74 F037;
  fld "Back Azimuth Position" 75 78 F048;
  fld "Back Azimuth Position Reference" 79 79 F049;
  fld "Back Azimuth Proportional Angle Right" 84 86 F168;
  fld "Back Azimuth Proportional Angle Left" 87 89 F168;
  fld "Back Azimuth Coverage Right" 90 92 F172;
  fld "Back Azimuth Coverage Left" 93 95 F172;
  fld "Back Azimuth True Bearing" 96 98 F094;
  fld "Back Azimuth Bearing Source" 101 101 F095;
  fld "Azimuth True Bearing" 102 106 F094;
  fld "Azimuth Bearing Source" 107 107 F095;
  fld "Glide Path Height at Landing Threshold" 108 109 F067;
  fld "File Record No" 124 128 F031;
  fld "Cycle Date" 129 132 F032].

(* PM, LocalizerMarker.py, read_primary *)
Definition cat_PM_76 : list cell := [
  fld "Record Type" 1 1 F002;
  fld "Customer / Area Code" 2 4 F003;
  fld2 "Section Code" 5 13 F004;
  fld "Airport Identifier" 7 10 F006;
  fld "ICAO Code" 11 12 F014;
  fld "Localizer Identifier" 14 17 F044;
  fld "Marker Type" 18 20 F099;
  fld "Continuation Record No" 22 22 F016;
  fld "Locator Frequency" 23 27 F034;
  fld "Runway Identifier" 28 32 F046;
  fld "Marker Latitude" 33 41 F036;
  fld "Marker Longitude" 42 51 F037;
  fld "Minor Axis Bearing" 52 55 F100;
  fld "Locator Latitude" 56 64 F036;
  fld "Locator Longitude" 65 74 F037;
  fld "Localizer Class" 75 79 F035;
  fld "Localizer Facility Characteristics" 80 83 F093;
  fld "Localizer Identifier (2)" 85 88 F033;
  fld "Magnetic Variation" 91 95 F039;
  fld "Facility Elevation" 98 102 F092;
  fld "File Record No" 124 128 F031;
  fld "Cycle Date" 129 132 F032].

(* PM, LocalizerMarker.py, read_cont *)
Definition cat_PM_77 : list cell := [
  fld "Record Type" 1 1 F002;
  fld "Customer / Area Code" 2 4 F003;
  fld2 "Section Code" 5 13 F004;
  fld "Airport Identifier" 7 10 F006;
  fld "ICAO Code" 11 12 F014;
  fld "Localizer Identifier" 14 17 F044;
  fld "Marker Type" 18 20 F099;
  fld "Continuation Record No" 22 22 F016;
  fld "Application Type" 23 23 F091;
  fld "File Record No" 124 128 F031;
  fld "Cycle Date" 129 132 F032].

(* PP, PathPoint.py, read_primary *)
Definition cat_PP_78 : list cell := [
  fld "Record Type" 1 1 F002;
  fld "Customer / Area Code" 2 4 F003;
  fld2 "Section Code" 5 13 F004;
  fld "Airport Identifier" 7 10 F006;
  fld "ICAO Code" 11 12 F014;
  fld "Approach Procedure Ident" 14 19 F010;
  fld "Runway or Helipad Ident" 20 24 F046;
  fld "Operation Type" 25 26 F223;
  fld "Continuation Record No" 27 27 F016;
  fld "Route Identifier" 28 28 F224;
  fld "SBAS Service Provider Ident" 29 30 F255;
  fld "Reference Path Data Selector" 31 32 F256;
  fld "Reference Path Identifier" 33 36 F257;
  fld "Approach Performance Designator" 37 37 F258;
  fld "Landing Threshold Point Latitude" 38 48 F267;
  fld "Landing Threshold Point Longitude" 49 60 F268;
  fld "(LTP) Ellipsoid Height" 61 66 F225;
  fld "Glide Path Angle" 67 70 F226;
  fld "Flight Path Alignment Point Latitude" 71 81 F267;
  fld "Flight Path Alignment Point Longitude" 82 93 F268;
  fld "Course Width at Threshold Note 4" 94 98 F228;
  fld "Length Offset" 99 102 F259;
  fld "Path Point TCH" 103 108 F265;
  fld "TCH Units Indicator" 109 109 F266;
  fld "HAL" 110 112 F263;
  fld "VAL" 113 115 F264;
  fld "SBAS FAS Data CRC Remainder" 116 123 F229;
  fld "File Record No" 124 128 F031;
  fld "Cycle Date" 129 132 F032].

(* PP, PathPoint.py, read_cont *)
Definition cat_PP_79 : list cell := [
  fld "Record Type" 1 1 F002;
  fld "Customer / Area Code" 2 4 F003;
  fld2 "Section Code" 5 13 F004;
  fld "Airport Identifier" 7 10 F006;
  fld "ICAO Code" 11 12 F014;
  fld "Approach Procedure Ident" 14 19 F010;
  fld "Runway or Helipad Ident" 20 24 F046;
  fld "Operation Type" 25 26 F223;
  fld "Continuation Record No" 27 27 F016;
  fld "Application Type" 28 28 F091;
  fld "(FPAP) Ellipsoid Height" 29 34 F225;
  fld "(FPAP) Orthometric Height" 35 40 F227;
  fld "(LTP) Orthometric Height" 41 46 F227;
  fld "Approach Type Identifier" 47 56 F262;
  fld "GNSS Channel Number" 57 61 F244;
  fld "Helicopter Procedure Course" 72 74 F269;
  fld "File Record No" 124 128 F031;
  fld "Cycle Date" 129 132 F032].

(* PR, FlightPlanning.py, read_primary *)
Definition cat_PR_80 : list cell := [
  fld "Record Type" 1 1 F002;
  fld "Customer / Area Code" 2 4 F003;
  fld2 "Section Code" 5 13 F004;
  fld "Airport Identifier" 7 10 F006;
  fld "ICAO Code" 11 12 F014;
  fld "SID/STAR/Approach Identifier" 14 19 F009;
  fld "Procedure Type" 20 20 F230;
  fld "Runway Transition Identifier" 21 25 F011;
  fld "Runway Transition Fix" 26 30 F013;
  fld "ICAO Code (2)" 31 32 F014;
  fld "Section Code (2)" 33 34 F004;
  fld "Runway Transition Along Track Dist" 35 37 F231;
  fld "Common Segment Transition Fix" 38 42 F013;
  fld "ICAO Code (3)" 43 44 F014;
  fld "Section Code (3)" 45 46 F004;
  fld "Common Segment Along Track Dist" 47 49 F231;
  fld "Enroute Transition Identifier" 50 54 F011;
  fld "Enroute Transition Fix" 55 59 F013;
  fld "ICAO Code (4)" 60 61 F014;
  fld "Section Code (4)" 62 63 F004;
  fld "Enroute Transition Along Track Dist" 64 66 F231;
  fld "Sequence Number" 67 69 F012;
  fld "Continuation Number" 70 70 F016;
  fld "Number of Engines" 71 74 F232;
  fld "Turboprop/Jet Indicator" 75 75 F233;
  fld "RNAV Flag" 76 76 F234;
  fld "ATC Weight Category" 77 77 F235;
  fld "ATC Identifier" 78 84 F236;
  fld "Time Code" 85 85 F131;
  fld "Procedure Description" 86 100 F237;
  fld "Leg Type Code" 101 102 F238;
  fld "Reporting Code" 103 103 F239;
  fld "Initial Departure Magnetic Course" 104 107 F026;
  fld "Altitude Description" 108 108 F029;
  fld "Altitude" 109 111 F240;
  fld "Altitude (2)" 112 114 F240;
  fld "Speed Limit" 115 117 F072;
  fld "Initial Cruise Table" 118 119 F134;
  fld "Speed Limit Description" 120 120 F261;
  fld "File Record No" 124 128 F031;
  fld "Cycle Date" 129 132 F032].

(* PR, FlightPlanning.py, read_cont *)
Definition cat_PR_81 : list cell := [
  fld "Record Type" 1 1 F002;
  fld "Customer / Area Code" 2 4 F003;
  fld2 "Section Code" 5 13 F004;
  fld "Airport Identifier" 7 10 F006;
  fld "ICAO Code" 11 12 F014;
  fld "SID/STAR/Approach Identifier" 14 19 F009;
  fld "Procedure Type" 20 20 F230;
  fld "Runway Transition Identifier" 21 25 F011;
  fld "Runway Transition Fix" 26 30 F013;
  fld "ICAO Code (2)" 31 32 F014;
  fld "Section Code (2)" 33 34 F004;
  fld "Runway Transition Along Track Dist" 35 37 F231;
  fld "Common Segment Transition Fix" 38 42 F013;
  fld "ICAO Code (3)" 43 44 F014;
  fld "Section Code (3)" 45 46 F004;
  fld "Common Segment Along Track Dist" 47 49 F231;
  fld "Enroute Transition Identifier" 50 54 F011;
  fld "Enroute Transition Fix" 55 59 F013;
  fld "ICAO Code (4)" 60 61 F014;
  fld "Section Code (4)" 62 63 F004;
  fld "Enroute Transition Along Track Dist" 64 66 F231;
  fld "Sequence Number" 67 69 F012;
  fld "Continuation Number" 70 70 F016;
  fld "Application Type" 71 71 F091;
  fld "Intermediate Fix Identifier" 72 76 F013;
  fld "ICAO Code (5)" 77 78 F014;
  fld "Section Code (5)" 92 93 F004;
  fld "Intermediate Distance" 107 109 F231;
  fld "Fix Related Transition Code" 110 110 F241;
  fld "Intermediate Fix Identifier" 111 115 F013;
  fld "ICAO Code (6)" 116 117 F014;
  fld "Section Code (6)" 119 119 F004;
  fld "Intermediate Distance" 120 122 F231;
  fld "Fix Related Transition Code" 123 123 F241;
  fld "File Record No" 124 128 F031;
  fld "Cycle Date" 129 132 F032].

(* PR, FlightPlanning.py, read_timeop *)
Definition cat_PR_82 : list cell := [
  fld "Record Type" 1 1 F002;
  fld "Customer / Area Code" 2 4 F003;
  fld2 "Section Code" 5 13 F004;
  fld "Airport Identifier" 7 10 F006;
  fld "ICAO Code" 11 12 F014;
  fld "SID/STAR/Approach Identifier" 14 19 F009;
  fld "Procedure Type" 20 20 F230;
  fld "Runway Transition Identifier" 21 25 F011;
  fld "Runway Transition Fix" 26 30 F013;
  fld "ICAO Code (2)" 31 32 F014;
  fld "Section Code (2)" 33 34 F004;
  fld "Runway Transition Along Track Dist" 35 37 F231;
  fld "Common Segment Transition Fix" 38 42 F013;
  fld "ICAO Code (3)" 43 44 F014;
  fld "Section Code (3)" 45 46 F004;
  fld "Common Segment Along Track Dist" 47 49 F231;
  fld "Enroute Transition Identifier" 50 54 F011;
  fld "Enroute Transition Fix" 55 59 F013;
  fld "ICAO Code (4)" 60 61 F014;
  fld "Section Code (4)" 62 63 F004;
  fld "Enroute Transition Along Track Dist" 64 66 F231;
  fld "Sequence Number" 67 69 F012;
  fld "Continuation Number" 70 70 F016;
  fld "Application Type" 71 71 F091;
  fld "Time Code" 72 72 F131;
  fld "Time Indicator" 73 73 F138;
  fld "Time of Operation" 74 83 F195;
  fld "Time of Operation (1)" 84 93 F195;
  fld "Time of Operation (2)" 94 103 F195;
  fld "Time of Operation (3)" 104 113 F195;
  fld "Time of Operation (4)" 114 123 F195;
  fld "File Record No" 124 128 F031;
  fld "Cycle Date" 129 132 F032].

(* PS, MSA.py, read_primary *)
Definition cat_PS_83 : list cell := [
  fld "Record Type" 1 1 F002;
  fld "Customer / Area Code" 2 4 F003;
  fld2 "Section Code" 5 13 F004;
  fld "Airport Identifier" 7 10 F006;
  fld "ICAO Code" 11 12 F014;
  fld "MSA Center" 14 17 F144;
  fld "ICAO Code (2)" 19 20 F014;
  fld "Section Code (2)" 21 22 F004;
  fld "Multiple Code" 23 23 F130;
  fld "Continuation Record No" 39 39 F016;
  fld "Sector Bearing" 43 48 F146;
  fld "Sector Altitude" 49 51 F147;
  fld "Sector Radius" 52 53 F145;
  fld "Sector Bearing (2)" 54 59 F146;
  fld "Sector Altitude (2)" 60 62 F147;
  fld "Sector Radius (2)" 63 64 F145;
  fld "Sector Bearing (3)" 65 70 F146;
  fld "Sector Altitude (3)" 71 73 F147;
  fld "Sector Radius (3)" 74 75 F145;
  fld "Sector Bearing (4)" 76 81 F146;
  fld "Sector Altitude (4)" 82 84 F147;
  fld "Sector Radius (4)" 85 86 F145;
  fld "Sector Bearing (5)" 87 92 F146;
  fld "Sector Altitude (5)" 93 95 F147;
  fld "Sector Radius (5)" 96 97 F145;
  fld "Sector Bearing (6)" 98 103 F146;
  fld "Sector Altitude (6)" 104 106 F147;
  fld "Sector Radius (6)" 107 108 F145;
  fld "Sector Bearing (7)" 109 114 F146;
  fld "Sector Altitude (7)" 115 117 F147;
  fld "Sector Radius (7)" 118 119 F145;
  fld "Magnetic/True Bearing" 120 120 F165;
  fld "File Record No" 124 128 F031;
  fld "Cycle Date" 129 132 F032].

(* PS, MSA.py, read_cont *)
Definition cat_PS_84 : list cell := [
  fld "Record Type" 1 1 F002;
  fld "Customer / Area Code" 2 4 F003;
  fld2 "Section Code" 5 13 F004;
  fld "Airport Identifier" 7 10 F006;
  fld "ICAO Code" 11 12 F014;
  fld "MSA Center" 14 17 F144;
  fld "ICAO Code (2)" 19 20 F014;
  fld "Section Code (2)" 21 22 F004;
  fld "Multiple Code" 23 23 F130;
  fld "Continuation Record No" 39 39 F016;
  fld "Application Type" 40 40 F091;
  fld "Notes" 41 109 F061;
  fld "File Record No" 124 128 F031;
  fld "Cycle Date" 129 132 F032].

(* PT, GLS.py, read_primary *)
Definition cat_PT_85 : list cell := [
  fld "Record Type" 1 1 F002;
  fld "Customer / Area Code" 2 4 F003;
  fld2 "Section Code" 5 13 F004;
  fld "Airport and Heliport Identifier" 7 10 F006;
  fld "ICAO Code" 11 12 F014;
  fld "GLS Ref Path Identifier" 14 17 F044;
  fld "GLS Category" 18 18 F080;
  fld "Continuation Record No" 19 21 F016;
  fld "GLS Channel" 23 27 F244;
  fld "Runway Identifier" 28 32 F046;
  fld "GLS Approach Bearing" 52 55 F047;
  fld "Station Latitude" 56 64 F036;
  fld "Station Longitude" 65 74 F037;
  fld "GLS Station Ident" 75 78 F243;
  fld "Service Volume Radius" 84 85 F245;
  fld "TDMA Slots" 86 87 F246;
  fld "GLS Approach Slope" 88 90 F052;
  fld "Magnetic Variation" 91 95 F039;
  fld "Station Elevation" 98 102 F074;
  fld "Datum Code" 103 105 F197;
  fld "Station Type" 106 108 F247;
  fld "Station Elevation WGS" 111 115 F248;
  fld "File Record No" 124 128 F031;
  fld "Cycle Date" 129 132 F032].

(* PT, GLS.py, read_cont *)
Definition cat_PT_86 : list cell := [
  fld "Record Type" 1 1 F002;
  fld "Customer / Area Code" 2 4 F003;
  fld2 "Section Code" 5 13 F004;
  fld "Airport and Heliport Identifier" 7 10 F006;
  fld "ICAO Code" 11 12 F014;
  fld "GLS Ref Path Identifier" 14 17 F044;
  fld "GLS Category" 18 18 F080;
  fld "Continuation Record No" 19 21 F016;
  fld "Application Type" 23 23 F091;
  fld "File Record No" 124 128 F031;
  fld "Cycle Date" 129 132 F032].

(* PV, AirportCommunication.py, read_primary *)
Definition cat_PV_87 : list cell := [
  fld "Record Type" 1 1 F002;
  fld "Customer / Area Code" 2 4 F003;
  fld2 "Section Code" 5 13 F004;
  fld "Airport Identifier" 7 10 F006;
  fld "ICAO Code" 11 12 F014;
  fld "Communications Type" 14 16 F101;
  fld "Communications Freq" 17 23 F103;
  fld "Guard/Transmit" 24 24 F182;
  fld "Frequency Units" 25 25 F104;
  fld "Continuation Record No" 26 26 F016;
  fld "Service Indicator" 27 29 F106;
  fld "Radar Service" 30 30 F102;
  fld "Modulation" 31 31 F198;
  fld "Signal Emission" 32 32 F199;
  fld "Latitude" 33 41 F036;
  fld "Longitude" 42 51 F037;
  fld "Magnetic Variation" 52 56 F039;
  fld "Facility Elevation" 57 61 F092;
  fld "H24 Indicator" 62 62 F181;
  fld "Sectorization" 63 68 F183;
  fld "Altitude Description" 69 69 F029;
  fld "Communication Altitude" 70 74 F184;
  fld "Communication Altitude (2)" 75 79 F184;
  fld "Sector Facility" 80 83 F185;
  fld "ICAO Code (2)" 84 85 F014;
  fld "Section (2)" 86 87 F004;
  fld "Distance Description" 88 88 F187;
  fld "Communications Distance" 89 90 F188;
  fld "Remote Facility" 91 94 F200;
  fld "ICAO Code (3)" 95 96 F014;
  fld "Section (3)" 97 98 F004;
  fld "Call Sign" 99 123 F105;
  fld "File Record No" 124 128 F031;
  fld "Cycle Date" 129 132 F032].

(* PV, AirportCommunication.py, read_cont_narr *)
Definition cat_PV_88 : list cell := [
  fld "Record Type" 1 1 F002;
  fld "Customer / Area Code" 2 4 F003;
  fld2 "Section Code" 5 13 F004;
  fld "Airport Identifier" 7 10 F006;
  fld "ICAO Code" 11 12 F014;
  fld "Communications Type" 14 16 F101;
  fld "Communications Freq" 17 23 F103;
  fld "Guard/Transmit" 24 24 F182;
  fld "Frequency Units" 25 25 F104;
  fld "Continuation Record No" 26 26 F016;
  fld "Application Type" 27 27 F091;
  fld "Narrative" 28 87 F186;
  fld "File Record No" 124 128 F031;
  fld "Cycle Date" 129 132 F032].

(* R , CompanyRoute.py, read *)
Definition cat_R_89 : list cell := [
  fld "Record Type" 1 1 F002;
  fld "Customer" 2 4 F003;
  fld "Section Code" 5 6 F004;
  fld "From Airport/Fix" 7 11 F075;
  fld "ICAO Code" 13 14 F014;
  fld "Airspace Center" 10 14 F214;
  fld "Section Code (2)" 15 16 F004;
  fld "To Airport/Fix" 17 21 F075;
  fld "ICAO Code (2)" 23 24 F014;
  fld "Section Code (3)" 25 26 F004;
  fld "Company Route ID" 27 36 F076;
  fld "Sequence Number" 37 39 F012;
  fld "VIA" 40 42 F077;
  fld "SID/STAR/App/Awy" 43 48 F078;
  fld "Area Code" 49 51 F003;
  fld "To Fix" 52 57 F132;
  fld "ICAO Code" 58 59 F118;
  fld "Section Code (4)" 60 60 F036;
  fld "RUnway Trans" 62 66 F037;
  fld "ENRT Trans" 67 71 F036;
  fld "Cruise Altitude" 73 77 F037;
  fld "Terminal/Alternate Airport" 78 81 F119;
  fld "ICAO Code" 82 83 F120;
  fld "Alternate Distance" 84 87 F211;
  fld "Cost Index" 88 90 F121;
  fld "Enroute Alternate Airport" 91 94 F133;
  fld "File Record No" 124 128 F031;
  fld "Cycle Date" 129 132 F032].

(* RA, Alternate.py, read *)
Definition cat_RA_90 : list cell := [
  fld "Record Type" 1 1 F002;
  fld "Customer / Area Code" 2 4 F003;
  fld "Section Code" 5 6 F004;
  fld "Alternate Related Airport to Fix" 7 11 F075;
  fld "Alternate Related ICAO Code" 12 13 F014;
  fld "Alternate Section" 14 15 F004;
  fld "Alternate Record Type" 16 17 F250;
  fld "Distance to Alternate" 20 22 F251;
  fld "Alternate Type" 23 23 F252;
  fld "Primary Alternate Identifier" 24 33 F253;
  fld "Distance to Alternate (2)" 36 38 F251;
  fld "Alternate Type (2)" 39 39 F252;
  fld "Additional Alternate Identifier One" 40 49 F253;
  fld "Distance to Alternate (3)" 52 54 F251;
  fld "Alternate Type (3)" 55 55 F252;
  fld "Additional Alternate Identifier Two" 56 65 F253;
  fld "Distance to Alternate (3)" 68 70 F251;
  fld "Alternate Type (3)" 71 71 F252;
  fld "Additional Alternate Identifier (3))" 72 81 F253;
  fld "Distance to Alternate (4)" 84 86 F251;
  fld "Alternate Type (4)" 87 87 F252;
  fld "Additional Alternate Identifier (4)" 88 97 F253;
  fld "Distance to Alternate (5)" 100 102 F251;
  fld "Alternate Type (5)" 103 103 F252;
  fld "Additional Alternate Identifier (5)" 104 113 F253;
  fld "File Record No" 124 128 F031;
  fld "Cycle Date" 129 132 F032].

(* TC, CruisingTables.py, read_primary *)
Definition cat_TC_91 : list cell := [
  fld "Record Type" 1 1 F002;
  fld "Section Code" 5 6 F004;
  fld "Cruise Table Identifier" 7 8 F134;
  fld "Sequence Number" 9 9 F012;
  fld "Course From" 29 32 F135;
  fld "Course To" 33 36 F135;
  fld "Mag/True" 37 37 F165;
  fld "Cruise Level From" 40 44 F136;
  fld "Vertical Separation" 45 49 F137;
  fld "Cruise Level To " 50 54 F136;
  fld "Cruise Level From (2)" 55 59 F136;
  fld "Vertical Separation (2)" 60 64 F137;
  fld "Cruise Level To (2)" 65 69 F136;
  fld "Cruise Level From (3)" 70 74 F136;
  fld "Vertical Separation (3)" 75 79 F137;
  fld "Cruise Level To (3)" 80 84 F136;
  fld "Cruise Level From (4)" 85 89 F136;
  fld "Vertical Separation (4)" 90 94 F137;
  fld "Cruise Level To (4)" 95 99 F136;
  fld "File Record No" 124 128 F031;
  fld "Cycle Date" 129 132 F032].

(* TG, GeoReferenceTable.py, read_primary *)
Definition cat_TG_92 : list cell := [
  fld "Record Type" 1 1 F002;
  fld "Customer / Area Code" 2 4 F003;
  fld "Section Code" 5 6 F004;
  fld "Geographical Ref Table ID" 7 8 F218;
  fld "Sequence Number" 9 9 F012;
  fld "Geographical Entity" 10 38 F219;
  fld "Continuation Record No" 39 39 F016;
  fld "Preferred Route Ident" 41 50 F008;
  fld "Preferred Route Use Ind" 51 52 F220;
  fld "Preferred Route Ident (2)" 53 62 F008;
  fld "Preferred Route Use Ind (2)" 63 64 F220;
  fld "Preferred Route Ident (3)" 65 74 F008;
  fld "Preferred Route Use Ind (3)" 75 76 F220;
  fld "Preferred Route Ident (4)" 77 86 F008;
  fld "Preferred Route Use Ind (4)" 87 88 F220;
  fld "Preferred Route Ident (4)" 89 98 F008;
  fld "Preferred Route Use Ind (4)" 99 100 F220;
  fld "Preferred Route Ident (5)" 101 110 F008;
  fld "Preferred Route Use Ind (5)" 111 112 F220;
  fld "File Record No" 124 128 F031;
  fld "Cycle Date" 129 132 F032].

(* TG, GeoReferenceTable.py, read_cont *)
Definition cat_TG_93 : list cell := [
  fld "Record Type" 1 1 F002;
  fld "Customer / Area Code" 2 4 F003;
  fld "Section Code" 5 6 F004;
  fld "Geographical Ref Table ID" 7 8 F218;
  fld "Sequence Number" 9 9 F012;
  fld "Geographical Entity" 10 38 F219;
  fld "Continuation Record No" 39 39 F016;
  fld "Application Type" 40 40 F091;
  fld "File Record No" 124 128 F031;
  fld "Cycle Date" 129 132 F032].

(* UC, ControlledAirspace.py, read_primary *)
Definition cat_UC_94 : list cell := [
  fld "Record Type" 1 1 F002;
  fld "Customer / Area Code" 2 4 F003;
  fld "Section Code" 5 6 F004;
  fld "ICAO Code" 7 8 F014;
  fld "Airspace Type" 10 10 F213;
  fld "Airspace Center" 10 14 F214;
  fld "Section Code (2)" 15 16 F004;
  fld "Airspace Classification" 17 17 F215;
  fld "Multiple Code" 20 20 F130;
  fld "Sequence Number" 21 24 F012;
  fld "Continuation Record No" 25 25 F016;
  fld "Level" 26 26 F019;
  fld "Time Code" 27 27 F131;
  fld "NOTAM" 28 28 F132;
  fld "Boundary Via" 31 32 F118;
  fld "Latitude" 33 41 F036;
  fld "Longitude" 42 51 F037;
  fld "Arc Origin Latitude" 52 60 F036;
  fld "Arc Origin Longitude" 61 70 F037;
  fld "Arc Distance" 71 74 F119;
  fld "Arc Bearing" 75 78 F120;
  fld "RNP" 79 81 F211;
  fld "Lower Limit" 82 86 F121;
  fld "Unit Indicator" 87 87 F133;
  fld "Upper Limit" 88 92 F121;
  fld "Unit Indicator (2)" 93 93 F133;
  fld "Controlled Airspace Name" 94 123 F216;
  fld "File Record No" 124 128 F031;
  fld "Cycle Date" 129 132 F032].

(* UC, ControlledAirspace.py, read_cont *)
Definition cat_UC_95 : list cell := [
  fld "Record Type" 1 1 F002;
  fld "Customer / Area Code" 2 4 F003;
  fld "Section Code" 5 6 F004;
  fld "ICAO Code" 7 8 F014;
  fld "Airspace Type" 10 10 F213;
  fld "Airspace Center" 10 14 F214;
  fld "Section Code (2)" 15 16 F004;
  fld "Airspace Classification" 17 17 F215;
  fld "Multiple Code" 20 20 F130;
  fld "Sequence Number" 21 24 F012;
  fld "Continuation Record No" 25 25 F016;
  fld "Application Type" 26 26 F091;
  fld "Time Code" 27 27 F131;
  fld "NOTAM" 28 28 F132;
  fld "Time Indicator" 29 29 F138;
  fld "Time of Operations" 30 39 F195;
  fld "Time of Operations (2)" 40 49 F195;
  fld "Time of Operations (3)" 50 59 F195;
  fld "Time of Operations (4)" 60 69 F195;
  fld "Time of Operations (5)" 70 79 F195;
  fld "Time of Operations (6)" 80 89 F195;
  fld "Time of Operations (7)" 90 99 F195;
  fld "Controlling Agency" 100 123 F140;
  fld "File Record No" 124 128 F031;
  fld "Cycle Date" 129 132 F032].

(* UF, FIRUIR.py, read_primary *)
Definition cat_UF_96 : list cell := [
  fld "Record Type" 1 1 F002;
  fld "Customer / Area Code" 2 4 F003;
  fld "Section Code" 5 6 F004;
  fld "FIR/UIR Identifier" 7 10 F116;
  fld "FIR/UIR Address" 11 14 F151;
  fld "FIR/UIR Indicator" 15 15 F117;
  fld "Sequence Number" 16 19 F012;
  fld "Continuation Record No" 20 20 F016;
  fld "Adjacent FIR Identifier" 21 24 F116;
  fld "Adjacent UIR Identifier" 25 28 F116;
  fld "Reporting Units Speed" 29 29 F122;
  fld "Reporting Units Altitude" 30 30 F123;
  fld "Entry Report" 31 31 F124;
  fld "Boundary Via" 33 34 F118;
  fld "FIR/UIR Latitude" 35 43 F036;
  fld "FIR/UIR Longitude" 44 53 F037;
  fld "Arc Origin Latitude" 54 62 F036;
  fld "Arc Origin Longitude" 63 72 F037;
  fld "Arc Distance" 73 76 F119;
  fld "Arc Bearing" 77 80 F120;
  fld "FIR Upper Limit" 81 85 F121;
  fld "UIR Lower Limit" 86 90 F121;
  fld "UIR Upper Limit" 91 95 F121;
  fld "Cruise Table Ind" 96 97 F134;
  fld "FIR/UIR Name" 99 123 F125;
  fld "File Record No" 124 128 F031;
  fld "Cycle Date" 129 132 F032].

(* UF, FIRUIR.py, read_cont *)
Definition cat_UF_97 : list cell := [
  fld "Record Type" 1 1 F002;
  fld "Customer / Area Code" 2 4 F003;
  fld "Section Code" 5 6 F004;
  fld "FIR/UIR Identifier" 7 10 F116;
  fld "FIR/UIR Address" 11 14 F151;
  fld "FIR/UIR Indicator" 15 15 F117;
  fld "Sequence Number" 16 19 F012;
  fld "Continuation Record No" 20 20 F016;
  fld "Application Type" 21 21 F091;
  fld "File Record No" 124 128 F031;
  fld "Cycle Date" 129 132 F032].

(* UR, RestrictiveAirspace.py, read_primary *)
Definition cat_UR_98 : list cell := [
  fld "Record Type" 1 1 F002;
  fld "Customer / Area Code" 2 4 F003;
  fld "Section Code" 5 6 F004;
  fld "ICAO Code" 7 8 F014;
  fld "Restrictive Type" 9 9 F128;
  fld "Restrictive Airspace Designation" 10 19 F129;
  fld "Multiple Code" 20 20 F130;
  fld "Sequence Number" 21 24 F012;
  fld "Continuation Record No" 25 25 F016;
  fld "Level" 26 26 F019;
  fld "Time Code" 27 27 F131;
  fld "NOTAM" 28 28 F132;
  fld "Boundary Via" 31 32 F118;
  fld "Latitude" 33 41 F036;
  fld "Longitude" 42 51 F037;
  fld "Arc Origin Latitude" 52 60 F036;
  fld "Arc Origin Longitude" 61 70 F037;
  fld "Arc Distance" 71 74 F119;
  fld "Arc Bearing" 75 78 F120;
  fld "Lower Limit" 83 86 F121;
  fld "Unit Indicator" 87 87 F133;
  fld "Upper Limit" 88 92 F121;
  fld "Unit Indicator (2)" 93 93 F133;
  fld "Restrictive Airspace Name" 94 123 F126;
  fld "File Record No" 124 128 F031;
  fld "Cycle Date" 129 132 F032].

(* UR, RestrictiveAirspace.py, read_time *)
Definition cat_UR_99 : list cell := [
  fld "Record Type" 1 1 F002;
  fld "Customer / Area Code" 2 4 F003;
  fld "Section Code" 5 6 F004;
  fld "ICAO Code" 7 8 F014;
  fld "Restrictive Type" 9 9 F128;
  fld "Restrictive Airspace Designation" 10 19 F129;
  fld "Multiple Code" 20 20 F130;
  fld "Sequence Number" 21 24 F012;
  fld "Continuation Record No" 25 25 F016;
  fld "Application Type" 26 26 F091;
  fld "Time Code" 27 27 F131;
  fld "NOTAM" 28 28 F132;
  fld "Time Indicator" 28 28 F138;
  fld "Time of Operations" 30 39 F195;
  fld "Time of Operations (2)" 40 49 F195;
  fld "Time of Operations (3)" 50 59 F195;
  fld "Time of Operations (4)" 60 69 F195;
  fld "Time of Operations (5)" 70 79 F195;
  fld "Time of Operations (6)" 80 89 F195;
  fld "Time of Operations (7)" 90 99 F195;
  fld "Controlling Agency" 100 123 F140;
  fld "File Record No" 124 128 F031;
  fld "Cycle Date" 129 132 F032].

(* UR, RestrictiveAirspace.py, read_flight0 *)
Definition cat_UR_100 : list cell := [
  fld "Record Type" 1 1 F002;
  fld "Customer / Area Code" 2 4 F003;
  fld "Section Code" 5 6 F004;
  fld "ICAO Code" 7 8 F014;
  fld "Restrictive Type" 9 9 F128;
  fld "Restrictive Airspace Designation" 10 19 F129;
  fld "Multiple Code" 20 20 F130;
  fld "Sequence Number" 21 24 F012;
  fld "Continuation Record No" 25 25 F016;
  fld "Application Type" 26 26 F091;
  fld "Start/End Indicator" 30 30 F152;
  fld "Start/End Date" 31 41 F153;
  fld "File Record No" 124 128 F031;
  fld "Cycle Date" 129 132 F032].

(* UR, RestrictiveAirspace.py, read_callsign *)
Definition cat_UR_101 : list cell := [
  fld "Record Type" 1 1 F002;
  fld "Customer / Area Code" 2 4 F003;
  fld "Section Code" 5 6 F004;
  fld "ICAO Code" 7 8 F014;
  fld "Restrictive Type" 9 9 F128;
  fld "Restrictive Airspace Designation" 10 19 F129;
  fld "Multiple Code" 20 20 F130;
  fld "Sequence Number" 21 24 F012;
  fld "Continuation Record No" 25 25 F016;
  fld "Application Type" 26 26 F091;
  fld "Time Code" 27 27 F131;
  fld "NOTAM" 28 28 F132;
  fld "Time Indicator" 28 28 F138;
  fld "Time of Operations" 30 39 F195;
  fld "Time of Operations (2)" 40 49 F195;
  fld "Time of Operations (3)" 50 59 F195;
  fld "Time of Operations (4)" 60 69 F195;
  fld "Time of Operations (5)" 70 79 F195;
  fld "Time of Operations (6)" 80 89 F195;
  fld "Time of Operations (7)" 90 99 F195;
  fld "Controlling Agency" 100 123 F140;
  fld "File Record No" 124 128 F031;
  fld "Cycle Date" 129 132 F032].

Definition catalogue : list entry := [
  Entry ["AS"] None None cat_AS_1;
  Entry ["D "] (Some true) None cat_D_2;
  Entry ["D "] (Some false) (Some "A") cat_D_3;
  Entry ["D "] (Some false) (Some "L") cat_D_4;
  Entry ["D "] (Some false) (Some "P") cat_D_5;
  Entry ["D "] (Some false) (Some "S") cat_D_6;
  Entry ["DB"; "PN"] (Some true) None cat_DB_7;
  Entry ["DB"; "PN"] (Some false) (Some "A") cat_DB_8;
  Entry ["DB"; "PN"] (Some false) (Some "P") cat_DB_9;
  Entry ["DB"; "PN"] (Some false) (Some "Q") cat_DB_10;
  Entry ["DB"; "PN"] (Some false) (Some "S") cat_DB_11;
  Entry ["EA"] (Some true) None cat_EA_12;
  Entry ["EA"] (Some false) (Some "A") cat_EA_13;
  Entry ["EA"] (Some false) (Some "P") cat_EA_14;
  Entry ["EA"] (Some false) (Some "Q") cat_EA_15;
  Entry ["EM"] (Some true) None cat_EM_16;
  Entry ["EM"] (Some false) (Some "A") cat_EM_17;
  Entry ["EP"] (Some true) None cat_EP_18;
  Entry ["EP"] (Some false) (Some "A") cat_EP_19;
  Entry ["ER"] (Some true) None cat_ER_20;
  Entry ["ER"] (Some false) (Some "A") cat_ER_21;
  Entry ["ER"] (Some false) (Some "P") cat_ER_22;
  Entry ["ER"] (Some false) (Some "Q") cat_ER_23;
  Entry ["ET"] (Some true) None cat_ET_24;
  Entry ["ET"] (Some false) (Some "A") cat_ET_25;
  Entry ["ET"] (Some false) (Some "T") cat_ET_26;
  Entry ["EU"] (Some true) (Some "AE") cat_EU_27;
  Entry ["EU"] (Some true) (Some "TC") cat_EU_28;
  Entry ["EU"] (Some true) (Some "SC") cat_EU_29;
  Entry ["EU"] (Some true) (Some "NR") cat_EU_30;
  Entry ["EU"] (Some false) (Some "AE") cat_EU_31;
  Entry ["EU"] (Some false) (Some "TC") cat_EU_32;
  Entry ["EU"] (Some false) (Some "NR") cat_EU_33;
  Entry ["EV"] (Some true) None cat_EV_34;
  Entry ["EV"] (Some false) (Some " ") cat_EV_35;
  Entry ["EV"] (Some false) (Some "T") cat_EV_36;
  Entry ["HA"] (Some true) None cat_HA_37;
  Entry ["HA"] (Some false) (Some "A") cat_HA_38;
  Entry ["HA"] (Some false) (Some "P") cat_HA_39;
  Entry ["HA"] (Some false) (Some "Q") cat_HA_40;
  Entry ["HC"] (Some true) None cat_HC_41;
  Entry ["HC"] (Some false) (Some "A") cat_HC_42;
  Entry ["HC"] (Some false) (Some "P") cat_HC_43;
  Entry ["HC"] (Some false) None cat_HC_44;
  Entry ["HD"; "HE"; "HF"; "PD"; "PE"; "PF"] (Some true) None cat_HD_45;
  Entry ["HD"; "HE"; "HF"; "PD"; "PE"; "PF"] (Some false) (Some "E") cat_HD_46;
  Entry ["HD"; "HE"; "HF"; "PD"; "PE"; "PF"] (Some false) (Some "P") cat_HD_47;
  Entry ["HD"; "HE"; "HF"; "PD"; "PE"; "PF"] (Some false) (Some "W") cat_HD_48;
  Entry ["HK"] (Some true) None cat_HK_49;
  Entry ["HK"] (Some false) (Some "A") cat_HK_50;
  Entry ["HS"] (Some true) None cat_HS_51;
  Entry ["HS"] (Some false) (Some "A") cat_HS_52;
  Entry ["HV"] (Some true) None cat_HV_53;
  Entry ["HV"] (Some false) (Some "A") cat_HV_54;
  Entry ["HV"] (Some false) (Some "T") cat_HV_55;
  Entry ["PA"] (Some true) None cat_PA_56;
  Entry ["PA"] (Some false) (Some "A") cat_PA_57;
  Entry ["PA"] (Some false) (Some "P") cat_PA_58;
  Entry ["PA"] (Some false) (Some "Q") cat_PA_59;
  Entry ["PB"] (Some true) None cat_PB_60;
  Entry ["PB"] (Some false) (Some "A") cat_PB_61;
  Entry ["PC"] (Some true) None cat_PC_62;
  Entry ["PC"] (Some false) (Some "A") cat_PC_63;
  Entry ["PC"] (Some false) (Some "P") cat_PC_64;
  Entry ["PC"] (Some false) (Some "Q") cat_PC_65;
  Entry ["PG"] (Some true) None cat_PG_66;
  Entry ["PG"] (Some false) (Some "A") cat_PG_67;
  Entry ["PG"] (Some false) (Some "S") cat_PG_68;
  Entry ["PI"] (Some true) None cat_PI_69;
  Entry ["PI"] (Some false) (Some "A") cat_PI_70;
  Entry ["PI"] (Some false) (Some "S") cat_PI_71;
  Entry ["PK"] (Some true) None cat_PK_72;
  Entry ["PK"] (Some false) (Some "A") cat_PK_73;
  Entry ["PL"] (Some true) None cat_PL_74;
  Entry ["PL"] (Some false) (Some "A") cat_PL_75;
  Entry ["PM"] (Some true) None cat_PM_76;
  Entry ["PM"] (Some false) (Some "A") cat_PM_77;
  Entry ["PP"] (Some true) None cat_PP_78;
  Entry ["PP"] (Some false) (Some "E") cat_PP_79;
  Entry ["PR"] (Some true) None cat_PR_80;
  Entry ["PR"] (Some false) (Some "A") cat_PR_81;
  Entry ["PR"] (Some false) (Some "T") cat_PR_82;
  Entry ["PS"] (Some true) None cat_PS_83;
  Entry ["PS"] (Some false) (Some "A") cat_PS_84;
  Entry ["PT"] (Some true) None cat_PT_85;
  Entry ["PT"] (Some false) (Some "A") cat_PT_86;
  Entry ["PV"] (Some true) None cat_PV_87;
  Entry ["PV"] (Some false) (Some "N") cat_PV_88;
  Entry ["R "] None None cat_R_89;
  Entry ["RA"] None None cat_RA_90;
  Entry ["TC"] None None cat_TC_91;
  Entry ["TG"] (Some true) None cat_TG_92;
  Entry ["TG"] (Some false) (Some "A") cat_TG_93;
  Entry ["UC"] (Some true) None cat_UC_94;
  Entry ["UC"] (Some false) (Some "A") cat_UC_95;
  Entry ["UF"] (Some true) None cat_UF_96;
  Entry ["UF"] (Some false) (Some "A") cat_UF_97;
  Entry ["UR"] (Some true) None cat_UR_98;
  Entry ["UR"] (Some false) (Some "T") cat_UR_99;
  Entry ["UR"] (Some false) (Some "P") cat_UR_100;
  Entry ["UR"] (Some false) (Some "C") cat_UR_101].
