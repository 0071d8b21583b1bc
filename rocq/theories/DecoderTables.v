(* GENERATED by tools/gen.py from /repo/src/arinc424/decoder.py: literal code tables,
   and the field_NNN functions whose body is a single trivial return. *)
From Coq Require Import List String.
From Verif Require Import PyBase.
Import ListNotations.
Open Scope string_scope.
Open Scope list_scope.

(* src/arinc424/decoder.py:62-109 *)
Definition tbl_004 : list (str * str) := [
  ((lit "AS"), (lit "Grid MORA"));
  ((lit "D "), (lit "VHF Navaid"));
  ((lit "DB"), (lit "NDB Navaid"));
  ((lit "EA"), (lit "Waypoint"));
  ((lit "EM"), (lit "Airways Marker"));
  ((lit "EP"), (lit "Holding Pattern"));
  ((lit "ER"), (lit "Airways and Route"));
  ((lit "ET"), (lit "Preferred Route"));
  ((lit "EU"), (lit "Airway Restrictions"));
  ((lit "EV"), (lit "Enroute Communication"));
  ((lit "HA"), (lit "Heliport Pads"));
  ((lit "HC"), (lit "Heliport Terminal Waypoint"));
  ((lit "HD"), (lit "Heliport SID"));
  ((lit "HE"), (lit "Heliport STAR"));
  ((lit "HF"), (lit "Heliport Approach Procedure"));
  ((lit "HK"), (lit "Heliport TAA"));
  ((lit "HS"), (lit "Heliport MSA"));
  ((lit "HV"), (lit "Heliport Communication"));
  ((lit "PA"), (lit "Airport Reference Point"));
  ((lit "PB"), (lit "Airport Gates"));
  ((lit "PC"), (lit "Airport Terminal Waypoint"));
  ((lit "PD"), (lit "Airport SID"));
  ((lit "PE"), (lit "Airport STAR"));
  ((lit "PF"), (lit "Airport Approach Procedure"));
  ((lit "PG"), (lit "Airport Runway"));
  ((lit "PI"), (lit "Airport Localizer/Glideslope"));
  ((lit "PK"), (lit "Airport TAA"));
  ((lit "PL"), (lit "Airport MLS"));
  ((lit "PM"), (lit "Airport Localizer Marker"));
  ((lit "PN"), (lit "Airport Terminal"));
  ((lit "PP"), (lit "Airport Path"));
  ((lit "PR"), (lit "Airport Flt Planning ARR/DEP"));
  ((lit "PS"), (lit "Airport MSA"));
  ((lit "PT"), (lit "Airport GLS Station"));
  ((lit "PV"), (lit "Airport Communication"));
  ((lit "R "), (lit "Company Route"));
  ((lit "RA"), (lit "Alternate Record"));
  ((lit "TC"), (lit "Cruising Table"));
  ((lit "TG"), (lit "Geographical Reference"));
  ((lit "TN"), (lit "RNAV Name Table"));
  ((lit "UC"), (lit "Controller Airspace"));
  ((lit "UF"), (lit "Airspace FIR/UIR"));
  ((lit "UR"), (lit "Restrictive Airspace"))].

(* src/arinc424/decoder.py:986-1030 *)
Definition tbl_101 : list (str * str) := [
  ((lit "ACC"), (lit "Area Control Center"));
  ((lit "ACP"), (lit "Airlift Command Post"));
  ((lit "AIR"), (lit "Air to Air"));
  ((lit "APP"), (lit "Approach Control"));
  ((lit "ARR"), (lit "Arrival Control"));
  ((lit "ASO"), (lit "Automatic Surface Observing System (ASOS)"));
  ((lit "ATI"), (lit "Automatic Terminal Info Service (ATIS)"));
  ((lit "AWI"), (lit "Airport Weather Information Broadcast (AWIB)"));
  ((lit "AWO"), (lit "Automatic Weather Observing Service (AWOS)"));
  ((lit "AWS"), (lit "Aerodrome Weather Information Services (AWIS)"));
  ((lit "CLD"), (lit "Clearance Delivery"));
  ((lit "CPT"), (lit "Clearance, Pre-Taxi"));
  ((lit "CTA"), (lit "Control Area (Terminal)"));
  ((lit "CTL"), (lit "Control"));
  ((lit "DEP"), (lit "Departure Control"));
  ((lit "DIR"), (lit "Director (Approach Control Radar)"));
  ((lit "EFS"), (lit "Enroute Flight Advisory Service (EFAS)"));
  ((lit "EMR"), (lit "Emergency"));
  ((lit "FSS"), (lit "Flight Service Station"));
  ((lit "GCO"), (lit "Ground Comm Outlet"));
  ((lit "GND"), (lit "Ground Control"));
  ((lit "GTE"), (lit "Gate Control"));
  ((lit "HEL"), (lit "Helicopter Frequency"));
  ((lit "INF"), (lit "Information"));
  ((lit "MIL"), (lit "Military Frequency"));
  ((lit "MUL"), (lit "Multicom"));
  ((lit "OPS"), (lit "Operations"));
  ((lit "PAL"), (lit "Pilot Activated Lighting (Note 1)"));
  ((lit "RDO"), (lit "Radio"));
  ((lit "RDR"), (lit "Radar"));
  ((lit "RFS"), (lit "Remote Flight Service Station (RFSS)"));
  ((lit "RMP"), (lit "Ramp/Taxi Control"));
  ((lit "RSA"), (lit "Airport Radar Service Area (ARSA)"));
  ((lit "TCA"), (lit "Terminal Control Area"));
  ((lit "TMA"), (lit "Terminal Control Area"));
  ((lit "TML"), (lit "Terminal"));
  ((lit "TRS"), (lit "Terminal Radar Service Area (TRSA)"));
  ((lit "TWE"), (lit "Transcribe Weather Broadcast (TWEB)"));
  ((lit "TWR"), (lit "Tower, Air Traffic Control"));
  ((lit "UAC"), (lit "Upper Area Control"));
  ((lit "UNI"), (lit "Unicom"));
  ((lit "VOL"), (lit "Volmet"))].

(* src/arinc424/decoder.py:1053-1059 *)
Definition tbl_104 : list (str * str) := [
  ((lit "H"), (lit "High Frequency (3000 kHz - 30,000 kHz)"));
  ((lit "V"), (lit "Very High Frequency (30,000 kHz - 200 MHz)"));
  ((lit "U"), (lit "Ultra High Frequency (200 MHz - 3000 MHz)"));
  ((lit "C"), (lit "Communication Channel for 8.33 kHz spacing"))].

(* src/arinc424/decoder.py:1068-1093 *)
Definition tbl_106 : list (str * str) := [
  ((lit "A  "), (lit "Airport Advisory Serivce (AAS)"));
  ((lit "C  "), (lit "Community Aerodrome Radio Station (CARS)"));
  ((lit "D  "), (lit "Departure Service (Other than Departure Control Unit)"));
  ((lit "F  "), (lit "Flight Information Serivce (FIS)"));
  ((lit "I  "), (lit "Initial Contact (IC)"));
  ((lit "L  "), (lit "Arrival Service (Other than Arrival Control Unit)"));
  ((lit "P  "), (lit "Pre-Departure Clearance (Data Link Service)"));
  ((lit "S  "), (lit "Aerodrome Flight Information Service (AFIS)"));
  ((lit "T  "), (lit "Terminal Area Control (Other than dedicated Terminal Control Unit)"));
  ((lit " A "), (lit "Aerodrome Traffic Frequency (ATF)"));
  ((lit " C "), (lit "Common Traffic Advisory Frequency (CTAF)"));
  ((lit " M "), (lit "Mandatory Frequency (MF) "));
  ((lit " R "), (lit "Air/Air"));
  ((lit " S "), (lit "Secondary Frequency"));
  ((lit "  A"), (lit "Air/Ground"));
  ((lit "  D"), (lit "VHF Direction Finding Service (VDF)"));
  ((lit "  G"), (lit "Remote Communications Air to Ground (RCAG)"));
  ((lit "  L"), (lit "Language other than English"));
  ((lit "  M"), (lit "Military Use Frequency"));
  ((lit "  P"), (lit "Pilot Controlled Light (PCL)"));
  ((lit "  R"), (lit "Remote Communications Outlet (RCO)"))].

(* src/arinc424/decoder.py:1539-1543 *)
Definition tbl_181 : list (str * str) := [
  ((lit "Y"), (lit "24-Hour Availability"));
  ((lit "N"), (lit "Part-time Availability"))].

(* src/arinc424/decoder.py:1670-1674 *)
Definition tbl_198 : list (str * str) := [
  ((lit "A"), (lit "Amplitude Modulated"));
  ((lit "F"), (lit "Frequency Modulated"))].

(* src/arinc424/decoder.py:1678-1689 *)
Definition tbl_199 : list (str * str) := [
  ((lit "3"), (lit "Double Sideband (A3) "));
  ((lit "A"), (lit "Single sideband, reduced carrier (A3A) "));
  ((lit "B"), (lit "Two Independent sidebands (A3B)"));
  ((lit "H"), (lit "Single sideband, full carrier (A3H) "));
  ((lit "J"), (lit "Single sideband, suppressed carrier (A3J)"));
  ((lit "L"), (lit "Lower (single) sideband, carrier unknown"));
  ((lit "U"), (lit "Upper (single) sideband, carrier unknown"))].

(* src/arinc424/decoder.py:120-128 *)
Definition tbl_007_ER : list (str * str) := [
  ((lit "A"), (lit "Airline Airway (Tailored Data)"));
  ((lit "C"), (lit "Control"));
  ((lit "D"), (lit "Direct Route"));
  ((lit "H"), (lit "Helicopter Airways"));
  ((lit "O"), (lit "Officially Designated Airways"));
  ((lit "R"), (lit "RNAV Airways"));
  ((lit "S"), (lit "Undesignated ATS Route"))].

(* src/arinc424/decoder.py:129-135 *)
Definition tbl_007_ET : list (str * str) := [
  ((lit "C"), (lit "North American Routes for North Atlantic Traffic Common Portion"));
  ((lit "D"), (lit "Preferential Routes"));
  ((lit "J"), (lit "Pacific Oceanic Transition Routes (PACOTS)"));
  ((lit "M"), (lit "RNAV Airways"));
  ((lit "N"), (lit "Undesignated ATS Route"))].

(* src/arinc424/decoder.py:136-152 *)
Definition tbl_007_SID : list (str * str) := [
  ((lit "0"), (lit "Engine Out SID"));
  ((lit "1"), (lit "SID Runway Transition"));
  ((lit "2"), (lit "SID or SID Common Route"));
  ((lit "3"), (lit "SID Enroute Transition"));
  ((lit "4"), (lit "RNAV SID Runway Transition"));
  ((lit "5"), (lit "RNAV SID or SID Common Route"));
  ((lit "6"), (lit "RNAV SID Enroute Transition"));
  ((lit "F"), (lit "FMS SID Runway Transition"));
  ((lit "M"), (lit "FMS SID or SID Common Route"));
  ((lit "S"), (lit "FMS SID Enroute Transition"));
  ((lit "R"), (lit "RNP SID Runway Transition"));
  ((lit "N"), (lit "RNP SID or SID Common Route"));
  ((lit "P"), (lit "RNP SID Enroute Transition"));
  ((lit "T"), (lit "Vector SID Runway Transition"));
  ((lit "V"), (lit "Vector SID Enroute Transition"))].

(* src/arinc424/decoder.py:153-169 *)
Definition tbl_007_STAR : list (str * str) := [
  ((lit "1"), (lit "STAR Enroute Transition"));
  ((lit "2"), (lit "STAR or STAR Common Route"));
  ((lit "3"), (lit "STAR Runway Transition"));
  ((lit "4"), (lit "RNAV STAR Enroute Transition"));
  ((lit "5"), (lit "RNAV STAR or STAR Common Route"));
  ((lit "6"), (lit "RNAV STAR Runway Transition"));
  ((lit "7"), (lit "Profile Descent Enroute Transition"));
  ((lit "8"), (lit "Profile Descent Common Route"));
  ((lit "9"), (lit "Profile Descent Runway Transition"));
  ((lit "F"), (lit "FMS STAR Enroute Transition"));
  ((lit "M"), (lit "FMS STAR or STAR Common Route"));
  ((lit "S"), (lit "FMS STAR Runway Transition"));
  ((lit "R"), (lit "RNP STAR Enroute Transition"));
  ((lit "N"), (lit "RNP STAR or STAR Common Route"));
  ((lit "P"), (lit "RNP STAR Runway Transition"))].

(* src/arinc424/decoder.py:170-193 *)
Definition tbl_007_APP : list (str * str) := [
  ((lit "A"), (lit "Approach Transition"));
  ((lit "B"), (lit "Localizer/Backcourse Approach"));
  ((lit "D"), (lit "VORDME Approach"));
  ((lit "F"), (lit "Flight Management System (FMS) Approach"));
  ((lit "G"), (lit "Instrument Guidance System (IGS) Approach"));
  ((lit "H"), (lit "Area Navigation (RNAV) Approach with Required Navigation Performance (RNP) Approach"));
  ((lit "I"), (lit "Instrument Landing System (ILS) Approach"));
  ((lit "J"), (lit "GNSS Landing System (GLS) Approach"));
  ((lit "L"), (lit "Localizer Only (LOC) Approach"));
  ((lit "M"), (lit "Microwave Landing System (MLS) Approach"));
  ((lit "N"), (lit "Non-Directional Beacon (NDB) Approach"));
  ((lit "P"), (lit "Global Position System (GPS) Approach"));
  ((lit "Q"), (lit "Non-Directional Beacon + DME (NDB+DME) Approach"));
  ((lit "R"), (lit "Area Navigation (RNAV) Approach (Note 1)"));
  ((lit "S"), (lit "VOR Approach using VORDME/VORTAC"));
  ((lit "T"), (lit "TACAN Approach"));
  ((lit "U"), (lit "Simplified Directional Facility (SDF) Approach"));
  ((lit "V"), (lit "VOR Approach"));
  ((lit "W"), (lit "Microwave Landing System (MLS), Type A Approach"));
  ((lit "X"), (lit "Localizer Directional Aid (LDA) Approach"));
  ((lit "Y"), (lit "Microwave Landing System (MLS), Type B and C Approach"));
  ((lit "Z"), (lit "Missed Approach"))].

(* src/arinc424/decoder.py:357-379 *)
Definition tbl_LegTypeDesc : list (str * str) := [
  ((lit "IF"), (lit "Initial Fix or IF Leg."));
  ((lit "TF"), (lit "Track to a Fix or TF Leg."));
  ((lit "CF"), (lit "Course to a Fix or CF Leg."));
  ((lit "DF"), (lit "Direct to a Fix or DF Leg."));
  ((lit "FA"), (lit "Fix to an Altitude or FA Leg."));
  ((lit "FC"), (lit "Track from a Fix for a Distance or FC Leg."));
  ((lit "FD"), (lit "Track from a Fix to a DME Distance or FD Leg."));
  ((lit "FM"), (lit "From a Fix to a Manual termination or FM Leg."));
  ((lit "CA"), (lit "Course to an Altitude or CA Leg."));
  ((lit "CD"), (lit "Course to a DME Distance or CD Leg."));
  ((lit "CI"), (lit "Course to an Intercept or CI Leg."));
  ((lit "CR"), (lit "Course to a Radial termination or CR Leg."));
  ((lit "RF"), (lit "Constant Radius Arc or RF Leg."));
  ((lit "AF"), (lit "Arc to a Fix or AF Leg."));
  ((lit "VA"), (lit "Heading to an Altitude termination or VA Leg."));
  ((lit "VD"), (lit "Heading to a DME Distance termination or VD Leg."));
  ((lit "VI"), (lit "Heading to an Intercept or VI Leg."));
  ((lit "VM"), (lit "Heading to a Manual termination or VM Leg."));
  ((lit "VR"), (lit "Heading to a Radial termination or VR Leg."));
  ((lit "PI"), (lit "045/180 Procedure Turn or PI Leg."));
  ((lit "HA"), (lit "Holding pattern (Altitude Termination)"));
  ((lit "HF"), (lit "Holding pattern (Single circuit terminating at the fix)"));
  ((lit "HM"), (lit "Holding pattern (Manual Termination)"))].

(* src/arinc424/decoder.py:36-58 *)
Definition tbl_003 : list (str * str) := [
  ((lit "USA"), (lit "United States of America"));
  ((lit "AFR"), (lit "Africa"));
  ((lit "CAN"), (lit "Canada"));
  ((lit "EEU"), (lit "Eastern Europe and Asia"));
  ((lit "EUR"), (lit "Europe"));
  ((lit "LAM"), (lit "Latin America"));
  ((lit "MES"), (lit "Middle East"));
  ((lit "PAC"), (lit "Pacific"));
  ((lit "SAM"), (lit "Southern America"));
  ((lit "SPA"), (lit "South Pacific"))].

(* src/arinc424/decoder.py:247-253 *)
Definition tbl_016 : list (str * str) := [
  ((lit "0"), (lit "Primary Record"));
  ((lit "1"), (lit "Primary Record (with Cont.)"))].

(* src/arinc424/decoder.py:259-279 *)
Definition tbl_017_0 : list (str * str) := [
  ((lit "A"), (lit "Airport as Waypoint
"));
  ((lit "E"), (lit "Essential Waypoint
"));
  ((lit "F"), (lit "Off Airway Waypoint
"));
  ((lit "G"), (lit "Runway/Helipad as Waypoint
"));
  ((lit "H"), (lit "Heliport as Waypoint
"));
  ((lit "N"), (lit "NDB Navaid as Waypoint
"));
  ((lit "P"), (lit "Phantom Waypoint
"));
  ((lit "R"), (lit "Non-Essential Waypoint
"));
  ((lit "T"), (lit "Transition Essential Waypoint
"));
  ((lit "V"), (lit "VHF Navaid as Waypoint
"))].

(* src/arinc424/decoder.py:281-289 *)
Definition tbl_017_1 : list (str * str) := [
  ((lit "B"), (lit "Flyover Waypoint: End of SID/STAR Route Type, APCH Transition or Final Approach
"));
  ((lit "E"), (lit "End of Enroute Airway or Terminal Procedure Route Type
"));
  ((lit "U"), (lit "Uncharted Airway Intersection
"));
  ((lit "Y"), (lit "Fly-Over Waypoint
"))].

(* src/arinc424/decoder.py:291-307 *)
Definition tbl_017_2 : list (str * str) := [
  ((lit "A"), (lit "Unnamed Stepdown Fix After Final Approach Fix
"));
  ((lit "B"), (lit "Unnamed Stepdown Fix Before Final Approach Fix
"));
  ((lit "C"), (lit "ATC Compulsory Waypoint
"));
  ((lit "G"), (lit "Oceanic Gateway Waypoint
"));
  ((lit "M"), (lit "First Leg of Missed Approach Procedure
"));
  ((lit "P"), (lit "Path Point Fix
"));
  ((lit "R"), (lit "Fix used for turning final approach
"));
  ((lit "S"), (lit "Named Stepdown Fix
"))].

(* src/arinc424/decoder.py:309-327 *)
Definition tbl_017_3 : list (str * str) := [
  ((lit "A"), (lit "Initial Approach Fix
"));
  ((lit "B"), (lit "Intermediate Approach Fix
"));
  ((lit "C"), (lit "Initial Approach Fix with Holding
"));
  ((lit "D"), (lit "Initial Approach Fix with Final Approach Course Fix
"));
  ((lit "E"), (lit "Final End Point Fix
"));
  ((lit "F"), (lit "Published Final Approach Fix or Database Final Approach Fix
"));
  ((lit "H"), (lit "Holding Fix
"));
  ((lit "I"), (lit "Final Approach Course Fix
"));
  ((lit "M"), (lit "Published Missed Approach Point Fix
"))].

(* src/arinc424/decoder.py:570-584 *)
Definition tbl_042_0 : list (str * str) := [
  ((lit "C"), (lit "Combined Named Intersection and RNAV"));
  ((lit "I"), (lit "Unnamed, Charted Intersection"));
  ((lit "R"), (lit "Named Intersection"));
  ((lit "U"), (lit "Uncharted Airway Intersection"));
  ((lit "V"), (lit "VFR Waypoint"));
  ((lit "W"), (lit "RNAV Waypoint"))].

(* src/arinc424/decoder.py:585-621 *)
Definition tbl_042_1 : list (str * str) := [
  ((lit "A"), (lit "Final Approach Fix"));
  ((lit "B"), (lit "Initial and Final Approach Fix"));
  ((lit "C"), (lit "Final Approach Course Fix"));
  ((lit "D"), (lit "Intermediate Approach Fix"));
  ((lit "E"), (lit "Off-Route intersection in FAA National Reference System"));
  ((lit "F"), (lit "Off-Route Intersection"));
  ((lit "I"), (lit "Initial Approach Fix"));
  ((lit "K"), (lit "Final Approach Course Fix at Initial Approach Fix"));
  ((lit "L"), (lit "Final Approach Course Fix at Intermediate Approach Fix"));
  ((lit "M"), (lit "Missed Approach Fix"));
  ((lit "N"), (lit "Initial Approach Fix and Missed Approach Fix"));
  ((lit "O"), (lit "Oceanic Entry/Exit Waypoint"));
  ((lit "P"), (lit "Pitch and Catch Point in the FAA High Altitude Redesign"));
  ((lit "S"), (lit "AACAA and SUA Waypoints in the FAA High Altitude Redesign"));
  ((lit "U"), (lit "FIR/UIR or Controlled Airspace Intersection"));
  ((lit "V"), (lit "Latitude/Longitude Intersection, Full Degree of Latitude"));
  ((lit "W"), (lit "Latitude/Longitude Intersection, Half Degree of Latitude"))].

(* src/arinc424/decoder.py:659-667 *)
Definition tbl_049 : list (str * str) := [
  ((lit "@"), (lit "Beyond stop end of runway"));
  ((lit "+"), (lit "Ahead of approach end of runway"));
  ((lit "-"), (lit "To the side of runway"))].

(* src/arinc424/decoder.py:909-937 *)
Definition tbl_091 : list (str * str) := [
  ((lit "A"), (lit "Standard ARINC Continuation containing notes or other formatted data"));
  ((lit "B"), (lit "Combined Controlling Agency/Call Sign and formatted Time of Operation"));
  ((lit "C"), (lit "Call Sign/Controlling Agency Continuation"));
  ((lit "E"), (lit "Primary Record Extension"));
  ((lit "L"), (lit "VHF Navaid Limitation Continuation"));
  ((lit "N"), (lit "Sector Narrative Continuation"));
  ((lit "T"), (lit "Time of Operations Continuation ""formatted time data"""));
  ((lit "U"), (lit "Time of Operations Continuation ""Narrative time data"""));
  ((lit "V"), (lit "Time of Operations Continuation, Start/End Date"));
  ((lit "P"), (lit "Flight Planning Application Continuation"));
  ((lit "Q"), (lit "Flight Planning Application Primary Data Continuation"));
  ((lit "S"), (lit "Simulation Application Continuation"));
  ((lit "W"), (lit "Airport or Heliport Procedure Data Continuation with SBAS use authorization information"))].

(* src/arinc424/decoder.py:1035-1041 *)
Definition tbl_102 : list (str * str) := [
  ((lit "R"), (lit "Radar Capabilities"));
  ((lit "N"), (lit "No Radar Capabilities"))].

(* src/arinc424/decoder.py:1103-1109 *)
Definition tbl_108 : list (str * str) := [
  ((lit "Y"), (lit "Official"));
  ((lit "N"), (lit "Non-official"))].

(* src/arinc424/decoder.py:1129-1135 *)
Definition tbl_112 : list (str * str) := [
  ((lit "E"), (lit "Elliptical"));
  ((lit "B"), (lit "Bone"))].

(* src/arinc424/decoder.py:1140-1146 *)
Definition tbl_113 : list (str * str) := [
  ((lit "H"), (lit "High Power (general use)"));
  ((lit "L"), (lit "Low Power (low altitude use)"))].

(* src/arinc424/decoder.py:1179-1192 *)
Definition tbl_118 : list (str * str) := [
  ((lit "C"), (lit "Circle"));
  ((lit "G"), (lit "Great Circle"));
  ((lit "H"), (lit "Rhumb Line"));
  ((lit "L"), (lit "Counter Clockwise ARC"));
  ((lit "R"), (lit "Clockwise ARC"))].

(* src/arinc424/decoder.py:1501-1509 *)
Definition tbl_177 : list (str * str) := [
  ((lit "C"), (lit "Public / Civil"));
  ((lit "M"), (lit "Military"));
  ((lit "P"), (lit "Private (not open to public)"))].

(* src/arinc424/decoder.py:1524-1530 *)
Definition tbl_179 : list (str * str) := [
  ((lit "Y"), (lit "Yes"));
  ((lit "N"), (lit "No"))].

(* src/arinc424/decoder.py:1548-1556 *)
Definition tbl_182 : list (str * str) := [
  ((lit "G"), (lit "Guard (radio receives on this freq)"));
  ((lit "T"), (lit "Transmit (radio transmits on this freq)"));
  ((lit " "), (lit "Guards and Transmits"))].

(* src/arinc424/decoder.py:1626-1654 *)
Definition tbl_196_0 : list (str * str) := [
  ((lit "A"), (lit "Abeam Fix"));
  ((lit "B"), (lit "Bearing and Distance Fix "));
  ((lit "D"), (lit "Airport Name as Fix"));
  ((lit "F"), (lit "FIR Fix"));
  ((lit "H"), (lit "Phonetic Letter Name Fix"));
  ((lit "I"), (lit "Airport Ident as Fix"));
  ((lit "L"), (lit "Latitude/Longitude Fix "));
  ((lit "M"), (lit "Multiple Word Name Fix"));
  ((lit "N"), (lit "Navaid Ident as Fix"));
  ((lit "P"), (lit "Published Five - Letter - Name - Fix"));
  ((lit "Q"), (lit "Published Name Fix, less than five letters"));
  ((lit "R"), (lit "Published Name Fix, more than five letters"));
  ((lit "T"), (lit "Airport/Rwy Related Fix (Note 2)"));
  ((lit "U"), (lit "UIR Fix"))].

(* src/arinc424/decoder.py:1655-1661 *)
Definition tbl_196_1 : list (str * str) := [
  ((lit "O"), (lit "Localizer Marker with officially published five - letter identifier"));
  ((lit "M"), (lit "Localizer Marker without officially published five - letter identifier"))].

(* src/arinc424/decoder.py:2046-2058 *)
Definition tbl_270 : list (str * str) := [
  ((lit "I"), (lit "ILS or MLS Glideslope"));
  ((lit "R"), (lit "RNAV Procedure"));
  ((lit "V"), (lit "Visual Glideslope Indicator (VGSI)"));
  ((lit "D"), (lit "Default Value (40 or 50 feet)"))].

(* src/arinc424/decoder.py:113-114  return value *)
Definition field_006 (value : str) (record : recview) : M dval := ret (DStr value).

(* src/arinc424/decoder.py:217-218  return value *)
Definition field_011 (value : str) (record : recview) : M dval := ret (DStr value).

(* src/arinc424/decoder.py:236-237  return value *)
Definition field_013 (value : str) (record : recview) : M dval := ret (DStr value).

(* src/arinc424/decoder.py:241-242  return value *)
Definition field_014 (value : str) (record : recview) : M dval := ret (DStr value).

(* src/arinc424/decoder.py:333-334  return value *)
Definition field_018 (value : str) (record : recview) : M dval := ret (DStr value).

(* src/arinc424/decoder.py:338-339  return value *)
Definition field_019 (value : str) (record : recview) : M dval := ret (DStr value).

(* src/arinc424/decoder.py:460-461  return value *)
Definition field_028 (value : str) (record : recview) : M dval := ret (DStr value).

(* src/arinc424/decoder.py:465-466  return value.lstrip('0') + " ft" if value.isnumeric() else value *)
Definition field_029 (value : str) (record : recview) : M dval :=
  ret (DStr (if isnumeric value then lstrip0 value ++ lit " ft" else value)).

(* src/arinc424/decoder.py:470-471  return value.lstrip('0') + " ft" if value.isnumeric() else value *)
Definition field_030 (value : str) (record : recview) : M dval :=
  ret (DStr (if isnumeric value then lstrip0 value ++ lit " ft" else value)).

(* src/arinc424/decoder.py:475-476  return value *)
Definition field_031 (value : str) (record : recview) : M dval := ret (DStr value).

(* src/arinc424/decoder.py:486-487  return value *)
Definition field_033 (value : str) (record : recview) : M dval := ret (DStr value).

(* src/arinc424/decoder.py:504-535  return value *)
Definition field_035 (value : str) (record : recview) : M dval := ret (DStr value).

(* src/arinc424/decoder.py:539-540  return value *)
Definition field_036 (value : str) (record : recview) : M dval := ret (DStr value).

(* src/arinc424/decoder.py:544-545  return value *)
Definition field_037 (value : str) (record : recview) : M dval := ret (DStr value).

(* src/arinc424/decoder.py:549-550  return value *)
Definition field_038 (value : str) (record : recview) : M dval := ret (DStr value).

(* src/arinc424/decoder.py:559-560  return value *)
Definition field_040 (value : str) (record : recview) : M dval := ret (DStr value).

(* src/arinc424/decoder.py:564-565  return value *)
Definition field_041 (value : str) (record : recview) : M dval := ret (DStr value).

(* src/arinc424/decoder.py:630-631  return value *)
Definition field_044 (value : str) (record : recview) : M dval := ret (DStr value).

(* src/arinc424/decoder.py:643-644  return value *)
Definition field_046 (value : str) (record : recview) : M dval := ret (DStr value).

(* src/arinc424/decoder.py:648-649  return value *)
Definition field_047 (value : str) (record : recview) : M dval := ret (DStr value).

(* src/arinc424/decoder.py:653-654  return value.lstrip('0') + " ft" if value.isnumeric() else value *)
Definition field_048 (value : str) (record : recview) : M dval :=
  ret (DStr (if isnumeric value then lstrip0 value ++ lit " ft" else value)).

(* src/arinc424/decoder.py:672-673  return value.lstrip('0') + " ft" if value.isnumeric() else value *)
Definition field_050 (value : str) (record : recview) : M dval :=
  ret (DStr (if isnumeric value then lstrip0 value ++ lit " ft" else value)).

(* src/arinc424/decoder.py:677-678  return value *)
Definition field_051 (value : str) (record : recview) : M dval := ret (DStr value).

(* src/arinc424/decoder.py:682-683  return value *)
Definition field_052 (value : str) (record : recview) : M dval := ret (DStr value).

(* src/arinc424/decoder.py:687-688  return value.lstrip('0') + " ft" if value.isnumeric() else value *)
Definition field_053 (value : str) (record : recview) : M dval :=
  ret (DStr (if isnumeric value then lstrip0 value ++ lit " ft" else value)).

(* src/arinc424/decoder.py:700-701  return value *)
Definition field_055 (value : str) (record : recview) : M dval := ret (DStr value).

(* src/arinc424/decoder.py:705-706  return value *)
Definition field_056 (value : str) (record : recview) : M dval := ret (DStr value).

(* src/arinc424/decoder.py:710-711  return value *)
Definition field_057 (value : str) (record : recview) : M dval := ret (DStr value).

(* src/arinc424/decoder.py:715-716  return value *)
Definition field_058 (value : str) (record : recview) : M dval := ret (DStr value).

(* src/arinc424/decoder.py:720-721  return value *)
Definition field_059 (value : str) (record : recview) : M dval := ret (DStr value).

(* src/arinc424/decoder.py:725-726  return value *)
Definition field_060 (value : str) (record : recview) : M dval := ret (DStr value).

(* src/arinc424/decoder.py:730-731  return value *)
Definition field_061 (value : str) (record : recview) : M dval := ret (DStr value).

(* src/arinc424/decoder.py:743-744  return value *)
Definition field_063 (value : str) (record : recview) : M dval := ret (DStr value).

(* src/arinc424/decoder.py:748-749  return value *)
Definition field_064 (value : str) (record : recview) : M dval := ret (DStr value).

(* src/arinc424/decoder.py:765-766  return value *)
Definition field_066 (value : str) (record : recview) : M dval := ret (DStr value).

(* src/arinc424/decoder.py:770-771  return value *)
Definition field_067 (value : str) (record : recview) : M dval := ret (DStr value).

(* src/arinc424/decoder.py:775-776  return value *)
Definition field_068 (value : str) (record : recview) : M dval := ret (DStr value).

(* src/arinc424/decoder.py:780-781  return value *)
Definition field_069 (value : str) (record : recview) : M dval := ret (DStr value).

(* src/arinc424/decoder.py:785-786  return value *)
Definition field_070 (value : str) (record : recview) : M dval := ret (DStr value).

(* src/arinc424/decoder.py:790-791  return value *)
Definition field_071 (value : str) (record : recview) : M dval := ret (DStr value).

(* src/arinc424/decoder.py:805-806  return value.lstrip('0') + " ft" if value.isnumeric() else value *)
Definition field_073 (value : str) (record : recview) : M dval :=
  ret (DStr (if isnumeric value then lstrip0 value ++ lit " ft" else value)).

(* src/arinc424/decoder.py:810-811  return value *)
Definition field_074 (value : str) (record : recview) : M dval := ret (DStr value).

(* src/arinc424/decoder.py:815-816  return value *)
Definition field_075 (value : str) (record : recview) : M dval := ret (DStr value).

(* src/arinc424/decoder.py:820-821  return value *)
Definition field_076 (value : str) (record : recview) : M dval := ret (DStr value).

(* src/arinc424/decoder.py:825-826  return value *)
Definition field_077 (value : str) (record : recview) : M dval := ret (DStr value).

(* src/arinc424/decoder.py:830-831  return value *)
Definition field_078 (value : str) (record : recview) : M dval := ret (DStr value).

(* src/arinc424/decoder.py:835-836  return value *)
Definition field_079 (value : str) (record : recview) : M dval := ret (DStr value).

(* src/arinc424/decoder.py:840-841  return value *)
Definition field_080 (value : str) (record : recview) : M dval := ret (DStr value).

(* src/arinc424/decoder.py:845-846  return value *)
Definition field_081 (value : str) (record : recview) : M dval := ret (DStr value).

(* src/arinc424/decoder.py:868-869  return value *)
Definition field_083 (value : str) (record : recview) : M dval := ret (DStr value).

(* src/arinc424/decoder.py:873-874  return value *)
Definition field_084 (value : str) (record : recview) : M dval := ret (DStr value).

(* src/arinc424/decoder.py:878-879  return value *)
Definition field_085 (value : str) (record : recview) : M dval := ret (DStr value).

(* src/arinc424/decoder.py:883-884  return value.lstrip('0') + " ft" if value.isnumeric() else value *)
Definition field_086 (value : str) (record : recview) : M dval :=
  ret (DStr (if isnumeric value then lstrip0 value ++ lit " ft" else value)).

(* src/arinc424/decoder.py:888-889  return value *)
Definition field_087 (value : str) (record : recview) : M dval := ret (DStr value).

(* src/arinc424/decoder.py:893-894  return value *)
Definition field_088 (value : str) (record : recview) : M dval := ret (DStr value).

(* src/arinc424/decoder.py:898-899  return value *)
Definition field_089 (value : str) (record : recview) : M dval := ret (DStr value).

(* src/arinc424/decoder.py:903-904  return value *)
Definition field_090 (value : str) (record : recview) : M dval := ret (DStr value).

(* src/arinc424/decoder.py:941-942  return value.lstrip('0') + " ft" if value.isnumeric() else value *)
Definition field_092 (value : str) (record : recview) : M dval :=
  ret (DStr (if isnumeric value then lstrip0 value ++ lit " ft" else value)).

(* src/arinc424/decoder.py:946-947  return value *)
Definition field_093 (value : str) (record : recview) : M dval := ret (DStr value).

(* src/arinc424/decoder.py:951-952  return value *)
Definition field_094 (value : str) (record : recview) : M dval := ret (DStr value).

(* src/arinc424/decoder.py:956-957  return value *)
Definition field_095 (value : str) (record : recview) : M dval := ret (DStr value).

(* src/arinc424/decoder.py:961-962  return value *)
Definition field_096 (value : str) (record : recview) : M dval := ret (DStr value).

(* src/arinc424/decoder.py:966-967  return value *)
Definition field_097 (value : str) (record : recview) : M dval := ret (DStr value).

(* src/arinc424/decoder.py:971-972  return value *)
Definition field_098 (value : str) (record : recview) : M dval := ret (DStr value).

(* src/arinc424/decoder.py:976-977  return value *)
Definition field_099 (value : str) (record : recview) : M dval := ret (DStr value).

(* src/arinc424/decoder.py:981-982  return value *)
Definition field_100 (value : str) (record : recview) : M dval := ret (DStr value).

(* src/arinc424/decoder.py:1063-1064  return value *)
Definition field_105 (value : str) (record : recview) : M dval := ret (DStr value).

(* src/arinc424/decoder.py:1097-1098  return value *)
Definition field_107 (value : str) (record : recview) : M dval := ret (DStr value).

(* src/arinc424/decoder.py:1113-1114  return value *)
Definition field_109 (value : str) (record : recview) : M dval := ret (DStr value).

(* src/arinc424/decoder.py:1118-1119  return value *)
Definition field_110 (value : str) (record : recview) : M dval := ret (DStr value).

(* src/arinc424/decoder.py:1123-1124  return value *)
Definition field_111 (value : str) (record : recview) : M dval := ret (DStr value).

(* src/arinc424/decoder.py:1150-1151  return value *)
Definition field_114 (value : str) (record : recview) : M dval := ret (DStr value).

(* src/arinc424/decoder.py:1155-1156  return value *)
Definition field_115 (value : str) (record : recview) : M dval := ret (DStr value).

(* src/arinc424/decoder.py:1160-1161  return value *)
Definition field_116 (value : str) (record : recview) : M dval := ret (DStr value).

(* src/arinc424/decoder.py:1201-1202  return value *)
Definition field_119 (value : str) (record : recview) : M dval := ret (DStr value).

(* src/arinc424/decoder.py:1206-1207  return value *)
Definition field_120 (value : str) (record : recview) : M dval := ret (DStr value).

(* src/arinc424/decoder.py:1211-1212  return value *)
Definition field_121 (value : str) (record : recview) : M dval := ret (DStr value).

(* src/arinc424/decoder.py:1216-1217  return value *)
Definition field_122 (value : str) (record : recview) : M dval := ret (DStr value).

(* src/arinc424/decoder.py:1221-1222  return value.lstrip('0') + " ft" if value.isnumeric() else value *)
Definition field_123 (value : str) (record : recview) : M dval :=
  ret (DStr (if isnumeric value then lstrip0 value ++ lit " ft" else value)).

(* src/arinc424/decoder.py:1226-1227  return value *)
Definition field_124 (value : str) (record : recview) : M dval := ret (DStr value).

(* src/arinc424/decoder.py:1231-1232  return value *)
Definition field_125 (value : str) (record : recview) : M dval := ret (DStr value).

(* src/arinc424/decoder.py:1236-1237  return value *)
Definition field_126 (value : str) (record : recview) : M dval := ret (DStr value).

(* src/arinc424/decoder.py:1241-1242  return value.lstrip('0') + " ft" if value.isnumeric() else value *)
Definition field_127 (value : str) (record : recview) : M dval :=
  ret (DStr (if isnumeric value then lstrip0 value ++ lit " ft" else value)).

(* src/arinc424/decoder.py:1246-1247  return value *)
Definition field_128 (value : str) (record : recview) : M dval := ret (DStr value).

(* src/arinc424/decoder.py:1251-1252  return value *)
Definition field_129 (value : str) (record : recview) : M dval := ret (DStr value).

(* src/arinc424/decoder.py:1256-1257  return value *)
Definition field_130 (value : str) (record : recview) : M dval := ret (DStr value).

(* src/arinc424/decoder.py:1261-1262  return value *)
Definition field_131 (value : str) (record : recview) : M dval := ret (DStr value).

(* src/arinc424/decoder.py:1266-1267  return value *)
Definition field_132 (value : str) (record : recview) : M dval := ret (DStr value).

(* src/arinc424/decoder.py:1271-1272  return value *)
Definition field_133 (value : str) (record : recview) : M dval := ret (DStr value).

(* src/arinc424/decoder.py:1276-1277  return value *)
Definition field_134 (value : str) (record : recview) : M dval := ret (DStr value).

(* src/arinc424/decoder.py:1289-1290  return value *)
Definition field_136 (value : str) (record : recview) : M dval := ret (DStr value).

(* src/arinc424/decoder.py:1294-1295  return value *)
Definition field_137 (value : str) (record : recview) : M dval := ret (DStr value).

(* src/arinc424/decoder.py:1299-1300  return value *)
Definition field_138 (value : str) (record : recview) : M dval := ret (DStr value).

(* src/arinc424/decoder.py:1304-1305  return value *)
Definition field_139 (value : str) (record : recview) : M dval := ret (DStr value).

(* src/arinc424/decoder.py:1309-1310  return value *)
Definition field_140 (value : str) (record : recview) : M dval := ret (DStr value).

(* src/arinc424/decoder.py:1314-1315  return value *)
Definition field_141 (value : str) (record : recview) : M dval := ret (DStr value).

(* src/arinc424/decoder.py:1319-1320  return value *)
Definition field_142 (value : str) (record : recview) : M dval := ret (DStr value).

(* src/arinc424/decoder.py:1324-1325  return value *)
Definition field_143 (value : str) (record : recview) : M dval := ret (DStr value).

(* src/arinc424/decoder.py:1329-1330  return value *)
Definition field_144 (value : str) (record : recview) : M dval := ret (DStr value).

(* src/arinc424/decoder.py:1334-1335  return value *)
Definition field_145 (value : str) (record : recview) : M dval := ret (DStr value).

(* src/arinc424/decoder.py:1339-1340  return value *)
Definition field_146 (value : str) (record : recview) : M dval := ret (DStr value).

(* src/arinc424/decoder.py:1344-1345  return value.lstrip('0') + " ft" if value.isnumeric() else value *)
Definition field_147 (value : str) (record : recview) : M dval :=
  ret (DStr (if isnumeric value then lstrip0 value ++ lit " ft" else value)).

(* src/arinc424/decoder.py:1349-1350  return value *)
Definition field_148 (value : str) (record : recview) : M dval := ret (DStr value).

(* src/arinc424/decoder.py:1354-1355  return value *)
Definition field_149 (value : str) (record : recview) : M dval := ret (DStr value).

(* src/arinc424/decoder.py:1359-1360  return value *)
Definition field_150 (value : str) (record : recview) : M dval := ret (DStr value).

(* src/arinc424/decoder.py:1364-1365  return value *)
Definition field_151 (value : str) (record : recview) : M dval := ret (DStr value).

(* src/arinc424/decoder.py:1369-1370  return value *)
Definition field_152 (value : str) (record : recview) : M dval := ret (DStr value).

(* src/arinc424/decoder.py:1374-1375  return value *)
Definition field_153 (value : str) (record : recview) : M dval := ret (DStr value).

(* src/arinc424/decoder.py:1379-1380  return value *)
Definition field_154 (value : str) (record : recview) : M dval := ret (DStr value).

(* src/arinc424/decoder.py:1384-1385  return value *)
Definition field_155 (value : str) (record : recview) : M dval := ret (DStr value).

(* src/arinc424/decoder.py:1389-1390  return value *)
Definition field_156 (value : str) (record : recview) : M dval := ret (DStr value).

(* src/arinc424/decoder.py:1394-1395  return value *)
Definition field_157 (value : str) (record : recview) : M dval := ret (DStr value).

(* src/arinc424/decoder.py:1399-1400  return value *)
Definition field_158 (value : str) (record : recview) : M dval := ret (DStr value).

(* src/arinc424/decoder.py:1404-1405  return value *)
Definition field_159 (value : str) (record : recview) : M dval := ret (DStr value).

(* src/arinc424/decoder.py:1409-1410  return value *)
Definition field_160 (value : str) (record : recview) : M dval := ret (DStr value).

(* src/arinc424/decoder.py:1414-1415  return value.lstrip('0') + " ft" if value.isnumeric() else value *)
Definition field_161 (value : str) (record : recview) : M dval :=
  ret (DStr (if isnumeric value then lstrip0 value ++ lit " ft" else value)).

(* src/arinc424/decoder.py:1419-1420  return value *)
Definition field_162 (value : str) (record : recview) : M dval := ret (DStr value).

(* src/arinc424/decoder.py:1424-1425  return value *)
Definition field_163 (value : str) (record : recview) : M dval := ret (DStr value).

(* src/arinc424/decoder.py:1429-1430  return value *)
Definition field_164 (value : str) (record : recview) : M dval := ret (DStr value).

(* src/arinc424/decoder.py:1444-1445  return value *)
Definition field_166 (value : str) (record : recview) : M dval := ret (DStr value).

(* src/arinc424/decoder.py:1449-1450  return value *)
Definition field_167 (value : str) (record : recview) : M dval := ret (DStr value).

(* src/arinc424/decoder.py:1455-1456  return value *)
Definition field_168 (value : str) (record : recview) : M dval := ret (DStr value).

(* src/arinc424/decoder.py:1460-1461  return value *)
Definition field_169 (value : str) (record : recview) : M dval := ret (DStr value).

(* src/arinc424/decoder.py:1465-1466  return value *)
Definition field_170 (value : str) (record : recview) : M dval := ret (DStr value).

(* src/arinc424/decoder.py:1470-1471  return value *)
Definition field_171 (value : str) (record : recview) : M dval := ret (DStr value).

(* src/arinc424/decoder.py:1475-1476  return value *)
Definition field_172 (value : str) (record : recview) : M dval := ret (DStr value).

(* src/arinc424/decoder.py:1480-1481  return value *)
Definition field_173 (value : str) (record : recview) : M dval := ret (DStr value).

(* src/arinc424/decoder.py:1485-1486  return value *)
Definition field_174 (value : str) (record : recview) : M dval := ret (DStr value).

(* src/arinc424/decoder.py:1490-1491  return value *)
Definition field_175 (value : str) (record : recview) : M dval := ret (DStr value).

(* src/arinc424/decoder.py:1495-1496  return value *)
Definition field_176 (value : str) (record : recview) : M dval := ret (DStr value).

(* src/arinc424/decoder.py:1534-1535  return value *)
Definition field_180 (value : str) (record : recview) : M dval := ret (DStr value).

(* src/arinc424/decoder.py:1560-1561  return value *)
Definition field_183 (value : str) (record : recview) : M dval := ret (DStr value).

(* src/arinc424/decoder.py:1565-1566  return value.lstrip('0') + " ft" if value.isnumeric() else value *)
Definition field_184 (value : str) (record : recview) : M dval :=
  ret (DStr (if isnumeric value then lstrip0 value ++ lit " ft" else value)).

(* src/arinc424/decoder.py:1570-1571  return value *)
Definition field_185 (value : str) (record : recview) : M dval := ret (DStr value).

(* src/arinc424/decoder.py:1575-1576  return value *)
Definition field_186 (value : str) (record : recview) : M dval := ret (DStr value).

(* src/arinc424/decoder.py:1580-1581  return value *)
Definition field_187 (value : str) (record : recview) : M dval := ret (DStr value).

(* src/arinc424/decoder.py:1585-1586  return value *)
Definition field_188 (value : str) (record : recview) : M dval := ret (DStr value).

(* src/arinc424/decoder.py:1590-1591  return value *)
Definition field_189 (value : str) (record : recview) : M dval := ret (DStr value).

(* src/arinc424/decoder.py:1595-1596  return value *)
Definition field_190 (value : str) (record : recview) : M dval := ret (DStr value).

(* src/arinc424/decoder.py:1600-1601  return value *)
Definition field_191 (value : str) (record : recview) : M dval := ret (DStr value).

(* src/arinc424/decoder.py:1605-1606  return value *)
Definition field_192 (value : str) (record : recview) : M dval := ret (DStr value).

(* src/arinc424/decoder.py:1610-1611  return value *)
Definition field_193 (value : str) (record : recview) : M dval := ret (DStr value).

(* src/arinc424/decoder.py:1615-1616  return value *)
Definition field_194 (value : str) (record : recview) : M dval := ret (DStr value).

(* src/arinc424/decoder.py:1620-1621  return value *)
Definition field_195 (value : str) (record : recview) : M dval := ret (DStr value).

(* src/arinc424/decoder.py:1665-1666  return value *)
Definition field_197 (value : str) (record : recview) : M dval := ret (DStr value).

(* src/arinc424/decoder.py:1693-1694  return value *)
Definition field_200 (value : str) (record : recview) : M dval := ret (DStr value).

(* src/arinc424/decoder.py:1698-1699  return value *)
Definition field_201 (value : str) (record : recview) : M dval := ret (DStr value).

(* src/arinc424/decoder.py:1703-1704  return value *)
Definition field_202 (value : str) (record : recview) : M dval := ret (DStr value).

(* src/arinc424/decoder.py:1708-1709  return value *)
Definition field_203 (value : str) (record : recview) : M dval := ret (DStr value).

(* src/arinc424/decoder.py:1713-1714  return value *)
Definition field_204 (value : str) (record : recview) : M dval := ret (DStr value).

(* src/arinc424/decoder.py:1718-1719  return value *)
Definition field_205 (value : str) (record : recview) : M dval := ret (DStr value).

(* src/arinc424/decoder.py:1723-1724  return value *)
Definition field_206 (value : str) (record : recview) : M dval := ret (DStr value).

(* src/arinc424/decoder.py:1728-1729  return value *)
Definition field_207 (value : str) (record : recview) : M dval := ret (DStr value).

(* src/arinc424/decoder.py:1733-1734  return value *)
Definition field_208 (value : str) (record : recview) : M dval := ret (DStr value).

(* src/arinc424/decoder.py:1738-1739  return value.lstrip('0') + " ft" if value.isnumeric() else value *)
Definition field_209 (value : str) (record : recview) : M dval :=
  ret (DStr (if isnumeric value then lstrip0 value ++ lit " ft" else value)).

(* src/arinc424/decoder.py:1743-1744  return value *)
Definition field_210 (value : str) (record : recview) : M dval := ret (DStr value).

(* src/arinc424/decoder.py:1748-1749  return value *)
Definition field_211 (value : str) (record : recview) : M dval := ret (DStr value).

(* src/arinc424/decoder.py:1753-1754  return value *)
Definition field_212 (value : str) (record : recview) : M dval := ret (DStr value).

(* src/arinc424/decoder.py:1758-1759  return value *)
Definition field_213 (value : str) (record : recview) : M dval := ret (DStr value).

(* src/arinc424/decoder.py:1763-1764  return value *)
Definition field_214 (value : str) (record : recview) : M dval := ret (DStr value).

(* src/arinc424/decoder.py:1768-1769  return value *)
Definition field_215 (value : str) (record : recview) : M dval := ret (DStr value).

(* src/arinc424/decoder.py:1773-1774  return value *)
Definition field_216 (value : str) (record : recview) : M dval := ret (DStr value).

(* src/arinc424/decoder.py:1778-1779  return value *)
Definition field_217 (value : str) (record : recview) : M dval := ret (DStr value).

(* src/arinc424/decoder.py:1783-1784  return value *)
Definition field_218 (value : str) (record : recview) : M dval := ret (DStr value).

(* src/arinc424/decoder.py:1788-1789  return value *)
Definition field_219 (value : str) (record : recview) : M dval := ret (DStr value).

(* src/arinc424/decoder.py:1793-1794  return value *)
Definition field_220 (value : str) (record : recview) : M dval := ret (DStr value).

(* src/arinc424/decoder.py:1798-1799  return value *)
Definition field_221 (value : str) (record : recview) : M dval := ret (DStr value).

(* src/arinc424/decoder.py:1803-1804  return value *)
Definition field_222 (value : str) (record : recview) : M dval := ret (DStr value).

(* src/arinc424/decoder.py:1808-1809  return value *)
Definition field_223 (value : str) (record : recview) : M dval := ret (DStr value).

(* src/arinc424/decoder.py:1813-1814  return value *)
Definition field_224 (value : str) (record : recview) : M dval := ret (DStr value).

(* src/arinc424/decoder.py:1818-1819  return value *)
Definition field_225 (value : str) (record : recview) : M dval := ret (DStr value).

(* src/arinc424/decoder.py:1823-1824  return value *)
Definition field_226 (value : str) (record : recview) : M dval := ret (DStr value).

(* src/arinc424/decoder.py:1828-1829  return value *)
Definition field_227 (value : str) (record : recview) : M dval := ret (DStr value).

(* src/arinc424/decoder.py:1833-1834  return value *)
Definition field_228 (value : str) (record : recview) : M dval := ret (DStr value).

(* src/arinc424/decoder.py:1838-1839  return value *)
Definition field_229 (value : str) (record : recview) : M dval := ret (DStr value).

(* src/arinc424/decoder.py:1843-1844  return value *)
Definition field_230 (value : str) (record : recview) : M dval := ret (DStr value).

(* src/arinc424/decoder.py:1848-1849  return value *)
Definition field_231 (value : str) (record : recview) : M dval := ret (DStr value).

(* src/arinc424/decoder.py:1853-1854  return value *)
Definition field_232 (value : str) (record : recview) : M dval := ret (DStr value).

(* src/arinc424/decoder.py:1858-1859  return value *)
Definition field_233 (value : str) (record : recview) : M dval := ret (DStr value).

(* src/arinc424/decoder.py:1863-1864  return value *)
Definition field_234 (value : str) (record : recview) : M dval := ret (DStr value).

(* src/arinc424/decoder.py:1868-1869  return value *)
Definition field_235 (value : str) (record : recview) : M dval := ret (DStr value).

(* src/arinc424/decoder.py:1873-1874  return value *)
Definition field_236 (value : str) (record : recview) : M dval := ret (DStr value).

(* src/arinc424/decoder.py:1878-1879  return value *)
Definition field_237 (value : str) (record : recview) : M dval := ret (DStr value).

(* src/arinc424/decoder.py:1883-1884  return value *)
Definition field_238 (value : str) (record : recview) : M dval := ret (DStr value).

(* src/arinc424/decoder.py:1888-1889  return value *)
Definition field_239 (value : str) (record : recview) : M dval := ret (DStr value).

(* src/arinc424/decoder.py:1893-1894  return value.lstrip('0') + " ft" if value.isnumeric() else value *)
Definition field_240 (value : str) (record : recview) : M dval :=
  ret (DStr (if isnumeric value then lstrip0 value ++ lit " ft" else value)).

(* src/arinc424/decoder.py:1898-1899  return value *)
Definition field_241 (value : str) (record : recview) : M dval := ret (DStr value).

(* src/arinc424/decoder.py:1903-1904  return value *)
Definition field_242 (value : str) (record : recview) : M dval := ret (DStr value).

(* src/arinc424/decoder.py:1908-1909  return value *)
Definition field_243 (value : str) (record : recview) : M dval := ret (DStr value).

(* src/arinc424/decoder.py:1913-1914  return value *)
Definition field_244 (value : str) (record : recview) : M dval := ret (DStr value).

(* src/arinc424/decoder.py:1918-1919  return value *)
Definition field_245 (value : str) (record : recview) : M dval := ret (DStr value).

(* src/arinc424/decoder.py:1923-1924  return value *)
Definition field_246 (value : str) (record : recview) : M dval := ret (DStr value).

(* src/arinc424/decoder.py:1928-1929  return value *)
Definition field_247 (value : str) (record : recview) : M dval := ret (DStr value).

(* src/arinc424/decoder.py:1933-1934  return value *)
Definition field_248 (value : str) (record : recview) : M dval := ret (DStr value).

(* src/arinc424/decoder.py:1938-1939  return value *)
Definition field_249 (value : str) (record : recview) : M dval := ret (DStr value).

(* src/arinc424/decoder.py:1943-1944  return value *)
Definition field_250 (value : str) (record : recview) : M dval := ret (DStr value).

(* src/arinc424/decoder.py:1948-1949  return value *)
Definition field_251 (value : str) (record : recview) : M dval := ret (DStr value).

(* src/arinc424/decoder.py:1953-1954  return value *)
Definition field_252 (value : str) (record : recview) : M dval := ret (DStr value).

(* src/arinc424/decoder.py:1958-1959  return value *)
Definition field_253 (value : str) (record : recview) : M dval := ret (DStr value).

(* src/arinc424/decoder.py:1963-1964  return value *)
Definition field_254 (value : str) (record : recview) : M dval := ret (DStr value).

(* src/arinc424/decoder.py:1968-1969  return value *)
Definition field_255 (value : str) (record : recview) : M dval := ret (DStr value).

(* src/arinc424/decoder.py:1973-1974  return value *)
Definition field_256 (value : str) (record : recview) : M dval := ret (DStr value).

(* src/arinc424/decoder.py:1978-1979  return value *)
Definition field_257 (value : str) (record : recview) : M dval := ret (DStr value).

(* src/arinc424/decoder.py:1983-1984  return value *)
Definition field_258 (value : str) (record : recview) : M dval := ret (DStr value).

(* src/arinc424/decoder.py:1988-1989  return value *)
Definition field_259 (value : str) (record : recview) : M dval := ret (DStr value).

(* src/arinc424/decoder.py:1993-1994  return value *)
Definition field_260 (value : str) (record : recview) : M dval := ret (DStr value).

(* src/arinc424/decoder.py:1998-1999  return value *)
Definition field_261 (value : str) (record : recview) : M dval := ret (DStr value).

(* src/arinc424/decoder.py:2003-2004  return value *)
Definition field_262 (value : str) (record : recview) : M dval := ret (DStr value).

(* src/arinc424/decoder.py:2008-2009  return value *)
Definition field_263 (value : str) (record : recview) : M dval := ret (DStr value).

(* src/arinc424/decoder.py:2013-2014  return value *)
Definition field_264 (value : str) (record : recview) : M dval := ret (DStr value).

(* src/arinc424/decoder.py:2018-2019  return value *)
Definition field_265 (value : str) (record : recview) : M dval := ret (DStr value).

(* src/arinc424/decoder.py:2023-2024  return value *)
Definition field_266 (value : str) (record : recview) : M dval := ret (DStr value).

(* src/arinc424/decoder.py:2028-2029  return value *)
Definition field_267 (value : str) (record : recview) : M dval := ret (DStr value).

(* src/arinc424/decoder.py:2033-2034  return value *)
Definition field_268 (value : str) (record : recview) : M dval := ret (DStr value).

(* src/arinc424/decoder.py:2062-2063  return value *)
Definition field_271 (value : str) (record : recview) : M dval := ret (DStr value).

(* src/arinc424/decoder.py:2067-2068  return value *)
Definition field_272 (value : str) (record : recview) : M dval := ret (DStr value).

(* src/arinc424/decoder.py:2072-2073  return value *)
Definition field_273 (value : str) (record : recview) : M dval := ret (DStr value).

(* src/arinc424/decoder.py:2077-2078  return value *)
Definition field_274 (value : str) (record : recview) : M dval := ret (DStr value).

(* src/arinc424/decoder.py:2082-2083  return value *)
Definition field_275 (value : str) (record : recview) : M dval := ret (DStr value).

(* src/arinc424/decoder.py:2087-2088  return value *)
Definition field_276 (value : str) (record : recview) : M dval := ret (DStr value).
