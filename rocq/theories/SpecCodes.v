(* GENERATED by tools/codes.py.  The code lists of the fields: code and meaning. *)
From Coq Require Import List String.
From Verif Require Import Decoder.
Import ListNotations.
Open Scope string_scope.
Open Scope list_scope.

(* 5.2 Record Type *)
Definition codes_002 : list (string * string) := [
  ("S", "Standard");
  ("T", "Tailored")].

(* 5.3 Customer / Area Code *)
Definition codes_003 : list (string * string) := [
  ("USA", "United States of America");
  ("AFR", "Africa");
  ("CAN", "Canada");
  ("EEU", "Eastern Europe and Asia");
  ("EUR", "Europe");
  ("LAM", "Latin America");
  ("MES", "Middle East");
  ("PAC", "Pacific");
  ("SAM", "Southern America");
  ("SPA", "South Pacific")].

(* 5.4 & 5.5 Section Code & Subsection Code *)
Definition codes_004 : list (string * string) := [
  ("AS", "Grid MORA");
  ("D ", "VHF Navaid");
  ("DB", "NDB Navaid");
  ("EA", "Waypoint");
  ("EM", "Airways Marker");
  ("EP", "Holding Pattern");
  ("ER", "Airways and Route");
  ("ET", "Preferred Route");
  ("EU", "Airway Restrictions");
  ("EV", "Enroute Communication");
  ("HA", "Heliport Pads");
  ("HC", "Heliport Terminal Waypoint");
  ("HD", "Heliport SID");
  ("HE", "Heliport STAR");
  ("HF", "Heliport Approach Procedure");
  ("HK", "Heliport TAA");
  ("HS", "Heliport MSA");
  ("HV", "Heliport Communication");
  ("PA", "Airport Reference Point");
  ("PB", "Airport Gates");
  ("PC", "Airport Terminal Waypoint");
  ("PD", "Airport SID");
  ("PE", "Airport STAR");
  ("PF", "Airport Approach Procedure");
  ("PG", "Airport Runway");
  ("PI", "Airport Localizer/Glideslope");
  ("PK", "Airport TAA");
  ("PL", "Airport MLS");
  ("PM", "Airport Localizer Marker");
  ("PN", "Airport Terminal");
  ("PP", "Airport Path");
  ("PR", "Airport Flt Planning ARR/DEP");
  ("PS", "Airport MSA");
  ("PT", "Airport GLS Station");
  ("PV", "Airport Communication");
  ("R ", "Company Route");
  ("RA", "Alternate Record");
  ("TC", "Cruising Table");
  ("TG", "Geographical Reference");
  ("TN", "RNAV Name Table");
  ("UC", "Controller Airspace");
  ("UF", "Airspace FIR/UIR");
  ("UR", "Restrictive Airspace")].

(* 5.16 Continuation Record Number (CONT NR) *)
Definition codes_016 : list (string * string) := [
  ("0", "Primary Record");
  ("1", "Primary Record (with Cont.)")].

(* 5.20 Turn Direction (TURN DIR) *)
Definition codes_020 : list (string * string) := [
  ("R", "Right");
  ("L", "Left");
  ("E", "Either");
  (" ", "Either")].

(* 5.49 Localizer/Azimuth Position Reference (@, +, -) *)
Definition codes_049 : list (string * string) := [
  ("@", "Beyond stop end of runway");
  ("+", "Ahead of approach end of runway");
  ("-", "To the side of runway")].

(* 5.91 Continuation Record Application Type (APPL) *)
Definition codes_091 : list (string * string) := [
  ("A", "Standard ARINC Continuation containing notes or other formatted data");
  ("B", "Combined Controlling Agency/Call Sign and formatted Time of Operation");
  ("C", "Call Sign/Controlling Agency Continuation");
  ("E", "Primary Record Extension");
  ("L", "VHF Navaid Limitation Continuation");
  ("N", "Sector Narrative Continuation");
  ("T", "Time of Operations Continuation ""formatted time data""");
  ("U", "Time of Operations Continuation ""Narrative time data""");
  ("V", "Time of Operations Continuation, Start/End Date");
  ("P", "Flight Planning Application Continuation");
  ("Q", "Flight Planning Application Primary Data Continuation");
  ("S", "Simulation Application Continuation");
  ("W", "Airport or Heliport Procedure Data Continuation with SBAS use authorization information")].

(* 5.101 Communications Type (COMM TYPE) *)
Definition codes_101 : list (string * string) := [
  ("ACC", "Area Control Center");
  ("ACP", "Airlift Command Post");
  ("AIR", "Air to Air");
  ("APP", "Approach Control");
  ("ARR", "Arrival Control");
  ("ASO", "Automatic Surface Observing System (ASOS)");
  ("ATI", "Automatic Terminal Info Service (ATIS)");
  ("AWI", "Airport Weather Information Broadcast (AWIB)");
  ("AWO", "Automatic Weather Observing Service (AWOS)");
  ("AWS", "Aerodrome Weather Information Services (AWIS)");
  ("CLD", "Clearance Delivery");
  ("CPT", "Clearance, Pre-Taxi");
  ("CTA", "Control Area (Terminal)");
  ("CTL", "Control");
  ("DEP", "Departure Control");
  ("DIR", "Director (Approach Control Radar)");
  ("EFS", "Enroute Flight Advisory Service (EFAS)");
  ("EMR", "Emergency");
  ("FSS", "Flight Service Station");
  ("GCO", "Ground Comm Outlet");
  ("GND", "Ground Control");
  ("GTE", "Gate Control");
  ("HEL", "Helicopter Frequency");
  ("INF", "Information");
  ("MIL", "Military Frequency");
  ("MUL", "Multicom");
  ("OPS", "Operations");
  ("PAL", "Pilot Activated Lighting (Note 1)");
  ("RDO", "Radio");
  ("RDR", "Radar");
  ("RFS", "Remote Flight Service Station (RFSS)");
  ("RMP", "Ramp/Taxi Control");
  ("RSA", "Airport Radar Service Area (ARSA)");
  ("TCA", "Terminal Control Area");
  ("TMA", "Terminal Control Area");
  ("TML", "Terminal");
  ("TRS", "Terminal Radar Service Area (TRSA)");
  ("TWE", "Transcribe Weather Broadcast (TWEB)");
  ("TWR", "Tower, Air Traffic Control");
  ("UAC", "Upper Area Control");
  ("UNI", "Unicom");
  ("VOL", "Volmet")].

(* 5.102 Radar (RADAR) *)
Definition codes_102 : list (string * string) := [
  ("R", "Radar Capabilities");
  ("N", "No Radar Capabilities")].

(* 5.104 Frequency Units (FREQ UNIT) *)
Definition codes_104 : list (string * string) := [
  ("H", "High Frequency (3000 kHz - 30,000 kHz)");
  ("V", "Very High Frequency (30,000 kHz - 200 MHz)");
  ("U", "Ultra High Frequency (200 MHz - 3000 MHz)");
  ("C", "Communication Channel for 8.33 kHz spacing")].

(* 5.106 Service Indicator (SER IND) *)
Definition codes_106 : list (string * string) := [
  ("A  ", "Airport Advisory Serivce (AAS)");
  ("C  ", "Community Aerodrome Radio Station (CARS)");
  ("D  ", "Departure Service (Other than Departure Control Unit)");
  ("F  ", "Flight Information Serivce (FIS)");
  ("I  ", "Initial Contact (IC)");
  ("L  ", "Arrival Service (Other than Arrival Control Unit)");
  ("P  ", "Pre-Departure Clearance (Data Link Service)");
  ("S  ", "Aerodrome Flight Information Service (AFIS)");
  ("T  ", "Terminal Area Control (Other than dedicated Terminal Control Unit)");
  (" A ", "Aerodrome Traffic Frequency (ATF)");
  (" C ", "Common Traffic Advisory Frequency (CTAF)");
  (" M ", "Mandatory Frequency (MF) ");
  (" R ", "Air/Air");
  (" S ", "Secondary Frequency");
  ("  A", "Air/Ground");
  ("  D", "VHF Direction Finding Service (VDF)");
  ("  G", "Remote Communications Air to Ground (RCAG)");
  ("  L", "Language other than English");
  ("  M", "Military Use Frequency");
  ("  P", "Pilot Controlled Light (PCL)");
  ("  R", "Remote Communications Outlet (RCO)")].

(* 5.108 IFR Capability (IFR) *)
Definition codes_108 : list (string * string) := [
  ("Y", "Official");
  ("N", "Non-official")].

(* 5.112 Marker Shape (SHAPE) *)
Definition codes_112 : list (string * string) := [
  ("E", "Elliptical");
  ("B", "Bone")].

(* 5.113 High/Low (HIGH/LOW) *)
Definition codes_113 : list (string * string) := [
  ("H", "High Power (general use)");
  ("L", "Low Power (low altitude use)")].

(* 5.117 FIR/UIR Indicator (IND) *)
Definition codes_117 : list (string * string) := [
  ("F", "FIR");
  ("U", "UIR");
  ("B", "Combined FIR/UIR")].

(* 5.165 Magnetic/True Indicator (M/T IND) *)
Definition codes_165 : list (string * string) := [
  ("M", "Magnetic");
  ("T", "True")].

(* 5.177 Public/Military Indicator (PUB/MIL) *)
Definition codes_177 : list (string * string) := [
  ("C", "Public / Civil");
  ("M", "Military");
  ("P", "Private (not open to public)")].

(* 5.179 Daylight Time Indicator (DAY TIME) *)
Definition codes_179 : list (string * string) := [
  ("Y", "Yes");
  ("N", "No")].

(* 5.181 H24 Indicator (H24) *)
Definition codes_181 : list (string * string) := [
  ("Y", "24-Hour Availability");
  ("N", "Part-time Availability")].

(* 5.182 Guard/Transmit (G/T) *)
Definition codes_182 : list (string * string) := [
  ("G", "Guard (radio receives on this freq)");
  ("T", "Transmit (radio transmits on this freq)");
  (" ", "Guards and Transmits")].

(* 5.198 Modulation (MODULN) *)
Definition codes_198 : list (string * string) := [
  ("A", "Amplitude Modulated");
  ("F", "Frequency Modulated")].

(* 5.199 Signal Emission (SIG EM) *)
Definition codes_199 : list (string * string) := [
  ("3", "Double Sideband (A3) ");
  ("A", "Single sideband, reduced carrier (A3A) ");
  ("B", "Two Independent sidebands (A3B)");
  ("H", "Single sideband, full carrier (A3H) ");
  ("J", "Single sideband, suppressed carrier (A3J)");
  ("L", "Lower (single) sideband, carrier unknown");
  ("U", "Upper (single) sideband, carrier unknown")].

(* 5.270 TCH Value Indicator (TCHVI) *)
Definition codes_270 : list (string * string) := [
  ("I", "ILS or MLS Glideslope");
  ("R", "RNAV Procedure");
  ("V", "Visual Glideslope Indicator (VGSI)");
  ("D", "Default Value (40 or 50 feet)")].

(* 5.21 Path and Termination (PATH TERM) *)
Definition codes_021 : list (string * string) := [
  ("IF", "Initial Fix or IF Leg.");
  ("TF", "Track to a Fix or TF Leg.");
  ("CF", "Course to a Fix or CF Leg.");
  ("DF", "Direct to a Fix or DF Leg.");
  ("FA", "Fix to an Altitude or FA Leg.");
  ("FC", "Track from a Fix for a Distance or FC Leg.");
  ("FD", "Track from a Fix to a DME Distance or FD Leg.");
  ("FM", "From a Fix to a Manual termination or FM Leg.");
  ("CA", "Course to an Altitude or CA Leg.");
  ("CD", "Course to a DME Distance or CD Leg.");
  ("CI", "Course to an Intercept or CI Leg.");
  ("CR", "Course to a Radial termination or CR Leg.");
  ("RF", "Constant Radius Arc or RF Leg.");
  ("AF", "Arc to a Fix or AF Leg.");
  ("VA", "Heading to an Altitude termination or VA Leg.");
  ("VD", "Heading to a DME Distance termination or VD Leg.");
  ("VI", "Heading to an Intercept or VI Leg.");
  ("VM", "Heading to a Manual termination or VM Leg.");
  ("VR", "Heading to a Radial termination or VR Leg.");
  ("PI", "045/180 Procedure Turn or PI Leg.");
  ("HA", "Holding pattern (Altitude Termination)");
  ("HF", "Holding pattern (Single circuit terminating at the fix)");
  ("HM", "Holding pattern (Manual Termination)")].

(* 5.7 Route Type, sections ER *)
Definition codes_007_ER : list (string * string) := [
  ("A", "Airline Airway (Tailored Data)");
  ("C", "Control");
  ("D", "Direct Route");
  ("H", "Helicopter Airways");
  ("O", "Officially Designated Airways");
  ("R", "RNAV Airways");
  ("S", "Undesignated ATS Route")].

(* 5.7 Route Type, sections ET *)
Definition codes_007_ET : list (string * string) := [
  ("C", "North American Routes for North Atlantic Traffic Common Portion");
  ("D", "Preferential Routes");
  ("J", "Pacific Oceanic Transition Routes (PACOTS)");
  ("M", "RNAV Airways");
  ("N", "Undesignated ATS Route")].

(* 5.7 Route Type, sections PD, HD *)
Definition codes_007_PD : list (string * string) := [
  ("0", "Engine Out SID");
  ("1", "SID Runway Transition");
  ("2", "SID or SID Common Route");
  ("3", "SID Enroute Transition");
  ("4", "RNAV SID Runway Transition");
  ("5", "RNAV SID or SID Common Route");
  ("6", "RNAV SID Enroute Transition");
  ("F", "FMS SID Runway Transition");
  ("M", "FMS SID or SID Common Route");
  ("S", "FMS SID Enroute Transition");
  ("R", "RNP SID Runway Transition");
  ("N", "RNP SID or SID Common Route");
  ("P", "RNP SID Enroute Transition");
  ("T", "Vector SID Runway Transition");
  ("V", "Vector SID Enroute Transition")].

(* 5.7 Route Type, sections PE, HE *)
Definition codes_007_PE : list (string * string) := [
  ("1", "STAR Enroute Transition");
  ("2", "STAR or STAR Common Route");
  ("3", "STAR Runway Transition");
  ("4", "RNAV STAR Enroute Transition");
  ("5", "RNAV STAR or STAR Common Route");
  ("6", "RNAV STAR Runway Transition");
  ("7", "Profile Descent Enroute Transition");
  ("8", "Profile Descent Common Route");
  ("9", "Profile Descent Runway Transition");
  ("F", "FMS STAR Enroute Transition");
  ("M", "FMS STAR or STAR Common Route");
  ("S", "FMS STAR Runway Transition");
  ("R", "RNP STAR Enroute Transition");
  ("N", "RNP STAR or STAR Common Route");
  ("P", "RNP STAR Runway Transition")].

(* 5.7 Route Type, sections PF, HF *)
Definition codes_007_PF : list (string * string) := [
  ("A", "Approach Transition");
  ("B", "Localizer/Backcourse Approach");
  ("D", "VORDME Approach");
  ("F", "Flight Management System (FMS) Approach");
  ("G", "Instrument Guidance System (IGS) Approach");
  ("H", "Area Navigation (RNAV) Approach with Required Navigation Performance (RNP) Approach");
  ("I", "Instrument Landing System (ILS) Approach");
  ("J", "GNSS Landing System (GLS) Approach");
  ("L", "Localizer Only (LOC) Approach");
  ("M", "Microwave Landing System (MLS) Approach");
  ("N", "Non-Directional Beacon (NDB) Approach");
  ("P", "Global Position System (GPS) Approach");
  ("Q", "Non-Directional Beacon + DME (NDB+DME) Approach");
  ("R", "Area Navigation (RNAV) Approach (Note 1)");
  ("S", "VOR Approach using VORDME/VORTAC");
  ("T", "TACAN Approach");
  ("U", "Simplified Directional Facility (SDF) Approach");
  ("V", "VOR Approach");
  ("W", "Microwave Landing System (MLS), Type A Approach");
  ("X", "Localizer Directional Aid (LDA) Approach");
  ("Y", "Microwave Landing System (MLS), Type B and C Approach");
  ("Z", "Missed Approach")].

Definition route_types : list (list string * list (string * string)) := [
  (["ER"], codes_007_ER);
  (["ET"], codes_007_ET);
  (["PD"; "HD"], codes_007_PD);
  (["PE"; "HE"], codes_007_PE);
  (["PF"; "HF"], codes_007_PF)].

(* 5.17 Waypoint Description Code (DESC CODE), column 1 *)
Definition codes_017_1 : list (string * string) := [
  ("A", "Airport as Waypoint");
  ("E", "Essential Waypoint");
  ("F", "Off Airway Waypoint");
  ("G", "Runway/Helipad as Waypoint");
  ("H", "Heliport as Waypoint");
  ("N", "NDB Navaid as Waypoint");
  ("P", "Phantom Waypoint");
  ("R", "Non-Essential Waypoint");
  ("T", "Transition Essential Waypoint");
  ("V", "VHF Navaid as Waypoint")].

(* 5.17 Waypoint Description Code (DESC CODE), column 2 *)
Definition codes_017_2 : list (string * string) := [
  ("B", "Flyover Waypoint: End of SID/STAR Route Type, APCH Transition or Final Approach");
  ("E", "End of Enroute Airway or Terminal Procedure Route Type");
  ("U", "Uncharted Airway Intersection");
  ("Y", "Fly-Over Waypoint")].

(* 5.17 Waypoint Description Code (DESC CODE), column 3 *)
Definition codes_017_3 : list (string * string) := [
  ("A", "Unnamed Stepdown Fix After Final Approach Fix");
  ("B", "Unnamed Stepdown Fix Before Final Approach Fix");
  ("C", "ATC Compulsory Waypoint");
  ("G", "Oceanic Gateway Waypoint");
  ("M", "First Leg of Missed Approach Procedure");
  ("P", "Path Point Fix");
  ("R", "Fix used for turning final approach");
  ("S", "Named Stepdown Fix")].

(* 5.17 Waypoint Description Code (DESC CODE), column 4 *)
Definition codes_017_4 : list (string * string) := [
  ("A", "Initial Approach Fix");
  ("B", "Intermediate Approach Fix");
  ("C", "Initial Approach Fix with Holding");
  ("D", "Initial Approach Fix with Final Approach Course Fix");
  ("E", "Final End Point Fix");
  ("F", "Published Final Approach Fix or Database Final Approach Fix");
  ("H", "Holding Fix");
  ("I", "Final Approach Course Fix");
  ("M", "Published Missed Approach Point Fix")].

(* 5.42 Waypoint Type (TYPE), column 1 *)
Definition codes_042_1 : list (string * string) := [
  ("C", "Combined Named Intersection and RNAV");
  ("I", "Unnamed, Charted Intersection");
  ("R", "Named Intersection");
  ("U", "Uncharted Airway Intersection");
  ("V", "VFR Waypoint");
  ("W", "RNAV Waypoint")].

(* 5.42 Waypoint Type (TYPE), column 2 *)
Definition codes_042_2 : list (string * string) := [
  ("A", "Final Approach Fix");
  ("B", "Initial and Final Approach Fix");
  ("C", "Final Approach Course Fix");
  ("D", "Intermediate Approach Fix");
  ("E", "Off-Route intersection in FAA National Reference System");
  ("F", "Off-Route Intersection");
  ("I", "Initial Approach Fix");
  ("K", "Final Approach Course Fix at Initial Approach Fix");
  ("L", "Final Approach Course Fix at Intermediate Approach Fix");
  ("M", "Missed Approach Fix");
  ("N", "Initial Approach Fix and Missed Approach Fix");
  ("O", "Oceanic Entry/Exit Waypoint");
  ("P", "Pitch and Catch Point in the FAA High Altitude Redesign");
  ("S", "AACAA and SUA Waypoints in the FAA High Altitude Redesign");
  ("U", "FIR/UIR or Controlled Airspace Intersection");
  ("V", "Latitude/Longitude Intersection, Full Degree of Latitude");
  ("W", "Latitude/Longitude Intersection, Half Degree of Latitude")].

(* 5.196 Name Format Indicator (NAME IND), column 1 *)
Definition codes_196_1 : list (string * string) := [
  ("A", "Abeam Fix");
  ("B", "Bearing and Distance Fix ");
  ("D", "Airport Name as Fix");
  ("F", "FIR Fix");
  ("H", "Phonetic Letter Name Fix");
  ("I", "Airport Ident as Fix");
  ("L", "Latitude/Longitude Fix ");
  ("M", "Multiple Word Name Fix");
  ("N", "Navaid Ident as Fix");
  ("P", "Published Five - Letter - Name - Fix");
  ("Q", "Published Name Fix, less than five letters");
  ("R", "Published Name Fix, more than five letters");
  ("T", "Airport/Rwy Related Fix (Note 2)");
  ("U", "UIR Fix")].

(* 5.196 Name Format Indicator (NAME IND), column 2 *)
Definition codes_196_2 : list (string * string) := [
  ("O", "Localizer Marker with officially published five - letter identifier");
  ("M", "Localizer Marker without officially published five - letter identifier")].

(* 5.118 Boundary Via (BDRY VIA), column 1 *)
Definition codes_118_1 : list (string * string) := [
  ("C", "Circle");
  ("G", "Great Circle");
  ("H", "Rhumb Line");
  ("L", "Counter Clockwise ARC");
  ("R", "Clockwise ARC")].

(* paragraphs whose fields are shown as they stand *)
Definition shown_as_is : list fn := [
  F006; F011; F013; F014; F018; F019; F028; F031; F033; F035; F036; F037; F038; F040; F041; F044; F046;
  F047; F051; F052; F055; F056; F057; F058; F059; F060; F061; F063; F064; F066; F067; F068; F069; F070;
  F071; F074; F075; F076; F077; F078; F079; F080; F081; F083; F084; F085; F087; F088; F089; F090; F093;
  F094; F095; F096; F097; F098; F099; F100; F105; F107; F109; F110; F111; F114; F115; F116; F119; F120;
  F121; F122; F124; F125; F126; F128; F129; F130; F131; F132; F133; F134; F136; F137; F138; F139; F140;
  F141; F142; F143; F144; F145; F146; F148; F149; F150; F151; F152; F153; F154; F155; F156; F157; F158;
  F159; F160; F162; F163; F164; F166; F167; F168; F169; F170; F171; F172; F173; F174; F175; F176; F180;
  F183; F185; F186; F187; F188; F189; F190; F191; F192; F193; F194; F195; F197; F200; F201; F202; F203;
  F204; F205; F206; F207; F208; F210; F211; F212; F213; F214; F215; F216; F217; F218; F219; F220; F221;
  F222; F223; F224; F225; F226; F227; F228; F229; F230; F231; F232; F233; F234; F235; F236; F237; F238;
  F239; F241; F242; F243; F244; F245; F246; F247; F248; F249; F250; F251; F252; F253; F254; F255; F256;
  F257; F258; F259; F260; F261; F262; F263; F264; F265; F266; F267; F268; F271; F272; F273; F274; F275;
  F276].

(* altitudes, elevations and distances in feet *)
Definition altitude_fns : list fn := [
  F029; F030; F048; F050; F053; F073; F086; F092; F123; F127; F147; F161; F184; F209; F240].
