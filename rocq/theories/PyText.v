(* GENERATED by tools/pytext.py: the text of the files in /repo/src/arinc424, one string per line, a double quote written
   twice.  A file whose last character is a newline has an empty last line here. *)
From Coq Require Import List String.
Import ListNotations.
Local Open Scope string_scope.

(* src/arinc424/decoder.py *)
Definition text_decoder : list string := [
"from collections import defaultdict";
"import io";
"import string";
"";
"";
"class Field():";
"";
"  def __init__(self, name, value, decode_fn):";
"    self.name = name";
"    self.value = value";
"    self.decode_fn = decode_fn";
"";
"  def decode(self, record):";
"    return self.decode_fn(self.value, record)";
"";
"";
"# This file decodes fields within records based on";
"# Chapter 5 - Field Definitions";
"";
"def def_val():";
"  return ""<UNKNOWN>""";
"";
"";
"# 5.2 Record Type";
"def field_002(value, record):";
"  if value == 'S':";
"    return 'Standard'";
"  elif value == 'T':";
"    return 'Tailored'";
"  else:";
"    raise ValueError(""Invalid Record Type"", value)";
"";
"";
"# 5.3 Customer / Area Code";
"def field_003(value, record):";
"  match value:";
"    case 'USA':";
"      return 'United States of America'";
"    case 'AFR':";
"      return 'Africa'";
"    case 'CAN':";
"      return 'Canada'";
"    case 'EEU':";
"      return 'Eastern Europe and Asia'";
"    case 'EUR':";
"      return 'Europe'";
"    case 'LAM':";
"      return 'Latin America'";
"    case 'MES':";
"      return 'Middle East'";
"    case 'PAC':";
"      return 'Pacific'";
"    case 'SAM':";
"      return 'Southern America'";
"    case 'SPA':";
"      return 'South Pacific'";
"    case _:";
"      return '<UNKNOWN>'";
"";
"";
"# 5.4 & 5.5 Section Code & Subsection Code";
"def field_004(value, record):";
"  if (value.strip() == ''):";
"    return value";
"  sections = defaultdict(def_val)";
"  sections['AS'] = 'Grid MORA'";
"  sections['D '] = 'VHF Navaid'";
"  sections['DB'] = 'NDB Navaid'";
"  sections['EA'] = 'Waypoint'";
"  sections['EM'] = 'Airways Marker'";
"  sections['EP'] = 'Holding Pattern'";
"  sections['ER'] = 'Airways and Route'";
"  sections['ET'] = 'Preferred Route'";
"  sections['EU'] = 'Airway Restrictions'";
"  sections['EV'] = 'Enroute Communication'";
"  sections['HA'] = 'Heliport Pads'";
"  sections['HC'] = 'Heliport Terminal Waypoint'";
"  sections['HD'] = 'Heliport SID'";
"  sections['HE'] = 'Heliport STAR'";
"  sections['HF'] = 'Heliport Approach Procedure'";
"  sections['HK'] = 'Heliport TAA'";
"  sections['HS'] = 'Heliport MSA'";
"  sections['HV'] = 'Heliport Communication'";
"  sections['PA'] = 'Airport Reference Point'";
"  sections['PB'] = 'Airport Gates'";
"  sections['PC'] = 'Airport Terminal Waypoint'";
"  sections['PD'] = 'Airport SID'";
"  sections['PE'] = 'Airport STAR'";
"  sections['PF'] = 'Airport Approach Procedure'";
"  sections['PG'] = 'Airport Runway'";
"  sections['PI'] = 'Airport Localizer/Glideslope'";
"  sections['PK'] = 'Airport TAA'";
"  sections['PL'] = 'Airport MLS'";
"  sections['PM'] = 'Airport Localizer Marker'";
"  sections['PN'] = 'Airport Terminal'";
"  sections['PP'] = 'Airport Path'";
"  sections['PR'] = 'Airport Flt Planning ARR/DEP'";
"  sections['PS'] = 'Airport MSA'";
"  sections['PT'] = 'Airport GLS Station'";
"  sections['PV'] = 'Airport Communication'";
"  sections['R '] = 'Company Route'";
"  sections['RA'] = 'Alternate Record'";
"  sections['TC'] = 'Cruising Table'";
"  sections['TG'] = 'Geographical Reference'";
"  sections['TN'] = 'RNAV Name Table'";
"  sections['UC'] = 'Controller Airspace'";
"  sections['UF'] = 'Airspace FIR/UIR'";
"  sections['UR'] = 'Restrictive Airspace'";
"  return sections[value]";
"";
"";
"# 5.6 Airport/Heliport Identifier (ARPT/HELI IDENT)";
"def field_006(value, record):";
"  return value";
"";
"";
"# 5.7 Route Type";
"def field_007(value, record):";
"  d = defaultdict(def_val)";
"  if record.ident == 'ER':";
"    # Enroute Airway Records (ER)";
"    d['A'] = 'Airline Airway (Tailored Data)'";
"    d['C'] = 'Control'";
"    d['D'] = 'Direct Route'";
"    d['H'] = 'Helicopter Airways'";
"    d['O'] = 'Officially Designated Airways'";
"    d['R'] = 'RNAV Airways'";
"    d['S'] = 'Undesignated ATS Route'";
"  elif record.ident == 'ET':";
"    # Preferred Route Records (ET)";
"    d['C'] = 'North American Routes for North Atlantic Traffic Common Portion'";
"    d['D'] = 'Preferential Routes'";
"    d['J'] = 'Pacific Oceanic Transition Routes (PACOTS)'";
"    d['M'] = 'RNAV Airways'";
"    d['N'] = 'Undesignated ATS Route'";
"  elif record.ident == 'PD' or record.ident == 'HD':";
"    # Airport SID (PD) and Heliport SID (HD) Records";
"    d['0'] = 'Engine Out SID'";
"    d['1'] = 'SID Runway Transition'";
"    d['2'] = 'SID or SID Common Route'";
"    d['3'] = 'SID Enroute Transition'";
"    d['4'] = 'RNAV SID Runway Transition'";
"    d['5'] = 'RNAV SID or SID Common Route'";
"    d['6'] = 'RNAV SID Enroute Transition'";
"    d['F'] = 'FMS SID Runway Transition'";
"    d['M'] = 'FMS SID or SID Common Route'";
"    d['S'] = 'FMS SID Enroute Transition'";
"    d['R'] = 'RNP SID Runway Transition'";
"    d['N'] = 'RNP SID or SID Common Route'";
"    d['P'] = 'RNP SID Enroute Transition'";
"    d['T'] = 'Vector SID Runway Transition'";
"    d['V'] = 'Vector SID Enroute Transition'";
"  elif record.ident == 'PE' or record.ident == 'HE':";
"    # Airport STAR (PE) and Heliport STAR (HE) Records";
"    d['1'] = 'STAR Enroute Transition'";
"    d['2'] = 'STAR or STAR Common Route'";
"    d['3'] = 'STAR Runway Transition'";
"    d['4'] = 'RNAV STAR Enroute Transition'";
"    d['5'] = 'RNAV STAR or STAR Common Route'";
"    d['6'] = 'RNAV STAR Runway Transition'";
"    d['7'] = 'Profile Descent Enroute Transition'";
"    d['8'] = 'Profile Descent Common Route'";
"    d['9'] = 'Profile Descent Runway Transition'";
"    d['F'] = 'FMS STAR Enroute Transition'";
"    d['M'] = 'FMS STAR or STAR Common Route'";
"    d['S'] = 'FMS STAR Runway Transition'";
"    d['R'] = 'RNP STAR Enroute Transition'";
"    d['N'] = 'RNP STAR or STAR Common Route'";
"    d['P'] = 'RNP STAR Runway Transition'";
"  elif record.ident == 'PF' or record.ident == 'HF':";
"    # Airport Approach (PF) and Heliport Approach (HF) Records";
"    d['A'] = 'Approach Transition'";
"    d['B'] = 'Localizer/Backcourse Approach'";
"    d['D'] = 'VORDME Approach'";
"    d['F'] = 'Flight Management System (FMS) Approach'";
"    d['G'] = 'Instrument Guidance System (IGS) Approach'";
"    d['H'] = 'Area Navigation (RNAV) Approach with Required Navigation Performance (RNP) Approach'";
"    d['I'] = 'Instrument Landing System (ILS) Approach'";
"    d['J'] = 'GNSS Landing System (GLS) Approach'";
"    d['L'] = 'Localizer Only (LOC) Approach'";
"    d['M'] = 'Microwave Landing System (MLS) Approach'";
"    d['N'] = 'Non-Directional Beacon (NDB) Approach'";
"    d['P'] = 'Global Position System (GPS) Approach'";
"    d['Q'] = 'Non-Directional Beacon + DME (NDB+DME) Approach'";
"    d['R'] = 'Area Navigation (RNAV) Approach (Note 1)'";
"    d['S'] = 'VOR Approach using VORDME/VORTAC'";
"    d['T'] = 'TACAN Approach'";
"    d['U'] = 'Simplified Directional Facility (SDF) Approach'";
"    d['V'] = 'VOR Approach'";
"    d['W'] = 'Microwave Landing System (MLS), Type A Approach'";
"    d['X'] = 'Localizer Directional Aid (LDA) Approach'";
"    d['Y'] = 'Microwave Landing System (MLS), Type B and C Approach'";
"    d['Z'] = 'Missed Approach'";
"  return d[value] if d[value] != ""bad value"" else value + "" - BAD VALUE""";
"";
"";
"# 5.8 Route Identifier (ROUTE IDENT)";
"def field_008(value, record):";
"  if value.strip().isalnum():";
"    return value";
"  else:";
"    raise ValueError(""Route Identifier not alphanumeric"", value)";
"";
"";
"# 5.9 SID/STAR Route Identifier (SID/STAR IDENT)";
"def field_009(value, record):";
"  if value.strip().isalnum():";
"    return value";
"";
"";
"# 5.10 Approach Route Identifier (APPROACH IDENT)";
"def field_010(value, record):";
"  return f""Approach: {value[0]}, Runway: {value[1:4]}""";
"";
"";
"# 5.11 Transition Identifier (TRANS IDENT)";
"def field_011(value, record):";
"  return value";
"";
"";
"# 5.12 Sequence Number (SEQ NR)";
"def field_012(value, record):";
"  match len(value.strip()):";
"    case 1:";
"      return f'MSA Table, TAA Table, Cruise Table - Sequence No. {value}'";
"    case 2:";
"      return f'VHF Navaid Limitation Continuation Records - Sequence No. {value}'";
"    case 3:";
"      return f'SID/STAR/Approach and Company Routes - Sequence No. {value}'";
"    case 4:";
"      return f'Enroute Airways, Preferred Routes, FIR/UIR, and Restrictive Airspace - Sequence No. {value}'";
"    case _:";
"      return value";
"";
"# 5.13 Fix Identifier (FIX IDENT)";
"def field_013(value, record):";
"  return value";
"";
"";
"# 5.14 ICAO Code (ICAO CODE)";
"def field_014(value, record):";
"  return value";
"";
"";
"# 5.16 Continuation Record Number (CONT NR)";
"def field_016(value, record):";
"  match value:";
"    case '0':";
"      return 'Primary Record'";
"    case '1':";
"      return 'Primary Record (with Cont.)'";
"    case _:";
"      return str(value) + ' - Continuation'";
"";
"";
"# 5.17 Waypoint Description Code (DESC CODE)";
"def field_017(value: str, record):";
"  s = io.StringIO()";
"  match value[0]:";
"    case 'A':";
"      s.write('Airport as Waypoint\n')";
"    case 'E':";
"      s.write('Essential Waypoint\n')";
"    case 'F':";
"      s.write('Off Airway Waypoint\n')";
"    case 'G':";
"      s.write('Runway/Helipad as Waypoint\n')";
"    case 'H':";
"      s.write('Heliport as Waypoint\n')";
"    case 'N':";
"      s.write('NDB Navaid as Waypoint\n')";
"    case 'P':";
"      s.write('Phantom Waypoint\n')";
"    case 'R':";
"      s.write('Non-Essential Waypoint\n')";
"    case 'T':";
"      s.write('Transition Essential Waypoint\n')";
"    case 'V':";
"      s.write('VHF Navaid as Waypoint\n')";
"";
"  match value[1]:";
"    case 'B':";
"      s.write('Flyover Waypoint: End of SID/STAR Route Type, APCH Transition or Final Approach\n')";
"    case 'E':";
"      s.write('End of Enroute Airway or Terminal Procedure Route Type\n')";
"    case 'U':";
"      s.write('Uncharted Airway Intersection\n')";
"    case 'Y':";
"      s.write('Fly-Over Waypoint\n')";
"";
"  match value[2]:";
"    case 'A':";
"      s.write('Unnamed Stepdown Fix After Final Approach Fix\n')";
"    case 'B':";
"      s.write('Unnamed Stepdown Fix Before Final Approach Fix\n')";
"    case 'C':";
"      s.write('ATC Compulsory Waypoint\n')";
"    case 'G':";
"      s.write('Oceanic Gateway Waypoint\n')";
"    case 'M':";
"      s.write('First Leg of Missed Approach Procedure\n')";
"    case 'P':";
"      s.write('Path Point Fix\n')";
"    case 'R':";
"      s.write('Fix used for turning final approach\n')";
"    case 'S':";
"      s.write('Named Stepdown Fix\n')";
"";
"  match value[3]:";
"    case 'A':";
"      s.write('Initial Approach Fix\n')";
"    case 'B':";
"      s.write('Intermediate Approach Fix\n')";
"    case 'C':";
"      s.write('Initial Approach Fix with Holding\n')";
"    case 'D':";
"      s.write('Initial Approach Fix with Final Approach Course Fix\n')";
"    case 'E':";
"      s.write('Final End Point Fix\n')";
"    case 'F':";
"      s.write('Published Final Approach Fix or Database Final Approach Fix\n')";
"    case 'H':";
"      s.write('Holding Fix\n')";
"    case 'I':";
"      s.write('Final Approach Course Fix\n')";
"    case 'M':";
"      s.write('Published Missed Approach Point Fix\n')";
"";
"  return s.getvalue().strip()";
"";
"";
"# 5.18 Boundary Code (BDY CODE)";
"def field_018(value, record):";
"  return value";
"";
"";
"# 5.19 Level (LEVEL)";
"def field_019(value, record):";
"  return value";
"";
"";
"# 5.20 Turn Direction (TURN DIR)";
"def field_020(value, record):";
"  if value == 'R':";
"    return 'Right'";
"  elif value == 'L':";
"    return 'Left'";
"  # TODO check this";
"  elif value == 'E' or value == ' ':";
"    return 'Either'";
"  else:";
"    raise ValueError(""Invalid Turn Direction:"", value)";
"";
"";
"# 5.21 Path and Termination (PATH TERM)";
"LegTypeDesc = defaultdict(def_val)";
"LegTypeDesc['IF'] = 'Initial Fix or IF Leg.'";
"LegTypeDesc['TF'] = 'Track to a Fix or TF Leg.'";
"LegTypeDesc['CF'] = 'Course to a Fix or CF Leg.'";
"LegTypeDesc['DF'] = 'Direct to a Fix or DF Leg.'";
"LegTypeDesc['FA'] = 'Fix to an Altitude or FA Leg.'";
"LegTypeDesc['FC'] = 'Track from a Fix for a Distance or FC Leg.'";
"LegTypeDesc['FD'] = 'Track from a Fix to a DME Distance or FD Leg.'";
"LegTypeDesc['FM'] = 'From a Fix to a Manual termination or FM Leg.'";
"LegTypeDesc['CA'] = 'Course to an Altitude or CA Leg.'";
"LegTypeDesc['CD'] = 'Course to a DME Distance or CD Leg.'";
"LegTypeDesc['CI'] = 'Course to an Intercept or CI Leg.'";
"LegTypeDesc['CR'] = 'Course to a Radial termination or CR Leg.'";
"LegTypeDesc['RF'] = 'Constant Radius Arc or RF Leg.'";
"LegTypeDesc['AF'] = 'Arc to a Fix or AF Leg.'";
"LegTypeDesc['VA'] = 'Heading to an Altitude termination or VA Leg.'";
"LegTypeDesc['VD'] = 'Heading to a DME Distance termination or VD Leg.'";
"LegTypeDesc['VI'] = 'Heading to an Intercept or VI Leg.'";
"LegTypeDesc['VM'] = 'Heading to a Manual termination or VM Leg.'";
"LegTypeDesc['VR'] = 'Heading to a Radial termination or VR Leg.'";
"LegTypeDesc['PI'] = '045/180 Procedure Turn or PI Leg.'";
"LegTypeDesc['HA'] = 'Holding pattern (Altitude Termination)'";
"LegTypeDesc['HF'] = 'Holding pattern (Single circuit terminating at the fix)'";
"LegTypeDesc['HM'] = 'Holding pattern (Manual Termination)'";
"";
"def field_021(value: str, record):";
"  value = value.strip()";
"  if len(value) == 0:";
"    return value";
"";
"  if not value.isalpha():";
"    raise ValueError(""Invalid Path and Termination:"", value)";
"";
"  return LegTypeDesc[value]";
"";
"";
"# 5.22 Turn Direction Valid (TDV)";
"def field_022(value, record):";
"  value = value.strip()";
"  if len(value) > 0:";
"    if value.isalpha() is False:";
"      raise ValueError(""Invalid Turn Direction Valid (TDV):"", value)";
"  return value";
"";
"";
"# 5.23 Recommended NAVAID (RECD NAV)";
"def field_023(value, record):";
"  value = value.strip()";
"  if len(value) > 0:";
"    if value.isalnum() is False or len(value) > 4:";
"      raise ValueError(""Invalid Recommended NAVAID (RECD NAV):"", value)";
"  return value";
"";
"";
"# 5.24 Theta (THETA)";
"def field_024(value, record):";
"  value = value.strip()";
"  if len(value) > 0:";
"    if value.isalnum() is False or len(value) > 4:";
"      raise ValueError(""Invalid Theta:"", value)";
"  return value";
"";
"";
"# 5.25 Rho (RHO)";
"def field_025(value, record):";
"  value = value.strip()";
"  if len(value) > 0:";
"    if value.isalnum() is False or len(value) > 4:";
"      raise ValueError(""Invalid Rho:"", value)";
"  return value";
"";
"";
"# 5.26 Outbound Magnetic Course (OB MAG CRS)";
"def field_026(value, record):";
"  value = value.strip()";
"";
"  # Validate the value";
"  if len(value) == 0:";
"    return value";
"";
"  if value.isalnum() is False or len(value) > 4:";
"    raise ValueError('Invalid Outbound Magnetic Course', value)";
"";
"  # Handle the 'T' in the tenths position for degrees true";
"  if value.endswith('T'):";
"    return value";
"  else:";
"    return ""{:.1f}"".format(float(value) / 10)";
"";
"";
"# 5.27 Route Distance From, Holding Distance/Time (RTE DIST FROM, HOLD DIST/TIME)";
"def field_027(value, record):";
"  value = value.strip()";
"";
"  if len(value) > 0:";
"    if value[0] == 'T':";
"      return ""{:.1f} min"".format(float(value[1:]) / 10)";
"    else:";
"      return ""{:.1f} nm"".format(float(value) / 10)";
"";
"  return value";
"";
"";
"# 5.28 Inbound Magnetic Course (IB MAG CRS)";
"def field_028(value, record):";
"  return value";
"";
"";
"# 5.29 Altitude Description (ALT DESC)";
"def field_029(value, record):";
"  return value.lstrip('0') + "" ft"" if value.isnumeric() else value";
"";
"";
"# 5.30 Altitude/Minimum Altitude";
"def field_030(value, record):";
"  return value.lstrip('0') + "" ft"" if value.isnumeric() else value";
"";
"";
"# 5.31 File Record Number (FRN)";
"def field_031(value, record):";
"  return value";
"";
"";
"# 5.32 Cycle Date (CYCLE)";
"def field_032(value, record):";
"  year = ""19"" + value[:2] if int(value[:2]) > 50 else ""20"" + value[:2]";
"  return '{}, Release {}'.format(year, value[2:])";
"";
"";
"# 5.33 VOR/NDB Identifier (VOR IDENT/NDB IDENT)";
"def field_033(value, record):";
"  return value";
"";
"";
"# 5.34 VOR/NDB Frequency (VOR/NDB FREQ)";
"def field_034(value, record):";
"  value = value.strip()";
"  if len(value) > 0:";
"    if value.isnumeric() is False:";
"      print(f'Unsupported VOR/NDB Frequency: ""{value}""')";
"      print(f'from record type ""{record.ident}"": ""{record.raw}""')";
"      exit()";
"    else:";
"      return ""{:.2f}"".format(float(value)/100)";
"  return value";
"";
"";
"# 5.35 NAVAID Class (CLASS)";
"def field_035(value, record):";
"  # elif facility.contains(field):";
"  #   d = defaultdict(def_val)";
"  #   d['V'] = 'VOR'";
"  #   d[' '] = ''";
"  #   d['D'] = 'DME'";
"  #   d['T'] = 'TACAN'";
"  #   d['M'] = 'MIL TACAN'";
"  #   d['I'] = 'ILS/DME or ILS/TACAN'";
"  #   d['N'] = 'MLS/DME/N'";
"  #   d['P'] = 'MLS/DME/P'";
"  #   return ' '.join([d[val[0]], d[val[1]]]).strip()";
"  # elif power.contains(field):";
"  #   d = defaultdict(def_val)";
"  #   d['T'] = 'Terminal'";
"  #   d['L'] = 'Low Altitude'";
"  #   d['H'] = 'High Altitude'";
"  #   d['U'] = 'Undefined'";
"  #   d['C'] = 'ILS/TACAN'";
"  #   return str(d[val])";
"  # elif field == ""Class Info"":";
"  #   d = defaultdict(def_val)";
"  #   d['D'] = 'Biased ILS/DME or ILS/TACAN'";
"  #   d['A'] = 'Automatic Transcribed Weather Broadcast'";
"  #   d['B'] = 'Scheduled Weather Broadcast'";
"  #   d['W'] = 'No Voice on Frequency'";
"  #   d[' '] = 'Voice on Frequency'";
"  #   return str(d[val])";
"  # elif colloc.contains(field):";
"  #   collocation[' '] = 'Collocated Navaids'";
"  #   collocation['N'] = 'Non-Collocated Navaids'";
"  return value";
"";
"";
"# 5.36 Latitude (LATITUDE)";
"def field_036(value, record):";
"  return value";
"";
"";
"# 5.37 Longitude (LONGITUDE)";
"def field_037(value, record):";
"  return value";
"";
"";
"# 5.38 DME Identifier (DME IDENT)";
"def field_038(value, record):";
"  return value";
"";
"";
"# 5.39 Magnetic Variation (MAG VAR, D MAG VAR)";
"def field_039(value, record):";
"  return value if value.strip() == '' else ""{:03} {}"".format(int(value[1:]), value[0])";
"";
"";
"# 5.40 DME Elevation (DME ELEV)";
"def field_040(value, record):";
"  return value";
"";
"";
"# 5.41 Region Code (REGN CODE)";
"def field_041(value, record):";
"  return value";
"";
"";
"# 5.42 Waypoint Type (TYPE)";
"def field_042(value, record):";
"  match value[0]:";
"    case 'C':";
"      return ""Combined Named Intersection and RNAV""";
"    case 'I':";
"      return 'Unnamed, Charted Intersection'";
"    case 'N':";
"      return 'NDB Navaid as Waypoint' + value[1:]";
"    case 'R':";
"      return 'Named Intersection'";
"    case 'U':";
"      return 'Uncharted Airway Intersection'";
"    case 'V':";
"      return 'VFR Waypoint'";
"    case 'W':";
"      return 'RNAV Waypoint'";
"  match value[1]:";
"    case 'A':";
"      return 'Final Approach Fix'";
"    case 'B':";
"      return 'Initial and Final Approach Fix'";
"    case 'C':";
"      return 'Final Approach Course Fix'";
"    case 'D':";
"      return 'Intermediate Approach Fix'";
"    case 'E':";
"      return 'Off-Route intersection in FAA National Reference System'";
"    case 'F':";
"      return 'Off-Route Intersection'";
"    case 'I':";
"      return 'Initial Approach Fix'";
"    case 'K':";
"      return 'Final Approach Course Fix at Initial Approach Fix'";
"    case 'L':";
"      return 'Final Approach Course Fix at Intermediate Approach Fix'";
"    case 'M':";
"      return 'Missed Approach Fix'";
"    case 'N':";
"      return 'Initial Approach Fix and Missed Approach Fix'";
"    case 'O':";
"      return 'Oceanic Entry/Exit Waypoint'";
"    case 'P':";
"      return 'Pitch and Catch Point in the FAA High Altitude Redesign'";
"    case 'S':";
"      return 'AACAA and SUA Waypoints in the FAA High Altitude Redesign'";
"    case 'U':";
"      return 'FIR/UIR or Controlled Airspace Intersection'";
"    case 'V':";
"      return 'Latitude/Longitude Intersection, Full Degree of Latitude'";
"    case 'W':";
"      return 'Latitude/Longitude Intersection, Half Degree of Latitude'";
"    case _:";
"      return ""Unknown Waypoint Type""";
"";
"";
"# 5.43 Waypoint Name/Description (NAME/DESC)";
"def field_043(value, record):";
"  return value.strip()";
"";
"";
"# 5.44 Localizer/MLS/GLS Identifier (LOC, MLS, GLS IDENT)";
"def field_044(value, record):";
"  return value";
"";
"";
"# 5.45 Localizer Frequency (FREQ)";
"def field_045(value, record):";
"  if (value.isnumeric()):";
"    return ""{:.2f}"".format(float(value)/100)";
"  else:";
"    return ""BAD VALUE""";
"";
"";
"# 5.46 Runway Identifier (RUNWAY ID)";
"def field_046(value, record):";
"  return value";
"";
"";
"# 5.47 Localizer Bearing (LOC BRG)";
"def field_047(value, record):";
"  return value";
"";
"";
"# 5.48 Localizer Position (LOC FR RW END Azimuth/Back Azimuth Position (AZ/BAZ FR RWEND)";
"def field_048(value, record):";
"  return value.lstrip('0') + "" ft"" if value.isnumeric() else value";
"";
"";
"# 5.49 Localizer/Azimuth Position Reference (@, +, -)";
"def field_049(value, record):";
"  match value:";
"    case '@':";
"      return 'Beyond stop end of runway'";
"    case '+':";
"      return 'Ahead of approach end of runway'";
"    case '-':";
"      return 'To the side of runway'";
"    case _:";
"      return value";
"      # raise ValueError(f'Invalid Localizer Position Reference ""{value}""')";
"";
"";
"# 5.50 Glide Slope Position (GS FR RW THRES) Elevation Position (EL FR RW THRES)";
"def field_050(value, record):";
"  return value.lstrip('0') + "" ft"" if value.isnumeric() else value";
"";
"";
"# 5.51 Localizer Width (LOC WIDTH)";
"def field_051(value, record):";
"  return value";
"";
"";
"# 5.52 Glide Slope Angle (GS ANGLE) Minimum Elevation Angle (MIN ELEV ANGLE)";
"def field_052(value, record):";
"  return value";
"";
"";
"# 5.53 Transition Altitude/Level (TRANS ALTITUDE/LEVEL)";
"def field_053(value, record):";
"  return value.lstrip('0') + "" ft"" if value.isnumeric() else value";
"";
"";
"# 5.54 Longest Runway (LONGEST RWY)";
"def field_054(value, record):";
"  if value.isnumeric():";
"    return value.lstrip('0')+""00"" + "" ft""";
"  else:";
"    return value";
"";
"";
"# 5.55 Airport/Heliport Elevation (ELEV)";
"def field_055(value, record):";
"  return value";
"";
"";
"# 5.56 Gate Identifier (GATE IDENT)";
"def field_056(value, record):";
"  return value";
"";
"";
"# 5.57 Runway Length (RUNWAY LENGTH)";
"def field_057(value, record):";
"  return value";
"";
"";
"# 5.58 Runway Magnetic Bearing (RWY BRG)";
"def field_058(value, record):";
"  return value";
"";
"";
"# 5.59 Runway Description (RUNWAY DESCRIPTION)";
"def field_059(value, record):";
"  return value";
"";
"";
"# 5.60 Name (NAME)";
"def field_060(value, record):";
"  return value";
"";
"";
"# 5.61 Notes (Continuation Records) (NOTES)";
"def field_061(value, record):";
"  return value";
"";
"";
"# 5.62 Inbound Holding Course (IB HOLD CRS)";
"def field_062(value, record):";
"  if (value.isnumeric()):";
"    return float(value)/10";
"  else:";
"    return ""BAD VALUE""";
"";
"";
"# 5.63 Turn (TURN)";
"def field_063(value, record):";
"  return value";
"";
"";
"# 5.64 Leg Length (LEG LENGTH)";
"def field_064(value, record):";
"  return value";
"";
"";
"# 5.65 Leg Time (LEG TIME)";
"def field_065(value, record):";
"  if value.strip() == '':";
"    return";
"";
"  try:";
"    return '{}m {}s'.format(int(value[0]), int(value[1])*6)";
"  except (ValueError, IndexError) as e:";
"    print(f'Error: Invalid value passed to format_time. Value: ""{value}"". Error: {str(e)}')";
"    return f'Invalid Value: ""{value}""'";
"";
"";
"# 5.66 Station Declination (STN DEC)";
"def field_066(value, record):";
"  return value";
"";
"";
"# 5.67 Threshold Crossing Height (TCH)";
"def field_067(value, record):";
"  return value";
"";
"";
"# 5.68 Landing Threshold Elevation (LANDING THRES ELEV)";
"def field_068(value, record):";
"  return value";
"";
"";
"# 5.69 Threshold Displacement Distance (DSPLCD THR)";
"def field_069(value, record):";
"  return value";
"";
"";
"# 5.70 Vertical Angle (VERT ANGLE)";
"def field_070(value, record):";
"  return value";
"";
"";
"# 5.71 Name Field";
"def field_071(value, record):";
"  return value";
"";
"";
"# 5.72 Speed Limit (SPEED LIMIT)";
"def field_072(value, record):";
"  if value.isnumeric():";
"    return value + "" knots (IAS)""";
"  elif value.strip() == '':";
"    return value";
"  else:";
"    raise ValueError('Invalid speed' + value)";
"";
"";
"# 5.73 Speed Limit Altitude";
"def field_073(value, record):";
"  return value.lstrip('0') + "" ft"" if value.isnumeric() else value";
"";
"";
"# 5.74 Component Elevation (GS ELEV, EL ELEV, AZ ELEV, BAZ ELEV)";
"def field_074(value, record):";
"  return value";
"";
"";
"# 5.75 From/To - Airport/Fix";
"def field_075(value, record):";
"  return value";
"";
"";
"# 5.76 Company Route Ident";
"def field_076(value, record):";
"  return value";
"";
"";
"# 5.77 VIA Code";
"def field_077(value, record):";
"  return value";
"";
"";
"# 5.78 SID/STAR/App/AWY (S/S/A/AWY) SID/STAR/Awy (S/S/AWY)";
"def field_078(value, record):";
"  return value";
"";
"";
"# 5.79 Stopway";
"def field_079(value, record):";
"  return value";
"";
"";
"# 5.80 ILS/MLS/GLS Category (CAT)";
"def field_080(value, record):";
"  return value";
"";
"";
"# 5.81 ATC Indicator (ATC)";
"def field_081(value, record):";
"  return value";
"";
"";
"# 5.82 Waypoint Usage";
"def field_082(value, record):";
"  wp = ''";
"  if value[1] == 'B':";
"    wp = wp + 'HI and LO Altitude'";
"  elif value[1] == 'H':";
"    wp = wp + 'HI Altitude'";
"  elif value[1] == 'L':";
"    wp = wp + 'LO Altitude'";
"  elif value[1] == ' ':";
"    wp = wp + 'Terminal Use Only'";
"  elif value[0] == 'R':";
"    wp = wp + 'RNAV'";
"  else:";
"    raise ValueError(f""Invalid Waypoint Usage: '{value}'"")";
"  return wp";
"";
"";
"# 5.83 To FIX";
"def field_083(value, record):";
"  return value";
"";
"";
"# 5.84 RUNWAY TRANS";
"def field_084(value, record):";
"  return value";
"";
"";
"# 5.85 ENRT TRANS";
"def field_085(value, record):";
"  return value";
"";
"";
"# 5.86 Cruise Altitude";
"def field_086(value, record):";
"  return value.lstrip('0') + "" ft"" if value.isnumeric() else value";
"";
"";
"# 5.87 Terminal/Alternate Airport (TERM/ALT ARPT)";
"def field_087(value, record):";
"  return value";
"";
"";
"# 5.88 Alternate Distance (ALT DIST)";
"def field_088(value, record):";
"  return value";
"";
"";
"# 5.89 Cost Index";
"def field_089(value, record):";
"  return value";
"";
"";
"# 5.90 ILS/DME Bias";
"def field_090(value, record):";
"  return value";
"";
"";
"# 5.91 Continuation Record Application Type (APPL)";
"def field_091(value, record):";
"  match value:";
"    case 'A':";
"      return 'Standard ARINC Continuation containing notes or other formatted data'";
"    case 'B':";
"      return 'Combined Controlling Agency/Call Sign and formatted Time of Operation'";
"    case 'C':";
"      return 'Call Sign/Controlling Agency Continuation'";
"    case 'E':";
"      return 'Primary Record Extension'";
"    case 'L':";
"      return 'VHF Navaid Limitation Continuation'";
"    case 'N':";
"      return 'Sector Narrative Continuation'";
"    case 'T':";
"      return 'Time of Operations Continuation ""formatted time data""'";
"    case 'U':";
"      return 'Time of Operations Continuation ""Narrative time data""'";
"    case 'V':";
"      return 'Time of Operations Continuation, Start/End Date'";
"    case 'P':";
"      return 'Flight Planning Application Continuation'";
"    case 'Q':";
"      return 'Flight Planning Application Primary Data Continuation'";
"    case 'S':";
"      return 'Simulation Application Continuation'";
"    case 'W':";
"      return 'Airport or Heliport Procedure Data Continuation with SBAS use authorization information'";
"    case _:";
"      return 'Unknown Application Type: ' + str(value)";
"";
"";
"# 5.92 Elevation (FAC ELEV)";
"def field_092(value, record):";
"  return value.lstrip('0') + "" ft"" if value.isnumeric() else value";
"";
"";
"# 5.93 Facility Characteristics (FAC CHAR)";
"def field_093(value, record):";
"  return value";
"";
"";
"# 5.94 True Bearing (TRUE BRG)";
"def field_094(value, record):";
"  return value";
"";
"";
"# 5.95 Government Source (SOURCE)";
"def field_095(value, record):";
"  return value";
"";
"";
"# 5.96 Glide Slope Beam Width (GS BEAM WIDTH)";
"def field_096(value, record):";
"  return value";
"";
"";
"# 5.97 Touchdown Zone Elevation (TDZE)";
"def field_097(value, record):";
"  return value";
"";
"";
"# 5.98 ‘TDZE Location (LOCATION)";
"def field_098(value, record):";
"  return value";
"";
"";
"# 5.99 Marker Type (MKR TYPE)";
"def field_099(value, record):";
"  return value";
"";
"";
"# 5.100 Minor Axis Bearing (MINOR AXIS TRUE BRG)";
"def field_100(value, record):";
"  return value";
"";
"";
"# 5.101 Communications Type (COMM TYPE)";
"def field_101(value, record):";
"  d = defaultdict(def_val)";
"  d['ACC'] = 'Area Control Center'";
"  d['ACP'] = 'Airlift Command Post'";
"  d['AIR'] = 'Air to Air'";
"  d['APP'] = 'Approach Control'";
"  d['ARR'] = 'Arrival Control'";
"  d['ASO'] = 'Automatic Surface Observing System (ASOS)'";
"  d['ATI'] = 'Automatic Terminal Info Service (ATIS)'";
"  d['AWI'] = 'Airport Weather Information Broadcast (AWIB)'";
"  d['AWO'] = 'Automatic Weather Observing Service (AWOS)'";
"  d['AWS'] = 'Aerodrome Weather Information Services (AWIS)'";
"  d['CLD'] = 'Clearance Delivery'";
"  d['CPT'] = 'Clearance, Pre-Taxi'";
"  d['CTA'] = 'Control Area (Terminal)'";
"  d['CTL'] = 'Control'";
"  d['DEP'] = 'Departure Control'";
"  d['DIR'] = 'Director (Approach Control Radar)'";
"  d['EFS'] = 'Enroute Flight Advisory Service (EFAS)'";
"  d['EMR'] = 'Emergency'";
"  d['FSS'] = 'Flight Service Station'";
"  d['GCO'] = 'Ground Comm Outlet'";
"  d['GND'] = 'Ground Control'";
"  d['GTE'] = 'Gate Control'";
"  d['HEL'] = 'Helicopter Frequency'";
"  d['INF'] = 'Information'";
"  d['MIL'] = 'Military Frequency'";
"  d['MUL'] = 'Multicom'";
"  d['OPS'] = 'Operations'";
"  d['PAL'] = 'Pilot Activated Lighting (Note 1)'";
"  d['RDO'] = 'Radio'";
"  d['RDR'] = 'Radar'";
"  d['RFS'] = 'Remote Flight Service Station (RFSS)'";
"  d['RMP'] = 'Ramp/Taxi Control'";
"  d['RSA'] = 'Airport Radar Service Area (ARSA)'";
"  d['TCA'] = 'Terminal Control Area'";
"  d['TMA'] = 'Terminal Control Area'";
"  d['TML'] = 'Terminal'";
"  d['TRS'] = 'Terminal Radar Service Area (TRSA)'";
"  d['TWE'] = 'Transcribe Weather Broadcast (TWEB)'";
"  d['TWR'] = 'Tower, Air Traffic Control'";
"  d['UAC'] = 'Upper Area Control'";
"  d['UNI'] = 'Unicom'";
"  d['VOL'] = 'Volmet'";
"  return d[value] if d[value] != ""bad value"" else value + ""BAD VALUE""";
"";
"";
"# 5.102 Radar (RADAR)";
"def field_102(value, record):";
"  match value:";
"    case 'R':";
"      return 'Radar Capabilities'";
"    case 'N':";
"      return 'No Radar Capabilities'";
"    case _:";
"      return value";
"";
"";
"# 5.103 ‘Communications Frequency (COMM FREQ)";
"def field_103(value, record):";
"  if (value.isnumeric()):";
"    return ""{:.2f}"".format(float(value)/100)";
"  else:";
"    return ""BAD VALUE""";
"";
"";
"# 5.104 Frequency Units (FREQ UNIT)";
"def field_104(value, record):";
"  d = defaultdict(def_val)";
"  d['H'] = 'High Frequency (3000 kHz - 30,000 kHz)'";
"  d['V'] = 'Very High Frequency (30,000 kHz - 200 MHz)'";
"  d['U'] = 'Ultra High Frequency (200 MHz - 3000 MHz)'";
"  d['C'] = 'Communication Channel for 8.33 kHz spacing'";
"  return d[value] if d[value] != ""bad value"" else value + ""BAD VALUE""";
"";
"";
"# 5.105 Call Sign (CALL SIGN)";
"def field_105(value, record):";
"  return value";
"";
"";
"# 5.106 Service Indicator (SER IND)";
"def field_106(value, record):";
"  if (value.strip() == ''):";
"    return value";
"  sections = defaultdict(def_val)";
"  sections['A  '] = 'Airport Advisory Serivce (AAS)'";
"  sections['C  '] = 'Community Aerodrome Radio Station (CARS)'";
"  sections['D  '] = 'Departure Service (Other than Departure Control Unit)'";
"  sections['F  '] = 'Flight Information Serivce (FIS)'";
"  sections['I  '] = 'Initial Contact (IC)'";
"  sections['L  '] = 'Arrival Service (Other than Arrival Control Unit)'";
"  sections['P  '] = 'Pre-Departure Clearance (Data Link Service)'";
"  sections['S  '] = 'Aerodrome Flight Information Service (AFIS)'";
"  sections['T  '] = 'Terminal Area Control (Other than dedicated Terminal Control Unit)'";
"  sections[' A '] = 'Aerodrome Traffic Frequency (ATF)'";
"  sections[' C '] = 'Common Traffic Advisory Frequency (CTAF)'";
"  sections[' M '] = 'Mandatory Frequency (MF) '";
"  sections[' R '] = 'Air/Air'";
"  sections[' S '] = 'Secondary Frequency'";
"  sections['  A'] = 'Air/Ground'";
"  sections['  D'] = 'VHF Direction Finding Service (VDF)'";
"  sections['  G'] = 'Remote Communications Air to Ground (RCAG)'";
"  sections['  L'] = 'Language other than English'";
"  sections['  M'] = 'Military Use Frequency'";
"  sections['  P'] = 'Pilot Controlled Light (PCL)'";
"  sections['  R'] = 'Remote Communications Outlet (RCO)'";
"  return sections[value]";
"";
"";
"# 5.107 ATAMIATA Designator (ATA/IATA)";
"def field_107(value, record):";
"  return value";
"";
"";
"# 5.108 IFR Capability (IFR)";
"def field_108(value, record):";
"  match value:";
"    case 'Y':";
"      return 'Official'";
"    case 'N':";
"      return 'Non-official'";
"    case _:";
"      raise ValueError('Invalid IFR Capability')";
"";
"";
"# 5.109 Runway Width (WIDTH)";
"def field_109(value, record):";
"  return value";
"";
"";
"# 5.110 Marker Ident (MARKER IDENT)";
"def field_110(value, record):";
"  return value";
"";
"";
"# 5.111 Marker Code (MARKER CODE)";
"def field_111(value, record):";
"  return value";
"";
"";
"# 5.112 Marker Shape (SHAPE)";
"def field_112(value, record):";
"  match value:";
"    case 'E':";
"      return 'Elliptical'";
"    case 'B':";
"      return 'Bone'";
"    case _:";
"      return value";
"";
"";
"# 5.113 High/Low (HIGH/LOW)";
"def field_113(value, record):";
"  match value:";
"    case 'H':";
"      return 'High Power (general use)'";
"    case 'L':";
"      return 'Low Power (low altitude use)'";
"    case _:";
"      return value";
"";
"";
"# 5.114 Duplicate Identifier (DUP IND)";
"def field_114(value, record):";
"  return value";
"";
"";
"# 5.115 Direction Restriction";
"def field_115(value, record):";
"  return value";
"";
"";
"# 5.116 FIR/UIR Identifier (FIR/UIR IDENT)";
"def field_116(value, record):";
"  return value";
"";
"";
"# 5.117 FIR/UIR Indicator (IND)";
"def field_117(value, record):";
"  if value == 'F':";
"    return 'FIR'";
"  elif value == 'U':";
"    return 'UIR'";
"  elif value == 'B':";
"    return 'Combined FIR/UIR'";
"  else:";
"    return value";
"";
"";
"# 5.118 Boundary Via (BDRY VIA)";
"def field_118(value, record):";
"  s = ''";
"  match value[0]:";
"    case 'C':";
"      s += 'Circle'";
"    case 'G':";
"      s += 'Great Circle'";
"    case 'H':";
"      s += 'Rhumb Line'";
"    case 'L':";
"      s += 'Counter Clockwise ARC'";
"    case 'R':";
"      s += 'Clockwise ARC'";
"    case _:";
"      print(f'Unsupported Boundary Via: ""{value}""')";
"      return f'Unsupported Value: ""{value}""'";
"";
"  if value[1] == 'E':";
"    s += ', End of description, return to origin point'";
"";
"  return s";
"";
"";
"# 5.119 Arc Distance (ARC DIST)";
"def field_119(value, record):";
"  return value";
"";
"";
"# 5.120 ‘Arc Bearing (ARC BRG)";
"def field_120(value, record):";
"  return value";
"";
"";
"# 5.121 Lower/Upper Limit";
"def field_121(value, record):";
"  return value";
"";
"";
"# 5.122 FIR/UIR ATC Reporting Units Speed (RUS)";
"def field_122(value, record):";
"  return value";
"";
"";
"# 5.123 FIR/UIR ATC Reporting Units Altitude (RUA)";
"def field_123(value, record):";
"  return value.lstrip('0') + "" ft"" if value.isnumeric() else value";
"";
"";
"# 5.124 FIR/UIR Entry Report (ENTRY)";
"def field_124(value, record):";
"  return value";
"";
"";
"# 5.125 FIR/UIR Name";
"def field_125(value, record):";
"  return value";
"";
"";
"# 5.126 Restrictive Airspace Name";
"def field_126(value, record):";
"  return value";
"";
"";
"# 5.127 Maximum Altitude (MAX ALT)";
"def field_127(value, record):";
"  return value.lstrip('0') + "" ft"" if value.isnumeric() else value";
"";
"";
"# 5.128 Restrictive Airspace Type (REST TYPE)";
"def field_128(value, record):";
"  return value";
"";
"";
"# 5.129 Restrictive Airspace Designation";
"def field_129(value, record):";
"  return value";
"";
"";
"# 5.130 Multiple Code (MULTI CD)";
"def field_130(value, record):";
"  return value";
"";
"";
"# 5.131 Time Code (TIME CD)";
"def field_131(value, record):";
"  return value";
"";
"";
"# 5.132 NOTAM";
"def field_132(value, record):";
"  return value";
"";
"";
"# 5.133 Unit Indicator (UNIT IND)";
"def field_133(value, record):";
"  return value";
"";
"";
"# 5.134 Cruise Table Identifier (CRSE TBL IDENT)";
"def field_134(value, record):";
"  return value";
"";
"";
"# 5.135 Course FROM/TO.";
"def field_135(value, record):";
"  if (value.isnumeric()):";
"    return float(value)/10";
"  else:";
"    return ""BAD VALUE""";
"";
"";
"# 5.136 Cruise Level From/To";
"def field_136(value, record):";
"  return value";
"";
"";
"# 5.137 Vertical Separation";
"def field_137(value, record):";
"  return value";
"";
"";
"# 5.138 Time Indicator (TIME IND)";
"def field_138(value, record):";
"  return value";
"";
"";
"# 5.139 Intentionally Left Blank";
"def field_139(value, record):";
"  return value";
"";
"";
"# 5.140 Controlling Agency";
"def field_140(value, record):";
"  return value";
"";
"";
"# 5.141 Starting Latitude";
"def field_141(value, record):";
"  return value";
"";
"";
"# 5.142 Starting Longitude";
"def field_142(value, record):";
"  return value";
"";
"";
"# 5.143 Grid MORA,";
"def field_143(value, record):";
"  return value";
"";
"";
"# 5.144 Center Fix (CENTER FIX)";
"def field_144(value, record):";
"  return value";
"";
"";
"# 5.145 Radius Li";
"def field_145(value, record):";
"  return value";
"";
"";
"# 5.146 Sector Bearing (SEC BRG)";
"def field_146(value, record):";
"  return value";
"";
"";
"# 5.147 Sector Altitude (SEC ALT)";
"def field_147(value, record):";
"  return value.lstrip('0') + "" ft"" if value.isnumeric() else value";
"";
"";
"# 5.148 Enroute Alternate Airport (EAA)";
"def field_148(value, record):";
"  return value";
"";
"";
"# 5.149 Figure of Merit (MERIT)";
"def field_149(value, record):";
"  return value";
"";
"";
"# 5.150 Frequency Protection Distance (FREQ PRD)";
"def field_150(value, record):";
"  return value";
"";
"";
"# 5.151 FIR/UIR Address (ADDRESS)";
"def field_151(value, record):";
"  return value";
"";
"";
"# 5.152 Start/End Indicator (S/E IND)";
"def field_152(value, record):";
"  return value";
"";
"";
"# 5.153 Start/End Date";
"def field_153(value, record):";
"  return value";
"";
"";
"# 5.154 Restriction Identifier (REST IDENT)";
"def field_154(value, record):";
"  return value";
"";
"";
"# 5.155 Intentionally Left Blank";
"def field_155(value, record):";
"  return value";
"";
"";
"# 5.156 Intentionally Left Blank";
"def field_156(value, record):";
"  return value";
"";
"";
"# 5.157 Airway Restriction Start/End Date (START/END DATE)";
"def field_157(value, record):";
"  return value";
"";
"";
"# 5.158 Intentionally Left Blank";
"def field_158(value, record):";
"  return value";
"";
"";
"# 5.159 Intentionally Left Blank";
"def field_159(value, record):";
"  return value";
"";
"";
"# 5.160 Units of Altitude (UNIT IND)";
"def field_160(value, record):";
"  return value";
"";
"";
"# 5.161 Restriction Altitude (REST ALT)";
"def field_161(value, record):";
"  return value.lstrip('0') + "" ft"" if value.isnumeric() else value";
"";
"";
"# 5.162 Step Climb Indicator (STEP)";
"def field_162(value, record):";
"  return value";
"";
"";
"# 5.163 Restriction Notes";
"def field_163(value, record):";
"  return value";
"";
"";
"# 5.164 EU Indicator (EU IND)";
"def field_164(value, record):";
"  return value";
"";
"";
"# 5.165 Magnetic/True Indicator (M/T IND)";
"def field_165(value, record):";
"  if value == 'M':";
"    return 'Magnetic'";
"  elif value == 'T':";
"    return 'True'";
"  else:";
"    return value";
"";
"";
"# 5.166 Channel";
"def field_166(value, record):";
"  return value";
"";
"";
"# 5.167 MLS Azimuth Bearing (MLS AZ BRG) MLS Back Azimuth Bearing (MLS BAZ BRG)";
"def field_167(value, record):";
"  return value";
"";
"";
"# 5.168 Azimuth Proportional Angle Right/Left (AZ PRO RIGHT/LEFT)";
"# Back Azimuth Proportional Angle Right/Left (BAZ PRO RIGHT/LEFT)";
"def field_168(value, record):";
"  return value";
"";
"";
"# 5.169 Elevation Angle Span (EL ANGLE SPAN)";
"def field_169(value, record):";
"  return value";
"";
"";
"# 5.170 Decision Height (DH)";
"def field_170(value, record):";
"  return value";
"";
"";
"# 5.171 Minimum Descent Height (MDH)";
"def field_171(value, record):";
"  return value";
"";
"";
"# 5.172 Azimuth Coverage Sector Right/Left (AZ COV RIGHT/LEFT) Back Azimuth Coverage Sector Right/Left (BAZ COV RIGHT/LEFT)";
"def field_172(value, record):";
"  return value";
"";
"";
"# 5.173 Nominal Elevation Angle (NOM ELEV ANGLE)";
"def field_173(value, record):";
"  return value";
"";
"";
"# 5.174 Restrictive Airspace Link Continuation (LC)";
"def field_174(value, record):";
"  return value";
"";
"";
"# 5.175 Holding Speed (HOLD SPEED)";
"def field_175(value, record):";
"  return value";
"";
"";
"# 5.176 Pad Dimensions";
"def field_176(value, record):";
"  return value";
"";
"";
"# 5.177 Public/Military Indicator (PUB/MIL)";
"def field_177(value, record):";
"  match value:";
"    case 'C':";
"      return 'Public / Civil'";
"    case 'M':";
"      return 'Military'";
"    case 'P':";
"      return 'Private (not open to public)'";
"    case _:";
"      return f'Unsupported Value: ""{value}""'";
"";
"";
"# 5.178 Time Zone";
"def field_178(value, record):";
"  if value[0].isalpha() and value[1:].isnumeric():";
"    x = string.ascii_uppercase.index(value[0]) - 12";
"    y = 'GMT +' + str(x) if x >= 0 else 'GMT -' + str(x)";
"    return y + ':' + str(value[1:])";
"  else:";
"    return f'Unsupported Value: ""{value}""'";
"";
"";
"# 5.179 Daylight Time Indicator (DAY TIME)";
"def field_179(value, record):";
"  match value:";
"    case 'Y':";
"      return 'Yes'";
"    case 'N':";
"      return 'No'";
"    case _:";
"      return f'Unsupported Value: ""{value}""'";
"";
"";
"# 5.180 Pad Identifier (PAD IDENT)";
"def field_180(value, record):";
"  return value";
"";
"";
"# 5.181 H24 Indicator (H24)";
"def field_181(value, record):";
"  d = defaultdict(def_val)";
"  d['Y'] = '24-Hour Availability'";
"  d['N'] = 'Part-time Availability'";
"  return d[value] if d[value] != ""bad value"" else value + ""BAD VALUE""";
"";
"";
"# 5.182 Guard/Transmit (G/T)";
"def field_182(value, record):";
"  match value:";
"    case 'G':";
"      return ""Guard (radio receives on this freq)""";
"    case 'T':";
"      return ""Transmit (radio transmits on this freq)""";
"    case ' ':";
"      return ""Guards and Transmits""";
"    case _:";
"      raise ValueError(""bad guard/transmit"")";
"";
"";
"# 5.183 Sectorization (SECTOR)";
"def field_183(value, record):";
"  return value";
"";
"";
"# 5.184 Communication Altitude (COMM ALTITUDE)";
"def field_184(value, record):";
"  return value.lstrip('0') + "" ft"" if value.isnumeric() else value";
"";
"";
"# 5.185 Sector Facility (SEC FAC)";
"def field_185(value, record):";
"  return value";
"";
"";
"# 5.186 Narrative";
"def field_186(value, record):";
"  return value";
"";
"";
"# 5.187 Distance Description (DIST DESC)";
"def field_187(value, record):";
"  return value";
"";
"";
"# 5.188 Communications Distance (COMM DIST)";
"def field_188(value, record):";
"  return value";
"";
"";
"# 5.189 Remote Site Name";
"def field_189(value, record):";
"  return value";
"";
"";
"# 5.190 FIR/RDO Identifier (FIR/RDO)";
"def field_190(value, record):";
"  return value";
"";
"";
"# 5.191 Triad Stations (TRIAD STA)";
"def field_191(value, record):";
"  return value";
"";
"";
"# 5.192 Group Repetition Interval (GRI)";
"def field_192(value, record):";
"  return value";
"";
"";
"# 5.193 Additional Secondary Phase Factor (ASF)";
"def field_193(value, record):";
"  return value";
"";
"";
"# 5.194 Initial/Terminus Airport/Fix";
"def field_194(value, record):";
"  return value";
"";
"";
"# 5.195 Time of Operation";
"def field_195(value, record):";
"  return value";
"";
"";
"# 5.196 Name Format Indicator (NAME IND)";
"def field_196(value, record):";
"  match value[0]:";
"    case 'A':";
"      return 'Abeam Fix'";
"    case 'B':";
"      return 'Bearing and Distance Fix '";
"    case 'D':";
"      return 'Airport Name as Fix'";
"    case 'F':";
"      return 'FIR Fix'";
"    case 'H':";
"      return 'Phonetic Letter Name Fix'";
"    case 'I':";
"      return 'Airport Ident as Fix'";
"    case 'L':";
"      return 'Latitude/Longitude Fix '";
"    case 'M':";
"      return 'Multiple Word Name Fix'";
"    case 'N':";
"      return 'Navaid Ident as Fix'";
"    case 'P':";
"      return 'Published Five - Letter - Name - Fix'";
"    case 'Q':";
"      return 'Published Name Fix, less than five letters'";
"    case 'R':";
"      return 'Published Name Fix, more than five letters'";
"    case 'T':";
"      return 'Airport/Rwy Related Fix (Note 2)'";
"    case 'U':";
"      return 'UIR Fix'";
"  match value[1]:";
"    case 'O':";
"      return 'Localizer Marker with officially published five - letter identifier'";
"    case 'M':";
"      return 'Localizer Marker without officially published five - letter identifier'";
"    case _:";
"      return 'Unknown Name Format Indicator'";
"";
"";
"# 5.197 Datum Code (DATUM)";
"def field_197(value, record):";
"  return value";
"";
"";
"# 5.198 Modulation (MODULN)";
"def field_198(value, record):";
"  d = defaultdict(def_val)";
"  d['A'] = 'Amplitude Modulated'";
"  d['F'] = 'Frequency Modulated'";
"  return d[value] if d[value] != ""bad value"" else value + ""BAD VALUE""";
"";
"";
"# 5.199 Signal Emission (SIG EM)";
"def field_199(value, record):";
"  if value.strip() == '':";
"    return value";
"  d = defaultdict(def_val)";
"  d['3'] = 'Double Sideband (A3) '";
"  d['A'] = 'Single sideband, reduced carrier (A3A) '";
"  d['B'] = 'Two Independent sidebands (A3B)'";
"  d['H'] = 'Single sideband, full carrier (A3H) '";
"  d['J'] = 'Single sideband, suppressed carrier (A3J)'";
"  d['L'] = 'Lower (single) sideband, carrier unknown'";
"  d['U'] = 'Upper (single) sideband, carrier unknown'";
"  return d[value] if d[value] != ""bad value"" else value + ""BAD VALUE""";
"";
"";
"# 5.200 Remote Facility (REM FAC)";
"def field_200(value, record):";
"  return value";
"";
"";
"# 5.201 Restriction Record Type (REST TYPE)";
"def field_201(value, record):";
"  return value";
"";
"";
"# 5.202 Exclusion Indicator (EXC IND)";
"def field_202(value, record):";
"  return value";
"";
"";
"# 5.203 Block Indicator (BLOCK IND)";
"def field_203(value, record):";
"  return value";
"";
"";
"# 5.204 ARC Radius (ARC RAD)";
"def field_204(value, record):";
"  return value";
"";
"";
"# 5.205 Navaid Limitation Code (NLC)";
"def field_205(value, record):";
"  return value";
"";
"";
"# 5.206 Component Affected Indicator (COMP AFFTD IND)";
"def field_206(value, record):";
"  return value";
"";
"";
"# 5.207 Sector From/Sector To (SECTR)";
"def field_207(value, record):";
"  return value";
"";
"";
"# 5.208 Distance Limitation (DIST LIMIT)";
"def field_208(value, record):";
"  return value";
"";
"";
"# 5.209 Altitude Limitation (ALT LIMIT)";
"def field_209(value, record):";
"  return value.lstrip('0') + "" ft"" if value.isnumeric() else value";
"";
"";
"# 5.210 Sequence End Indicator (SEQ END)";
"def field_210(value, record):";
"  return value";
"";
"";
"# 5.211 Required Navigation Performance (RNP)";
"def field_211(value, record):";
"  return value";
"";
"";
"# 5.212 Runway Gradient (RWY GRAD)";
"def field_212(value, record):";
"  return value";
"";
"";
"# 5.213 Controlled Airspace Type (ARSP TYPE)";
"def field_213(value, record):";
"  return value";
"";
"";
"# 5.214 Controlled Airspace Center (ARSP CNTR)";
"def field_214(value, record):";
"  return value";
"";
"";
"# 5.215 Controlled Airspace Classification (ARSP CLASS)";
"def field_215(value, record):";
"  return value";
"";
"";
"# 5.216 Controlled Airspace Name (ARSP NAME)";
"def field_216(value, record):";
"  return value";
"";
"";
"# 5.217 Controlled Airspace Indicator (CTLD ARSP IND)";
"def field_217(value, record):";
"  return value";
"";
"";
"# 5.218 Geographical Reference Table Identifier (GEO REF TBL ID)";
"def field_218(value, record):";
"  return value";
"";
"";
"# 5.219 Geographical Entity (GEO ENT)";
"def field_219(value, record):";
"  return value";
"";
"";
"# 5.220 Preferred Route Use Indicator (ET IND)";
"def field_220(value, record):";
"  return value";
"";
"";
"# 5.221 Aircraft Use Group (ACFT USE GP)";
"def field_221(value, record):";
"  return value";
"";
"";
"# 5.222 GNSS/FMS Indicator (GNSS/FMS IND)";
"def field_222(value, record):";
"  return value";
"";
"";
"# 5.223 Operations Type (OPS TYPE)";
"def field_223(value, record):";
"  return value";
"";
"";
"# 5.224 Route Indicator (RTE IND)";
"def field_224(value, record):";
"  return value";
"";
"";
"# 5.225 Ellipsoidal Height";
"def field_225(value, record):";
"  return value";
"";
"";
"# 5.226 Glide Path Angle (GPA)";
"def field_226(value, record):";
"  return value";
"";
"";
"# 5.227 Orthometric Height (ORTH HGT)";
"def field_227(value, record):";
"  return value";
"";
"";
"# 5.228 Course Width at Threshold (CRSWDTH)";
"def field_228(value, record):";
"  return value";
"";
"";
"# 5.229 Final Approach Segment DATA CRC Remainder (FAS CRC)";
"def field_229(value, record):";
"  return value";
"";
"";
"# 5.230 Procedure Type (PROC TYPE)";
"def field_230(value, record):";
"  return value";
"";
"";
"# 5.231 Along Track Distance (ATD)";
"def field_231(value, record):";
"  return value";
"";
"";
"# 5.232 Number of Engines Restriction (NOE)";
"def field_232(value, record):";
"  return value";
"";
"";
"# 5.233 Turboprop/Jet Indicator (TURBO)";
"def field_233(value, record):";
"  return value";
"";
"";
"# 5.234 RNAV Flag (RNAV)";
"def field_234(value, record):";
"  return value";
"";
"";
"# 5.235 ATC Weight Category (ATC WC)";
"def field_235(value, record):";
"  return value";
"";
"";
"# 5.236 ATC Identifier (ATC ID)";
"def field_236(value, record):";
"  return value";
"";
"";
"# 5.237 Procedure Description (PROC DESC)";
"def field_237(value, record):";
"  return value";
"";
"";
"# 5.238 Leg Type Code (LTC)";
"def field_238(value, record):";
"  return value";
"";
"";
"# 5.239 Reporting Code (RPT)";
"def field_239(value, record):";
"  return value";
"";
"";
"# 5.240 Altitude (ALT)";
"def field_240(value, record):";
"  return value.lstrip('0') + "" ft"" if value.isnumeric() else value";
"";
"";
"# 5.241 Fix Related Transition Code (FRT Code)";
"def field_241(value, record):";
"  return value";
"";
"";
"# 5.242 Procedure Category (PRO CAT)";
"def field_242(value, record):";
"  return value";
"";
"";
"# 5.243 GLS Station Identifier";
"def field_243(value, record):";
"  return value";
"";
"";
"# 5.244 GLS Channel";
"def field_244(value, record):";
"  return value";
"";
"";
"# 5.245 Service Volume Radius";
"def field_245(value, record):";
"  return value";
"";
"";
"# 5.246 TDMA Slots";
"def field_246(value, record):";
"  return value";
"";
"";
"# 5.247 Station Type";
"def field_247(value, record):";
"  return value";
"";
"";
"# 5.248 Station Elevation WGS84";
"def field_248(value, record):";
"  return value";
"";
"";
"# 5.249 Longest Runway Surface Code (LRSC)";
"def field_249(value, record):";
"  return value";
"";
"";
"# 5.250 Alternate Record Type (ART)";
"def field_250(value, record):";
"  return value";
"";
"";
"# 5.251 Distance To Alternate (DTA)";
"def field_251(value, record):";
"  return value";
"";
"";
"# 5.252 Alternate Type (ALT TYPE)";
"def field_252(value, record):";
"  return value";
"";
"";
"# 5.253 Primary and Additional Alternate Identifier (ALT IDENT)";
"def field_253(value, record):";
"  return value";
"";
"";
"# 5.254 Fixed Radius Transition Indicator (FIXED RAD IND)";
"def field_254(value, record):";
"  return value";
"";
"";
"# 5.255 SBAS Service Provider Identifier (SBAS ID)";
"def field_255(value, record):";
"  return value";
"";
"";
"# 5.256 Reference Path Data Selector (REF PDS)";
"def field_256(value, record):";
"  return value";
"";
"";
"# 5.257 Reference Path Identifier (REF ID)";
"def field_257(value, record):";
"  return value";
"";
"";
"# 5.258 Approach Performance Designator (APD)";
"def field_258(value, record):";
"  return value";
"";
"";
"# 5.259 Length Offset (OFFSET)";
"def field_259(value, record):";
"  return value";
"";
"";
"# 5.260 Terminal Procedure Flight Planning Leg Distance (LEG DIST)";
"def field_260(value, record):";
"  return value";
"";
"";
"# 5.261 Speed Limit Description (SLD)";
"def field_261(value, record):";
"  return value";
"";
"";
"# 5.262 Approach Type Identifier (ATI)";
"def field_262(value, record):";
"  return value";
"";
"";
"# 5.263 HAL";
"def field_263(value, record):";
"  return value";
"";
"";
"# 5.264 VAL";
"def field_264(value, record):";
"  return value";
"";
"";
"# 5.265 Path Point TCH";
"def field_265(value, record):";
"  return value";
"";
"";
"# 5.266 TCH Units Indicator";
"def field_266(value, record):";
"  return value";
"";
"";
"# 5.267 High Precision Latitude (HPLAT)";
"def field_267(value, record):";
"  return value";
"";
"";
"# 5.268 High Precision Longitude (HPLONG)";
"def field_268(value, record):";
"  return value";
"";
"";
"# 5.269 Helicopter Procedure Course (HPC)";
"def field_269(value, record):";
"  if value.strip() != '': # this is allowed to be empty for non-heli records?";
"    return float(value)/10";
"  return value";
"";
"";
"# 5.270 TCH Value Indicator (TCHVI)";
"def field_270(value, record):";
"  match value:";
"    case 'I':";
"      return 'ILS or MLS Glideslope'";
"    case 'R':";
"      return 'RNAV Procedure'";
"    case 'V':";
"      return 'Visual Glideslope Indicator (VGSI)'";
"    case 'D':";
"      return 'Default Value (40 or 50 feet)'";
"    case ' ':   # this is apparently allowed to be empty, see ARINC SPECIFICATION 424 - Page 165";
"      return value";
"    case _:";
"      raise ValueError(f'Bad TCH Value Indicator: {value}')";
"";
"";
"# 5.271 Procedure Turn (PROC TURN)";
"def field_271(value, record):";
"  return value";
"";
"";
"# 5.272 TAA Sector Identifier";
"def field_272(value, record):";
"  return value";
"";
"";
"# 5.273 TAA IAF Waypoint";
"def field_273(value, record):";
"  return value";
"";
"";
"# 5.274 TAA Sector Radius";
"def field_274(value, record):";
"  return value";
"";
"";
"# 5.275 Level of Service Name (LSN)";
"def field_275(value, record):";
"  return value";
"";
"";
"# 5.276 ??";
"def field_276(value, record):";
"  return value";
""].

(* src/arinc424/definitions/Airport.py *)
Definition text_Airport : list string := [
"from arinc424.decoder import Field";
"import arinc424.decoder as decoder";
"";
"";
"# 4.1.7 Airport Records (PA)";
"class Airport():";
"";
"  cont_idx = 21";
"  app_idx = 22";
"  continuations = ['A', 'P', 'Q']";
"  name = 'Airport'";
"";
"  def application_type(self, line):";
"    return line[self.app_idx]";
"";
"  def read(self, line, primary) -> list:";
"";
"    if primary:";
"      return self.read_primary(line)";
"";
"    application = line[self.app_idx]";
"    match application:";
"      case 'A':";
"        return self.read_cont(line)";
"      case 'P':";
"        return self.read_flight0(line)";
"      case 'Q':";
"        return self.read_flight1(line)";
"      case _:";
"        return []";
"";
"  # 4.1.7.1 Airport Primary Records";
"  def read_primary(self, r):";
"    return [";
"      Field(""Record Type"",                             r[0],          decoder.field_002),";
"      Field(""Customer / Area Code"",                    r[1:4],        decoder.field_003),";
"      Field(""Section Code"",                            r[4]+r[12],    decoder.field_004),";
"      Field(""Airport ICAO Identifier"",                 r[6:10],       decoder.field_006),";
"      Field(""ICAO Code"",                               r[10:12],      decoder.field_014),";
"      Field(""ATA/IATA Designator"",                     r[13:16],      decoder.field_107),";
"      Field(""Continuation Record No"",                  r[21],         decoder.field_016),";
"      Field(""Speed Limit Altitude"",                    r[22:27],      decoder.field_073),";
"      Field(""Longest Runway"",                          r[27:30],      decoder.field_054),";
"      Field(""IFR Capability"",                          r[30],         decoder.field_108),";
"      Field(""Longest Runway Surface Code"",             r[31],         decoder.field_249),";
"      Field(""Airport Reference Pt. Latitude"",          r[32:41],      decoder.field_036),";
"      Field(""Airport Reference Pt. Longitude"",         r[41:51],      decoder.field_037),";
"      Field(""Magnetic Variation"",                      r[51:56],      decoder.field_039),";
"      Field(""Airport Elevation"",                       r[56:61],      decoder.field_055),";
"      Field(""Speed Limit"",                             r[61:64],      decoder.field_072),";
"      Field(""Recommended Navaid"",                      r[64:68],      decoder.field_023),";
"      Field(""ICAO Code (2)"",                           r[68:70],      decoder.field_014),";
"      Field(""Transition Altitude"",                     r[70:75],      decoder.field_053),";
"      Field(""Transition Level"",                        r[75:80],      decoder.field_053),";
"      Field(""Public Military Indicator"",               r[80],         decoder.field_177),";
"      Field(""Time Zone"",                               r[81:84],      decoder.field_178),";
"      Field(""Daylight Indicator"",                      r[84],         decoder.field_179),";
"      Field(""Magnetic/True Indicator"",                 r[85],         decoder.field_165),";
"      Field(""Datum Code"",                              r[86:89],      decoder.field_197),";
"      Field(""Airport Name"",                            r[93:123],     decoder.field_071),";
"      Field(""File Record No"",                          r[123:128],    decoder.field_031),";
"      Field(""Cycle Date"",                              r[128:132],    decoder.field_032)";
"    ]";
"";
"  # 4.1.7.2 Airport Continuation Records";
"  def read_cont(self, r):";
"    return [";
"      Field(""Record Type"",                             r[0],          decoder.field_002),";
"      Field(""Customer / Area Code"",                    r[1:4],        decoder.field_003),";
"      Field(""Section Code"",                            r[4]+r[12],    decoder.field_004),";
"      Field(""Airport ICAO Identifier"",                 r[6:10],       decoder.field_006),";
"      Field(""ICAO Code"",                               r[10:12],      decoder.field_014),";
"      Field(""ATA/IATA Designator"",                     r[13:16],      decoder.field_107),";
"      Field(""Continuation Record No"",                  r[21],         decoder.field_016),";
"      Field(""Application Type"",                        r[22],         decoder.field_091),";
"      Field(""Notes"",                                   r[23:92],      decoder.field_061),";
"      Field(""File Record No"",                          r[123:128],    decoder.field_031),";
"      Field(""Cycle Date"",                              r[128:132],    decoder.field_032)";
"    ]";
"";
"  # 4.1.7.3 Airport Flight Planning Continuation Records";
"  #";
"  # This Continuation Record is used to indicate the FIR and UIR within which the Airport define in the Primary";
"  # Record resides in and the Start/End validity dates/times of the Primary Record and provide an indication if the";
"  # Airport defined in the Primary Record is associated with Controlled Airspace.";
"  #";
"  def read_flight0(self, r):";
"    return [";
"      Field(""Record Type"",                             r[0],          decoder.field_002),";
"      Field(""Customer / Area Code"",                    r[1:4],        decoder.field_003),";
"      Field(""Section Code"",                            r[4]+r[12],    decoder.field_004),";
"      Field(""Heliport Identifier"",                     r[6:10],       decoder.field_006),";
"      Field(""ICAO Code"",                               r[10:12],      decoder.field_014),";
"      Field(""ATA/IATA Designator"",                     r[13:16],      decoder.field_107),";
"      Field(""Continuation Record No"",                  r[21],         decoder.field_016),";
"      Field(""Application Type"",                        r[22],         decoder.field_091),";
"      Field(""FIR Identifier"",                          r[23:27],      decoder.field_116),";
"      Field(""UIR Identifier"",                          r[27:31],      decoder.field_116),";
"      Field(""Start/End Indicator"",                     r[31],         decoder.field_152),";
"      Field(""Start/End Date/Time"",                     r[32:43],      decoder.field_153),";
"      Field(""Controlled A/S Indicator"",                r[66],         decoder.field_217),";
"      Field(""Controlled A/S Airport Ident"",            r[67:71],      decoder.field_006),";
"      Field(""Controlled A/S Airport ICAO"",             r[71:73],      decoder.field_014),";
"      Field(""File Record No"",                          r[123:128],    decoder.field_031),";
"      Field(""Cycle Date"",                              r[128:132],    decoder.field_032)";
"    ]";
"";
"  # 4.1.7.4 Airport Flight Planning Continuation Records";
"  #";
"  # This Continuation Record is used to indicate the fields on";
"  # the Primary Record that have changed, used in conjunction";
"  # with Section 4.1.7.3.";
"  #";
"  # Note: Flight Planning continuation records are designed";
"  # to carry off-cycle updates to the primary record,";
"  # and cannot carry an Application Type column.";
"  #";
"  def read_flight1(self, r):";
"    return [";
"      Field(""Record Type"",                             r[0],          decoder.field_002),";
"      Field(""Customer / Area Code"",                    r[1:4],        decoder.field_003),";
"      Field(""Section Code"",                            r[4]+r[12],    decoder.field_004),";
"      Field(""Airport ICAO Identifier"",                 r[6:10],       decoder.field_006),";
"      Field(""ICAO Code"",                               r[10:12],      decoder.field_014),";
"      Field(""ATA/IATA Designator"",                     r[13:16],      decoder.field_107),";
"      Field(""Continuation Record No"",                  r[21],         decoder.field_016),";
"      Field(""Speed Limit Altitude"",                    r[22:27],      decoder.field_073),";
"      Field(""Longest Runway"",                          r[27:30],      decoder.field_054),";
"      Field(""IFR Capability"",                          r[30],         decoder.field_108),";
"      Field(""Longest Runway Surface Code"",             r[31],         decoder.field_249),";
"      Field(""Airport Reference Pt. Latitude"",          r[32:41],      decoder.field_036),";
"      Field(""Airport Reference Pt. Longitude"",         r[41:51],      decoder.field_037),";
"      Field(""Magnetic Variation"",                      r[51:56],      decoder.field_039),";
"      Field(""Airport Elevation"",                       r[56:61],      decoder.field_055),";
"      Field(""Speed Limit"",                             r[61:64],      decoder.field_072),";
"      Field(""Recommended Navaid"",                      r[64:68],      decoder.field_023),";
"      Field(""ICAO Code (2)"",                           r[68:70],      decoder.field_014),";
"      Field(""Transition Altitude"",                     r[70:75],      decoder.field_053),";
"      Field(""Transition Level"",                        r[75:80],      decoder.field_053),";
"      Field(""Public Military Indicator"",               r[80],         decoder.field_177),";
"      Field(""Time Zone"",                               r[81:84],      decoder.field_178),";
"      Field(""Daylight Indicator"",                      r[84],         decoder.field_179),";
"      Field(""Magnetic/True Indicator"",                 r[85],         decoder.field_165),";
"      Field(""Datum Code"",                              r[86:89],      decoder.field_197),";
"      Field(""Airport Name"",                            r[93:123],     decoder.field_071),";
"      Field(""File Record No"",                          r[123:128],    decoder.field_031),";
"      Field(""Cycle Date"",                              r[128:132],    decoder.field_032)";
"    ]";
"  "].

(* src/arinc424/definitions/AirportCommunication.py *)
Definition text_AirportCommunication : list string := [
"from arinc424.decoder import Field";
"import arinc424.decoder as decoder";
"";
"";
"# 4.1.14 Airport Communications Records (PV)";
"class AirportCommunication():";
"";
"  cont_idx = 25";
"  app_idx = 26";
"  continuations = ['N']";
"  name = 'Airport Communications'";
"";
"  def application_type(self, line):";
"    return line[self.app_idx]";
"";
"  def read(self, line, primary) -> list:";
"";
"    if primary:";
"      return self.read_primary(line)";
"";
"    application = line[self.app_idx]";
"    match application:";
"      case 'N':";
"        return self.read_cont_narr(line)";
"      # TODO find a data set that has these continuation records to verify";
"      # case 'T':";
"      #     return self.read_time(line)";
"      case _:";
"        return []";
"";
"  # 4.1.14.1 Airport Communications Primary Records";
"  def read_primary(self, r):";
"    return [";
"      Field(""Record Type"",                         r[0],          decoder.field_002),";
"      Field(""Customer / Area Code"",                r[1:4],        decoder.field_003),";
"      Field(""Section Code"",                        r[4]+r[12],    decoder.field_004),";
"      Field(""Airport Identifier"",                  r[6:10],       decoder.field_006),";
"      Field(""ICAO Code"",                           r[10:12],      decoder.field_014),";
"      Field(""Communications Type"",                 r[13:16],      decoder.field_101),";
"      Field(""Communications Freq"",                 r[16:23],      decoder.field_103),";
"      Field(""Guard/Transmit"",                      r[23],         decoder.field_182),";
"      Field(""Frequency Units"",                     r[24],         decoder.field_104),";
"      Field(""Continuation Record No"",              r[25],         decoder.field_016),";
"      Field(""Service Indicator"",                   r[26:29],      decoder.field_106),";
"      Field(""Radar Service"",                       r[29],         decoder.field_102),";
"      Field(""Modulation"",                          r[30],         decoder.field_198),";
"      Field(""Signal Emission"",                     r[31],         decoder.field_199),";
"      Field(""Latitude"",                            r[32:41],      decoder.field_036),";
"      Field(""Longitude"",                           r[41:51],      decoder.field_037),";
"      Field(""Magnetic Variation"",                  r[51:56],      decoder.field_039),";
"      Field(""Facility Elevation"",                  r[56:61],      decoder.field_092),";
"      Field(""H24 Indicator"",                       r[61],         decoder.field_181),";
"      Field(""Sectorization"",                       r[62:68],      decoder.field_183),";
"      Field(""Altitude Description"",                r[68],         decoder.field_029),";
"      Field(""Communication Altitude"",              r[69:74],      decoder.field_184),";
"      Field(""Communication Altitude (2)"",          r[74:79],      decoder.field_184),";
"      Field(""Sector Facility"",                     r[79:83],      decoder.field_185),";
"      Field(""ICAO Code (2)"",                       r[83:85],      decoder.field_014),";
"      Field(""Section (2)"",                         r[85:87],      decoder.field_004),";
"      Field(""Distance Description"",                r[87],         decoder.field_187),";
"      Field(""Communications Distance"",             r[88:90],      decoder.field_188),";
"      Field(""Remote Facility"",                     r[90:94],      decoder.field_200),";
"      Field(""ICAO Code (3)"",                       r[94:96],      decoder.field_014),";
"      Field(""Section (3)"",                         r[96:98],      decoder.field_004),";
"      Field(""Call Sign"",                           r[98:123],     decoder.field_105),";
"      Field(""File Record No"",                      r[123:128],    decoder.field_031),";
"      Field(""Cycle Date"",                          r[128:132],    decoder.field_032)";
"    ]";
"";
"  # 4.1.14.2 Airport Communications Continuation Records";
"  def read_cont_narr(self, r):";
"    return [";
"      Field(""Record Type"",                         r[0],          decoder.field_002),";
"      Field(""Customer / Area Code"",                r[1:4],        decoder.field_003),";
"      Field(""Section Code"",                        r[4]+r[12],    decoder.field_004),";
"      Field(""Airport Identifier"",                  r[6:10],       decoder.field_006),";
"      Field(""ICAO Code"",                           r[10:12],      decoder.field_014),";
"      Field(""Communications Type"",                 r[13:16],      decoder.field_101),";
"      Field(""Communications Freq"",                 r[16:23],      decoder.field_103),";
"      Field(""Guard/Transmit"",                      r[23],         decoder.field_182),";
"      Field(""Frequency Units"",                     r[24],         decoder.field_104),";
"      Field(""Continuation Record No"",              r[25],         decoder.field_016),";
"      Field(""Application Type"",                    r[26],         decoder.field_091),";
"      Field(""Narrative"",                           r[27:87],      decoder.field_186),";
"      Field(""File Record No"",                      r[123:128],    decoder.field_031),";
"      Field(""Cycle Date"",                          r[128:132],    decoder.field_032)";
"    ]";
"";
"  # 4.1.14.3 Airport Additional Continuation Records";
"  def read_time(self, r):";
"    return [";
"      Field(""Record Type"",                        r[0],           decoder.field_002),";
"      Field(""Customer / Area Code"",               r[1:4],         decoder.field_003),";
"      Field(""Section Code"",                       r[4]+r[12],     decoder.field_004),";
"      Field(""Airport Identifier"",                 r[6:10],        decoder.field_006),";
"      Field(""ICAO Code"",                          r[10:12],       decoder.field_014),";
"      Field(""Communications Type"",                r[13:16],       decoder.field_101),";
"      Field(""Communications Freq"",                r[16:23],       decoder.field_103),";
"      Field(""Guard/Transmit"",                     r[23],          decoder.field_182),";
"      Field(""Frequency Units"",                    r[24],          decoder.field_104),";
"      Field(""Continuation Record No"",             r[25],          decoder.field_016),";
"      Field(""Application Type"",                   r[26],          decoder.field_091),";
"      Field(""Time Code"",                          r[27],          decoder.field_131),";
"      Field(""NOTAM"",                              r[28],          decoder.field_132),";
"      Field(""Time Indicator"",                     r[29],          decoder.field_138),";
"      Field(""Time of Operaion"",                   r[30:40],       decoder.field_195),";
"      Field(""Time of Operaion (2)"",               r[40:50],       decoder.field_195),";
"      Field(""Time of Operaion (2)"",               r[50:60],       decoder.field_195),";
"      Field(""Time of Operaion (3)"",               r[60:70],       decoder.field_195),";
"      Field(""Time of Operaion (4)"",               r[70:80],       decoder.field_195),";
"      Field(""Time of Operaion (5)"",               r[80:90],       decoder.field_195),";
"      Field(""Time of Operaion (6)"",               r[90:100],      decoder.field_195),";
"      Field(""File Record No"",                     r[123:128],     decoder.field_031),";
"      Field(""Cycle Date"",                         r[128:132],     decoder.field_032)";
"    ]"].

(* src/arinc424/definitions/AirportGate.py *)
Definition text_AirportGate : list string := [
"from arinc424.decoder import Field";
"import arinc424.decoder as decoder";
"";
"";
"# 4.1.8 Airport Gate Records (PB)";
"class AirportGate():";
"";
"  cont_idx = 21";
"  app_idx = 22";
"  continuations = ['A']";
"  name = 'Airport Gate'";
"";
"  def application_type(self, line):";
"    return line[self.app_idx]";
"";
"  def read(self, line, primary) -> list:";
"";
"    if primary:";
"      return self.read_primary(line)";
"";
"    application = line[self.app_idx]";
"    match application:";
"      case 'A':";
"        return self.read_cont(line)";
"      case _:";
"        return []";
"";
"  # 4.1.8.1 Airport Gate Primary Record";
"  def read_primary(self, r):";
"    return [";
"      Field(""Record Type"",                         r[0],          decoder.field_002),";
"      Field(""Customer / Area Code"",                r[1:4],        decoder.field_003),";
"      Field(""Section Code"",                        r[4]+r[12],    decoder.field_004),";
"      Field(""Airport ICAO Identifier"",             r[6:10],       decoder.field_006),";
"      Field(""ICAO Code"",                           r[10:12],      decoder.field_014),";
"      Field(""Gate Identifier"",                     r[13:18],      decoder.field_056),";
"      Field(""Continuation Record No"",              r[21],         decoder.field_016),";
"      Field(""Gate Latitude"",                       r[32:41],      decoder.field_036),";
"      Field(""Gate Longitude"",                      r[41:51],      decoder.field_037),";
"      Field(""Name"",                                r[98:123],     decoder.field_060),";
"      Field(""File Record No"",                      r[123:128],    decoder.field_031),";
"      Field(""Cycle Date"",                          r[128:132],    decoder.field_032)";
"    ]";
"";
"  # 4.1.8.2 Airport Gate Continuation Records";
"  def read_cont(self, r):";
"    return [";
"      Field(""Record Type"",                         r[0],          decoder.field_002),";
"      Field(""Customer / Area Code"",                r[1:4],        decoder.field_003),";
"      Field(""Section Code"",                        r[4]+r[12],    decoder.field_004),";
"      Field(""Airport ICAO Identifier"",             r[6:10],       decoder.field_006),";
"      Field(""ICAO Code"",                           r[10:12],      decoder.field_014),";
"      Field(""Gate Identifier"",                     r[13:18],      decoder.field_056),";
"      Field(""Continuation Record No"",              r[21],         decoder.field_016),";
"      Field(""Application Notes"",                   r[22],         decoder.field_091),";
"      Field(""Notes"",                               r[23:92],      decoder.field_061),";
"      Field(""File Record No"",                      r[123:128],    decoder.field_031),";
"      Field(""Cycle Date"",                          r[128:132],    decoder.field_032)";
"    ]";
"";
"";
"# 4.1.12 Company Route Records (R)";
"#";
"# This record contains company tailored route information";
"#";
"class CompanyRoute():";
"";
"  # 4.1.12.1 Company Route Primary Records";
"  def read(self, r) -> list:";
"    return [";
"      Field(""Record Type"",                        r[0],           decoder.field_002),";
"      Field(""Customer"",                           r[1:4],         decoder.field_003),";
"      Field(""Section Code"",                       r[4:6],         decoder.field_004),";
"      Field(""From Airport/Fix"",                   r[6:11],        decoder.field_075),";
"      Field(""ICAO Code"",                          r[12:14],       decoder.field_014),";
"      Field(""Airspace Center"",                    r[9:14],        decoder.field_214),";
"      Field(""Section Code (2)"",                   r[14:16],       decoder.field_004),";
"      Field(""To Airport/Fix"",                     r[16:21],       decoder.field_075),";
"      Field(""ICAO Code (2)"",                      r[22:24],       decoder.field_014),";
"      Field(""Section Code (3)"",                   r[24:26],       decoder.field_004),";
"      Field(""Company Route ID"",                   r[26:36],       decoder.field_076),";
"      Field(""Sequence Number"",                    r[36:39],       decoder.field_012),";
"      Field(""VIA"",                                r[39:42],       decoder.field_077),";
"      Field(""SID/STAR/App/Awy"",                   r[42:48],       decoder.field_078),";
"      Field(""Area Code"",                          r[48:51],       decoder.field_003),";
"      Field(""To Fix"",                             r[51:57],       decoder.field_132),";
"      Field(""ICAO Code"",                          r[57:59],       decoder.field_118),";
"      Field(""Section Code (4)"",                   r[59],          decoder.field_036),";
"      Field(""RUnway Trans"",                       r[61:66],       decoder.field_037),";
"      Field(""ENRT Trans"",                         r[66:71],       decoder.field_036),";
"      Field(""Cruise Altitude"",                    r[72:77],       decoder.field_037),";
"      Field(""Terminal/Alternate Airport"",         r[77:81],       decoder.field_119),";
"      Field(""ICAO Code"",                          r[81:83],       decoder.field_120),";
"      Field(""Alternate Distance"",                 r[83:87],       decoder.field_211),";
"      Field(""Cost Index"",                         r[87:90],       decoder.field_121),";
"      Field(""Enroute Alternate Airport"",          r[90:94],       decoder.field_133),";
"      Field(""File Record No"",                     r[123:128],     decoder.field_031),";
"      Field(""Cycle Date"",                         r[128:132],     decoder.field_032)";
"    ]"].

(* src/arinc424/definitions/AirwaysMarker.py *)
Definition text_AirwaysMarker : list string := [
"from arinc424.decoder import Field";
"import arinc424.decoder as decoder";
"";
"";
"# 4.1.15 Airways Marker Records (EM)";
"class AirwaysMarker():";
"";
"  cont_idx = 21";
"  app_idx = 22";
"  continuations = ['A']";
"  name = 'Airways Marker'";
"";
"  def application_type(self, line):";
"    return line[self.app_idx]";
"";
"  def read(self, line, primary) -> list:";
"";
"    if primary:";
"      return self.read_primary(line)";
"";
"    application = line[self.app_idx]";
"    match application:";
"      case 'A':";
"        return self.read_cont(line)";
"      case _:";
"        return []";
"";
"  # 4.1.15.1 Airways Marker Primary Records";
"  def read_primary(self, r):";
"    return [";
"      Field(""Record Type"",                         r[0],          decoder.field_002),";
"      Field(""Customer / Area Code"",                r[1:4],        decoder.field_003),";
"      Field(""Section Code"",                        r[4:6],        decoder.field_004),";
"      Field(""Marker Identifier"",                   r[13:17],      decoder.field_110),";
"      Field(""ICAO Code"",                           r[19:21],      decoder.field_014),";
"      Field(""Continuation Record No"",              r[21],         decoder.field_016),";
"      Field(""Marker Code"",                         r[22:26],      decoder.field_111),";
"      Field(""Marker Shape"",                        r[27],         decoder.field_112),";
"      Field(""Marker Power"",                        r[28],         decoder.field_113),";
"      Field(""Marker Latitude"",                     r[32:41],      decoder.field_036),";
"      Field(""Marker Longitude"",                    r[41:51],      decoder.field_037),";
"      Field(""Minor Axis"",                          r[51:55],      decoder.field_100),";
"      Field(""Magnetic Variation"",                  r[74:79],      decoder.field_039),";
"      Field(""Facility Elevation"",                  r[79:84],      decoder.field_092),";
"      Field(""Datum Code"",                          r[84:87],      decoder.field_197),";
"      Field(""Marker Name"",                         r[93:123],     decoder.field_071),";
"      Field(""File Record No"",                      r[123:128],    decoder.field_031),";
"      Field(""Cycle Date"",                          r[128:132],    decoder.field_032)";
"    ]";
"";
"  # 4.1.15.2 Airways Marker Continuation Records";
"  def read_cont(self, r):";
"    return [";
"      Field(""Record Type"",                         r[0],          decoder.field_002),";
"      Field(""Customer / Area Code"",                r[1:4],        decoder.field_003),";
"      Field(""Section Code"",                        r[4:6],        decoder.field_004),";
"      Field(""Marker Identifier"",                   r[13:17],      decoder.field_110),";
"      Field(""ICAO Code"",                           r[19:21],      decoder.field_014),";
"      Field(""Continuation Record No"",              r[21],         decoder.field_016),";
"      Field(""Application Type"",                    r[22],         decoder.field_091),";
"      Field(""File Record No"",                      r[123:128],    decoder.field_031),";
"      Field(""Cycle Date"",                          r[128:132],    decoder.field_032)";
"    ]"].

(* src/arinc424/definitions/Alternate.py *)
Definition text_Alternate : list string := [
"from arinc424.decoder import Field";
"import arinc424.decoder as decoder";
"";
"";
"# 4.1.30 Alternate Record (RA)";
"class Alternate():";
"";
"  # 4.1.30.1 Alternate Primary Records";
"  def read(self, r, primary):";
"    return [";
"      Field(""Record Type"",                            r[0],          decoder.field_002),";
"      Field(""Customer / Area Code"",                   r[1:4],        decoder.field_003),";
"      Field(""Section Code"",                           r[4:6],        decoder.field_004),";
"      Field(""Alternate Related Airport to Fix"",       r[6:11],       decoder.field_075),";
"      Field(""Alternate Related ICAO Code"",            r[11:13],      decoder.field_014),";
"      Field(""Alternate Section"",                      r[13:15],      decoder.field_004),";
"      Field(""Alternate Record Type"",                  r[15:17],      decoder.field_250),";
"      Field(""Distance to Alternate"",                  r[19:22],      decoder.field_251),";
"      Field(""Alternate Type"",                         r[22],         decoder.field_252),";
"      Field(""Primary Alternate Identifier"",           r[23:33],      decoder.field_253),";
"      Field(""Distance to Alternate (2)"",              r[35:38],      decoder.field_251),";
"      Field(""Alternate Type (2)"",                     r[38],         decoder.field_252),";
"      Field(""Additional Alternate Identifier One"",    r[39:49],      decoder.field_253),";
"      Field(""Distance to Alternate (3)"",              r[51:54],      decoder.field_251),";
"      Field(""Alternate Type (3)"",                     r[54],         decoder.field_252),";
"      Field(""Additional Alternate Identifier Two"",    r[55:65],      decoder.field_253),";
"      Field(""Distance to Alternate (3)"",              r[67:70],      decoder.field_251),";
"      Field(""Alternate Type (3)"",                     r[70],         decoder.field_252),";
"      Field(""Additional Alternate Identifier (3))"",   r[71:81],      decoder.field_253),";
"      Field(""Distance to Alternate (4)"",              r[83:86],      decoder.field_251),";
"      Field(""Alternate Type (4)"",                     r[86],         decoder.field_252),";
"      Field(""Additional Alternate Identifier (4)"",    r[87:97],      decoder.field_253),";
"      Field(""Distance to Alternate (5)"",              r[99:102],     decoder.field_251),";
"      Field(""Alternate Type (5)"",                     r[102],        decoder.field_252),";
"      Field(""Additional Alternate Identifier (5)"",    r[103:113],    decoder.field_253),";
"      Field(""File Record No"",                         r[123:128],    decoder.field_031),";
"      Field(""Cycle Date"",                             r[128:132],    decoder.field_032)";
"    ]"].

(* src/arinc424/definitions/CompanyRoute.py *)
Definition text_CompanyRoute : list string := [
"from arinc424.decoder import Field";
"import arinc424.decoder as decoder";
"";
"";
"# 4.1.12 Company Route Records (R)";
"#";
"# This file contains company tailored route information";
"#";
"class CompanyRoute():";
"";
"  # 4.1.12.1 Company Route Primary Records";
"  def read(self, r, primary) -> list:";
"    return [";
"      Field(""Record Type"",                        r[0],           decoder.field_002),";
"      Field(""Customer"",                           r[1:4],         decoder.field_003),";
"      Field(""Section Code"",                       r[4:6],         decoder.field_004),";
"      Field(""From Airport/Fix"",                   r[6:11],        decoder.field_075),";
"      Field(""ICAO Code"",                          r[12:14],       decoder.field_014),";
"      Field(""Airspace Center"",                    r[9:14],        decoder.field_214),";
"      Field(""Section Code (2)"",                   r[14:16],       decoder.field_004),";
"      Field(""To Airport/Fix"",                     r[16:21],       decoder.field_075),";
"      Field(""ICAO Code (2)"",                      r[22:24],       decoder.field_014),";
"      Field(""Section Code (3)"",                   r[24:26],       decoder.field_004),";
"      Field(""Company Route ID"",                   r[26:36],       decoder.field_076),";
"      Field(""Sequence Number"",                    r[36:39],       decoder.field_012),";
"      Field(""VIA"",                                r[39:42],       decoder.field_077),";
"      Field(""SID/STAR/App/Awy"",                   r[42:48],       decoder.field_078),";
"      Field(""Area Code"",                          r[48:51],       decoder.field_003),";
"      Field(""To Fix"",                             r[51:57],       decoder.field_132),";
"      Field(""ICAO Code"",                          r[57:59],       decoder.field_118),";
"      Field(""Section Code (4)"",                   r[59],          decoder.field_036),";
"      Field(""RUnway Trans"",                       r[61:66],       decoder.field_037),";
"      Field(""ENRT Trans"",                         r[66:71],       decoder.field_036),";
"      Field(""Cruise Altitude"",                    r[72:77],       decoder.field_037),";
"      Field(""Terminal/Alternate Airport"",         r[77:81],       decoder.field_119),";
"      Field(""ICAO Code"",                          r[81:83],       decoder.field_120),";
"      Field(""Alternate Distance"",                 r[83:87],       decoder.field_211),";
"      Field(""Cost Index"",                         r[87:90],       decoder.field_121),";
"      Field(""Enroute Alternate Airport"",          r[90:94],       decoder.field_133),";
"      Field(""File Record No"",                     r[123:128],     decoder.field_031),";
"      Field(""Cycle Date"",                         r[128:132],     decoder.field_032)";
"    ]"].

(* src/arinc424/definitions/ControlledAirspace.py *)
Definition text_ControlledAirspace : list string := [
"from arinc424.decoder import Field";
"import arinc424.decoder as decoder";
"";
"";
"# 4.1.25 Controlled Airspace Records (UC)";
"#";
"# The Controlled Airspace Record file contains a";
"# sequential listing of vertical and lateral limits of all types";
"# and classifications of Controlled Airspace. It includes";
"# Controlled Airspace associated with Airports and";
"# Heliports.";
"#";
"class ControlledAirspace():";
"";
"  cont_idx = 24";
"  app_idx = 25";
"  continuations = ['A']";
"  name = 'Controlled Airspace'";
"";
"  def application_type(self, line):";
"    return line[self.app_idx]";
"";
"  def read(self, line, primary) -> list:";
"";
"    if primary:";
"      return self.read_primary(line)";
"";
"    application = line[self.app_idx]";
"    match application:";
"      case 'A':";
"        return self.read_cont(line)";
"      case _:";
"        return []";
"";
"  # 4.1.25.1 Controlled Airspace Primary Records";
"  def read_primary(self, r):";
"    return [";
"      Field(""Record Type"",                         r[0],          decoder.field_002),";
"      Field(""Customer / Area Code"",                r[1:4],        decoder.field_003),";
"      Field(""Section Code"",                        r[4:6],        decoder.field_004),";
"      Field(""ICAO Code"",                           r[6:8],        decoder.field_014),";
"      Field(""Airspace Type"",                       r[9],          decoder.field_213),";
"      Field(""Airspace Center"",                     r[9:14],       decoder.field_214),";
"      Field(""Section Code (2)"",                    r[14:16],      decoder.field_004),";
"      Field(""Airspace Classification"",             r[16],         decoder.field_215),";
"      Field(""Multiple Code"",                       r[19],         decoder.field_130),";
"      Field(""Sequence Number"",                     r[20:24],      decoder.field_012),";
"      Field(""Continuation Record No"",              r[24],         decoder.field_016),";
"      Field(""Level"",                               r[25],         decoder.field_019),";
"      Field(""Time Code"",                           r[26],         decoder.field_131),";
"      Field(""NOTAM"",                               r[27],         decoder.field_132),";
"      Field(""Boundary Via"",                        r[30:32],      decoder.field_118),";
"      Field(""Latitude"",                            r[32:41],      decoder.field_036),";
"      Field(""Longitude"",                           r[41:51],      decoder.field_037),";
"      Field(""Arc Origin Latitude"",                 r[51:60],      decoder.field_036),";
"      Field(""Arc Origin Longitude"",                r[60:70],      decoder.field_037),";
"      Field(""Arc Distance"",                        r[70:74],      decoder.field_119),";
"      Field(""Arc Bearing"",                         r[74:78],      decoder.field_120),";
"      Field(""RNP"",                                 r[78:81],      decoder.field_211),";
"      Field(""Lower Limit"",                         r[81:86],      decoder.field_121),";
"      Field(""Unit Indicator"",                      r[86],         decoder.field_133),";
"      Field(""Upper Limit"",                         r[87:92],      decoder.field_121),";
"      Field(""Unit Indicator (2)"",                  r[92],         decoder.field_133),";
"      Field(""Controlled Airspace Name"",            r[93:123],     decoder.field_216),";
"      Field(""File Record No"",                      r[123:128],    decoder.field_031),";
"      Field(""Cycle Date"",                          r[128:132],    decoder.field_032)";
"    ]";
"";
"  # 4.1.25.2 Controlled Airspace Continuation Records";
"  def read_cont(self, r):";
"    return [";
"      Field(""Record Type"",                         r[0],          decoder.field_002),";
"      Field(""Customer / Area Code"",                r[1:4],        decoder.field_003),";
"      Field(""Section Code"",                        r[4:6],        decoder.field_004),";
"      Field(""ICAO Code"",                           r[6:8],        decoder.field_014),";
"      Field(""Airspace Type"",                       r[9],          decoder.field_213),";
"      Field(""Airspace Center"",                     r[9:14],       decoder.field_214),";
"      Field(""Section Code (2)"",                    r[14:16],      decoder.field_004),";
"      Field(""Airspace Classification"",             r[16],         decoder.field_215),";
"      Field(""Multiple Code"",                       r[19],         decoder.field_130),";
"      Field(""Sequence Number"",                     r[20:24],      decoder.field_012),";
"      Field(""Continuation Record No"",              r[24],         decoder.field_016),";
"      Field(""Application Type"",                    r[25],         decoder.field_091),";
"      Field(""Time Code"",                           r[26],         decoder.field_131),";
"      Field(""NOTAM"",                               r[27],         decoder.field_132),";
"      Field(""Time Indicator"",                      r[28],         decoder.field_138),";
"      Field(""Time of Operations"",                  r[29:39],      decoder.field_195),";
"      Field(""Time of Operations (2)"",              r[39:49],      decoder.field_195),";
"      Field(""Time of Operations (3)"",              r[49:59],      decoder.field_195),";
"      Field(""Time of Operations (4)"",              r[59:69],      decoder.field_195),";
"      Field(""Time of Operations (5)"",              r[69:79],      decoder.field_195),";
"      Field(""Time of Operations (6)"",              r[79:89],      decoder.field_195),";
"      Field(""Time of Operations (7)"",              r[89:99],      decoder.field_195),";
"      Field(""Controlling Agency"",                  r[99:123],     decoder.field_140),";
"      Field(""File Record No"",                      r[123:128],    decoder.field_031),";
"      Field(""Cycle Date"",                          r[128:132],    decoder.field_032)";
"    ]";
""].

(* src/arinc424/definitions/CruisingTables.py *)
Definition text_CruisingTables : list string := [
"from arinc424.decoder import Field";
"import arinc424.decoder as decoder";
"";
"";
"# 4.1.16 Cruising Tables Records (TC)";
"class CruisingTables():";
"";
"  def read(self, line, primary):";
"    return self.read_primary(line)";
"";
"  # 4.1.16.1 Cruising Table Primary Records";
"  def read_primary(self, r):";
"    return [";
"      Field(""Record Type"",                             r[0],          decoder.field_002),";
"      Field(""Section Code"",                            r[4:6],        decoder.field_004),";
"      Field(""Cruise Table Identifier"",                 r[6:8],        decoder.field_134),";
"      Field(""Sequence Number"",                         r[8],          decoder.field_012),";
"      Field(""Course From"",                             r[28:32],      decoder.field_135),";
"      Field(""Course To"",                               r[32:36],      decoder.field_135),";
"      Field(""Mag/True"",                                r[36],         decoder.field_165),";
"      Field(""Cruise Level From"",                       r[39:44],      decoder.field_136),";
"      Field(""Vertical Separation"",                     r[44:49],      decoder.field_137),";
"      Field(""Cruise Level To "",                        r[49:54],      decoder.field_136),";
"      Field(""Cruise Level From (2)"",                   r[54:59],      decoder.field_136),";
"      Field(""Vertical Separation (2)"",                 r[59:64],      decoder.field_137),";
"      Field(""Cruise Level To (2)"",                     r[64:69],      decoder.field_136),";
"      Field(""Cruise Level From (3)"",                   r[69:74],      decoder.field_136),";
"      Field(""Vertical Separation (3)"",                 r[74:79],      decoder.field_137),";
"      Field(""Cruise Level To (3)"",                     r[79:84],      decoder.field_136),";
"      Field(""Cruise Level From (4)"",                   r[84:89],      decoder.field_136),";
"      Field(""Vertical Separation (4)"",                 r[89:94],      decoder.field_137),";
"      Field(""Cruise Level To (4)"",                     r[94:99],      decoder.field_136),";
"      Field(""File Record No"",                          r[123:128],    decoder.field_031),";
"      Field(""Cycle Date"",                              r[128:132],    decoder.field_032)";
"    ]"].

(* src/arinc424/definitions/EnrouteAirways.py *)
Definition text_EnrouteAirways : list string := [
"from arinc424.decoder import Field";
"import arinc424.decoder as decoder";
"";
"";
"# 4.1.6 Enroute Airways Records (ER)";
"class EnrouteAirways():";
"";
"  cont_idx = 38";
"  app_idx = 39";
"  continuations = ['A', 'P', 'Q']";
"  name = 'Enroute Airways'";
"";
"  def application_type(self, line):";
"    return line[self.app_idx]";
"";
"  def read(self, line, primary) -> list:";
"";
"    if primary:";
"      return self.read_primary(line)";
"";
"    application = line[self.app_idx]";
"    match application:";
"      case 'A':";
"        return self.read_cont(line)";
"      case 'P':";
"        return self.read_flight_plan0(line)";
"      case 'Q':";
"        return self.read_flight_plan1(line)";
"      case _:";
"        raise ValueError('Unknown Application Type')";
"";
"  # 4.1.6.1 Enroute Airways Primary Records";
"  def read_primary(self, r):";
"    return [";
"      Field(""Record Type"",                             r[0],          decoder.field_002),";
"      Field(""Customer / Area Code"",                    r[1:4],        decoder.field_003),";
"      Field(""Section Code"",                            r[4:6],        decoder.field_004),";
"      Field(""Route Identifier"",                        r[13:18],      decoder.field_008),";
"      Field(""Sequence Number"",                         r[25:29],      decoder.field_012),";
"      Field(""Fix Identifier"",                          r[29:34],      decoder.field_013),";
"      Field(""ICAO Code"",                               r[34:36],      decoder.field_014),";
"      Field(""Section Code (2)"",                        r[36:38],      decoder.field_004),";
"      Field(""Continuation Record No"",                  r[38],         decoder.field_016),";
"      Field(""Waypoint Desc Code"",                      r[39:43],      decoder.field_017),";
"      Field(""Boundary Code"",                           r[43],         decoder.field_018),";
"      Field(""Route Type"",                              r[44],         decoder.field_007),";
"      Field(""Level"",                                   r[45],         decoder.field_019),";
"      Field(""Direction Restriction"",                   r[46],         decoder.field_115),";
"      Field(""Cruise Table Indicator"",                  r[47:49],      decoder.field_134),";
"      Field(""EU Indicator"",                            r[49],         decoder.field_164),";
"      Field(""Recommended NAVAID"",                      r[50:54],      decoder.field_023),";
"      Field(""ICAO Code (2)"",                           r[54:56],      decoder.field_014),";
"      Field(""RNP"",                                     r[56:59],      decoder.field_211),";
"      Field(""Theta"",                                   r[62:66],      decoder.field_024),";
"      Field(""Rho"",                                     r[66:70],      decoder.field_025),";
"      Field(""Outbound Magnetic Course"",                r[70:74],      decoder.field_026),";
"      Field(""Route Distance From"",                     r[74:78],      decoder.field_027),";
"      Field(""Inbound Magnetic Course"",                 r[78:82],      decoder.field_028),";
"      Field(""Minimum Altitude"",                        r[83:88],      decoder.field_030),";
"      Field(""Minimum Altitude (2)"",                    r[88:93],      decoder.field_030),";
"      Field(""Maximum Altitude"",                        r[93:98],      decoder.field_127),";
"      Field(""Fix Radius Transition Indicator"",         r[98:101],     decoder.field_254),";
"      Field(""File Record No"",                          r[123:128],    decoder.field_031),";
"      Field(""Cycle Date"",                              r[128:132],    decoder.field_032)";
"    ]";
"";
"  # 4.1.6.2 Enroute Airways Continuation Records";
"  def read_cont(self, r):";
"    return [";
"      Field(""Record Type"",                             r[0],          decoder.field_002),";
"      Field(""Customer / Area Code"",                    r[1:4],        decoder.field_003),";
"      Field(""Section Code"",                            r[4:6],        decoder.field_004),";
"      Field(""Route Identifier"",                        r[13:18],      decoder.field_008),";
"      Field(""Sequence Number"",                         r[25:29],      decoder.field_012),";
"      Field(""Fix Identifier"",                          r[29:34],      decoder.field_013),";
"      Field(""ICAO Code"",                               r[34:36],      decoder.field_014),";
"      Field(""Section Code (2)"",                        r[36:38],      decoder.field_004),";
"      Field(""Continuation Record No"",                  r[38],         decoder.field_016),";
"      Field(""Application Type"",                        r[39],         decoder.field_091),";
"      Field(""Notes"",                                   r[40:109],     decoder.field_061),";
"      Field(""File Record No"",                          r[123:128],    decoder.field_031),";
"      Field(""Cycle Date"",                              r[128:132],    decoder.field_032)";
"    ]";
"";
"  # 4.1.6.3 Enroute Airways Flight Planning Continuation Records";
"  def read_flight_plan0(self, r):";
"    return [";
"      Field(""Record Type"",                             r[0],          decoder.field_002),";
"      Field(""Customer / Area Code"",                    r[1:4],        decoder.field_003),";
"      Field(""Section Code"",                            r[4:6],        decoder.field_004),";
"      Field(""Route Identifier"",                        r[13:18],      decoder.field_008),";
"      Field(""Sequence Number"",                         r[25:29],      decoder.field_012),";
"      Field(""Fix Identifier"",                          r[29:34],      decoder.field_013),";
"      Field(""ICAO Code"",                               r[34:36],      decoder.field_014),";
"      Field(""Section Code (2)"",                        r[36:38],      decoder.field_004),";
"      Field(""Continuation Record No"",                  r[38],         decoder.field_016),";
"      Field(""Application Type"",                        r[39],         decoder.field_091),";
"      Field(""Start/End Indicator"",                     r[40],         decoder.field_152),";
"      Field(""Start/End Date"",                          r[41:52],      decoder.field_153),";
"      Field(""Restr. Air ICAO Code"",                    r[66:68],      decoder.field_014),";
"      Field(""Restr. Air Type"",                         r[68],         decoder.field_128),";
"      Field(""Restr. Air Designation"",                  r[69:79],      decoder.field_129),";
"      Field(""Restr. Air Multiple Code"",                r[79],         decoder.field_130),";
"      Field(""Restr. Air ICAO Code (2)"",                r[80:82],      decoder.field_014),";
"      Field(""Restr. Air Type (2)"",                     r[82],         decoder.field_012),";
"      Field(""Restr. Air Designation (2)"",              r[83:93],      decoder.field_129),";
"      Field(""Restr. Air Multiple Code (2)"",            r[93],         decoder.field_130),";
"      Field(""Restr. Air ICAO Code (3)"",                r[94:96],      decoder.field_014),";
"      Field(""Restr. Air Type (3)"",                     r[96],         decoder.field_012),";
"      Field(""Restr. Air Designation (3)"",              r[97:107],     decoder.field_129),";
"      Field(""Restr. Air Multiple Code (3)"",            r[107],        decoder.field_130),";
"      Field(""Restr. Air ICAO Code (4)"",                r[108:110],    decoder.field_014),";
"      Field(""Restr. Air Type (4)"",                     r[110],        decoder.field_012),";
"      Field(""Restr. Air Designation (4)"",              r[111:121],    decoder.field_129),";
"      Field(""Restr. Air Link Continuation"",            r[122],        decoder.field_174),";
"      Field(""File Record No"",                          r[123:128],    decoder.field_031),";
"      Field(""Cycle Date"",                              r[128:132],    decoder.field_032)";
"    ]";
"";
"  # 4.1.6.4 Enroute Airways Flight Planning Continuation Records";
"  def read_flight_plan1(self, r):";
"    return [";
"      Field(""Record Type"",                             r[0],          decoder.field_002),";
"      Field(""Customer / Area Code"",                    r[1:4],        decoder.field_003),";
"      Field(""Section Code"",                            r[4:6],        decoder.field_004),";
"      Field(""Route Identifier"",                        r[13:18],      decoder.field_008),";
"      Field(""Sequence Number"",                         r[25:29],      decoder.field_012),";
"      Field(""Fix Identifier"",                          r[29:34],      decoder.field_013),";
"      Field(""ICAO Code"",                               r[34:36],      decoder.field_014),";
"      Field(""Section Code (2)"",                        r[36:38],      decoder.field_004),";
"      Field(""Continuation Record No"",                  r[38],         decoder.field_016),";
"      Field(""Waypoint Desc Code"",                      r[39:43],      decoder.field_017),";
"      Field(""Boundary Code"",                           r[43],         decoder.field_018),";
"      Field(""Route Type"",                              r[44],         decoder.field_007),";
"      Field(""Level"",                                   r[45],         decoder.field_019),";
"      Field(""Direction Restriction"",                   r[46],         decoder.field_115),";
"      Field(""Cruise Table Indicator"",                  r[47:49],      decoder.field_134),";
"      Field(""EU Indicator"",                            r[49],         decoder.field_164),";
"      Field(""Recommended NAVAID"",                      r[50:54],      decoder.field_023),";
"      Field(""ICAO Code (2)"",                           r[54:56],      decoder.field_014),";
"      Field(""RNP"",                                     r[56:59],      decoder.field_211),";
"      Field(""Theta"",                                   r[62:66],      decoder.field_024),";
"      Field(""Rho"",                                     r[66:70],      decoder.field_025),";
"      Field(""Outbound Magnetic Course"",                r[70:74],      decoder.field_026),";
"      Field(""Route Distance From"",                     r[74:78],      decoder.field_027),";
"      Field(""Inbound Magnetic Course"",                 r[78:82],      decoder.field_028),";
"      Field(""Minimum Altitude"",                        r[83:88],      decoder.field_030),";
"      Field(""Minimum Altitude (2)"",                    r[88:93],      decoder.field_030),";
"      Field(""Maximum Altitude"",                        r[93:98],      decoder.field_127),";
"      Field(""Fix Radius Transition Indicator"",         r[98:101],     decoder.field_254),";
"      Field(""File Record No"",                          r[123:128],    decoder.field_031),";
"      Field(""Cycle Date"",                              r[128:132],    decoder.field_032)";
"    ]"].

(* src/arinc424/definitions/EnrouteAirwaysRestriction.py *)
Definition text_EnrouteAirwaysRestriction : list string := [
"from arinc424.decoder import Field";
"import arinc424.decoder as decoder";
"";
"";
"# 4.1.21 Enroute Airways Restriction Records (EU)";
"class EnrouteAirwaysRestriction():";
"";
"  continuations = ['AE', 'TC', 'NR']";
"  name = 'Enroute Airways'";
"";
"  def application_type(self, line):";
"    return line[15:17]";
"";
"  def read(self, line, primary) -> list:";
"";
"    application = self.application_type(line)";
"";
"    if primary:";
"      match application:";
"        case 'AE':";
"          return self.primary_altitude_exclude(line)";
"        case 'TC':";
"          return self.primary_cruise_table(line)";
"        case 'SC':";
"          return self.primary_seasonal_closure(line)";
"        case 'NR':";
"          return self.primary_note_restriction(line)";
"        case _:";
"          raise ValueError(""Unknown Restricted Airway Type"")";
"    else:";
"      match application:";
"        case 'AE':";
"          return self.cont_altitude_exclude(line)";
"        case 'TC':";
"          return self.cont_cruise_table(line)";
"        case 'NR':";
"          return self.cont_note_restriction(line)";
"        case _:";
"          raise ValueError(""Unknown Restricted Airway Type"")";
"";
"  # 4.1.21.1 Enroute Airways Restriction Altitude Exclusion Primary Records";
"  #";
"  # Note 1: The standard length for the Route Identifier is";
"  # five characters. Some users envisage the need for";
"  # a six-character field. This reserved column will";
"  # permit this usage.";
"  #";
"  def primary_altitude_exclude(self, r):";
"    return [";
"      Field(""Record Type"",                             r[0],          decoder.field_002),";
"      Field(""Customer / Area Code"",                    r[1:4],        decoder.field_003),";
"      Field(""Section Code"",                            r[4:6],        decoder.field_004),";
"      Field(""Route Identifier"",                        r[6:11],       decoder.field_008),";
"      Field(""Restriction Identifier"",                  r[12:15],      decoder.field_154),";
"      Field(""Restriction Type"",                        r[15:17],      decoder.field_201),";
"      Field(""Continuation Record No"",                  r[17],         decoder.field_016),";
"      Field(""Start Fix Identifier"",                    r[18:23],      decoder.field_013),";
"      Field(""Start Fix ICAO Code"",                     r[23:25],      decoder.field_014),";
"      Field(""Start Fix Section Code"",                  r[25:27],      decoder.field_004),";
"      Field(""End Fix Identifier"",                      r[27:32],      decoder.field_013),";
"      Field(""End Fix ICAO Code"",                       r[32:34],      decoder.field_014),";
"      Field(""End Fix Section Code"",                    r[34:36],      decoder.field_004),";
"      Field(""Start Date"",                              r[37:44],      decoder.field_157),";
"      Field(""End Date"",                                r[44:51],      decoder.field_157),";
"      Field(""Time Code"",                               r[51],         decoder.field_131),";
"      Field(""Time Indicator"",                          r[52],         decoder.field_138),";
"      Field(""Time of Operation"",                       r[53:63],      decoder.field_195),";
"      Field(""Time of Operation"",                       r[63:73],      decoder.field_195),";
"      Field(""Time of Operation"",                       r[73:83],      decoder.field_195),";
"      Field(""Time of Operation"",                       r[83:93],      decoder.field_195),";
"      Field(""Exclusion Indicator"",                     r[93],         decoder.field_202),";
"      Field(""Units of Altitude"",                       r[94],         decoder.field_160),";
"      Field(""Restriction Altitude"",                    r[95:98],      decoder.field_161),";
"      Field(""Block Indicator"",                         r[98],         decoder.field_203),";
"      Field(""Restriction Altitude"",                    r[99:102],     decoder.field_161),";
"      Field(""Block Indicator"",                         r[102],        decoder.field_203),";
"      Field(""Restriction Altitude"",                    r[103:106],    decoder.field_161),";
"      Field(""Block Indicator"",                         r[106],        decoder.field_203),";
"      Field(""Restriction Altitude"",                    r[107:110],    decoder.field_161),";
"      Field(""Block Indicator"",                         r[110],        decoder.field_203),";
"      Field(""Restriction Altitude"",                    r[111:114],    decoder.field_161),";
"      Field(""Block Indicator"",                         r[114],        decoder.field_203),";
"      Field(""Restriction Altitude"",                    r[115:118],    decoder.field_161),";
"      Field(""Block Indicator"",                         r[118],        decoder.field_203),";
"      Field(""Restriction Altitude"",                    r[119:122],    decoder.field_161),";
"      Field(""Block Indicator"",                         r[122],        decoder.field_203),";
"      Field(""File Record No"",                          r[123:128],    decoder.field_031),";
"      Field(""Cycle Date"",                              r[128:132],    decoder.field_032)";
"    ]";
"";
"  def cont_altitude_exclude(self, r):";
"    return [";
"      Field(""Record Type"",                             r[0],          decoder.field_002),";
"      Field(""Customer / Area Code"",                    r[1:4],        decoder.field_003),";
"      Field(""Section Code"",                            r[4:6],        decoder.field_004),";
"      Field(""Route Identifier"",                        r[6:11],       decoder.field_008),";
"      Field(""Restriction Identifier"",                  r[12:15],      decoder.field_154),";
"      Field(""Restriction Type"",                        r[15:17],      decoder.field_201),";
"      Field(""Continuation Record No"",                  r[17],         decoder.field_016),";
"      Field(""Application Type"",                        r[18],         decoder.field_091),";
"      Field(""Time Code"",                               r[51],         decoder.field_131),";
"      Field(""Time Indicator"",                          r[52],         decoder.field_138),";
"      Field(""Time of Operation"",                       r[53:63],      decoder.field_195),";
"      Field(""Time of Operation (2)"",                   r[63:73],      decoder.field_195),";
"      Field(""Time of Operation (3)"",                   r[73:83],      decoder.field_195),";
"      Field(""Time of Operation (4)"",                   r[83:93],      decoder.field_195),";
"      Field(""Exclusion Operator"",                      r[93],         decoder.field_202),";
"      Field(""Units of Altitude"",                       r[94],         decoder.field_160),";
"      Field(""Restriction Altitude"",                    r[95:98],      decoder.field_161),";
"      Field(""Block Indicator"",                         r[98],         decoder.field_203),";
"      Field(""Restriction Altitude (2)"",                r[99:102],     decoder.field_161),";
"      Field(""Block Indicator (2)"",                     r[102],        decoder.field_203),";
"      Field(""Restriction Altitude (3)"",                r[103:106],    decoder.field_161),";
"      Field(""Block Indicator (3)"",                     r[106],        decoder.field_203),";
"      Field(""Restriction Altitude (4)"",                r[107:110],    decoder.field_161),";
"      Field(""Block Indicator (4)"",                     r[110],        decoder.field_203),";
"      Field(""Restriction Altitude (5)"",                r[111:114],    decoder.field_161),";
"      Field(""Block Indicator (5)"",                     r[114],        decoder.field_203),";
"      Field(""Restriction Altitude (6)"",                r[115:118],    decoder.field_161),";
"      Field(""Block Indicator (6)"",                     r[118],        decoder.field_203),";
"      Field(""Restriction Altitude (7)"",                r[119:122],    decoder.field_161),";
"      Field(""Block Indicator (7)"",                     r[122],        decoder.field_203),";
"      Field(""File Record No"",                          r[123:128],    decoder.field_031),";
"      Field(""Cycle Date"",                              r[128:132],    decoder.field_032)";
"    ]";
"";
"  # 4.1.21A.1 Enroute Airways Restriction Note Restriction Primary Records";
"  #";
"  # Note 1: The standard length for the Route Identifier is";
"  # five characters. Some users envisage the need";
"  # for a six-character field. This reserved column";
"  # will permit this usage.";
"  #";
"  def primary_note_restriction(self, r):";
"    return [";
"      Field(""Record Type"",                             r[0],          decoder.field_002),";
"      Field(""Customer / Area Code"",                    r[1:4],        decoder.field_003),";
"      Field(""Section Code"",                            r[4:6],        decoder.field_004),";
"      Field(""Route Identifier"",                        r[7:11],       decoder.field_008),";
"      Field(""Restriction Identifier"",                  r[12:15],      decoder.field_154),";
"      Field(""Restriction Type"",                        r[15:17],      decoder.field_201),";
"      Field(""Continuation Record No"",                  r[17],         decoder.field_016),";
"      Field(""Start Fix Identifier"",                    r[18:23],      decoder.field_013),";
"      Field(""Start Fix ICAO Code"",                     r[23:25],      decoder.field_014),";
"      Field(""Start Fix Section Code"",                  r[25],         decoder.field_004),";
"      Field(""End Fix Identifier"",                      r[27:32],      decoder.field_013),";
"      Field(""End Fix ICAO Code"",                       r[32:34],      decoder.field_014),";
"      Field(""End Fix Section Code"",                    r[34:36],      decoder.field_004),";
"      Field(""Start Date"",                              r[37:44],      decoder.field_157),";
"      Field(""End Date"",                                r[44:51],      decoder.field_157),";
"      Field(""Restriction Notes"",                       r[51:120],     decoder.field_163),";
"      Field(""File Record No"",                          r[123:128],    decoder.field_031),";
"      Field(""Cycle Date"",                              r[128:132],    decoder.field_032)";
"    ]";
"";
"  # 4.1.21A.2 Enroute Airways Restriction Note Restriction Continuation Records";
"  def cont_note_restriction(self, r):";
"    return [";
"      Field(""Record Type"",                             r[0],          decoder.field_002),";
"      Field(""Customer / Area Code"",                    r[1:4],        decoder.field_003),";
"      Field(""Section Code"",                            r[4:6],        decoder.field_004),";
"      Field(""Route Identifier"",                        r[7:11],       decoder.field_008),";
"      Field(""Restriction Identifier"",                  r[12:15],      decoder.field_154),";
"      Field(""Restriction Type"",                        r[15:17],      decoder.field_201),";
"      Field(""Continuation Record No"",                  r[17],         decoder.field_016),";
"      Field(""Application Type"",                        r[18],         decoder.field_091),";
"      Field(""Restriction Notes"",                       r[51:120],     decoder.field_163),";
"      Field(""File Record No"",                          r[123:128],    decoder.field_031),";
"      Field(""Cycle Date"",                              r[128:132],    decoder.field_032)";
"    ]";
"";
"  # 4.1.21B.1 Enroute Airways Restriction Seasonal Closure Primary Records";
"  #";
"  # Note 1: The standard length for the Route Identifier is";
"  # five characters. Some users envisage the need for";
"  # a six-character field. This reserved column will";
"  # permit this usage.";
"  #";
"  def primary_seasonal_closure(self, r):";
"    return [";
"      Field(""Record Type"",                             r[0],          decoder.field_002),";
"      Field(""Customer / Area Code"",                    r[1:4],        decoder.field_003),";
"      Field(""Section Code"",                            r[4:6],        decoder.field_004),";
"      Field(""Route Identifier"",                        r[6:11],       decoder.field_008),";
"      Field(""Restriction Identifier"",                  r[12:15],      decoder.field_154),";
"      Field(""Restriction Type"",                        r[15:17],      decoder.field_201),";
"      Field(""Continuation Record No"",                  r[17],         decoder.field_016),";
"      Field(""Start Fix Identifier"",                    r[18:23],      decoder.field_013),";
"      Field(""Start Fix ICAO Code"",                     r[23:25],      decoder.field_014),";
"      Field(""Start Fix Section Code"",                  r[25:27],      decoder.field_004),";
"      Field(""End Fix Identifier"",                      r[27:32],      decoder.field_013),";
"      Field(""End Fix ICAO Code"",                       r[32:34],      decoder.field_014),";
"      Field(""End Fix Section Code"",                    r[34:36],      decoder.field_004),";
"      Field(""Start Date"",                              r[37:44],      decoder.field_157),";
"      Field(""End Date"",                                r[44:51],      decoder.field_157),";
"      Field(""Time Code"",                               r[51],         decoder.field_131),";
"      Field(""Time Indicator"",                          r[52],         decoder.field_138),";
"      Field(""Time of Operation"",                       r[53:63],      decoder.field_195),";
"      Field(""Time of Operation (2)"",                   r[63:73],      decoder.field_195),";
"      Field(""Time of Operation (3)"",                   r[73:83],      decoder.field_195),";
"      Field(""Time of Operation (4)"",                   r[83:93],      decoder.field_195),";
"      Field(""Cruise Table Ident"",                      r[93:95],      decoder.field_134),";
"      Field(""File Record No"",                          r[123:128],    decoder.field_031),";
"      Field(""Cycle Date"",                              r[128:132],    decoder.field_032)";
"    ]";
"";
"  # 4.1.21C.1 Enroute Airways Restriction Cruising Table Replacement Primary Records";
"  #";
"  # Note 1: The standard length for the Route Identifier is";
"  # five characters. Some users envisage the need for";
"  # a six-character field. This reserved column will";
"  # permit this usage.";
"  #";
"  def primary_cruise_table(self, r):";
"    return [";
"      Field(""Record Type"",                             r[0],          decoder.field_002),";
"      Field(""Customer / Area Code"",                    r[1:4],        decoder.field_003),";
"      Field(""Section Code"",                            r[4:6],        decoder.field_004),";
"      Field(""Route Identifier"",                        r[6:11],       decoder.field_008),";
"      Field(""Restriction Identifier"",                  r[12:15],      decoder.field_154),";
"      Field(""Restriction Type"",                        r[15:17],      decoder.field_201),";
"      Field(""Continuation Record No"",                  r[17],         decoder.field_016),";
"      Field(""Start Fix Identifier"",                    r[18:23],      decoder.field_013),";
"      Field(""Start Fix ICAO Code"",                     r[23:25],      decoder.field_014),";
"      Field(""Start Fix Section Code"",                  r[25:27],      decoder.field_004),";
"      Field(""End Fix Identifier"",                      r[27:32],      decoder.field_013),";
"      Field(""End Fix ICAO Code"",                       r[32:34],      decoder.field_014),";
"      Field(""End Fix Section Code"",                    r[34:36],      decoder.field_004),";
"      Field(""Start Date"",                              r[37:44],      decoder.field_157),";
"      Field(""End Date"",                                r[44:51],      decoder.field_157),";
"      Field(""Time Code"",                               r[51],         decoder.field_131),";
"      Field(""Time Indicator"",                          r[52],         decoder.field_138),";
"      Field(""Time of Operation"",                       r[53:63],      decoder.field_195),";
"      Field(""Time of Operation (2)"",                   r[63:73],      decoder.field_195),";
"      Field(""Time of Operation (3)"",                   r[73:83],      decoder.field_195),";
"      Field(""Time of Operation (4)"",                   r[83:93],      decoder.field_195),";
"      Field(""Cruise Table Ident"",                      r[93:95],      decoder.field_134),";
"      Field(""File Record No"",                          r[123:128],    decoder.field_031),";
"      Field(""Cycle Date"",                              r[128:132],    decoder.field_032)";
"    ]";
"";
"  # 4.1.21C.2 Enroute Airways Restriction Cruising Table Replacement Continuation Records";
"  def cont_cruise_table(self, r):";
"    return [";
"      Field(""Record Type"",                             r[0],          decoder.field_002),";
"      Field(""Customer / Area Code"",                    r[1:4],        decoder.field_003),";
"      Field(""Section Code"",                            r[4:6],        decoder.field_004),";
"      Field(""Route Identifier"",                        r[6:11],       decoder.field_008),";
"      Field(""Restriction Identifier"",                  r[12:15],      decoder.field_154),";
"      Field(""Restriction Type"",                        r[15:17],      decoder.field_201),";
"      Field(""Continuation Record No"",                  r[17],         decoder.field_016),";
"      Field(""Application Type"",                        r[18],         decoder.field_091),";
"      Field(""Time Code"",                               r[51],         decoder.field_131),";
"      Field(""Time Indicator"",                          r[52],         decoder.field_138),";
"      Field(""Time of Operation"",                       r[53:63],      decoder.field_195),";
"      Field(""Time of Operation (2)"",                   r[63:73],      decoder.field_195),";
"      Field(""Time of Operation (3)"",                   r[73:83],      decoder.field_195),";
"      Field(""Time of Operation (4)"",                   r[83:93],      decoder.field_195),";
"      Field(""Cruise Table Ident"",                      r[93:95],      decoder.field_134),";
"      Field(""File Record No"",                          r[123:128],    decoder.field_031),";
"      Field(""Cycle Date"",                              r[128:132],    decoder.field_032)";
"    ]"].

(* src/arinc424/definitions/EnrouteCommunications.py *)
Definition text_EnrouteCommunications : list string := [
"from arinc424.decoder import Field";
"import arinc424.decoder as decoder";
"";
"";
"# 4.1.23 Enroute Communications Records (EV)";
"class EnrouteCommunications():";
"";
"  cont_idx = 55";
"  app_idx = 56";
"  continuations = [' ', 'T']";
"  name = 'Enroute Communications'";
"";
"  def application_type(self, line):";
"    return line[self.app_idx]";
"";
"  def read(self, line, primary) -> list:";
"";
"    if primary:";
"      return self.read_primary(line)";
"";
"    application = line[self.app_idx]";
"    match application:";
"      case ' ':";
"        return self.read_cont(line)";
"      case 'T':";
"        return self.read_timeop(line)";
"      case _:";
"        raise ValueError('{}\n{}\n{}'.format(""Unknown Application"", application, line))";
"";
"  # 4.1.23.1 Enroute Communications Primary Records";
"  def read_primary(self, r):";
"    return [";
"      Field(""Record Type"",                         r[0],          decoder.field_002),";
"      Field(""Customer / Area Code"",                r[1:4],        decoder.field_003),";
"      Field(""Section Code"",                        r[4:6],        decoder.field_004),";
"      Field(""FIR/RDO Ident"",                       r[6:10],       decoder.field_190),";
"      Field(""FIR/UIR Address"",                     r[10:14],      decoder.field_151),";
"      Field(""Indicator"",                           r[14],         decoder.field_117),";
"      Field(""Remote Name"",                         r[18:43],      decoder.field_189),";
"      Field(""Communications Type"",                 r[43:46],      decoder.field_101),";
"      Field(""Comm Frequency"",                      r[46:53],      decoder.field_103),";
"      Field(""Guard/Transmit"",                      r[53],         decoder.field_182),";
"      Field(""Frequency Units"",                     r[54],         decoder.field_104),";
"      Field(""Continuation Record No"",              r[55],         decoder.field_016),";
"      Field(""Service Indicator"",                   r[56:59],      decoder.field_106),";
"      Field(""Radar Service"",                       r[59],         decoder.field_102),";
"      Field(""Modulation"",                          r[60],         decoder.field_198),";
"      Field(""Signal Emission"",                     r[61],         decoder.field_199),";
"      Field(""Latitude"",                            r[62:71],      decoder.field_036),";
"      Field(""Longitude"",                           r[71:81],      decoder.field_037),";
"      Field(""Magnetic Variation"",                  r[81:86],      decoder.field_039),";
"      Field(""Facility Elevation"",                  r[86:91],      decoder.field_092),";
"      Field(""H24 Indicator"",                       r[91],         decoder.field_181),";
"      Field(""Altitude Description"",                r[92],         decoder.field_029),";
"      Field(""Communication Altitude"",              r[93:98],      decoder.field_184),";
"      Field(""Communication Altitude (2)"",          r[98:103],     decoder.field_184),";
"      Field(""Remote Facility"",                     r[103:107],    decoder.field_200),";
"      Field(""ICAO Code"",                           r[107:109],    decoder.field_014),";
"      Field(""Section Code (2)"",                    r[109:111],    decoder.field_004),";
"      Field(""File Record No"",                      r[123:128],    decoder.field_031),";
"      Field(""Cycle Date"",                          r[128:132],    decoder.field_032)";
"    ]";
"";
"  # 4.1.23.2 Enroute Communications Continuation Records";
"  def read_cont(self, r):";
"    return [";
"      Field(""Record Type"",                         r[0],          decoder.field_002),";
"      Field(""Customer / Area Code"",                r[1:4],        decoder.field_003),";
"      Field(""Section Code"",                        r[4:6],        decoder.field_004),";
"      Field(""FIR/RDO Ident"",                       r[6:10],       decoder.field_190),";
"      Field(""FIR/UIR Address"",                     r[10:14],      decoder.field_151),";
"      Field(""Indicator"",                           r[14],         decoder.field_117),";
"      Field(""Remote Name"",                         r[18:43],      decoder.field_189),";
"      Field(""Communications Type"",                 r[43:46],      decoder.field_101),";
"      Field(""Comm Frequency"",                      r[46:53],      decoder.field_103),";
"      Field(""Guard/Transmit"",                      r[53],         decoder.field_182),";
"      Field(""Frequency Units"",                     r[54],         decoder.field_104),";
"      Field(""Continuation Record No"",              r[55],         decoder.field_016),";
"      Field(""Application Type"",                    r[56],         decoder.field_091),";
"      Field(""Time Code"",                           r[57],         decoder.field_131),";
"      Field(""NOTAM"",                               r[58],         decoder.field_132),";
"      Field(""Time Indicator"",                      r[59],         decoder.field_138),";
"      Field(""Time of Operation"",                   r[60:70],      decoder.field_195),";
"      Field(""Call Sign"",                           r[93:123],     decoder.field_105),";
"      Field(""File Record No"",                      r[123:128],    decoder.field_031),";
"      Field(""Cycle Date"",                          r[128:132],    decoder.field_032)";
"    ]";
"";
"  # 4.1.23.3 Enroute Communications Continuation Records";
"  def read_timeop(self, r):";
"    return [";
"      Field(""Record Type"",                         r[0],          decoder.field_002),";
"      Field(""Customer / Area Code"",                r[1:4],        decoder.field_003),";
"      Field(""Section Code"",                        r[4:6],        decoder.field_004),";
"      Field(""FIR/RDO Ident"",                       r[6:10],       decoder.field_190),";
"      Field(""FIR/UIR Address"",                     r[10:14],      decoder.field_151),";
"      Field(""Indicator"",                           r[14],         decoder.field_117),";
"      Field(""Remote Name"",                         r[18:43],      decoder.field_189),";
"      Field(""Communications Type"",                 r[43:46],      decoder.field_101),";
"      Field(""Comm Frequency"",                      r[46:53],      decoder.field_103),";
"      Field(""Guard/Transmit"",                      r[53],         decoder.field_182),";
"      Field(""Frequency Units"",                     r[54],         decoder.field_104),";
"      Field(""Continuation Record No"",              r[55],         decoder.field_016),";
"      Field(""Application Type"",                    r[56],         decoder.field_091),";
"      Field(""Time of Operation"",                   r[60:70],      decoder.field_195),";
"      Field(""Time of Operation (2)"",               r[70:80],      decoder.field_195),";
"      Field(""Time of Operation (3)"",               r[80:90],      decoder.field_195),";
"      Field(""Time of Operation (4)"",               r[90:100],     decoder.field_195),";
"      Field(""Time of Operation (5)"",               r[100:110],    decoder.field_195),";
"      Field(""Time of Operation (6)"",               r[110:120],    decoder.field_195),";
"      Field(""File Record No"",                      r[123:128],    decoder.field_031),";
"      Field(""Cycle Date"",                          r[128:132],    decoder.field_032)";
"    ]"].

(* src/arinc424/definitions/FIRUIR.py *)
Definition text_FIRUIR : list string := [
"from arinc424.decoder import Field";
"import arinc424.decoder as decoder";
"";
"";
"# 4.1.17 FIR/UIR Records (UF)";
"class FIRUIR():";
"";
"  cont_idx = 19";
"  app_idx = 20";
"  continuations = ['A']";
"  name = 'FIR/UIR'";
"";
"  def application_type(self, line):";
"    return line[self.app_idx]";
"";
"  def read(self, line, primary) -> list:";
"";
"    if primary:";
"      return self.read_primary(line)";
"";
"    application = line[self.app_idx]";
"    match application:";
"      case 'A':";
"        return self.read_cont(line)";
"      case _:";
"        return []";
"";
"  # 4.1.17.1 FIR/UIR Primary Records";
"  def read_primary(self, r):";
"    return [";
"      Field(""Record Type"",                         r[0],          decoder.field_002),";
"      Field(""Customer / Area Code"",                r[1:4],        decoder.field_003),";
"      Field(""Section Code"",                        r[4:6],        decoder.field_004),";
"      Field(""FIR/UIR Identifier"",                  r[6:10],       decoder.field_116),";
"      Field(""FIR/UIR Address"",                     r[10:14],      decoder.field_151),";
"      Field(""FIR/UIR Indicator"",                   r[14],         decoder.field_117),";
"      Field(""Sequence Number"",                     r[15:19],      decoder.field_012),";
"      Field(""Continuation Record No"",              r[19],         decoder.field_016),";
"      Field(""Adjacent FIR Identifier"",             r[20:24],      decoder.field_116),";
"      Field(""Adjacent UIR Identifier"",             r[24:28],      decoder.field_116),";
"      Field(""Reporting Units Speed"",               r[28],         decoder.field_122),";
"      Field(""Reporting Units Altitude"",            r[29],         decoder.field_123),";
"      Field(""Entry Report"",                        r[30],         decoder.field_124),";
"      Field(""Boundary Via"",                        r[32:34],      decoder.field_118),";
"      Field(""FIR/UIR Latitude"",                    r[34:43],      decoder.field_036),";
"      Field(""FIR/UIR Longitude"",                   r[43:53],      decoder.field_037),";
"      Field(""Arc Origin Latitude"",                 r[53:62],      decoder.field_036),";
"      Field(""Arc Origin Longitude"",                r[62:72],      decoder.field_037),";
"      Field(""Arc Distance"",                        r[72:76],      decoder.field_119),";
"      Field(""Arc Bearing"",                         r[76:80],      decoder.field_120),";
"      Field(""FIR Upper Limit"",                     r[80:85],      decoder.field_121),";
"      Field(""UIR Lower Limit"",                     r[85:90],      decoder.field_121),";
"      Field(""UIR Upper Limit"",                     r[90:95],      decoder.field_121),";
"      Field(""Cruise Table Ind"",                    r[95:97],      decoder.field_134),";
"      Field(""FIR/UIR Name"",                        r[98:123],     decoder.field_125),";
"      Field(""File Record No"",                      r[123:128],    decoder.field_031),";
"      Field(""Cycle Date"",                          r[128:132],    decoder.field_032)";
"    ]";
"";
"  # 4.1.17.2 FIR/UIR Continuation Records";
"  def read_cont(self, r):";
"    return [";
"      Field(""Record Type"",                         r[0],          decoder.field_002),";
"      Field(""Customer / Area Code"",                r[1:4],        decoder.field_003),";
"      Field(""Section Code"",                        r[4:6],        decoder.field_004),";
"      Field(""FIR/UIR Identifier"",                  r[6:10],       decoder.field_116),";
"      Field(""FIR/UIR Address"",                     r[10:14],      decoder.field_151),";
"      Field(""FIR/UIR Indicator"",                   r[14],         decoder.field_117),";
"      Field(""Sequence Number"",                     r[15:19],      decoder.field_012),";
"      Field(""Continuation Record No"",              r[19],         decoder.field_016),";
"      Field(""Application Type"",                    r[20],         decoder.field_091),";
"      Field(""File Record No"",                      r[123:128],    decoder.field_031),";
"      Field(""Cycle Date"",                          r[128:132],    decoder.field_032)";
"    ]"].

(* src/arinc424/definitions/FlightPlanning.py *)
Definition text_FlightPlanning : list string := [
"from arinc424.decoder import Field";
"import arinc424.decoder as decoder";
"";
"";
"# 4.1.27 Flight Planning Arrival/Departure Data Records (PR)";
"class FlightPlanning():";
"";
"  cont_idx = 69";
"  app_idx = 70";
"  continuations = ['A', 'T']";
"  name = 'Flight Planning Arrival/Departure'";
"";
"  def application_type(self, line):";
"    return line[self.app_idx]";
"";
"  def read(self, line, primary) -> list:";
"";
"    if primary:";
"      return self.read_primary(line)";
"";
"    application = line[self.app_idx]";
"    match application:";
"      case 'A':";
"        return self.read_cont(line)";
"      case 'T':";
"        return self.read_timeop(line)";
"      case _:";
"        return []";
"";
"  # 4.1.27.1 Flight Planning Primary Records";
"  def read_primary(self, r):";
"    return [";
"      Field(""Record Type"",                            r[0],           decoder.field_002),";
"      Field(""Customer / Area Code"",                   r[1:4],         decoder.field_003),";
"      Field(""Section Code"",                           r[4]+r[12],     decoder.field_004),";
"      Field(""Airport Identifier"",                     r[6:10],        decoder.field_006),";
"      Field(""ICAO Code"",                              r[10:12],       decoder.field_014),";
"      Field(""SID/STAR/Approach Identifier"",           r[13:19],       decoder.field_009),";
"      Field(""Procedure Type"",                         r[19],          decoder.field_230),";
"      Field(""Runway Transition Identifier"",           r[20:25],       decoder.field_011),";
"      Field(""Runway Transition Fix"",                  r[25:30],       decoder.field_013),";
"      Field(""ICAO Code (2)"",                          r[30:32],       decoder.field_014),";
"      Field(""Section Code (2)"",                       r[32:34],       decoder.field_004),";
"      Field(""Runway Transition Along Track Dist"",     r[34:37],       decoder.field_231),";
"      Field(""Common Segment Transition Fix"",          r[37:42],       decoder.field_013),";
"      Field(""ICAO Code (3)"",                          r[42:44],       decoder.field_014),";
"      Field(""Section Code (3)"",                       r[44:46],       decoder.field_004),";
"      Field(""Common Segment Along Track Dist"",        r[46:49],       decoder.field_231),";
"      Field(""Enroute Transition Identifier"",          r[49:54],       decoder.field_011),";
"      Field(""Enroute Transition Fix"",                 r[54:59],       decoder.field_013),";
"      Field(""ICAO Code (4)"",                          r[59:61],       decoder.field_014),";
"      Field(""Section Code (4)"",                       r[61:63],       decoder.field_004),";
"      Field(""Enroute Transition Along Track Dist"",    r[63:66],       decoder.field_231),";
"      Field(""Sequence Number"",                        r[66:69],       decoder.field_012),";
"      Field(""Continuation Number"",                    r[69],          decoder.field_016),";
"      Field(""Number of Engines"",                      r[70:74],       decoder.field_232),";
"      Field(""Turboprop/Jet Indicator"",                r[74],          decoder.field_233),";
"      Field(""RNAV Flag"",                              r[75],          decoder.field_234),";
"      Field(""ATC Weight Category"",                    r[76],          decoder.field_235),";
"      Field(""ATC Identifier"",                         r[77:84],       decoder.field_236),";
"      Field(""Time Code"",                              r[84],          decoder.field_131),";
"      Field(""Procedure Description"",                  r[85:100],      decoder.field_237),";
"      Field(""Leg Type Code"",                          r[100:102],     decoder.field_238),";
"      Field(""Reporting Code"",                         r[102],         decoder.field_239),";
"      Field(""Initial Departure Magnetic Course"",      r[103:107],     decoder.field_026),";
"      Field(""Altitude Description"",                   r[107],         decoder.field_029),";
"      Field(""Altitude"",                               r[108:111],     decoder.field_240),";
"      Field(""Altitude (2)"",                           r[111:114],     decoder.field_240),";
"      Field(""Speed Limit"",                            r[114:117],     decoder.field_072),";
"      Field(""Initial Cruise Table"",                   r[117:119],     decoder.field_134),";
"      Field(""Speed Limit Description"",                r[119],         decoder.field_261),";
"      Field(""File Record No"",                         r[123:128],     decoder.field_031),";
"      Field(""Cycle Date"",                             r[128:132],     decoder.field_032)";
"    ]";
"";
"  # 4.1.27.2 Flight Planning Continuation Records";
"  def read_cont(self, r):";
"    return [";
"      Field(""Record Type"",                            r[0],           decoder.field_002),";
"      Field(""Customer / Area Code"",                   r[1:4],         decoder.field_003),";
"      Field(""Section Code"",                           r[4]+r[12],     decoder.field_004),";
"      Field(""Airport Identifier"",                     r[6:10],        decoder.field_006),";
"      Field(""ICAO Code"",                              r[10:12],       decoder.field_014),";
"      Field(""SID/STAR/Approach Identifier"",           r[13:19],       decoder.field_009),";
"      Field(""Procedure Type"",                         r[19],          decoder.field_230),";
"      Field(""Runway Transition Identifier"",           r[20:25],       decoder.field_011),";
"      Field(""Runway Transition Fix"",                  r[25:30],       decoder.field_013),";
"      Field(""ICAO Code (2)"",                          r[30:32],       decoder.field_014),";
"      Field(""Section Code (2)"",                       r[32:34],       decoder.field_004),";
"      Field(""Runway Transition Along Track Dist"",     r[34:37],       decoder.field_231),";
"      Field(""Common Segment Transition Fix"",          r[37:42],       decoder.field_013),";
"      Field(""ICAO Code (3)"",                          r[42:44],       decoder.field_014),";
"      Field(""Section Code (3)"",                       r[44:46],       decoder.field_004),";
"      Field(""Common Segment Along Track Dist"",        r[46:49],       decoder.field_231),";
"      Field(""Enroute Transition Identifier"",          r[49:54],       decoder.field_011),";
"      Field(""Enroute Transition Fix"",                 r[54:59],       decoder.field_013),";
"      Field(""ICAO Code (4)"",                          r[59:61],       decoder.field_014),";
"      Field(""Section Code (4)"",                       r[61:63],       decoder.field_004),";
"      Field(""Enroute Transition Along Track Dist"",    r[63:66],       decoder.field_231),";
"      Field(""Sequence Number"",                        r[66:69],       decoder.field_012),";
"      Field(""Continuation Number"",                    r[69],          decoder.field_016),";
"      Field(""Application Type"",                       r[70],          decoder.field_091),";
"      Field(""Intermediate Fix Identifier"",            r[71:76],       decoder.field_013),";
"      Field(""ICAO Code (5)"",                          r[76:78],       decoder.field_014),";
"      Field(""Section Code (5)"",                       r[91:93],       decoder.field_004),";
"      Field(""Intermediate Distance"",                  r[106:109],     decoder.field_231),";
"      Field(""Fix Related Transition Code"",            r[109],         decoder.field_241),";
"      Field(""Intermediate Fix Identifier"",            r[110:115],     decoder.field_013),";
"      Field(""ICAO Code (6)"",                          r[115:117],     decoder.field_014),";
"      Field(""Section Code (6)"",                       r[118],         decoder.field_004),";
"      Field(""Intermediate Distance"",                  r[119:122],     decoder.field_231),";
"      Field(""Fix Related Transition Code"",            r[122],         decoder.field_241),";
"      Field(""File Record No"",                         r[123:128],     decoder.field_031),";
"      Field(""Cycle Date"",                             r[128:132],     decoder.field_032)";
"    ]";
"";
"  # 4.1.27.3 Flight Planning Continuation Records";
"  def read_timeop(self, r):";
"    return [";
"      Field(""Record Type"",                            r[0],           decoder.field_002),";
"      Field(""Customer / Area Code"",                   r[1:4],         decoder.field_003),";
"      Field(""Section Code"",                           r[4]+r[12],     decoder.field_004),";
"      Field(""Airport Identifier"",                     r[6:10],        decoder.field_006),";
"      Field(""ICAO Code"",                              r[10:12],       decoder.field_014),";
"      Field(""SID/STAR/Approach Identifier"",           r[13:19],       decoder.field_009),";
"      Field(""Procedure Type"",                         r[19],          decoder.field_230),";
"      Field(""Runway Transition Identifier"",           r[20:25],       decoder.field_011),";
"      Field(""Runway Transition Fix"",                  r[25:30],       decoder.field_013),";
"      Field(""ICAO Code (2)"",                          r[30:32],       decoder.field_014),";
"      Field(""Section Code (2)"",                       r[32:34],       decoder.field_004),";
"      Field(""Runway Transition Along Track Dist"",     r[34:37],       decoder.field_231),";
"      Field(""Common Segment Transition Fix"",          r[37:42],       decoder.field_013),";
"      Field(""ICAO Code (3)"",                          r[42:44],       decoder.field_014),";
"      Field(""Section Code (3)"",                       r[44:46],       decoder.field_004),";
"      Field(""Common Segment Along Track Dist"",        r[46:49],       decoder.field_231),";
"      Field(""Enroute Transition Identifier"",          r[49:54],       decoder.field_011),";
"      Field(""Enroute Transition Fix"",                 r[54:59],       decoder.field_013),";
"      Field(""ICAO Code (4)"",                          r[59:61],       decoder.field_014),";
"      Field(""Section Code (4)"",                       r[61:63],       decoder.field_004),";
"      Field(""Enroute Transition Along Track Dist"",    r[63:66],       decoder.field_231),";
"      Field(""Sequence Number"",                        r[66:69],       decoder.field_012),";
"      Field(""Continuation Number"",                    r[69],          decoder.field_016),";
"      Field(""Application Type"",                       r[70],          decoder.field_091),";
"      Field(""Time Code"",                              r[71],          decoder.field_131),";
"      Field(""Time Indicator"",                         r[72],          decoder.field_138),";
"      Field(""Time of Operation"",                      r[73:83],       decoder.field_195),";
"      Field(""Time of Operation (1)"",                  r[83:93],       decoder.field_195),";
"      Field(""Time of Operation (2)"",                  r[93:103],      decoder.field_195),";
"      Field(""Time of Operation (3)"",                  r[103:113],     decoder.field_195),";
"      Field(""Time of Operation (4)"",                  r[113:123],     decoder.field_195),";
"      Field(""File Record No"",                         r[123:128],     decoder.field_031),";
"      Field(""Cycle Date"",                             r[128:132],     decoder.field_032)";
"    ]"].

(* src/arinc424/definitions/GLS.py *)
Definition text_GLS : list string := [
"from arinc424.decoder import Field";
"import arinc424.decoder as decoder";
"";
"";
"# 4.1.29 GLS Record (PT)";
"class GLS():";
"";
"  cont_idx = 21";
"  app_idx = 22";
"  continuations = ['A']";
"  name = 'GLS'";
"";
"  def application_type(self, line):";
"    return line[self.app_idx]";
"";
"  def read(self, line, primary) -> list:";
"";
"    if primary:";
"      return self.read_primary(line)";
"";
"    application = line[self.app_idx]";
"    match application:";
"      case 'A':";
"        return self.read_cont(line)";
"      case _:";
"        return []";
"";
"  # 4.1.29.1 GLS Primary Records";
"  def read_primary(self, r):";
"      return [";
"          Field(""Record Type"",                         r[0],          decoder.field_002),";
"          Field(""Customer / Area Code"",                r[1:4],        decoder.field_003),";
"          Field(""Section Code"",                        r[4]+r[12],    decoder.field_004),";
"          Field(""Airport and Heliport Identifier"",     r[6:10],       decoder.field_006),";
"          Field(""ICAO Code"",                           r[10:12],      decoder.field_014),";
"          Field(""GLS Ref Path Identifier"",             r[13:17],      decoder.field_044),";
"          Field(""GLS Category"",                        r[17],         decoder.field_080),";
"          Field(""Continuation Record No"",              r[18:21],      decoder.field_016),";
"          Field(""GLS Channel"",                         r[22:27],      decoder.field_244),";
"          Field(""Runway Identifier"",                   r[27:32],      decoder.field_046),";
"          Field(""GLS Approach Bearing"",                r[51:55],      decoder.field_047),";
"          Field(""Station Latitude"",                    r[55:64],      decoder.field_036),";
"          Field(""Station Longitude"",                   r[64:74],      decoder.field_037),";
"          Field(""GLS Station Ident"",                   r[74:78],      decoder.field_243),";
"          Field(""Service Volume Radius"",               r[83:85],      decoder.field_245),";
"          Field(""TDMA Slots"",                          r[85:87],      decoder.field_246),";
"          Field(""GLS Approach Slope"",                  r[87:90],      decoder.field_052),";
"          Field(""Magnetic Variation"",                  r[90:95],      decoder.field_039),";
"          Field(""Station Elevation"",                   r[97:102],     decoder.field_074),";
"          Field(""Datum Code"",                          r[102:105],    decoder.field_197),";
"          Field(""Station Type"",                        r[105:108],    decoder.field_247),";
"          Field(""Station Elevation WGS"",               r[110:115],    decoder.field_248),";
"          Field(""File Record No"",                      r[123:128],    decoder.field_031),";
"          Field(""Cycle Date"",                          r[128:132],    decoder.field_032)";
"      ]";
"";
"  # 4.1.29.2 GLS Continuation Records";
"  def read_cont(self, r):";
"      return [";
"          Field(""Record Type"",                         r[0],          decoder.field_002),";
"          Field(""Customer / Area Code"",                r[1:4],        decoder.field_003),";
"          Field(""Section Code"",                        r[4]+r[12],    decoder.field_004),";
"          Field(""Airport and Heliport Identifier"",     r[6:10],       decoder.field_006),";
"          Field(""ICAO Code"",                           r[10:12],      decoder.field_014),";
"          Field(""GLS Ref Path Identifier"",             r[13:17],      decoder.field_044),";
"          Field(""GLS Category"",                        r[17],         decoder.field_080),";
"          Field(""Continuation Record No"",              r[18:21],      decoder.field_016),";
"          Field(""Application Type"",                    r[22],         decoder.field_091),";
"          Field(""File Record No"",                      r[123:128],    decoder.field_031),";
"          Field(""Cycle Date"",                          r[128:132],    decoder.field_032)";
"      ]"].

(* src/arinc424/definitions/GeoReferenceTable.py *)
Definition text_GeoReferenceTable : list string := [
"from arinc424.decoder import Field";
"import arinc424.decoder as decoder";
"";
"";
"# 4.1.26 Geographical Reference Table Records (TG)";
"#";
"# The Geographical Reference Table file contains information";
"# that permits the cross referencing of otherwise undefined";
"# geographical entities and Route Identifiers in the Preferred";
"# Route file. The contents are not standardized and may vary";
"# from data supplier to data supplier. The contents of such a";
"# file can only be used in conjunction with the Preferred";
"# Route file of the same database in which the file is";
"# presented.";
"#";
"class GeoReferenceTable():";
"";
"  cont_idx = 38";
"  app_idx = 39";
"  continuations = ['A']";
"  name = 'Geographical Reference Table'";
"";
"  def application_type(self, line):";
"    return line[self.app_idx]";
"";
"  def read(self, line, primary) -> list:";
"";
"    if primary:";
"      return self.read_primary(line)";
"";
"    application = line[self.app_idx]";
"    match application:";
"      case 'A':";
"        return self.read_cont(line)";
"      case _:";
"        return []";
"";
"  # 4.1.26.1 Geographical Reference Table Primary Records";
"  def read_primary(self, r):";
"    return [";
"      Field(""Record Type"",                        r[0],           decoder.field_002),";
"      Field(""Customer / Area Code"",               r[1:4],         decoder.field_003),";
"      Field(""Section Code"",                       r[4:6],         decoder.field_004),";
"      Field(""Geographical Ref Table ID"",          r[6:8],         decoder.field_218),";
"      Field(""Sequence Number"",                    r[8],           decoder.field_012),";
"      Field(""Geographical Entity"",                r[9:38],        decoder.field_219),";
"      Field(""Continuation Record No"",             r[38],          decoder.field_016),";
"      Field(""Preferred Route Ident"",              r[40:50],       decoder.field_008),";
"      Field(""Preferred Route Use Ind"",            r[50:52],       decoder.field_220),";
"      Field(""Preferred Route Ident (2)"",          r[52:62],       decoder.field_008),";
"      Field(""Preferred Route Use Ind (2)"",        r[62:64],       decoder.field_220),";
"      Field(""Preferred Route Ident (3)"",          r[64:74],       decoder.field_008),";
"      Field(""Preferred Route Use Ind (3)"",        r[74:76],       decoder.field_220),";
"      Field(""Preferred Route Ident (4)"",          r[76:86],       decoder.field_008),";
"      Field(""Preferred Route Use Ind (4)"",        r[86:88],       decoder.field_220),";
"      Field(""Preferred Route Ident (4)"",          r[88:98],       decoder.field_008),";
"      Field(""Preferred Route Use Ind (4)"",        r[98:100],      decoder.field_220),";
"      Field(""Preferred Route Ident (5)"",          r[100:110],     decoder.field_008),";
"      Field(""Preferred Route Use Ind (5)"",        r[110:112],     decoder.field_220),";
"      Field(""File Record No"",                      r[123:128],    decoder.field_031),";
"      Field(""Cycle Date"",                          r[128:132],    decoder.field_032)";
"    ]";
"";
"  # 4.1.26.2 Geographical Reference Table Continuation Records";
"  def read_cont(self, r):";
"    return [";
"      Field(""Record Type"",                        r[0],           decoder.field_002),";
"      Field(""Customer / Area Code"",               r[1:4],         decoder.field_003),";
"      Field(""Section Code"",                       r[4:6],         decoder.field_004),";
"      Field(""Geographical Ref Table ID"",          r[6:8],         decoder.field_218),";
"      Field(""Sequence Number"",                    r[8],           decoder.field_012),";
"      Field(""Geographical Entity"",                r[9:38],        decoder.field_219),";
"      Field(""Continuation Record No"",             r[38],          decoder.field_016),";
"      Field(""Application Type"",                   r[39],          decoder.field_091),";
"      Field(""File Record No"",                     r[123:128],     decoder.field_031),";
"      Field(""Cycle Date"",                         r[128:132],     decoder.field_032)";
"    ]"].

(* src/arinc424/definitions/GridMORA.py *)
Definition text_GridMORA : list string := [
"from arinc424.decoder import Field";
"import arinc424.decoder as decoder";
"";
"# 4.1.19  Grid MORA Records (AS) ";
" ";
"# The Grid MORA (Minimum Off Rate Altitude) file ";
"# contains a table of Minimum Off Route Altitudes. ";
"class GridMORA():";
"";
"  def read(self, line, primary):";
"    return self.read_primary(line)";
"";
"  # 4.1.19.1  Grid MORA Primary Records";
"  def read_primary(self, r):";
"    return [";
"      Field(""Record Type"",                         r[0],          decoder.field_002),";
"      Field(""Section Code"",                        r[4:6],        decoder.field_004),";
"      Field(""Starting Latitude"",                   r[13:16],      decoder.field_141),";
"      Field(""Starting Longitude"",                  r[16:20],      decoder.field_142),";
"      Field(""MORA"",                                r[30:33],      decoder.field_143),";
"      Field(""MORA (2)"",                            r[33:36],      decoder.field_143),";
"      Field(""MORA (3)"",                            r[36:39],      decoder.field_143),";
"      Field(""MORA (4)"",                            r[39:42],      decoder.field_143),";
"      Field(""MORA (5)"",                            r[42:45],      decoder.field_143),";
"      Field(""MORA (6)"",                            r[45:48],      decoder.field_143),";
"      Field(""MORA (7)"",                            r[48:51],      decoder.field_143),";
"      Field(""MORA (8)"",                            r[51:54],      decoder.field_143),";
"      Field(""MORA (9)"",                            r[54:57],      decoder.field_143),";
"      Field(""MORA (10)"",                           r[57:60],      decoder.field_143),";
"      Field(""MORA (11)"",                           r[60:63],      decoder.field_143),";
"      Field(""MORA (12)"",                           r[63:66],      decoder.field_143),";
"      Field(""MORA (13)"",                           r[66:69],      decoder.field_143),";
"      Field(""MORA (14)"",                           r[69:72],      decoder.field_143),";
"      Field(""MORA (15)"",                           r[72:75],      decoder.field_143),";
"      Field(""MORA (16)"",                           r[75:78],      decoder.field_143),";
"      Field(""MORA (17)"",                           r[78:81],      decoder.field_143),";
"      Field(""MORA (18)"",                           r[81:84],      decoder.field_143),";
"      Field(""MORA (19)"",                           r[84:87],      decoder.field_143),";
"      Field(""MORA (21)"",                           r[87:90],      decoder.field_143),";
"      Field(""MORA (22)"",                           r[90:93],      decoder.field_143),";
"      Field(""MORA (23)"",                           r[93:96],      decoder.field_143),";
"      Field(""MORA (24)"",                           r[96:99],      decoder.field_143),";
"      Field(""MORA (25)"",                           r[99:102],     decoder.field_143),";
"      Field(""MORA (26)"",                           r[102:105],    decoder.field_143),";
"      Field(""MORA (27)"",                           r[105:108],    decoder.field_143),";
"      Field(""MORA (28)"",                           r[108:111],    decoder.field_143),";
"      Field(""MORA (29)"",                           r[111:114],    decoder.field_143),";
"      Field(""MORA (30)"",                           r[114:117],    decoder.field_143),";
"      Field(""MORA (31)"",                           r[117:120],    decoder.field_143),";
"      Field(""File Record No"",                      r[123:128],    decoder.field_031),";
"      Field(""Cycle Date"",                          r[128:132],    decoder.field_032)";
"    ]"].

(* src/arinc424/definitions/Heliport.py *)
Definition text_Heliport : list string := [
"from arinc424.decoder import Field";
"import arinc424.decoder as decoder";
"";
"";
"# 4.2.1  Heliport Records (HA)";
"class Heliport():";
"";
"  cont_idx = 21";
"  app_idx = 22";
"  continuations = ['A', 'P', 'Q']";
"  name = 'Heliport'";
"";
"  def application_type(self, line):";
"    return line[self.app_idx]";
"";
"  def read(self, line, primary) -> list:";
"";
"    if primary:";
"      return self.read_primary(line)";
"";
"    application = line[self.app_idx]";
"    match application:";
"      case 'A':";
"        return self.read_cont(line)";
"      case 'P':";
"        return self.read_flight0(line)";
"      case 'Q':";
"        return self.read_flight1(line)";
"      case _:";
"        return []";
"";
"  # 4.2.1.1  Heliport Primary Records ";
"  def read_primary(self, r):";
"    return [";
"      Field(""Record Type"",                         r[0],          decoder.field_002),";
"      Field(""Customer / Area Code"",                r[1:4],        decoder.field_003),";
"      Field(""Section Code"",                        r[4]+r[12],    decoder.field_004),";
"      Field(""Heliport Identifier"",                 r[6:10],       decoder.field_006),";
"      Field(""ICAO Code"",                           r[10:12],      decoder.field_014),";
"      Field(""ATA/IATA Designator"",                 r[13:16],      decoder.field_107),";
"      Field(""PAD Identifier"",                      r[16:21],      decoder.field_180),";
"      Field(""Continuation Record No"",              r[21],         decoder.field_016),";
"      Field(""Speed Limit Altitude"",                r[22:27],      decoder.field_073),";
"      Field(""Datum Code"",                          r[27:30],      decoder.field_197),";
"      Field(""IFR Indicator"",                       r[30],         decoder.field_108),";
"      Field(""Latitude"",                            r[32:41],      decoder.field_036),";
"      Field(""Longitude"",                           r[41:51],      decoder.field_037),";
"      Field(""Magnetic Variation"",                  r[51:56],      decoder.field_039),";
"      Field(""Heliport Elevation"",                  r[56:61],      decoder.field_055),";
"      Field(""Speed Limit"",                         r[61:64],      decoder.field_072),";
"      Field(""Recommended VHF Navaid"",              r[64:68],      decoder.field_023),";
"      Field(""ICAO Code (2)"",                       r[68:70],      decoder.field_014),";
"      Field(""Transition Altitude"",                 r[70:75],      decoder.field_053),";
"      Field(""Transition Level"",                    r[75:80],      decoder.field_053),";
"      Field(""Public Military Indicator"",           r[80],         decoder.field_177),";
"      Field(""Time Zone"",                           r[81:84],      decoder.field_178),";
"      Field(""Daylight Indicator"",                  r[84],         decoder.field_179),";
"      Field(""Pad Dimensions"",                      r[85:91],      decoder.field_176),";
"      Field(""Magnetic/True Indicator"",             r[91],         decoder.field_165),";
"      Field(""Heliport Name"",                       r[93:123],     decoder.field_071),";
"      Field(""File Record No"",                      r[123:128],    decoder.field_031),";
"      Field(""Cycle Date"",                          r[128:132],    decoder.field_032)";
"    ]";
"";
"  # 4.2.1.2  Heliport Continuation Records";
"  def read_cont(self, r):";
"    return [";
"      Field(""Record Type"",                         r[0],          decoder.field_002),";
"      Field(""Customer / Area Code"",                r[1:4],        decoder.field_003),";
"      Field(""Section Code"",                        r[4]+r[12],    decoder.field_004),";
"      Field(""Heliport Identifier"",                 r[6:10],       decoder.field_006),";
"      Field(""ICAO Code"",                           r[10:12],      decoder.field_014),";
"      Field(""ATA/IATA Designator"",                 r[13:16],      decoder.field_107),";
"      Field(""PAD Identifier"",                      r[16:21],      decoder.field_180),";
"      Field(""Continuation Record No"",              r[21],         decoder.field_016),";
"      Field(""Application Type"",                    r[22],         decoder.field_091),";
"      Field(""Notes"",                               r[23:92],      decoder.field_061),";
"      Field(""File Record No"",                      r[123:128],    decoder.field_031),";
"      Field(""Cycle Date"",                          r[128:132],    decoder.field_032)";
"    ]";
"";
"  # 4.2.1.3  Heliport Flight Planning Continuation Records ";
"  def read_flight0(self, r):";
"    return [";
"      Field(""Record Type"",                         r[0],          decoder.field_002),";
"      Field(""Customer / Area Code"",                r[1:4],        decoder.field_003),";
"      Field(""Section Code"",                        r[4]+r[12],    decoder.field_004),";
"      Field(""Heliport Identifier"",                 r[6:10],       decoder.field_006),";
"      Field(""ICAO Code"",                           r[10:12],      decoder.field_014),";
"      Field(""ATA/IATA Designator"",                 r[13:16],      decoder.field_107),";
"      Field(""PAD Identifier"",                      r[16:21],      decoder.field_180),";
"      Field(""Continuation Record No"",              r[21],         decoder.field_016),";
"      Field(""Application Type"",                    r[22],         decoder.field_091),";
"      Field(""FIR Identifier"",                      r[23:27],      decoder.field_116),";
"      Field(""UIR Identifier"",                      r[27:31],      decoder.field_116),";
"      Field(""Start/End Indicator"",                 r[31],         decoder.field_152),";
"      Field(""Start/End Date/Time"",                 r[32:43],      decoder.field_153),";
"      Field(""Controlled A/S Indicator"",            r[66],         decoder.field_217),";
"      Field(""Controlled A/S Airport Indentifier"",  r[67:71],      decoder.field_006),";
"      Field(""Controlled A/S Airport ICAO"",         r[71:73],      decoder.field_014),";
"      Field(""File Record No"",                      r[123:128],    decoder.field_031),";
"      Field(""Cycle Date"",                          r[128:132],    decoder.field_032)";
"    ]";
"";
"  # 4.2.1.4  Heliport Flight Planning Continuation Records";
"  def read_flight1(self, r):";
"    return [";
"      Field(""Record Type"",                         r[0],          decoder.field_002),";
"      Field(""Customer / Area Code"",                r[1:4],        decoder.field_003),";
"      Field(""Section Code"",                        r[4]+r[12],    decoder.field_004),";
"      Field(""Heliport Identifier"",                 r[6:10],       decoder.field_006),";
"      Field(""ICAO Code"",                           r[10:12],      decoder.field_014),";
"      Field(""ATA/IATA Designator"",                 r[13:16],      decoder.field_107),";
"      Field(""PAD Identifier"",                      r[16:21],      decoder.field_180),";
"      Field(""Continuation Record No"",              r[21],         decoder.field_016),";
"      Field(""Application Type"",                    r[22],         decoder.field_091),";
"      Field(""Notes"",                               r[23:92],      decoder.field_061),";
"      Field(""File Record No"",                      r[123:128],    decoder.field_031),";
"      Field(""Cycle Date"",                          r[128:132],    decoder.field_032)";
"    ]"].

(* src/arinc424/definitions/HeliportCommunications.py *)
Definition text_HeliportCommunications : list string := [
"from arinc424.decoder import Field";
"import arinc424.decoder as decoder";
"";
"";
"# 4.2.5 Heliport Communications Records (HV)";
"class HeliportCommunications():";
"";
"  cont_idx = 25";
"  app_idx = 26";
"  continuations = ['A', 'T']";
"  name = 'Heliport Communications'";
"";
"  def application_type(self, line):";
"    return line[self.app_idx]";
"";
"  def read(self, line, primary) -> list:";
"";
"    if primary:";
"      return self.read_primary(line)";
"";
"    application = line[self.app_idx]";
"    match application:";
"      case 'A':";
"        return self.read_cont(line)";
"      case 'T':";
"        return self.read_timeop(line)";
"      case _:";
"        raise ValueError('Unknown Application Type')";
"";
"  # 4.2.5.1 Heliport Communications Primary Records";
"  def read_primary(self, r):";
"    return [";
"      Field(""Record Type"",                         r[0],          decoder.field_002),";
"      Field(""Customer / Area Code"",                r[1:4],        decoder.field_003),";
"      Field(""Section Code"",                        r[4]+r[12],    decoder.field_004),";
"      Field(""Heliport Identifier"",                 r[6:10],       decoder.field_006),";
"      Field(""ICAO Code"",                           r[10:12],      decoder.field_014),";
"      Field(""Communications Type"",                 r[13:16],      decoder.field_101),";
"      Field(""Communications Freq"",                 r[16:23],      decoder.field_103),";
"      Field(""Guard/Transmit"",                      r[23],         decoder.field_182),";
"      Field(""Frequency Units"",                     r[24],         decoder.field_104),";
"      Field(""Continuation Record No"",              r[25],         decoder.field_016),";
"      Field(""Service Indicator"",                   r[26:29],      decoder.field_106),";
"      Field(""Radar Service"",                       r[29],         decoder.field_102),";
"      Field(""Modulation"",                          r[30],         decoder.field_198),";
"      Field(""Signal Emission"",                     r[31],         decoder.field_199),";
"      Field(""Latitude"",                            r[32:41],      decoder.field_036),";
"      Field(""Longitude"",                           r[41:51],      decoder.field_036),";
"      Field(""Magnetic Variation"",                  r[51:56],      decoder.field_039),";
"      Field(""Facility Elevation"",                  r[56:61],      decoder.field_092),";
"      Field(""H24 Indicator"",                       r[61],         decoder.field_181),";
"      Field(""Sectorization"",                       r[62:68],      decoder.field_183),";
"      Field(""Altitude Description"",                r[68],         decoder.field_029),";
"      Field(""Communication Altitude"",              r[69:74],      decoder.field_184),";
"      Field(""Communication Altitude (2)"",          r[74:79],      decoder.field_184),";
"      Field(""Sector Facility"",                     r[79:83],      decoder.field_185),";
"      Field(""ICAO Code (2)"",                       r[83:85],      decoder.field_014),";
"      Field(""Section Code (2)"",                    r[85:87],      decoder.field_004),";
"      Field(""Distance Description"",                r[87],         decoder.field_187),";
"      Field(""Communications Distance"",             r[88:90],      decoder.field_188),";
"      Field(""Remote Facility"",                     r[90:94],      decoder.field_200),";
"      Field(""ICAO Code (3)"",                       r[94:96],      decoder.field_014),";
"      Field(""Section Code (3)"",                    r[96:98],      decoder.field_004),";
"      Field(""Call Sign"",                           r[98:123],     decoder.field_105),";
"      Field(""File Record No"",                      r[123:128],    decoder.field_031),";
"      Field(""Cycle Date"",                          r[128:132],    decoder.field_032)";
"    ]";
"";
"  # 4.2.5.2 Heliport Communications Continuation Records";
"  def read_cont(self, r):";
"    return [";
"      Field(""Record Type"",                         r[0],          decoder.field_002),";
"      Field(""Customer / Area Code"",                r[1:4],        decoder.field_003),";
"      Field(""Section Code"",                        r[4]+r[12],    decoder.field_004),";
"      Field(""Heliport Identifier"",                 r[6:10],       decoder.field_006),";
"      Field(""ICAO Code"",                           r[10:12],      decoder.field_014),";
"      Field(""Communications Type"",                 r[13:16],      decoder.field_101),";
"      Field(""Communications Freq"",                 r[16:23],      decoder.field_103),";
"      Field(""Guard/Transmit"",                      r[23],         decoder.field_182),";
"      Field(""Frequency Units"",                     r[24],         decoder.field_104),";
"      Field(""Continuation Record No"",              r[25],         decoder.field_016),";
"      Field(""Application Type"",                    r[26],         decoder.field_091),";
"      Field(""Narrative"",                           r[27:87],      decoder.field_186),";
"      Field(""File Record No"",                      r[123:128],    decoder.field_031),";
"      Field(""Cycle Date"",                          r[128:132],    decoder.field_032)";
"    ]";
"";
"  # 4.2.5.3 Heliport Communications Continuation Records";
"  def read_timeop(self, r):";
"    return [";
"      Field(""Record Type"",                         r[0],          decoder.field_002),";
"      Field(""Customer / Area Code"",                r[1:4],        decoder.field_003),";
"      Field(""Section Code"",                        r[4]+r[12],    decoder.field_004),";
"      Field(""Heliport Identifier"",                 r[6:10],       decoder.field_006),";
"      Field(""ICAO Code"",                           r[10:12],      decoder.field_014),";
"      Field(""Communications Type"",                 r[13:16],      decoder.field_101),";
"      Field(""Communications Freq"",                 r[16:23],      decoder.field_103),";
"      Field(""Guard/Transmit"",                      r[23],         decoder.field_182),";
"      Field(""Frequency Units"",                     r[24],         decoder.field_104),";
"      Field(""Continuation Record No"",              r[25],         decoder.field_016),";
"      Field(""Application Type"",                    r[26],         decoder.field_091),";
"      Field(""Time Code"",                           r[27],         decoder.field_131),";
"      Field(""NOTAM"",                               r[28],         decoder.field_132),";
"      Field(""Time Indicator"",                      r[29],         decoder.field_138),";
"      Field(""Time of Operation"",                   r[30:40],      decoder.field_195),";
"      Field(""Time of Operation (2)"",               r[40:50],      decoder.field_195),";
"      Field(""Time of Operation (3)"",               r[50:60],      decoder.field_195),";
"      Field(""Time of Operation (4)"",               r[60:70],      decoder.field_195),";
"      Field(""Time of Operation (5)"",               r[70:80],      decoder.field_195),";
"      Field(""Time of Operation (6)"",               r[80:90],      decoder.field_195),";
"      Field(""Time of Operation (7)"",               r[90:100],     decoder.field_195),";
"      Field(""File Record No"",                      r[123:128],    decoder.field_031),";
"      Field(""Cycle Date"",                          r[128:132],    decoder.field_032)";
"    ]"].

(* src/arinc424/definitions/HeliportTerminalWaypoint.py *)
Definition text_HeliportTerminalWaypoint : list string := [
"from arinc424.decoder import Field";
"import arinc424.decoder as decoder";
"";
"";
"# 4.2.2 Heliport Terminal Waypoint Records (HC)";
"class HeliportTerminalWaypoint():";
"";
"  cont_idx = 21";
"  app_idx = 22";
"  continuations = ['A', 'P']";
"  name = 'Heliport Terminal Waypoint'";
"";
"  def application_type(self, line):";
"    return line[self.app_idx]";
"";
"  def read(self, line, primary) -> list:";
"";
"    if primary:";
"      return self.read_primary(line)";
"";
"    application = line[self.app_idx]";
"    match application:";
"      case 'A':";
"        return self.read_cont(line)";
"      case 'P':";
"        return self.read_flight0(line)";
"      case _:";
"        # TODO: sketchy";
"        return self.read_flight1(line)";
"";
"  # 4.2.2.1 Heliport Terminal Waypoint Primary Records";
"  def read_primary(self, r):";
"    return [";
"      Field(""Record Type"",                         r[0],          decoder.field_002),";
"      Field(""Customer / Area Code"",                r[1:4],        decoder.field_003),";
"      Field(""Section Code"",                        r[4]+r[12],    decoder.field_004),";
"      Field(""Heliport Identifier"",                 r[6:10],       decoder.field_006),";
"      Field(""ICAO Code"",                           r[10:12],      decoder.field_014),";
"      Field(""Waypoint Identifier"",                 r[13:18],      decoder.field_013),";
"      Field(""ICAO Code (2)"",                       r[19:21],      decoder.field_014),";
"      Field(""Continuation Record No"",              r[21],         decoder.field_016),";
"      Field(""Waypoint Type"",                       r[26:29],      decoder.field_042),";
"      Field(""Waypoint Usage"",                      r[29:31],      decoder.field_082),";
"      Field(""Waypoint Latitude"",                   r[32:41],      decoder.field_036),";
"      Field(""Waypoint Longitude"",                  r[41:51],      decoder.field_037),";
"      Field(""Dynamic Magnetic Variation"",          r[74:79],      decoder.field_039),";
"      Field(""Datum Code"",                          r[84:87],      decoder.field_197),";
"      Field(""Name Format Indicator"",               r[95:98],      decoder.field_196),";
"      Field(""Waypoint Name/Description"",           r[98:123],     decoder.field_043),";
"      Field(""File Record No"",                      r[123:128],    decoder.field_031),";
"      Field(""Cycle Date"",                          r[128:132],    decoder.field_032)";
"    ]";
"";
"  # 4.2.2.2 Heliport Terminal Waypoint Continuation Records";
"  def read_cont(self, r):";
"    return [";
"      Field(""Record Type"",                         r[0],          decoder.field_002),";
"      Field(""Customer / Area Code"",                r[1:4],        decoder.field_003),";
"      Field(""Section Code"",                        r[4]+r[12],    decoder.field_004),";
"      Field(""Heliport Identifier"",                 r[6:10],       decoder.field_006),";
"      Field(""ICAO Code"",                           r[10:12],      decoder.field_014),";
"      Field(""Waypoint Identifier"",                 r[13:18],      decoder.field_013),";
"      Field(""ICAO Code (2)"",                       r[19:21],      decoder.field_014),";
"      Field(""Continuation Record No"",              r[21],         decoder.field_016),";
"      Field(""Application Type"",                    r[22],         decoder.field_091),";
"      Field(""Notes"",                               r[23:92],      decoder.field_061),";
"      Field(""File Record No"",                      r[123:128],    decoder.field_031),";
"      Field(""Cycle Date"",                          r[128:132],    decoder.field_032)";
"    ]";
"";
"  # 4.2.2.3 Heliport Terminal Waypoint Flight Planning Continuation Records";
"  def read_flight0(self, r):";
"    return [";
"      Field(""Record Type"",                         r[0],          decoder.field_002),";
"      Field(""Customer / Area Code"",                r[1:4],        decoder.field_003),";
"      Field(""Section Code"",                        r[4]+r[12],    decoder.field_004),";
"      Field(""Heliport Identifier"",                 r[6:10],       decoder.field_006),";
"      Field(""ICAO Code"",                           r[10:12],      decoder.field_014),";
"      Field(""Waypoint Identifier"",                 r[13:18],      decoder.field_013),";
"      Field(""ICAO Code (2)"",                       r[19:21],      decoder.field_014),";
"      Field(""Continuation Record No"",              r[21],         decoder.field_016),";
"      Field(""Application Type"",                    r[22],         decoder.field_091),";
"      Field(""FIR Identifier"",                      r[23:27],      decoder.field_116),";
"      Field(""UIR Identifier"",                      r[27:31],      decoder.field_116),";
"      Field(""Start/End Indicator"",                 r[31],         decoder.field_152),";
"      Field(""Start/End Date"",                      r[32:43],      decoder.field_153),";
"      Field(""File Record No"",                      r[123:128],    decoder.field_031),";
"      Field(""Cycle Date"",                          r[128:132],    decoder.field_032)";
"    ]";
"";
"  # 4.2.2.4 Heliport Terminal Waypoint Flight Planning Continuation Records";
"  def read_flight1(self, r):";
"    return [";
"      Field(""Record Type"",                         r[0],          decoder.field_002),";
"      Field(""Customer / Area Code"",                r[1:4],        decoder.field_003),";
"      Field(""Section Code"",                        r[4]+r[12],    decoder.field_004),";
"      Field(""Heliport Identifier"",                 r[6:10],       decoder.field_006),";
"      Field(""ICAO Code"",                           r[10:12],      decoder.field_014),";
"      Field(""Waypoint Identifier"",                 r[13:18],      decoder.field_013),";
"      Field(""ICAO Code (2)"",                       r[19:21],      decoder.field_014),";
"      Field(""Continuation Record No"",              r[21],         decoder.field_016),";
"      Field(""Waypoint Type"",                       r[26:29],      decoder.field_042),";
"      Field(""Waypoint Usage"",                      r[29:31],      decoder.field_082),";
"      Field(""Waypoint Latitude"",                   r[32:41],      decoder.field_036),";
"      Field(""Waypoint Longitude"",                  r[41:51],      decoder.field_037),";
"      Field(""Dynamic Magnetic Variation"",          r[74:79],      decoder.field_039),";
"      Field(""Datum Code"",                          r[84:87],      decoder.field_197),";
"      Field(""Name Format Indicator"",               r[95:98],      decoder.field_196),";
"      Field(""Waypoint Name/Description"",           r[98:123],     decoder.field_043),";
"      Field(""File Record No"",                      r[123:128],    decoder.field_031),";
"      Field(""Cycle Date"",                          r[128:132],    decoder.field_032)";
"    ]"].

(* src/arinc424/definitions/HoldingPattern.py *)
Definition text_HoldingPattern : list string := [
"from arinc424.decoder import Field";
"import arinc424.decoder as decoder";
"";
"";
"# 4.1.5 Holding Pattern Records (EP)";
"class HoldingPattern():";
"";
"  cont_idx = 38";
"  app_idx = 39";
"  continuations = ['A']";
"  name = 'Holding Pattern'";
"";
"  def application_type(self, line):";
"    return line[self.app_idx]";
"";
"  def read(self, line, primary) -> list:";
"";
"    if primary:";
"      return self.read_primary(line)";
"";
"    application = line[self.app_idx]";
"    match application:";
"      case 'A':";
"        return self.read_cont(line)";
"      case _:";
"        return []";
"";
"  # 4.1.5.1 Holding Pattern Primary Records";
"  #";
"  # Note1: In Enroute Fix Holding Pattern records, the code";
"  # of “ENRT” is used in the Region Code field and";
"  # the ICAO Code field is blank. In Terminal Fix";
"  # Holding Records, the Region Code field contains";
"  # the identifier of the Airport or Heliport with";
"  # which the holding is associated. The ICAO Code";
"  # field will not be blank. This information will";
"  # uniquely identify the Terminal NDB, Airport";
"  # Terminal Waypoint or Heliport Terminal";
"  # Waypoint.";
"  #";
"  def read_primary(self, r):";
"    return [";
"      Field(""Record Type"",                         r[0],          decoder.field_002),";
"      Field(""Customer / Area Code"",                r[1:4],        decoder.field_003),";
"      Field(""Section Code"",                        r[4:6],        decoder.field_004),";
"      Field(""Region Code"",                         r[6:10],       decoder.field_041),";
"      Field(""ICAO Code"",                           r[10:12],      decoder.field_014),";
"      Field(""Duplicate Identifier"",                r[27:29],      decoder.field_114),";
"      Field(""Fix Identifier"",                      r[29:34],      decoder.field_013),";
"      Field(""ICAO Code (2)"",                       r[34:36],      decoder.field_014),";
"      Field(""Section Code (2)"",                    r[36:38],      decoder.field_004),";
"      Field(""Continuation Record No"",              r[38],         decoder.field_016),";
"      Field(""Inbound Holding Course"",              r[39:43],      decoder.field_062),";
"      Field(""Turn Direction"",                      r[43],         decoder.field_063),";
"      Field(""Leg Length"",                          r[44:47],      decoder.field_064),";
"      Field(""Leg Time"",                            r[47:49],      decoder.field_065),";
"      Field(""Minimum Altitude"",                    r[49:54],      decoder.field_030),";
"      Field(""Maximum Altitude"",                    r[54:59],      decoder.field_127),";
"      Field(""Holding Speed"",                       r[59:62],      decoder.field_175),";
"      Field(""RNP"",                                 r[62:65],      decoder.field_211),";
"      Field(""Arc Radius"",                          r[65:71],      decoder.field_204),";
"      Field(""Name"",                                r[98:123],     decoder.field_060),";
"      Field(""File Record No"",                      r[123:128],    decoder.field_031),";
"      Field(""Cycle Date"",                          r[128:132],    decoder.field_032)";
"    ]";
"";
"  # 4.1.5.2 Holding Pattern Continuation Records";
"  def read_cont(self, r):";
"    return [";
"      Field(""Record Type"",                         r[0],          decoder.field_002),";
"      Field(""Customer / Area Code"",                r[1:4],        decoder.field_003),";
"      Field(""Section Code"",                        r[4:6],        decoder.field_004),";
"      Field(""Region Code"",                         r[6:10],       decoder.field_041),";
"      Field(""ICAO Code"",                           r[10:12],      decoder.field_014),";
"      Field(""Duplicate Identifier"",                r[27:29],      decoder.field_114),";
"      Field(""Fix Identifier"",                      r[29:34],      decoder.field_013),";
"      Field(""ICAO Code (2)"",                       r[34:36],      decoder.field_014),";
"      Field(""Section Code (2)"",                    r[36:38],      decoder.field_004),";
"      Field(""Continuation Record No"",              r[38],         decoder.field_016),";
"      Field(""Application Type"",                    r[40],         decoder.field_091),";
"      Field(""Notes"",                               r[40:109],     decoder.field_061),";
"      Field(""File Record No"",                      r[123:128],    decoder.field_031),";
"      Field(""Cycle Date"",                          r[128:132],    decoder.field_032)";
"    ]"].

(* src/arinc424/definitions/LocalizerGlideslope.py *)
Definition text_LocalizerGlideslope : list string := [
"from arinc424.decoder import Field";
"import arinc424.decoder as decoder";
"";
"";
"# 4.1.11 Airport and Heliport Localizer and Glide Slope";
"class LocalizerGlideslope():";
"";
"  cont_idx = 21";
"  app_idx = 22";
"  continuations = ['A', 'S']";
"  name = 'Localizer and Glide Slope'";
"";
"  def application_type(self, line):";
"    return line[self.app_idx]";
"";
"  def read(self, line, primary) -> list:";
"";
"    if primary:";
"      return self.read_primary(line)";
"";
"    application = line[self.app_idx]";
"    match application:";
"      case 'A':";
"        return self.read_cont(line)";
"      case 'S':";
"        return self.read_sim(line)";
"      case _:";
"        return []";
"";
"  # 4.1.11.1  Airport and Heliport Localizer and Glide Slope Primary Records";
"  def read_primary(self, r):";
"    return [";
"      Field(""Record Type"",                                r[0],          decoder.field_002),";
"      Field(""Customer / Area Code"",                       r[1:4],        decoder.field_003),";
"      Field(""Section Code"",                               r[4]+r[12],    decoder.field_004),";
"      Field(""Airport Identifier"",                         r[6:10],       decoder.field_006),";
"      Field(""ICAO Code"",                                  r[10:12],      decoder.field_014),";
"      Field(""Localizer Identifier"",                       r[13:17],      decoder.field_044),";
"      Field(""ILS Category"",                               r[17],         decoder.field_080),";
"      Field(""Continuation Record No"",                     r[21],         decoder.field_016),";
"      Field(""Localizer Frequency"",                        r[22:27],      decoder.field_045),";
"      Field(""Runway Identifier"",                          r[27:32],      decoder.field_046),";
"      Field(""Localizer Latitude"",                         r[32:41],      decoder.field_036),";
"      Field(""Localizer Longitude"",                        r[41:51],      decoder.field_037),";
"      Field(""Localizer Bearing"",                          r[51:55],      decoder.field_047),";
"      Field(""Glide Slope Latitude"",                       r[55:64],      decoder.field_036),";
"      Field(""Glide Slope Longitude"",                      r[64:74],      decoder.field_037),";
"      Field(""Localizer Position"",                         r[74:78],      decoder.field_048),";
"      Field(""Localizer Position Reference"",               r[78],         decoder.field_049),";
"      Field(""Glide Slope Position"",                       r[79:83],      decoder.field_050),";
"      Field(""Localizer Width"",                            r[83:87],      decoder.field_051),";
"      Field(""Glide Slope Angle"",                          r[87:90],      decoder.field_052),";
"      Field(""Station Declination"",                        r[90:95],      decoder.field_066),";
"      Field(""Glide Slope Height at Landing Threshold"",    r[95:97],      decoder.field_067),";
"      Field(""Glide Slope Elevation"",                      r[97:102],     decoder.field_074),";
"      Field(""Supporting Facility ID Note 1"",              r[102:106],    decoder.field_033),";
"      Field(""Supporting Facility ICAO Code Note 1"",       r[106:108],    decoder.field_014),";
"      Field(""Supporting Facility Section Code Note 1"",    r[108:110],    decoder.field_004),";
"      Field(""File Record No"",                             r[123:128],    decoder.field_031),";
"      Field(""Cycle Date"",                                 r[128:132],    decoder.field_032)";
"    ]";
"";
"  # 4.1.11.2  Airport  and  Heliport  Localizer  and  Glide  Slope Continuation Records";
"  def read_cont(self, r):";
"    return [";
"      Field(""Record Type"",                                r[0],           decoder.field_002),";
"      Field(""Customer / Area Code"",                       r[1:4],         decoder.field_003),";
"      Field(""Section Code"",                               r[4]+r[12],     decoder.field_004),";
"      Field(""Airport Identifier"",                         r[6:10],        decoder.field_006),";
"      Field(""ICAO Code"",                                  r[10:12],       decoder.field_014),";
"      Field(""Localizer Identifier"",                       r[13:17],       decoder.field_044),";
"      Field(""ILS Category"",                               r[17],          decoder.field_080),";
"      Field(""Continuation Record No"",                     r[21],          decoder.field_016),";
"      Field(""Notes"",                                      r[23:92],       decoder.field_061),";
"      Field(""File Record No"",                             r[123:128],     decoder.field_031),";
"      Field(""Cycle Date"",                                 r[128:132],     decoder.field_032)";
"    ]";
"";
"  # 4.1.11.3  Airport  and  Heliport  Localizer  and  Glide  Slope Simulation Continuation Records";
"  def read_sim(self, r):";
"    return [";
"      Field(""Record Type"",                                r[0],           decoder.field_002),";
"      Field(""Customer / Area Code"",                       r[1:4],         decoder.field_003),";
"      Field(""Section Code"",                               r[4]+r[12],     decoder.field_004),";
"      Field(""Airport Identifier"",                         r[6:10],        decoder.field_006),";
"      Field(""ICAO Code"",                                  r[10:12],       decoder.field_014),";
"      Field(""Localizer Identifier"",                       r[13:17],       decoder.field_044),";
"      Field(""ILS Category"",                               r[17],          decoder.field_080),";
"      Field(""Continuation Record No"",                     r[21],          decoder.field_016),";
"      Field(""Application Type"",                           r[22],          decoder.field_091),";
"";
"      Field(""Facility Characteristics"",                   r[27:32],       decoder.field_093),";
"      Field(""Localizer True Bearing"",                     r[51:56],       decoder.field_094),";
"      Field(""Localizer Bearing Source"",                   r[56],          decoder.field_095),";
"      Field(""Glide Slope Beam Width"",                     r[87:90],       decoder.field_096),";
"      Field(""Approach Route Ident"",                       r[90:96],       decoder.field_010),";
"      Field(""Approach Route Ident (2)"",                   r[96:102],      decoder.field_010),";
"      Field(""Approach Route Ident (3)"",                   r[102:108],     decoder.field_010),";
"      Field(""Approach Route Ident (4)"",                   r[108:114],     decoder.field_010),";
"      Field(""Approach Route Ident (5)"",                   r[114:120],     decoder.field_010),";
"      Field(""File Record No"",                             r[123:128],     decoder.field_031),";
"      Field(""Cycle Date"",                                 r[128:132],     decoder.field_032),";
"    ]"].

(* src/arinc424/definitions/LocalizerMarker.py *)
Definition text_LocalizerMarker : list string := [
"from arinc424.decoder import Field";
"import arinc424.decoder as decoder";
"";
"";
"# 4.1.13 Localizer Marker Records";
"class LocalizerMarker():";
"";
"  cont_idx = 21";
"  app_idx = 22";
"  continuations = ['A']";
"  name = 'Localizer Marker'";
"";
"  def application_type(self, line):";
"    return line[self.app_idx]";
"";
"  def read(self, line, primary) -> list:";
"";
"    if primary:";
"      return self.read_primary(line)";
"";
"    application = line[self.app_idx]";
"    match application:";
"      case 'A':";
"        return self.read_cont(line)";
"      case _:";
"        return []";
"";
"  # 4.1.13.1";
"  def read_primary(self, r):";
"    return [";
"      Field(""Record Type"",                         r[0],          decoder.field_002),";
"      Field(""Customer / Area Code"",                r[1:4],        decoder.field_003),";
"      Field(""Section Code"",                        r[4]+r[12],    decoder.field_004),";
"      Field(""Airport Identifier"",                  r[6:10],       decoder.field_006),";
"      Field(""ICAO Code"",                           r[10:12],      decoder.field_014),";
"      Field(""Localizer Identifier"",                r[13:17],      decoder.field_044),";
"      Field(""Marker Type"",                         r[17:20],      decoder.field_099),";
"      Field(""Continuation Record No"",              r[21],         decoder.field_016),";
"      Field(""Locator Frequency"",                   r[22:27],      decoder.field_034),";
"      Field(""Runway Identifier"",                   r[27:32],      decoder.field_046),";
"      Field(""Marker Latitude"",                     r[32:41],      decoder.field_036),";
"      Field(""Marker Longitude"",                    r[41:51],      decoder.field_037),";
"      Field(""Minor Axis Bearing"",                  r[51:55],      decoder.field_100),";
"      Field(""Locator Latitude"",                    r[55:64],      decoder.field_036),";
"      Field(""Locator Longitude"",                   r[64:74],      decoder.field_037),";
"      Field(""Localizer Class"",                     r[74:79],      decoder.field_035),";
"      Field(""Localizer Facility Characteristics"",  r[79:83],      decoder.field_093),";
"      Field(""Localizer Identifier (2)"",            r[84:88],      decoder.field_033),";
"      Field(""Magnetic Variation"",                  r[90:95],      decoder.field_039),";
"      Field(""Facility Elevation"",                  r[97:102],     decoder.field_092),";
"      Field(""File Record No"",                      r[123:128],    decoder.field_031),";
"      Field(""Cycle Date"",                          r[128:132],    decoder.field_032)";
"    ]";
"";
"  # 4.1.13.2";
"  def read_cont(self, r):";
"    return [";
"      Field(""Record Type"",                         r[0],          decoder.field_002),";
"      Field(""Customer / Area Code"",                r[1:4],        decoder.field_003),";
"      Field(""Section Code"",                        r[4]+r[12],    decoder.field_004),";
"      Field(""Airport Identifier"",                  r[6:10],       decoder.field_006),";
"      Field(""ICAO Code"",                           r[10:12],      decoder.field_014),";
"      Field(""Localizer Identifier"",                r[13:17],      decoder.field_044),";
"      Field(""Marker Type"",                         r[17:20],      decoder.field_099),";
"      Field(""Continuation Record No"",              r[21],         decoder.field_016),";
"      Field(""Application Type"",                    r[22],         decoder.field_091),";
"      Field(""File Record No"",                      r[123:128],    decoder.field_031),";
"      Field(""Cycle Date"",                          r[128:132],    decoder.field_032)";
"    ]"].

(* src/arinc424/definitions/MLS.py *)
Definition text_MLS : list string := [
"from arinc424.decoder import Field";
"import arinc424.decoder as decoder";
"";
"";
"# 4.1.22 Airport and Heliport MLS (Azimuth, Elevation";
"# and Back Azimuth) Records";
"class MLS():";
"";
"  cont_idx = 21";
"  app_idx = 22";
"  continuations = ['A']";
"  name = 'MLS'";
"";
"  def application_type(self, line):";
"    return line[self.app_idx]";
"";
"  def read(self, line, primary) -> list:";
"";
"    if primary:";
"      return self.read_primary(line)";
"";
"    application = line[self.app_idx]";
"    match application:";
"      case 'A':";
"        return self.read_cont(line)";
"      case _:";
"        return []";
"";
"  # 4.1.22.1 Airport and Heliport MLS Primary Records";
"  def read_primary(self, r):";
"    return [";
"      Field(""Record Type"",                         r[0],          decoder.field_002),";
"      Field(""Customer / Area Code"",                r[1:4],        decoder.field_003),";
"      Field(""Section Code"",                        r[4]+r[12],    decoder.field_004),";
"      Field(""Airport Identifier"",                  r[6:10],       decoder.field_006),";
"      Field(""ICAO Code"",                           r[10:12],      decoder.field_014),";
"      Field(""MLS Identifier"",                      r[13:17],      decoder.field_044),";
"      Field(""MLS Category"",                        r[17],         decoder.field_080),";
"      Field(""Continuation Record No"",              r[21],         decoder.field_016),";
"      Field(""Channel"",                             r[22:25],      decoder.field_166),";
"      Field(""Runway Identifier"",                   r[27:32],      decoder.field_046),";
"      Field(""Azimuth Latitude"",                    r[32:41],      decoder.field_036),";
"      Field(""Azimuth Longitude"",                   r[41:51],      decoder.field_037),";
"      Field(""Azimuth Bearing"",                     r[51:55],      decoder.field_167),";
"      Field(""Elevation Latitude"",                  r[55:64],      decoder.field_036),";
"      Field(""Elevation Longitude"",                 r[64:74],      decoder.field_037),";
"      Field(""Azimuth Position"",                    r[74:78],      decoder.field_048),";
"      Field(""Azimuth Position Reference"",          r[78],         decoder.field_049),";
"      Field(""Elevation Position"",                  r[79:83],      decoder.field_050),";
"      Field(""Azimuth Proportional Angle Right"",    r[83:86],      decoder.field_168),";
"      Field(""Azimuth Proportional Angle Left"",     r[86:89],      decoder.field_168),";
"      Field(""Azimuth Coverage Right"",              r[89:92],      decoder.field_172),";
"      Field(""Azimuth Coverage Left"",               r[92:95],      decoder.field_172),";
"      Field(""Elevation Angle Span"",                r[95:98],      decoder.field_169),";
"      Field(""Magnetic Variation"",                  r[98:103],     decoder.field_039),";
"      Field(""EL Elevation"",                        r[103:108],    decoder.field_074),";
"      Field(""Nominal Elevation Angle"",             r[108:112],    decoder.field_173),";
"      Field(""Minimum Glide Path Angle"",            r[112:115],    decoder.field_052),";
"      Field(""Supporting Facility Identifier"",      r[115:119],    decoder.field_033),";
"      Field(""Supporting Facility ICAO Code"",       r[119:121],    decoder.field_014),";
"      Field(""Supporting Facility Section"",         r[121:123],    decoder.field_004),";
"      Field(""File Record No"",                      r[123:128],    decoder.field_031),";
"      Field(""Cycle Date"",                          r[128:132],    decoder.field_032)";
"    ]";
"";
"  # 4.1.22.2 Airport and Heliport MLS Continuation Records";
"  def read_cont(self, r):";
"    return [";
"      Field(""Record Type"",                         r[0],          decoder.field_002),";
"      Field(""Customer / Area Code"",                r[1:4],        decoder.field_003),";
"      Field(""Section Code"",                        r[4]+r[12],    decoder.field_004),";
"      Field(""Airport Identifier"",                  r[6:10],       decoder.field_006),";
"      Field(""ICAO Code"",                           r[10:12],      decoder.field_014),";
"      Field(""MLS Identifier"",                      r[13:17],      decoder.field_044),";
"      Field(""MLS Category"",                        r[17],         decoder.field_080),";
"      Field(""Continuation Record No"",              r[21],         decoder.field_016),";
"      Field(""Application Type"",                    r[22],         decoder.field_091),";
"      Field(""Facility Characteristics"",            r[27:32],      decoder.field_093),";
"      Field(""Back Azimuth Latitude"",               r[32:41],      decoder.field_036),";
"      Field(""Back Azimuth Longitude"",              r[41:51],      decoder.field_037),";
"      Field(""Back Azimuth Bearing"",                r[51:55],      decoder.field_167),";
"      Field(""MLS Datum Point Latitude"",            r[55:64],      decoder.field_036),";
"      Field(""MLS Datum Point Longitude"",           r[64:74],      decoder.field_037),";
"      Field(""Back Azimuth Position"",               r[74:78],      decoder.field_048),";
"      Field(""Back Azimuth Position Reference"",     r[78],         decoder.field_049),";
"      Field(""Back Azimuth Proportional Angle Right"", r[83:86],    decoder.field_168),";
"      Field(""Back Azimuth Proportional Angle Left"", r[86:89],     decoder.field_168),";
"      Field(""Back Azimuth Coverage Right"",         r[89:92],      decoder.field_172),";
"      Field(""Back Azimuth Coverage Left"",          r[92:95],      decoder.field_172),";
"      Field(""Back Azimuth True Bearing"",           r[95:98],      decoder.field_094),";
"      Field(""Back Azimuth Bearing Source"",         r[100],        decoder.field_095),";
"      Field(""Azimuth True Bearing"",                r[101:106],    decoder.field_094),";
"      Field(""Azimuth Bearing Source"",              r[106],        decoder.field_095),";
"      Field(""Glide Path Height at Landing Threshold"", r[107:109], decoder.field_067),";
"      Field(""File Record No"",                      r[123:128],    decoder.field_031),";
"      Field(""Cycle Date"",                          r[128:132],    decoder.field_032)";
"    ]"].

(* src/arinc424/definitions/MSA.py *)
Definition text_MSA : list string := [
"from arinc424.decoder import Field";
"import arinc424.decoder as decoder";
"";
"";
"class MSA():";
"";
"  cont_idx = 38";
"  app_idx = 39";
"  continuations = ['A']";
"  name = 'MSA'";
"";
"  def application_type(self, line):";
"    return line[self.app_idx]";
"";
"  def __init__(self, heliport) -> None:";
"    self.heliport = heliport";
"    if self.heliport is False:";
"      self.id_name = ""Airport Identifier""";
"    else:";
"      self.id_name = ""Heliport Identifier""";
"";
"  def read(self, line, primary) -> list:";
"";
"    if primary:";
"      return self.read_primary(line)";
"";
"    application = line[self.app_idx]";
"    match application:";
"      case 'A':";
"        return self.read_cont(line)";
"      case _:";
"        return []";
"";
"  def read_primary(self, r):";
"    return [";
"      Field(""Record Type"",                         r[0],          decoder.field_002),";
"      Field(""Customer / Area Code"",                r[1:4],        decoder.field_003),";
"      Field(""Section Code"",                        r[4]+r[12],    decoder.field_004),";
"      Field(self.id_name,                          r[6:10],       decoder.field_006),";
"      Field(""ICAO Code"",                           r[10:12],      decoder.field_014),";
"      Field(""MSA Center"",                          r[13:17],      decoder.field_144),";
"      Field(""ICAO Code (2)"",                       r[18:20],      decoder.field_014),";
"      Field(""Section Code (2)"",                    r[20:22],      decoder.field_004),";
"      Field(""Multiple Code"",                       r[22],         decoder.field_130),";
"      Field(""Continuation Record No"",              r[38],         decoder.field_016),";
"      Field(""Sector Bearing"",                      r[42:48],      decoder.field_146),";
"      Field(""Sector Altitude"",                     r[48:51],      decoder.field_147),";
"      Field(""Sector Radius"",                       r[51:53],      decoder.field_145),";
"      Field(""Sector Bearing (2)"",                  r[53:59],      decoder.field_146),";
"      Field(""Sector Altitude (2)"",                 r[59:62],      decoder.field_147),";
"      Field(""Sector Radius (2)"",                   r[62:64],      decoder.field_145),";
"      Field(""Sector Bearing (3)"",                  r[64:70],      decoder.field_146),";
"      Field(""Sector Altitude (3)"",                 r[70:73],      decoder.field_147),";
"      Field(""Sector Radius (3)"",                   r[73:75],      decoder.field_145),";
"      Field(""Sector Bearing (4)"",                  r[75:81],      decoder.field_146),";
"      Field(""Sector Altitude (4)"",                 r[81:84],      decoder.field_147),";
"      Field(""Sector Radius (4)"",                   r[84:86],      decoder.field_145),";
"      Field(""Sector Bearing (5)"",                  r[86:92],      decoder.field_146),";
"      Field(""Sector Altitude (5)"",                 r[92:95],      decoder.field_147),";
"      Field(""Sector Radius (5)"",                   r[95:97],      decoder.field_145),";
"      Field(""Sector Bearing (6)"",                  r[97:103],     decoder.field_146),";
"      Field(""Sector Altitude (6)"",                 r[103:106],    decoder.field_147),";
"      Field(""Sector Radius (6)"",                   r[106:108],    decoder.field_145),";
"      Field(""Sector Bearing (7)"",                  r[108:114],    decoder.field_146),";
"      Field(""Sector Altitude (7)"",                 r[114:117],    decoder.field_147),";
"      Field(""Sector Radius (7)"",                   r[117:119],    decoder.field_145),";
"      Field(""Magnetic/True Bearing"",               r[119],        decoder.field_165),";
"      Field(""File Record No"",                      r[123:128],    decoder.field_031),";
"      Field(""Cycle Date"",                          r[128:132],    decoder.field_032)";
"    ]";
"";
"  def read_cont(self, r):";
"    return [";
"      Field(""Record Type"",                         r[0],          decoder.field_002),";
"      Field(""Customer / Area Code"",                r[1:4],        decoder.field_003),";
"      Field(""Section Code"",                        r[4]+r[12],    decoder.field_004),";
"      Field(self.id_name,                          r[6:10],       decoder.field_006),";
"      Field(""ICAO Code"",                           r[10:12],      decoder.field_014),";
"      Field(""MSA Center"",                          r[13:17],      decoder.field_144),";
"      Field(""ICAO Code (2)"",                       r[18:20],      decoder.field_014),";
"      Field(""Section Code (2)"",                    r[20:22],      decoder.field_004),";
"      Field(""Multiple Code"",                       r[22],         decoder.field_130),";
"      Field(""Continuation Record No"",              r[38],         decoder.field_016),";
"      Field(""Application Type"",                    r[39],         decoder.field_091),";
"      Field(""Notes"",                               r[40:109],     decoder.field_061),";
"      Field(""File Record No"",                      r[123:128],    decoder.field_031),";
"      Field(""Cycle Date"",                          r[128:132],    decoder.field_032)";
"    ]"].

(* src/arinc424/definitions/NDBNavaid.py *)
Definition text_NDBNavaid : list string := [
"from arinc424.decoder import Field";
"import arinc424.decoder as decoder";
"";
"";
"# 4.1.3  NDB NAVAID Record (DB or PN)";
"class NDBNavaid():";
"";
"  cont_idx = 21";
"  app_idx = 22";
"  continuations = ['A', 'P', 'Q', 'S']";
"  name = 'NDB Navaid'";
"";
"  def application_type(self, line):";
"    return line[self.app_idx]";
"";
"  def read(self, line, primary) -> list:";
"";
"    if primary:";
"      return self.read_primary(line)";
"";
"    application = line[self.app_idx]";
"    match application:";
"      case 'A':";
"        return self.read_cont(line)";
"      case 'P':";
"        return self.read_flight_plan0(line)";
"      case 'Q':";
"        return self.read_flight_plan1(line)";
"      case 'S':";
"        return self.read_sim(line)";
"      case _:";
"        return []";
"";
"  # 4.1.3.1  NDB NAVAID Primary Records";
"  def read_primary(self, r):";
"    return [";
"      Field(""Record Type"",                     r[0],         decoder.field_002),";
"      Field(""Customer / Area Code"",            r[1:4],       decoder.field_003),";
"      Field(""Section Code"",                    r[4:6],       decoder.field_004),";
"      Field(""Airport ICAO Identifier"",         r[6:10],      decoder.field_006),";
"      Field(""ICAO Code"",                       r[10:12],     decoder.field_014),";
"      Field(""NDB Identifier"",                  r[13:17],     decoder.field_033),";
"      Field(""ICAO Code (2)"",                   r[19:21],     decoder.field_014),";
"      Field(""Continuation Record No"",          r[21],        decoder.field_016),";
"      Field(""NDB Frequency"",                   r[22:27],     decoder.field_034),";
"      Field(""NDB Class"",                       r[27:31],     decoder.field_035),";
"      Field(""NDB Latitude"",                    r[32:41],     decoder.field_036),";
"      Field(""NDB Longitude"",                   r[41:51],     decoder.field_037),";
"      Field(""Magnetic Variation"",              r[74:79],     decoder.field_039),";
"      Field(""Datum Code"",                      r[90:93],     decoder.field_197),";
"      Field(""NDB Name"",                        r[93:123],    decoder.field_071),";
"      Field(""File Record No"",                  r[123:128],   decoder.field_031),";
"      Field(""Cycle Date"",                      r[128:132],   decoder.field_032)";
"    ]";
"";
"  # 4.1.3.2  NDB NAVAID Continuation Records";
"  def read_cont(self, r):";
"    return [";
"      Field(""Record Type"",                     r[0],         decoder.field_002),";
"      Field(""Customer / Area Code"",            r[1:4],       decoder.field_003),";
"      Field(""Section Code"",                    r[4:6],       decoder.field_004),";
"      Field(""Airport ICAO Identifier"",         r[6:10],      decoder.field_006),";
"      Field(""ICAO Code"",                       r[10:12],     decoder.field_014),";
"      Field(""NDB Identifier"",                  r[13:17],     decoder.field_033),";
"      Field(""ICAO Code (2)"",                   r[19:21],     decoder.field_014),";
"      Field(""Continuation Record No"",          r[21],        decoder.field_016),";
"      Field(""Application Type"",                r[22],        decoder.field_091),";
"      Field(""Notes"",                           r[23:92],     decoder.field_061),";
"      Field(""File Record No"",                  r[123:128],   decoder.field_031),";
"      Field(""Cycle Date"",                      r[128:132],   decoder.field_032)";
"    ]";
"";
"  # 4.1.3.3  NDB NAVAID Simulation Continuation Record";
"  def read_sim(self, r):";
"    return [";
"      Field(""Record Type"",                     r[0],         decoder.field_002),";
"      Field(""Customer / Area Code"",            r[1:4],       decoder.field_003),";
"      Field(""Section Code"",                    r[4:6],       decoder.field_004),";
"      Field(""Airport ICAO Identifier"",         r[6:10],      decoder.field_006),";
"      Field(""ICAO Code"",                       r[10:12],     decoder.field_014),";
"      Field(""NDB Identifier"",                  r[13:17],     decoder.field_033),";
"      Field(""ICAO Code (2)"",                   r[19:21],     decoder.field_014),";
"      Field(""Continuation Record No"",          r[21],        decoder.field_016),";
"      Field(""Application Type"",                r[22],        decoder.field_091),";
"      Field(""Facility Characteristics"",        r[27:32],     decoder.field_093),";
"      Field(""Facility Elevation"",              r[79:84],     decoder.field_092),";
"      Field(""File Record No"",                  r[123:128],   decoder.field_031),";
"      Field(""Cycle Date"",                      r[128:132],   decoder.field_032),";
"    ]";
"";
"  # 4.1.3.4 NDB NAVAID Flight Planning Continuation Records";
"  def read_flight_plan0(self, r):";
"    return [";
"      Field(""Record Type"",                     r[0],         decoder.field_002),";
"      Field(""Customer / Area Code"",            r[1:4],       decoder.field_003),";
"      Field(""Section Code"",                    r[4:6],       decoder.field_004),";
"      Field(""Airport ICAO Identifier"",         r[6:10],      decoder.field_006),";
"      Field(""ICAO Code"",                       r[10:12],     decoder.field_014),";
"      Field(""NDB Identifier"",                  r[13:17],     decoder.field_033),";
"      Field(""ICAO Code (2)"",                   r[19:21],     decoder.field_014),";
"      Field(""Continuation Record No"",          r[21],        decoder.field_016),";
"      Field(""Application Type"",                r[22],        decoder.field_091),";
"      Field(""FIR Identifier"",                  r[23:27],     decoder.field_116),";
"      Field(""UIR Identifier"",                  r[28:31],     decoder.field_116),";
"      Field(""Start/End Indicator"",             r[32],        decoder.field_152),";
"      Field(""Start/End Date"",                  r[32:43],     decoder.field_153),";
"      Field(""File Record No"",                  r[123:128],   decoder.field_031),";
"      Field(""Cycle Date"",                      r[128:132],   decoder.field_032)";
"    ]";
"";
"  # 4.1.3.5  NDB NAVAID Flight Planning Continuation Records";
"  def read_flight_plan1(self, r):";
"    return [";
"      Field(""Record Type"",                     r[0],         decoder.field_002),";
"      Field(""Customer / Area Code"",            r[1:4],       decoder.field_003),";
"      Field(""Section Code"",                    r[4:6],       decoder.field_004),";
"      Field(""Airport ICAO Identifier"",         r[6:10],      decoder.field_006),";
"      Field(""ICAO Code"",                       r[10:12],     decoder.field_014),";
"      Field(""NDB Identifier"",                  r[13:17],     decoder.field_033),";
"      Field(""ICAO Code (2)"",                   r[19:21],     decoder.field_014),";
"      Field(""Continuation Record No"",          r[21],        decoder.field_016),";
"      Field(""NDB Frequency"",                   r[22:27],     decoder.field_034),";
"      Field(""NDB Class"",                       r[27:31],     decoder.field_035),";
"      Field(""NDB Latitude"",                    r[32:41],     decoder.field_036),";
"      Field(""NDB Longitude"",                   r[41:51],     decoder.field_037),";
"      Field(""Magnetic Variation"",              r[74:79],     decoder.field_039),";
"      Field(""Datum Code"",                      r[90:93],     decoder.field_197),";
"      Field(""NDB Name"",                        r[93:123],    decoder.field_071),";
"      Field(""File Record No"",                  r[123:128],   decoder.field_031),";
"      Field(""Cycle Date"",                      r[128:132],   decoder.field_032)";
"    ]"].

(* src/arinc424/definitions/PathPoint.py *)
Definition text_PathPoint : list string := [
"from arinc424.decoder import Field";
"import arinc424.decoder as decoder";
"";
"";
"# 4.1.28  Path Point Records (PP)";
"class PathPoint():";
"";
"  cont_idx = 26";
"  app_idx = 27";
"  continuations = ['E']";
"  name = 'Path Point'";
"";
"  def application_type(self, line):";
"    return line[self.app_idx]";
"";
"  def read(self, line, primary) -> list:";
"";
"    if primary:";
"      return self.read_primary(line)";
"";
"    application = line[self.app_idx]";
"    match application:";
"      case 'E':";
"        return self.read_cont(line)";
"      case _:";
"        raise ValueError(""bad path point"", line[self.app_idx])";
"";
"  # 4.1.28.1 Path Point Primary Records";
"  def read_primary(self, r):";
"    return [";
"      Field(""Record Type"",                            r[0],           decoder.field_002),";
"      Field(""Customer / Area Code"",                   r[1:4],         decoder.field_003),";
"      Field(""Section Code"",                           r[4]+r[12],     decoder.field_004),";
"      Field(""Airport Identifier"",                     r[6:10],        decoder.field_006),";
"      Field(""ICAO Code"",                              r[10:12],       decoder.field_014),";
"      Field(""Approach Procedure Ident"",               r[13:19],       decoder.field_010),";
"      Field(""Runway or Helipad Ident"",                r[19:24],       decoder.field_046),  # TODO or 180";
"      Field(""Operation Type"",                         r[24:26],       decoder.field_223),";
"      Field(""Continuation Record No"",                 r[26],          decoder.field_016),";
"      Field(""Route Identifier"",                       r[27],          decoder.field_224),";
"      Field(""SBAS Service Provider Ident"",            r[28:30],       decoder.field_255),";
"      Field(""Reference Path Data Selector"",           r[30:32],       decoder.field_256),";
"      Field(""Reference Path Identifier"",              r[32:36],       decoder.field_257),";
"      Field(""Approach Performance Designator"",        r[36],          decoder.field_258),";
"      Field(""Landing Threshold Point Latitude"",       r[37:48],       decoder.field_267),";
"      Field(""Landing Threshold Point Longitude"",      r[48:60],       decoder.field_268),";
"      Field(""(LTP) Ellipsoid Height"",                 r[60:66],       decoder.field_225),";
"      Field(""Glide Path Angle"",                       r[66:70],       decoder.field_226),";
"      Field(""Flight Path Alignment Point Latitude"",   r[70:81],       decoder.field_267),";
"      Field(""Flight Path Alignment Point Longitude"",  r[81:93],       decoder.field_268),";
"      Field(""Course Width at Threshold Note 4"",       r[93:98],       decoder.field_228),";
"      Field(""Length Offset"",                          r[98:102],      decoder.field_259),";
"      Field(""Path Point TCH"",                         r[102:108],     decoder.field_265),";
"      Field(""TCH Units Indicator"",                    r[108],         decoder.field_266),";
"      Field(""HAL"",                                    r[109:112],     decoder.field_263),";
"      Field(""VAL"",                                    r[112:115],     decoder.field_264),";
"      Field(""SBAS FAS Data CRC Remainder"",            r[115:123],     decoder.field_229),";
"      Field(""File Record No"",                         r[123:128],     decoder.field_031),";
"      Field(""Cycle Date"",                             r[128:132],     decoder.field_032)";
"    ]";
"";
"  # 4.1.28.2  Path Point Continuation Records";
"  def read_cont(self, r):";
"    return [";
"      Field(""Record Type"",                            r[0],           decoder.field_002),";
"      Field(""Customer / Area Code"",                   r[1:4],         decoder.field_003),";
"      Field(""Section Code"",                           r[4]+r[12],     decoder.field_004),";
"      Field(""Airport Identifier"",                     r[6:10],        decoder.field_006),";
"      Field(""ICAO Code"",                              r[10:12],       decoder.field_014),";
"      Field(""Approach Procedure Ident"",               r[13:19],       decoder.field_010),";
"      Field(""Runway or Helipad Ident"",                r[19:24],       decoder.field_046),  # TODO or 180";
"      Field(""Operation Type"",                         r[24:26],       decoder.field_223),";
"      Field(""Continuation Record No"",                 r[26],          decoder.field_016),";
"      Field(""Application Type"",                       r[27],          decoder.field_091),";
"      Field(""(FPAP) Ellipsoid Height"",                r[28:34],       decoder.field_225),";
"      Field(""(FPAP) Orthometric Height"",              r[34:40],       decoder.field_227),";
"      Field(""(LTP) Orthometric Height"",               r[40:46],       decoder.field_227),";
"      Field(""Approach Type Identifier"",               r[46:56],       decoder.field_262),";
"      Field(""GNSS Channel Number"",                    r[56:61],       decoder.field_244),";
"      Field(""Helicopter Procedure Course"",            r[71:74],       decoder.field_269),";
"      Field(""File Record No"",                         r[123:128],     decoder.field_031),";
"      Field(""Cycle Date"",                             r[128:132],     decoder.field_032)";
"    ]"].

(* src/arinc424/definitions/PreferredRoute.py *)
Definition text_PreferredRoute : list string := [
"from arinc424.decoder import Field";
"import arinc424.decoder as decoder";
"";
"";
"# 4.1.24 Preferred Routes Records (ET)";
"# The Preferred Routes file contains details defining the  ";
"# Preferred Routes, North America Routes for North Atlantic Traffic, the Traffic Orientation System, and the  ";
"# similar predefined routings that do not meet the ";
"# requirements of the Enroute Airway Record. ";
"class PreferredRoute():";
"";
"  cont_idx = 38";
"  app_idx = 39";
"  continuations = ['A', 'T']";
"  name = 'Preferred Route'";
"";
"  def application_type(self, line):";
"    return line[self.app_idx]";
"";
"  def read(self, line, primary) -> list:";
"";
"    if primary:";
"      return self.read_primary(line)";
"";
"    application = line[self.app_idx]";
"    match application:";
"      case 'A':";
"        return self.read_cont(line)";
"      case 'T':";
"        return self.read_timeop(line)";
"      case _:";
"        return []";
"";
"  # 4.1.24.1 Preferred Route Primary Records";
"  def read_primary(self, r):";
"    return [";
"      Field(""Record Type"",                r[0],           decoder.field_002),";
"      Field(""Customer / Area Code"",       r[1:4],         decoder.field_003),";
"      Field(""Section Code"",               r[4:6],         decoder.field_004),";
"      Field(""Route Identifier"",           r[13:23],       decoder.field_008),";
"      Field(""Preferred Route Use Ind"",    r[23:25],       decoder.field_220),";
"      Field(""Sequence Number"",            r[25:29],       decoder.field_012),";
"      Field(""Continuation Record No"",     r[38],          decoder.field_016),";
"      Field(""To Fix Identifier"",          r[39:44],       decoder.field_083),";
"      Field(""ICAO Code"",                  r[44:46],       decoder.field_014),";
"      Field(""Section Code (2)"",           r[46:48],       decoder.field_004),";
"      Field(""VIA Code"",                   r[48:51],       decoder.field_077),";
"      Field(""SID/STAR/AWY Ident"",         r[51:57],       decoder.field_078),";
"      Field(""AREA Code"",                  r[57:60],       decoder.field_003),";
"      Field(""Level"",                      r[60],          decoder.field_019),";
"      Field(""Route Type"",                 r[61],          decoder.field_007),";
"      Field(""Initial Airport/Fix"",        r[62:67],       decoder.field_194),";
"      Field(""ICAO Code"",                  r[67:69],       decoder.field_014),";
"      Field(""Section Code"",               r[69:71],       decoder.field_004),";
"      Field(""Terminus Airport/Fix"",       r[71:76],       decoder.field_194),";
"      Field(""ICAO Code"",                  r[76:78],       decoder.field_014),";
"      Field(""Section Code"",               r[78:80],       decoder.field_004),";
"      Field(""Minimum Altitude"",           r[80:85],       decoder.field_030),";
"      Field(""Maximum Altitude"",           r[85:90],       decoder.field_127),";
"      Field(""Time Code"",                  r[90],          decoder.field_131),";
"      Field(""Aircraft Use Group"",         r[91:93],       decoder.field_221),";
"      Field(""Direction Restriction"",      r[93],          decoder.field_115),";
"      Field(""Altitude Description"",       r[94],          decoder.field_029),";
"      Field(""Altitude One"",               r[95:100],      decoder.field_030),";
"      Field(""Altitude Two"",               r[100:105],     decoder.field_030),";
"      Field(""File Record No"",             r[123:128],     decoder.field_031),";
"      Field(""Cycle Date"",                 r[128:132],     decoder.field_032)";
"    ]";
"";
"  # 4.1.24.2 Preferred Route Continuation Records";
"  def read_timeop(self, r):";
"    return [";
"      Field(""Record Type"",                r[0],           decoder.field_002),";
"      Field(""Customer / Area Code"",       r[1:4],         decoder.field_003),";
"      Field(""Section Code"",               r[4:6],         decoder.field_004),";
"      Field(""Route Identifier"",           r[13:23],       decoder.field_008),";
"      Field(""Preferred Route Use Ind"",    r[23:25],       decoder.field_220),";
"      Field(""Sequence Number"",            r[25:29],       decoder.field_012),";
"      Field(""Continuation Record No"",     r[38],          decoder.field_016),";
"      Field(""Application Type"",           r[39],          decoder.field_091),";
"      Field(""Time Code"",                  r[40],          decoder.field_131),";
"      Field(""Time Indicator"",             r[41],          decoder.field_138),";
"      Field(""Time of Operation"",          r[42:52],       decoder.field_195),";
"      Field(""Time of Operation (2)"",      r[52:62],       decoder.field_195),";
"      Field(""Time of Operation (3)"",      r[62:72],       decoder.field_195),";
"      Field(""Time of Operation (4)"",      r[72:82],       decoder.field_195),";
"      Field(""Time of Operation (5)"",      r[82:92],       decoder.field_195),";
"      Field(""Time of Operation (6)"",      r[92:102],      decoder.field_195),";
"      Field(""Time of Operation (7)"",      r[102:112],     decoder.field_195),";
"      Field(""File Record No"",             r[123:128],     decoder.field_031),";
"      Field(""Cycle Date"",                 r[128:132],     decoder.field_032)";
"    ]";
"";
"  # 4.1.24.3 Preferred Route Continuation Record";
"  def read_cont(self, r):";
"    return [";
"      Field(""Record Type"",                r[0],           decoder.field_002),";
"      Field(""Customer / Area Code"",       r[1:4],         decoder.field_003),";
"      Field(""Section Code"",               r[4:6],         decoder.field_004),";
"      Field(""Route Identifier"",           r[13:23],       decoder.field_008),";
"      Field(""Preferred Route Use Ind"",    r[23:25],       decoder.field_220),";
"      Field(""Sequence Number"",            r[25:29],       decoder.field_012),";
"      Field(""Continuation Record No"",     r[38],          decoder.field_016),";
"      Field(""Application Type"",           r[39],          decoder.field_091),";
"      Field(""Notes"",                      r[40:109],      decoder.field_061),";
"      Field(""File Record No"",             r[123:128],     decoder.field_031),";
"      Field(""Cycle Date"",                 r[128:132],     decoder.field_032)";
"    ]"].

(* src/arinc424/definitions/RestrictiveAirspace.py *)
Definition text_RestrictiveAirspace : list string := [
"from arinc424.decoder import Field";
"import arinc424.decoder as decoder";
"";
"";
"# 4.1.18 Restrictive Airspace Records (UR)";
"class RestrictiveAirspace():";
"";
"  cont_idx = 24";
"  app_idx = 25";
"  continuations = ['T', 'P', 'C']";
"  name = 'Restrictive Airspace'";
"";
"  def application_type(self, line):";
"    return line[self.app_idx]";
"";
"  def read(self, line, primary) -> list:";
"";
"    if primary:";
"      return self.read_primary(line)";
"";
"    application = line[self.app_idx]";
"    match application:";
"      case 'T':";
"        return self.read_time(line)";
"      case 'P':";
"        return self.read_flight0(line)";
"      case 'C':";
"        return self.read_callsign(line)";
"      case _:";
"        return []";
"";
"  # 4.1.18.1 Restrictive Airspace Primary Records";
"  def read_primary(self, r):";
"    return [";
"      Field(""Record Type"",                         r[0],          decoder.field_002),";
"      Field(""Customer / Area Code"",                r[1:4],        decoder.field_003),";
"      Field(""Section Code"",                        r[4:6],        decoder.field_004),";
"      Field(""ICAO Code"",                           r[6:8],        decoder.field_014),";
"      Field(""Restrictive Type"",                    r[8],          decoder.field_128),";
"      Field(""Restrictive Airspace Designation"",    r[9:19],       decoder.field_129),";
"      Field(""Multiple Code"",                       r[19],         decoder.field_130),";
"      Field(""Sequence Number"",                     r[20:24],      decoder.field_012),";
"      Field(""Continuation Record No"",              r[24],         decoder.field_016),";
"      Field(""Level"",                               r[25],         decoder.field_019),";
"      Field(""Time Code"",                           r[26],         decoder.field_131),";
"      Field(""NOTAM"",                               r[27],         decoder.field_132),";
"      Field(""Boundary Via"",                        r[30:32],      decoder.field_118),";
"      Field(""Latitude"",                            r[32:41],      decoder.field_036),";
"      Field(""Longitude"",                           r[41:51],      decoder.field_037),";
"      Field(""Arc Origin Latitude"",                 r[51:60],      decoder.field_036),";
"      Field(""Arc Origin Longitude"",                r[60:70],      decoder.field_037),";
"      Field(""Arc Distance"",                        r[70:74],      decoder.field_119),";
"      Field(""Arc Bearing"",                         r[74:78],      decoder.field_120),";
"      Field(""Lower Limit"",                         r[82:86],      decoder.field_121),";
"      Field(""Unit Indicator"",                      r[86],         decoder.field_133),";
"      Field(""Upper Limit"",                         r[87:92],      decoder.field_121),";
"      Field(""Unit Indicator (2)"",                  r[92],         decoder.field_133),";
"      Field(""Restrictive Airspace Name"",           r[93:123],     decoder.field_126),";
"      Field(""File Record No"",                      r[123:128],    decoder.field_031),";
"      Field(""Cycle Date"",                          r[128:132],    decoder.field_032)";
"    ]";
"";
"  # 4.1.18.2 Restrictive Airspace Continuation Records";
"  def read_time(self, r):";
"    return [";
"      Field(""Record Type"",                         r[0],          decoder.field_002),";
"      Field(""Customer / Area Code"",                r[1:4],        decoder.field_003),";
"      Field(""Section Code"",                        r[4:6],        decoder.field_004),";
"      Field(""ICAO Code"",                           r[6:8],        decoder.field_014),";
"      Field(""Restrictive Type"",                    r[8],          decoder.field_128),";
"      Field(""Restrictive Airspace Designation"",    r[9:19],       decoder.field_129),";
"      Field(""Multiple Code"",                       r[19],         decoder.field_130),";
"      Field(""Sequence Number"",                     r[20:24],      decoder.field_012),";
"      Field(""Continuation Record No"",              r[24],         decoder.field_016),";
"      Field(""Application Type"",                    r[25],         decoder.field_091),";
"      Field(""Time Code"",                           r[26],         decoder.field_131),";
"      Field(""NOTAM"",                               r[27],         decoder.field_132),";
"      Field(""Time Indicator"",                      r[27],         decoder.field_138),";
"      Field(""Time of Operations"",                  r[29:39],      decoder.field_195),";
"      Field(""Time of Operations (2)"",              r[39:49],      decoder.field_195),";
"      Field(""Time of Operations (3)"",              r[49:59],      decoder.field_195),";
"      Field(""Time of Operations (4)"",              r[59:69],      decoder.field_195),";
"      Field(""Time of Operations (5)"",              r[69:79],      decoder.field_195),";
"      Field(""Time of Operations (6)"",              r[79:89],      decoder.field_195),";
"      Field(""Time of Operations (7)"",              r[89:99],      decoder.field_195),";
"      Field(""Controlling Agency"",                  r[99:123],     decoder.field_140),";
"      Field(""File Record No"",                      r[123:128],    decoder.field_031),";
"      Field(""Cycle Date"",                          r[128:132],    decoder.field_032)";
"    ]";
"";
"  # 4.1.18.3 Restrictive Airspace Flight Planning Continuation Record";
"  def read_flight0(self, r):";
"    return [";
"      Field(""Record Type"",                         r[0],          decoder.field_002),";
"      Field(""Customer / Area Code"",                r[1:4],        decoder.field_003),";
"      Field(""Section Code"",                        r[4:6],        decoder.field_004),";
"      Field(""ICAO Code"",                           r[6:8],        decoder.field_014),";
"      Field(""Restrictive Type"",                    r[8],          decoder.field_128),";
"      Field(""Restrictive Airspace Designation"",    r[9:19],       decoder.field_129),";
"      Field(""Multiple Code"",                       r[19],         decoder.field_130),";
"      Field(""Sequence Number"",                     r[20:24],      decoder.field_012),";
"      Field(""Continuation Record No"",              r[24],         decoder.field_016),";
"      Field(""Application Type"",                    r[25],         decoder.field_091),";
"      Field(""Start/End Indicator"",                 r[29],         decoder.field_152),";
"      Field(""Start/End Date"",                      r[30:41],      decoder.field_153),";
"      Field(""File Record No"",                      r[123:128],    decoder.field_031),";
"      Field(""Cycle Date"",                          r[128:132],    decoder.field_032)";
"    ]";
"";
"  # TODO the spec doesn't show any restrictive airspace callsign continuation records";
"  # yet several data sets have them... are they from an old spec?";
"  # ?? Restrictive Airspace Call Sign Continuation Record";
"  def read_callsign(self, r):";
"    return [";
"      Field(""Record Type"",                         r[0],          decoder.field_002),";
"      Field(""Customer / Area Code"",                r[1:4],        decoder.field_003),";
"      Field(""Section Code"",                        r[4:6],        decoder.field_004),";
"      Field(""ICAO Code"",                           r[6:8],        decoder.field_014),";
"      Field(""Restrictive Type"",                    r[8],          decoder.field_128),";
"      Field(""Restrictive Airspace Designation"",    r[9:19],       decoder.field_129),";
"      Field(""Multiple Code"",                       r[19],         decoder.field_130),";
"      Field(""Sequence Number"",                     r[20:24],      decoder.field_012),";
"      Field(""Continuation Record No"",              r[24],         decoder.field_016),";
"      Field(""Application Type"",                    r[25],         decoder.field_091),";
"      Field(""Time Code"",                           r[26],         decoder.field_131),";
"      Field(""NOTAM"",                               r[27],         decoder.field_132),";
"      Field(""Time Indicator"",                      r[27],         decoder.field_138),";
"      Field(""Time of Operations"",                  r[29:39],      decoder.field_195),";
"      Field(""Time of Operations (2)"",              r[39:49],      decoder.field_195),";
"      Field(""Time of Operations (3)"",              r[49:59],      decoder.field_195),";
"      Field(""Time of Operations (4)"",              r[59:69],      decoder.field_195),";
"      Field(""Time of Operations (5)"",              r[69:79],      decoder.field_195),";
"      Field(""Time of Operations (6)"",              r[79:89],      decoder.field_195),";
"      Field(""Time of Operations (7)"",              r[89:99],      decoder.field_195),";
"      Field(""Controlling Agency"",                  r[99:123],     decoder.field_140),";
"      Field(""File Record No"",                      r[123:128],    decoder.field_031),";
"      Field(""Cycle Date"",                          r[128:132],    decoder.field_032)";
"    ]"].

(* src/arinc424/definitions/Runway.py *)
Definition text_Runway : list string := [
"from arinc424.decoder import Field";
"import arinc424.decoder as decoder";
"";
"";
"# 4.1.10.1 Runway Primary Records";
"class Runway():";
"";
"  cont_idx = 21";
"  app_idx = 22";
"  continuations = ['A', 'S']";
"  name = 'Runway'";
"";
"  def application_type(self, line):";
"    return line[self.app_idx]";
"";
"  def read(self, line, primary) -> list:";
"";
"    if primary:";
"      return self.read_primary(line)";
"";
"    application = line[self.app_idx]";
"    match application:";
"      case 'A':";
"        return self.read_cont(line)";
"      case 'S':";
"        return self.read_sim(line)";
"      case _:";
"        return []";
"";
"  def read_primary(self, r):";
"    return [";
"      Field(""Record Type"",                            r[0],           decoder.field_002),";
"      Field(""Customer / Area Code"",                   r[1:4],         decoder.field_003),";
"      Field(""Section Code"",                           r[4]+r[12],     decoder.field_004),";
"      Field(""Airport ICAO Identifier"",                r[6:10],        decoder.field_006),";
"      Field(""ICAO Code"",                              r[10:12],       decoder.field_014),";
"      Field(""Runway Identifier"",                      r[13:18],       decoder.field_046),";
"      Field(""Continuation Record No"",                 r[21],          decoder.field_016),";
"      Field(""Runway Length"",                          r[22:27],       decoder.field_057),";
"      Field(""Runway Magnetic Bearing"",                r[27:31],       decoder.field_058),";
"      Field(""Runway Latitude"",                        r[32:41],       decoder.field_036),";
"      Field(""Runway Longitude"",                       r[41:51],       decoder.field_037),";
"      Field(""Runway Gradient"",                        r[51:56],       decoder.field_212),";
"      Field(""(LTP) Ellipsoid Height"",                 r[60:66],       decoder.field_225),";
"      Field(""Landing Threshold Elevation"",            r[66:71],       decoder.field_068),";
"      Field(""Displaced Threshold Dist"",               r[71:75],       decoder.field_069),";
"      Field(""Threshold Crossing Height"",              r[75:77],       decoder.field_067),";
"      Field(""Runway Width"",                           r[77:80],       decoder.field_109),";
"      Field(""TCH Value Indicator"",                    r[80],          decoder.field_270),";
"      Field(""Localizer/MLS/GLS Ref Path Ident"",       r[81:85],       decoder.field_044),";
"      Field(""Localizer/MLS/GLS Category/Class"",       r[85],          decoder.field_080),";
"      Field(""Stopway"",                                r[86:90],       decoder.field_079),";
"      Field(""Localizer/MLS/GLS Ref Path Ident (2)"",   r[90:94],       decoder.field_044),";
"      Field(""Localizer/MLS/GLS Category/Class (2)"",   r[94],          decoder.field_080),";
"      Field(""Runway Description"",                     r[101:123],     decoder.field_059),";
"      Field(""File Record No"",                         r[123:128],     decoder.field_031),";
"      Field(""Cycle Date"",                             r[128:132],     decoder.field_032)";
"    ]";
"";
"  def read_cont(self, r):";
"    return [";
"      Field(""Record Type"",                            r[0],           decoder.field_002),";
"      Field(""Customer / Area Code"",                   r[1:4],         decoder.field_003),";
"      Field(""Section Code"",                           r[4]+r[12],     decoder.field_004),";
"      Field(""Airport ICAO Identifier"",                r[6:10],        decoder.field_006),";
"      Field(""ICAO Code"",                              r[10:12],       decoder.field_014),";
"      Field(""Runway Identifier"",                      r[13:18],       decoder.field_046),";
"      Field(""Continuation Record No"",                 r[21],          decoder.field_016),";
"      Field(""Notes"",                                  r[23:92],       decoder.field_061),";
"      Field(""File Record No"",                         r[123:128],     decoder.field_031),";
"      Field(""Cycle Date"",                             r[128:132],     decoder.field_032)";
"    ]";
"";
"  def read_sim(self, r):";
"      return [";
"          Field(""Record Type"",                            r[0],           decoder.field_002),";
"          Field(""Customer / Area Code"",                   r[1:4],         decoder.field_003),";
"          Field(""Section Code"",                           r[4]+r[12],     decoder.field_004),";
"          Field(""Airport ICAO Identifier"",                r[6:10],        decoder.field_006),";
"          Field(""ICAO Code"",                              r[10:12],       decoder.field_014),";
"          Field(""Runway Identifier"",                      r[13:18],       decoder.field_046),";
"          Field(""Continuation Record No"",                 r[21],          decoder.field_016),";
"          Field(""Application Type"",                       r[22],          decoder.field_091),";
"          Field(""Runway True Bearing"",                    r[51:56],       decoder.field_094),";
"          Field(""True Bearing Source"",                    r[56],          decoder.field_095),";
"          Field(""TDZE Location"",                          r[65],          decoder.field_098),";
"          Field(""Touchdown Zone Elevation"",               r[66:71],       decoder.field_097),";
"          Field(""File Record No"",                         r[123:128],     decoder.field_031),";
"          Field(""Cycle Date"",                             r[128:132],     decoder.field_032)";
"      ]";
"";
"  # def read_flight1(self, r):";
"  #     return [";
"  #         Field(""Record Type"",                            r[0],           decoder.field_000),";
"  #         Field(""Customer / Area Code"",                   r[1:4],         decoder.field_000),";
"  #         Field(""Section Code"",                           r[4]+r[12],     decoder.field_000),";
"  #         Field(""Airport Identifier"",                     r[6:10],        decoder.field_000),";
"  #         Field(""ICAO Code"",                              r[10:12],       decoder.field_000),";
"  #         Field(""SID/STAR/Approach Identifier"",           r[13:19],       decoder.field_000),";
"  #         Field(""Route Type"",                             r[19],          decoder.field_000),";
"  #         Field(""Transition Identifier"",                  r[20:25],       decoder.field_000),";
"  #         Field(""Sequence Number"",                        r[26:29],       decoder.field_000),";
"  #         Field(""Fix Identifier"",                         r[29:34],       decoder.field_000),";
"  #         Field(""ICAO Code (2)"",                          r[34:36],       decoder.field_000),";
"  #         Field(""Section Code (2)"",                       r[36:38],       decoder.field_000),";
"  #         Field(""Continuation Record No"",                 r[38],          decoder.field_000),";
"  #         Field(""Application Type"",                       r[39],          decoder.field_000),";
"  #         Field(""Start/End Indicator"",                    r[40],          decoder.field_000),";
"  #         Field(""Start/End Date"",                         r[41:45],       decoder.field_000),";
"  #         Field(""Leg Distance"",                           r[74:78],       decoder.field_000),";
"  #         Field(""File Record No"",                         r[123:128],     decoder.field_000),";
"  #         Field(""Cycle Date"",                             r[128:132],     decoder.field_000)";
"  #     ]"].

(* src/arinc424/definitions/SIDSTARApproach.py *)
Definition text_SIDSTARApproach : list string := [
"from arinc424.decoder import Field";
"import arinc424.decoder as decoder";
"";
"# 4.1.9  Airport SID/STAR/Approach (PD, PE and PF)";
"# 4.2.3  Heliport SID/STAR/Approach (HD/HE/HF)";
"class SIDSTARApproach():";
"";
"  cont_idx = 38";
"  app_idx = 39";
"  continuations = ['E', 'P', 'W']";
"  name = 'SID/STAR/Approach'";
"";
"  def application_type(self, line):";
"    return line[self.app_idx]";
"";
"  def read(self, line, primary) -> list:";
"";
"    if primary:";
"      return self.read_primary(line)";
"";
"    application = line[self.app_idx]";
"    match application:";
"      case 'E':";
"        return self.read_ext(line)";
"      case 'P':";
"        return self.read_flight0(line)";
"      case 'W':";
"        return self.read_data(line)";
"      case _:";
"        return []";
"";
"  # 4.1.9.1 Airport SID/STAR/Approach Primary Records";
"  # 4.2.3.1 Heliport SID/STAR/Approach Primary Records ";
"  def read_primary(self, r):";
"    return [";
"      Field(""Record Type"",                                r[0],           decoder.field_002),";
"      Field(""Customer / Area Code"",                       r[1:4],         decoder.field_003),";
"      Field(""Section Code"",                               r[4]+r[12],     decoder.field_004),";
"      Field(""Airport Identifier"",                         r[6:10],        decoder.field_006),";
"      Field(""ICAO Code"",                                  r[10:12],       decoder.field_014),";
"      Field(""SID/STAR/Approach Identifier"",               r[13:19],       decoder.field_009),";
"      Field(""Route Type"",                                 r[19],          decoder.field_007),";
"      Field(""Transition Identifier"",                      r[20:25],       decoder.field_011),";
"      Field(""Sequence Number"",                            r[26:29],       decoder.field_012),";
"      Field(""Fix Identifier"",                             r[29:34],       decoder.field_013),";
"      Field(""ICAO Code (2)"",                              r[34:36],       decoder.field_014),";
"      Field(""Section Code (2)"",                           r[36:38],       decoder.field_004),";
"      Field(""Continuation Record No"",                     r[38],          decoder.field_016),";
"      Field(""Waypoint Description Code"",                  r[39:43],       decoder.field_017),";
"      Field(""Turn Direction"",                             r[43],          decoder.field_020),";
"      Field(""RNP"",                                        r[44:47],       decoder.field_211),";
"      Field(""Path and Termination"",                       r[47:49],       decoder.field_021),";
"      Field(""Turn Direction Valid"",                       r[49],          decoder.field_022),";
"      Field(""Recommended Navaid"",                         r[50:54],       decoder.field_023),";
"      Field(""ICAO Code (3)"",                              r[54:56],       decoder.field_014),";
"      Field(""Arc Radius"",                                 r[56:62],       decoder.field_204),";
"      Field(""Theta"",                                      r[62:66],       decoder.field_024),";
"      Field(""Rho"",                                        r[66:70],       decoder.field_025),";
"      Field(""Magnetic Course"",                            r[70:74],       decoder.field_026),";
"      Field(""Route / Holding Distance or Time"",           r[74:78],       decoder.field_027),";
"      Field(""Recommended Navaid (2)"",                     r[78:80],       decoder.field_004),";
"      Field(""Altitude Description"",                       r[82],          decoder.field_029),";
"      Field(""ATC Indicator"",                              r[83],          decoder.field_081),";
"      Field(""Altitude"",                                   r[84:89],       decoder.field_030),";
"      Field(""Altitude (2)"",                               r[89:94],       decoder.field_030),";
"      Field(""Transition Altitude"",                        r[94:99],       decoder.field_053),";
"      Field(""Speed Limit"",                                r[99:102],      decoder.field_072),";
"      Field(""Vertical Angle"",                             r[102:106],     decoder.field_070),";
"      Field(""Center Fix or TAA Procedure Turn Indicator"", r[106:111],     decoder.field_144),  # or 271";
"      Field(""Multiple Code or TAA Sector Identifier"",     r[111],         decoder.field_130),  # or 272";
"      Field(""ICAO Code (4)"",                              r[112:113],     decoder.field_014),";
"      Field(""Section Code (3)"",                           r[114:116],     decoder.field_004),";
"      Field(""GNSS/FMS Indication"",                        r[116],         decoder.field_222),";
"      Field(""Speed Limit Description"",                    r[117],         decoder.field_261),";
"      Field(""Apch Route Qualifier 1"",                     r[118],         decoder.field_007),";
"      Field(""Apch Route Qualifier 2"",                     r[119],         decoder.field_007),";
"      Field(""File Record No"",                             r[123:128],     decoder.field_031),";
"      Field(""Cycle Date"",                                 r[128:132],     decoder.field_032)";
"    ]";
"";
"  # 4.1.9.2 Airport SID/STAR/ Primary Extension Approach Continuation Records";
"  # 4.2.3.2 Heliport SID/STAR/Approach Primary Extension Continuation Records";
"  def read_ext(self, r):";
"    return [";
"      Field(""Record Type"",                                r[0],           decoder.field_002),";
"      Field(""Customer / Area Code"",                       r[1:4],         decoder.field_003),";
"      Field(""Section Code"",                               r[4]+r[12],     decoder.field_004),";
"      Field(""Airport Identifier"",                         r[6:10],        decoder.field_006),";
"      Field(""ICAO Code"",                                  r[10:12],       decoder.field_014),";
"      Field(""SID/STAR/Approach Identifier"",               r[13:19],       decoder.field_009),";
"      Field(""Route Type"",                                 r[19],          decoder.field_007),";
"      Field(""Transition Identifier"",                      r[20:25],       decoder.field_011),";
"      Field(""Sequence Number"",                            r[26:29],       decoder.field_012),";
"      Field(""Fix Identifier"",                             r[29:34],       decoder.field_013),";
"      Field(""ICAO Code (2)"",                              r[34:36],       decoder.field_014),";
"      Field(""Section Code (2)"",                           r[36:38],       decoder.field_004),";
"      Field(""Continuation Record No"",                     r[38],          decoder.field_016),";
"      Field(""Application Type"",                           r[39],          decoder.field_091),";
"      Field(""CAT A Decision Height"",                      r[40:44],       decoder.field_170),";
"      Field(""CAT B Decision Height"",                      r[44:48],       decoder.field_170),";
"      Field(""CAT C Decision Height"",                      r[48:52],       decoder.field_170),";
"      Field(""CAT D Decision Height"",                      r[52:56],       decoder.field_170),";
"      Field(""CAT A Minimum Descent Altitude"",             r[56:60],       decoder.field_171),";
"      Field(""CAT B Minimum Descent Altitude"",             r[60:64],       decoder.field_171),";
"      Field(""CAT C Minimum Descent Altitude"",             r[64:68],       decoder.field_171),";
"      Field(""CAT D Minimum Descent Altitude"",             r[68:72],       decoder.field_171),";
"      Field(""Procedure TCH"",                              r[72:75],       decoder.field_067),";
"      Field(""Localizer Only Altitude Desc"",               r[75],          decoder.field_029),";
"      Field(""Localizer Only Altitude"",                    r[76:81],       decoder.field_030),";
"      Field(""Localizer Only Vertical Angle"",              r[81:85],       decoder.field_070),";
"      Field(""RNP"",                                        r[89:92],       decoder.field_211),";
"      Field(""Apch Route Qualifier 1"",                     r[118],         decoder.field_007),";
"      Field(""Apch Route Qualifier 2"",                     r[119],         decoder.field_007),";
"      Field(""File Record No"",                             r[123:128],     decoder.field_031),";
"      Field(""Cycle Date"",                                 r[128:132],     decoder.field_032)";
"    ]";
"";
"  # 4.1.9.3 Airport SID/STAR/Approach Flight Planning Continuation Records";
"  # 4.2.3.3 Heliport SID/STAR/Approach Flight Planning Continuation Records";
"  def read_flight0(self, r):";
"    return [";
"      Field(""Record Type"",                                r[0],           decoder.field_002),";
"      Field(""Customer / Area Code"",                       r[1:4],         decoder.field_003),";
"      Field(""Section Code"",                               r[4]+r[12],     decoder.field_004),";
"      Field(""Airport Identifier"",                         r[6:10],        decoder.field_006),";
"      Field(""ICAO Code"",                                  r[10:12],       decoder.field_014),";
"      Field(""SID/STAR/Approach Identifier"",               r[13:19],       decoder.field_009),";
"      Field(""Route Type"",                                 r[19],          decoder.field_007),";
"      Field(""Transition Identifier"",                      r[20:25],       decoder.field_011),";
"      Field(""Sequence Number"",                            r[26:29],       decoder.field_012),";
"      Field(""Fix Identifier"",                             r[29:34],       decoder.field_013),";
"      Field(""ICAO Code (2)"",                              r[34:36],       decoder.field_014),";
"      Field(""Section Code (2)"",                           r[36:38],       decoder.field_004),";
"      Field(""Continuation Record No"",                     r[38],          decoder.field_016),";
"      Field(""Application Type"",                           r[39],          decoder.field_091),";
"      Field(""Start/End Indicator"",                        r[40],          decoder.field_152),";
"      Field(""Start/End Date"",                             r[41:45],       decoder.field_153),";
"      Field(""Leg Distance"",                               r[74:78],       decoder.field_260),";
"      Field(""File Record No"",                             r[123:128],     decoder.field_031),";
"      Field(""Cycle Date"",                                 r[128:132],     decoder.field_032)";
"    ]";
"";
"  # 4.1.9.5 Airport Procedure Data Continuation Record";
"  # 4.2.3.5 Heliport Procedure Data Continuation Record";
"  def read_data(self, r):";
"    return [";
"      Field(""Record Type"",                                r[0],           decoder.field_002),";
"      Field(""Customer / Area Code"",                       r[1:4],         decoder.field_003),";
"      Field(""Section Code"",                               r[4]+r[12],     decoder.field_004),";
"      Field(""Airport Identifier"",                         r[6:10],        decoder.field_006),";
"      Field(""ICAO Code"",                                  r[10:12],       decoder.field_014),";
"      Field(""SID/STAR/Approach Identifier"",               r[13:19],       decoder.field_009),";
"      Field(""Route Type"",                                 r[19],          decoder.field_007),";
"      Field(""Transition Identifier"",                      r[20:25],       decoder.field_011),";
"      Field(""Sequence Number"",                            r[26:29],       decoder.field_012),";
"      Field(""Fix Identifier"",                             r[29:34],       decoder.field_013),";
"      Field(""ICAO Code (2)"",                              r[34:36],       decoder.field_014),";
"      Field(""Section Code (2)"",                           r[36:38],       decoder.field_004),";
"      Field(""Continuation Record No"",                     r[38],          decoder.field_016),";
"      Field(""Application Type"",                           r[39],          decoder.field_091),";
"      Field(""FAS Block Provided"",                         r[40],          decoder.field_276),";
"      Field(""FAS Block Provided Level of Service Name"",   r[41:51],       decoder.field_275),";
"      Field(""LNAV/VNAV Authorized for SBAS"",              r[51],          decoder.field_276),";
"      Field(""LNAV/VNAV Level of Service Name"",            r[52:62],       decoder.field_275),";
"      Field(""LNAV Authorized for SBAS"",                   r[62],          decoder.field_276),";
"      Field(""LNAV Level of Service Name"",                 r[63:73],       decoder.field_275),";
"      Field(""Apch Route Qualifier 1"",                     r[118],         decoder.field_007),";
"      Field(""Apch Route Qualifier 2"",                     r[119],         decoder.field_007),";
"      Field(""File Record No"",                             r[123:128],     decoder.field_031),";
"      Field(""Cycle Date"",                                 r[128:132],     decoder.field_032)";
"    ]"].

(* src/arinc424/definitions/TAA.py *)
Definition text_TAA : list string := [
"from arinc424.decoder import Field";
"import arinc424.decoder as decoder";
"";
"";
"# 4.1.31 Airport TAA (PK)";
"class TAA():";
"";
"  # cont_idx = 38";
"  # app_idx = 39";
"  cont_idx = 29";
"  app_idx = 30";
"  continuations = ['A']";
"  name = 'TAA'";
"";
"  def application_type(self, line):";
"    return line[self.app_idx]";
"";
"  def __init__(self, heliport=False):";
"    self.heliport = heliport";
"    if self.heliport is False:";
"      self.id_name = ""Airport Identifier""";
"    else:";
"      self.id_name = ""Heliport Identifier""";
"";
"  def read(self, line, primary) -> list:";
"";
"    if primary:";
"      return self.read_primary(line)";
"";
"    application = line[self.app_idx]";
"    match application:";
"      case 'A':";
"        return self.read_cont(line)";
"      case _:";
"        return []";
"";
"  # 4.1.31.1 Airport TAA Primary Records";
"  def read_primary(self, r):";
"    return [";
"      Field(""Record Type"",                        r[0],           decoder.field_002),";
"      Field(""Customer / Area Code"",               r[1:4],         decoder.field_003),";
"      Field(""Section Code"",                       r[4]+r[12],     decoder.field_004),";
"      Field(self.id_name,                         r[6:10],        decoder.field_006),";
"      Field(""ICAO Code"",                          r[10:12],       decoder.field_014),";
"      Field(""Approach Identifier"",                r[13:19],       decoder.field_010),";
"      Field(""TAA Waypoint"",                       r[19:24],       decoder.field_273),";
"      Field(""TAA Procedure Turn"",                 r[20:24],       decoder.field_271),";
"      Field(""ICAO Code (2)"",                      r[24:26],       decoder.field_014),";
"      Field(""Section Code (2)"",                   r[26:28],       decoder.field_004),";
"      Field(""TAA Fix Position Indicator"",         r[28],          decoder.field_272),";
"      Field(""Continuation Record No"",             r[29],          decoder.field_016),";
"      Field(""Mag/True Indicator"",                 r[40],          decoder.field_165),";
"      Field(""Sector Radius"",                      r[41:45],       decoder.field_274),";
"      Field(""Sector Bearing"",                     r[45:51],       decoder.field_146),";
"      Field(""Sector Minimum Altitude"",            r[51:54],       decoder.field_147),";
"      Field(""Sector Radius (2)"",                  r[54:58],       decoder.field_274),";
"      Field(""Sector Bearing (2)"",                 r[58:64],       decoder.field_146),";
"      Field(""Sector Minimum Altitude (2)"",        r[64:67],       decoder.field_147),";
"      Field(""Sector Radius (3)"",                  r[67:71],       decoder.field_274),";
"      Field(""Sector Bearing (3)"",                 r[71:77],       decoder.field_146),";
"      Field(""Sector Minimum Altitude (3)"",        r[77:80],       decoder.field_147),";
"      Field(""Sector Radius (4)"",                  r[80:84],       decoder.field_274),";
"      Field(""Sector Bearing (4)"",                 r[84:90],       decoder.field_146),";
"      Field(""Sector Minimum Altitude (4)"",        r[90:93],       decoder.field_147),";
"      Field(""Sector Radius (5)"",                  r[93:97],       decoder.field_274),";
"      Field(""Sector Bearing (5)"",                 r[97:103],      decoder.field_146),";
"      Field(""Sector Minimum Altitude (5)"",        r[103:106],     decoder.field_147),";
"      Field(""Sector Radius (6)"",                  r[106:110],     decoder.field_274),";
"      Field(""Sector Bearing (6)"",                 r[110:116],     decoder.field_146),";
"      Field(""Sector Minimum Altitude (6)"",        r[116:119],     decoder.field_147),";
"      Field(""File Record No"",                     r[123:128],     decoder.field_031),";
"      Field(""Cycle Date"",                         r[128:132],     decoder.field_032)";
"    ]";
"";
"  # 4.1.31.2 Airport Terminal Arrival Altitude Continuation Records";
"  def read_cont(self, r):";
"    return [";
"      Field(""Record Type"",                        r[0],           decoder.field_002),";
"      Field(""Customer / Area Code"",               r[1:4],         decoder.field_003),";
"      Field(""Section Code"",                       r[4]+r[12],     decoder.field_004),";
"      Field(self.id_name,                         r[6:10],        decoder.field_006),";
"      Field(""ICAO Code"",                          r[10:12],       decoder.field_014),";
"      Field(""Approach Identifier"",                r[13:19],       decoder.field_010),";
"      Field(""TAA Sector Identifier"",              r[19],          decoder.field_272),";
"      Field(""TAA Procedure Turn"",                 r[20:24],       decoder.field_271),";
"      Field(""TAA IAF Waypoint"",                   r[29:34],       decoder.field_273),";
"      Field(""ICAO Code (2)"",                      r[10:12],       decoder.field_014),";
"      Field(""Section Code (2)"",                   r[36:38],       decoder.field_004),";
"      Field(""Continuation Record No"",             r[38],          decoder.field_016),";
"      Field(""Application Notes"",                  r[39],          decoder.field_091),";
"      Field(""Notes"",                              r[50:109],      decoder.field_061),";
"      Field(""File Record No"",                     r[123:128],     decoder.field_031),";
"      Field(""Cycle Date"",                         r[128:132],     decoder.field_032)";
"    ]"].

(* src/arinc424/definitions/VHFNavaid.py *)
Definition text_VHFNavaid : list string := [
"from arinc424.decoder import Field";
"import arinc424.decoder as decoder";
"";
"";
"";
"# 4.1.2  VHF NAVAID Record (D) ";
" ";
"# The VHF  NAVAID  file  contains  details  of  all  VOR,  ";
"# VOR/DME, VORTAC, DME and TACAN stations within ";
"# the  geographical  area  of  interest.  For  VOR  and  TACAN  ";
"# stations  having  the  same  identifier  but  different  operating  ";
"# frequencies,  the  TACAN  is  available  and  the  VOR  is  ";
"# suppressed unless the VOR is required to support Sections ";
"# 3.2.3.3,  3.2.3.4,  3.2.4.4,  3.2.4.5,  3.2.4.6,  3.2.4.11,  3.2.5,  ";
"# 3.2.9,  3.3.5,  3.3.6,  3.3.7  or  3.3.8.  In  such  cases  the  VOR  ";
"# is available and the TACAN is suppressed";
"class VHFNavaid():";
"";
"  cont_idx = 21";
"  app_idx = 22";
"  continuations = ['A', 'L', 'P', 'S']";
"  name = 'VHF Navaid'";
"";
"  def application_type(self, line):";
"    return line[self.app_idx]";
"";
"  def read(self, line, primary) -> list:";
"";
"    if primary:";
"      return self.read_primary(line)";
"";
"    application = line[self.app_idx]";
"    match application:";
"      case 'A':";
"        return self.read_cont(line)";
"      case 'L':";
"        return self.read_lim(line)";
"      case 'P':";
"        return self.read_flight_plan0(line)";
"      case 'S':";
"        return self.read_sim(line)";
"      case _:";
"        return []";
"";
"  # 4.1.2.1  VHF NAVAID Primary Records";
"  def read_primary(self, r):";
"    return [";
"      Field(""Record Type"",                 r[0],          decoder.field_002),";
"      Field(""Customer / Area Code"",        r[1:4],        decoder.field_003),";
"      Field(""Section Code"",                r[4:6],        decoder.field_004),";
"      Field(""Airport ICAO Identifier"",     r[6:10],       decoder.field_006),";
"      Field(""ICAO Code"",                   r[10:12],      decoder.field_014),";
"      Field(""VOR Identifier"",              r[13:17],      decoder.field_033),";
"      Field(""ICAO Code (2)"",               r[19:21],      decoder.field_014),";
"      Field(""Continuation Record No"",      r[21],         decoder.field_016),";
"      Field(""Frequency"",                   r[22:27],      decoder.field_034),";
"      Field(""Class"",                       r[27:29],      decoder.field_035),";
"      Field(""VOR Latitude"",                r[32:41],      decoder.field_036),";
"      Field(""VOR Longitude"",               r[41:51],      decoder.field_037),";
"      Field(""DME Ident"",                   r[51:55],      decoder.field_038),";
"      Field(""DME Latitude"",                r[55:64],      decoder.field_036),";
"      Field(""DME Longitude"",               r[64:74],      decoder.field_037),";
"      Field(""Station Declination"",         r[74:79],      decoder.field_066),";
"      Field(""DME Elevation"",               r[79:84],      decoder.field_040),";
"      Field(""Figure of Merit"",             r[84],         decoder.field_149),";
"      Field(""ILS/DME Bias"",                r[85:87],      decoder.field_090),";
"      Field(""Frequency Protection"",        r[87:90],      decoder.field_150),";
"      Field(""Datum Code"",                  r[90:93],      decoder.field_197),";
"      Field(""VOR Name"",                    r[93:123],     decoder.field_071),";
"      Field(""File Record No"",              r[123:128],    decoder.field_031),";
"      Field(""Cycle Date"",                  r[128:132],    decoder.field_032)";
"    ]";
"";
"  # 4.1.2.2  VHF NAVAID Continuation Records ";
"  def read_cont(self, r):";
"    return [";
"      Field(""Record Type"",                 r[0],          decoder.field_002),";
"      Field(""Customer / Area Code"",        r[1:4],        decoder.field_003),";
"      Field(""Section Code"",                r[4:6],        decoder.field_004),";
"      Field(""Airport ICAO Identifier"",     r[6:10],       decoder.field_006),";
"      Field(""ICAO Code"",                   r[10:12],      decoder.field_014),";
"      Field(""VOR Identifier"",              r[13:17],      decoder.field_033),";
"      Field(""ICAO Code (2)"",               r[19:21],      decoder.field_014),";
"      Field(""Continuation Record No"",      r[21],         decoder.field_016),";
"      Field(""Application Type"",            r[22],         decoder.field_091),";
"      Field(""Notes"",                       r[23:92],      decoder.field_061),";
"      Field(""File Record No"",              r[123:128],    decoder.field_031),";
"      Field(""Cycle Date"",                  r[128:132],    decoder.field_032),";
"    ]";
"";
"  # 4.1.2.3  VHF NAVAID Simulation Continuation Records";
"  def read_sim(self, r):";
"    return [";
"      Field(""Record Type"",                 r[0],          decoder.field_002),";
"      Field(""Customer / Area Code"",        r[1:4],        decoder.field_003),";
"      Field(""Section Code"",                r[4:6],        decoder.field_004),";
"      Field(""Airport ICAO Identifier"",     r[6:10],       decoder.field_006),";
"      Field(""ICAO Code"",                   r[10:12],      decoder.field_014),";
"      Field(""VOR Identifier"",              r[13:17],      decoder.field_033),";
"      Field(""ICAO Code (2)"",               r[19:21],      decoder.field_014),";
"      Field(""Continuation Record No"",      r[21],         decoder.field_016),";
"      Field(""Application Type"",            r[22],         decoder.field_091),";
"      Field(""Facility Characteristics"",    r[27:32],      decoder.field_093),";
"      Field(""Magnetic Variation"",          r[74:79],      decoder.field_039),";
"      Field(""Facility Elevation"",          r[79:84],      decoder.field_092),";
"      Field(""File Record No"",              r[123:128],    decoder.field_031),";
"      Field(""Cycle Date"",                  r[128:132],    decoder.field_032)";
"    ]";
"";
"  # 4.1.2.4  VHF NAVAID Flight Planning Continuation Records";
"  def read_flight_plan0(self, r):";
"    return [";
"      Field(""Record Type"",                 r[0],          decoder.field_002),";
"      Field(""Customer / Area Code"",        r[1:4],        decoder.field_003),";
"      Field(""Section Code"",                r[4:6],        decoder.field_004),";
"      Field(""Airport ICAO Identifier"",     r[6:10],       decoder.field_006),";
"      Field(""ICAO Code"",                   r[10:12],      decoder.field_014),";
"      Field(""VOR Identifier"",              r[13:17],      decoder.field_033),";
"      Field(""ICAO Code (2)"",               r[19:21],      decoder.field_014),";
"      Field(""Continuation Record No"",      r[21],         decoder.field_016),";
"      Field(""Application Type"",            r[22],         decoder.field_091),";
"      Field(""FIR Identifier"",              r[23:27],      decoder.field_116),";
"      Field(""UIR Identifier"",              r[28:31],      decoder.field_116),";
"      Field(""Start/End Indicator"",         r[32],         decoder.field_152),";
"      Field(""Start/End Date"",              r[32:43],      decoder.field_153),";
"      Field(""File Record No"",              r[123:128],    decoder.field_031),";
"      Field(""Cycle Date"",                  r[128:132],    decoder.field_032)";
"    ]";
"";
"  # 4.1.2.5  VHF NAVAID Flight Planning Continuation Records";
"  def read_flight_plan1(self, r):";
"    return [";
"      Field(""Record Type"",                 r[0],          decoder.field_002),";
"      Field(""Customer / Area Code"",        r[1:4],        decoder.field_003),";
"      Field(""Section Code"",                r[4:6],        decoder.field_004),";
"      Field(""Airport ICAO Identifier"",     r[6:10],       decoder.field_006),";
"      Field(""ICAO Code"",                   r[10:12],      decoder.field_014),";
"      Field(""VOR Identifier"",              r[13:17],      decoder.field_033),";
"      Field(""ICAO Code (2)"",               r[19:21],      decoder.field_014),";
"      Field(""Continuation Record No"",      r[21],         decoder.field_016),";
"      Field(""Frequency"",                   r[22:27],      decoder.field_034),";
"      Field(""Class"",                       r[27:29],      decoder.field_035),";
"      Field(""VOR Latitude"",                r[32:41],      decoder.field_036),";
"      Field(""VOR Longitude"",               r[41:51],      decoder.field_037),";
"      Field(""DME Ident"",                   r[51:55],      decoder.field_038),";
"      Field(""DME Latitude"",                r[55:64],      decoder.field_036),";
"      Field(""DME Longitude"",               r[64:74],      decoder.field_037),";
"      Field(""Station Declination"",         r[74:79],      decoder.field_066),";
"      Field(""DME Elevation"",               r[79:84],      decoder.field_040),";
"      Field(""Figure of Merit"",             r[84],         decoder.field_149),";
"      Field(""ILS/DME Bias"",                r[85:87],      decoder.field_090),";
"      Field(""Frequency Protection"",        r[87:90],      decoder.field_150),";
"      Field(""Datum Code"",                  r[90:93],      decoder.field_197),";
"      Field(""VOR Name"",                    r[93:123],     decoder.field_071),";
"      Field(""File Record No"",              r[123:128],    decoder.field_031),";
"      Field(""Cycle Date"",                  r[128:132],    decoder.field_032)";
"    ]";
"";
"  # 4.1.2.6 VHF NAVAID Limitation  Continuation Record";
"  def read_lim(self, r):";
"    return [";
"      Field(""Record Type"",                 r[0],          decoder.field_002),";
"      Field(""Customer / Area Code"",        r[1:4],        decoder.field_003),";
"      Field(""Section Code"",                r[4:6],        decoder.field_004),";
"      Field(""Airport ICAO Identifier"",     r[6:10],       decoder.field_006),";
"      Field(""ICAO Code"",                   r[10:12],      decoder.field_014),";
"      Field(""VOR Identifier"",              r[13:17],      decoder.field_033),";
"      Field(""ICAO Code (2)"",               r[19:21],      decoder.field_014),";
"      Field(""Continuation Record No"",      r[21],         decoder.field_016),";
"      Field(""Application Type"",            r[22],         decoder.field_091),";
"      Field(""Navaid Limitation Code"",      r[23],         decoder.field_205),";
"      Field(""Component Affected Indicator"", r[24],        decoder.field_206),";
"      Field(""Sequence Number"",             r[25:27],      decoder.field_012),";
"      Field(""Sector From/Sector To"",       r[27:29],      decoder.field_207),";
"      Field(""Distance Description"",        r[29],         decoder.field_187),";
"      Field(""Distance Limitation"",         r[30:36],      decoder.field_208),";
"      Field(""Altitude Description"",        r[36],         decoder.field_029),";
"      Field(""Altitude Limitation"",         r[37:43],      decoder.field_029),";
"      Field(""Sector From/Sector To (2)"",   r[43:45],      decoder.field_207),";
"      Field(""Distance Description (2)"",    r[45],         decoder.field_187),";
"      Field(""Distance Limitation (2)"",     r[46:52],      decoder.field_208),";
"      Field(""Altitude Description (2)"",    r[52],         decoder.field_029),";
"      Field(""Altitude Limitation (2)"",     r[53:59],      decoder.field_209),";
"      Field(""Sector From/Sector To (3)"",   r[59:61],      decoder.field_207),";
"      Field(""Distance Description (3)"",    r[61],         decoder.field_187),";
"      Field(""Distance Limitation (3)"",     r[62:68],      decoder.field_208),";
"      Field(""Altitude Description (3)"",    r[68],         decoder.field_029),";
"      Field(""Altitude Limitation (3)"",     r[69:75],      decoder.field_209),";
"      Field(""Sector From/Sector To (4)"",   r[75:77],      decoder.field_207),";
"      Field(""Distance Description (4)"",    r[77],         decoder.field_187),";
"      Field(""Distance Limitation (4)"",     r[79:84],      decoder.field_208),";
"      Field(""Altitude Description (4)"",    r[84],         decoder.field_029),";
"      Field(""Altitude Limitation (4)"",     r[85:91],      decoder.field_209),";
"      Field(""Sector From/Sector To (5)"",   r[91:93],      decoder.field_207),";
"      Field(""Distance Description (5)"",    r[93],         decoder.field_187),";
"      Field(""Distance Limitation (5)"",     r[94:100],     decoder.field_208),";
"      Field(""Altitude Description (5)"",    r[101],        decoder.field_029),";
"      Field(""Altitude Limitation (5)"",     r[101:107],    decoder.field_209),";
"      Field(""Sequence End Indicator"",      r[107],        decoder.field_210),";
"      Field(""File Record No"",              r[123:128],    decoder.field_031),";
"      Field(""Cycle Date"",                  r[128:132],    decoder.field_032)";
"    ]"].

(* src/arinc424/definitions/Waypoint.py *)
Definition text_Waypoint : list string := [
"from arinc424.decoder import Field";
"import arinc424.decoder as decoder";
"";
"";
"# 4.1.4  Waypoint Record (EA) or (PC)";
"class Waypoint():";
"";
"  cont_idx = 21";
"  app_idx = 22";
"  continuations = ['A', 'P', 'Q']";
"  name = 'Waypoint'";
"";
"  def application_type(self, line):";
"    return line[self.app_idx]";
"";
"  def __init__(self, enroute) -> None:";
"    self.enroute = enroute";
"";
"  def read(self, line, primary) -> list:";
"";
"    if primary:";
"      return self.read_primary(line)";
"";
"    application = line[self.app_idx]";
"    match application:";
"      case 'A':";
"        return self.read_cont(line)";
"      case 'P':";
"        return self.read_flight_plan0(line)";
"      case 'Q':";
"        return self.read_flight_plan1(line)";
"      case _:";
"        return []";
"";
"  # 4.1.4.1 Waypoint Primary Records";
"  def read_primary(self, r) -> list:";
"    return [";
"      Field(""Record Type"",                         r[0],          decoder.field_002),";
"      Field(""Customer / Area Code"",                r[1:4],        decoder.field_003),";
"      Field(""Section Code"",";
"            r[4:6] if self.enroute is True else r[4]+r[12],          decoder.field_004),";
"      Field(""Region Code"",                         r[6:10],       decoder.field_041),";
"      Field(""ICAO Code"",                           r[10:12],      decoder.field_014),";
"      Field(""Waypoint Identifier"",                 r[13:18],      decoder.field_013),";
"      Field(""ICAO Code (2)"",                       r[19:21],      decoder.field_014),";
"      Field(""Continuation Record No"",              r[21],         decoder.field_016),";
"      Field(""Waypoint Type"",                       r[26:29],      decoder.field_042),";
"      Field(""Waypoint Usage"",                      r[29:31],      decoder.field_082),";
"      Field(""Waypoint Latitude"",                   r[32:41],      decoder.field_036),";
"      Field(""Waypoint Longitude"",                  r[41:51],      decoder.field_037),";
"      Field(""Dynamic Mag. Variation"",              r[74:79],      decoder.field_039),";
"      Field(""Datum Code"",                          r[84:87],      decoder.field_197),";
"      Field(""Name Format Indicator"",               r[95:98],      decoder.field_196),";
"      Field(""Waypoint Name / Desc"",                r[98:123],     decoder.field_043),";
"      Field(""File Record No"",                      r[123:128],    decoder.field_031),";
"      Field(""Cycle Date"",                          r[128:132],    decoder.field_032)";
"    ]";
"";
"  # 4.1.4.2  Waypoint Continuation Records";
"  def read_cont(self, r) -> list:";
"    return [";
"      Field(""Record Type"",                         r[0],          decoder.field_002),";
"      Field(""Customer / Area Code"",                r[1:4],        decoder.field_003),";
"      Field(""Section Code"",";
"            r[4:6] if self.enroute is True else r[4]+r[12],       decoder.field_004),";
"      Field(""Region Code"",                         r[6:10],       decoder.field_041),";
"      Field(""ICAO Code"",                           r[10:12],      decoder.field_014),";
"      Field(""Waypoint Identifier"",                 r[13:18],      decoder.field_013),";
"      Field(""ICAO Code (2)"",                       r[19:21],      decoder.field_014),";
"      Field(""Continuation Record No"",              r[21],         decoder.field_016),";
"      Field(""Application Type"",                    r[22],         decoder.field_091),";
"      Field(""Notes"",                               r[23:123],     decoder.field_061),";
"      Field(""File Record No"",                      r[123:128],    decoder.field_031),";
"      Field(""Cycle Date"",                          r[128:132],    decoder.field_032)";
"    ]";
"";
"  # 4.1.4.3  Waypoint Flight Planning Continuation Records";
"  def read_flight_plan0(self, r) -> list:";
"    return [";
"      Field(""Record Type"",                         r[0],          decoder.field_002),";
"      Field(""Customer / Area Code"",                r[1:4],        decoder.field_003),";
"      Field(""Section Code"",";
"            r[4:6] if self.enroute is True else r[4]+r[12],       decoder.field_004),";
"      Field(""Region Code"",                         r[6:10],       decoder.field_041),";
"      Field(""ICAO Code"",                           r[10:12],      decoder.field_014),";
"      Field(""Waypoint Identifier"",                 r[13:18],      decoder.field_013),";
"      Field(""ICAO Code (2)"",                       r[19:21],      decoder.field_014),";
"      Field(""Continuation Record No"",              r[21],         decoder.field_016),";
"      Field(""Application Type"",                    r[22],         decoder.field_091),";
"      Field(""FIR Identifier"",                      r[23:27],      decoder.field_116),";
"      Field(""UIR Identifier"",                      r[27:31],      decoder.field_116),";
"      Field(""Start/End Indicator"",                 r[31],         decoder.field_152),";
"      Field(""Start/End Date"",                      r[32:43],      decoder.field_153),";
"      Field(""File Record No"",                      r[123:128],    decoder.field_031),";
"      Field(""Cycle Date"",                          r[128:132],    decoder.field_032)";
"    ]";
"";
"  # 4.1.4.4  Waypoint Flight Planning Continuation Records ";
"  def read_flight_plan1(self, r) -> list:";
"    return [";
"      Field(""Record Type"",                         r[0],          decoder.field_002),";
"      Field(""Customer / Area Code"",                r[1:4],        decoder.field_003),";
"      Field(""Section Code"",";
"            r[4:6] if self.enroute is True else r[4]+r[12],       decoder.field_004),";
"      Field(""Region Code"",                         r[6:10],       decoder.field_041),";
"      Field(""ICAO Code"",                           r[10:12],      decoder.field_014),";
"      Field(""Waypoint Identifier"",                 r[13:18],      decoder.field_013),";
"      Field(""ICAO Code (2)"",                       r[19:21],      decoder.field_014),";
"      Field(""Continuation Record No"",              r[21],         decoder.field_016),";
"      Field(""Waypoint Type"",                       r[26:29],      decoder.field_042),";
"      Field(""Waypoint Usage"",                      r[29:31],      decoder.field_082),";
"      Field(""Waypoint Latitude"",                   r[32:41],      decoder.field_036),";
"      Field(""Waypoint Longitude"",                  r[41:51],      decoder.field_037),";
"      Field(""Dynamic Mag. Variation"",              r[74:79],      decoder.field_039),";
"      Field(""Datum Code"",                          r[84:87],      decoder.field_197),";
"      Field(""Name Format Indicator"",               r[95:98],      decoder.field_196),";
"      Field(""Waypoint Name / Desc"",                r[98:123],     decoder.field_043),";
"      Field(""File Record No"",                      r[123:128],    decoder.field_031),";
"      Field(""Cycle Date"",                          r[128:132],    decoder.field_032)";
"    ]"].

(* src/arinc424/record.py *)
Definition text_record : list string := [
"import json";
"from collections import defaultdict";
"from prettytable import PrettyTable";
"";
"from arinc424.definitions.GridMORA import GridMORA";
"from arinc424.definitions.VHFNavaid import VHFNavaid";
"from arinc424.definitions.NDBNavaid import NDBNavaid";
"from arinc424.definitions.Waypoint import Waypoint";
"from arinc424.definitions.AirwaysMarker import AirwaysMarker";
"from arinc424.definitions.HoldingPattern import HoldingPattern";
"from arinc424.definitions.PreferredRoute import PreferredRoute";
"from arinc424.definitions.EnrouteAirways import EnrouteAirways";
"from arinc424.definitions.EnrouteAirwaysRestriction import EnrouteAirwaysRestriction";
"from arinc424.definitions.EnrouteCommunications import EnrouteCommunications";
"from arinc424.definitions.Heliport import Heliport";
"from arinc424.definitions.HeliportTerminalWaypoint import HeliportTerminalWaypoint";
"from arinc424.definitions.SIDSTARApproach import SIDSTARApproach";
"from arinc424.definitions.TAA import TAA";
"from arinc424.definitions.MSA import MSA";
"from arinc424.definitions.HeliportCommunications import HeliportCommunications";
"from arinc424.definitions.Airport import Airport";
"from arinc424.definitions.AirportGate import AirportGate";
"from arinc424.definitions.Runway import Runway";
"from arinc424.definitions.LocalizerGlideslope import LocalizerGlideslope";
"from arinc424.definitions.LocalizerMarker import LocalizerMarker";
"from arinc424.definitions.PathPoint import PathPoint";
"from arinc424.definitions.FlightPlanning import FlightPlanning";
"from arinc424.definitions.GLS import GLS";
"from arinc424.definitions.AirportCommunication import AirportCommunication";
"from arinc424.definitions.CompanyRoute import CompanyRoute";
"from arinc424.definitions.Alternate import Alternate";
"from arinc424.definitions.CruisingTables import CruisingTables";
"from arinc424.definitions.GeoReferenceTable import GeoReferenceTable";
"from arinc424.definitions.ControlledAirspace import ControlledAirspace";
"from arinc424.definitions.FIRUIR import FIRUIR";
"from arinc424.definitions.RestrictiveAirspace import RestrictiveAirspace";
"from arinc424.definitions.MLS import MLS";
"";
"";
"def def_val():";
"  return False";
"";
"";
"records = defaultdict(def_val)";
"records['AS'] = GridMORA()";
"records['D '] = VHFNavaid()";
"records['DB'] = NDBNavaid()";
"records['EA'] = Waypoint(True)";
"records['EM'] = AirwaysMarker()";
"records['EP'] = HoldingPattern()";
"records['ER'] = EnrouteAirways()";
"records['ET'] = PreferredRoute()";
"records['EU'] = EnrouteAirwaysRestriction()";
"records['EV'] = EnrouteCommunications()";
"records['HA'] = Heliport()";
"records['HC'] = HeliportTerminalWaypoint()";
"records['HD'] = SIDSTARApproach()";
"records['HE'] = SIDSTARApproach()";
"records['HF'] = SIDSTARApproach()";
"records['HK'] = TAA(True)";
"records['HS'] = MSA(True)";
"records['HV'] = HeliportCommunications()";
"records['PA'] = Airport()";
"records['PB'] = AirportGate()";
"records['PC'] = Waypoint(False)";
"records['PD'] = SIDSTARApproach()";
"records['PE'] = SIDSTARApproach()";
"records['PF'] = SIDSTARApproach()";
"records['PG'] = Runway()";
"records['PI'] = LocalizerGlideslope()";
"records['PK'] = TAA()";
"records['PL'] = MLS()";
"records['PM'] = LocalizerMarker()";
"records['PN'] = NDBNavaid()";
"records['PP'] = PathPoint()";
"records['PR'] = FlightPlanning()";
"records['PS'] = MSA(False)";
"records['PT'] = GLS()";
"records['PV'] = AirportCommunication()";
"records['R '] = CompanyRoute()";
"records['RA'] = Alternate()";
"records['TC'] = CruisingTables()";
"records['TG'] = GeoReferenceTable()";
"records['UC'] = ControlledAirspace()";
"records['UF'] = FIRUIR()";
"records['UR'] = RestrictiveAirspace()";
"";
"";
"class Record():";
"";
"  def __init__(self):";
"    self.ident = ''";
"    self.raw = ''";
"    self.continuation = ''";
"    self.fields = []";
"    self.definition = -1";
"";
"  def primary(self):";
"    if self.definition == -1:";
"      return False";
"    return self.continuation == '0' or self.continuation == '1'";
"";
"  def hasCont(self):";
"    if self.primary() is False:";
"      return False";
"    return self.continuation == '1'";
"";
"  def validate(self, line):";
"    line = line.strip()";
"    if line.startswith(('S', 'T')) is False:";
"      return False";
"    if len(line) != 132:";
"      return False";
"    if line[-9:].isnumeric() is False:";
"      return False";
"    return True";
"";
"  def read(self, line) -> bool:";
"";
"    if self.validate(line) is False:";
"      return False";
"";
"    # remove any surrounding whitespace";
"    self.raw = line.strip()";
"";
"    identifier_1 = line[4:6]";
"    identifier_2 = line[4] + line[12]";
"";
"    if identifier_1 in records:";
"      self.ident = identifier_1";
"    elif identifier_2 in records:";
"      self.ident = identifier_2";
"    else:";
"      return False";
"";
"    self.definition = records[self.ident]";
"";
"    # validate the continuation record number";
"    if hasattr(self.definition, 'cont_idx'):";
"      self.continuation = self.raw[self.definition.cont_idx]";
"      if self.continuation.isalnum() == False:";
"        print(f'Unsupported {self.definition.name} Continuation Record Number: ""{self.continuation}""')";
"        print('Valid Continuation Record Numbers are 0, 1, 2 (through 9) A, B, C (through Z)')";
"        print(f'Record: {self.raw}')";
"        return False";
"";
"      # validate the continuation record type";
"      if self.primary() is False:";
"        if hasattr(self.definition, 'app_idx'):";
"          application_type = self.definition.application_type(self.raw)";
"          if (application_type not in self.definition.continuations) and not 'J':";
"            print(f'Unsupported {self.definition.name} Application Type: ""{application_type}""')";
"            print(f'Supported application types for {self.definition.name} are: {self.definition.continuations}')";
"            print(f'Record: {self.raw}')";
"            return False";
"        else:";
"          raise ValueError(""no hasattr(self.definition, 'app_idx')"")";
"";
"    # read the record into a record object based on identifier";
"    self.fields = self.definition.read(line, self.primary())";
"    if not self.fields:";
"      return False";
"";
"    return True";
"";
"  def decode(self, output=True):";
"    table = PrettyTable(field_names=['Field', 'Value', 'Decoded'])";
"    table.align = 'l'";
"    for field in self.fields:";
"      table.add_row([field.name, ""'{}'"".format(field.value), field.decode(self)])";
"    if output is True:";
"      print(table)";
"    return table.get_string()";
"";
"  def json(self, output=True, single_line=True):";
"    d = {}";
"    for field in self.fields:";
"      d.update({field.name: field.value})";
"    if single_line:";
"      data = json.dumps(d)";
"    else:";
"      data = json.dumps(d, sort_keys=True, indent=4, separators=(',', ': '))";
"";
"    if output is True:";
"      print(data)";
"";
"    return data";
""].

(* src/arinc424/__init__.py *)
Definition text_init : list string := [
"from termcolor import colored";
"from .record import Record";
"import os";
"";
"";
"def parse(line, output=True):";
"  """"""";
"  Parse an ARINC-424 record and dump the";
"  contents to the console as plaintext.";
"  """"""";
"  r = Record()";
"  if r.read(line):";
"    r.decode(output)";
"    return True";
"  return False";
"";
"";
"def search(file, filters):";
"  """"""";
"  Search an ARINC-424 file and find all the";
"  records that contain given substrings.";
"  """"""";
"  with open(file) as f:";
"    count = 0";
"    for line in f.readlines():";
"      r = Record()";
"      if r.read(line) is False:";
"        continue";
"      if isinstance(filters, str):";
"        if filters not in r.raw:";
"          continue";
"      elif isinstance(filters, list):";
"        if all(map(r.raw.__contains__, filters)) is False:";
"          continue";
"      print(r.raw)";
"      count = count + 1";
"    print(colored(f""Found {count} records that contain {filters}"", 'green' if count else 'red'))";
"";
"";
"def read_file(path, output=True):";
"  """"""";
"  Parse all ARINC-424 records within a file.";
"  """"""";
"  with open(path) as f:";
"    for line in f.readlines():";
"      parse(line, output)";
"";
"";
"def read_folder(path):";
"  """"""";
"  Parse all ARINC-424 records for every file in a given folder.";
"  """"""";
"  for file in os.scandir(path):";
"    read_file(os.path.join(path, file.name))";
""].

(* every module: its name, the package relative imports start from, its text *)
Definition files : list (string * string * list string) := [
  ("arinc424.decoder", "arinc424", text_decoder);
  ("arinc424.definitions.Airport", "arinc424.definitions", text_Airport);
  ("arinc424.definitions.AirportCommunication", "arinc424.definitions", text_AirportCommunication);
  ("arinc424.definitions.AirportGate", "arinc424.definitions", text_AirportGate);
  ("arinc424.definitions.AirwaysMarker", "arinc424.definitions", text_AirwaysMarker);
  ("arinc424.definitions.Alternate", "arinc424.definitions", text_Alternate);
  ("arinc424.definitions.CompanyRoute", "arinc424.definitions", text_CompanyRoute);
  ("arinc424.definitions.ControlledAirspace", "arinc424.definitions", text_ControlledAirspace);
  ("arinc424.definitions.CruisingTables", "arinc424.definitions", text_CruisingTables);
  ("arinc424.definitions.EnrouteAirways", "arinc424.definitions", text_EnrouteAirways);
  ("arinc424.definitions.EnrouteAirwaysRestriction", "arinc424.definitions", text_EnrouteAirwaysRestriction);
  ("arinc424.definitions.EnrouteCommunications", "arinc424.definitions", text_EnrouteCommunications);
  ("arinc424.definitions.FIRUIR", "arinc424.definitions", text_FIRUIR);
  ("arinc424.definitions.FlightPlanning", "arinc424.definitions", text_FlightPlanning);
  ("arinc424.definitions.GLS", "arinc424.definitions", text_GLS);
  ("arinc424.definitions.GeoReferenceTable", "arinc424.definitions", text_GeoReferenceTable);
  ("arinc424.definitions.GridMORA", "arinc424.definitions", text_GridMORA);
  ("arinc424.definitions.Heliport", "arinc424.definitions", text_Heliport);
  ("arinc424.definitions.HeliportCommunications", "arinc424.definitions", text_HeliportCommunications);
  ("arinc424.definitions.HeliportTerminalWaypoint", "arinc424.definitions", text_HeliportTerminalWaypoint);
  ("arinc424.definitions.HoldingPattern", "arinc424.definitions", text_HoldingPattern);
  ("arinc424.definitions.LocalizerGlideslope", "arinc424.definitions", text_LocalizerGlideslope);
  ("arinc424.definitions.LocalizerMarker", "arinc424.definitions", text_LocalizerMarker);
  ("arinc424.definitions.MLS", "arinc424.definitions", text_MLS);
  ("arinc424.definitions.MSA", "arinc424.definitions", text_MSA);
  ("arinc424.definitions.NDBNavaid", "arinc424.definitions", text_NDBNavaid);
  ("arinc424.definitions.PathPoint", "arinc424.definitions", text_PathPoint);
  ("arinc424.definitions.PreferredRoute", "arinc424.definitions", text_PreferredRoute);
  ("arinc424.definitions.RestrictiveAirspace", "arinc424.definitions", text_RestrictiveAirspace);
  ("arinc424.definitions.Runway", "arinc424.definitions", text_Runway);
  ("arinc424.definitions.SIDSTARApproach", "arinc424.definitions", text_SIDSTARApproach);
  ("arinc424.definitions.TAA", "arinc424.definitions", text_TAA);
  ("arinc424.definitions.VHFNavaid", "arinc424.definitions", text_VHFNavaid);
  ("arinc424.definitions.Waypoint", "arinc424.definitions", text_Waypoint);
  ("arinc424.record", "arinc424", text_record);
  ("arinc424", "arinc424", text_init)].
