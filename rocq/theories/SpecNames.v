(* GENERATED by tools/names.py.  Regularities of the layouts, and where they are broken. *)
From Coq Require Import List String NArith.
From Verif Require Import PyBase Decoder.
Import ListNotations.
Open Scope string_scope.
Open Scope list_scope.

(* section and name of fields that stand in different columns, in different layouts or in one *)
Definition moving : list (string * string) := [
  ("ET", "ICAO Code");
  ("ET", "Section Code");
  ("ET", "Time Code");
  ("EU", "Block Indicator");
  ("EU", "Restriction Altitude");
  ("EU", "Route Identifier");
  ("EU", "Start Fix Section Code");
  ("EU", "Time of Operation");
  ("HD", "RNP");
  ("HE", "RNP");
  ("HF", "RNP");
  ("HK", "Continuation Record No");
  ("HK", "ICAO Code (2)");
  ("HK", "Section Code (2)");
  ("PD", "RNP");
  ("PE", "RNP");
  ("PF", "RNP");
  ("PK", "Continuation Record No");
  ("PK", "ICAO Code (2)");
  ("PK", "Section Code (2)");
  ("PR", "Fix Related Transition Code");
  ("PR", "Intermediate Distance");
  ("PR", "Intermediate Fix Identifier");
  ("PR", "Time Code");
  ("R ", "ICAO Code");
  ("RA", "Alternate Type (3)");
  ("RA", "Distance to Alternate (3)");
  ("TG", "Preferred Route Ident (4)");
  ("TG", "Preferred Route Use Ind (4)")].

(* names of fields that are decoded in more than one way; numbers such as (2) do not count *)
Definition ambiguous : list (string * list fn) := [
  ("Altitude", [F030; F240]);
  ("Altitude Limitation", [F029; F209]);
  ("ICAO Code", [F014; F118; F120]);
  ("Localizer Identifier", [F033; F044]);
  ("Longitude", [F036; F037]);
  ("Recommended Navaid", [F004; F023]);
  ("Restr. Air Type", [F012; F128]);
  ("Route Identifier", [F008; F224]);
  ("Section Code", [F004; F036]);
  ("Sector Radius", [F145; F274]);
  ("Turn Direction", [F020; F063])].

(* how many columns the values of a decoder have: decoders used at least three times, nearly always with one width *)
Definition widths : list (fn * nat) := [
  (F002, 1); (F003, 3); (F004, 2); (F006, 4); (F007, 1); (F009, 6); (F010, 6); (F011, 5); (F013, 5); (F014, 2); (F016, 1); (F017, 4); (F019, 1); (F020, 1); (F021, 2); (F022, 1); (F023, 4); (F024, 4); (F025, 4); (F026, 4); (F027, 4); (F029, 1); (F030, 5); (F031, 5); (F032, 4); (F033, 4); (F034, 5); (F036, 9); (F037, 10); (F039, 5); (F041, 4); (F042, 3); (F043, 25); (F044, 4); (F046, 5); (F048, 4); (F049, 1); (F052, 3); (F053, 5); (F055, 5); (F061, 69); (F070, 4); (F071, 30); (F072, 3); (F073, 5); (F074, 5); (F075, 5); (F080, 1); (F081, 1); (F082, 2); (F091, 1); (F092, 5); (F093, 5); (F094, 5); (F095, 1); (F101, 3); (F102, 1); (F103, 7); (F104, 1); (F106, 3); (F107, 3); (F108, 1); (F115, 1); (F116, 4); (F117, 1); (F118, 2); (F119, 4); (F120, 4); (F121, 5); (F127, 5); (F128, 1); (F129, 10); (F130, 1); (F131, 1); (F132, 1); (F133, 1); (F134, 2); (F136, 5); (F137, 5); (F138, 1); (F140, 24); (F143, 3); (F145, 2); (F146, 6); (F147, 3); (F151, 4); (F152, 1); (F154, 3); (F157, 7); (F161, 3); (F165, 1); (F168, 3); (F170, 4); (F171, 4); (F172, 3); (F177, 1); (F178, 3); (F179, 1); (F180, 5); (F181, 1); (F182, 1); (F184, 5); (F187, 1); (F189, 25); (F190, 4); (F195, 10); (F196, 3); (F197, 3); (F198, 1); (F199, 1); (F200, 4); (F201, 2); (F203, 1); (F204, 6); (F207, 2); (F208, 6); (F209, 6); (F211, 3); (F214, 5); (F220, 2); (F222, 1); (F225, 6); (F230, 1); (F231, 3); (F251, 3); (F252, 1); (F253, 10); (F260, 4); (F261, 1); (F271, 4); (F272, 1); (F273, 5); (F274, 4); (F275, 10); (F276, 1)].

(* where they have another number of columns: section, name, decoder, width *)
Definition odd_widths : list (string * string * fn * nat) := [
  ("D ", "Altitude Limitation", F029, 6);
  ("D ", "Distance Limitation (4)", F208, 5);
  ("D ", "UIR Identifier", F116, 3);
  ("DB", "UIR Identifier", F116, 3);
  ("EA", "Notes", F061, 100);
  ("EU", "Start Fix Section Code", F004, 1);
  ("HD", "ICAO Code (4)", F014, 1);
  ("HE", "ICAO Code (4)", F014, 1);
  ("HF", "ICAO Code (4)", F014, 1);
  ("HK", "Notes", F061, 59);
  ("HV", "Longitude", F036, 10);
  ("PC", "Notes", F061, 100);
  ("PD", "ICAO Code (4)", F014, 1);
  ("PE", "ICAO Code (4)", F014, 1);
  ("PF", "ICAO Code (4)", F014, 1);
  ("PK", "Notes", F061, 59);
  ("PL", "Back Azimuth True Bearing", F094, 3);
  ("PM", "Localizer Facility Characteristics", F093, 4);
  ("PN", "UIR Identifier", F116, 3);
  ("PR", "Section Code (6)", F004, 1);
  ("PT", "Continuation Record No", F016, 3);
  ("R ", "Alternate Distance", F211, 4);
  ("R ", "Cost Index", F121, 3);
  ("R ", "Cruise Altitude", F037, 5);
  ("R ", "ENRT Trans", F036, 5);
  ("R ", "Enroute Alternate Airport", F133, 4);
  ("R ", "ICAO Code", F120, 2);
  ("R ", "RUnway Trans", F037, 5);
  ("R ", "Section Code (4)", F036, 1);
  ("R ", "To Fix", F132, 6);
  ("UR", "Lower Limit", F121, 4)].
