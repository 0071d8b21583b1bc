(* Lines used as examples and counterexamples: from /repo/data, or such a line with a few columns changed. *)
From Coq Require Import List String NArith.
From Verif Require Import PyStr.
Open Scope string_scope.
(* data/ARINC-424-18/airport: Seattle-Tacoma, also the example of README.md:34 *)
Definition l_sea : str := lit "SUSAP KSEAK1ASEA     110000119Y N47265700W122182910E019900429250SEA K11800018000CU00Y NAS    SEATTLE-TACOMA INTL           045698808".
(* data/ARINC-424-18/airport: its flight planning continuation *)
Definition l_sea_cont : str := lit "SUSAP KSEAK1ASEA     2PKZSEKSZE                                                                                            045718808".
(* data/ARINC-424-18/navaid_vhf: VHF navaid, primary with continuation *)
Definition l_acv : str := lit "SUSAD        ACV   K2111020VDTA N40585370W124062570    N40585370W124062570E0170001910  256NASARCATA                        015638502".
(* data/ARINC-424-18/enroute_airway *)
Definition l_airway : str := lit "SUSAER       C1415       0010F0T  K2D 0V    CB AA                   252012400000 UNKNN     FL450                           030308803".
(* the same as a continuation record of unknown application type X *)
Definition l_airway_x : str := lit "SUSAER       C1415       0010F0T  K2D 2X    CB AA                   252012400000 UNKNN     FL450                           030308803".
(* data/ARINC-424-18/enroute_airway_restricted: a primary (column 18 is 0) TC restriction *)
Definition l_restriction : str := lit "SUSAEUJ20   001TC0YKM  K1D SEA  K1D 31JAN9031MAR90CS1707001700                              A0                             031918913".
(* the same with restriction type SC *)
Definition l_restriction_sc : str := lit "SUSAEUJ20   001SC0YKM  K1D SEA  K1D 31JAN9031MAR90CS1707001700                              A0                             031918913".
(* data/ARINC-424-18/cruising_tables *)
Definition l_cruise : str := lit "S   TCA01                   36001790M  0200002000280002800003000310003100004000UNLTD                                       000358706".
(* data/ARINC-424-18/mora *)
Definition l_mora : str := lit "S   AS       N36W120          105168135095143104104116112105122117107139155116111073052046046034030033037035038030027023   000018708".
(* the same with area code "  E" and a 0 in column 22: one column to the right it is section EA *)
Definition l_mora_e : str := lit "S  EAS       N36W120 0        105168135095143104104116112105122117107139155116111073052046046034030033037035038030027023   000018708".
(* the same with section code XX *)
Definition l_no_sect : str := lit "S  EXX       N36W120          105168135095143104104116112105122117107139155116111073052046046034030033037035038030027023   000018708".
(* section code AX; one column to the right it is section EA *)
Definition l_shifted : str := lit "S  EAX       N36W120 0        105168135095143104104116112105122117107139155116111073052046046034030033037035038030027023   000018708".
(* sea with columns 5-6 PA and column 13 F *)
Definition l_pa_pf : str := lit "SUSAPAKSEAK1FSEA     110000119Y N47265700W122182910E019900429250SEA K11800018000CU00Y NAS    SEATTLE-TACOMA INTL           045698808".
(* acv with X in column 6: section "D " by columns 5 and 13 *)
Definition l_d_dx : str := lit "SUSADX       ACV   K2111020VDTA N40585370W124062570    N40585370W124062570E0170001910  256NASARCATA                        015638502".
(* a GLS record (PT): column 22 is 0, columns 19-21 are ABC *)
Definition l_gls : str := lit "SUSAP KSEAK1TSEA  ABC010000119Y N47265700W122182910E019900429250SEA K11800018000CU00Y NAS    SEATTLE-TACOMA INTL           045698808".
(* a TAA continuation record: column 30 is 2, column 39 is 7 *)
Definition l_taa_cont : str := lit "SUSAP KSEAK1KSEA     110000112A N47265700W122182910E019900429250SEA K11800018000CU00Y NAS    SEATTLE-TACOMA INTL           045698808".
(* a holding pattern continuation: column 40 is A, column 41 is B *)
Definition l_holding_cont : str := lit "SUSAEPENRT                 10AVE  K2D 2AB00R   1518000FL450                                       AVENAL                   030038904".
(* sea with a blank continuation number *)
Definition l_sea_badcont : str := lit "SUSAP KSEAK1ASEA      10000119Y N47265700W122182910E019900429250SEA K11800018000CU00Y NAS    SEATTLE-TACOMA INTL           045698808".
(* sea as a continuation of unknown application type X *)
Definition l_sea_contx : str := lit "SUSAP KSEAK1ASEA     2X0000119Y N47265700W122182910E019900429250SEA K11800018000CU00Y NAS    SEATTLE-TACOMA INTL           045698808".
(* restriction with 1 in column 18 *)
Definition l_route_eu : str := lit "SUSAEUJ20   001TC1YKM  K1D SEA  K1D 31JAN9031MAR90CS1707001700                              A0                             031918913".
(* data/ARINC-424-18/enroute_holding *)
Definition l_hold : str := lit "SUSAEPENRT                 10AVE  K2D 01300R   1518000FL450                                       AVENAL                   030038904".
(* the same with leg time 1X *)
Definition l_hold_1x : str := lit "SUSAEPENRT                 10AVE  K2D 01300R   1X18000FL450                                       AVENAL                   030038904".
(* data/ARINC-424-18/restrictive_airspace with boundary via Q *)
Definition l_via_q : str := lit "SUSAURK1A680       A00101LN   Q                    N48110000W1223800000030       GND   03000MA-680                         060518807".
(* l_acv with frequency 11X20 *)
Definition l_acv_freq : str := lit "SUSAD        ACV   K2111X20VDTA N40585370W124062570    N40585370W124062570E0170001910  256NASARCATA                        015638502".
(* l_acv with a blank frequency *)
Definition l_acv_nofreq : str := lit "SUSAD        ACV   K21     VDTA N40585370W124062570    N40585370W124062570E0170001910  256NASARCATA                        015638502".
(* l_sea with a superscript two in column 130 *)
Definition l_sea_sup : str := (lit "SUSAP KSEAK1ASEA     110000119Y N47265700W122182910E019900429250SEA K11800018000CU00Y NAS    SEATTLE-TACOMA INTL           045698" ++ cons 178%N (lit "08"))%list.
(* two ET records that differ in the first of two fields named ICAO Code *)
Definition l_twice_et : str := lit "SUSAET                                0     AA                              BB                                             000018808".
Definition l_twice_et_2 : str := lit "SUSAET                                0     CC                              BB                                             000018808".
(* two EU records that differ in the first of two fields named Time of Operation *)
Definition l_twice_eu : str := lit "SUSAEU         AE                                    AAAAAAAAAA                    BBBBBBBBBB                              000018808".
Definition l_twice_eu_2 : str := lit "SUSAEU         AE                                    CCCCCCCCCC                    BBBBBBBBBB                              000018808".
(* two PR records that differ in the first of two fields named Intermediate Fix Identifier *)
Definition l_twice_pr : str := lit "SUSAP       R                                                        2AAAAAA                                  BBBBB        000018808".
Definition l_twice_pr_2 : str := lit "SUSAP       R                                                        2ACCCCC                                  BBBBB        000018808".
(* two R records that differ in the first of two fields named ICAO Code *)
Definition l_twice_r : str := lit "SUSAR       AA                                                                   BB                                        000018808".
Definition l_twice_r_2 : str := lit "SUSAR       CC                                                                   BB                                        000018808".
(* two RA records that differ in the first of two fields named Distance to Alternate (3) *)
Definition l_twice_ra : str := lit "SUSARA                                             AAA             BBB                                                     000018808".
Definition l_twice_ra_2 : str := lit "SUSARA                                             CCC             BBB                                                     000018808".
(* two TG records that differ in the first of two fields named Preferred Route Ident (4) *)
Definition l_twice_tg : str := lit "SUSATG                                0                                     AAAAAAAAAA  BBBBBBBBBB                         000018808".
Definition l_twice_tg_2 : str := lit "SUSATG                                0                                     CCCCCCCCCC  BBBBBBBBBB                         000018808".
(* data/ARINC-424-18/restrictive_airspace; its lower limit, GND, starts in column 82 *)
Definition l_ur : str := lit "SUSAURK1A680       A00101LN   CE                   N48110000W1223800000030       GND   03000MA-680                         060518807".
(* the same without the G *)
Definition l_ur_nd : str := lit "SUSAURK1A680       A00101LN   CE                   N48110000W1223800000030        ND   03000MA-680                         060518807".
(* a company route, columns 58-59 and 13-14 of which are both an ICAO code *)
Definition l_route : str := lit "SUSAR KSEA  K1P KLAX  K2P UPS0000001001SIDBANGR9USASEA   K1D                                                               000018808".
