(** The tests of the systems of units, /repo/test/unit_test/static, on the model: every
    assertion of the listed files, with the headers they include and the library's default mode. *)

From Coq Require Import ZArith String List Bool SpecFloat.
From Verif Require Import Outcome CInt Root Ratio FixedString Unit Downcast Dim DimOp Rep QuantityCast Quantity System Catalogue Includes Conform SystemProofs CatalogueProofs.
Import ListNotations.
Local Open Scope string_scope.
Local Open Scope Z_scope.

(** test/unit_test/static/si_test.cpp: 210 of its assertions. *)
Definition si_test : list (Z * cassert) := [
  (37, ACmp CEq (CLit "si" "km" 1) (CLit "si" "m" 1000));
  (38, ACmp CEq (CLit "si" "m" 1) (CLit "si" "cm" 100));
  (39, ACmp CEq (CLit "si" "m" 1) (CLit "si" "dm" 10));
  (40, ACmp CEq (CLit "si" "m" 1) (CLit "si" "mm" 1000));
  (41, ACmp CEq (CLit "si" "hm" 1) (CLit "si" "m" 100));
  (42, ACmp CEq (CLit "si" "au" 1) (CLit "si" "m" 149597870700));
  (43, ACmp CEq (CBin CAdd (CLit "si" "km" 1) (CLit "si" "m" 1)) (CLit "si" "m" 1001));
  (44, ACmp CEq (CBin CDiv (CLit "si" "km" 10) (CLit "si" "km" 5)) (CNum (RInt I32) (NInt 2)));
  (45, ACmp CLt (CBin CDiv (CLit "si" "km" 10) (CLit "si" "km" 5)) (CNum (RInt I32) (NInt 3)));
  (46, ACmp CEq (CBin CDiv (CLit "si" "mm" 100) (CLit "si" "cm" 5)) (CMake (TScaled "dim_one" 1 1 (-1) "one" (RFlt F64)) (CNum (RInt I32) (NInt 20))));
  (47, ACmp CEq (CBin CDiv (CLit "si" "mm" 100) (CLit "si" "cm" 5)) (CMake (TNamed "dim_one" "one" (RFlt F64)) (CNum (RInt I32) (NInt 2))));
  (48, ACmp CEq (CBin CDiv (CLit "si" "km" 10) (CNum (RInt I32) (NInt 2))) (CLit "si" "km" 5));
  (50, ASymbol "si::millimetre" (ascii "mm"));
  (51, ASymbol "si::centimetre" (ascii "cm"));
  (52, ASymbol "si::decimetre" (ascii "dm"));
  (53, ASymbol "si::kilometre" (ascii "km"));
  (57, ACmp CEq (CLit "si" "kg" 1) (CLit "si" "g" 1000));
  (58, ACmp CEq (CLit "si" "t" 1) (CLit "si" "kg" 1000));
  (59, ACmp CEq (CLit "si" "kt" 1) (CLit "si" "kg" 1000000));
  (61, ASymbol "si::kilogram" (ascii "kg"));
  (62, ASymbol "si::tonne" (ascii "t"));
  (63, ASymbol "si::kilotonne" (ascii "kt"));
  (67, ACmp CEq (CLit "si" "us" 1) (CLit "si" "ns" 1000));
  (68, ACmp CEq (CLit "si" "ms" 1) (CLit "si" "us" 1000));
  (69, ACmp CEq (CLit "si" "s" 1) (CLit "si" "ms" 1000));
  (70, ACmp CEq (CLit "si" "min" 1) (CLit "si" "s" 60));
  (71, ACmp CEq (CLit "si" "h" 1) (CLit "si" "min" 60));
  (72, ACmp CEq (CLit "si" "h" 1) (CLit "si" "s" 3600));
  (73, ACmp CEq (CLit "si" "d" 1) (CLit "si" "h" 24));
  (74, ACmp CEq (CLit "si" "d" 1) (CLit "si" "s" 86400));
  (76, ASymbol "si::nanosecond" (ascii "ns"));
  (77, ASymbol "si::microsecond" (SymbolText "µs" "us"));
  (78, ASymbol "si::millisecond" (ascii "ms"));
  (92, ACmp CEq (CLit "si" "mHz" 1000) (CLit "si" "Hz" 1));
  (93, ACmp CEq (CLit "si" "Hz" 1000) (CLit "si" "kHz" 1));
  (94, ACmp CEq (CLit "si" "kHz" 1000) (CLit "si" "MHz" 1));
  (95, ACmp CEq (CLit "si" "MHz" 1000) (CLit "si" "GHz" 1));
  (96, ACmp CEq (CLit "si" "GHz" 1000) (CLit "si" "THz" 1));
  (98, ASymbol "si::millihertz" (ascii "mHz"));
  (99, ASymbol "si::kilohertz" (ascii "kHz"));
  (100, ASymbol "si::megahertz" (ascii "MHz"));
  (101, ASymbol "si::gigahertz" (ascii "GHz"));
  (102, ASymbol "si::terahertz" (ascii "THz"));
  (104, ACmp CEq (CBin CDiv (CNum (RInt I32) (NInt 2)) (CLit "si" "s" 1)) (CLit "si" "Hz" 2));
  (105, ACmp CEq (CBin CDiv (CNum (RInt I32) (NInt 120)) (CLit "si" "min" 1)) (CLit "si" "Hz" 2));
  (106, ACmp CEq (CBin CDiv (CNum (RInt I32) (NInt 1000)) (CLit "si" "s" 1)) (CLit "si" "kHz" 1));
  (107, ACmp CEq (CBin CDiv (CNum (RInt I32) (NInt 1)) (CLit "si" "ms" 1)) (CLit "si" "kHz" 1));
  (108, ACmp CEq (CFlt "si" "GHz" (S754_finite false 14757395258967641293 (-62))) (CLit "si" "Hz" 3200000000));
  (109, ACmp CEq (CNumber (CBin CMul (CLit "si" "Hz" 10) (CLit "si" "min" 1))) (CNum (RInt I32) (NInt 10)));
  (110, ACmp CEq (CBin CMul (CLit "si" "Hz" 10) (CLit "si" "min" 1)) (CMake (TScaled "dim_one" 60 1 0 "one" (RFlt F64)) (CNum (RInt I32) (NInt 10))));
  (111, ACmp CEq (CBin CMul (CLit "si" "Hz" 10) (CLit "si" "min" 1)) (CMake (TNamed "dim_one" "one" (RFlt F64)) (CNum (RInt I32) (NInt 600))));
  (112, ACmp CEq (CBin CDiv (CNum (RInt I32) (NInt 2)) (CLit "si" "Hz" 1)) (CLit "si" "s" 2));
  (115, ACmp CEq (CBin CMul (CLit "si" "kg" 10) (CLit "si" "m_per_s2" 10)) (CLit "si" "N" 100));
  (116, ACmp CEq (CBin CDiv (CLit "si" "N" 100) (CLit "si" "m_per_s2" 1)) (CLit "si" "kg" 100));
  (117, ACmp CEq (CBin CDiv (CLit "si" "N" 100) (CLit "si" "kg" 1)) (CLit "si" "m_per_s2" 100));
  (121, ACmp CEq (CBin CDiv (CLit "si" "N" 10) (CLit "si" "m2" 10)) (CLit "si" "Pa" 1));
  (122, ACmp CEq (CBin CDiv (CLit "si" "N" 10) (CLit "si" "Pa" 1)) (CLit "si" "m2" 10));
  (123, ACmp CEq (CBin CMul (CLit "si" "Pa" 1) (CLit "si" "m2" 10)) (CLit "si" "N" 10));
  (127, ACmp CEq (CLit "si" "mJ" 1000) (CLit "si" "J" 1));
  (128, ACmp CEq (CLit "si" "J" 1000) (CLit "si" "kJ" 1));
  (129, ACmp CEq (CLit "si" "kJ" 1000) (CLit "si" "MJ" 1));
  (130, ACmp CEq (CLit "si" "MJ" 1000) (CLit "si" "GJ" 1));
  (132, ASymbol "si::millijoule" (ascii "mJ"));
  (133, ASymbol "si::kilojoule" (ascii "kJ"));
  (134, ASymbol "si::megajoule" (ascii "MJ"));
  (135, ASymbol "si::gigajoule" (ascii "GJ"));
  (137, ACmp CEq (CBin CMul (CLit "si" "N" 10) (CLit "si" "m" 10)) (CLit "si" "J" 100));
  (138, ACmp CEq (CBin CDiv (CLit "si" "J" 100) (CLit "si" "m" 10)) (CLit "si" "N" 10));
  (139, ACmp CEq (CBin CDiv (CLit "si" "J" 100) (CLit "si" "N" 10)) (CLit "si" "m" 10));
  (140, ACmp CEq (CBin CMul (CLit "si" "Pa" 10) (CLit "si" "m3" 10)) (CLit "si" "J" 100));
  (141, ACmp CEq (CBin CDiv (CLit "si" "J" 100) (CLit "si" "Pa" 10)) (CLit "si" "m3" 10));
  (142, ACmp CEq (CBin CDiv (CLit "si" "J" 100) (CLit "si" "m3" 10)) (CLit "si" "Pa" 10));
  (146, ACmp CEq (CLit "si" "mW" 1000) (CLit "si" "W" 1));
  (147, ACmp CEq (CLit "si" "W" 1000) (CLit "si" "kW" 1));
  (148, ACmp CEq (CLit "si" "kW" 1000) (CLit "si" "MW" 1));
  (149, ACmp CEq (CLit "si" "MW" 1000) (CLit "si" "GW" 1));
  (151, ASymbol "si::milliwatt" (ascii "mW"));
  (152, ASymbol "si::kilowatt" (ascii "kW"));
  (153, ASymbol "si::megawatt" (ascii "MW"));
  (154, ASymbol "si::gigawatt" (ascii "GW"));
  (156, ACmp CEq (CBin CDiv (CLit "si" "J" 10) (CLit "si" "s" 10)) (CLit "si" "W" 1));
  (157, ACmp CEq (CBin CMul (CLit "si" "W" 1) (CLit "si" "s" 10)) (CLit "si" "J" 10));
  (158, ACmp CEq (CBin CDiv (CLit "si" "J" 10) (CLit "si" "W" 1)) (CLit "si" "s" 10));
  (162, ACmp CEq (CBin CMul (CLit "si" "A" 10) (CLit "si" "s" 10)) (CLit "si" "C" 100));
  (163, ACmp CEq (CBin CDiv (CLit "si" "C" 100) (CLit "si" "A" 10)) (CLit "si" "s" 10));
  (164, ACmp CEq (CBin CDiv (CLit "si" "C" 100) (CLit "si" "s" 10)) (CLit "si" "A" 10));
  (168, ACmp CEq (CBin CDiv (CLit "si" "W" 10) (CLit "si" "A" 10)) (CLit "si" "V" 1));
  (169, ACmp CEq (CBin CDiv (CLit "si" "W" 10) (CLit "si" "V" 1)) (CLit "si" "A" 10));
  (170, ACmp CEq (CBin CMul (CLit "si" "V" 1) (CLit "si" "A" 10)) (CLit "si" "W" 10));
  (171, ACmp CEq (CBin CDiv (CLit "si" "J" 10) (CLit "si" "C" 10)) (CLit "si" "V" 1));
  (172, ACmp CEq (CBin CDiv (CLit "si" "J" 10) (CLit "si" "V" 1)) (CLit "si" "C" 10));
  (173, ACmp CEq (CBin CMul (CLit "si" "C" 10) (CLit "si" "V" 1)) (CLit "si" "J" 10));
  (177, ACmp CEq (CBin CDiv (CLit "si" "C" 10) (CLit "si" "V" 10)) (CLit "si" "F" 1));
  (178, ACmp CEq (CBin CDiv (CLit "si" "C" 10) (CLit "si" "F" 1)) (CLit "si" "V" 10));
  (179, ACmp CEq (CBin CMul (CLit "si" "V" 10) (CLit "si" "F" 1)) (CLit "si" "C" 10));
  (183, ACmp CEq (CLit "si" "T" 1) (CBin CDiv (CBin CMul (CLit "si" "V" 1) (CLit "si" "s" 1)) (CBin CMul (CLit "si" "m" 1) (CLit "si" "m" 1))));
  (184, ACmp CEq (CBin CDiv (CLit "si" "T" 10) (CLit "si" "s" 1)) (CBin CDiv (CLit "si" "V" 10) (CBin CMul (CLit "si" "m" 1) (CLit "si" "m" 1))));
  (185, ACmp CEq (CBin CMul (CLit "si" "T" 10) (CBin CMul (CLit "si" "m" 1) (CLit "si" "m" 1))) (CBin CMul (CLit "si" "s" 10) (CLit "si" "V" 1)));
  (186, ACmp CEq (CBin CDiv (CLit "si" "N" 10) (CBin CMul (CLit "si" "A" 1) (CLit "si" "m" 1))) (CLit "si" "T" 10));
  (188, ASymbol "si::millitesla" (ascii "mT"));
  (189, ASymbol "si::microtesla" (SymbolText "µT" "uT"));
  (190, ASymbol "si::nanotesla" (ascii "nT"));
  (191, ASymbol "si::picotesla" (ascii "pT"));
  (195, ACmp CEq (CLit "si" "Wb" 1) (CBin CMul (CLit "si" "T" 1) (CLit "si" "m2" 1)));
  (196, ACmp CEq (CLit "si" "J" 1) (CBin CMul (CLit "si" "Wb" 1) (CLit "si" "A" 1)));
  (197, ACmp CEq (CBin CMul (CLit "si" "N" 1) (CLit "si" "s" 1)) (CBin CDiv (CBin CMul (CLit "si" "Wb" 1) (CLit "si" "C" 1)) (CLit "si" "m" 1)));
  (199, ASymbol "si::milliweber" (ascii "mWb"));
  (200, ASymbol "si::microweber" (SymbolText "µWb" "uWb"));
  (201, ASymbol "si::nanoweber" (ascii "nWb"));
  (202, ASymbol "si::picoweber" (ascii "pWb"));
  (206, ACmp CEq (CLit "si" "H" 1) (CBin CDiv (CLit "si" "Wb" 1) (CLit "si" "A" 1)));
  (207, ACmp CEq (CLit "si" "V" 1) (CBin CDiv (CBin CMul (CLit "si" "H" 1) (CLit "si" "A" 1)) (CLit "si" "s" 1)));
  (208, ACmp CEq (CLit "si" "J" 1) (CBin CMul (CBin CMul (CLit "si" "H" 1) (CLit "si" "A" 1)) (CLit "si" "A" 1)));
  (210, ASymbol "si::millihenry" (ascii "mH"));
  (211, ASymbol "si::microhenry" (SymbolText "µH" "uH"));
  (212, ASymbol "si::nanohenry" (ascii "nH"));
  (213, ASymbol "si::picohenry" (ascii "pH"));
  (217, ACmp CEq (CBin CMul (CLit "si" "S" 1) (CLit "si" "R" 1)) (CNum (RInt I32) (NInt 1)));
  (218, ACmp CEq (CLit "si" "S" 1) (CBin CDiv (CLit "si" "A" 1) (CLit "si" "V" 1)));
  (219, ACmp CEq (CLit "si" "W" 1) (CBin CDiv (CBin CMul (CLit "si" "A" 1) (CLit "si" "A" 1)) (CLit "si" "S" 1)));
  (221, ASymbol "si::millisiemens" (ascii "mS"));
  (222, ASymbol "si::microsiemens" (SymbolText "µS" "uS"));
  (223, ASymbol "si::nanosiemens" (ascii "nS"));
  (227, ACmp CEq (CLit "si" "kat" 1) (CBin CDiv (CLit "si" "mol" 1) (CLit "si" "s" 1)));
  (228, ACmp CEq (CLit "si" "U" 1000000) (CBin CDiv (CLit "si" "mol" 1) (CLit "si" "min" 1)));
  (230, ASymbol "si::katal" (ascii "kat"));
  (231, ASymbol "si::enzyme_unit" (ascii "U"));
  (235, ACmp CEq (CLit "si" "Gy" 1) (CBin CDiv (CLit "si" "J" 1) (CLit "si" "kg" 1)));
  (236, ACmp CEq (CBin CDiv (CBin CMul (CFlt "si" "W" (S754_finite false 10376293541461622784 (-60))) (CLit "si" "s" 3)) (CLit "si" "kg" 60)) (CLit "si" "mGy" 450));
  (238, ASymbol "si::gray" (ascii "Gy"));
  (239, ASymbol "si::milligray" (ascii "mGy"));
  (240, ASymbol "si::kilogray" (ascii "kGy"));
  (246, ACmp CEq (CBin CDiv (CLit "si" "m" 10) (CLit "si" "s" 5)) (CLit "si" "m_per_s" 2));
  (247, ACmp CEq (CBin CMul (CBin CDiv (CNum (RInt I32) (NInt 10)) (CLit "si" "s" 5)) (CLit "si" "m" 1)) (CLit "si" "m_per_s" 2));
  (248, ACmp CEq (CBin CDiv (CLit "si" "km" 1) (CLit "si" "s" 1)) (CLit "si" "m_per_s" 1000));
  (249, ACmp CEq (CBin CDiv (CLit "si" "km" 1) (CLit "si" "h" 1)) (CLit "si" "km_per_h" 1));
  (250, ACmp CEq (CBin CDiv (CFlt "si" "km" (S754_finite false 9223372036854775808 (-63))) (CLit "si" "h" 1)) (CLit "si" "km_per_h" 1));
  (251, ACmp CEq (CBin CDiv (CFlt "si" "m" (S754_finite false 18014398509481984000 (-54))) (CFlt "si" "s" (S754_finite false 16212958658533785600 (-52)))) (CLit "si" "km_per_h" 1));
  (253, ACmp CEq (CBin CMul (CLit "si" "km_per_h" 2) (CLit "si" "h" 2)) (CLit "si" "km" 4));
  (254, ACmp CEq (CBin CMul (CLit "si" "km_per_h" 2) (CLit "si" "min" 15)) (CLit "si" "m" 500));
  (255, ACmp CEq (CBin CMul (CLit "si" "km_per_h" 2) (CFlt "si" "min" (S754_finite false 17293822569102704640 (-60)))) (CLit "si" "m" 500));
  (256, ACmp CEq (CBin CMul (CFlt "si" "km_per_h" (S754_finite false 9223372036854775808 (-62))) (CLit "si" "min" 15)) (CLit "si" "m" 500));
  (258, ACmp CEq (CBin CDiv (CLit "si" "km" 2) (CLit "si" "km_per_h" 2)) (CLit "si" "h" 1));
  (259, ACmp CEq (CBin CDiv (CLit "si" "m" 2000) (CLit "si" "km_per_h" 2)) (CLit "si" "h" 1));
  (260, ACmp CEq (CBin CDiv (CCastUnit "si::kilometre" (CLit "si" "m" 2000)) (CLit "si" "km_per_h" 2)) (CLit "si" "h" 1));
  (262, AText "si::dim_speed" "si::metre_per_second" (ascii "m/s"));
  (263, ASymbol "si::kilometre_per_hour" (ascii "km/h"));
  (267, ACmp CEq (CBin CDiv (CLit "si" "m_per_s" 10) (CLit "si" "s" 10)) (CLit "si" "m_per_s2" 1));
  (268, ACmp CEq (CBin CDiv (CLit "si" "m_per_s" 10) (CLit "si" "m_per_s2" 1)) (CLit "si" "s" 10));
  (269, ACmp CEq (CBin CMul (CLit "si" "m_per_s2" 1) (CLit "si" "s" 10)) (CLit "si" "m_per_s" 10));
  (271, AText "si::dim_acceleration" "si::metre_per_second_sq" (SymbolText "m/s²" "m/s^2"));
  (275, ACmp CEq (CBin CMul (CLit "si" "m" 10) (CLit "si" "m" 10)) (CLit "si" "m2" 100));
  (276, ACmp CEq (CBin CDiv (CLit "si" "m2" 100) (CLit "si" "m" 10)) (CLit "si" "m" 10));
  (277, ACmp CEq (CBin CMul (CLit "si" "km" 10) (CLit "si" "km" 10)) (CLit "si" "km2" 100));
  (278, ACmp CEq (CLit "si" "m2" 1) (CLit "si" "cm2" 10000));
  (279, ACmp CEq (CLit "si" "ha" 1) (CLit "si" "m2" 10000));
  (281, ASymbol "si::hectare" (ascii "ha"));
  (283, AText "si::dim_area" "si::square_metre" (SymbolText "m²" "m^2"));
  (287, ACmp CEq (CBin CMul (CBin CMul (CLit "si" "m" 1) (CLit "si" "m" 1)) (CLit "si" "m" 1)) (CLit "si" "m3" 1));
  (288, ACmp CEq (CBin CMul (CLit "si" "m2" 10) (CLit "si" "m" 10)) (CLit "si" "m3" 100));
  (289, ACmp CEq (CBin CMul (CBin CMul (CLit "si" "km" 10) (CLit "si" "km" 10)) (CLit "si" "km" 10)) (CLit "si" "km3" 1000));
  (290, ACmp CEq (CLit "si" "m3" 1) (CLit "si" "cm3" 1000000));
  (291, ACmp CEq (CBin CMul (CBin CMul (CLit "si" "dm" 1) (CLit "si" "dm" 1)) (CLit "si" "dm" 1)) (CLit "si" "l" 1));
  (292, ACmp CEq (CLit "si" "l" 1000) (CLit "si" "m3" 1));
  (293, ACmp CEq (CLit "si" "kl" 1) (CLit "si" "m3" 1));
  (295, ASymbol "si::litre" (ascii "l"));
  (296, ASymbol "si::kilolitre" (ascii "kl"));
  (298, AText "si::dim_volume" "si::cubic_metre" (SymbolText "m³" "m^3"));
  (302, ACmp CEq (CBin CDiv (CLit "si" "N" 10) (CLit "si" "m" 2)) (CLit "si" "N_per_m" 5));
  (303, ACmp CEq (CBin CDiv (CLit "si" "N" 10) (CLit "si" "N_per_m" 5)) (CLit "si" "m" 2));
  (304, ACmp CEq (CBin CMul (CLit "si" "m" 2) (CLit "si" "N_per_m" 5)) (CLit "si" "N" 10));
  (306, AText "si::dim_surface_tension" "si::newton_per_metre" (ascii "N/m"));
  (310, ACmp CEq (CLit "si" "A_per_m2" 12) (CBin CDiv (CLit "si" "A" 60) (CLit "si" "m2" 5)));
  (311, ACmp CEq (CLit "si" "A_per_m2" 1) (CBin CDiv (CBin CMul (CLit "si" "S" 1) (CLit "si" "V" 1)) (CLit "si" "m2" 1)));
  (313, AText "si::dim_current_density" "si::ampere_per_metre_sq" (SymbolText "A/m²" "A/m^2"));
  (317, ACmp CEq (CLit "si" "mol_per_m3" 1) (CBin CDiv (CBin CMul (CLit "si" "kg_per_m3" 1) (CLit "si" "mol" 1)) (CLit "si" "kg" 1)));
  (318, AText "si::dim_concentration" "si::ampere_per_metre_sq" (SymbolText "mol/m³" "mol/m^3"));
  (322, ACmp CEq (CLit "si" "cd_per_m2" 1) (CBin CDiv (CLit "si" "cd" 1) (CLit "si" "m2" 1)));
  (323, AText "si::dim_luminance" "si::candela_per_metre_sq" (SymbolText "cd/m²" "cd/m^2"));
  (327, ACmp CEq (CLit "si" "Pa_s" 1) (CBin CDiv (CBin CMul (CLit "si" "N" 1) (CLit "si" "s" 1)) (CLit "si" "m2" 1)));
  (328, AText "si::dim_dynamic_viscosity" "si::pascal_second" (SymbolText "Pa ⋅ s" "Pa s"));
  (332, ACmp CEq (CLit "si" "J_per_K" 1) (CBin CMul (CLit "si" "J_per_kg_K" 1) (CLit "si" "kg" 1)));
  (333, ACmp CEq (CBin CMul (CLit "si" "J_per_K" 1) (CLit "si" "K" 1)) (CBin CMul (CBin CMul (CLit "si" "s" 1) (CLit "si" "N" 1)) (CLit "si" "m_per_s" 1)));
  (334, ACmp CEq (CLit "si" "J_per_mol_K" 1) (CBin CDiv (CLit "si" "J_per_K" 1) (CLit "si" "mol" 1)));
  (336, AText "si::dim_heat_capacity" "si::joule_per_kelvin" (ascii "J/K"));
  (337, AText "si::dim_specific_heat_capacity" "si::joule_per_kilogram_kelvin" (SymbolText "J ⋅ K⁻¹ ⋅ kg⁻¹" "J K^-1 kg^-1"));
  (341, ACmp CEq (CBin CMul (CBin CMul (CLit "si" "W_per_m_K" 20) (CLit "si" "m" 10)) (CLit "si" "K" 300)) (CLit "si" "W" 60000));
  (342, AText "si::dim_thermal_conductivity" "si::watt_per_metre_kelvin" (SymbolText "W ⋅ m⁻¹ ⋅ K⁻¹" "W m^-1 K^-1"));
  (346, ACmp CEq (CBin CDiv (CLit "si" "N" 100) (CLit "si" "C" 20)) (CLit "si" "V_per_m" 5));
  (347, ACmp CEq (CBin CMul (CBin CMul (CLit "si" "C" 1) (CLit "si" "V_per_m" 10)) (CLit "si" "m" 3)) (CLit "si" "J" 30));
  (349, AText "si::dim_electric_field_strength" "si::volt_per_metre" (ascii "V/m"));
  (353, ACmp CEq (CBin CDiv (CFlt "si" "C" (S754_finite false 11529215046068469760 (-59))) (CLit "si" "m3" 40)) (CFlt "si" "C_per_m3" (S754_finite false 9223372036854775808 (-64))));
  (354, ACmp CEq (CBin CDiv (CFlt "si" "C" (S754_finite false 11529215046068469760 (-60))) (CLit "si" "m2" 20)) (CFlt "si" "C_per_m2" (S754_finite false 9223372036854775808 (-64))));
  (355, ACmp CEq (CFlt "si" "C_per_m3" (S754_finite false 11529215046068469760 (-59))) (CBin CDiv (CFlt "si" "C_per_m2" (S754_finite false 11529215046068469760 (-60))) (CFlt "si" "m" (S754_finite false 9223372036854775808 (-64)))));
  (356, ACmp CEq (CBin CDiv (CBin CDiv (CLit "si" "C" 1) (CLit "si" "m" 1)) (CLit "si" "m" 1)) (CBin CDiv (CLit "si" "C" 1) (CLit "si" "m2" 1)));
  (357, ACmp CEq (CLit "si" "C_per_m2" 1) (CBin CMul (CLit "si" "C_per_m3" 1) (CLit "si" "m" 1)));
  (358, ACmp CEq (CBin CMul (CBin CMul (CLit "si" "V_per_m" 1) (CLit "si" "C_per_m3" 10)) (CLit "si" "m3" 1)) (CLit "si" "N" 10));
  (360, AText "si::dim_charge_density" "si::coulomb_per_metre_cub" (SymbolText "C/m³" "C/m^3"));
  (361, AText "si::dim_surface_charge_density" "si::coulomb_per_metre_sq" (SymbolText "C/m²" "C/m^2"));
  (365, ACmp CEq (CLit "si" "F_per_m" 1) (CBin CDiv (CLit "si" "F" 1) (CLit "si" "m" 1)));
  (366, ACmp CEq (CBin CDiv (CBin CMul (CBin CMul (CBin CDiv (CNum (RInt I32) (NInt 1)) (CLit "si" "F_per_m" 1)) (CLit "si" "C" 1)) (CLit "si" "C" 1)) (CLit "si" "m2" 1)) (CLit "si" "N" 1));
  (367, ACmp CEq (CBin CMul (CBin CDiv (CLit "si" "C_per_m3" 1) (CLit "si" "F_per_m" 1)) (CLit "si" "m" 1)) (CLit "si" "V_per_m" 1));
  (369, AText "si::dim_permittivity" "si::farad_per_metre" (ascii "F/m"));
  (373, ACmp CEq (CBin CDiv (CBin CMul (CLit "si" "H_per_m" 1) (CLit "si" "A" 1)) (CLit "si" "m" 1)) (CLit "si" "T" 1));
  (374, ACmp CEq (CBin CMul (CBin CMul (CLit "si" "H_per_m" 1) (CLit "si" "A" 1)) (CLit "si" "A" 1)) (CLit "si" "N" 1));
  (376, AText "si::dim_permeability" "si::henry_per_metre" (ascii "H/m"));
  (380, ACmp CEq (CBin CMul (CBin CMul (CLit "si" "J_per_mol" 1) (CLit "si" "mol_per_m3" 1)) (CLit "si" "m3" 1)) (CBin CMul (CLit "si" "N" 1) (CLit "si" "m" 1)));
  (382, AText "si::dim_molar_energy" "si::joule_per_mole" (ascii "J/mol"));
  (386, ACmp CEq (CBin CDiv (CLit "" "rad" 1) (CLit "si" "s" 1)) (CLit "si" "rad_per_s" 1));
  (387, AText "si::dim_angular_velocity" "si::radian_per_second" (SymbolText "ω" "w"))].
Example si_conforms : forall est, match compile est On ["generic/angle.h"; "generic/dimensionless.h"; "isq/si/si.h"] with Ok e => failing est e si_test | _ => [-1] end = [].
Proof. intros est. vm_compute. reflexivity. Qed.

(** test/unit_test/static/si_cgs_test.cpp: 57 of its assertions. *)
Definition si_cgs_test : list (Z * cassert) := [
  (39, ARatio "si::dim_length" "si::metre" 1 1 0);
  (40, ARatio "si::cgs::dim_length" "si::centimetre" 1 100 0);
  (41, ARatio "si::dim_speed" "si::metre_per_second" 1 1 0);
  (42, ARatio "si::cgs::dim_speed" "si::cgs::centimetre_per_second" 1 100 0);
  (43, ARatio "si::dim_force" "si::newton" 1000 1 0);
  (44, ARatio "si::cgs::dim_force" "si::cgs::dyne" 1 100 0);
  (46, ACmp CEq (CMake (TNamed "si::cgs::dim_length" "si::centimetre" (RFlt F64)) (CNum (RInt I32) (NInt 100))) (CMake (TNamed "si::dim_length" "si::metre" (RFlt F64)) (CNum (RInt I32) (NInt 1))));
  (47, ACmp CEq (CMake (TNamed "si::cgs::dim_mass" "si::gram" (RFlt F64)) (CNum (RInt I32) (NInt 1000))) (CMake (TNamed "si::dim_mass" "si::kilogram" (RFlt F64)) (CNum (RInt I32) (NInt 1))));
  (48, ACmp CEq (CMake (TNamed "si::dim_time" "si::second" (RFlt F64)) (CNum (RInt I32) (NInt 1))) (CMake (TNamed "si::dim_time" "si::second" (RFlt F64)) (CNum (RInt I32) (NInt 1))));
  (49, ACmp CEq (CMake (TNamed "si::cgs::dim_speed" "si::cgs::centimetre_per_second" (RFlt F64)) (CNum (RInt I32) (NInt 100))) (CMake (TNamed "si::dim_speed" "si::metre_per_second" (RFlt F64)) (CNum (RInt I32) (NInt 1))));
  (50, ACmp CEq (CMake (TNamed "si::cgs::dim_area" "si::square_centimetre" (RFlt F64)) (CNum (RInt I32) (NInt 10000))) (CMake (TNamed "si::dim_area" "si::square_metre" (RFlt F64)) (CNum (RInt I32) (NInt 1))));
  (51, ACmp CEq (CMake (TNamed "si::cgs::dim_acceleration" "si::cgs::gal" (RFlt F64)) (CNum (RInt I32) (NInt 100))) (CMake (TNamed "si::dim_acceleration" "si::metre_per_second_sq" (RFlt F64)) (CNum (RInt I32) (NInt 1))));
  (52, ACmp CEq (CMake (TNamed "si::cgs::dim_force" "si::cgs::dyne" (RFlt F64)) (CNum (RInt I32) (NInt 100000))) (CMake (TNamed "si::dim_force" "si::newton" (RFlt F64)) (CNum (RInt I32) (NInt 1))));
  (53, ACmp CEq (CMake (TNamed "si::cgs::dim_energy" "si::cgs::erg" (RFlt F64)) (CNum (RInt I32) (NInt 10000000))) (CMake (TNamed "si::dim_energy" "si::joule" (RFlt F64)) (CNum (RInt I32) (NInt 1))));
  (54, ACmp CEq (CMake (TNamed "si::cgs::dim_power" "si::cgs::erg_per_second" (RFlt F64)) (CNum (RInt I32) (NInt 10000000))) (CMake (TNamed "si::dim_power" "si::watt" (RFlt F64)) (CNum (RInt I32) (NInt 1))));
  (55, ACmp CEq (CMake (TNamed "si::cgs::dim_pressure" "si::cgs::barye" (RFlt F64)) (CNum (RInt I32) (NInt 10))) (CMake (TNamed "si::dim_pressure" "si::pascal" (RFlt F64)) (CNum (RInt I32) (NInt 1))));
  (61, ACmp CEq (CMake (TNamed "si::cgs::dim_length" "si::centimetre" (RFlt F64)) (CNum (RInt I32) (NInt 100))) (CLit "si" "m" 1));
  (62, ACmp CEq (CMake (TNamed "si::cgs::dim_mass" "si::gram" (RFlt F64)) (CNum (RInt I32) (NInt 1000))) (CLit "si" "kg" 1));
  (63, ACmp CEq (CMake (TNamed "si::dim_time" "si::second" (RFlt F64)) (CNum (RInt I32) (NInt 1))) (CLit "si" "s" 1));
  (64, ACmp CEq (CMake (TNamed "si::cgs::dim_speed" "si::cgs::centimetre_per_second" (RFlt F64)) (CNum (RInt I32) (NInt 100))) (CLit "si" "m_per_s" 1));
  (65, ACmp CEq (CMake (TNamed "si::cgs::dim_acceleration" "si::cgs::gal" (RFlt F64)) (CNum (RInt I32) (NInt 100))) (CLit "si" "m_per_s2" 1));
  (66, ACmp CEq (CMake (TNamed "si::cgs::dim_force" "si::cgs::dyne" (RFlt F64)) (CNum (RInt I32) (NInt 100000))) (CLit "si" "N" 1));
  (67, ACmp CEq (CMake (TNamed "si::cgs::dim_energy" "si::cgs::erg" (RFlt F64)) (CNum (RInt I32) (NInt 10000000))) (CLit "si" "J" 1));
  (68, ACmp CEq (CMake (TNamed "si::cgs::dim_power" "si::cgs::erg_per_second" (RFlt F64)) (CNum (RInt I32) (NInt 10000000))) (CLit "si" "W" 1));
  (69, ACmp CEq (CMake (TNamed "si::cgs::dim_pressure" "si::cgs::barye" (RFlt F64)) (CNum (RInt I32) (NInt 10))) (CLit "si" "Pa" 1));
  (77, ACmp CEq (CLit "si::cgs" "cm" 100) (CMake (TNamed "si::dim_length" "si::metre" (RFlt F64)) (CNum (RInt I32) (NInt 1))));
  (78, ACmp CEq (CLit "si::cgs" "g" 1000) (CMake (TNamed "si::dim_mass" "si::kilogram" (RFlt F64)) (CNum (RInt I32) (NInt 1))));
  (79, ACmp CEq (CLit "si" "s" 1) (CMake (TNamed "si::dim_time" "si::second" (RFlt F64)) (CNum (RInt I32) (NInt 1))));
  (80, ACmp CEq (CLit "si::cgs" "cm_per_s" 100) (CMake (TNamed "si::dim_speed" "si::metre_per_second" (RFlt F64)) (CNum (RInt I32) (NInt 1))));
  (81, ACmp CEq (CLit "si::cgs" "Gal" 100) (CMake (TNamed "si::dim_acceleration" "si::metre_per_second_sq" (RFlt F64)) (CNum (RInt I32) (NInt 1))));
  (82, ACmp CEq (CLit "si::cgs" "dyn" 100000) (CMake (TNamed "si::dim_force" "si::newton" (RFlt F64)) (CNum (RInt I32) (NInt 1))));
  (83, ACmp CEq (CLit "si::cgs" "erg" 10000000) (CMake (TNamed "si::dim_energy" "si::joule" (RFlt F64)) (CNum (RInt I32) (NInt 1))));
  (84, ACmp CEq (CLit "si::cgs" "erg_per_s" 10000000) (CMake (TNamed "si::dim_power" "si::watt" (RFlt F64)) (CNum (RInt I32) (NInt 1))));
  (85, ACmp CEq (CLit "si::cgs" "Ba" 10) (CMake (TNamed "si::dim_pressure" "si::pascal" (RFlt F64)) (CNum (RInt I32) (NInt 1))));
  (96, ACmp CEq (CLit "si" "s" 1) (CLit "si" "s" 1));
  (97, ACmp CEq (CLit "si::cgs" "cm_per_s" 100) (CLit "si" "m_per_s" 1));
  (98, ACmp CEq (CLit "si::cgs" "Gal" 100) (CLit "si" "m_per_s2" 1));
  (99, ACmp CEq (CLit "si::cgs" "dyn" 100000) (CLit "si" "N" 1));
  (100, ACmp CEq (CLit "si::cgs" "erg" 10000000) (CLit "si" "J" 1));
  (101, ACmp CEq (CLit "si::cgs" "erg_per_s" 10000000) (CLit "si" "W" 1));
  (102, ACmp CEq (CLit "si::cgs" "Ba" 10) (CCastRep (RFlt F64) (CLit "si" "Pa" 1)));
  (110, ACmp CEq (CBin CAdd (CLit "si::cgs" "cm" 100) (CMake (TNamed "si::dim_length" "si::metre" (RFlt F64)) (CNum (RInt I32) (NInt 1)))) (CMake (TNamed "si::dim_length" "si::metre" (RFlt F64)) (CNum (RInt I32) (NInt 2))));
  (111, ACmp CEq (CBin CAdd (CMake (TNamed "si::dim_length" "si::metre" (RFlt F64)) (CNum (RInt I32) (NInt 1))) (CLit "si::cgs" "cm" 100)) (CMake (TNamed "si::dim_length" "si::metre" (RFlt F64)) (CNum (RInt I32) (NInt 2))));
  (112, ACmp CEq (CBin CAdd (CCastTo (TNamed "si::dim_length" "si::metre" (RFlt F64)) (CLit "si::cgs" "cm" 100)) (CMake (TNamed "si::dim_length" "si::metre" (RFlt F64)) (CNum (RInt I32) (NInt 1)))) (CMake (TNamed "si::dim_length" "si::metre" (RFlt F64)) (CNum (RInt I32) (NInt 2))));
  (113, ACmp CEq (CBin CAdd (CMake (TNamed "si::dim_length" "si::metre" (RFlt F64)) (CNum (RInt I32) (NInt 1))) (CCastTo (TNamed "si::dim_length" "si::metre" (RFlt F64)) (CLit "si::cgs" "cm" 100))) (CMake (TNamed "si::dim_length" "si::metre" (RFlt F64)) (CNum (RInt I32) (NInt 2))));
  (114, ACmp CEq (CBin CAdd (CLit "si::cgs" "cm" 100) (CCastTo (TNamed "si::cgs::dim_length" "si::centimetre" (RFlt F64)) (CMake (TNamed "si::dim_length" "si::metre" (RFlt F64)) (CNum (RInt I32) (NInt 1))))) (CLit "si::cgs" "cm" 200));
  (115, ACmp CEq (CBin CAdd (CCastTo (TNamed "si::cgs::dim_length" "si::centimetre" (RFlt F64)) (CMake (TNamed "si::dim_length" "si::metre" (RFlt F64)) (CNum (RInt I32) (NInt 1)))) (CLit "si::cgs" "cm" 100)) (CLit "si::cgs" "cm" 200));
  (119, ACmp CEq (CBin CSub (CLit "si::cgs" "cm" 500) (CMake (TNamed "si::dim_length" "si::metre" (RFlt F64)) (CNum (RInt I32) (NInt 1)))) (CMake (TNamed "si::dim_length" "si::metre" (RFlt F64)) (CNum (RInt I32) (NInt 4))));
  (120, ACmp CEq (CBin CSub (CMake (TNamed "si::dim_length" "si::metre" (RFlt F64)) (CNum (RInt I32) (NInt 5))) (CLit "si::cgs" "cm" 100)) (CMake (TNamed "si::dim_length" "si::metre" (RFlt F64)) (CNum (RInt I32) (NInt 4))));
  (121, ACmp CEq (CBin CSub (CCastTo (TNamed "si::dim_length" "si::metre" (RFlt F64)) (CLit "si::cgs" "cm" 500)) (CMake (TNamed "si::dim_length" "si::metre" (RFlt F64)) (CNum (RInt I32) (NInt 1)))) (CMake (TNamed "si::dim_length" "si::metre" (RFlt F64)) (CNum (RInt I32) (NInt 4))));
  (122, ACmp CEq (CBin CSub (CMake (TNamed "si::dim_length" "si::metre" (RFlt F64)) (CNum (RInt I32) (NInt 5))) (CCastTo (TNamed "si::dim_length" "si::metre" (RFlt F64)) (CLit "si::cgs" "cm" 100))) (CMake (TNamed "si::dim_length" "si::metre" (RFlt F64)) (CNum (RInt I32) (NInt 4))));
  (123, ACmp CEq (CBin CSub (CLit "si::cgs" "cm" 500) (CCastTo (TNamed "si::cgs::dim_length" "si::centimetre" (RFlt F64)) (CMake (TNamed "si::dim_length" "si::metre" (RFlt F64)) (CNum (RInt I32) (NInt 1))))) (CLit "si::cgs" "cm" 400));
  (124, ACmp CEq (CBin CSub (CCastTo (TNamed "si::cgs::dim_length" "si::centimetre" (RFlt F64)) (CMake (TNamed "si::dim_length" "si::metre" (RFlt F64)) (CNum (RInt I32) (NInt 5)))) (CLit "si::cgs" "cm" 100)) (CLit "si::cgs" "cm" 400));
  (130, ACmp CEq (CBin CMul (CCastDim "si::dim_length" (CFlt "si::cgs" "cm" (S754_finite false 14411518807585587200 (-56)))) (CMake (TNamed "si::dim_length" "si::metre" (RFlt F64)) (CNum (RInt I32) (NInt 2)))) (CMake (TNamed "si::dim_area" "si::square_metre" (RFlt F64)) (CNum (RInt I32) (NInt 4))));
  (131, ACmp CEq (CBin CMul (CFlt "si::cgs" "cm" (S754_finite false 14411518807585587200 (-56))) (CCastDim "si::cgs::dim_length" (CMake (TNamed "si::dim_length" "si::metre" (RFlt F64)) (CNum (RInt I32) (NInt 2))))) (CLit "si::cgs" "cm2" 40000));
  (143, ACmp CEq (CBin CDiv (CMake (TNamed "si::dim_area" "si::square_metre" (RFlt F64)) (CNum (RInt I32) (NInt 4))) (CCastTo (TNamed "si::dim_length" "si::metre" (RFlt F64)) (CLit "si::cgs" "cm" 200))) (CMake (TNamed "si::dim_length" "si::metre" (RFlt F64)) (CNum (RInt I32) (NInt 2))));
  (144, ACmp CEq (CBin CDiv (CCastTo (TNamed "si::cgs::dim_area" "si::square_centimetre" (RFlt F64)) (CMake (TNamed "si::dim_area" "si::square_metre" (RFlt F64)) (CNum (RInt I32) (NInt 4)))) (CFlt "si::cgs" "cm" (S754_finite false 14411518807585587200 (-56)))) (CLit "si::cgs" "cm" 200))].
Example si_cgs_conforms : forall est, match compile est On ["isq/si/acceleration.h"; "isq/si/area.h"; "isq/si/cgs/cgs.h"; "isq/si/energy.h"; "isq/si/force.h"; "isq/si/length.h"; "isq/si/mass.h"; "isq/si/power.h"; "isq/si/pressure.h"; "isq/si/speed.h"; "isq/si/time.h"] with Ok e => failing est e si_cgs_test | _ => [-1] end = [].
Proof. intros est. vm_compute. reflexivity. Qed.

(** test/unit_test/static/si_fps_test.cpp: 57 of its assertions. *)
Definition si_fps_test : list (Z * cassert) := [
  (39, ACmp CEq (CMake (TNamed "si::fps::dim_length" "si::fps::foot" (RFlt F64)) (CNum (RInt I32) (NInt 1))) (CMake (TNamed "si::dim_length" "si::metre" (RFlt F64)) (CNum (RFlt F64) (NFlt (S754_finite false 5490788665690109 (-54))))));
  (40, ACmp CEq (CMake (TNamed "si::fps::dim_mass" "si::fps::pound" (RFlt F64)) (CNum (RInt I32) (NInt 1))) (CMake (TNamed "si::dim_mass" "si::kilogram" (RFlt F64)) (CNum (RFlt F64) (NFlt (S754_finite false 8171193714040401 (-54))))));
  (41, ACmp CEq (CMake (TNamed "si::dim_time" "si::second" (RFlt F64)) (CNum (RInt I32) (NInt 1))) (CMake (TNamed "si::dim_time" "si::second" (RFlt F64)) (CNum (RInt I32) (NInt 1))));
  (42, ACmp CEq (CMake (TNamed "si::fps::dim_speed" "si::fps::foot_per_second" (RFlt F64)) (CNum (RInt I32) (NInt 1))) (CMake (TNamed "si::dim_speed" "si::metre_per_second" (RFlt F64)) (CNum (RFlt F64) (NFlt (S754_finite false 5490788665690109 (-54))))));
  (43, ACmp CEq (CMake (TNamed "si::fps::dim_area" "si::fps::square_foot" (RFlt F64)) (CNum (RInt I32) (NInt 1))) (CMake (TNamed "si::dim_area" "si::square_metre" (RFlt F64)) (CNum (RFlt F64) (NFlt (S754_finite false 6694369541209381 (-56))))));
  (44, ACmp CEq (CMake (TNamed "si::fps::dim_acceleration" "si::fps::foot_per_second_sq" (RFlt F64)) (CNum (RInt I32) (NInt 1))) (CMake (TNamed "si::dim_acceleration" "si::metre_per_second_sq" (RFlt F64)) (CNum (RFlt F64) (NFlt (S754_finite false 5490788665690109 (-54))))));
  (45, AAnd (ACmp CGt (CMake (TNamed "si::fps::dim_force" "si::fps::poundal" (RFlt F64)) (CNum (RInt I32) (NInt 1))) (CMake (TNamed "si::dim_force" "si::newton" (RFlt F64)) (CNum (RFlt F64) (NFlt (S754_finite false 4981125303059844 (-55)))))) (ACmp CLt (CMake (TNamed "si::fps::dim_force" "si::fps::poundal" (RFlt F64)) (CNum (RInt I32) (NInt 1))) (CMake (TNamed "si::dim_force" "si::newton" (RFlt F64)) (CNum (RFlt F64) (NFlt (S754_finite false 4981197360653882 (-55)))))));
  (47, AAnd (ACmp CGt (CMake (TNamed "si::fps::dim_energy" "si::fps::foot_poundal" (RFlt F64)) (CNum (RInt I32) (NInt 1))) (CMake (TNamed "si::dim_energy" "si::joule" (RFlt F64)) (CNum (RFlt F64) (NFlt (S754_finite false 6073029891705836 (-57)))))) (ACmp CLt (CMake (TNamed "si::fps::dim_energy" "si::fps::foot_poundal" (RFlt F64)) (CNum (RInt I32) (NInt 1))) (CMake (TNamed "si::dim_energy" "si::joule" (RFlt F64)) (CNum (RFlt F64) (NFlt (S754_finite false 6073029891706124 (-57)))))));
  (49, AAnd (ACmp CGt (CMake (TNamed "si::fps::dim_power" "si::fps::foot_poundal_per_second" (RFlt F64)) (CNum (RInt I32) (NInt 1))) (CMake (TNamed "si::dim_power" "si::watt" (RFlt F64)) (CNum (RFlt F64) (NFlt (S754_finite false 6073029891705836 (-57)))))) (ACmp CLt (CMake (TNamed "si::fps::dim_power" "si::fps::foot_poundal_per_second" (RFlt F64)) (CNum (RInt I32) (NInt 1))) (CMake (TNamed "si::dim_power" "si::watt" (RFlt F64)) (CNum (RFlt F64) (NFlt (S754_finite false 6073029891706124 (-57)))))));
  (51, AAnd (ACmp CGt (CMake (TNamed "si::fps::dim_pressure" "si::fps::poundal_per_foot_sq" (RFlt F64)) (CNum (RInt I32) (NInt 1))) (CMake (TNamed "si::dim_pressure" "si::pascal" (RFlt F64)) (CNum (RFlt F64) (NFlt (S754_finite false 6702094581412808 (-52)))))) (ACmp CLt (CMake (TNamed "si::fps::dim_pressure" "si::fps::poundal_per_foot_sq" (RFlt F64)) (CNum (RInt I32) (NInt 1))) (CMake (TNamed "si::dim_pressure" "si::pascal" (RFlt F64)) (CNum (RFlt F64) (NFlt (S754_finite false 6702094582313528 (-52)))))));
  (58, ACmp CEq (CMake (TNamed "si::fps::dim_length" "si::fps::foot" (RFlt F64)) (CNum (RInt I32) (NInt 1))) (CFlt "si" "m" (S754_finite false 11245135187333342665 (-65))));
  (59, ACmp CEq (CMake (TNamed "si::fps::dim_mass" "si::fps::pound" (RFlt F64)) (CNum (RInt I32) (NInt 1))) (CFlt "si" "kg" (S754_finite false 16734604726354740418 (-65))));
  (60, ACmp CEq (CMake (TNamed "si::dim_time" "si::second" (RFlt F64)) (CNum (RInt I32) (NInt 1))) (CLit "si" "s" 1));
  (61, ACmp CEq (CMake (TNamed "si::fps::dim_speed" "si::fps::foot_per_second" (RFlt F64)) (CNum (RInt I32) (NInt 1))) (CFlt "si" "m_per_s" (S754_finite false 11245135187333342665 (-65))));
  (62, ACmp CEq (CMake (TNamed "si::fps::dim_area" "si::fps::square_foot" (RFlt F64)) (CNum (RInt I32) (NInt 1))) (CFlt "si" "m2" (S754_finite false 13710068820396811377 (-67))));
  (63, ACmp CEq (CMake (TNamed "si::fps::dim_acceleration" "si::fps::foot_per_second_sq" (RFlt F64)) (CNum (RInt I32) (NInt 1))) (CFlt "si" "m_per_s2" (S754_finite false 11245135187333342665 (-65))));
  (64, AAnd (ACmp CGt (CMake (TNamed "si::fps::dim_force" "si::fps::poundal" (RFlt F64)) (CNum (RInt I32) (NInt 1))) (CFlt "si" "N" (S754_finite false 10201344620666561396 (-66)))) (ACmp CLt (CMake (TNamed "si::fps::dim_force" "si::fps::poundal" (RFlt F64)) (CNum (RInt I32) (NInt 1))) (CFlt "si" "N" (S754_finite false 10201492194619151073 (-66)))));
  (66, AAnd (ACmp CGt (CMake (TNamed "si::fps::dim_energy" "si::fps::foot_poundal" (RFlt F64)) (CNum (RInt I32) (NInt 1))) (CFlt "si" "J" (S754_finite false 12437565218213551908 (-68)))) (ACmp CLt (CMake (TNamed "si::fps::dim_energy" "si::fps::foot_poundal" (RFlt F64)) (CNum (RInt I32) (NInt 1))) (CFlt "si" "J" (S754_finite false 12437565218214142204 (-68)))));
  (68, AAnd (ACmp CGt (CMake (TNamed "si::fps::dim_power" "si::fps::foot_poundal_per_second" (RFlt F64)) (CNum (RInt I32) (NInt 1))) (CFlt "si" "W" (S754_finite false 12437565218213551908 (-68)))) (ACmp CLt (CMake (TNamed "si::fps::dim_power" "si::fps::foot_poundal_per_second" (RFlt F64)) (CNum (RInt I32) (NInt 1))) (CFlt "si" "W" (S754_finite false 12437565218214142204 (-68)))));
  (70, AAnd (ACmp CGt (CMake (TNamed "si::fps::dim_pressure" "si::fps::poundal_per_foot_sq" (RFlt F64)) (CNum (RInt I32) (NInt 1))) (CFlt "si" "Pa" (S754_finite false 13725889702733430503 (-63)))) (ACmp CLt (CMake (TNamed "si::fps::dim_pressure" "si::fps::poundal_per_foot_sq" (RFlt F64)) (CNum (RInt I32) (NInt 1))) (CFlt "si" "Pa" (S754_finite false 13725889704578104911 (-63)))));
  (79, ACmp CEq (CBin CMul (CNum (RInt I32) (NInt 1)) (CRef "si::fps" "ft")) (CMake (TNamed "si::dim_length" "si::metre" (RFlt F64)) (CNum (RFlt F64) (NFlt (S754_finite false 5490788665690109 (-54))))));
  (80, ACmp CEq (CLit "si::fps" "lb" 1) (CMake (TNamed "si::dim_mass" "si::kilogram" (RFlt F64)) (CNum (RFlt F64) (NFlt (S754_finite false 8171193714040401 (-54))))));
  (81, ACmp CEq (CLit "si" "s" 1) (CMake (TNamed "si::dim_time" "si::second" (RFlt F64)) (CNum (RInt I32) (NInt 1))));
  (82, ACmp CEq (CLit "si::fps" "ft_per_s" 1) (CMake (TNamed "si::dim_speed" "si::metre_per_second" (RFlt F64)) (CNum (RFlt F64) (NFlt (S754_finite false 5490788665690109 (-54))))));
  (83, ACmp CEq (CLit "si::fps" "ft2" 1) (CMake (TNamed "si::dim_area" "si::square_metre" (RFlt F64)) (CNum (RFlt F64) (NFlt (S754_finite false 6694369541209381 (-56))))));
  (84, ACmp CEq (CLit "si::fps" "ft_per_s2" 1) (CMake (TNamed "si::dim_acceleration" "si::metre_per_second_sq" (RFlt F64)) (CNum (RFlt F64) (NFlt (S754_finite false 5490788665690109 (-54))))));
  (85, AAnd (ACmp CGt (CLit "si::fps" "pdl" 1) (CMake (TNamed "si::dim_force" "si::newton" (RFlt F64)) (CNum (RFlt F64) (NFlt (S754_finite false 4981125303059844 (-55)))))) (ACmp CLt (CLit "si::fps" "pdl" 1) (CMake (TNamed "si::dim_force" "si::newton" (RFlt F64)) (CNum (RFlt F64) (NFlt (S754_finite false 4981197360653882 (-55)))))));
  (87, AAnd (ACmp CGt (CLit "si::fps" "ft_pdl" 1) (CMake (TNamed "si::dim_energy" "si::joule" (RFlt F64)) (CNum (RFlt F64) (NFlt (S754_finite false 6073029891705836 (-57)))))) (ACmp CLt (CLit "si::fps" "ft_pdl" 1) (CMake (TNamed "si::dim_energy" "si::joule" (RFlt F64)) (CNum (RFlt F64) (NFlt (S754_finite false 6073029891706124 (-57)))))));
  (89, AAnd (ACmp CGt (CLit "si::fps" "ft_pdl_per_s" 1) (CMake (TNamed "si::dim_power" "si::watt" (RFlt F64)) (CNum (RFlt F64) (NFlt (S754_finite false 6073029891705836 (-57)))))) (ACmp CLt (CLit "si::fps" "ft_pdl_per_s" 1) (CMake (TNamed "si::dim_power" "si::watt" (RFlt F64)) (CNum (RFlt F64) (NFlt (S754_finite false 6073029891706124 (-57)))))));
  (91, AAnd (ACmp CGt (CLit "si::fps" "pdl_per_ft2" 1) (CMake (TNamed "si::dim_pressure" "si::pascal" (RFlt F64)) (CNum (RFlt F64) (NFlt (S754_finite false 6702094581412808 (-52)))))) (ACmp CLt (CLit "si::fps" "pdl_per_ft2" 1) (CMake (TNamed "si::dim_pressure" "si::pascal" (RFlt F64)) (CNum (RFlt F64) (NFlt (S754_finite false 6702094582313528 (-52)))))));
  (103, ACmp CEq (CBin CMul (CNum (RInt I32) (NInt 1)) (CRef "si::fps" "ft")) (CFlt "si" "m" (S754_finite false 11245135187333342665 (-65))));
  (104, ACmp CEq (CLit "si::fps" "lb" 1) (CFlt "si" "kg" (S754_finite false 16734604726354740418 (-65))));
  (105, ACmp CEq (CLit "si" "s" 1) (CLit "si" "s" 1));
  (106, ACmp CEq (CLit "si::fps" "ft_per_s" 1) (CFlt "si" "m_per_s" (S754_finite false 11245135187333342665 (-65))));
  (107, ACmp CEq (CLit "si::fps" "ft2" 1) (CFlt "si" "m2" (S754_finite false 13710068820396811377 (-67))));
  (108, ACmp CEq (CLit "si::fps" "ft_per_s2" 1) (CFlt "si" "m_per_s2" (S754_finite false 11245135187333342665 (-65))));
  (109, AAnd (ACmp CGt (CLit "si::fps" "pdl" 1) (CFlt "si" "N" (S754_finite false 10201344620666561396 (-66)))) (ACmp CLt (CLit "si::fps" "pdl" 1) (CFlt "si" "N" (S754_finite false 10201492194619151073 (-66)))));
  (111, AAnd (ACmp CGt (CLit "si::fps" "ft_pdl" 1) (CFlt "si" "J" (S754_finite false 12437565218213551908 (-68)))) (ACmp CLt (CLit "si::fps" "ft_pdl" 1) (CFlt "si" "J" (S754_finite false 12437565218214142204 (-68)))));
  (113, AAnd (ACmp CGt (CLit "si::fps" "ft_pdl_per_s" 1) (CFlt "si" "W" (S754_finite false 12437565218213551908 (-68)))) (ACmp CLt (CLit "si::fps" "ft_pdl_per_s" 1) (CFlt "si" "W" (S754_finite false 12437565218214142204 (-68)))));
  (115, AAnd (ACmp CGt (CLit "si::fps" "pdl_per_ft2" 1) (CFlt "si" "Pa" (S754_finite false 13725889702733430503 (-63)))) (ACmp CLt (CLit "si::fps" "pdl_per_ft2" 1) (CFlt "si" "Pa" (S754_finite false 13725889704578104911 (-63)))));
  (127, ACmp CEq (CBin CAdd (CMake (TNamed "si::dim_length" "si::metre" (RFlt F64)) (CNum (RInt I32) (NInt 1))) (CBin CMul (CNum (RInt I32) (NInt 1)) (CRef "si::fps" "ft"))) (CMake (TNamed "si::dim_length" "si::metre" (RFlt F64)) (CNum (RFlt F64) (NFlt (S754_finite false 5876296793793023 (-52))))));
  (128, ACmp CEq (CBin CAdd (CBin CMul (CNum (RInt I32) (NInt 1)) (CRef "si::fps" "ft")) (CMake (TNamed "si::dim_length" "si::metre" (RFlt F64)) (CNum (RInt I32) (NInt 1)))) (CMake (TNamed "si::dim_length" "si::metre" (RFlt F64)) (CNum (RFlt F64) (NFlt (S754_finite false 5876296793793023 (-52))))));
  (129, ACmp CEq (CBin CAdd (CCastTo (TNamed "si::dim_length" "si::metre" (RFlt F64)) (CBin CDiv (CBin CMul (CNum (RFlt F64) (NFlt (S754_finite false 4503599627370496 (-52)))) (CRef "si::fps" "ft")) (CNum (RFlt F64) (NFlt (S754_finite false 5490788665690109 (-54)))))) (CMake (TNamed "si::dim_length" "si::metre" (RFlt F64)) (CNum (RInt I32) (NInt 1)))) (CMake (TNamed "si::dim_length" "si::metre" (RFlt F64)) (CNum (RInt I32) (NInt 2))));
  (130, ACmp CEq (CBin CAdd (CMake (TNamed "si::dim_length" "si::metre" (RFlt F64)) (CNum (RInt I32) (NInt 1))) (CCastTo (TNamed "si::dim_length" "si::metre" (RFlt F64)) (CBin CDiv (CBin CMul (CNum (RFlt F64) (NFlt (S754_finite false 4503599627370496 (-52)))) (CRef "si::fps" "ft")) (CNum (RFlt F64) (NFlt (S754_finite false 5490788665690109 (-54))))))) (CMake (TNamed "si::dim_length" "si::metre" (RFlt F64)) (CNum (RInt I32) (NInt 2))));
  (131, ACmp CEq (CBin CAdd (CBin CMul (CNum (RInt I32) (NInt 1)) (CRef "si::fps" "ft")) (CCastTo (TNamed "si::fps::dim_length" "si::fps::foot" (RFlt F64)) (CMake (TNamed "si::dim_length" "si::metre" (RFlt F64)) (CNum (RFlt F64) (NFlt (S754_finite false 5490788665690109 (-54))))))) (CBin CMul (CNum (RInt I32) (NInt 2)) (CRef "si::fps" "ft")));
  (132, ACmp CEq (CBin CAdd (CCastTo (TNamed "si::fps::dim_length" "si::fps::foot" (RFlt F64)) (CMake (TNamed "si::dim_length" "si::metre" (RFlt F64)) (CNum (RFlt F64) (NFlt (S754_finite false 5490788665690109 (-54)))))) (CBin CMul (CNum (RInt I32) (NInt 1)) (CRef "si::fps" "ft"))) (CBin CMul (CNum (RInt I32) (NInt 2)) (CRef "si::fps" "ft")));
  (136, ACmp CEq (CBin CSub (CBin CMul (CNum (RInt I32) (NInt 1)) (CRef "si::fps" "ft")) (CMake (TNamed "si::dim_length" "si::metre" (RFlt F64)) (CNum (RInt I32) (NInt 1)))) (CNeg (CMake (TNamed "si::dim_length" "si::metre" (RFlt F64)) (CNum (RFlt F64) (NFlt (S754_finite false 6261804921895938 (-53)))))));
  (137, ACmp CEq (CBin CSub (CMake (TNamed "si::dim_length" "si::metre" (RFlt F64)) (CNum (RInt I32) (NInt 1))) (CBin CMul (CNum (RInt I32) (NInt 1)) (CRef "si::fps" "ft"))) (CMake (TNamed "si::dim_length" "si::metre" (RFlt F64)) (CNum (RFlt F64) (NFlt (S754_finite false 6261804921895938 (-53))))));
  (138, AAnd (ACmp CGt (CBin CSub (CCastTo (TNamed "si::dim_length" "si::metre" (RFlt F64)) (CBin CMul (CNum (RFlt F64) (NFlt (S754_finite false 6755399441055744 (-50)))) (CRef "si::fps" "ft"))) (CMake (TNamed "si::dim_length" "si::metre" (RFlt F64)) (CNum (RInt I32) (NInt 1)))) (CMake (TNamed "si::dim_length" "si::metre" (RFlt F64)) (CNum (RFlt F64) (NFlt (S754_finite false 7464266022403860 (-53)))))) (ACmp CLt (CBin CSub (CCastTo (TNamed "si::dim_length" "si::metre" (RFlt F64)) (CBin CMul (CNum (RFlt F64) (NFlt (S754_finite false 6755399441055744 (-50)))) (CRef "si::fps" "ft"))) (CMake (TNamed "si::dim_length" "si::metre" (RFlt F64)) (CNum (RInt I32) (NInt 1)))) (CMake (TNamed "si::dim_length" "si::metre" (RFlt F64)) (CNum (RFlt F64) (NFlt (S754_finite false 7466067462254808 (-53)))))));
  (140, ACmp CEq (CBin CSub (CMake (TNamed "si::dim_length" "si::metre" (RFlt F64)) (CNum (RInt I32) (NInt 5))) (CCastTo (TNamed "si::dim_length" "si::metre" (RFlt F64)) (CBin CMul (CNum (RInt I32) (NInt 6)) (CRef "si::fps" "ft")))) (CMake (TNamed "si::dim_length" "si::metre" (RFlt F64)) (CNum (RFlt F64) (NFlt (S754_finite false 7140907569158658 (-51))))));
  (141, ACmp CEq (CBin CSub (CBin CMul (CNum (RFlt F64) (NFlt (S754_finite false 6755399441055744 (-50)))) (CRef "si::fps" "ft")) (CCastTo (TNamed "si::fps::dim_length" "si::fps::foot" (RFlt F64)) (CMake (TNamed "si::dim_length" "si::metre" (RFlt F64)) (CNum (RFlt F64) (NFlt (S754_finite false 5490788665690109 (-54))))))) (CBin CMul (CNum (RFlt F64) (NFlt (S754_finite false 5629499534213120 (-50)))) (CRef "si::fps" "ft")));
  (142, ACmp CEq (CBin CSub (CCastTo (TNamed "si::fps::dim_length" "si::fps::foot" (RFlt F64)) (CMake (TNamed "si::dim_length" "si::metre" (RFlt F64)) (CNum (RFlt F64) (NFlt (S754_finite false 8236182998535163 (-52)))))) (CBin CMul (CNum (RFlt F64) (NFlt (S754_finite false 4503599627370496 (-52)))) (CRef "si::fps" "ft"))) (CBin CMul (CNum (RFlt F64) (NFlt (S754_finite false 5629499534213120 (-50)))) (CRef "si::fps" "ft")));
  (147, ACmp CEq (CBin CMul (CCastTo (TNamed "si::dim_length" "si::metre" (RFlt F64)) (CBin CMul (CNum (RFlt F64) (NFlt (S754_finite false 4503599627370496 (-51)))) (CRef "si::fps" "ft"))) (CMake (TNamed "si::dim_length" "si::metre" (RFlt F64)) (CNum (RInt I32) (NInt 2)))) (CMake (TNamed "si::dim_area" "si::square_metre" (RFlt F64)) (CNum (RFlt F64) (NFlt (S754_finite false 5490788665690109 (-52))))));
  (148, ACmp CEq (CBin CMul (CCastTo (TNamed "si::dim_length" "si::metre" (RFlt F64)) (CBin CMul (CNum (RFlt F64) (NFlt (S754_finite false 4503599627370496 (-51)))) (CRef "si::fps" "ft"))) (CMake (TNamed "si::dim_length" "si::metre" (RFlt F64)) (CNum (RFlt F64) (NFlt (S754_finite false 5490788665690109 (-53)))))) (CMake (TNamed "si::dim_area" "si::square_metre" (RFlt F64)) (CNum (RFlt F64) (NFlt (S754_finite false 6694369541209381 (-54))))));
  (149, ACmp CEq (CBin CMul (CBin CMul (CNum (RFlt F64) (NFlt (S754_finite false 4503599627370496 (-51)))) (CRef "si::fps" "ft")) (CCastTo (TNamed "si::fps::dim_length" "si::fps::foot" (RFlt F64)) (CMake (TNamed "si::dim_length" "si::metre" (RFlt F64)) (CNum (RFlt F64) (NFlt (S754_finite false 5490788665690109 (-53))))))) (CFlt "si::fps" "ft2" (S754_finite false 9223372036854775808 (-61))));
  (154, ACmp CEq (CBin CDiv (CMake (TNamed "si::dim_area" "si::square_metre" (RFlt F64)) (CNum (RFlt F64) (NFlt (S754_finite false 6694369541209381 (-52))))) (CCastTo (TNamed "si::dim_length" "si::metre" (RFlt F64)) (CBin CMul (CNum (RInt I32) (NInt 4)) (CRef "si::fps" "ft")))) (CMake (TNamed "si::dim_length" "si::metre" (RFlt F64)) (CNum (RFlt F64) (NFlt (S754_finite false 5490788665690109 (-52))))));
  (155, ACmp CEq (CBin CDiv (CCastTo (TNamed "si::fps::dim_area" "si::fps::square_foot" (RFlt F64)) (CMake (TNamed "si::dim_area" "si::square_metre" (RFlt F64)) (CNum (RFlt F64) (NFlt (S754_finite false 6694369541209381 (-52)))))) (CBin CMul (CNum (RFlt F64) (NFlt (S754_finite false 4503599627370496 (-50)))) (CRef "si::fps" "ft"))) (CBin CMul (CNum (RFlt F64) (NFlt (S754_finite false 4503599627370496 (-50)))) (CRef "si::fps" "ft")))].
Example si_fps_conforms : forall est, match compile est On ["isq/si/acceleration.h"; "isq/si/area.h"; "isq/si/energy.h"; "isq/si/force.h"; "isq/si/fps/fps.h"; "isq/si/length.h"; "isq/si/mass.h"; "isq/si/power.h"; "isq/si/pressure.h"; "isq/si/speed.h"; "isq/si/time.h"] with Ok e => failing est e si_fps_test | _ => [-1] end = [].
Proof. intros est. vm_compute. reflexivity. Qed.

(** test/unit_test/static/us_test.cpp: 7 of its assertions. *)
Definition us_test : list (Z * cassert) := [
  (39, ACmp CEq (CLit "si::international" "yd" 1) (CFlt "si" "m" (S754_finite false 16867702781000013998 (-64))));
  (40, ACmp CEq (CLit "si::international" "yd" 1) (CLit "si::international" "ft" 3));
  (41, ACmp CEq (CLit "si::international" "ft" 1) (CLit "si::international" "in" 12));
  (42, ACmp CEq (CLit "si::international" "mi" 1) (CLit "si::international" "yd" 1760));
  (44, ACmp CEq (CBin CAdd (CLit "si::international" "in" 5) (CLit "si" "cm" 8)) (CLit "si" "mm" 207));
  (51, ACmp CEq (CBin CDiv (CFlt "si::international" "mi" (S754_finite false 11529215046068469760 (-60))) (CLit "si" "h" 2)) (CLit "si::international" "mi_per_h" 5));
  (53, ASymbol "si::international::mile_per_hour" (ascii "mi/h"))].
Example us_conforms : forall est, match compile est On ["isq/si/international/length.h"; "isq/si/international/speed.h"; "isq/si/length.h"; "isq/si/time.h"] with Ok e => failing est e us_test | _ => [-1] end = [].
Proof. intros est. vm_compute. reflexivity. Qed.

(** test/unit_test/static/iec80000_test.cpp: 17 of its assertions. *)
Definition iec80000_test : list (Z * cassert) := [
  (35, ACmp CEq (CBin CMul (CNum (RInt I32) (NInt 1)) (CRef "iec80000" "B")) (CBin CMul (CNum (RInt I32) (NInt 8)) (CRef "iec80000" "bit")));
  (36, ACmp CEq (CBin CMul (CNum (RInt I32) (NInt 1024)) (CRef "iec80000" "bit")) (CBin CMul (CNum (RInt I32) (NInt 1)) (CRef "iec80000" "Kibit")));
  (37, ACmp CEq (CBin CMul (CNum (RInt I32) (NInt 1024)) (CRef "iec80000" "B")) (CBin CMul (CNum (RInt I32) (NInt 1)) (CRef "iec80000" "KiB")));
  (38, ACmp CEq (CBin CMul (CBin CMul (CNum (RInt I32) (NInt 8)) (CNum (RInt I32) (NInt 1024))) (CRef "iec80000" "bit")) (CBin CMul (CNum (RInt I32) (NInt 1)) (CRef "iec80000" "KiB")));
  (39, ACmp CEq (CBin CMul (CBin CMul (CNum (RInt I32) (NInt 8)) (CNum (RInt I32) (NInt 1))) (CRef "iec80000" "Kibit")) (CBin CMul (CNum (RInt I32) (NInt 1)) (CRef "iec80000" "KiB")));
  (41, ACmp CEq (CBin CMul (CNum (RInt I32) (NInt 1)) (CRef "iec80000" "kbit")) (CBin CMul (CNum (RInt I32) (NInt 1000)) (CRef "iec80000" "bit")));
  (42, ACmp CEq (CBin CMul (CNum (RInt I32) (NInt 2000)) (CRef "iec80000" "Mibit")) (CBin CMul (CNum (RInt I32) (NInt 2097152)) (CRef "iec80000" "kbit")));
  (44, ACmp CEq (CBin CMul (CNum (RInt I32) (NInt 1)) (CRef "iec80000" "Kibit")) (CBin CMul (CNum (RInt I32) (NInt 1024)) (CRef "iec80000" "bit")));
  (45, ACmp CEq (CBin CMul (CNum (RInt I32) (NInt 1)) (CRef "iec80000" "Mibit")) (CBin CMul (CNum (RInt I32) (NInt 1024)) (CRef "iec80000" "Kibit")));
  (46, ACmp CEq (CBin CMul (CNum (RInt I32) (NInt 1)) (CRef "iec80000" "Gibit")) (CBin CMul (CNum (RInt I32) (NInt 1024)) (CRef "iec80000" "Mibit")));
  (47, ACmp CEq (CBin CMul (CNum (RInt I32) (NInt 1)) (CRef "iec80000" "Tibit")) (CBin CMul (CNum (RInt I32) (NInt 1024)) (CRef "iec80000" "Gibit")));
  (48, ACmp CEq (CBin CMul (CNum (RInt I32) (NInt 1)) (CRef "iec80000" "Pibit")) (CBin CMul (CNum (RInt I32) (NInt 1024)) (CRef "iec80000" "Tibit")));
  (49, ACmp CEq (CBin CMul (CNum (RInt I32) (NInt 1)) (CRef "iec80000" "Eibit")) (CBin CMul (CNum (RInt I32) (NInt 1024)) (CRef "iec80000" "Pibit")));
  (53, ACmp CEq (CBin CDiv (CBin CMul (CNum (RInt I32) (NInt 16)) (CRef "iec80000" "B")) (CBin CMul (CNum (RInt I32) (NInt 2)) (CRef "si" "s"))) (CBin CMul (CNum (RInt I32) (NInt 8)) (CBin CDiv (CRef "iec80000" "B") (CRef "si" "s"))));
  (54, ACmp CEq (CBin CDiv (CBin CMul (CNum (RInt I32) (NInt 120)) (CRef "iec80000" "kB")) (CBin CMul (CNum (RInt I32) (NInt 2)) (CRef "si" "min"))) (CBin CMul (CNum (RInt I32) (NInt 1000)) (CBin CDiv (CRef "iec80000" "B") (CRef "si" "s"))));
  (58, ACmp CEq (CBin CDiv (CNum (RInt I32) (NInt 12)) (CBin CMul (CNum (RInt I32) (NInt 2)) (CRef "si" "s"))) (CBin CMul (CNum (RInt I32) (NInt 6)) (CRef "iec80000" "Bd")));
  (59, ACmp CEq (CBin CDiv (CNum (RInt I32) (NInt 6000)) (CBin CMul (CNum (RInt I32) (NInt 3)) (CRef "si" "s"))) (CBin CMul (CNum (RInt I32) (NInt 2)) (CRef "iec80000" "kBd")))].
Example iec80000_conforms : forall est, match compile est On ["isq/iec80000/iec80000.h"; "isq/si/time.h"] with Ok e => failing est e iec80000_test | _ => [-1] end = [].
Proof. intros est. vm_compute. reflexivity. Qed.

(** test/unit_test/static/cgs_test.cpp: 30 of its assertions. *)
Definition cgs_test : list (Z * cassert) := [
  (37, ASymbol "si::centimetre" (ascii "cm"));
  (47, ACmp CEq (CNumber (CBin CDiv (CLit "si::cgs" "cm" 10) (CLit "si" "s" 5))) (CNum (RInt I32) (NInt 2)));
  (48, ACmp CEq (CNumber (CLit "si::cgs" "cm_per_s" 2)) (CNum (RInt I32) (NInt 2)));
  (49, ACmp CEq (CBin CDiv (CLit "si::cgs" "cm" 10) (CLit "si" "s" 5)) (CLit "si::cgs" "cm_per_s" 2));
  (50, ACmp CEq (CBin CDiv (CLit "si::cgs" "cm" 10) (CLit "si::cgs" "cm_per_s" 2)) (CLit "si" "s" 5));
  (51, ACmp CEq (CLit "si::cgs" "cm" 10) (CBin CMul (CLit "si::cgs" "cm_per_s" 2) (CLit "si" "s" 5)));
  (53, AText "si::cgs::dim_speed" "si::cgs::centimetre_per_second" (ascii "cm/s"));
  (58, ACmp CEq (CNumber (CBin CMul (CLit "si::cgs" "cm" 1) (CLit "si::cgs" "cm" 1))) (CNum (RInt I32) (NInt 1)));
  (59, ACmp CEq (CNumber (CLit "si::cgs" "cm2" 1)) (CNum (RInt I32) (NInt 1)));
  (60, ACmp CEq (CBin CMul (CLit "si::cgs" "cm" 1) (CLit "si::cgs" "cm" 1)) (CLit "si::cgs" "cm2" 1));
  (61, ACmp CEq (CBin CMul (CLit "si::cgs" "cm" 100) (CLit "si::cgs" "cm" 100)) (CMake (TNamed "si::cgs::dim_area" "si::square_metre" (RFlt F64)) (CNum (RInt I32) (NInt 1))));
  (62, ACmp CEq (CBin CMul (CLit "si::cgs" "cm" 100) (CLit "si::cgs" "cm" 100)) (CBin CMul (CMake (TNamed "si::cgs::dim_length" "si::metre" (RFlt F64)) (CNum (RInt I32) (NInt 1))) (CMake (TNamed "si::cgs::dim_length" "si::metre" (RFlt F64)) (CNum (RInt I32) (NInt 1)))));
  (63, ACmp CEq (CBin CDiv (CLit "si::cgs" "cm2" 100) (CLit "si::cgs" "cm" 10)) (CLit "si::cgs" "cm" 10));
  (65, AText "si::cgs::dim_area" "si::square_centimetre" (SymbolText "cm²" "cm^2"));
  (71, ACmp CEq (CBin CDiv (CLit "si::cgs" "cm_per_s" 10) (CLit "si" "s" 10)) (CLit "si::cgs" "Gal" 1));
  (72, ACmp CEq (CBin CDiv (CLit "si::cgs" "cm_per_s" 10) (CLit "si::cgs" "Gal" 1)) (CLit "si" "s" 10));
  (73, ACmp CEq (CBin CMul (CLit "si::cgs" "Gal" 1) (CLit "si" "s" 10)) (CLit "si::cgs" "cm_per_s" 10));
  (77, ACmp CEq (CBin CMul (CLit "si::cgs" "g" 10) (CLit "si::cgs" "Gal" 10)) (CLit "si::cgs" "dyn" 100));
  (78, ACmp CEq (CBin CDiv (CLit "si::cgs" "dyn" 100) (CLit "si::cgs" "g" 10)) (CLit "si::cgs" "Gal" 10));
  (79, ACmp CEq (CBin CDiv (CLit "si::cgs" "dyn" 100) (CLit "si::cgs" "Gal" 10)) (CLit "si::cgs" "g" 10));
  (83, ACmp CEq (CBin CDiv (CLit "si::cgs" "dyn" 10) (CLit "si::cgs" "cm2" 10)) (CLit "si::cgs" "Ba" 1));
  (84, ACmp CEq (CBin CDiv (CLit "si::cgs" "dyn" 10) (CLit "si::cgs" "Ba" 1)) (CLit "si::cgs" "cm2" 10));
  (85, ACmp CEq (CBin CMul (CLit "si::cgs" "Ba" 1) (CLit "si::cgs" "cm2" 10)) (CLit "si::cgs" "dyn" 10));
  (89, ACmp CEq (CBin CMul (CLit "si::cgs" "dyn" 10) (CLit "si::cgs" "cm" 10)) (CLit "si::cgs" "erg" 100));
  (90, ACmp CEq (CBin CDiv (CLit "si::cgs" "erg" 100) (CLit "si::cgs" "cm" 10)) (CLit "si::cgs" "dyn" 10));
  (91, ACmp CEq (CBin CDiv (CLit "si::cgs" "erg" 100) (CLit "si::cgs" "dyn" 10)) (CLit "si::cgs" "cm" 10));
  (97, ACmp CEq (CBin CDiv (CLit "si::cgs" "erg" 10) (CLit "si" "s" 10)) (CLit "si::cgs" "erg_per_s" 1));
  (98, ACmp CEq (CBin CMul (CLit "si::cgs" "erg_per_s" 1) (CLit "si" "s" 10)) (CLit "si::cgs" "erg" 10));
  (99, ACmp CEq (CBin CDiv (CLit "si::cgs" "erg" 10) (CLit "si::cgs" "erg_per_s" 1)) (CLit "si" "s" 10));
  (101, AText "si::cgs::dim_power" "si::cgs::erg_per_second" (ascii "erg/s"))].
Example cgs_conforms : forall est, match compile est On ["isq/si/cgs/cgs.h"] with Ok e => failing est e cgs_test | _ => [-1] end = [].
Proof. intros est. vm_compute. reflexivity. Qed.

(** test/unit_test/static/fps_test.cpp: 27 of its assertions. *)
Definition fps_test : list (Z * cassert) := [
  (38, ASymbol "si::fps::foot" (ascii "ft"));
  (48, ACmp CEq (CBin CDiv (CLit "si::fps" "ft" 10) (CLit "si" "s" 5)) (CLit "si::fps" "ft_per_s" 2));
  (49, ACmp CEq (CBin CDiv (CLit "si::fps" "ft" 10) (CLit "si::fps" "ft_per_s" 2)) (CLit "si" "s" 5));
  (50, ACmp CEq (CLit "si::fps" "ft" 10) (CBin CMul (CLit "si::fps" "ft_per_s" 2) (CLit "si" "s" 5)));
  (52, AText "si::fps::dim_speed" "si::fps::foot_per_second" (ascii "ft/s"));
  (57, ACmp CEq (CBin CMul (CLit "si::fps" "ft" 1) (CLit "si::fps" "ft" 1)) (CLit "si::fps" "ft2" 1));
  (58, ACmp CEq (CBin CDiv (CLit "si::fps" "ft2" 100) (CLit "si::fps" "ft" 10)) (CLit "si::fps" "ft" 10));
  (60, AText "si::fps::dim_area" "si::fps::square_foot" (SymbolText "ft²" "ft^2"));
  (66, ACmp CEq (CBin CDiv (CLit "si::fps" "ft_per_s" 10) (CLit "si" "s" 10)) (CLit "si::fps" "ft_per_s2" 1));
  (67, ACmp CEq (CBin CDiv (CLit "si::fps" "ft_per_s" 10) (CLit "si::fps" "ft_per_s2" 1)) (CLit "si" "s" 10));
  (68, ACmp CEq (CBin CMul (CLit "si::fps" "ft_per_s2" 1) (CLit "si" "s" 10)) (CLit "si::fps" "ft_per_s" 10));
  (72, ACmp CEq (CBin CMul (CLit "si::fps" "lb" 10) (CLit "si::fps" "ft_per_s2" 10)) (CLit "si::fps" "pdl" 100));
  (73, ACmp CEq (CBin CDiv (CLit "si::fps" "pdl" 100) (CLit "si::fps" "lb" 10)) (CLit "si::fps" "ft_per_s2" 10));
  (74, ACmp CEq (CBin CDiv (CLit "si::fps" "pdl" 100) (CLit "si::fps" "ft_per_s2" 10)) (CLit "si::fps" "lb" 10));
  (77, ACmp CEq (CBin CDiv (CLit "si::fps" "pdl" 10) (CLit "si::fps" "ft2" 10)) (CLit "si::fps" "pdl_per_ft2" 1));
  (78, ACmp CEq (CBin CDiv (CLit "si::fps" "pdl" 10) (CLit "si::fps" "pdl_per_ft2" 1)) (CLit "si::fps" "ft2" 10));
  (79, ACmp CEq (CBin CMul (CLit "si::fps" "pdl_per_ft2" 1) (CLit "si::fps" "ft2" 10)) (CLit "si::fps" "pdl" 10));
  (83, ACmp CEq (CBin CMul (CLit "si::fps" "pdl" 10) (CLit "si::fps" "ft" 10)) (CLit "si::fps" "ft_pdl" 100));
  (84, ACmp CEq (CBin CDiv (CLit "si::fps" "ft_pdl" 100) (CLit "si::fps" "ft" 10)) (CLit "si::fps" "pdl" 10));
  (85, ACmp CEq (CBin CDiv (CLit "si::fps" "ft_pdl" 100) (CLit "si::fps" "pdl" 10)) (CLit "si::fps" "ft" 10));
  (87, AText "si::fps::dim_energy" "si::fps::foot_poundal" (SymbolText "ft ⋅ pdl" "ft pdl"));
  (88, AText "si::fps::dim_energy" "si::fps::foot_pound_force" (SymbolText "ft ⋅ lbf" "ft lbf"));
  (94, ACmp CEq (CBin CDiv (CLit "si::fps" "ft_pdl" 10) (CLit "si" "s" 10)) (CLit "si::fps" "ft_pdl_per_s" 1));
  (95, ACmp CEq (CBin CMul (CLit "si::fps" "ft_pdl_per_s" 1) (CLit "si" "s" 10)) (CLit "si::fps" "ft_pdl" 10));
  (96, ACmp CEq (CBin CDiv (CLit "si::fps" "ft_pdl" 10) (CLit "si::fps" "ft_pdl_per_s" 1)) (CLit "si" "s" 10));
  (98, AText "si::fps::dim_power" "si::fps::foot_poundal_per_second" (SymbolText "ft ⋅ pdl/s" "ft pdl/s"));
  (99, AText "si::fps::dim_power" "si::fps::foot_pound_force_per_second" (SymbolText "ft ⋅ lbf/s" "ft lbf/s"))].
Example fps_conforms : forall est, match compile est On ["isq/si/acceleration.h"; "isq/si/fps/fps.h"; "isq/si/time.h"] with Ok e => failing est e fps_test | _ => [-1] end = [].
Proof. intros est. vm_compute. reflexivity. Qed.

(** test/unit_test/static/quantity_test.cpp: 465 of its assertions. *)
Definition quantity_test : list (Z * cassert) := [
  (333, AIll (CAssign CAdd (CMake (TNamed "si::dim_length" "si::metre" (RInt I32)) (CNum (RInt I32) (NInt 1))) (CFlt "si" "m" (S754_finite false 11529215046068469760 (-62)))));
  (334, AIll (CAssign CSub (CMake (TNamed "si::dim_length" "si::metre" (RInt I32)) (CNum (RInt I32) (NInt 1))) (CFlt "si" "m" (S754_finite false 11529215046068469760 (-62)))));
  (335, AIll (CAssign CAdd (CMake (TNamed "si::dim_length" "si::kilometre" (RInt I32)) (CNum (RInt I32) (NInt 1))) (CMake (TNamed "si::dim_length" "si::metre" (RInt I32)) (CNum (RInt I32) (NInt 2)))));
  (336, AIll (CAssign CSub (CMake (TNamed "si::dim_length" "si::kilometre" (RInt I32)) (CNum (RInt I32) (NInt 1))) (CMake (TNamed "si::dim_length" "si::metre" (RInt I32)) (CNum (RInt I32) (NInt 2)))));
  (337, AIll (CAssign CRem (CMake (TNamed "si::dim_length" "si::kilometre" (RInt I32)) (CNum (RInt I32) (NInt 1))) (CMake (TNamed "si::dim_length" "si::metre" (RInt I32)) (CNum (RInt I32) (NInt 2)))));
  (338, AIll (CAssign CRem (CMake (TNamed "si::dim_length" "si::kilometre" (RInt I32)) (CNum (RInt I32) (NInt 1))) (CMake (TNamed "dim_one" "percent" (RInt I32)) (CNum (RInt I32) (NInt 2)))));
  (339, AIll (CAssign CRem (CMake (TNamed "si::dim_length" "si::kilometre" (RInt I32)) (CNum (RInt I32) (NInt 1))) (CMake (TNamed "dim_one" "percent" (RFlt F64)) (CNum (RInt I32) (NInt 2)))));
  (342, AIll (CAssign CMul (CMake (TNamed "si::dim_length" "si::kilometre" (RInt I32)) (CNum (RInt I32) (NInt 1))) (CBin CMul (CNum (RInt I32) (NInt 1)) (CBin CDiv (CRef "si" "km") (CRef "si" "m")))));
  (343, AIll (CAssign CDiv (CMake (TNamed "si::dim_length" "si::kilometre" (RInt I32)) (CNum (RInt I32) (NInt 1))) (CBin CMul (CNum (RInt I32) (NInt 1)) (CBin CDiv (CRef "si" "km") (CRef "si" "m")))));
  (344, AIll (CAssign CRem (CMake (TNamed "si::dim_length" "si::kilometre" (RInt I32)) (CNum (RInt I32) (NInt 1))) (CBin CMul (CNum (RInt I32) (NInt 1)) (CBin CDiv (CRef "si" "km") (CRef "si" "m")))));
  (347, AIll (CAssign CAdd (CMake (TNamed "si::dim_length" "si::metre" (RInt I32)) (CNum (RInt I32) (NInt 1))) (CNum (RInt I32) (NInt 2))));
  (348, AIll (CAssign CSub (CMake (TNamed "si::dim_length" "si::metre" (RInt I32)) (CNum (RInt I32) (NInt 1))) (CNum (RInt I32) (NInt 2))));
  (351, AIll (CAssign CMul (CMake (TNamed "si::dim_length" "si::metre" (RInt I32)) (CNum (RInt I32) (NInt 1))) (CLit "si" "m" 2)));
  (352, AIll (CAssign CDiv (CMake (TNamed "si::dim_length" "si::metre" (RInt I32)) (CNum (RInt I32) (NInt 1))) (CLit "si" "m" 2)));
  (355, AIll (CAssign CRem (CMake (TNamed "si::dim_length" "si::metre" (RFlt F64)) (CNum (RInt I32) (NInt 1))) (CNum (RFlt F64) (NFlt (S754_finite false 4503599627370496 (-51))))));
  (356, AIll (CAssign CRem (CMake (TNamed "si::dim_length" "si::metre" (RFlt F64)) (CNum (RInt I32) (NInt 1))) (CNum (RInt I32) (NInt 2))));
  (357, AIll (CAssign CRem (CMake (TNamed "si::dim_length" "si::metre" (RFlt F64)) (CNum (RInt I32) (NInt 1))) (CFlt "si" "m" (S754_finite false 9223372036854775808 (-62)))));
  (358, AIll (CAssign CRem (CMake (TNamed "si::dim_length" "si::metre" (RFlt F64)) (CNum (RInt I32) (NInt 1))) (CLit "si" "m" 2)));
  (359, AIll (CAssign CRem (CMake (TNamed "si::dim_length" "si::metre" (RInt I32)) (CNum (RInt I32) (NInt 1))) (CFlt "si" "m" (S754_finite false 9223372036854775808 (-62)))));
  (362, AIll (CAssign CAdd (CMake (TNamed "si::dim_length" "si::metre" (RInt I32)) (CNum (RInt I32) (NInt 1))) (CRef "si" "m")));
  (363, AIll (CAssign CSub (CMake (TNamed "si::dim_length" "si::metre" (RInt I32)) (CNum (RInt I32) (NInt 1))) (CRef "si" "m")));
  (364, AIll (CAssign CMul (CMake (TNamed "si::dim_length" "si::metre" (RInt I32)) (CNum (RInt I32) (NInt 1))) (CRef "si" "m")));
  (365, AIll (CAssign CDiv (CMake (TNamed "si::dim_length" "si::metre" (RInt I32)) (CNum (RInt I32) (NInt 1))) (CRef "si" "m")));
  (366, AIll (CAssign CRem (CMake (TNamed "si::dim_length" "si::metre" (RInt I32)) (CNum (RInt I32) (NInt 1))) (CRef "si" "m")));
  (378, AIll (CBin CAdd (CLit "si" "s" 1) (CMake (TNamed "si::dim_length" "si::metre" (RInt I32)) (CNum (RInt I32) (NInt 1)))));
  (379, AIll (CBin CSub (CLit "si" "s" 1) (CMake (TNamed "si::dim_length" "si::metre" (RInt I32)) (CNum (RInt I32) (NInt 1)))));
  (382, AIll (CBin CRem (CMake (TNamed "si::dim_length" "si::metre" (RFlt F64)) (CNum (RInt I32) (NInt 1))) (CLit "si" "m" 2)));
  (383, AIll (CBin CRem (CLit "si" "m" 2) (CMake (TNamed "si::dim_length" "si::metre" (RFlt F64)) (CNum (RInt I32) (NInt 1)))));
  (384, AIll (CBin CRem (CMake (TNamed "si::dim_length" "si::metre" (RFlt F64)) (CNum (RInt I32) (NInt 1))) (CNum (RInt I32) (NInt 2))));
  (385, AIll (CBin CRem (CMake (TNamed "si::dim_length" "si::metre" (RFlt F64)) (CNum (RInt I32) (NInt 1))) (CMake (TNamed "si::dim_length" "si::metre" (RFlt F64)) (CNum (RInt I32) (NInt 1)))));
  (386, AIll (CBin CRem (CMake (TNamed "si::dim_length" "si::metre" (RFlt F64)) (CNum (RInt I32) (NInt 1))) (CMake (TNamed "si::dim_length" "si::metre" (RInt I32)) (CNum (RInt I32) (NInt 1)))));
  (387, AIll (CBin CRem (CMake (TNamed "si::dim_length" "si::metre" (RInt I32)) (CNum (RInt I32) (NInt 1))) (CMake (TNamed "si::dim_length" "si::metre" (RFlt F64)) (CNum (RInt I32) (NInt 1)))));
  (390, AIll (CBin CAdd (CMake (TNamed "si::dim_length" "si::metre" (RInt I32)) (CNum (RInt I32) (NInt 1))) (CRef "si" "m")));
  (391, AIll (CBin CSub (CMake (TNamed "si::dim_length" "si::metre" (RInt I32)) (CNum (RInt I32) (NInt 1))) (CRef "si" "m")));
  (392, AIll (CBin CRem (CMake (TNamed "si::dim_length" "si::metre" (RInt I32)) (CNum (RInt I32) (NInt 1))) (CRef "si" "m")));
  (393, AIll (CBin CAdd (CRef "si" "m") (CMake (TNamed "si::dim_length" "si::metre" (RInt I32)) (CNum (RInt I32) (NInt 1)))));
  (394, AIll (CBin CSub (CRef "si" "m") (CMake (TNamed "si::dim_length" "si::metre" (RInt I32)) (CNum (RInt I32) (NInt 1)))));
  (395, AIll (CBin CRem (CRef "si" "m") (CMake (TNamed "si::dim_length" "si::metre" (RInt I32)) (CNum (RInt I32) (NInt 1)))));
  (628, AIllCmp CEq (CLit "si" "s" 1) (CMake (TNamed "si::dim_length" "si::metre" (RInt I32)) (CNum (RInt I32) (NInt 1))));
  (629, AIllCmp CNe (CLit "si" "s" 1) (CMake (TNamed "si::dim_length" "si::metre" (RInt I32)) (CNum (RInt I32) (NInt 1))));
  (664, AIllCmp CLt (CLit "si" "s" 1) (CMake (TNamed "si::dim_length" "si::metre" (RInt I32)) (CNum (RInt I32) (NInt 1))));
  (665, AIllCmp CGt (CLit "si" "s" 1) (CMake (TNamed "si::dim_length" "si::metre" (RInt I32)) (CNum (RInt I32) (NInt 1))));
  (666, AIllCmp CLe (CLit "si" "s" 1) (CMake (TNamed "si::dim_length" "si::metre" (RInt I32)) (CNum (RInt I32) (NInt 1))));
  (667, AIllCmp CGe (CLit "si" "s" 1) (CMake (TNamed "si::dim_length" "si::metre" (RInt I32)) (CNum (RInt I32) (NInt 1))));
  (740, AIll (CBin CAdd (CNum (RInt I32) (NInt 1)) (CMake (TNamed "dim_one" "percent" (RInt I32)) (CNum (RInt I32) (NInt 1)))));
  (741, AIll (CBin CAdd (CMake (TNamed "dim_one" "percent" (RInt I32)) (CNum (RInt I32) (NInt 1))) (CNum (RInt I32) (NInt 1))));
  (100, AMember (TNamed "si::dim_length" "si::metre" (RInt I32)) "si::dim_length" "si::metre" (RInt I32));
  (101, AMember (TNamed "si::fps::dim_length" "si::fps::mile" (RFlt F64)) "si::fps::dim_length" "si::fps::mile" (RFlt F64));
  (102, AMember (TNamed "si::dim_length" "si::metre" (RInt I32)) "si::dim_length" "si::metre" (RInt I32));
  (103, AMember (TNamed "si::fps::dim_length" "si::fps::mile" (RFlt F64)) "si::fps::dim_length" "si::fps::mile" (RFlt F64));
  (104, AMember (TNamed "si::dim_length" "si::metre" (RInt I32)) "si::dim_length" "si::metre" (RInt I32));
  (105, AMember (TNamed "si::fps::dim_length" "si::fps::mile" (RFlt F64)) "si::fps::dim_length" "si::fps::mile" (RFlt F64));
  (112, ACmp CEq (CNumber (CStatic q_zero (TNamed "si::dim_length" "si::metre" (RInt I32)))) (CNum (RInt I32) (NInt 0)));
  (113, ACmp CEq (CNumber (CStatic q_min (TNamed "si::dim_length" "si::metre" (RInt I32)))) (CNum (RInt I32) (NInt (-2147483648))));
  (114, ACmp CEq (CNumber (CStatic q_max (TNamed "si::dim_length" "si::metre" (RInt I32)))) (CNum (RInt I32) (NInt 2147483647)));
  (115, ACmp CEq (CNumber (CStatic q_zero (TNamed "si::dim_length" "si::metre" (RFlt F64)))) (CNum (RFlt F64) (NFlt (S754_zero false))));
  (116, ACmp CEq (CNumber (CStatic q_min (TNamed "si::dim_length" "si::metre" (RFlt F64)))) (CNum (RFlt F64) (NFlt (S754_finite true 9007199254740991 971))));
  (117, ACmp CEq (CNumber (CStatic q_max (TNamed "si::dim_length" "si::metre" (RFlt F64)))) (CNum (RFlt F64) (NFlt (S754_finite false 9007199254740991 971))));
  (125, AWell (CMake (TNamed "si::dim_length" "si::metre" (RFlt F64)) (CNum (RFlt F64) (NFlt (S754_finite false 4503599627370496 (-52))))));
  (126, AIll (CImplicit (TNamed "si::dim_length" "si::metre" (RFlt F64)) (CNum (RFlt F64) (NFlt (S754_finite false 4503599627370496 (-52))))));
  (128, AWell (CMake (TNamed "si::dim_length" "si::metre" (RFlt F64)) (CNum (RFlt F32) (NFlt (S754_finite false 8388608 (-23))))));
  (129, AIll (CImplicit (TNamed "si::dim_length" "si::metre" (RFlt F64)) (CNum (RFlt F32) (NFlt (S754_finite false 8388608 (-23))))));
  (131, AWell (CMake (TNamed "si::dim_length" "si::metre" (RFlt F32)) (CNum (RFlt F64) (NFlt (S754_finite false 4503599627370496 (-52))))));
  (132, AIll (CImplicit (TNamed "si::dim_length" "si::metre" (RFlt F32)) (CNum (RFlt F64) (NFlt (S754_finite false 4503599627370496 (-52))))));
  (134, AWell (CMake (TNamed "si::dim_length" "si::metre" (RFlt F64)) (CNum (RInt I32) (NInt 1))));
  (135, AIll (CImplicit (TNamed "si::dim_length" "si::metre" (RFlt F64)) (CNum (RInt I32) (NInt 1))));
  (137, AWell (CMake (TNamed "si::dim_length" "si::metre" (RFlt F64)) (CNum (RInt (ITy W16 true)) (NInt 1))));
  (138, AIll (CImplicit (TNamed "si::dim_length" "si::metre" (RFlt F64)) (CNum (RInt (ITy W16 true)) (NInt 1))));
  (140, AWell (CMake (TNamed "si::dim_length" "si::metre" (RInt (ITy W16 true))) (CNum (RInt I32) (NInt 1))));
  (141, AIll (CImplicit (TNamed "si::dim_length" "si::metre" (RInt (ITy W16 true))) (CNum (RInt I32) (NInt 1))));
  (144, AWell (CMake (TNamed "dim_one" "one" (RFlt F64)) (CNum (RFlt F64) (NFlt (S754_finite false 4503599627370496 (-52))))));
  (145, AWell (CImplicit (TNamed "dim_one" "one" (RFlt F64)) (CNum (RFlt F64) (NFlt (S754_finite false 4503599627370496 (-52))))));
  (147, AWell (CMake (TNamed "dim_one" "one" (RFlt F64)) (CNum (RFlt F32) (NFlt (S754_finite false 8388608 (-23))))));
  (148, AWell (CImplicit (TNamed "dim_one" "one" (RFlt F64)) (CNum (RFlt F32) (NFlt (S754_finite false 8388608 (-23))))));
  (150, AWell (CMake (TNamed "dim_one" "one" (RFlt F32)) (CNum (RFlt F64) (NFlt (S754_finite false 4503599627370496 (-52))))));
  (151, AWell (CImplicit (TNamed "dim_one" "one" (RFlt F32)) (CNum (RFlt F64) (NFlt (S754_finite false 4503599627370496 (-52))))));
  (153, AWell (CMake (TNamed "dim_one" "one" (RFlt F64)) (CNum (RInt I32) (NInt 1))));
  (154, AWell (CImplicit (TNamed "dim_one" "one" (RFlt F64)) (CNum (RInt I32) (NInt 1))));
  (156, AWell (CMake (TNamed "dim_one" "one" (RFlt F64)) (CNum (RInt (ITy W16 true)) (NInt 1))));
  (157, AWell (CImplicit (TNamed "dim_one" "one" (RFlt F64)) (CNum (RInt (ITy W16 true)) (NInt 1))));
  (159, AWell (CMake (TNamed "dim_one" "one" (RInt (ITy W16 true))) (CNum (RInt I32) (NInt 1))));
  (160, AWell (CImplicit (TNamed "dim_one" "one" (RInt (ITy W16 true))) (CNum (RInt I32) (NInt 1))));
  (163, AWell (CMake (TNamed "dim_one" "percent" (RFlt F64)) (CNum (RFlt F64) (NFlt (S754_finite false 4503599627370496 (-52))))));
  (164, AIll (CImplicit (TNamed "dim_one" "percent" (RFlt F64)) (CNum (RFlt F64) (NFlt (S754_finite false 4503599627370496 (-52))))));
  (166, AWell (CMake (TNamed "dim_one" "percent" (RFlt F64)) (CNum (RFlt F32) (NFlt (S754_finite false 8388608 (-23))))));
  (167, AIll (CImplicit (TNamed "dim_one" "percent" (RFlt F64)) (CNum (RFlt F32) (NFlt (S754_finite false 8388608 (-23))))));
  (169, AWell (CMake (TNamed "dim_one" "percent" (RFlt F32)) (CNum (RFlt F64) (NFlt (S754_finite false 4503599627370496 (-52))))));
  (170, AIll (CImplicit (TNamed "dim_one" "percent" (RFlt F32)) (CNum (RFlt F64) (NFlt (S754_finite false 4503599627370496 (-52))))));
  (172, AWell (CMake (TNamed "dim_one" "percent" (RFlt F64)) (CNum (RInt I32) (NInt 1))));
  (173, AIll (CImplicit (TNamed "dim_one" "percent" (RFlt F64)) (CNum (RInt I32) (NInt 1))));
  (175, AWell (CMake (TNamed "dim_one" "percent" (RFlt F64)) (CNum (RInt (ITy W16 true)) (NInt 1))));
  (176, AIll (CImplicit (TNamed "dim_one" "percent" (RFlt F64)) (CNum (RInt (ITy W16 true)) (NInt 1))));
  (178, AWell (CMake (TNamed "dim_one" "percent" (RInt (ITy W16 true))) (CNum (RInt I32) (NInt 1))));
  (179, AIll (CImplicit (TNamed "dim_one" "percent" (RInt (ITy W16 true))) (CNum (RInt I32) (NInt 1))));
  (182, AIll (CMake (TNamed "si::dim_length" "si::metre" (RInt I32)) (CNum (RFlt F64) (NFlt (S754_finite false 4503599627370496 (-52))))));
  (183, AIll (CImplicit (TNamed "si::dim_length" "si::metre" (RInt I32)) (CNum (RFlt F64) (NFlt (S754_finite false 4503599627370496 (-52))))));
  (185, AIll (CMake (TNamed "dim_one" "one" (RInt I32)) (CNum (RFlt F64) (NFlt (S754_finite false 4503599627370496 (-52))))));
  (186, AIll (CImplicit (TNamed "dim_one" "one" (RInt I32)) (CNum (RFlt F64) (NFlt (S754_finite false 4503599627370496 (-52))))));
  (188, ACmp CEq (CNumber (CMake (TNamed "si::dim_length" "si::metre" (RInt I32)) (CNum (RInt I32) (NInt 0)))) (CNum (RInt I32) (NInt 0)));
  (189, ACmp CEq (CNumber (CMake (TNamed "si::dim_length" "si::metre" (RInt I32)) (CNum (RInt I32) (NInt 1)))) (CNum (RInt I32) (NInt 1)));
  (190, ACmp CEq (CNumber (CMake (TNamed "si::dim_length" "si::metre" (RFlt F64)) (CNum (RFlt F64) (NFlt (S754_finite false 4503599627370496 (-52)))))) (CNum (RFlt F64) (NFlt (S754_finite false 4503599627370496 (-52)))));
  (191, ACmp CEq (CNumber (CMake (TNamed "si::dim_length" "si::metre" (RFlt F64)) (CNum (RInt I32) (NInt 1)))) (CNum (RFlt F64) (NFlt (S754_finite false 4503599627370496 (-52)))));
  (192, ACmp CEq (CNumber (CMake (TNamed "si::dim_length" "si::metre" (RFlt F64)) (CNum (RFlt F64) (NFlt (S754_finite false 7070651414971679 (-51)))))) (CNum (RFlt F64) (NFlt (S754_finite false 7070651414971679 (-51)))));
  (200, AWell (CMake (TNamed "si::dim_length" "si::metre" (RFlt F64)) (CMake (TNamed "si::dim_length" "si::metre" (RFlt F64)) (CNum (RInt I32) (NInt 1)))));
  (201, AWell (CImplicit (TNamed "si::dim_length" "si::metre" (RFlt F64)) (CMake (TNamed "si::dim_length" "si::metre" (RFlt F64)) (CNum (RInt I32) (NInt 1)))));
  (202, AWell (CMake (TNamed "si::dim_length" "si::centimetre" (RFlt F64)) (CMake (TNamed "si::cgs::dim_length" "si::centimetre" (RFlt F64)) (CNum (RInt I32) (NInt 1)))));
  (203, AWell (CImplicit (TNamed "si::dim_length" "si::centimetre" (RFlt F64)) (CMake (TNamed "si::cgs::dim_length" "si::centimetre" (RFlt F64)) (CNum (RInt I32) (NInt 1)))));
  (204, AWell (CMake (TNamed "si::fps::dim_length" "si::fps::foot" (RFlt F64)) (CMake (TNamed "si::cgs::dim_length" "si::centimetre" (RFlt F64)) (CNum (RInt I32) (NInt 1)))));
  (205, AWell (CImplicit (TNamed "si::fps::dim_length" "si::fps::foot" (RFlt F64)) (CMake (TNamed "si::cgs::dim_length" "si::centimetre" (RFlt F64)) (CNum (RInt I32) (NInt 1)))));
  (208, AIll (CMake (TNamed "si::dim_length" "si::metre" (RFlt F64)) (CMake (TNamed "si::dim_time" "si::second" (RFlt F64)) (CNum (RInt I32) (NInt 1)))));
  (209, AIll (CImplicit (TNamed "si::dim_length" "si::metre" (RFlt F64)) (CMake (TNamed "si::dim_time" "si::second" (RFlt F64)) (CNum (RInt I32) (NInt 1)))));
  (210, AIll (CMake (TNamed "si::dim_length" "si::metre" (RFlt F64)) (CMake (TNamed "si::dim_speed" "si::metre_per_second" (RFlt F64)) (CNum (RInt I32) (NInt 1)))));
  (211, AIll (CImplicit (TNamed "si::dim_length" "si::metre" (RFlt F64)) (CMake (TNamed "si::dim_speed" "si::metre_per_second" (RFlt F64)) (CNum (RInt I32) (NInt 1)))));
  (214, AWell (CMake (TNamed "si::dim_length" "si::metre" (RFlt F64)) (CMake (TNamed "si::dim_length" "si::metre" (RInt I32)) (CNum (RInt I32) (NInt 1)))));
  (215, AWell (CImplicit (TNamed "si::dim_length" "si::metre" (RFlt F64)) (CMake (TNamed "si::dim_length" "si::metre" (RInt I32)) (CNum (RInt I32) (NInt 1)))));
  (217, AIll (CMake (TNamed "si::dim_length" "si::metre" (RInt I32)) (CMake (TNamed "si::dim_length" "si::metre" (RFlt F64)) (CNum (RInt I32) (NInt 1)))));
  (218, AIll (CImplicit (TNamed "si::dim_length" "si::metre" (RInt I32)) (CMake (TNamed "si::dim_length" "si::metre" (RFlt F64)) (CNum (RInt I32) (NInt 1)))));
  (220, AWell (CMake (TNamed "si::dim_length" "si::metre" (RInt I32)) (CMake (TNamed "si::dim_length" "si::kilometre" (RInt I32)) (CNum (RInt I32) (NInt 1)))));
  (221, AWell (CImplicit (TNamed "si::dim_length" "si::metre" (RInt I32)) (CMake (TNamed "si::dim_length" "si::kilometre" (RInt I32)) (CNum (RInt I32) (NInt 1)))));
  (223, AIll (CMake (TNamed "si::dim_length" "si::kilometre" (RInt I32)) (CMake (TNamed "si::dim_length" "si::metre" (RInt I32)) (CNum (RInt I32) (NInt 1)))));
  (224, AIll (CImplicit (TNamed "si::dim_length" "si::kilometre" (RInt I32)) (CMake (TNamed "si::dim_length" "si::metre" (RInt I32)) (CNum (RInt I32) (NInt 1)))));
  (227, AWell (CMake (TNamed "si::dim_length" "si::metre" (RFlt F64)) (CMake (TNamed "si::dim_length" "si::kilometre" (RInt I32)) (CNum (RInt I32) (NInt 1)))));
  (228, AWell (CImplicit (TNamed "si::dim_length" "si::metre" (RFlt F64)) (CMake (TNamed "si::dim_length" "si::kilometre" (RInt I32)) (CNum (RInt I32) (NInt 1)))));
  (229, AWell (CMake (TNamed "si::dim_length" "si::kilometre" (RFlt F64)) (CMake (TNamed "si::dim_length" "si::metre" (RInt I32)) (CNum (RInt I32) (NInt 1)))));
  (230, AWell (CImplicit (TNamed "si::dim_length" "si::kilometre" (RFlt F64)) (CMake (TNamed "si::dim_length" "si::metre" (RInt I32)) (CNum (RInt I32) (NInt 1)))));
  (232, ACmp CEq (CNumber (CMake (TNamed "si::dim_length" "si::metre" (RInt I32)) (CLit "si" "m" 123))) (CNum (RInt I32) (NInt 123)));
  (233, ACmp CEq (CNumber (CMake (TNamed "si::dim_length" "si::kilometre" (RInt I32)) (CLit "si" "km" 2))) (CNum (RInt I32) (NInt 2)));
  (234, ACmp CEq (CNumber (CMake (TNamed "si::dim_length" "si::metre" (RInt I32)) (CLit "si" "km" 2))) (CNum (RInt I32) (NInt 2000)));
  (235, ACmp CEq (CNumber (CMake (TNamed "si::dim_length" "si::kilometre" (RFlt F64)) (CLit "si" "m" 1500))) (CNum (RFlt F64) (NFlt (S754_finite false 6755399441055744 (-52)))));
  (254, AType (CQuantity (CMake (TNamed "si::dim_length" "si::metre" (RInt I32)) (CNum (RInt I32) (NInt 123)))) (TNamed "si::dim_length" "si::metre" (RInt I32)));
  (255, AType (CQuantity (CMake (TNamed "si::dim_speed" "si::metre_per_second" (RFlt F64)) (CNum (RInt I32) (NInt 123)))) (TNamed "si::dim_speed" "si::metre_per_second" (RFlt F64)));
  (257, AType (CQuantity (CLit "si" "m" 123)) (TNamed "si::dim_length" "si::metre" (RInt I64)));
  (258, AType (CQuantity (CNum (RInt I32) (NInt 1))) (TNamed "dim_one" "one" (RInt I32)));
  (259, AType (CQuantity (CNum (RFlt F64) (NFlt (S754_finite false 5539427541665710 (-52))))) (TNamed "dim_one" "one" (RFlt F64)));
  (274, ACmp CEq (CNumber (CPos (CLit "si" "m" 123))) (CNum (RInt I32) (NInt 123)));
  (275, ACmp CEq (CNumber (CNeg (CLit "si" "m" 123))) (CNeg (CNum (RInt I32) (NInt 123))));
  (276, ACmp CEq (CNumber (CPos (CNeg (CLit "si" "m" 123)))) (CNeg (CNum (RInt I32) (NInt 123))));
  (277, ACmp CEq (CNumber (CNeg (CNeg (CLit "si" "m" 123)))) (CNum (RInt I32) (NInt 123)));
  (279, AAnd (ACmp CEq (CStep true (CLit "si" "m" 123)) (CLit "si" "m" 124)) (ACmp CEq (CLit "si" "m" 123) (CLit "si" "m" 123)));
  (280, AAnd (ACmp CEq (CStep true (CLit "si" "m" 123)) (CLit "si" "m" 124)) (ACmp CEq (CStep true (CLit "si" "m" 123)) (CLit "si" "m" 124)));
  (281, AAnd (ACmp CEq (CStep false (CLit "si" "m" 123)) (CLit "si" "m" 122)) (ACmp CEq (CLit "si" "m" 123) (CLit "si" "m" 123)));
  (282, AAnd (ACmp CEq (CStep false (CLit "si" "m" 123)) (CLit "si" "m" 122)) (ACmp CEq (CStep false (CLit "si" "m" 123)) (CLit "si" "m" 122)));
  (284, ARep (CNumber (CPos (CBin CMul (CNum (RInt (ITy W16 true)) (NInt 0)) (CRef "si" "m")))) (RInt I32));
  (292, ACmp CEq (CNumber (CAssign CAdd (CLit "si" "m" 1) (CLit "si" "m" 1))) (CNum (RInt I32) (NInt 2)));
  (293, ACmp CEq (CNumber (CAssign CSub (CLit "si" "m" 2) (CLit "si" "m" 1))) (CNum (RInt I32) (NInt 1)));
  (294, ACmp CEq (CNumber (CAssign CMul (CLit "si" "m" 1) (CNum (RInt I32) (NInt 2)))) (CNum (RInt I32) (NInt 2)));
  (295, ACmp CEq (CNumber (CAssign CDiv (CLit "si" "m" 2) (CNum (RInt I32) (NInt 2)))) (CNum (RInt I32) (NInt 1)));
  (296, ACmp CEq (CNumber (CAssign CRem (CLit "si" "m" 7) (CNum (RInt I32) (NInt 2)))) (CNum (RInt I32) (NInt 1)));
  (297, ACmp CEq (CNumber (CAssign CMul (CLit "si" "m" 1) (CQuantity (CNum (RInt I32) (NInt 2))))) (CNum (RInt I32) (NInt 2)));
  (298, ACmp CEq (CNumber (CAssign CDiv (CLit "si" "m" 2) (CQuantity (CNum (RInt I32) (NInt 2))))) (CNum (RInt I32) (NInt 1)));
  (299, ACmp CEq (CNumber (CAssign CRem (CLit "si" "m" 7) (CQuantity (CNum (RInt I32) (NInt 2))))) (CNum (RInt I32) (NInt 1)));
  (300, ACmp CEq (CNumber (CAssign CRem (CLit "si" "m" 7) (CLit "si" "m" 2))) (CNum (RInt I32) (NInt 1)));
  (303, ACmp CEq (CNumber (CAssign CAdd (CFlt "si" "m" (S754_finite false 11529215046068469760 (-62))) (CLit "si" "m" 3))) (CNum (RFlt F64) (NFlt (S754_finite false 6192449487634432 (-50)))));
  (304, ACmp CEq (CNumber (CAssign CAdd (CLit "si" "m" 123) (CLit "si" "km" 1))) (CNum (RInt I32) (NInt 1123)));
  (305, ACmp CEq (CNumber (CAssign CSub (CFlt "si" "m" (S754_finite false 12682136550675316736 (-61))) (CLit "si" "m" 3))) (CNum (RFlt F64) (NFlt (S754_finite false 5629499534213120 (-51)))));
  (306, ACmp CEq (CNumber (CAssign CSub (CLit "si" "m" 1123) (CLit "si" "km" 1))) (CNum (RInt I32) (NInt 123)));
  (307, ACmp CEq (CNumber (CAssign CMul (CFlt "si" "m" (S754_finite false 11529215046068469760 (-62))) (CNum (RInt I32) (NInt 3)))) (CNum (RFlt F64) (NFlt (S754_finite false 8444249301319680 (-50)))));
  (308, ACmp CEq (CNumber (CAssign CDiv (CFlt "si" "m" (S754_finite false 17293822569102704640 (-61))) (CNum (RInt I32) (NInt 3)))) (CNum (RFlt F64) (NFlt (S754_finite false 5629499534213120 (-51)))));
  (309, ACmp CEq (CNumber (CAssign CMul (CFlt "si" "m" (S754_finite false 11529215046068469760 (-62))) (CQuantity (CNum (RInt I32) (NInt 3))))) (CNum (RFlt F64) (NFlt (S754_finite false 8444249301319680 (-50)))));
  (310, ACmp CEq (CNumber (CAssign CDiv (CFlt "si" "m" (S754_finite false 17293822569102704640 (-61))) (CQuantity (CNum (RInt I32) (NInt 3))))) (CNum (RFlt F64) (NFlt (S754_finite false 5629499534213120 (-51)))));
  (311, ACmp CEq (CNumber (CAssign CRem (CLit "si" "m" 3500) (CLit "si" "km" 1))) (CNum (RInt I32) (NInt 500)));
  (313, ACmp CEq (CNumber (CAssign CRem (CBin CMul (CNum (RInt (ITy W8 false)) (NInt 255)) (CRef "si" "m")) (CNum (RInt I32) (NInt 256)))) (CNum (RInt (ITy W8 false)) (NInt 255)));
  (314, ACmp CEq (CNumber (CAssign CRem (CBin CMul (CNum (RInt (ITy W8 false)) (NInt 255)) (CRef "si" "m")) (CQuantity (CNum (RInt I32) (NInt 256))))) (CNum (RInt (ITy W8 false)) (NInt 255)));
  (316, ACmp CEq (CNumber (CAssign CRem (CBin CMul (CNum (RInt (ITy W8 false)) (NInt 255)) (CRef "si" "m")) (CNum (RInt I32) (NInt 257)))) (CNum (RInt (ITy W8 false)) (NInt 255)));
  (317, ACmp CEq (CNumber (CAssign CRem (CBin CMul (CNum (RInt (ITy W8 false)) (NInt 255)) (CRef "si" "m")) (CQuantity (CNum (RInt I32) (NInt 257))))) (CNum (RInt (ITy W8 false)) (NInt 255)));
  (319, ACmp CNe (CNumber (CAssign CRem (CBin CMul (CNum (RInt (ITy W8 false)) (NInt 255)) (CRef "si" "m")) (CBin CMul (CNum (RInt I32) (NInt 257)) (CRef "si" "m")))) (CNum (RInt (ITy W8 false)) (NInt 255)));
  (324, ACmp CEq (CNumber (CAssign CMul (CLit "si" "m" 22) (CNum (RFlt F64) (NFlt (S754_finite false 4690780486883082 (-47)))))) (CNum (RInt I32) (NInt 733)));
  (325, ACmp CEq (CNumber (CAssign CDiv (CLit "si" "m" 22) (CNum (RFlt F64) (NFlt (S754_finite false 7498493379571876 (-51)))))) (CNum (RInt I32) (NInt 6)));
  (326, ACmp CEq (CNumber (CAssign CMul (CLit "si" "m" 22) (CQuantity (CNum (RFlt F64) (NFlt (S754_finite false 4690780486883082 (-47))))))) (CNum (RInt I32) (NInt 733)));
  (327, ACmp CEq (CNumber (CAssign CDiv (CLit "si" "m" 22) (CQuantity (CNum (RFlt F64) (NFlt (S754_finite false 7498493379571876 (-51))))))) (CNum (RInt I32) (NInt 6)));
  (400, AType (CBin CAdd (CLit "si" "m" 1) (CLit "si" "m" 1)) (TNamed "si::dim_length" "si::metre" (RInt I64)));
  (401, AType (CBin CSub (CLit "si" "m" 1) (CLit "si" "m" 1)) (TNamed "si::dim_length" "si::metre" (RInt I64)));
  (402, AType (CBin CMul (CLit "si" "m" 1) (CNum (RInt I32) (NInt 1))) (TNamed "si::dim_length" "si::metre" (RInt I64)));
  (403, AType (CBin CMul (CLit "si" "m" 1) (CQuantity (CNum (RInt I32) (NInt 1)))) (TNamed "si::dim_length" "si::metre" (RInt I64)));
  (404, AType (CBin CMul (CNum (RInt I32) (NInt 1)) (CLit "si" "m" 1)) (TNamed "si::dim_length" "si::metre" (RInt I64)));
  (405, AType (CBin CMul (CQuantity (CNum (RInt I32) (NInt 1))) (CLit "si" "m" 1)) (TNamed "si::dim_length" "si::metre" (RInt I64)));
  (406, AType (CBin CDiv (CLit "si" "m" 1) (CNum (RInt I32) (NInt 1))) (TNamed "si::dim_length" "si::metre" (RInt I64)));
  (407, AType (CBin CDiv (CLit "si" "m" 1) (CQuantity (CNum (RInt I32) (NInt 1)))) (TNamed "si::dim_length" "si::metre" (RInt I64)));
  (408, AType (CBin CRem (CLit "si" "m" 1) (CNum (RInt I32) (NInt 1))) (TNamed "si::dim_length" "si::metre" (RInt I64)));
  (409, AType (CBin CRem (CLit "si" "m" 1) (CQuantity (CNum (RInt I32) (NInt 1)))) (TNamed "si::dim_length" "si::metre" (RInt I64)));
  (410, AType (CBin CRem (CLit "si" "m" 1) (CLit "si" "m" 1)) (TNamed "si::dim_length" "si::metre" (RInt I64)));
  (411, AType (CBin CMul (CLit "si" "m" 1) (CMake (TNamed "dim_one" "percent" (RInt I64)) (CNum (RInt I32) (NInt 1)))) (TNamed "si::dim_length" "si::centimetre" (RInt I64)));
  (412, AType (CBin CMul (CMake (TNamed "dim_one" "percent" (RInt I64)) (CNum (RInt I32) (NInt 1))) (CLit "si" "m" 1)) (TNamed "si::dim_length" "si::centimetre" (RInt I64)));
  (413, AType (CBin CDiv (CLit "si" "m" 1) (CMake (TNamed "dim_one" "percent" (RInt I64)) (CNum (RInt I32) (NInt 1)))) (TNamed "si::dim_length" "si::hectometre" (RInt I64)));
  (414, AType (CBin CRem (CLit "si" "m" 1) (CMake (TNamed "dim_one" "percent" (RInt I64)) (CNum (RInt I32) (NInt 1)))) (TNamed "si::dim_length" "si::metre" (RInt I64)));
  (415, AType (CBin CMul (CLit "si" "m" 1) (CLit "si" "m" 1)) (TNamed "si::dim_area" "si::square_metre" (RInt I64)));
  (416, AType (CBin CDiv (CLit "si" "m" 1) (CLit "si" "m" 1)) (TNamed "dim_one" "one" (RInt I64)));
  (417, AType (CBin CDiv (CNum (RInt I32) (NInt 1)) (CLit "si" "s" 1)) (TNamed "si::dim_frequency" "si::hertz" (RInt I64)));
  (418, AType (CBin CDiv (CQuantity (CNum (RInt I32) (NInt 1))) (CLit "si" "s" 1)) (TNamed "si::dim_frequency" "si::hertz" (RInt I64)));
  (419, AType (CBin CDiv (CMake (TNamed "dim_one" "percent" (RInt I64)) (CNum (RInt I32) (NInt 1))) (CLit "si" "s" 1)) (TScaled "si::dim_frequency" 1 100 0 "si::hertz" (RInt I64)));
  (421, ARep (CNumber (CBin CAdd (CBin CMul (CNum (RInt (ITy W8 false)) (NInt 0)) (CRef "si" "m")) (CBin CMul (CNum (RInt (ITy W8 false)) (NInt 0)) (CRef "si" "m")))) (RInt I32));
  (422, ARep (CNumber (CBin CSub (CBin CMul (CNum (RInt (ITy W8 false)) (NInt 0)) (CRef "si" "m")) (CBin CMul (CNum (RInt (ITy W8 false)) (NInt 0)) (CRef "si" "m")))) (RInt I32));
  (423, ACmp CEq (CNumber (CBin CAdd (CBin CMul (CNum (RInt (ITy W8 false)) (NInt 128)) (CRef "si" "m")) (CBin CMul (CNum (RInt (ITy W8 false)) (NInt 128)) (CRef "si" "m")))) (CBin CAdd (CNum (RInt (ITy W8 false)) (NInt 128)) (CNum (RInt (ITy W8 false)) (NInt 128))));
  (424, ACmp CEq (CNumber (CBin CSub (CBin CMul (CNum (RInt (ITy W8 false)) (NInt 0)) (CRef "si" "m")) (CBin CMul (CNum (RInt (ITy W8 false)) (NInt 1)) (CRef "si" "m")))) (CBin CSub (CNum (RInt (ITy W8 false)) (NInt 0)) (CNum (RInt (ITy W8 false)) (NInt 1))));
  (426, ARep (CNumber (CBin CRem (CBin CMul (CNum (RInt (ITy W8 false)) (NInt 1)) (CRef "si" "m")) (CBin CMul (CNum (RInt (ITy W8 false)) (NInt 1)) (CRef "si" "m")))) (RInt I32));
  (430, AType (CBin CAdd (CLit "si" "m" 1) (CFlt "si" "m" (S754_finite false 9223372036854775808 (-63)))) (TNamed "si::dim_length" "si::metre" (RFlt F80)));
  (431, AType (CBin CSub (CLit "si" "m" 1) (CFlt "si" "m" (S754_finite false 9223372036854775808 (-63)))) (TNamed "si::dim_length" "si::metre" (RFlt F80)));
  (432, AType (CBin CMul (CLit "si" "m" 1) (CNum (RFlt F80) (NFlt (S754_finite false 9223372036854775808 (-63))))) (TNamed "si::dim_length" "si::metre" (RFlt F80)));
  (433, AType (CBin CMul (CNum (RInt I32) (NInt 1)) (CFlt "si" "m" (S754_finite false 9223372036854775808 (-63)))) (TNamed "si::dim_length" "si::metre" (RFlt F80)));
  (434, AType (CBin CMul (CLit "si" "m" 1) (CQuantity (CNum (RFlt F80) (NFlt (S754_finite false 9223372036854775808 (-63)))))) (TNamed "si::dim_length" "si::metre" (RFlt F80)));
  (435, AType (CBin CMul (CQuantity (CNum (RInt I32) (NInt 1))) (CFlt "si" "m" (S754_finite false 9223372036854775808 (-63)))) (TNamed "si::dim_length" "si::metre" (RFlt F80)));
  (436, AType (CBin CDiv (CLit "si" "m" 1) (CNum (RFlt F80) (NFlt (S754_finite false 9223372036854775808 (-63))))) (TNamed "si::dim_length" "si::metre" (RFlt F80)));
  (437, AType (CBin CDiv (CLit "si" "m" 1) (CQuantity (CNum (RFlt F80) (NFlt (S754_finite false 9223372036854775808 (-63)))))) (TNamed "si::dim_length" "si::metre" (RFlt F80)));
  (438, AType (CBin CMul (CLit "si" "m" 1) (CMake (TNamed "dim_one" "percent" (RFlt F80)) (CNum (RInt I32) (NInt 1)))) (TNamed "si::dim_length" "si::centimetre" (RFlt F80)));
  (439, AType (CBin CMul (CMake (TNamed "dim_one" "percent" (RInt I64)) (CNum (RInt I32) (NInt 1))) (CFlt "si" "m" (S754_finite false 9223372036854775808 (-63)))) (TNamed "si::dim_length" "si::centimetre" (RFlt F80)));
  (440, AType (CBin CMul (CLit "si" "m" 1) (CFlt "si" "m" (S754_finite false 9223372036854775808 (-63)))) (TNamed "si::dim_area" "si::square_metre" (RFlt F80)));
  (441, AType (CBin CDiv (CLit "si" "m" 1) (CMake (TNamed "dim_one" "percent" (RFlt F80)) (CNum (RInt I32) (NInt 1)))) (TNamed "si::dim_length" "si::hectometre" (RFlt F80)));
  (442, AType (CBin CDiv (CLit "si" "m" 1) (CFlt "si" "m" (S754_finite false 9223372036854775808 (-63)))) (TNamed "dim_one" "one" (RFlt F80)));
  (443, AType (CBin CDiv (CNum (RInt I32) (NInt 1)) (CFlt "si" "s" (S754_finite false 9223372036854775808 (-63)))) (TNamed "si::dim_frequency" "si::hertz" (RFlt F80)));
  (444, AType (CBin CDiv (CQuantity (CNum (RInt I32) (NInt 1))) (CFlt "si" "s" (S754_finite false 9223372036854775808 (-63)))) (TNamed "si::dim_frequency" "si::hertz" (RFlt F80)));
  (445, AType (CBin CDiv (CMake (TNamed "dim_one" "percent" (RInt I64)) (CNum (RInt I32) (NInt 1))) (CFlt "si" "s" (S754_finite false 9223372036854775808 (-63)))) (TScaled "si::dim_frequency" 1 100 0 "si::hertz" (RFlt F80)));
  (446, AType (CBin CRem (CLit "si" "m" 1) (CNum (RInt (ITy W16 true)) (NInt 1))) (TNamed "si::dim_length" "si::metre" (RInt I64)));
  (447, AType (CBin CRem (CLit "si" "m" 1) (CQuantity (CNum (RInt (ITy W16 true)) (NInt 1)))) (TNamed "si::dim_length" "si::metre" (RInt I64)));
  (448, AType (CBin CRem (CLit "si" "m" 1) (CMake (TNamed "dim_one" "percent" (RInt (ITy W16 true))) (CNum (RInt I32) (NInt 1)))) (TNamed "si::dim_length" "si::metre" (RInt I64)));
  (449, AType (CBin CRem (CLit "si" "m" 1) (CMake (TNamed "si::dim_length" "si::metre" (RInt (ITy W16 true))) (CNum (RInt I32) (NInt 1)))) (TNamed "si::dim_length" "si::metre" (RInt I64)));
  (451, AType (CBin CAdd (CFlt "si" "m" (S754_finite false 9223372036854775808 (-63))) (CLit "si" "m" 1)) (TNamed "si::dim_length" "si::metre" (RFlt F80)));
  (452, AType (CBin CSub (CFlt "si" "m" (S754_finite false 9223372036854775808 (-63))) (CLit "si" "m" 1)) (TNamed "si::dim_length" "si::metre" (RFlt F80)));
  (453, AType (CBin CMul (CFlt "si" "m" (S754_finite false 9223372036854775808 (-63))) (CNum (RInt I32) (NInt 1))) (TNamed "si::dim_length" "si::metre" (RFlt F80)));
  (454, AType (CBin CMul (CNum (RFlt F80) (NFlt (S754_finite false 9223372036854775808 (-63)))) (CLit "si" "m" 1)) (TNamed "si::dim_length" "si::metre" (RFlt F80)));
  (455, AType (CBin CMul (CFlt "si" "m" (S754_finite false 9223372036854775808 (-63))) (CQuantity (CNum (RInt I32) (NInt 1)))) (TNamed "si::dim_length" "si::metre" (RFlt F80)));
  (456, AType (CBin CMul (CQuantity (CNum (RFlt F80) (NFlt (S754_finite false 9223372036854775808 (-63))))) (CLit "si" "m" 1)) (TNamed "si::dim_length" "si::metre" (RFlt F80)));
  (457, AType (CBin CDiv (CFlt "si" "m" (S754_finite false 9223372036854775808 (-63))) (CNum (RInt I32) (NInt 1))) (TNamed "si::dim_length" "si::metre" (RFlt F80)));
  (458, AType (CBin CDiv (CFlt "si" "m" (S754_finite false 9223372036854775808 (-63))) (CQuantity (CNum (RInt I32) (NInt 1)))) (TNamed "si::dim_length" "si::metre" (RFlt F80)));
  (459, AType (CBin CMul (CFlt "si" "m" (S754_finite false 9223372036854775808 (-63))) (CMake (TNamed "dim_one" "percent" (RInt I64)) (CNum (RInt I32) (NInt 1)))) (TNamed "si::dim_length" "si::centimetre" (RFlt F80)));
  (460, AType (CBin CMul (CMake (TNamed "dim_one" "percent" (RFlt F80)) (CNum (RInt I32) (NInt 1))) (CLit "si" "m" 1)) (TNamed "si::dim_length" "si::centimetre" (RFlt F80)));
  (461, AType (CBin CDiv (CFlt "si" "m" (S754_finite false 9223372036854775808 (-63))) (CMake (TNamed "dim_one" "percent" (RInt I64)) (CNum (RInt I32) (NInt 1)))) (TNamed "si::dim_length" "si::hectometre" (RFlt F80)));
  (462, AType (CBin CMul (CFlt "si" "m" (S754_finite false 9223372036854775808 (-63))) (CLit "si" "m" 1)) (TNamed "si::dim_area" "si::square_metre" (RFlt F80)));
  (463, AType (CBin CDiv (CFlt "si" "m" (S754_finite false 9223372036854775808 (-63))) (CLit "si" "m" 1)) (TNamed "dim_one" "one" (RFlt F80)));
  (464, AType (CBin CDiv (CNum (RFlt F80) (NFlt (S754_finite false 9223372036854775808 (-63)))) (CLit "si" "s" 1)) (TNamed "si::dim_frequency" "si::hertz" (RFlt F80)));
  (465, AType (CBin CDiv (CQuantity (CNum (RFlt F80) (NFlt (S754_finite false 9223372036854775808 (-63))))) (CLit "si" "s" 1)) (TNamed "si::dim_frequency" "si::hertz" (RFlt F80)));
  (466, AType (CBin CDiv (CMake (TNamed "dim_one" "percent" (RFlt F80)) (CNum (RInt I32) (NInt 1))) (CLit "si" "s" 1)) (TScaled "si::dim_frequency" 1 100 0 "si::hertz" (RFlt F80)));
  (469, AType (CBin CAdd (CLit "si" "m" 1) (CLit "si" "km" 1)) (TNamed "si::dim_length" "si::metre" (RInt I64)));
  (470, AType (CBin CAdd (CFlt "si" "m" (S754_finite false 9223372036854775808 (-63))) (CLit "si" "km" 1)) (TNamed "si::dim_length" "si::metre" (RFlt F80)));
  (471, AType (CBin CAdd (CLit "si" "m" 1) (CFlt "si" "km" (S754_finite false 9223372036854775808 (-63)))) (TNamed "si::dim_length" "si::metre" (RFlt F80)));
  (472, AType (CBin CAdd (CFlt "si" "m" (S754_finite false 9223372036854775808 (-63))) (CFlt "si" "km" (S754_finite false 9223372036854775808 (-63)))) (TNamed "si::dim_length" "si::metre" (RFlt F80)));
  (474, AType (CBin CAdd (CLit "si" "km" 1) (CLit "si" "m" 1)) (TNamed "si::dim_length" "si::metre" (RInt I64)));
  (475, AType (CBin CAdd (CFlt "si" "km" (S754_finite false 9223372036854775808 (-63))) (CLit "si" "m" 1)) (TNamed "si::dim_length" "si::metre" (RFlt F80)));
  (476, AType (CBin CAdd (CLit "si" "km" 1) (CFlt "si" "m" (S754_finite false 9223372036854775808 (-63)))) (TNamed "si::dim_length" "si::metre" (RFlt F80)));
  (477, AType (CBin CAdd (CFlt "si" "km" (S754_finite false 9223372036854775808 (-63))) (CFlt "si" "m" (S754_finite false 9223372036854775808 (-63)))) (TNamed "si::dim_length" "si::metre" (RFlt F80)));
  (479, AType (CBin CSub (CLit "si" "m" 1) (CLit "si" "km" 1)) (TNamed "si::dim_length" "si::metre" (RInt I64)));
  (480, AType (CBin CSub (CFlt "si" "m" (S754_finite false 9223372036854775808 (-63))) (CLit "si" "km" 1)) (TNamed "si::dim_length" "si::metre" (RFlt F80)));
  (481, AType (CBin CSub (CLit "si" "m" 1) (CFlt "si" "km" (S754_finite false 9223372036854775808 (-63)))) (TNamed "si::dim_length" "si::metre" (RFlt F80)));
  (482, AType (CBin CSub (CFlt "si" "m" (S754_finite false 9223372036854775808 (-63))) (CFlt "si" "km" (S754_finite false 9223372036854775808 (-63)))) (TNamed "si::dim_length" "si::metre" (RFlt F80)));
  (484, AType (CBin CSub (CLit "si" "km" 1) (CLit "si" "m" 1)) (TNamed "si::dim_length" "si::metre" (RInt I64)));
  (485, AType (CBin CSub (CFlt "si" "km" (S754_finite false 9223372036854775808 (-63))) (CLit "si" "m" 1)) (TNamed "si::dim_length" "si::metre" (RFlt F80)));
  (486, AType (CBin CSub (CLit "si" "km" 1) (CFlt "si" "m" (S754_finite false 9223372036854775808 (-63)))) (TNamed "si::dim_length" "si::metre" (RFlt F80)));
  (487, AType (CBin CSub (CFlt "si" "km" (S754_finite false 9223372036854775808 (-63))) (CFlt "si" "m" (S754_finite false 9223372036854775808 (-63)))) (TNamed "si::dim_length" "si::metre" (RFlt F80)));
  (489, AType (CBin CRem (CLit "si" "m" 1) (CLit "si" "km" 1)) (TNamed "si::dim_length" "si::metre" (RInt I64)));
  (490, AType (CBin CRem (CLit "si" "km" 1) (CLit "si" "m" 1)) (TNamed "si::dim_length" "si::kilometre" (RInt I64)));
  (493, AType (CBin CMul (CLit "si" "m_per_s" 1) (CLit "si" "s" 1)) (TNamed "si::dim_length" "si::metre" (RInt I64)));
  (494, AType (CBin CMul (CLit "si" "m_per_s" 1) (CLit "si" "h" 1)) (TScaled "si::dim_length" 36 1 2 "si::metre" (RInt I64)));
  (495, AType (CBin CMul (CLit "si" "m" 1) (CLit "si" "min" 1)) (TUnknown [("si::dim_length", (1, 1)); ("si::dim_time", (1, 1))] 60 1 0 (RInt I64)));
  (496, AType (CBin CMul (CLit "si" "s" 1) (CLit "si" "Hz" 1)) (TNamed "dim_one" "one" (RInt I64)));
  (497, AType (CBin CDiv (CNum (RInt I32) (NInt 1)) (CLit "si" "min" 1)) (TScaled "si::dim_frequency" 1 60 0 "si::hertz" (RInt I64)));
  (498, AType (CBin CDiv (CNum (RInt I32) (NInt 1)) (CLit "si" "Hz" 1)) (TNamed "si::dim_time" "si::second" (RInt I64)));
  (499, AType (CBin CDiv (CNum (RInt I32) (NInt 1)) (CLit "si" "km" 1)) (TUnknown [("si::dim_length", ((-1), 1))] 1 1 (-3) (RInt I64)));
  (500, AType (CBin CDiv (CLit "si" "km" 1) (CLit "si" "m" 1)) (TScaled "dim_one" 1000 1 0 "one" (RInt I64)));
  (501, AType (CBin CDiv (CLit "si" "m" 1) (CLit "si" "s" 1)) (TNamed "si::dim_speed" "si::metre_per_second" (RInt I64)));
  (502, AType (CBin CDiv (CLit "si" "m" 1) (CLit "si" "min" 1)) (TScaled "si::dim_speed" 1 60 0 "si::metre_per_second" (RInt I64)));
  (503, AType (CBin CDiv (CLit "si" "min" 1) (CLit "si" "m" 1)) (TUnknown [("si::dim_length", ((-1), 1)); ("si::dim_time", (1, 1))] 60 1 0 (RInt I64)));
  (505, ACmp CEq (CNumber (CBin CAdd (CLit "si" "m" 1) (CLit "si" "m" 1))) (CNum (RInt I32) (NInt 2)));
  (506, ACmp CEq (CNumber (CBin CAdd (CLit "si" "m" 1) (CLit "si" "km" 1))) (CNum (RInt I32) (NInt 1001)));
  (507, ACmp CEq (CNumber (CBin CAdd (CLit "si" "km" 1) (CLit "si" "m" 1))) (CNum (RInt I32) (NInt 1001)));
  (508, ACmp CEq (CNumber (CBin CSub (CLit "si" "m" 2) (CLit "si" "m" 1))) (CNum (RInt I32) (NInt 1)));
  (509, ACmp CEq (CNumber (CBin CSub (CLit "si" "km" 1) (CLit "si" "m" 1))) (CNum (RInt I32) (NInt 999)));
  (510, ACmp CEq (CNumber (CBin CMul (CLit "si" "m" 2) (CNum (RInt I32) (NInt 2)))) (CNum (RInt I32) (NInt 4)));
  (511, ACmp CEq (CNumber (CBin CMul (CLit "si" "m" 2) (CQuantity (CNum (RInt I32) (NInt 2))))) (CNum (RInt I32) (NInt 4)));
  (512, ACmp CEq (CNumber (CBin CMul (CLit "si" "m" 2) (CMake (TNamed "dim_one" "percent" (RInt I32)) (CNum (RInt I32) (NInt 2))))) (CNum (RInt I32) (NInt 4)));
  (513, ACmp CEq (CNumber (CBin CMul (CNum (RInt I32) (NInt 3)) (CLit "si" "m" 3))) (CNum (RInt I32) (NInt 9)));
  (514, ACmp CEq (CNumber (CBin CMul (CQuantity (CNum (RInt I32) (NInt 3))) (CLit "si" "m" 3))) (CNum (RInt I32) (NInt 9)));
  (515, ACmp CEq (CNumber (CBin CMul (CMake (TNamed "dim_one" "percent" (RInt I32)) (CNum (RInt I32) (NInt 3))) (CLit "si" "m" 3))) (CNum (RInt I32) (NInt 9)));
  (516, ACmp CEq (CNumber (CBin CDiv (CLit "si" "m" 4) (CNum (RInt I32) (NInt 2)))) (CNum (RInt I32) (NInt 2)));
  (517, ACmp CEq (CNumber (CBin CDiv (CLit "si" "m" 4) (CQuantity (CNum (RInt I32) (NInt 2))))) (CNum (RInt I32) (NInt 2)));
  (518, ACmp CEq (CNumber (CBin CDiv (CLit "si" "m" 4) (CMake (TNamed "dim_one" "percent" (RInt I32)) (CNum (RInt I32) (NInt 2))))) (CNum (RInt I32) (NInt 2)));
  (519, ACmp CEq (CNumber (CBin CDiv (CLit "si" "km" 4) (CLit "si" "m" 2))) (CNum (RInt I32) (NInt 2)));
  (520, ACmp CEq (CNumber (CBin CDiv (CLit "si" "m" 4000) (CLit "si" "m" 2))) (CNum (RInt I32) (NInt 2000)));
  (522, ACmp CEq (CNumber (CBin CAdd (CFlt "si" "m" (S754_finite false 13835058055282163712 (-63))) (CLit "si" "m" 1))) (CNum (RFlt F64) (NFlt (S754_finite false 5629499534213120 (-51)))));
  (523, ACmp CEq (CNumber (CBin CAdd (CFlt "si" "m" (S754_finite false 13835058055282163712 (-63))) (CLit "si" "km" 1))) (CNum (RFlt F64) (NFlt (S754_finite false 8809287161741312 (-43)))));
  (524, ACmp CEq (CNumber (CBin CAdd (CFlt "si" "km" (S754_finite false 13835058055282163712 (-63))) (CLit "si" "m" 1))) (CNum (RInt I32) (NInt 1501)));
  (525, ACmp CEq (CNumber (CBin CSub (CFlt "si" "m" (S754_finite false 11529215046068469760 (-62))) (CLit "si" "m" 1))) (CNum (RFlt F64) (NFlt (S754_finite false 6755399441055744 (-52)))));
  (526, ACmp CEq (CNumber (CBin CSub (CFlt "si" "km" (S754_finite false 13835058055282163712 (-63))) (CLit "si" "m" 1))) (CNum (RInt I32) (NInt 1499)));
  (527, ACmp CEq (CNumber (CBin CMul (CFlt "si" "m" (S754_finite false 11529215046068469760 (-62))) (CNum (RInt I32) (NInt 2)))) (CNum (RInt I32) (NInt 5)));
  (528, ACmp CEq (CNumber (CBin CMul (CFlt "si" "m" (S754_finite false 11529215046068469760 (-62))) (CQuantity (CNum (RInt I32) (NInt 2))))) (CNum (RInt I32) (NInt 5)));
  (529, ACmp CEq (CNumber (CBin CMul (CFlt "si" "m" (S754_finite false 11529215046068469760 (-62))) (CMake (TNamed "dim_one" "percent" (RInt I32)) (CNum (RInt I32) (NInt 2))))) (CNum (RInt I32) (NInt 5)));
  (530, ACmp CEq (CNumber (CBin CMul (CNum (RFlt F80) (NFlt (S754_finite false 11529215046068469760 (-62)))) (CLit "si" "m" 2))) (CNum (RInt I32) (NInt 5)));
  (531, ACmp CEq (CNumber (CBin CMul (CQuantity (CNum (RFlt F80) (NFlt (S754_finite false 11529215046068469760 (-62))))) (CLit "si" "m" 2))) (CNum (RInt I32) (NInt 5)));
  (532, ACmp CEq (CNumber (CBin CMul (CMake (TNamed "dim_one" "percent" (RFlt F80)) (CNum (RFlt F80) (NFlt (S754_finite false 11529215046068469760 (-62))))) (CLit "si" "m" 2))) (CNum (RInt I32) (NInt 5)));
  (533, ACmp CEq (CNumber (CBin CDiv (CFlt "si" "m" (S754_finite false 11529215046068469760 (-61))) (CNum (RInt I32) (NInt 2)))) (CNum (RFlt F64) (NFlt (S754_finite false 5629499534213120 (-51)))));
  (534, ACmp CEq (CNumber (CBin CDiv (CFlt "si" "m" (S754_finite false 11529215046068469760 (-61))) (CQuantity (CNum (RInt I32) (NInt 2))))) (CNum (RFlt F64) (NFlt (S754_finite false 5629499534213120 (-51)))));
  (535, ACmp CEq (CNumber (CBin CDiv (CFlt "si" "m" (S754_finite false 11529215046068469760 (-61))) (CMake (TNamed "dim_one" "percent" (RInt I32)) (CNum (RInt I32) (NInt 2))))) (CNum (RFlt F64) (NFlt (S754_finite false 5629499534213120 (-51)))));
  (536, ACmp CEq (CNumber (CBin CDiv (CFlt "si" "km" (S754_finite false 11529215046068469760 (-61))) (CLit "si" "m" 2))) (CNum (RFlt F64) (NFlt (S754_finite false 5629499534213120 (-51)))));
  (537, ACmp CEq (CNumber (CBin CDiv (CFlt "si" "m" (S754_finite false 11258999068426240000 (-51))) (CLit "si" "m" 2))) (CNum (RInt I32) (NInt 2500)));
  (539, ACmp CEq (CNumber (CBin CAdd (CLit "si" "m" 1) (CFlt "si" "m" (S754_finite false 13835058055282163712 (-63))))) (CNum (RFlt F64) (NFlt (S754_finite false 5629499534213120 (-51)))));
  (540, ACmp CEq (CNumber (CBin CAdd (CLit "si" "m" 1) (CFlt "si" "km" (S754_finite false 13835058055282163712 (-63))))) (CNum (RInt I32) (NInt 1501)));
  (541, ACmp CEq (CNumber (CBin CAdd (CLit "si" "km" 1) (CFlt "si" "m" (S754_finite false 13835058055282163712 (-63))))) (CNum (RFlt F64) (NFlt (S754_finite false 8809287161741312 (-43)))));
  (542, ACmp CEq (CNumber (CBin CSub (CLit "si" "m" 2) (CFlt "si" "m" (S754_finite false 13835058055282163712 (-63))))) (CNum (RFlt F64) (NFlt (S754_finite false 4503599627370496 (-53)))));
  (543, ACmp CEq (CNumber (CBin CSub (CLit "si" "km" 1) (CFlt "si" "m" (S754_finite false 13835058055282163712 (-63))))) (CNum (RFlt F64) (NFlt (S754_finite false 8782898882674688 (-43)))));
  (544, ACmp CEq (CNumber (CBin CMul (CLit "si" "m" 2) (CNum (RFlt F80) (NFlt (S754_finite false 11529215046068469760 (-62)))))) (CNum (RInt I32) (NInt 5)));
  (545, ACmp CEq (CNumber (CBin CMul (CLit "si" "m" 2) (CQuantity (CNum (RFlt F80) (NFlt (S754_finite false 11529215046068469760 (-62))))))) (CNum (RInt I32) (NInt 5)));
  (546, ACmp CEq (CNumber (CBin CMul (CLit "si" "m" 2) (CMake (TNamed "dim_one" "percent" (RFlt F80)) (CNum (RFlt F80) (NFlt (S754_finite false 11529215046068469760 (-62))))))) (CNum (RInt I32) (NInt 5)));
  (547, ACmp CEq (CNumber (CBin CMul (CNum (RInt I32) (NInt 2)) (CFlt "si" "m" (S754_finite false 11529215046068469760 (-62))))) (CNum (RInt I32) (NInt 5)));
  (548, ACmp CEq (CNumber (CBin CMul (CQuantity (CNum (RInt I32) (NInt 2))) (CFlt "si" "m" (S754_finite false 11529215046068469760 (-62))))) (CNum (RInt I32) (NInt 5)));
  (549, ACmp CEq (CNumber (CBin CMul (CMake (TNamed "dim_one" "percent" (RInt I32)) (CNum (RInt I32) (NInt 2))) (CFlt "si" "m" (S754_finite false 11529215046068469760 (-62))))) (CNum (RInt I32) (NInt 5)));
  (550, ACmp CEq (CNumber (CBin CDiv (CLit "si" "m" 5) (CNum (RFlt F80) (NFlt (S754_finite false 11529215046068469760 (-62)))))) (CNum (RInt I32) (NInt 2)));
  (551, ACmp CEq (CNumber (CBin CDiv (CLit "si" "m" 5) (CQuantity (CNum (RFlt F80) (NFlt (S754_finite false 11529215046068469760 (-62))))))) (CNum (RInt I32) (NInt 2)));
  (552, ACmp CEq (CNumber (CBin CDiv (CLit "si" "m" 5) (CMake (TNamed "dim_one" "percent" (RFlt F80)) (CNum (RFlt F80) (NFlt (S754_finite false 11529215046068469760 (-62))))))) (CNum (RInt I32) (NInt 2)));
  (553, ACmp CEq (CNumber (CBin CDiv (CLit "si" "km" 5) (CFlt "si" "m" (S754_finite false 11529215046068469760 (-62))))) (CNum (RInt I32) (NInt 2)));
  (554, ACmp CEq (CNumber (CBin CDiv (CLit "si" "m" 5000) (CFlt "si" "m" (S754_finite false 11529215046068469760 (-62))))) (CNum (RInt I32) (NInt 2000)));
  (556, ACmp CEq (CNumber (CBin CRem (CLit "si" "m" 7) (CNum (RInt I32) (NInt 2)))) (CNum (RInt I32) (NInt 1)));
  (557, ACmp CEq (CNumber (CBin CRem (CLit "si" "m" 7) (CQuantity (CNum (RInt I32) (NInt 2))))) (CNum (RInt I32) (NInt 1)));
  (558, ACmp CEq (CNumber (CBin CRem (CLit "si" "m" 7) (CMake (TNamed "dim_one" "percent" (RInt I32)) (CNum (RInt I32) (NInt 2))))) (CNum (RInt I32) (NInt 1)));
  (559, ACmp CEq (CNumber (CBin CRem (CLit "si" "m" 7) (CLit "si" "m" 2))) (CNum (RInt I32) (NInt 1)));
  (560, ACmp CEq (CNumber (CBin CRem (CLit "si" "km" 7) (CLit "si" "m" 2000))) (CNum (RInt I32) (NInt 7)));
  (562, ACmp CEq (CBin CDiv (CBin CMul (CLit "si" "km2" 10) (CLit "si" "km2" 10)) (CLit "si" "km2" 50)) (CLit "si" "km2" 2));
  (564, ACmp CEq (CNumber (CBin CDiv (CLit "si" "km" 10) (CLit "si" "m" 5))) (CNum (RInt I32) (NInt 2)));
  (565, ACmp CEq (CNumber (CMake (TNamed "dim_one" "one" (RFlt F64)) (CBin CDiv (CLit "si" "km" 10) (CLit "si" "m" 5)))) (CNum (RInt I32) (NInt 2000)));
  (570, ACmp CEq (CNumber (CCastUnit "one" (CBin CDiv (CLit "si" "km" 10) (CLit "si" "m" 5)))) (CNum (RInt I32) (NInt 2000)));
  (573, ACmp CEq (CNumber (CBin CMul (CLit "si" "s" 10) (CLit "si" "kHz" 2))) (CNum (RInt I32) (NInt 20)));
  (576, ACmp CEq (CBin CMul (CLit "si" "m" 2) (CBin CMul (CNum (RInt I32) (NInt 1)) (CRef "si" "m"))) (CLit "si" "m2" 2));
  (577, ACmp CEq (CBin CDiv (CLit "si" "m2" 2) (CBin CMul (CNum (RInt I32) (NInt 1)) (CRef "si" "m"))) (CLit "si" "m" 2));
  (582, ACmp CEq (CAssign CMul (CQuantity (CNum (RInt I32) (NInt 3))) (CQuantity (CNum (RInt I32) (NInt 2)))) (CNum (RInt I32) (NInt 6)));
  (583, ACmp CEq (CAssign CDiv (CQuantity (CNum (RInt I32) (NInt 6))) (CQuantity (CNum (RInt I32) (NInt 2)))) (CNum (RInt I32) (NInt 3)));
  (584, ACmp CEq (CBin CAdd (CQuantity (CNum (RInt I32) (NInt 1))) (CQuantity (CNum (RInt I32) (NInt 1)))) (CNum (RInt I32) (NInt 2)));
  (585, ACmp CEq (CBin CAdd (CNum (RInt I32) (NInt 1)) (CQuantity (CNum (RInt I32) (NInt 1)))) (CNum (RInt I32) (NInt 2)));
  (586, ACmp CEq (CBin CAdd (CQuantity (CNum (RInt I32) (NInt 1))) (CNum (RInt I32) (NInt 1))) (CNum (RInt I32) (NInt 2)));
  (587, ACmp CEq (CBin CSub (CQuantity (CNum (RInt I32) (NInt 2))) (CQuantity (CNum (RInt I32) (NInt 1)))) (CNum (RInt I32) (NInt 1)));
  (588, ACmp CEq (CBin CSub (CNum (RInt I32) (NInt 2)) (CQuantity (CNum (RInt I32) (NInt 1)))) (CNum (RInt I32) (NInt 1)));
  (589, ACmp CEq (CBin CSub (CQuantity (CNum (RInt I32) (NInt 2))) (CNum (RInt I32) (NInt 1))) (CNum (RInt I32) (NInt 1)));
  (590, ACmp CEq (CBin CMul (CQuantity (CNum (RInt I32) (NInt 2))) (CQuantity (CNum (RInt I32) (NInt 2)))) (CNum (RInt I32) (NInt 4)));
  (591, ACmp CEq (CBin CMul (CNum (RInt I32) (NInt 2)) (CQuantity (CNum (RInt I32) (NInt 2)))) (CNum (RInt I32) (NInt 4)));
  (592, ACmp CEq (CBin CMul (CQuantity (CNum (RInt I32) (NInt 2))) (CNum (RInt I32) (NInt 2))) (CNum (RInt I32) (NInt 4)));
  (593, ACmp CEq (CBin CDiv (CQuantity (CNum (RInt I32) (NInt 4))) (CQuantity (CNum (RInt I32) (NInt 2)))) (CNum (RInt I32) (NInt 2)));
  (594, ACmp CEq (CBin CDiv (CNum (RInt I32) (NInt 4)) (CQuantity (CNum (RInt I32) (NInt 2)))) (CNum (RInt I32) (NInt 2)));
  (595, ACmp CEq (CBin CDiv (CQuantity (CNum (RInt I32) (NInt 4))) (CNum (RInt I32) (NInt 2))) (CNum (RInt I32) (NInt 2)));
  (596, ACmp CEq (CBin CRem (CQuantity (CNum (RInt I32) (NInt 4))) (CQuantity (CNum (RInt I32) (NInt 2)))) (CNum (RInt I32) (NInt 0)));
  (597, ACmp CEq (CBin CRem (CNum (RInt I32) (NInt 4)) (CQuantity (CNum (RInt I32) (NInt 2)))) (CNum (RInt I32) (NInt 0)));
  (598, ACmp CEq (CBin CRem (CQuantity (CNum (RInt I32) (NInt 4))) (CNum (RInt I32) (NInt 2))) (CNum (RInt I32) (NInt 0)));
  (600, ASame (CBin CAdd (CQuantity (CNum (RInt I32) (NInt 0))) (CNum (RFlt F64) (NFlt (S754_zero false)))) (CQuantity (CNum (RFlt F64) (NFlt (S754_zero false)))));
  (601, ASame (CBin CSub (CQuantity (CNum (RInt I32) (NInt 0))) (CNum (RFlt F64) (NFlt (S754_zero false)))) (CQuantity (CNum (RFlt F64) (NFlt (S754_zero false)))));
  (602, ASame (CBin CAdd (CNum (RFlt F64) (NFlt (S754_zero false))) (CQuantity (CNum (RInt I32) (NInt 0)))) (CQuantity (CNum (RFlt F64) (NFlt (S754_zero false)))));
  (603, ASame (CBin CAdd (CNum (RFlt F64) (NFlt (S754_zero false))) (CQuantity (CNum (RInt I32) (NInt 0)))) (CQuantity (CNum (RFlt F64) (NFlt (S754_zero false)))));
  (604, ACmp CEq (CBin CAdd (CQuantity (CNum (RInt I32) (NInt 1))) (CNum (RFlt F64) (NFlt (S754_finite false 5179139571476070 (-51))))) (CQuantity (CBin CAdd (CNum (RInt I32) (NInt 1)) (CNum (RFlt F64) (NFlt (S754_finite false 5179139571476070 (-51)))))));
  (605, ACmp CEq (CBin CSub (CQuantity (CNum (RInt I32) (NInt 1))) (CNum (RFlt F64) (NFlt (S754_finite false 5179139571476070 (-51))))) (CQuantity (CBin CSub (CNum (RInt I32) (NInt 1)) (CNum (RFlt F64) (NFlt (S754_finite false 5179139571476070 (-51)))))));
  (606, ACmp CEq (CBin CAdd (CNum (RFlt F64) (NFlt (S754_finite false 5404319552844595 (-52)))) (CQuantity (CNum (RInt I32) (NInt 3)))) (CQuantity (CBin CAdd (CNum (RFlt F64) (NFlt (S754_finite false 5404319552844595 (-52)))) (CNum (RInt I32) (NInt 3)))));
  (607, ACmp CEq (CBin CSub (CNum (RFlt F64) (NFlt (S754_finite false 5404319552844595 (-52)))) (CQuantity (CNum (RInt I32) (NInt 3)))) (CQuantity (CBin CSub (CNum (RFlt F64) (NFlt (S754_finite false 5404319552844595 (-52)))) (CNum (RInt I32) (NInt 3)))));
  (609, ARep (CNumber (CBin CAdd (CQuantity (CNum (RInt (ITy W8 false)) (NInt 0))) (CQuantity (CNum (RInt (ITy W8 false)) (NInt 0))))) (RInt I32));
  (610, ARep (CNumber (CBin CSub (CQuantity (CNum (RInt (ITy W8 false)) (NInt 0))) (CQuantity (CNum (RInt (ITy W8 false)) (NInt 0))))) (RInt I32));
  (611, ACmp CEq (CNumber (CBin CAdd (CQuantity (CNum (RInt (ITy W8 false)) (NInt 128))) (CQuantity (CNum (RInt (ITy W8 false)) (NInt 128))))) (CBin CAdd (CNum (RInt (ITy W8 false)) (NInt 128)) (CNum (RInt (ITy W8 false)) (NInt 128))));
  (613, ACmp CEq (CNumber (CBin CSub (CQuantity (CNum (RInt (ITy W8 false)) (NInt 0))) (CQuantity (CNum (RInt (ITy W8 false)) (NInt 1))))) (CBin CSub (CNum (RInt (ITy W8 false)) (NInt 0)) (CNum (RInt (ITy W8 false)) (NInt 1))));
  (615, ARep (CNumber (CBin CRem (CQuantity (CNum (RInt (ITy W8 false)) (NInt 1))) (CQuantity (CNum (RInt (ITy W8 false)) (NInt 1))))) (RInt I32));
  (618, ACmp CEq (CBin CMul (CQuantity (CNum (RInt I32) (NInt 2))) (CBin CMul (CNum (RInt I32) (NInt 1)) (CRef "si" "m"))) (CLit "si" "m" 2));
  (619, ACmp CEq (CBin CDiv (CQuantity (CNum (RInt I32) (NInt 2))) (CBin CMul (CNum (RInt I32) (NInt 1)) (CRef "si" "m"))) (CBin CDiv (CNum (RInt I32) (NInt 2)) (CLit "si" "m" 1)));
  (634, ACmp CEq (CMake (TNamed "si::dim_length" "si::metre" (RInt I32)) (CNum (RInt I32) (NInt 123))) (CMake (TNamed "si::dim_length" "si::metre" (RInt I32)) (CNum (RInt I32) (NInt 123))));
  (635, ACmp CNe (CMake (TNamed "si::dim_length" "si::metre" (RInt I32)) (CNum (RInt I32) (NInt 321))) (CMake (TNamed "si::dim_length" "si::metre" (RInt I32)) (CNum (RInt I32) (NInt 123))));
  (636, ANot (ACmp CEq (CMake (TNamed "si::dim_length" "si::metre" (RInt I32)) (CNum (RInt I32) (NInt 123))) (CMake (TNamed "si::dim_length" "si::metre" (RInt I32)) (CNum (RInt I32) (NInt 321)))));
  (637, ANot (ACmp CNe (CMake (TNamed "si::dim_length" "si::metre" (RInt I32)) (CNum (RInt I32) (NInt 123))) (CMake (TNamed "si::dim_length" "si::metre" (RInt I32)) (CNum (RInt I32) (NInt 123)))));
  (640, ACmp CEq (CMake (TNamed "si::dim_length" "si::metre" (RFlt F64)) (CNum (RInt I32) (NInt 123))) (CMake (TNamed "si::dim_length" "si::metre" (RInt I32)) (CNum (RInt I32) (NInt 123))));
  (641, ACmp CNe (CMake (TNamed "si::dim_length" "si::metre" (RFlt F64)) (CNum (RInt I32) (NInt 321))) (CMake (TNamed "si::dim_length" "si::metre" (RInt I32)) (CNum (RInt I32) (NInt 123))));
  (642, ANot (ACmp CEq (CMake (TNamed "si::dim_length" "si::metre" (RFlt F64)) (CNum (RInt I32) (NInt 123))) (CMake (TNamed "si::dim_length" "si::metre" (RInt I32)) (CNum (RInt I32) (NInt 321)))));
  (643, ANot (ACmp CNe (CMake (TNamed "si::dim_length" "si::metre" (RFlt F64)) (CNum (RInt I32) (NInt 123))) (CMake (TNamed "si::dim_length" "si::metre" (RInt I32)) (CNum (RInt I32) (NInt 123)))));
  (645, ACmp CEq (CMake (TNamed "si::dim_length" "si::kilometre" (RInt I32)) (CNum (RInt I32) (NInt 123))) (CMake (TNamed "si::dim_length" "si::metre" (RInt I32)) (CNum (RInt I32) (NInt 123000))));
  (646, ACmp CNe (CMake (TNamed "si::dim_length" "si::kilometre" (RInt I32)) (CNum (RInt I32) (NInt 321))) (CMake (TNamed "si::dim_length" "si::metre" (RInt I32)) (CNum (RInt I32) (NInt 123000))));
  (647, ANot (ACmp CEq (CMake (TNamed "si::dim_length" "si::kilometre" (RInt I32)) (CNum (RInt I32) (NInt 123))) (CMake (TNamed "si::dim_length" "si::metre" (RInt I32)) (CNum (RInt I32) (NInt 321000)))));
  (648, ANot (ACmp CNe (CMake (TNamed "si::dim_length" "si::kilometre" (RInt I32)) (CNum (RInt I32) (NInt 123))) (CMake (TNamed "si::dim_length" "si::metre" (RInt I32)) (CNum (RInt I32) (NInt 123000)))));
  (652, ACmp CEq (CQuantity (CNum (RInt I32) (NInt 123))) (CNum (RInt I32) (NInt 123)));
  (653, ACmp CNe (CQuantity (CNum (RInt I32) (NInt 321))) (CNum (RInt I32) (NInt 123)));
  (654, ACmp CEq (CNum (RInt I32) (NInt 123)) (CQuantity (CNum (RInt I32) (NInt 123))));
  (655, ACmp CNe (CNum (RInt I32) (NInt 123)) (CQuantity (CNum (RInt I32) (NInt 321))));
  (672, ACmp CLt (CMake (TNamed "si::dim_length" "si::metre" (RInt I32)) (CNum (RInt I32) (NInt 123))) (CMake (TNamed "si::dim_length" "si::metre" (RInt I32)) (CNum (RInt I32) (NInt 321))));
  (673, ACmp CLe (CMake (TNamed "si::dim_length" "si::metre" (RInt I32)) (CNum (RInt I32) (NInt 123))) (CMake (TNamed "si::dim_length" "si::metre" (RInt I32)) (CNum (RInt I32) (NInt 123))));
  (674, ACmp CLe (CMake (TNamed "si::dim_length" "si::metre" (RInt I32)) (CNum (RInt I32) (NInt 123))) (CMake (TNamed "si::dim_length" "si::metre" (RInt I32)) (CNum (RInt I32) (NInt 321))));
  (675, ACmp CGt (CMake (TNamed "si::dim_length" "si::metre" (RInt I32)) (CNum (RInt I32) (NInt 321))) (CMake (TNamed "si::dim_length" "si::metre" (RInt I32)) (CNum (RInt I32) (NInt 123))));
  (676, ACmp CGe (CMake (TNamed "si::dim_length" "si::metre" (RInt I32)) (CNum (RInt I32) (NInt 123))) (CMake (TNamed "si::dim_length" "si::metre" (RInt I32)) (CNum (RInt I32) (NInt 123))));
  (677, ACmp CGe (CMake (TNamed "si::dim_length" "si::metre" (RInt I32)) (CNum (RInt I32) (NInt 321))) (CMake (TNamed "si::dim_length" "si::metre" (RInt I32)) (CNum (RInt I32) (NInt 123))));
  (678, ANot (ACmp CLt (CMake (TNamed "si::dim_length" "si::metre" (RInt I32)) (CNum (RInt I32) (NInt 321))) (CMake (TNamed "si::dim_length" "si::metre" (RInt I32)) (CNum (RInt I32) (NInt 123)))));
  (679, ANot (ACmp CLt (CMake (TNamed "si::dim_length" "si::metre" (RInt I32)) (CNum (RInt I32) (NInt 123))) (CMake (TNamed "si::dim_length" "si::metre" (RInt I32)) (CNum (RInt I32) (NInt 123)))));
  (680, ANot (ACmp CLe (CMake (TNamed "si::dim_length" "si::metre" (RInt I32)) (CNum (RInt I32) (NInt 321))) (CMake (TNamed "si::dim_length" "si::metre" (RInt I32)) (CNum (RInt I32) (NInt 123)))));
  (681, ANot (ACmp CGt (CMake (TNamed "si::dim_length" "si::metre" (RInt I32)) (CNum (RInt I32) (NInt 123))) (CMake (TNamed "si::dim_length" "si::metre" (RInt I32)) (CNum (RInt I32) (NInt 321)))));
  (682, ANot (ACmp CGt (CMake (TNamed "si::dim_length" "si::metre" (RInt I32)) (CNum (RInt I32) (NInt 123))) (CMake (TNamed "si::dim_length" "si::metre" (RInt I32)) (CNum (RInt I32) (NInt 123)))));
  (683, ANot (ACmp CGe (CMake (TNamed "si::dim_length" "si::metre" (RInt I32)) (CNum (RInt I32) (NInt 123))) (CMake (TNamed "si::dim_length" "si::metre" (RInt I32)) (CNum (RInt I32) (NInt 321)))));
  (686, ACmp CLt (CMake (TNamed "si::dim_length" "si::metre" (RFlt F64)) (CNum (RInt I32) (NInt 123))) (CMake (TNamed "si::dim_length" "si::metre" (RInt I32)) (CNum (RInt I32) (NInt 321))));
  (687, ACmp CLe (CMake (TNamed "si::dim_length" "si::metre" (RFlt F64)) (CNum (RInt I32) (NInt 123))) (CMake (TNamed "si::dim_length" "si::metre" (RInt I32)) (CNum (RInt I32) (NInt 123))));
  (688, ACmp CLe (CMake (TNamed "si::dim_length" "si::metre" (RFlt F64)) (CNum (RInt I32) (NInt 123))) (CMake (TNamed "si::dim_length" "si::metre" (RInt I32)) (CNum (RInt I32) (NInt 321))));
  (689, ACmp CGt (CMake (TNamed "si::dim_length" "si::metre" (RFlt F64)) (CNum (RInt I32) (NInt 321))) (CMake (TNamed "si::dim_length" "si::metre" (RInt I32)) (CNum (RInt I32) (NInt 123))));
  (690, ACmp CGe (CMake (TNamed "si::dim_length" "si::metre" (RFlt F64)) (CNum (RInt I32) (NInt 123))) (CMake (TNamed "si::dim_length" "si::metre" (RInt I32)) (CNum (RInt I32) (NInt 123))));
  (691, ACmp CGe (CMake (TNamed "si::dim_length" "si::metre" (RFlt F64)) (CNum (RInt I32) (NInt 321))) (CMake (TNamed "si::dim_length" "si::metre" (RInt I32)) (CNum (RInt I32) (NInt 123))));
  (692, ANot (ACmp CLt (CMake (TNamed "si::dim_length" "si::metre" (RFlt F64)) (CNum (RInt I32) (NInt 321))) (CMake (TNamed "si::dim_length" "si::metre" (RInt I32)) (CNum (RInt I32) (NInt 123)))));
  (693, ANot (ACmp CLt (CMake (TNamed "si::dim_length" "si::metre" (RFlt F64)) (CNum (RInt I32) (NInt 123))) (CMake (TNamed "si::dim_length" "si::metre" (RInt I32)) (CNum (RInt I32) (NInt 123)))));
  (694, ANot (ACmp CLe (CMake (TNamed "si::dim_length" "si::metre" (RFlt F64)) (CNum (RInt I32) (NInt 321))) (CMake (TNamed "si::dim_length" "si::metre" (RInt I32)) (CNum (RInt I32) (NInt 123)))));
  (695, ANot (ACmp CGt (CMake (TNamed "si::dim_length" "si::metre" (RFlt F64)) (CNum (RInt I32) (NInt 123))) (CMake (TNamed "si::dim_length" "si::metre" (RInt I32)) (CNum (RInt I32) (NInt 321)))));
  (696, ANot (ACmp CGt (CMake (TNamed "si::dim_length" "si::metre" (RFlt F64)) (CNum (RInt I32) (NInt 123))) (CMake (TNamed "si::dim_length" "si::metre" (RInt I32)) (CNum (RInt I32) (NInt 123)))));
  (697, ANot (ACmp CGe (CMake (TNamed "si::dim_length" "si::metre" (RFlt F64)) (CNum (RInt I32) (NInt 123))) (CMake (TNamed "si::dim_length" "si::metre" (RInt I32)) (CNum (RInt I32) (NInt 321)))));
  (699, ACmp CLt (CMake (TNamed "si::dim_length" "si::kilometre" (RInt I32)) (CNum (RInt I32) (NInt 123))) (CMake (TNamed "si::dim_length" "si::metre" (RInt I32)) (CNum (RInt I32) (NInt 321000))));
  (700, ACmp CLe (CMake (TNamed "si::dim_length" "si::kilometre" (RInt I32)) (CNum (RInt I32) (NInt 123))) (CMake (TNamed "si::dim_length" "si::metre" (RInt I32)) (CNum (RInt I32) (NInt 123000))));
  (701, ACmp CLe (CMake (TNamed "si::dim_length" "si::kilometre" (RInt I32)) (CNum (RInt I32) (NInt 123))) (CMake (TNamed "si::dim_length" "si::metre" (RInt I32)) (CNum (RInt I32) (NInt 321000))));
  (702, ACmp CGt (CMake (TNamed "si::dim_length" "si::kilometre" (RInt I32)) (CNum (RInt I32) (NInt 321))) (CMake (TNamed "si::dim_length" "si::metre" (RInt I32)) (CNum (RInt I32) (NInt 123000))));
  (703, ACmp CGe (CMake (TNamed "si::dim_length" "si::kilometre" (RInt I32)) (CNum (RInt I32) (NInt 123))) (CMake (TNamed "si::dim_length" "si::metre" (RInt I32)) (CNum (RInt I32) (NInt 123000))));
  (704, ACmp CGe (CMake (TNamed "si::dim_length" "si::kilometre" (RInt I32)) (CNum (RInt I32) (NInt 321))) (CMake (TNamed "si::dim_length" "si::metre" (RInt I32)) (CNum (RInt I32) (NInt 123000))));
  (705, ANot (ACmp CLt (CMake (TNamed "si::dim_length" "si::kilometre" (RInt I32)) (CNum (RInt I32) (NInt 321))) (CMake (TNamed "si::dim_length" "si::metre" (RInt I32)) (CNum (RInt I32) (NInt 123000)))));
  (706, ANot (ACmp CLt (CMake (TNamed "si::dim_length" "si::kilometre" (RInt I32)) (CNum (RInt I32) (NInt 123))) (CMake (TNamed "si::dim_length" "si::metre" (RInt I32)) (CNum (RInt I32) (NInt 123000)))));
  (707, ANot (ACmp CLe (CMake (TNamed "si::dim_length" "si::kilometre" (RInt I32)) (CNum (RInt I32) (NInt 321))) (CMake (TNamed "si::dim_length" "si::metre" (RInt I32)) (CNum (RInt I32) (NInt 123000)))));
  (708, ANot (ACmp CGt (CMake (TNamed "si::dim_length" "si::kilometre" (RInt I32)) (CNum (RInt I32) (NInt 123))) (CMake (TNamed "si::dim_length" "si::metre" (RInt I32)) (CNum (RInt I32) (NInt 321000)))));
  (709, ANot (ACmp CGt (CMake (TNamed "si::dim_length" "si::kilometre" (RInt I32)) (CNum (RInt I32) (NInt 123))) (CMake (TNamed "si::dim_length" "si::metre" (RInt I32)) (CNum (RInt I32) (NInt 123000)))));
  (710, ANot (ACmp CGe (CMake (TNamed "si::dim_length" "si::kilometre" (RInt I32)) (CNum (RInt I32) (NInt 123))) (CMake (TNamed "si::dim_length" "si::metre" (RInt I32)) (CNum (RInt I32) (NInt 321000)))));
  (714, ACmp CLt (CQuantity (CNum (RInt I32) (NInt 123))) (CNum (RInt I32) (NInt 321)));
  (715, ACmp CLe (CQuantity (CNum (RInt I32) (NInt 123))) (CNum (RInt I32) (NInt 123)));
  (716, ACmp CLe (CQuantity (CNum (RInt I32) (NInt 123))) (CNum (RInt I32) (NInt 321)));
  (717, ACmp CGt (CQuantity (CNum (RInt I32) (NInt 321))) (CNum (RInt I32) (NInt 123)));
  (718, ACmp CGe (CQuantity (CNum (RInt I32) (NInt 123))) (CNum (RInt I32) (NInt 123)));
  (719, ACmp CGe (CQuantity (CNum (RInt I32) (NInt 321))) (CNum (RInt I32) (NInt 123)));
  (721, ACmp CLt (CNum (RInt I32) (NInt 123)) (CQuantity (CNum (RInt I32) (NInt 321))));
  (722, ACmp CLe (CNum (RInt I32) (NInt 123)) (CQuantity (CNum (RInt I32) (NInt 123))));
  (723, ACmp CLe (CNum (RInt I32) (NInt 123)) (CQuantity (CNum (RInt I32) (NInt 321))));
  (724, ACmp CGt (CNum (RInt I32) (NInt 321)) (CQuantity (CNum (RInt I32) (NInt 123))));
  (725, ACmp CGe (CNum (RInt I32) (NInt 123)) (CQuantity (CNum (RInt I32) (NInt 123))));
  (726, ACmp CGe (CNum (RInt I32) (NInt 321)) (CQuantity (CNum (RInt I32) (NInt 123))));
  (733, AWellCmp CEq (CMake (TNamed "dim_one" "one" (RFlt F64)) (CNum (RInt I32) (NInt 1))) (CNum (RInt I32) (NInt 1)));
  (734, AWellCmp CEq (CMake (TNamed "dim_one" "one" (RFlt F64)) (CNum (RInt I32) (NInt 1))) (CNum (RFlt F64) (NFlt (S754_finite false 4503599627370496 (-52)))));
  (735, AWellCmp CEq (CMake (TNamed "dim_one" "one" (RInt I32)) (CNum (RInt I32) (NInt 1))) (CNum (RInt I32) (NInt 1)));
  (736, AIllCmp CEq (CMake (TNamed "dim_one" "one" (RInt I32)) (CNum (RInt I32) (NInt 1))) (CNum (RFlt F64) (NFlt (S754_finite false 4503599627370496 (-52)))));
  (745, AType (CBin CDiv (CLit "si" "km" 10) (CLit "si" "km" 5)) (TNamed "dim_one" "one" (RInt I64)));
  (750, ACmp CEq (CNumber (CCastUnit "percent" (CBin CDiv (CFlt "si" "m" (S754_finite false 14411518807585587200 (-58))) (CFlt "si" "m" (S754_finite false 14411518807585587200 (-57)))))) (CNum (RInt I32) (NInt 50)));
  (752, ACmp CEq (CBin CDiv (CFlt "si" "m" (S754_finite false 14411518807585587200 (-58))) (CFlt "si" "m" (S754_finite false 14411518807585587200 (-57)))) (CMake (TNamed "dim_one" "percent" (RFlt F64)) (CNum (RInt I32) (NInt 50))));
  (754, ACmp CEq (CNumber (CMake (TNamed "dim_one" "one" (RFlt F64)) (CMake (TNamed "dim_one" "percent" (RFlt F64)) (CNum (RInt I32) (NInt 50))))) (CNum (RFlt F64) (NFlt (S754_finite false 4503599627370496 (-53)))));
  (761, AType (CBin CAdd (CLit "si" "l" 2) (CLit "si" "ml" 2)) (TNamed "si::dim_volume" "si::cubic_centimetre" (RInt I64)));
  (762, ACmp CEq (CBin CAdd (CLit "si" "l" 2) (CLit "si" "ml" 2)) (CLit "si" "cm3" 2002));
  (763, ACmp CEq (CBin CAdd (CLit "si" "l" 2) (CLit "si" "ml" 2)) (CLit "si" "ml" 2002));
  (764, ACmp CEq (CBin CAdd (CLit "si" "l" 2) (CLit "si" "cm3" 2)) (CLit "si" "ml" 2002));
  (765, ACmp CEq (CBin CAdd (CLit "si" "dm3" 2) (CLit "si" "cm3" 2)) (CLit "si" "ml" 2002));
  (772, ACmp CEq (CNumber (CCastTo (TNamed "si::dim_length" "si::metre" (RInt I32)) (CLit "si" "km" 2))) (CNum (RInt I32) (NInt 2000)));
  (773, ACmp CEq (CNumber (CCastTo (TNamed "si::dim_length" "si::kilometre" (RInt I32)) (CLit "si" "m" 2000))) (CNum (RInt I32) (NInt 2)));
  (774, ACmp CEq (CNumber (CCastTo (TNamed "si::dim_length" "si::metre" (RInt I32)) (CFlt "si" "m" (S754_finite false 11344747605331374244 (-63))))) (CNum (RInt I32) (NInt 1)));
  (775, ACmp CEq (CNumber (CCastUnit "si::metre" (CLit "si" "km" 2))) (CNum (RInt I32) (NInt 2000)));
  (776, ACmp CEq (CNumber (CCastUnit "si::kilometre" (CLit "si" "m" 2000))) (CNum (RInt I32) (NInt 2)));
  (777, ACmp CEq (CNumber (CCastRep (RInt I32) (CFlt "si" "m" (S754_finite false 11344747605331374244 (-63))))) (CNum (RInt I32) (NInt 1)));
  (778, ACmp CEq (CNumber (CCastDimUnit "si::dim_speed" "si::kilometre_per_hour" (CBin CDiv (CFlt "si" "m" (S754_finite false 18014398509481984000 (-53))) (CFlt "si" "s" (S754_finite false 16212958658533785600 (-52)))))) (CNum (RInt I32) (NInt 2)));
  (780, ACmp CEq (CCastDim "si::dim_length" (CBin CMul (CNum (RInt I32) (NInt 1)) (CRef "si::cgs" "cm"))) (CBin CMul (CNum (RInt I32) (NInt 1)) (CRef "si" "cm")));
  (782, AType (CCastUnit "si::litre" (CLit "si" "dm3" 2)) (TNamed "si::dim_volume" "si::litre" (RInt I64)));
  (783, ANot (AType (CCastUnit "si::litre" (CLit "si" "dm3" 2)) (TNamed "si::dim_volume" "si::cubic_decimetre" (RInt I64))));
  (796, AType (CBin CDiv (CLit "si" "m" 10) (CLit "si" "s" 5)) (TNamed "si::dim_speed" "si::metre_per_second" (RInt I64)));
  (797, AType (CBin CAdd (CLit "si" "mm" 1) (CLit "si" "km" 1)) (TNamed "si::dim_length" "si::millimetre" (RInt I64)));
  (812, ACmp CEq (CBin CAdd (CBin CMul (CBin CDiv (CBin CMul (CNum (RInt I32) (NInt 3000)) (CRef "si" "m")) (CBin CMul (CNum (RInt I32) (NInt 400)) (CRef "si" "m"))) (CBin CMul (CNum (RInt I32) (NInt 400)) (CRef "si" "m"))) (CBin CRem (CBin CMul (CNum (RInt I32) (NInt 3000)) (CRef "si" "m")) (CBin CMul (CNum (RInt I32) (NInt 400)) (CRef "si" "m")))) (CBin CMul (CNum (RInt I32) (NInt 3000)) (CRef "si" "m")));
  (813, ASame (CBin CAdd (CBin CMul (CBin CDiv (CBin CMul (CNum (RInt I32) (NInt 3000)) (CRef "si" "m")) (CBin CMul (CNum (RInt I32) (NInt 400)) (CRef "si" "m"))) (CBin CMul (CNum (RInt I32) (NInt 400)) (CRef "si" "m"))) (CBin CRem (CBin CMul (CNum (RInt I32) (NInt 3000)) (CRef "si" "m")) (CBin CMul (CNum (RInt I32) (NInt 400)) (CRef "si" "m")))) (CBin CMul (CNum (RInt I32) (NInt 3000)) (CRef "si" "m")));
  (816, ACmp CEq (CBin CAdd (CBin CMul (CBin CDiv (CBin CMul (CNum (RInt I32) (NInt 3)) (CRef "si" "km")) (CBin CMul (CNum (RInt I32) (NInt 400)) (CRef "si" "m"))) (CBin CMul (CNum (RInt I32) (NInt 400)) (CRef "si" "m"))) (CBin CRem (CBin CMul (CNum (RInt I32) (NInt 3)) (CRef "si" "km")) (CBin CMul (CNum (RInt I32) (NInt 400)) (CRef "si" "m")))) (CBin CMul (CNum (RInt I32) (NInt 3)) (CRef "si" "km")));
  (817, ASame (CBin CAdd (CBin CMul (CBin CDiv (CBin CMul (CNum (RInt I32) (NInt 3)) (CRef "si" "km")) (CBin CMul (CNum (RInt I32) (NInt 400)) (CRef "si" "m"))) (CBin CMul (CNum (RInt I32) (NInt 400)) (CRef "si" "m"))) (CBin CRem (CBin CMul (CNum (RInt I32) (NInt 3)) (CRef "si" "km")) (CBin CMul (CNum (RInt I32) (NInt 400)) (CRef "si" "m")))) (CBin CMul (CNum (RInt I32) (NInt 3)) (CRef "si" "km")));
  (820, ACmp CEq (CBin CAdd (CBin CMul (CBin CDiv (CBin CMul (CNum (RInt I32) (NInt 3)) (CRef "si" "km")) (CBin CMul (CNum (RInt I32) (NInt 2)) (CRef "si" "m"))) (CBin CMul (CNum (RInt I32) (NInt 2)) (CRef "si" "m"))) (CBin CRem (CBin CMul (CNum (RInt I32) (NInt 3)) (CRef "si" "km")) (CBin CMul (CNum (RInt I32) (NInt 2)) (CRef "si" "m")))) (CBin CMul (CNum (RInt I32) (NInt 3)) (CRef "si" "km")));
  (821, ASame (CBin CAdd (CBin CMul (CBin CDiv (CBin CMul (CNum (RInt I32) (NInt 3)) (CRef "si" "km")) (CBin CMul (CNum (RInt I32) (NInt 400)) (CRef "si" "m"))) (CBin CMul (CNum (RInt I32) (NInt 400)) (CRef "si" "m"))) (CBin CRem (CBin CMul (CNum (RInt I32) (NInt 3)) (CRef "si" "km")) (CBin CMul (CNum (RInt I32) (NInt 400)) (CRef "si" "m")))) (CBin CMul (CNum (RInt I32) (NInt 3)) (CRef "si" "km")));
  (824, ACmp CEq (CBin CAdd (CBin CMul (CBin CDiv (CBin CMul (CNum (RInt I32) (NInt 3)) (CRef "si" "km")) (CBin CMul (CNum (RInt I32) (NInt 400000)) (CRef "si" "mm"))) (CBin CMul (CNum (RInt I32) (NInt 400000)) (CRef "si" "mm"))) (CBin CRem (CBin CMul (CNum (RInt I32) (NInt 3)) (CRef "si" "km")) (CBin CMul (CNum (RInt I32) (NInt 400000)) (CRef "si" "mm")))) (CBin CMul (CNum (RInt I32) (NInt 3)) (CRef "si" "km")));
  (825, ASame (CBin CAdd (CBin CMul (CBin CDiv (CBin CMul (CNum (RInt I32) (NInt 3)) (CRef "si" "km")) (CBin CMul (CNum (RInt I32) (NInt 400000)) (CRef "si" "mm"))) (CBin CMul (CNum (RInt I32) (NInt 400000)) (CRef "si" "mm"))) (CBin CRem (CBin CMul (CNum (RInt I32) (NInt 3)) (CRef "si" "km")) (CBin CMul (CNum (RInt I32) (NInt 400000)) (CRef "si" "mm")))) (CBin CMul (CNum (RInt I32) (NInt 3)) (CRef "si" "km")));
  (828, ACmp CEq (CBin CAdd (CBin CMul (CBin CDiv (CBin CMul (CNum (RInt I32) (NInt 3)) (CRef "si" "km")) (CBin CMul (CNum (RInt I32) (NInt 2000)) (CRef "si" "mm"))) (CBin CMul (CNum (RInt I32) (NInt 2000)) (CRef "si" "mm"))) (CBin CRem (CBin CMul (CNum (RInt I32) (NInt 3)) (CRef "si" "km")) (CBin CMul (CNum (RInt I32) (NInt 2000)) (CRef "si" "mm")))) (CBin CMul (CNum (RInt I32) (NInt 3)) (CRef "si" "km")));
  (829, ASame (CBin CAdd (CBin CMul (CBin CDiv (CBin CMul (CNum (RInt I32) (NInt 3)) (CRef "si" "km")) (CBin CMul (CNum (RInt I32) (NInt 2000)) (CRef "si" "mm"))) (CBin CMul (CNum (RInt I32) (NInt 2000)) (CRef "si" "mm"))) (CBin CRem (CBin CMul (CNum (RInt I32) (NInt 3)) (CRef "si" "km")) (CBin CMul (CNum (RInt I32) (NInt 2000)) (CRef "si" "mm")))) (CBin CMul (CNum (RInt I32) (NInt 3)) (CRef "si" "km")));
  (832, ACmp CEq (CBin CAdd (CBin CMul (CBin CDiv (CBin CMul (CNum (RInt I32) (NInt 3)) (CRef "si" "km")) (CBin CMul (CNum (RInt I32) (NInt 400)) (CRef "si" "mm"))) (CBin CMul (CNum (RInt I32) (NInt 400)) (CRef "si" "mm"))) (CBin CRem (CBin CMul (CNum (RInt I32) (NInt 3)) (CRef "si" "km")) (CBin CMul (CNum (RInt I32) (NInt 400)) (CRef "si" "mm")))) (CBin CMul (CNum (RInt I32) (NInt 3)) (CRef "si" "km")));
  (833, ASame (CBin CAdd (CBin CMul (CBin CDiv (CBin CMul (CNum (RInt I32) (NInt 3)) (CRef "si" "km")) (CBin CMul (CNum (RInt I32) (NInt 400)) (CRef "si" "mm"))) (CBin CMul (CNum (RInt I32) (NInt 400)) (CRef "si" "mm"))) (CBin CRem (CBin CMul (CNum (RInt I32) (NInt 3)) (CRef "si" "km")) (CBin CMul (CNum (RInt I32) (NInt 400)) (CRef "si" "mm")))) (CBin CMul (CNum (RInt I32) (NInt 3)) (CRef "si" "km")));
  (836, ACmp CEq (CBin CAdd (CBin CMul (CBin CDiv (CBin CMul (CNum (RInt I32) (NInt 3)) (CRef "si" "km")) (CBin CMul (CNum (RInt I32) (NInt 2)) (CRef "si" "mm"))) (CBin CMul (CNum (RInt I32) (NInt 2)) (CRef "si" "mm"))) (CBin CRem (CBin CMul (CNum (RInt I32) (NInt 3)) (CRef "si" "km")) (CBin CMul (CNum (RInt I32) (NInt 2)) (CRef "si" "mm")))) (CBin CMul (CNum (RInt I32) (NInt 3)) (CRef "si" "km")));
  (837, ASame (CBin CAdd (CBin CMul (CBin CDiv (CBin CMul (CNum (RInt I32) (NInt 3)) (CRef "si" "km")) (CBin CMul (CNum (RInt I32) (NInt 2)) (CRef "si" "mm"))) (CBin CMul (CNum (RInt I32) (NInt 2)) (CRef "si" "mm"))) (CBin CRem (CBin CMul (CNum (RInt I32) (NInt 3)) (CRef "si" "km")) (CBin CMul (CNum (RInt I32) (NInt 2)) (CRef "si" "mm")))) (CBin CMul (CNum (RInt I32) (NInt 3)) (CRef "si" "km")));
  (840, ACmp CEq (CBin CAdd (CBin CMul (CBin CDiv (CBin CMul (CNum (RInt I32) (NInt 3000)) (CRef "si" "m")) (CNum (RInt I32) (NInt 400))) (CNum (RInt I32) (NInt 400))) (CBin CRem (CBin CMul (CNum (RInt I32) (NInt 3000)) (CRef "si" "m")) (CNum (RInt I32) (NInt 400)))) (CBin CMul (CNum (RInt I32) (NInt 3000)) (CRef "si" "m")));
  (841, ASame (CBin CAdd (CBin CMul (CBin CDiv (CBin CMul (CNum (RInt I32) (NInt 3000)) (CRef "si" "m")) (CNum (RInt I32) (NInt 400))) (CNum (RInt I32) (NInt 400))) (CBin CRem (CBin CMul (CNum (RInt I32) (NInt 3000)) (CRef "si" "m")) (CNum (RInt I32) (NInt 400)))) (CBin CMul (CNum (RInt I32) (NInt 3000)) (CRef "si" "m")));
  (844, ACmp CEq (CBin CAdd (CBin CMul (CBin CDiv (CBin CMul (CNum (RInt I32) (NInt 3000)) (CRef "si" "m")) (CQuantity (CNum (RInt I32) (NInt 400)))) (CQuantity (CNum (RInt I32) (NInt 400)))) (CBin CRem (CBin CMul (CNum (RInt I32) (NInt 3000)) (CRef "si" "m")) (CQuantity (CNum (RInt I32) (NInt 400))))) (CBin CMul (CNum (RInt I32) (NInt 3000)) (CRef "si" "m")));
  (845, ASame (CBin CAdd (CBin CMul (CBin CDiv (CBin CMul (CNum (RInt I32) (NInt 3000)) (CRef "si" "m")) (CQuantity (CNum (RInt I32) (NInt 400)))) (CQuantity (CNum (RInt I32) (NInt 400)))) (CBin CRem (CBin CMul (CNum (RInt I32) (NInt 3000)) (CRef "si" "m")) (CQuantity (CNum (RInt I32) (NInt 400))))) (CBin CMul (CNum (RInt I32) (NInt 3000)) (CRef "si" "m")));
  (848, ACmp CEq (CBin CAdd (CBin CMul (CBin CDiv (CBin CMul (CNum (RInt I32) (NInt 3)) (CRef "si" "km")) (CQuantity (CNum (RInt I32) (NInt 400)))) (CQuantity (CNum (RInt I32) (NInt 400)))) (CBin CRem (CBin CMul (CNum (RInt I32) (NInt 3)) (CRef "si" "km")) (CQuantity (CNum (RInt I32) (NInt 400))))) (CBin CMul (CNum (RInt I32) (NInt 3)) (CRef "si" "km")));
  (849, ASame (CBin CAdd (CBin CMul (CBin CDiv (CBin CMul (CNum (RInt I32) (NInt 3)) (CRef "si" "km")) (CQuantity (CNum (RInt I32) (NInt 400)))) (CQuantity (CNum (RInt I32) (NInt 400)))) (CBin CRem (CBin CMul (CNum (RInt I32) (NInt 3)) (CRef "si" "km")) (CQuantity (CNum (RInt I32) (NInt 400))))) (CBin CMul (CNum (RInt I32) (NInt 3)) (CRef "si" "km")));
  (852, ACmp CEq (CBin CAdd (CBin CMul (CBin CDiv (CBin CMul (CNum (RInt I32) (NInt 3)) (CRef "si" "km")) (CQuantity (CNum (RInt I32) (NInt 2)))) (CQuantity (CNum (RInt I32) (NInt 2)))) (CBin CRem (CBin CMul (CNum (RInt I32) (NInt 3)) (CRef "si" "km")) (CQuantity (CNum (RInt I32) (NInt 2))))) (CBin CMul (CNum (RInt I32) (NInt 3)) (CRef "si" "km")));
  (853, ASame (CBin CAdd (CBin CMul (CBin CDiv (CBin CMul (CNum (RInt I32) (NInt 3)) (CRef "si" "km")) (CQuantity (CNum (RInt I32) (NInt 2)))) (CQuantity (CNum (RInt I32) (NInt 2)))) (CBin CRem (CBin CMul (CNum (RInt I32) (NInt 3)) (CRef "si" "km")) (CQuantity (CNum (RInt I32) (NInt 2))))) (CBin CMul (CNum (RInt I32) (NInt 3)) (CRef "si" "km")));
  (856, ACmp CEq (CBin CAdd (CBin CMul (CBin CDiv (CBin CMul (CNum (RInt I32) (NInt 3)) (CRef "si" "km")) (CMake (TScaled "dim_one" 1 1000 0 "one" (RInt I32)) (CNum (RInt I32) (NInt 400)))) (CMake (TScaled "dim_one" 1 1000 0 "one" (RInt I32)) (CNum (RInt I32) (NInt 400)))) (CBin CRem (CBin CMul (CNum (RInt I32) (NInt 3)) (CRef "si" "km")) (CMake (TScaled "dim_one" 1 1000 0 "one" (RInt I32)) (CNum (RInt I32) (NInt 400))))) (CBin CMul (CNum (RInt I32) (NInt 3)) (CRef "si" "km")));
  (857, ASame (CBin CAdd (CBin CMul (CBin CDiv (CBin CMul (CNum (RInt I32) (NInt 3)) (CRef "si" "km")) (CMake (TScaled "dim_one" 1 1000 0 "one" (RInt I32)) (CNum (RInt I32) (NInt 400)))) (CMake (TScaled "dim_one" 1 1000 0 "one" (RInt I32)) (CNum (RInt I32) (NInt 400)))) (CBin CRem (CBin CMul (CNum (RInt I32) (NInt 3)) (CRef "si" "km")) (CMake (TScaled "dim_one" 1 1000 0 "one" (RInt I32)) (CNum (RInt I32) (NInt 400))))) (CBin CMul (CNum (RInt I32) (NInt 3)) (CRef "si" "km")))].
Example quantity_conforms : forall est, match compile est On ["generic/dimensionless.h"; "isq/si/area.h"; "isq/si/cgs/length.h"; "isq/si/fps/length.h"; "isq/si/frequency.h"; "isq/si/prefixes.h"; "isq/si/speed.h"; "isq/si/time.h"; "isq/si/volume.h"] with Ok e => failing est e quantity_test | _ => [-1] end = [].
Proof. intros est. vm_compute. reflexivity. Qed.

