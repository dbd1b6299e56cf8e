(** The texts expected by /repo/test/unit_test/runtime/fmt_units_test.cpp and fmt_test.cpp, on the
    model, with the headers the tests include and the library's default mode. *)

From Coq Require Import ZArith Ascii String List Bool SpecFloat.
From Verif Require Import Outcome CInt Root Ratio FixedString Unit Downcast Dim DimOp Rep QuantityCast Quantity System Catalogue Includes RootFloat Format Conform Conform_Text
  SystemProofs CatalogueProofs.
Import ListNotations.
Local Open Scope string_scope.
Local Open Scope Z_scope.

(** test/unit_test/runtime/fmt_units_test.cpp: 143 of its checks. *)
Definition fmt_units_test : list (Z * tassert) := [
  (48, TFormat "{}" (CLit "si" "ns" 1) "1 ns");
  (49, TFormat "{}" (CLit "si" "us" 1) "1 µs");
  (50, TFormat "{}" (CLit "si" "ms" 1) "1 ms");
  (52, TFormat "{:%Q %Aq}" (CLit "si" "us" 1) "1 us");
  (57, TFormat "{}" (CLit "si" "mm" 1) "1 mm");
  (58, TFormat "{}" (CLit "si" "cm" 1) "1 cm");
  (59, TFormat "{}" (CLit "si" "km" 1) "1 km");
  (60, TFormat "{}" (CBin CMul (CNum (RInt I32) (NInt 1)) (CRef "si" "ft")) "1 ft");
  (61, TFormat "{}" (CLit "si::uscs" "ft_us" 1) "1 ft(us)");
  (62, TFormat "{}" (CLit "si::international" "yd" 1) "1 yd");
  (63, TFormat "{}" (CLit "si::international" "in" 1) "1 in");
  (64, TFormat "{}" (CLit "si::international" "fathom" 1) "1 fathom");
  (65, TFormat "{}" (CLit "si::uscs" "fathom_us" 1) "1 fathom(us)");
  (66, TFormat "{}" (CLit "si::international" "mi" 1) "1 mi");
  (67, TFormat "{}" (CLit "si::uscs" "mi_us" 1) "1 mi(us)");
  (68, TFormat "{}" (CLit "si::international" "naut_mi" 1) "1 mi(naut)");
  (69, TFormat "{}" (CLit "si::imperial" "ch" 1) "1 ch");
  (70, TFormat "{}" (CLit "si::imperial" "rd" 1) "1 rd");
  (71, TFormat "{}" (CLit "si::international" "thou" 1) "1 thou");
  (72, TFormat "{}" (CLit "si::iau" "pc" 1) "1 pc");
  (73, TFormat "{}" (CLit "si::iau" "ly" 1) "1 ly");
  (74, TFormat "{}" (CLit "si::iau" "pc" 1) "1 pc");
  (75, TFormat "{}" (CLit "si::iau" "angstrom" 1) "1 angstrom");
  (76, TFormat "{}" (CLit "si" "au" 1) "1 au");
  (77, TFormat "{}" (CLit "si::typographic" "pica_comp" 1) "1 pica(comp)");
  (78, TFormat "{}" (CLit "si::typographic" "pica_prn" 1) "1 pica(prn)");
  (79, TFormat "{}" (CLit "si::typographic" "point_comp" 1) "1 point(comp)");
  (80, TFormat "{}" (CLit "si::typographic" "point_prn" 1) "1 point(prn)");
  (85, TFormat "{}" (CLit "si" "kg" 1) "1 kg");
  (90, TFormat "{}" (CLit "si" "m2" 1) "1 m²");
  (91, TFormat "{}" (CLit "si" "mm2" 1) "1 mm²");
  (92, TFormat "{}" (CLit "si" "cm2" 1) "1 cm²");
  (93, TFormat "{}" (CLit "si" "km2" 1) "1 km²");
  (94, TFormat "{}" (CLit "si::international" "ft2" 1) "1 ft²");
  (96, TFormat "{:%Q %Aq}" (CLit "si" "m2" 1) "1 m^2");
  (97, TFormat "{:%Q %Aq}" (CLit "si" "mm2" 1) "1 mm^2");
  (98, TFormat "{:%Q %Aq}" (CLit "si" "cm2" 1) "1 cm^2");
  (99, TFormat "{:%Q %Aq}" (CLit "si" "km2" 1) "1 km^2");
  (100, TFormat "{:%Q %Aq}" (CLit "si::international" "ft2" 1) "1 ft^2");
  (105, TFormat "{}" (CLit "si" "kg_per_m3" 1) "1 kg/m³");
  (106, TFormat "{:%Q %Aq}" (CLit "si" "kg_per_m3" 1) "1 kg/m^3");
  (111, TFormat "{}" (CLit "si" "R" 1) "1 Ω");
  (112, TFormat "{}" (CLit "si" "kR" 1) "1 kΩ");
  (113, TFormat "{}" (CLit "si" "mR" 1) "1 mΩ");
  (114, TFormat "{}" (CLit "si" "MR" 1) "1 MΩ");
  (116, TFormat "{:%Q %Aq}" (CLit "si" "R" 1) "1 ohm");
  (117, TFormat "{:%Q %Aq}" (CLit "si" "kR" 1) "1 kohm");
  (118, TFormat "{:%Q %Aq}" (CLit "si" "mR" 1) "1 mohm");
  (119, TFormat "{:%Q %Aq}" (CLit "si" "MR" 1) "1 Mohm");
  (124, TFormat "{}" (CLit "si" "V" 1) "1 V");
  (125, TFormat "{}" (CLit "si" "mV" 1) "1 mV");
  (126, TFormat "{}" (CLit "si" "uV" 1) "1 µV");
  (127, TFormat "{}" (CLit "si" "nV" 1) "1 nV");
  (128, TFormat "{}" (CLit "si" "pV" 1) "1 pV");
  (130, TFormat "{:%Q %Aq}" (CLit "si" "uV" 1) "1 uV");
  (135, TFormat "{}" (CLit "si" "m3" 1) "1 m³");
  (136, TFormat "{}" (CLit "si" "mm3" 1) "1 mm³");
  (137, TFormat "{}" (CLit "si" "cm3" 1) "1 cm³");
  (138, TFormat "{}" (CLit "si" "km3" 1) "1 km³");
  (139, TFormat "{}" (CLit "si::international" "ft3" 1) "1 ft³");
  (141, TFormat "{:%Q %Aq}" (CLit "si" "m3" 1) "1 m^3");
  (142, TFormat "{:%Q %Aq}" (CLit "si" "mm3" 1) "1 mm^3");
  (143, TFormat "{:%Q %Aq}" (CLit "si" "cm3" 1) "1 cm^3");
  (144, TFormat "{:%Q %Aq}" (CLit "si" "km3" 1) "1 km^3");
  (145, TFormat "{:%Q %Aq}" (CLit "si::international" "ft3" 1) "1 ft^3");
  (150, TFormat "{}" (CLit "si" "mHz" 1) "1 mHz");
  (151, TFormat "{}" (CLit "si" "kHz" 1) "1 kHz");
  (152, TFormat "{}" (CLit "si" "MHz" 1) "1 MHz");
  (153, TFormat "{}" (CLit "si" "GHz" 1) "1 GHz");
  (154, TFormat "{}" (CLit "si" "THz" 1) "1 THz");
  (159, TFormat "{}" (CLit "si" "m_per_s" 1) "1 m/s");
  (160, TFormat "{}" (CLit "si" "km_per_h" 1) "1 km/h");
  (161, TFormat "{}" (CLit "si::international" "mi_per_h" 1) "1 mi/h");
  (166, TFormat "{}" (CLit "si" "m_per_s2" 1) "1 m/s²");
  (167, TFormat "{:%Q %Aq}" (CLit "si" "m_per_s2" 1) "1 m/s^2");
  (172, TFormat "{}" (CLit "si" "kg_m_per_s" 1) "1 kg ⋅ m/s");
  (173, TFormat "{:%Q %Aq}" (CLit "si" "kg_m_per_s" 1) "1 kg m/s");
  (178, TFormat "{}" (CLit "si" "mJ" 1) "1 mJ");
  (179, TFormat "{}" (CLit "si" "kJ" 1) "1 kJ");
  (180, TFormat "{}" (CLit "si" "MJ" 1) "1 MJ");
  (181, TFormat "{}" (CLit "si" "GJ" 1) "1 GJ");
  (186, TFormat "{}" (CLit "si" "mW" 1) "1 mW");
  (187, TFormat "{}" (CLit "si" "kW" 1) "1 kW");
  (188, TFormat "{}" (CLit "si" "MW" 1) "1 MW");
  (189, TFormat "{}" (CLit "si" "GW" 1) "1 GW");
  (194, TFormat "{}" (CLit "si" "N_per_m" 1) "1 N/m");
  (199, TFormat "{}" (CLit "si" "T" 1) "1 T");
  (204, TFormat "{}" (CLit "si" "Wb" 1) "1 Wb");
  (205, TFormat "{}" (CLit "si" "G" 1) "1 G");
  (210, TFormat "{}" (CLit "si" "H" 1) "1 H");
  (211, TFormat "{}" (CLit "si" "mH" 1) "1 mH");
  (216, TFormat "{}" (CLit "si" "S" 1) "1 S");
  (217, TFormat "{}" (CLit "si" "nS" 1) "1 nS");
  (222, TFormat "{}" (CLit "si" "kat" 1) "1 kat");
  (223, TFormat "{}" (CLit "si" "U" 1) "1 U");
  (228, TFormat "{}" (CLit "si" "Gy" 1) "1 Gy");
  (229, TFormat "{}" (CLit "si" "kGy" 1) "1 kGy");
  (230, TFormat "{}" (CLit "si" "mGy" 1) "1 mGy");
  (235, TFormat "{}" (CBin CAdd (CLit "si::international" "in" 1) (CLit "si::international" "yd" 1)) "37 in");
  (240, TFormat "{}" (CLit "si" "A_per_m2" 1) "1 A/m²");
  (241, TFormat "{:%Q %Aq}" (CLit "si" "A_per_m2" 1) "1 A/m^2");
  (246, TFormat "{}" (CLit "si" "mol_per_m3" 1) "1 mol/m³");
  (247, TFormat "{:%Q %Aq}" (CLit "si" "mol_per_m3" 1) "1 mol/m^3");
  (252, TFormat "{}" (CLit "si" "cd_per_m2" 1) "1 cd/m²");
  (253, TFormat "{:%Q %Aq}" (CLit "si" "cd_per_m2" 1) "1 cd/m^2");
  (258, TFormat "{}" (CLit "si" "Pa_s" 1) "1 Pa ⋅ s");
  (259, TFormat "{:%Q %Aq}" (CLit "si" "Pa_s" 1) "1 Pa s");
  (264, TFormat "{}" (CLit "si" "J_per_K" 1) "1 J/K");
  (269, TFormat "{}" (CLit "si" "J_per_kg_K" 1) "1 J ⋅ K⁻¹ ⋅ kg⁻¹");
  (270, TFormat "{:%Q %Aq}" (CLit "si" "J_per_kg_K" 1) "1 J K^-1 kg^-1");
  (275, TFormat "{}" (CLit "si" "J_per_mol_K" 1) "1 J ⋅ K⁻¹ ⋅ mol⁻¹");
  (276, TFormat "{:%Q %Aq}" (CLit "si" "J_per_mol_K" 1) "1 J K^-1 mol^-1");
  (281, TFormat "{}" (CLit "si" "W_per_m_K" 1) "1 W ⋅ m⁻¹ ⋅ K⁻¹");
  (282, TFormat "{:%Q %Aq}" (CLit "si" "W_per_m_K" 1) "1 W m^-1 K^-1");
  (287, TFormat "{}" (CLit "si" "V_per_m" 1) "1 V/m");
  (292, TFormat "{}" (CLit "si" "C_per_m3" 1) "1 C/m³");
  (293, TFormat "{:%Q %Aq}" (CLit "si" "C_per_m3" 1) "1 C/m^3");
  (294, TFormat "{}" (CLit "si" "C_per_m2" 1) "1 C/m²");
  (295, TFormat "{:%Q %Aq}" (CLit "si" "C_per_m2" 1) "1 C/m^2");
  (300, TFormat "{}" (CLit "si" "F_per_m" 1) "1 F/m");
  (305, TFormat "{}" (CLit "si" "H_per_m" 1) "1 H/m");
  (310, TFormat "{}" (CLit "si" "J_per_mol" 1) "1 J/mol");
  (315, TFormat "{}" (CLit "si" "N_m_per_rad" 1) "1 N ⋅ m/rad");
  (320, TFormat "{}" (CBin CMul (CNum (RInt I32) (NInt 1)) (CRef "iec80000" "bit")) "1 bit");
  (321, TFormat "{}" (CBin CMul (CNum (RInt I32) (NInt 1)) (CRef "iec80000" "kbit")) "1 kbit");
  (322, TFormat "{}" (CBin CMul (CNum (RInt I32) (NInt 1)) (CRef "iec80000" "Tibit")) "1 Tibit");
  (323, TFormat "{}" (CBin CMul (CNum (RInt I32) (NInt 1)) (CRef "iec80000" "B")) "1 B");
  (324, TFormat "{}" (CBin CMul (CNum (RInt I32) (NInt 1)) (CRef "iec80000" "kB")) "1 kB");
  (325, TFormat "{}" (CBin CMul (CNum (RInt I32) (NInt 1)) (CRef "iec80000" "TiB")) "1 TiB");
  (330, TFormat "{}" (CBin CMul (CNum (RInt I32) (NInt 1)) (CBin CDiv (CRef "iec80000" "B") (CRef "si" "s"))) "1 B/s");
  (331, TFormat "{}" (CBin CMul (CNum (RInt I32) (NInt 1)) (CBin CDiv (CRef "iec80000" "kB") (CRef "si" "s"))) "1 kB/s");
  (332, TFormat "{}" (CBin CMul (CNum (RInt I32) (NInt 1)) (CBin CDiv (CRef "iec80000" "TB") (CRef "si" "s"))) "1 TB/s");
  (337, TFormat "{}" (CBin CMul (CNum (RInt I32) (NInt 1)) (CRef "iec80000" "E")) "1 E");
  (343, TFormat "{}" (CBin CMul (CNum (RInt I32) (NInt 1)) (CRef "iec80000" "Bd")) "1 Bd");
  (344, TFormat "{}" (CBin CMul (CNum (RInt I32) (NInt 1)) (CRef "iec80000" "kBd")) "1 kBd");
  (345, TFormat "{}" (CBin CMul (CNum (RInt I32) (NInt 1)) (CRef "iec80000" "TBd")) "1 TBd");
  (346, TFormat "{}" (CCastUnit "iec80000::baud" (CBin CDiv (CNum (RInt I32) (NInt 4)) (CBin CMul (CNum (RInt I32) (NInt 2)) (CRef "si" "s")))) "2 Bd");
  (351, TFormat "{}" (CBin CMul (CBin CMul (CLit "si::international" "mi" 1) (CLit "si::international" "mi" 1)) (CLit "si::international" "mi" 1)) "1 [15900351812136/3814697265625 × 10⁹] m³");
  (352, TFormat "{}" (CBin CMul (CLit "si" "au" 1) (CLit "si" "au" 1)) "1 [2237952291797391849 × 10⁴] m²");
  (354, TFormat "{:%Q %Aq}" (CBin CMul (CBin CMul (CLit "si::international" "mi" 1) (CLit "si::international" "mi" 1)) (CLit "si::international" "mi" 1)) "1 [15900351812136/3814697265625 x 10^9] m^3");
  (355, TFormat "{:%Q %Aq}" (CBin CMul (CLit "si" "au" 1) (CLit "si" "au" 1)) "1 [2237952291797391849 x 10^4] m^2");
  (360, TFormat "{}" (CMake (TScaled "si::dim_mass" 2 3 0 "si::gram" (RFlt F64)) (CNum (RInt I32) (NInt 1))) "1 [2/3 × 10⁻³] kg");
  (361, TFormat "{:%Q %Aq}" (CMake (TScaled "si::dim_mass" 2 3 0 "si::gram" (RFlt F64)) (CNum (RInt I32) (NInt 1))) "1 [2/3 x 10^-3] kg")].
Example fmt_units_conforms : match compile (runtime_estimate no_estimate) On ["isq/iec80000/iec80000.h"; "isq/si/iau/iau.h"; "isq/si/imperial/imperial.h"; "isq/si/international/international.h"; "isq/si/si.h"; "isq/si/typographic/typographic.h"; "isq/si/uscs/uscs.h"] with Ok e => failing_texts (runtime_estimate no_estimate) e fmt_units_test | _ => [-1] end = [].
Proof. vm_compute. reflexivity. Qed.

(** test/unit_test/runtime/fmt_test.cpp: 229 of its checks. *)
Definition fmt_test : list (Z * tassert) := [
  (53, TStream 0 " " false (CLit "si" "W" 60) "60 W");
  (58, TBoth "{}" (CLit "si" "W" 60));
  (63, TBoth "{:%Q %q}" (CLit "si" "W" 60));
  (74, TStream 0 " " false (CFlt "si" "Pa" (S754_finite false 18437736874454810624 (-54))) "1023.5 Pa");
  (79, TBoth "{}" (CFlt "si" "Pa" (S754_finite false 18437736874454810624 (-54))));
  (84, TBoth "{:%Q %q}" (CFlt "si" "Pa" (S754_finite false 18437736874454810624 (-54))));
  (96, TStream 0 " " false (CLit "si" "us" 125) "125 µs");
  (101, TBoth "{}" (CLit "si" "us" 125));
  (106, TBoth "{:%Q %q}" (CLit "si" "us" 125));
  (119, TStream 0 " " false (CMake (TScaled "si::dim_length" 1 1 6 "si::metre" (RFlt F64)) (CNum (RInt I32) (NInt 123))) "123 Mm");
  (124, TBoth "{}" (CMake (TScaled "si::dim_length" 1 1 6 "si::metre" (RFlt F64)) (CNum (RInt I32) (NInt 123))));
  (129, TBoth "{:%Q %q}" (CMake (TScaled "si::dim_length" 1 1 6 "si::metre" (RFlt F64)) (CNum (RInt I32) (NInt 123))));
  (140, TStream 0 " " false (CMake (TScaled "si::dim_energy" 1 1 (-2) "si::joule" (RFlt F64)) (CNum (RInt I32) (NInt 60))) "60 cJ");
  (145, TBoth "{}" (CMake (TScaled "si::dim_energy" 1 1 (-2) "si::joule" (RFlt F64)) (CNum (RInt I32) (NInt 60))));
  (150, TBoth "{:%Q %q}" (CMake (TScaled "si::dim_energy" 1 1 (-2) "si::joule" (RFlt F64)) (CNum (RInt I32) (NInt 60))));
  (162, TStream 0 " " false (CLit "si" "l" 2) "2 l");
  (167, TBoth "{}" (CLit "si" "l" 2));
  (172, TBoth "{:%Q %q}" (CLit "si" "l" 2));
  (183, TStream 0 " " false (CLit "si" "ml" 2) "2 ml");
  (188, TBoth "{}" (CLit "si" "ml" 2));
  (193, TBoth "{:%Q %q}" (CLit "si" "ml" 2));
  (208, TStream 0 " " false (CBin CDiv (CBin CDiv (CLit "si" "m" 20) (CLit "si" "s" 2)) (CLit "si" "s" 1)) "10 m/s²");
  (213, TBoth "{}" (CBin CDiv (CBin CDiv (CLit "si" "m" 20) (CLit "si" "s" 2)) (CLit "si" "s" 1)));
  (218, TBoth "{:%Q %q}" (CBin CDiv (CBin CDiv (CLit "si" "m" 20) (CLit "si" "s" 2)) (CLit "si" "s" 1)));
  (229, TStream 0 " " false (CBin CMul (CBin CMul (CLit "si" "m" 2) (CLit "si" "m" 1)) (CLit "si" "m" 1)) "2 m³");
  (234, TBoth "{}" (CBin CMul (CBin CMul (CLit "si" "m" 2) (CLit "si" "m" 1)) (CLit "si" "m" 1)));
  (239, TBoth "{:%Q %q}" (CBin CMul (CBin CMul (CLit "si" "m" 2) (CLit "si" "m" 1)) (CLit "si" "m" 1)));
  (250, TStream 0 " " false (CBin CDiv (CLit "si" "N" 20) (CLit "si" "m" 2)) "10 N/m");
  (255, TBoth "{}" (CBin CDiv (CLit "si" "N" 20) (CLit "si" "m" 2)));
  (260, TBoth "{:%Q %q}" (CBin CDiv (CLit "si" "N" 20) (CLit "si" "m" 2)));
  (274, TStream 0 " " false (CBin CDiv (CLit "si" "km" 20) (CLit "si" "h" 2)) "10 km/h");
  (279, TBoth "{}" (CBin CDiv (CLit "si" "km" 20) (CLit "si" "h" 2)));
  (284, TBoth "{:%Q %q}" (CBin CDiv (CLit "si" "km" 20) (CLit "si" "h" 2)));
  (321, TStream 0 " " false (CBin CMul (CLit "si" "N" 4) (CLit "si" "cm" 2)) "8 cJ");
  (326, TBoth "{}" (CBin CMul (CLit "si" "N" 4) (CLit "si" "cm" 2)));
  (331, TBoth "{:%Q %q}" (CBin CMul (CLit "si" "N" 4) (CLit "si" "cm" 2)));
  (342, TStream 0 " " false (CBin CMul (CBin CMul (CLit "si" "um" 2) (CLit "si" "cm" 2)) (CLit "si" "cm" 2)) "8 × 10⁻¹⁰ m³");
  (347, TBoth "{}" (CBin CMul (CBin CMul (CLit "si" "um" 2) (CLit "si" "cm" 2)) (CLit "si" "cm" 2)));
  (352, TBoth "{:%Q %q}" (CBin CMul (CBin CMul (CLit "si" "um" 2) (CLit "si" "cm" 2)) (CLit "si" "cm" 2)));
  (363, TStream 0 " " false (CBin CDiv (CBin CMul (CNum (RInt I32) (NInt 4)) (CLit "si" "min" 2)) (CBin CMul (CLit "si" "s" 2) (CLit "si" "s" 2))) "2 [6 × 10¹] Hz");
  (368, TBoth "{}" (CBin CDiv (CBin CMul (CNum (RInt I32) (NInt 4)) (CLit "si" "min" 2)) (CBin CMul (CLit "si" "s" 2) (CLit "si" "s" 2))));
  (373, TBoth "{:%Q %q}" (CBin CDiv (CBin CMul (CNum (RInt I32) (NInt 4)) (CLit "si" "min" 2)) (CBin CMul (CLit "si" "s" 2) (CLit "si" "s" 2))));
  (384, TStream 0 " " false (CBin CDiv (CLit "si" "J" 20) (CLit "si" "min" 2)) "10 [1/6 × 10⁻¹] W");
  (389, TBoth "{}" (CBin CDiv (CLit "si" "J" 20) (CLit "si" "min" 2)));
  (394, TBoth "{:%Q %q}" (CBin CDiv (CLit "si" "J" 20) (CLit "si" "min" 2)));
  (405, TStream 0 " " false (CBin CDiv (CLit "si" "kJ" 60) (CLit "si" "min" 2)) "30 [1/6 × 10²] W");
  (410, TBoth "{}" (CBin CDiv (CLit "si" "kJ" 60) (CLit "si" "min" 2)));
  (415, TBoth "{:%Q %q}" (CBin CDiv (CLit "si" "kJ" 60) (CLit "si" "min" 2)));
  (429, TStream 0 " " false (CBin CDiv (CLit "si" "m" 4) (CLit "si" "m" 2)) "2");
  (434, TBoth "{}" (CBin CDiv (CLit "si" "m" 4) (CLit "si" "m" 2)));
  (439, TFormat "{:%Q %q}" (CBin CDiv (CLit "si" "m" 4) (CLit "si" "m" 2)) "2 ");
  (450, TStream 0 " " false (CBin CDiv (CLit "si" "km" 4) (CLit "si" "m" 2)) "2 × 10³");
  (455, TBoth "{}" (CBin CDiv (CLit "si" "km" 4) (CLit "si" "m" 2)));
  (460, TFormat "{:%Q %q}" (CBin CDiv (CLit "si" "km" 4) (CLit "si" "m" 2)) "2 × 10³");
  (475, TStream 0 " " false (CCastUnit "percent" (CBin CDiv (CFlt "si" "m" (S754_finite false 17293822569102704640 (-60))) (CFlt "si" "m" (S754_finite false 14411518807585587200 (-57))))) "15 %");
  (480, TBoth "{}" (CCastUnit "percent" (CBin CDiv (CFlt "si" "m" (S754_finite false 17293822569102704640 (-60))) (CFlt "si" "m" (S754_finite false 14411518807585587200 (-57))))));
  (485, TBoth "{:%Q %q}" (CCastUnit "percent" (CBin CDiv (CFlt "si" "m" (S754_finite false 17293822569102704640 (-60))) (CFlt "si" "m" (S754_finite false 14411518807585587200 (-57))))));
  (501, TStream 0 " " false (CBin CMul (CBin CMul (CLit "si" "s" 2) (CLit "si" "m" 2)) (CLit "si" "kg" 2)) "8 m ⋅ kg ⋅ s");
  (506, TBoth "{}" (CBin CMul (CBin CMul (CLit "si" "s" 2) (CLit "si" "m" 2)) (CLit "si" "kg" 2)));
  (511, TBoth "{:%Q %q}" (CBin CMul (CBin CMul (CLit "si" "s" 2) (CLit "si" "m" 2)) (CLit "si" "kg" 2)));
  (522, TStream 0 " " false (CBin CMul (CBin CMul (CFlt "si" "s" (S754_finite false 9223372036854775808 (-62))) (CMake (TNamed "si::cgs::dim_length" "si::centimetre" (RFlt F64)) (CNum (RInt I32) (NInt 2)))) (CMake (TNamed "si::cgs::dim_mass" "si::gram" (RFlt F64)) (CNum (RInt I32) (NInt 2)))) "8 cm ⋅ g ⋅ s");
  (527, TBoth "{}" (CBin CMul (CBin CMul (CFlt "si" "s" (S754_finite false 9223372036854775808 (-62))) (CMake (TNamed "si::cgs::dim_length" "si::centimetre" (RFlt F64)) (CNum (RInt I32) (NInt 2)))) (CMake (TNamed "si::cgs::dim_mass" "si::gram" (RFlt F64)) (CNum (RInt I32) (NInt 2)))));
  (532, TBoth "{:%Q %q}" (CBin CMul (CBin CMul (CFlt "si" "s" (S754_finite false 9223372036854775808 (-62))) (CMake (TNamed "si::cgs::dim_length" "si::centimetre" (RFlt F64)) (CNum (RInt I32) (NInt 2)))) (CMake (TNamed "si::cgs::dim_mass" "si::gram" (RFlt F64)) (CNum (RInt I32) (NInt 2)))));
  (544, TStream 0 " " false (CBin CMul (CLit "si" "km" 4) (CLit "si" "s" 2)) "8 × 10³ m ⋅ s");
  (549, TBoth "{}" (CBin CMul (CLit "si" "km" 4) (CLit "si" "s" 2)));
  (554, TBoth "{:%Q %q}" (CBin CMul (CLit "si" "km" 4) (CLit "si" "s" 2)));
  (565, TStream 0 " " false (CBin CDiv (CBin CMul (CLit "si" "kg" 4) (CLit "si" "min" 2)) (CBin CMul (CLit "si" "s" 2) (CLit "si" "s" 2))) "2 [6 × 10¹] kg/s");
  (570, TBoth "{}" (CBin CDiv (CBin CMul (CLit "si" "kg" 4) (CLit "si" "min" 2)) (CBin CMul (CLit "si" "s" 2) (CLit "si" "s" 2))));
  (575, TBoth "{:%Q %q}" (CBin CDiv (CBin CMul (CLit "si" "kg" 4) (CLit "si" "min" 2)) (CBin CMul (CLit "si" "s" 2) (CLit "si" "s" 2))));
  (586, TStream 0 " " false (CBin CDiv (CLit "si" "kg" 20) (CLit "si" "min" 2)) "10 [1/6 × 10⁻¹] kg/s");
  (591, TBoth "{}" (CBin CDiv (CLit "si" "kg" 20) (CLit "si" "min" 2)));
  (596, TBoth "{:%Q %q}" (CBin CDiv (CLit "si" "kg" 20) (CLit "si" "min" 2)));
  (607, TStream 0 " " false (CBin CMul (CBin CMul (CFlt "si" "s" (S754_finite false 9223372036854775808 (-62))) (CMake (TNamed "si::cgs::dim_length" "si::metre" (RFlt F64)) (CNum (RInt I32) (NInt 2)))) (CMake (TNamed "si::cgs::dim_mass" "si::kilogram" (RFlt F64)) (CNum (RInt I32) (NInt 2)))) "8 × 10⁵ cm ⋅ g ⋅ s");
  (612, TBoth "{}" (CBin CMul (CBin CMul (CFlt "si" "s" (S754_finite false 9223372036854775808 (-62))) (CMake (TNamed "si::cgs::dim_length" "si::metre" (RFlt F64)) (CNum (RInt I32) (NInt 2)))) (CMake (TNamed "si::cgs::dim_mass" "si::kilogram" (RFlt F64)) (CNum (RInt I32) (NInt 2)))));
  (617, TBoth "{:%Q %q}" (CBin CMul (CBin CMul (CFlt "si" "s" (S754_finite false 9223372036854775808 (-62))) (CMake (TNamed "si::cgs::dim_length" "si::metre" (RFlt F64)) (CNum (RInt I32) (NInt 2)))) (CMake (TNamed "si::cgs::dim_mass" "si::kilogram" (RFlt F64)) (CNum (RInt I32) (NInt 2)))));
  (628, TStream 0 " " false (CBin CDiv (CLit "si" "min" 60) (CLit "si" "km" 2)) "30 [6 × 10⁻²] 1/m ⋅ s");
  (633, TBoth "{}" (CBin CDiv (CLit "si" "min" 60) (CLit "si" "km" 2)));
  (638, TBoth "{:%Q %q}" (CBin CDiv (CLit "si" "min" 60) (CLit "si" "km" 2)));
  (649, TStream 0 " " false (CBin CMul (CLit "si" "m" 4) (CLit "si" "s" 2)) "8 m ⋅ s");
  (654, TBoth "{}" (CBin CMul (CLit "si" "m" 4) (CLit "si" "s" 2)));
  (659, TBoth "{:%Q %q}" (CBin CMul (CLit "si" "m" 4) (CLit "si" "s" 2)));
  (670, TStream 0 " " false (CBin CMul (CBin CMul (CLit "si" "m" 4) (CLit "si" "s" 2)) (CLit "si" "s" 2)) "16 m ⋅ s²");
  (675, TBoth "{}" (CBin CMul (CBin CMul (CLit "si" "m" 4) (CLit "si" "s" 2)) (CLit "si" "s" 2)));
  (680, TBoth "{:%Q %q}" (CBin CMul (CBin CMul (CLit "si" "m" 4) (CLit "si" "s" 2)) (CLit "si" "s" 2)));
  (691, TStream 0 " " false (CBin CDiv (CBin CDiv (CLit "si" "s" 8) (CLit "si" "m" 2)) (CLit "si" "m" 2)) "2 1/m² ⋅ s");
  (696, TBoth "{}" (CBin CDiv (CBin CDiv (CLit "si" "s" 8) (CLit "si" "m" 2)) (CLit "si" "m" 2)));
  (701, TBoth "{:%Q %q}" (CBin CDiv (CBin CDiv (CLit "si" "s" 8) (CLit "si" "m" 2)) (CLit "si" "m" 2)));
  (712, TStream 0 " " false (CBin CDiv (CBin CDiv (CLit "si" "m" 8) (CLit "si" "kg" 2)) (CLit "si" "kg" 2)) "2 m/kg²");
  (717, TBoth "{}" (CBin CDiv (CBin CDiv (CLit "si" "m" 8) (CLit "si" "kg" 2)) (CLit "si" "kg" 2)));
  (722, TBoth "{:%Q %q}" (CBin CDiv (CBin CDiv (CLit "si" "m" 8) (CLit "si" "kg" 2)) (CLit "si" "kg" 2)));
  (733, TStream 0 " " false (CSqrt (CLit "si" "m" 9)) "3 m^(1/2)");
  (738, TBoth "{}" (CSqrt (CLit "si" "m" 9)));
  (743, TBoth "{:%Q %q}" (CSqrt (CLit "si" "m" 9)));
  (754, TStream 0 " " false (CSqrt (CBin CDiv (CNum (RInt I32) (NInt 9)) (CLit "si" "m" 1))) "3 1/m^(1/2)");
  (759, TBoth "{}" (CSqrt (CBin CDiv (CNum (RInt I32) (NInt 9)) (CLit "si" "m" 1))));
  (764, TBoth "{:%Q %q}" (CSqrt (CBin CDiv (CNum (RInt I32) (NInt 9)) (CLit "si" "m" 1))));
  (776, TFormat "{:%Q}" (CLit "si" "km_per_h" 123) "123");
  (781, TFormat "{:%Q}" (CBin CSub (CLit "si" "m" 5) (CLit "si" "m" 10)) "-5");
  (789, TFormat "{:%Q}" (CBin CDiv (CFlt "si" "km" (S754_finite false 15924728282382073856 (-56))) (CLit "si" "h" 2)) "110.5");
  (794, TFormat "{:%Q}" (CBin CSub (CFlt "si" "m" (S754_finite false 14480694097861998019 (-62))) (CLit "si" "m" 10)) "-6.86");
  (799, TFormat "{:%Q}" (CMake (TNamed "si::dim_length" "si::metre" (RFlt F64)) (CNum (RFlt F64) (NFlt S754_nan))) "nan");
  (804, TFormat "{:%Q}" (CMake (TNamed "si::dim_length" "si::metre" (RFlt F64)) (CNum (RFlt F64) (NFlt (S754_infinity false)))) "inf");
  (809, TFormat "{:%Q}" (CMake (TNamed "si::dim_length" "si::metre" (RFlt F64)) (CNeg (CNum (RFlt F64) (NFlt (S754_infinity false))))) "-inf");
  (818, TFormat "{:%q}" (CLit "si" "km_per_h" 123) "km/h");
  (823, TFormat "{:%Aq}" (CLit "si" "km_per_h" 123) "km/h");
  (830, TFormat "{:%q}" (CLit "si" "kR" 123) "kΩ");
  (835, TFormat "{:%q}" (CLit "si" "uV" 123) "µV");
  (843, TFormat "{:%Aq}" (CLit "si" "kR" 123) "kohm");
  (848, TFormat "{:%Aq}" (CLit "si" "uV" 123) "uV");
  (857, TFormat "{:%Q%q}" (CLit "si" "km_per_h" 123) "123km/h");
  (862, TFormat "{:%Q###%q}" (CLit "si" "km_per_h" 123) "123###km/h");
  (867, TFormat "{:%q %Q}" (CLit "si" "km_per_h" 123) "km/h 123");
  (872, TFormat "{:%Q%t%q}" (CLit "si" "km_per_h" 123) ("123" ++ tab ++ "km/h"));
  (877, TFormat "{:%Q%n%q}" (CLit "si" "km_per_h" 123) ("123" ++ newline ++ "km/h"));
  (882, TFormat "{:%Q%% %q}" (CLit "si" "km_per_h" 123) "123% km/h");
  (895, TStream 10 " " false (CLit "si" "m" 123) "     123 m");
  (901, TStream 10 " " false (CLit "si" "m" 123) "     123 m");
  (907, TStream 10 " " true (CLit "si" "m" 123) "123 m     ");
  (913, TStream 10 "*" false (CLit "si" "m" 123) "*****123 m");
  (919, TStream 10 "*" false (CLit "si" "m" 123) "*****123 m");
  (925, TStream 10 "*" true (CLit "si" "m" 123) "123 m*****");
  (931, TFormat "|{:0}|" (CLit "si" "m" 123) "|123 m|");
  (932, TFormat "|{:10}|" (CLit "si" "m" 123) "|     123 m|");
  (933, TFormat "|{:<10}|" (CLit "si" "m" 123) "|123 m     |");
  (934, TFormat "|{:>10}|" (CLit "si" "m" 123) "|     123 m|");
  (935, TFormat "|{:^10}|" (CLit "si" "m" 123) "|  123 m   |");
  (936, TFormat "|{:*<10}|" (CLit "si" "m" 123) "|123 m*****|");
  (937, TFormat "|{:*>10}|" (CLit "si" "m" 123) "|*****123 m|");
  (938, TFormat "|{:*^10}|" (CLit "si" "m" 123) "|**123 m***|");
  (943, TFormat "|{:0%Q%q}|" (CLit "si" "m" 123) "|123m|");
  (944, TFormat "|{:10%Q%q}|" (CLit "si" "m" 123) "|      123m|");
  (945, TFormat "|{:<10%Q%q}|" (CLit "si" "m" 123) "|123m      |");
  (946, TFormat "|{:>10%Q%q}|" (CLit "si" "m" 123) "|      123m|");
  (947, TFormat "|{:^10%Q%q}|" (CLit "si" "m" 123) "|   123m   |");
  (948, TFormat "|{:*<10%Q%q}|" (CLit "si" "m" 123) "|123m******|");
  (949, TFormat "|{:*>10%Q%q}|" (CLit "si" "m" 123) "|******123m|");
  (950, TFormat "|{:*^10%Q%q}|" (CLit "si" "m" 123) "|***123m***|");
  (955, TFormat "|{:0%Q}|" (CLit "si" "m" 123) "|123|");
  (956, TFormat "|{:10%Q}|" (CLit "si" "m" 123) "|       123|");
  (957, TFormat "|{:<10%Q}|" (CLit "si" "m" 123) "|123       |");
  (958, TFormat "|{:>10%Q}|" (CLit "si" "m" 123) "|       123|");
  (959, TFormat "|{:^10%Q}|" (CLit "si" "m" 123) "|   123    |");
  (960, TFormat "|{:*<10%Q}|" (CLit "si" "m" 123) "|123*******|");
  (961, TFormat "|{:*>10%Q}|" (CLit "si" "m" 123) "|*******123|");
  (962, TFormat "|{:*^10%Q}|" (CLit "si" "m" 123) "|***123****|");
  (967, TFormat "|{:0%q}|" (CLit "si" "m" 123) "|m|");
  (968, TFormat "|{:10%q}|" (CLit "si" "m" 123) "|m         |");
  (969, TFormat "|{:<10%q}|" (CLit "si" "m" 123) "|m         |");
  (970, TFormat "|{:>10%q}|" (CLit "si" "m" 123) "|         m|");
  (971, TFormat "|{:^10%q}|" (CLit "si" "m" 123) "|    m     |");
  (972, TFormat "|{:*<10%q}|" (CLit "si" "m" 123) "|m*********|");
  (973, TFormat "|{:*>10%q}|" (CLit "si" "m" 123) "|*********m|");
  (974, TFormat "|{:*^10%q}|" (CLit "si" "m" 123) "|****m*****|");
  (985, TFormat "{0:%Q%q},{0:%+Q%q},{0:%-Q%q},{0:% Q%q}" (CLit "si" "m" 1) "1m,+1m,1m, 1m");
  (986, TFormat "{0:%Q%q},{0:%+Q%q},{0:%-Q%q},{0:% Q%q}" (CNeg (CLit "si" "m" 1)) "-1m,-1m,-1m,-1m");
  (987, TFormat "{0:%Q%q},{0:%+Q%q},{0:%-Q%q},{0:% Q%q}" (CMake (TNamed "si::dim_length" "si::metre" (RFlt F64)) (CNum (RFlt F64) (NFlt (S754_infinity false)))) "infm,+infm,infm, infm");
  (988, TFormat "{0:%Q%q},{0:%+Q%q},{0:%-Q%q},{0:% Q%q}" (CMake (TNamed "si::dim_length" "si::metre" (RFlt F64)) (CNum (RFlt F64) (NFlt S754_nan))) "nanm,+nanm,nanm, nanm");
  (993, TFormat "{0:%Q},{0:%+Q},{0:%-Q},{0:% Q}" (CLit "si" "m" 1) "1,+1,1, 1");
  (994, TFormat "{0:%Q},{0:%+Q},{0:%-Q},{0:% Q}" (CNeg (CLit "si" "m" 1)) "-1,-1,-1,-1");
  (995, TFormat "{0:%Q},{0:%+Q},{0:%-Q},{0:% Q}" (CMake (TNamed "si::dim_length" "si::metre" (RFlt F64)) (CNum (RFlt F64) (NFlt (S754_infinity false)))) "inf,+inf,inf, inf");
  (996, TFormat "{0:%Q},{0:%+Q},{0:%-Q},{0:% Q}" (CMake (TNamed "si::dim_length" "si::metre" (RFlt F64)) (CNum (RFlt F64) (NFlt S754_nan))) "nan,+nan,nan, nan");
  (1004, TFormat "{:%.0Q %q}" (CFlt "si" "m" (S754_finite false 11386252779497220735 (-63))) "1 m");
  (1005, TFormat "{:%.1Q %q}" (CFlt "si" "m" (S754_finite false 11386252779497220735 (-63))) "1.2 m");
  (1006, TFormat "{:%.2Q %q}" (CFlt "si" "m" (S754_finite false 11386252779497220735 (-63))) "1.23 m");
  (1010, TFormat "{:%.3Q %q}" (CFlt "si" "m" (S754_finite false 11386252779497220735 (-63))) "1.235 m");
  (1012, TFormat "{:%.4Q %q}" (CFlt "si" "m" (S754_finite false 11386252779497220735 (-63))) "1.2345 m");
  (1013, TFormat "{:%.5Q %q}" (CFlt "si" "m" (S754_finite false 11386252779497220735 (-63))) "1.23450 m");
  (1014, TFormat "{:%.10Q %q}" (CFlt "si" "m" (S754_finite false 11386252779497220735 (-63))) "1.2345000000 m");
  (1019, TFormat "{:%.0Q}" (CFlt "si" "m" (S754_finite false 11386252779497220735 (-63))) "1");
  (1020, TFormat "{:%.1Q}" (CFlt "si" "m" (S754_finite false 11386252779497220735 (-63))) "1.2");
  (1021, TFormat "{:%.2Q}" (CFlt "si" "m" (S754_finite false 11386252779497220735 (-63))) "1.23");
  (1025, TFormat "{:%.3Q}" (CFlt "si" "m" (S754_finite false 11386252779497220735 (-63))) "1.235");
  (1027, TFormat "{:%.4Q}" (CFlt "si" "m" (S754_finite false 11386252779497220735 (-63))) "1.2345");
  (1028, TFormat "{:%.5Q}" (CFlt "si" "m" (S754_finite false 11386252779497220735 (-63))) "1.23450");
  (1029, TFormat "{:%.10Q}" (CFlt "si" "m" (S754_finite false 11386252779497220735 (-63))) "1.2345000000");
  (1037, TThrows "{:%.1Q %q}" (CLit "si" "m" 1));
  (1042, TThrows "{:%.1Q}" (CLit "si" "m" 1));
  (1050, TFormat "{:%bQ %q}" (CLit "si" "m" 42) "101010 m");
  (1051, TFormat "{:%BQ %q}" (CLit "si" "m" 42) "101010 m");
  (1052, TFormat "{:%dQ %q}" (CLit "si" "m" 42) "42 m");
  (1053, TFormat "{:%oQ %q}" (CLit "si" "m" 42) "52 m");
  (1054, TFormat "{:%xQ %q}" (CLit "si" "m" 42) "2a m");
  (1055, TFormat "{:%XQ %q}" (CLit "si" "m" 42) "2A m");
  (1068, TFormat "{:%eQ %q}" (CFlt "si" "m" (S754_finite false 11386878124121319489 (-63))) "1.234568e+00 m");
  (1069, TFormat "{:%.3eQ %q}" (CFlt "si" "m" (S754_finite false 11386878124121319489 (-63))) "1.235e+00 m");
  (1070, TFormat "{:%EQ %q}" (CFlt "si" "m" (S754_finite false 11386878124121319489 (-63))) "1.234568E+00 m");
  (1071, TFormat "{:%.3EQ %q}" (CFlt "si" "m" (S754_finite false 11386878124121319489 (-63))) "1.235E+00 m");
  (1072, TFormat "{:%gQ %q}" (CFlt "si" "m" (S754_finite false 11386878124121319489 (-63))) "1.23457 m");
  (1073, TFormat "{:%gQ %q}" (CFlt "si" "m" (S754_finite false 16967770642222940160 (-37))) "1.23457e+08 m");
  (1074, TFormat "{:%.3gQ %q}" (CFlt "si" "m" (S754_finite false 11386878124121319489 (-63))) "1.23 m");
  (1075, TFormat "{:%.3gQ %q}" (CFlt "si" "m" (S754_finite false 16967770642222940160 (-37))) "1.23e+08 m");
  (1076, TFormat "{:%GQ %q}" (CFlt "si" "m" (S754_finite false 11386878124121319489 (-63))) "1.23457 m");
  (1077, TFormat "{:%GQ %q}" (CFlt "si" "m" (S754_finite false 16967770642222940160 (-37))) "1.23457E+08 m");
  (1078, TFormat "{:%.3GQ %q}" (CFlt "si" "m" (S754_finite false 11386878124121319489 (-63))) "1.23 m");
  (1079, TFormat "{:%.3GQ %q}" (CFlt "si" "m" (S754_finite false 16967770642222940160 (-37))) "1.23E+08 m");
  (1084, TFormat "{:%bQ}" (CLit "si" "m" 42) "101010");
  (1085, TFormat "{:%BQ}" (CLit "si" "m" 42) "101010");
  (1086, TFormat "{:%dQ}" (CLit "si" "m" 42) "42");
  (1087, TFormat "{:%oQ}" (CLit "si" "m" 42) "52");
  (1088, TFormat "{:%xQ}" (CLit "si" "m" 42) "2a");
  (1089, TFormat "{:%XQ}" (CLit "si" "m" 42) "2A");
  (1102, TFormat "{:%eQ}" (CFlt "si" "m" (S754_finite false 11386878124121319489 (-63))) "1.234568e+00");
  (1103, TFormat "{:%.3eQ}" (CFlt "si" "m" (S754_finite false 11386878124121319489 (-63))) "1.235e+00");
  (1104, TFormat "{:%EQ}" (CFlt "si" "m" (S754_finite false 11386878124121319489 (-63))) "1.234568E+00");
  (1105, TFormat "{:%.3EQ}" (CFlt "si" "m" (S754_finite false 11386878124121319489 (-63))) "1.235E+00");
  (1106, TFormat "{:%gQ}" (CFlt "si" "m" (S754_finite false 11386878124121319489 (-63))) "1.23457");
  (1107, TFormat "{:%gQ}" (CFlt "si" "m" (S754_finite false 16967770642222940160 (-37))) "1.23457e+08");
  (1108, TFormat "{:%.3gQ}" (CFlt "si" "m" (S754_finite false 11386878124121319489 (-63))) "1.23");
  (1109, TFormat "{:%.3gQ}" (CFlt "si" "m" (S754_finite false 16967770642222940160 (-37))) "1.23e+08");
  (1110, TFormat "{:%GQ}" (CFlt "si" "m" (S754_finite false 11386878124121319489 (-63))) "1.23457");
  (1111, TFormat "{:%GQ}" (CFlt "si" "m" (S754_finite false 16967770642222940160 (-37))) "1.23457E+08");
  (1112, TFormat "{:%.3GQ}" (CFlt "si" "m" (S754_finite false 11386878124121319489 (-63))) "1.23");
  (1113, TFormat "{:%.3GQ}" (CFlt "si" "m" (S754_finite false 16967770642222940160 (-37))) "1.23E+08");
  (1121, TFormat "{:%#bQ %q}" (CLit "si" "m" 42) "0b101010 m");
  (1122, TFormat "{:%#BQ %q}" (CLit "si" "m" 42) "0B101010 m");
  (1123, TFormat "{:%#oQ %q}" (CLit "si" "m" 42) "052 m");
  (1124, TFormat "{:%#xQ %q}" (CLit "si" "m" 42) "0x2a m");
  (1125, TFormat "{:%#XQ %q}" (CLit "si" "m" 42) "0X2A m");
  (1130, TFormat "{:%#bQ}" (CLit "si" "m" 42) "0b101010");
  (1131, TFormat "{:%#BQ}" (CLit "si" "m" 42) "0B101010");
  (1132, TFormat "{:%#oQ}" (CLit "si" "m" 42) "052");
  (1133, TFormat "{:%#xQ}" (CLit "si" "m" 42) "0x2a");
  (1134, TFormat "{:%#XQ}" (CLit "si" "m" 42) "0X2A");
  (1173, TStream 0 " " false (CBin CDiv (CLit "si" "km" 121) (CLit "si" "h" 2)) "60 km/h");
  (1179, TStream 0 " " false (CCastRep (RInt I32) (CBin CDiv (CLit "si" "km" 121) (CLit "si" "h" 2))) "60 km/h");
  (1185, TStream 0 " " false (CCastRep (RFlt F64) (CBin CDiv (CLit "si" "km" 121) (CLit "si" "h" 2))) "60 km/h");
  (1196, TStream 0 " " false (CBin CDiv (CFlt "si" "km" (S754_finite false 17437937757178560512 (-57))) (CLit "si" "h" 2)) "60.5 km/h");
  (1202, TStream 0 " " false (CCastRep (RInt I32) (CBin CDiv (CFlt "si" "km" (S754_finite false 17437937757178560512 (-57))) (CLit "si" "h" 2))) "60 km/h");
  (1208, TStream 0 " " false (CCastRep (RFlt F64) (CBin CDiv (CFlt "si" "km" (S754_finite false 17437937757178560512 (-57))) (CLit "si" "h" 2))) "60.5 km/h")].
Example fmt_conforms : match compile (runtime_estimate no_estimate) On ["generic/dimensionless.h"; "isq/si/cgs/cgs.h"; "isq/si/si.h"] with Ok e => failing_texts (runtime_estimate no_estimate) e fmt_test | _ => [-1] end = [].
Proof. vm_compute. reflexivity. Qed.

