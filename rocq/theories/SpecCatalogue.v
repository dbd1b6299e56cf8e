(** What the catalogue should say, written down from the standards and not from the
    headers: the SI Brochure (prefixes, units), IEC 80000-13 (binary prefixes,
    information), ISO 80000 (exponents of the quantities), the international yard and
    pound agreement of 1959, IAU resolutions, NIST SP 811 (typographic and survey units).

    A quantity is named by the library's class template for its dimension
    ("dim_length", ...), or by the dimension itself where there is no template. *)

From Coq Require Import ZArith QArith Qpower String List.
From Verif Require Import FixedString Unit Dim SpecDim System.
Import ListNotations.
Local Open Scope string_scope.
Local Open Scope Z_scope.

(** ** Prefixes: name, symbol, symbol in ASCII, power *)

Definition si_prefixes : list (string * (string * string) * Z) := [
  ("yocto", ("y", "y"), -24); ("zepto", ("z", "z"), -21); ("atto", ("a", "a"), -18);
  ("femto", ("f", "f"), -15); ("pico", ("p", "p"), -12); ("nano", ("n", "n"), -9);
  ("micro", ("µ", "u"), -6); ("milli", ("m", "m"), -3); ("centi", ("c", "c"), -2);
  ("deci", ("d", "d"), -1); ("deca", ("da", "da"), 1); ("hecto", ("h", "h"), 2);
  ("kilo", ("k", "k"), 3); ("mega", ("M", "M"), 6); ("giga", ("G", "G"), 9);
  ("tera", ("T", "T"), 12); ("peta", ("P", "P"), 15); ("exa", ("E", "E"), 18);
  ("zetta", ("Z", "Z"), 21); ("yotta", ("Y", "Y"), 24)].

Definition iec_prefixes : list (string * string * Z) := [
  ("kibi", "Ki", 1); ("mebi", "Mi", 2); ("gibi", "Gi", 3);
  ("tebi", "Ti", 4); ("pebi", "Pi", 5); ("exbi", "Ei", 6)].

(** Family, qualified name, symbol and value of every prefix. *)
Definition ten_to (k : Z) : Q := (inject_Z 10 ^ k)%Q.
Definition prefix_table : list (string * string * symbol_text * Q) :=
  map (fun '(n, (s, a), k) => ("si::prefix", "si::" ++ n, SymbolText s a, ten_to k)) si_prefixes ++
  map (fun '(n, s, k) => ("iec80000::binary_prefix", "iec80000::" ++ n, SymbolText s s, (inject_Z 1024 ^ k)%Q))
    iec_prefixes.

(** ** Quantities: the exponents ISO 80000 assigns

    Over the seven base quantities of the ISQ.  Plane angle is a base dimension in this
    library (ISO 80000-3 gives it dimension one), so it has exponents of its own:
    those of angular velocity and torque are the library's convention. *)

Definition quantity_table : list (string * list (string * Z)) := [
  ("dim_length", [("dim_length", 1)]);
  ("dim_mass", [("dim_mass", 1)]);
  ("dim_time", [("dim_time", 1)]);
  ("dim_electric_current", [("dim_electric_current", 1)]);
  ("dim_thermodynamic_temperature", [("dim_thermodynamic_temperature", 1)]);
  ("dim_amount_of_substance", [("dim_amount_of_substance", 1)]);
  ("dim_luminous_intensity", [("dim_luminous_intensity", 1)]);
  ("dim_angle", [("dim_angle", 1)]);
  (* space and time, ISO 80000-3 *)
  ("dim_area", [("dim_length", 2)]);
  ("dim_volume", [("dim_length", 3)]);
  ("dim_speed", [("dim_length", 1); ("dim_time", -1)]);
  ("dim_acceleration", [("dim_length", 1); ("dim_time", -2)]);
  ("dim_angular_velocity", [("dim_time", -1); ("dim_angle", 1)]);
  ("dim_frequency", [("dim_time", -1)]);
  (* mechanics, ISO 80000-4 *)
  ("dim_density", [("dim_mass", 1); ("dim_length", -3)]);
  ("dim_momentum", [("dim_length", 1); ("dim_mass", 1); ("dim_time", -1)]);
  ("dim_force", [("dim_length", 1); ("dim_mass", 1); ("dim_time", -2)]);
  ("dim_torque", [("dim_length", 2); ("dim_mass", 1); ("dim_time", -2); ("dim_angle", -1)]);
  ("dim_pressure", [("dim_length", -1); ("dim_mass", 1); ("dim_time", -2)]);
  ("dim_surface_tension", [("dim_mass", 1); ("dim_time", -2)]);
  ("dim_dynamic_viscosity", [("dim_length", -1); ("dim_mass", 1); ("dim_time", -1)]);
  ("dim_energy", [("dim_length", 2); ("dim_mass", 1); ("dim_time", -2)]);
  ("dim_energy_density", [("dim_length", -1); ("dim_mass", 1); ("dim_time", -2)]);
  ("dim_power", [("dim_length", 2); ("dim_mass", 1); ("dim_time", -3)]);
  (* thermodynamics, ISO 80000-5 *)
  ("dim_thermal_conductivity",
     [("dim_length", 1); ("dim_mass", 1); ("dim_time", -3); ("dim_thermodynamic_temperature", -1)]);
  ("dim_heat_capacity",
     [("dim_length", 2); ("dim_mass", 1); ("dim_time", -2); ("dim_thermodynamic_temperature", -1)]);
  ("dim_specific_heat_capacity",
     [("dim_length", 2); ("dim_time", -2); ("dim_thermodynamic_temperature", -1)]);
  (* electromagnetism, IEC 80000-6 *)
  ("dim_electric_charge", [("dim_time", 1); ("dim_electric_current", 1)]);
  ("dim_charge_density", [("dim_length", -3); ("dim_time", 1); ("dim_electric_current", 1)]);
  ("dim_surface_charge_density", [("dim_length", -2); ("dim_time", 1); ("dim_electric_current", 1)]);
  ("dim_current_density", [("dim_length", -2); ("dim_electric_current", 1)]);
  ("dim_electric_field_strength",
     [("dim_length", 1); ("dim_mass", 1); ("dim_time", -3); ("dim_electric_current", -1)]);
  ("dim_voltage", [("dim_length", 2); ("dim_mass", 1); ("dim_time", -3); ("dim_electric_current", -1)]);
  ("dim_capacitance", [("dim_length", -2); ("dim_mass", -1); ("dim_time", 4); ("dim_electric_current", 2)]);
  ("dim_permittivity", [("dim_length", -3); ("dim_mass", -1); ("dim_time", 4); ("dim_electric_current", 2)]);
  ("dim_magnetic_induction", [("dim_mass", 1); ("dim_time", -2); ("dim_electric_current", -1)]);
  ("dim_magnetic_flux", [("dim_length", 2); ("dim_mass", 1); ("dim_time", -2); ("dim_electric_current", -1)]);
  ("dim_inductance", [("dim_length", 2); ("dim_mass", 1); ("dim_time", -2); ("dim_electric_current", -2)]);
  ("dim_permeability", [("dim_length", 1); ("dim_mass", 1); ("dim_time", -2); ("dim_electric_current", -2)]);
  ("dim_resistance", [("dim_length", 2); ("dim_mass", 1); ("dim_time", -3); ("dim_electric_current", -2)]);
  ("dim_conductance", [("dim_length", -2); ("dim_mass", -1); ("dim_time", 3); ("dim_electric_current", 2)]);
  (* light, ISO 80000-7 *)
  ("dim_luminance", [("dim_length", -2); ("dim_luminous_intensity", 1)]);
  (* physical chemistry, ISO 80000-9 *)
  ("dim_concentration", [("dim_length", -3); ("dim_amount_of_substance", 1)]);
  ("dim_molar_energy",
     [("dim_length", 2); ("dim_mass", 1); ("dim_time", -2); ("dim_amount_of_substance", -1)]);
  ("dim_molar_heat_capacity",
     [("dim_length", 2); ("dim_mass", 1); ("dim_time", -2); ("dim_thermodynamic_temperature", -1);
      ("dim_amount_of_substance", -1)]);
  ("dim_catalytic_activity", [("dim_time", -1); ("dim_amount_of_substance", 1)]);
  (* ionizing radiation, ISO 80000-10 *)
  ("dim_radioactivity", [("dim_time", -1)]);
  ("dim_absorbed_dose", [("dim_length", 2); ("dim_time", -2)])
].

Fixpoint assoc {A : Type} (l : list (string * A)) (k : string) : option A :=
  match l with
  | [] => None
  | (k', x) :: r => if String.eqb k k' then Some x else assoc r k
  end.
Definition exponent_in (row : list (string * Z)) (k : string) : Z :=
  match assoc row k with Some z => z | None => 0 end.

(** The exponent of the base quantity [k] in a dimension, when [K] tells which base
    quantity each base dimension measures. *)
Fixpoint quantity_expo (K : bdim -> string) (k : string) (es : list bexp) : Q :=
  match es with
  | [] => 0%Q
  | e :: r => ((if String.eqb (K (e_dim e)) k then equot e else 0) + quantity_expo K k r)%Q
  end.

(** The base quantity a base dimension was declared for in a program. *)
Definition quantity_of (e : env) (b : bdim) : string :=
  match find (fun x => String.eqb (bd_name b) (dim_name (snd x))) (en_dims e) with
  | Some (Some t, _) => t
  | _ => ""
  end.

(** ** Units: the value of a unit in the coherent SI unit of its quantity

    (for information in bits, for traffic in erlangs). *)

Record unit_row := UnitRow { ur_name : string; ur_quantity : string; ur_value : Q }.

(** A unit, and the unit with its SI prefixes. *)
Definition family (ns stem q : string) (v : Q) : list unit_row :=
  UnitRow (ns ++ stem) q v ::
  map (fun '(p, _, k) => UnitRow (ns ++ p ++ stem) q (ten_to k * v)%Q) si_prefixes.
Definition binary_family (ns stem q : string) (v : Q) : list unit_row :=
  map (fun '(p, _, k) => UnitRow (ns ++ p ++ stem) q (inject_Z 1024 ^ k * v)%Q) iec_prefixes.
(** The square ([n = 2]) or cube ([n = 3]) of the metre and its multiples. *)
Definition power_family (ns name q : string) (n : Z) : list unit_row :=
  UnitRow (ns ++ name ++ "metre") q 1 ::
  map (fun '(p, _, k) => UnitRow (ns ++ name ++ p ++ "metre") q (ten_to k ^ n)%Q) si_prefixes.

Local Open Scope Q_scope.
Definition inch_value : Q := 254 # 10000.
Definition foot_value : Q := 12 * inch_value.
Definition yard_value : Q := 3 * foot_value.
Definition survey_foot_value : Q := 1200 # 3937.
Definition pound_value : Q := 45359237 # 100000000.
Definition standard_gravity_value : Q := 980665 # 100000.
Definition pound_force_value : Q := pound_value * standard_gravity_value.

Definition unit_table : list unit_row :=
  (* base and named derived units of the SI *)
  family "si::" "metre" "dim_length" 1 ++
  family "si::" "gram" "dim_mass" (1 # 1000) ++
  family "si::" "second" "dim_time" 1 ++
  family "si::" "ampere" "dim_electric_current" 1 ++
  family "si::" "kelvin" "dim_thermodynamic_temperature" 1 ++
  family "si::" "mole" "dim_amount_of_substance" 1 ++
  family "si::" "candela" "dim_luminous_intensity" 1 ++
  family "" "radian" "dim_angle" 1 ++
  family "si::" "hertz" "dim_frequency" 1 ++
  family "si::" "newton" "dim_force" 1 ++
  family "si::" "pascal" "dim_pressure" 1 ++
  family "si::" "joule" "dim_energy" 1 ++
  family "si::" "watt" "dim_power" 1 ++
  family "si::" "coulomb" "dim_electric_charge" 1 ++
  family "si::" "volt" "dim_voltage" 1 ++
  family "si::" "farad" "dim_capacitance" 1 ++
  family "si::" "ohm" "dim_resistance" 1 ++
  family "si::" "siemens" "dim_conductance" 1 ++
  family "si::" "weber" "dim_magnetic_flux" 1 ++
  family "si::" "tesla" "dim_magnetic_induction" 1 ++
  family "si::" "henry" "dim_inductance" 1 ++
  family "si::" "becquerel" "dim_radioactivity" 1 ++
  family "si::" "gray" "dim_absorbed_dose" 1 ++
  family "si::" "katal" "dim_catalytic_activity" 1 ++
  power_family "si::" "square_" "dim_area" 2 ++
  power_family "si::" "cubic_" "dim_volume" 3 ++
  (* coherent derived units without a name of their own *)
  [ UnitRow "one" "dim_one" 1;
    UnitRow "si::metre_per_second" "dim_speed" 1;
    UnitRow "si::metre_per_second_sq" "dim_acceleration" 1;
    UnitRow "si::radian_per_second" "dim_angular_velocity" 1;
    UnitRow "si::coulomb_per_metre_cub" "dim_charge_density" 1;
    UnitRow "si::coulomb_per_metre_sq" "dim_surface_charge_density" 1;
    UnitRow "si::mol_per_metre_cub" "dim_concentration" 1;
    UnitRow "si::ampere_per_metre_sq" "dim_current_density" 1;
    UnitRow "si::kilogram_per_metre_cub" "dim_density" 1;
    UnitRow "si::pascal_second" "dim_dynamic_viscosity" 1;
    UnitRow "si::volt_per_metre" "dim_electric_field_strength" 1;
    UnitRow "si::joule_per_metre_cub" "dim_energy_density" 1;
    UnitRow "si::joule_per_kelvin" "dim_heat_capacity" 1;
    UnitRow "si::joule_per_kilogram_kelvin" "dim_specific_heat_capacity" 1;
    UnitRow "si::joule_per_mole_kelvin" "dim_molar_heat_capacity" 1;
    UnitRow "si::candela_per_metre_sq" "dim_luminance" 1;
    UnitRow "si::joule_per_mole" "dim_molar_energy" 1;
    UnitRow "si::kilogram_metre_per_second" "dim_momentum" 1;
    UnitRow "si::henry_per_metre" "dim_permeability" 1;
    UnitRow "si::farad_per_metre" "dim_permittivity" 1;
    UnitRow "si::newton_per_metre" "dim_surface_tension" 1;
    UnitRow "si::watt_per_metre_kelvin" "dim_thermal_conductivity" 1;
    UnitRow "si::newton_metre_per_radian" "dim_torque" 1 ] ++
  (* units accepted for use with the SI, and others *)
  [ UnitRow "percent" "dim_one" (1 # 100);
    UnitRow "si::minute" "dim_time" 60;
    UnitRow "si::hour" "dim_time" 3600;
    UnitRow "si::day" "dim_time" 86400;
    UnitRow "si::kilometre_per_hour" "dim_speed" (1000 # 3600);
    UnitRow "si::astronomical_unit" "dim_length" 149597870700;
    UnitRow "si::hectare" "dim_area" 10000;
    UnitRow "si::dalton" "dim_mass" ((166053906660 # 100000000000) * ten_to (-27)) ] ++
  family "si::" "tonne" "dim_mass" 1000 ++
  family "si::" "litre" "dim_volume" (1 # 1000) ++
  family "si::" "electronvolt" "dim_energy" ((1602176634 # 1000000000) * ten_to (-19)) ++
  family "si::" "enzyme_unit" "dim_catalytic_activity" (ten_to (-6) / 60) ++
  family "si::" "gauss" "dim_magnetic_induction" (1 # 10000) ++
  (* centimetre-gram-second *)
  [ UnitRow "si::cgs::centimetre_per_second" "dim_speed" (1 # 100);
    UnitRow "si::cgs::gal" "dim_acceleration" (1 # 100);
    UnitRow "si::cgs::dyne" "dim_force" (ten_to (-5));
    UnitRow "si::cgs::erg" "dim_energy" (ten_to (-7));
    UnitRow "si::cgs::erg_per_second" "dim_power" (ten_to (-7));
    UnitRow "si::cgs::barye" "dim_pressure" (1 # 10) ] ++
  (* information and telecommunication, IEC 80000-13 *)
  family "iec80000::" "bit" "iec80000::dim_storage_capacity" 1 ++
  family "iec80000::" "byte" "iec80000::dim_storage_capacity" 8 ++
  binary_family "iec80000::" "bit" "iec80000::dim_storage_capacity" 1 ++
  binary_family "iec80000::" "byte" "iec80000::dim_storage_capacity" 8 ++
  family "iec80000::" "byte_per_second" "iec80000::dim_transfer_rate" 8 ++
  family "iec80000::" "baud" "dim_frequency" 1 ++
  [ UnitRow "iec80000::binary_prefix_bit" "iec80000::dim_storage_capacity" 1;
    UnitRow "iec80000::binary_prefix_byte" "iec80000::dim_storage_capacity" 8;
    UnitRow "iec80000::erlang" "iec80000::dim_traffic_intensity" 1 ] ++
  (* international yard and pound *)
  [ UnitRow "si::international::yard" "dim_length" yard_value;
    UnitRow "si::international::foot" "dim_length" foot_value;
    UnitRow "si::international::inch" "dim_length" inch_value;
    UnitRow "si::international::fathom" "dim_length" (2 * yard_value);
    UnitRow "si::international::mile" "dim_length" (1760 * yard_value);
    UnitRow "si::international::nautical_mile" "dim_length" 1852;
    UnitRow "si::international::thou" "dim_length" (inch_value / 1000);
    UnitRow "si::international::square_foot" "dim_area" (foot_value ^ 2);
    UnitRow "si::international::cubic_foot" "dim_volume" (foot_value ^ 3);
    UnitRow "si::international::mile_per_hour" "dim_speed" (1760 * yard_value / 3600);
    UnitRow "si::imperial::chain" "dim_length" (22 * yard_value);
    UnitRow "si::imperial::rod" "dim_length" ((11 # 2) * yard_value) ] ++
  (* United States survey units *)
  [ UnitRow "si::uscs::foot" "dim_length" survey_foot_value;
    UnitRow "si::uscs::fathom" "dim_length" (6 * survey_foot_value);
    UnitRow "si::uscs::mile" "dim_length" (5280 * survey_foot_value) ] ++
  (* typographic units, NIST SP 811: computer points divide the inch, printer's
     points are decimal fractions of a metre *)
  [ UnitRow "si::typographic::pica_comp" "dim_length" (inch_value / 6);
    UnitRow "si::typographic::point_comp" "dim_length" (inch_value / 72);
    UnitRow "si::typographic::pica_prn" "dim_length" ((4217518 # 1000000) * ten_to (-3));
    UnitRow "si::typographic::point_prn" "dim_length" ((3514598 # 1000000) * ten_to (-4)) ] ++
  (* astronomy: Julian year of light; the parsec to the nearest metre *)
  [ UnitRow "si::iau::light_year" "dim_length" ((1461 # 4) * 86400 * 299792458);
    UnitRow "si::iau::angstrom" "dim_length" (ten_to (-10)) ] ++
  family "si::iau::" "parsec" "dim_length" 30856775814913673 ++
  (* foot-pound-second *)
  [ UnitRow "si::fps::foot" "dim_length" foot_value;
    UnitRow "si::fps::inch" "dim_length" inch_value;
    UnitRow "si::fps::thousandth" "dim_length" (inch_value / 1000);
    UnitRow "si::fps::thou" "dim_length" (inch_value / 1000);
    UnitRow "si::fps::mil" "dim_length" (inch_value / 1000);
    UnitRow "si::fps::yard" "dim_length" yard_value;
    UnitRow "si::fps::kiloyard" "dim_length" (1000 * yard_value);
    UnitRow "si::fps::fathom" "dim_length" (2 * yard_value);
    UnitRow "si::fps::mile" "dim_length" (1760 * yard_value);
    UnitRow "si::fps::nautical_mile" "dim_length" 1852;
    UnitRow "si::fps::foot_per_second" "dim_speed" foot_value;
    UnitRow "si::fps::mile_per_hour" "dim_speed" (1760 * yard_value / 3600);
    UnitRow "si::fps::nautical_mile_per_hour" "dim_speed" (1852 # 3600);
    UnitRow "si::fps::knot" "dim_speed" (1852 # 3600);
    UnitRow "si::fps::foot_per_second_sq" "dim_acceleration" foot_value;
    UnitRow "si::fps::square_foot" "dim_area" (foot_value ^ 2);
    UnitRow "si::fps::cubic_foot" "dim_volume" (foot_value ^ 3);
    UnitRow "si::fps::cubic_yard" "dim_volume" (yard_value ^ 3);
    UnitRow "si::fps::pound" "dim_mass" pound_value;
    UnitRow "si::fps::grain" "dim_mass" (pound_value / 7000);
    UnitRow "si::fps::dram" "dim_mass" (pound_value / 256);
    UnitRow "si::fps::ounce" "dim_mass" (pound_value / 16);
    UnitRow "si::fps::stone" "dim_mass" (14 * pound_value);
    UnitRow "si::fps::quarter" "dim_mass" (28 * pound_value);
    UnitRow "si::fps::hundredweight" "dim_mass" (112 * pound_value);
    UnitRow "si::fps::short_ton" "dim_mass" (2000 * pound_value);
    UnitRow "si::fps::long_ton" "dim_mass" (2240 * pound_value);
    UnitRow "si::fps::pound_per_foot_cub" "dim_density" (pound_value / foot_value ^ 3);
    UnitRow "si::fps::poundal" "dim_force" (pound_value * foot_value);
    UnitRow "si::fps::pound_force" "dim_force" pound_force_value;
    UnitRow "si::fps::kilopound_force" "dim_force" (1000 * pound_force_value);
    UnitRow "si::fps::kip" "dim_force" (1000 * pound_force_value);
    UnitRow "si::fps::foot_poundal" "dim_energy" (pound_value * foot_value ^ 2);
    UnitRow "si::fps::foot_pound_force" "dim_energy" (foot_value * pound_force_value);
    UnitRow "si::fps::foot_poundal_per_second" "dim_power" (pound_value * foot_value ^ 2);
    UnitRow "si::fps::foot_pound_force_per_second" "dim_power" (foot_value * pound_force_value);
    UnitRow "si::fps::horse_power" "dim_power" (550 * foot_value * pound_force_value);
    UnitRow "si::fps::poundal_per_foot_sq" "dim_pressure" (pound_value / foot_value);
    UnitRow "si::fps::pound_force_per_foot_sq" "dim_pressure" (pound_force_value / foot_value ^ 2);
    UnitRow "si::fps::pound_force_per_inch_sq" "dim_pressure" (pound_force_value / inch_value ^ 2);
    UnitRow "si::fps::kilopound_force_per_inch_sq" "dim_pressure" (1000 * pound_force_value / inch_value ^ 2) ].

(** The units of the catalogue that do not have that value, with the factor by which
    they differ.  The first group is off by a rounded constant, the second is wrong. *)
Definition rounded_units : list (string * Q) :=
  let lbf := (32174049 # 1000000) * foot_value / standard_gravity_value in
  [ ("si::dalton", (16605390666050 # 10000000000000) / (166053906660 # 100000000000));
    ("si::typographic::pica_comp", (4233333 # 1000000000) / (inch_value / 6));
    ("si::typographic::point_comp", (3527778 # 10000000000) / (inch_value / 72));
    ("si::fps::pound_force", lbf);
    ("si::fps::kilopound_force", lbf);
    ("si::fps::kip", lbf);
    ("si::fps::foot_pound_force", lbf);
    ("si::fps::foot_pound_force_per_second", lbf);
    ("si::fps::horse_power", lbf);
    ("si::fps::pound_force_per_foot_sq", lbf) ].
Definition wrong_units : list (string * Q) :=
  let lbf := (32174049 # 1000000) * foot_value / standard_gravity_value in
  [ ("si::hectolitre", 1 # 100);
    ("si::fps::nautical_mile", 18288 # 18520);
    ("si::fps::nautical_mile_per_hour", 18288 # 18520);
    ("si::fps::knot", 18288 # 18520);
    ("si::fps::cubic_yard", foot_value ^ 2);
    ("si::fps::pound_force_per_inch_sq", lbf / (144 ^ 2));
    ("si::fps::kilopound_force_per_inch_sq", lbf / (144 ^ 2)) ].

(** The units of the natural system (units of energy only), with their power of the
    gigaelectronvolt and their value in it. *)
Definition natural_table : list (string * Z * Q) :=
  [ ("natural::electronvolt", 1%Z, ten_to (-9));
    ("natural::gigaelectronvolt", 1%Z, 1);
    ("natural::inverted_gigaelectronvolt", (-1)%Z, 1);
    ("natural::square_gigaelectronvolt", 2%Z, 1);
    ("one", 0%Z, 1);
    ("percent", 0%Z, 1 # 100) ].

(** The magnitude of the coherent SI unit of a quantity in metres, grams, seconds, ...:
    only the kilogram carries a prefix. *)
Definition si_coherent (q : string) : Q :=
  match assoc quantity_table q with
  | Some row => inject_Z 1000 ^ exponent_in row "dim_mass"
  | None => 1
  end.

(** The quantity a declared dimension is for. *)
Definition quantity_name (x : option string * dimension) : string :=
  match fst x with Some t => t | None => dim_name (snd x) end.
Definition natural_dim (x : option string * dimension) : bool := String.prefix "natural::" (dim_name (snd x)).

(** Actual value over the value of the standard. *)
Definition deviation (n : string) : Q :=
  match assoc (rounded_units ++ wrong_units) n with Some f => f | None => 1 end.

(** The pairs of units between which no conversion compiles: the factor does not fit the
    64-bit integers of [ratio]. *)
Definition fps_unit (n : string) : bool := String.prefix "si::fps::" n.
Definition force_based (n : string) : bool :=
  existsb (String.eqb n)
    ["si::fps::foot_pound_force"; "si::fps::foot_pound_force_per_second"; "si::fps::horse_power"].
Definition mile_like (n : string) : bool :=
  existsb (String.eqb n)
    ["si::uscs::foot"; "si::uscs::fathom"; "si::uscs::mile"; "si::international::mile"].
Definition unconvertible (n m : string) : bool :=
  (force_based n && negb (fps_unit m)) || (force_based m && negb (fps_unit n)) ||
  (String.eqb n "si::iau::parsec" && mile_like m) || (String.eqb m "si::iau::parsec" && mile_like n).
