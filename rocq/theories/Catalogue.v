(** The catalogue of the library: every prefix, unit and dimension declared under
    [src/systems] and [src/core/include/units/generic], header by header, as entries of
    [System.v].  The number after each entry is the line of the header named above it.

    Names are qualified relative to [units::isq] (or [units] for the generic ones); names
    reached through a using-declaration ([si::cgs::second], ...) are written as the struct
    they denote.  [dim_angle<>] is the specialisation with the default argument
    (generic/angle.h:37-38), entered where its header ends.  Not in the catalogue: alias
    templates, concepts, literals, references, aliases and physical constants. *)

From Coq Require Import ZArith String List.
From Verif Require Import FixedString Unit System.
Import ListNotations.
Local Open Scope string_scope.
Local Open Scope Z_scope.

(** A symbol given by one text, symbol_text.h:69-72. *)
Notation ascii := st_of_ascii (only parsing).

(** The class templates of [src/systems/isq/include/units/isq/dimensions] and [dim_angle]. *)
Definition isq_templates : list template := [
  TBase "dim_angle" "A"; (* src/core/include/units/generic/angle.h:38 *)
  TBase "dim_length" "L"; (* dimensions/length.h:30 *)
  TBase "dim_time" "T"; (* dimensions/time.h:30 *)
  TDerived "dim_acceleration" ["dim_length"; "dim_time"] [(0%nat, 1); (1%nat, (-2))]; (* dimensions/acceleration.h:35 *)
  TBase "dim_mass" "M"; (* dimensions/mass.h:30 *)
  TDerived "dim_force" ["dim_mass"; "dim_acceleration"] [(0%nat, 1); (1%nat, 1)]; (* dimensions/force.h:35 *)
  TDerived "dim_energy" ["dim_force"; "dim_length"] [(0%nat, 1); (1%nat, 1)]; (* dimensions/energy.h:35 *)
  TDerived "dim_energy" ["dim_length"; "dim_force"] [(0%nat, 1); (1%nat, 1)]; (* dimensions/energy.h:38 *)
  TDerived "dim_absorbed_dose" ["dim_energy"; "dim_mass"] [(0%nat, 1); (1%nat, (-1))]; (* dimensions/absorbed_dose.h:35 *)
  TBase "dim_amount_of_substance" "N"; (* dimensions/amount_of_substance.h:30 *)
  TDerived "dim_angular_velocity" ["dim_angle"; "dim_time"] [(0%nat, 1); (1%nat, (-1))]; (* dimensions/angular_velocity.h:35 *)
  TDerived "dim_area" ["dim_length"] [(0%nat, 2)]; (* dimensions/area.h:34 *)
  TBase "dim_electric_current" "I"; (* dimensions/electric_current.h:30 *)
  TDerived "dim_electric_charge" ["dim_time"; "dim_electric_current"] [(0%nat, 1); (1%nat, 1)]; (* dimensions/electric_charge.h:35 *)
  TDerived "dim_power" ["dim_energy"; "dim_time"] [(0%nat, 1); (1%nat, (-1))]; (* dimensions/power.h:35 *)
  TDerived "dim_power" ["dim_length"; "dim_force"; "dim_time"] [(0%nat, 1); (1%nat, 1); (2%nat, (-1))]; (* dimensions/power.h:38 *)
  TDerived "dim_voltage" ["dim_power"; "dim_electric_current"] [(0%nat, 1); (1%nat, (-1))]; (* dimensions/voltage.h:35 *)
  TDerived "dim_capacitance" ["dim_electric_charge"; "dim_voltage"] [(0%nat, 1); (1%nat, (-1))]; (* dimensions/capacitance.h:35 *)
  TDerived "dim_catalytic_activity" ["dim_time"; "dim_amount_of_substance"] [(0%nat, (-1)); (1%nat, 1)]; (* dimensions/catalytic_activity.h:35 *)
  TDerived "dim_charge_density" ["dim_electric_charge"; "dim_length"] [(0%nat, 1); (1%nat, (-3))]; (* dimensions/charge_density.h:35 *)
  TDerived "dim_surface_charge_density" ["dim_electric_charge"; "dim_length"] [(0%nat, 1); (1%nat, (-2))]; (* dimensions/charge_density.h:41 *)
  TDerived "dim_concentration" ["dim_amount_of_substance"; "dim_length"] [(0%nat, 1); (1%nat, (-3))]; (* dimensions/concentration.h:35 *)
  TDerived "dim_resistance" ["dim_voltage"; "dim_electric_current"] [(0%nat, 1); (1%nat, (-1))]; (* dimensions/resistance.h:35 *)
  TDerived "dim_conductance" ["dim_resistance"] [(0%nat, (-1))]; (* dimensions/conductance.h:34 *)
  TDerived "dim_current_density" ["dim_electric_current"; "dim_length"] [(0%nat, 1); (1%nat, (-2))]; (* dimensions/current_density.h:35 *)
  TDerived "dim_density" ["dim_mass"; "dim_length"] [(0%nat, 1); (1%nat, (-3))]; (* dimensions/density.h:35 *)
  TDerived "dim_pressure" ["dim_force"; "dim_area"] [(0%nat, 1); (1%nat, (-1))]; (* dimensions/pressure.h:35 *)
  TDerived "dim_dynamic_viscosity" ["dim_pressure"; "dim_time"] [(0%nat, 1); (1%nat, 1)]; (* dimensions/dynamic_viscosity.h:35 *)
  TDerived "dim_electric_field_strength" ["dim_voltage"; "dim_length"] [(0%nat, 1); (1%nat, (-1))]; (* dimensions/electric_field_strength.h:35 *)
  TDerived "dim_volume" ["dim_length"] [(0%nat, 3)]; (* dimensions/volume.h:34 *)
  TDerived "dim_energy_density" ["dim_energy"; "dim_volume"] [(0%nat, 1); (1%nat, (-1))]; (* dimensions/energy_density.h:35 *)
  TDerived "dim_frequency" ["dim_time"] [(0%nat, (-1))]; (* dimensions/frequency.h:34 *)
  TBase "dim_thermodynamic_temperature" "Θ"; (* dimensions/thermodynamic_temperature.h:30 *)
  TDerived "dim_heat_capacity" ["dim_energy"; "dim_thermodynamic_temperature"] [(0%nat, 1); (1%nat, (-1))]; (* dimensions/heat_capacity.h:37 *)
  TDerived "dim_specific_heat_capacity" ["dim_heat_capacity"; "dim_mass"] [(0%nat, 1); (1%nat, (-1))]; (* dimensions/heat_capacity.h:43 *)
  TDerived "dim_molar_heat_capacity" ["dim_heat_capacity"; "dim_amount_of_substance"] [(0%nat, 1); (1%nat, (-1))]; (* dimensions/heat_capacity.h:49 *)
  TDerived "dim_magnetic_induction" ["dim_voltage"; "dim_time"; "dim_length"] [(0%nat, 1); (1%nat, 1); (2%nat, (-2))]; (* dimensions/magnetic_induction.h:36 *)
  TDerived "dim_magnetic_flux" ["dim_magnetic_induction"; "dim_area"] [(0%nat, 1); (1%nat, 1)]; (* dimensions/magnetic_flux.h:35 *)
  TDerived "dim_inductance" ["dim_magnetic_flux"; "dim_electric_current"] [(0%nat, 1); (1%nat, (-1))]; (* dimensions/inductance.h:35 *)
  TBase "dim_luminous_intensity" "J"; (* dimensions/luminous_intensity.h:30 *)
  TDerived "dim_luminance" ["dim_luminous_intensity"; "dim_length"] [(0%nat, 1); (1%nat, (-2))]; (* dimensions/luminance.h:35 *)
  TDerived "dim_molar_energy" ["dim_energy"; "dim_amount_of_substance"] [(0%nat, 1); (1%nat, (-1))]; (* dimensions/molar_energy.h:35 *)
  TDerived "dim_speed" ["dim_length"; "dim_time"] [(0%nat, 1); (1%nat, (-1))]; (* dimensions/speed.h:35 *)
  TDerived "dim_momentum" ["dim_mass"; "dim_speed"] [(0%nat, 1); (1%nat, 1)]; (* dimensions/momentum.h:34 *)
  TDerived "dim_permeability" ["dim_inductance"; "dim_length"] [(0%nat, 1); (1%nat, (-1))]; (* dimensions/permeability.h:35 *)
  TDerived "dim_permittivity" ["dim_capacitance"; "dim_length"] [(0%nat, 1); (1%nat, (-1))]; (* dimensions/permittivity.h:35 *)
  TDerived "dim_radioactivity" ["dim_time"] [(0%nat, (-1))]; (* dimensions/radioactivity.h:34 *)
  TDerived "dim_surface_tension" ["dim_force"; "dim_length"] [(0%nat, 1); (1%nat, (-1))]; (* dimensions/surface_tension.h:35 *)
  TDerived "dim_thermal_conductivity" ["dim_power"; "dim_length"; "dim_thermodynamic_temperature"] [(0%nat, 1); (1%nat, (-1)); (2%nat, (-1))]; (* dimensions/thermal_conductivity.h:36 *)
  TDerived "dim_torque" ["dim_force"; "dim_length"; "dim_angle"] [(0%nat, 1); (1%nat, 1); (2%nat, (-1))] (* dimensions/torque.h:35 *)
].

(** src/systems/si/include/units/isq/si/prefixes.h *)
Definition h_si_prefixes : list entry := [
  EPrefix "si::yocto" "si::prefix" (ascii "y") 1 1 (-24); (* :32 *)
  EPrefix "si::zepto" "si::prefix" (ascii "z") 1 1 (-21); (* :33 *)
  EPrefix "si::atto" "si::prefix" (ascii "a") 1 1 (-18); (* :34 *)
  EPrefix "si::femto" "si::prefix" (ascii "f") 1 1 (-15); (* :35 *)
  EPrefix "si::pico" "si::prefix" (ascii "p") 1 1 (-12); (* :36 *)
  EPrefix "si::nano" "si::prefix" (ascii "n") 1 1 (-9); (* :37 *)
  EPrefix "si::micro" "si::prefix" (SymbolText "µ" "u") 1 1 (-6); (* :38 *)
  EPrefix "si::milli" "si::prefix" (ascii "m") 1 1 (-3); (* :39 *)
  EPrefix "si::centi" "si::prefix" (ascii "c") 1 1 (-2); (* :40 *)
  EPrefix "si::deci" "si::prefix" (ascii "d") 1 1 (-1); (* :41 *)
  EPrefix "si::deca" "si::prefix" (ascii "da") 1 1 1; (* :42 *)
  EPrefix "si::hecto" "si::prefix" (ascii "h") 1 1 2; (* :43 *)
  EPrefix "si::kilo" "si::prefix" (ascii "k") 1 1 3; (* :44 *)
  EPrefix "si::mega" "si::prefix" (ascii "M") 1 1 6; (* :45 *)
  EPrefix "si::giga" "si::prefix" (ascii "G") 1 1 9; (* :46 *)
  EPrefix "si::tera" "si::prefix" (ascii "T") 1 1 12; (* :47 *)
  EPrefix "si::peta" "si::prefix" (ascii "P") 1 1 15; (* :48 *)
  EPrefix "si::exa" "si::prefix" (ascii "E") 1 1 18; (* :49 *)
  EPrefix "si::zetta" "si::prefix" (ascii "Z") 1 1 21; (* :50 *)
  EPrefix "si::yotta" "si::prefix" (ascii "Y") 1 1 24 (* :51 *)
].

(** src/core/include/units/generic/angle.h *)
Definition h_generic_angle : list entry := [
  ENamed "radian" (ascii "rad") "si::prefix"; (* :35 *)
  EBaseOf "dim_angle<>" "dim_angle" "radian" (* :39 *)
].

(** src/core/include/units/generic/dimensionless.h *)
Definition h_generic_dimensionless : list entry := [
  ENamed "one" (ascii "") no_prefix; (* :33 *)
  EScaled "percent" (ascii "%") no_prefix 1 100 0 "one"; (* :34 *)
  EDim "dim_one" "one" [] (* :42 *)
].

(** src/systems/isq-iec80000/include/units/isq/iec80000/binary_prefixes.h *)
Definition h_iec80000_binary_prefixes : list entry := [
  EPrefix "iec80000::kibi" "iec80000::binary_prefix" (ascii "Ki") 1024 1 0; (* :31 *)
  EPrefix "iec80000::mebi" "iec80000::binary_prefix" (ascii "Mi") 1048576 1 0; (* :32 *)
  EPrefix "iec80000::gibi" "iec80000::binary_prefix" (ascii "Gi") 1073741824 1 0; (* :33 *)
  EPrefix "iec80000::tebi" "iec80000::binary_prefix" (ascii "Ti") 1099511627776 1 0; (* :34 *)
  EPrefix "iec80000::pebi" "iec80000::binary_prefix" (ascii "Pi") 1125899906842624 1 0; (* :35 *)
  EPrefix "iec80000::exbi" "iec80000::binary_prefix" (ascii "Ei") 1152921504606846976 1 0 (* :36 *)
].

(** src/systems/si/include/units/isq/si/time.h *)
Definition h_si_time : list entry := [
  ENamed "si::second" (ascii "s") "si::prefix"; (* :37 *)
  EPrefixed "si::yoctosecond" "si::yocto" "si::second"; (* :38 *)
  EPrefixed "si::zeptosecond" "si::zepto" "si::second"; (* :39 *)
  EPrefixed "si::attosecond" "si::atto" "si::second"; (* :40 *)
  EPrefixed "si::femtosecond" "si::femto" "si::second"; (* :41 *)
  EPrefixed "si::picosecond" "si::pico" "si::second"; (* :42 *)
  EPrefixed "si::nanosecond" "si::nano" "si::second"; (* :43 *)
  EPrefixed "si::microsecond" "si::micro" "si::second"; (* :44 *)
  EPrefixed "si::millisecond" "si::milli" "si::second"; (* :45 *)
  EScaled "si::minute" (ascii "min") no_prefix 60 1 0 "si::second"; (* :46 *)
  EScaled "si::hour" (ascii "h") no_prefix 60 1 0 "si::minute"; (* :47 *)
  EScaled "si::day" (ascii "d") no_prefix 24 1 0 "si::hour"; (* :48 *)
  EBaseOf "si::dim_time" "dim_time" "si::second" (* :50 *)
].

(** src/systems/si/include/units/isq/si/frequency.h *)
Definition h_si_frequency : list entry := [
  ENamed "si::hertz" (ascii "Hz") "si::prefix"; (* :37 *)
  EPrefixed "si::yoctohertz" "si::yocto" "si::hertz"; (* :38 *)
  EPrefixed "si::zeptohertz" "si::zepto" "si::hertz"; (* :39 *)
  EPrefixed "si::attohertz" "si::atto" "si::hertz"; (* :40 *)
  EPrefixed "si::femtohertz" "si::femto" "si::hertz"; (* :41 *)
  EPrefixed "si::picohertz" "si::pico" "si::hertz"; (* :42 *)
  EPrefixed "si::nanohertz" "si::nano" "si::hertz"; (* :43 *)
  EPrefixed "si::microhertz" "si::micro" "si::hertz"; (* :44 *)
  EPrefixed "si::millihertz" "si::milli" "si::hertz"; (* :45 *)
  EPrefixed "si::kilohertz" "si::kilo" "si::hertz"; (* :46 *)
  EPrefixed "si::megahertz" "si::mega" "si::hertz"; (* :47 *)
  EPrefixed "si::gigahertz" "si::giga" "si::hertz"; (* :48 *)
  EPrefixed "si::terahertz" "si::tera" "si::hertz"; (* :49 *)
  EPrefixed "si::petahertz" "si::peta" "si::hertz"; (* :50 *)
  EPrefixed "si::exahertz" "si::exa" "si::hertz"; (* :51 *)
  EPrefixed "si::zettahertz" "si::zetta" "si::hertz"; (* :52 *)
  EPrefixed "si::yottahertz" "si::yotta" "si::hertz"; (* :53 *)
  EDimOf "si::dim_frequency" "dim_frequency" "si::hertz" ["si::dim_time"] (* :55 *)
].

(** src/systems/isq-iec80000/include/units/isq/iec80000/modulation_rate.h *)
Definition h_iec80000_modulation_rate : list entry := [
  EAlias "iec80000::baud" "si::hertz" (ascii "Bd") "si::prefix"; (* :37 *)
  EPrefixedAlias "iec80000::kilobaud" "si::kilohertz" "si::kilo" "iec80000::baud"; (* :38 *)
  EPrefixedAlias "iec80000::megabaud" "si::megahertz" "si::mega" "iec80000::baud"; (* :39 *)
  EPrefixedAlias "iec80000::gigabaud" "si::gigahertz" "si::giga" "iec80000::baud"; (* :40 *)
  EPrefixedAlias "iec80000::terabaud" "si::terahertz" "si::tera" "iec80000::baud"; (* :41 *)
  EPrefixedAlias "iec80000::petabaud" "si::petahertz" "si::peta" "iec80000::baud"; (* :42 *)
  EPrefixedAlias "iec80000::exabaud" "si::exahertz" "si::exa" "iec80000::baud"; (* :43 *)
  EPrefixedAlias "iec80000::zettabaud" "si::zettahertz" "si::zetta" "iec80000::baud"; (* :44 *)
  EPrefixedAlias "iec80000::yottabaud" "si::yottahertz" "si::yotta" "iec80000::baud" (* :45 *)
].

(** src/systems/isq-iec80000/include/units/isq/iec80000/storage_capacity.h *)
Definition h_iec80000_storage_capacity : list entry := [
  ENamed "iec80000::bit" (ascii "bit") "si::prefix"; (* :38 *)
  EPrefixed "iec80000::kilobit" "si::kilo" "iec80000::bit"; (* :39 *)
  EPrefixed "iec80000::megabit" "si::mega" "iec80000::bit"; (* :40 *)
  EPrefixed "iec80000::gigabit" "si::giga" "iec80000::bit"; (* :41 *)
  EPrefixed "iec80000::terabit" "si::tera" "iec80000::bit"; (* :42 *)
  EPrefixed "iec80000::petabit" "si::peta" "iec80000::bit"; (* :43 *)
  EPrefixed "iec80000::exabit" "si::exa" "iec80000::bit"; (* :44 *)
  EPrefixed "iec80000::zettabit" "si::zetta" "iec80000::bit"; (* :45 *)
  EPrefixed "iec80000::yottabit" "si::yotta" "iec80000::bit"; (* :46 *)
  EAlias "iec80000::binary_prefix_bit" "iec80000::bit" (ascii "bit") "iec80000::binary_prefix"; (* :48 *)
  EPrefixed "iec80000::kibibit" "iec80000::kibi" "iec80000::binary_prefix_bit"; (* :49 *)
  EPrefixed "iec80000::mebibit" "iec80000::mebi" "iec80000::binary_prefix_bit"; (* :50 *)
  EPrefixed "iec80000::gibibit" "iec80000::gibi" "iec80000::binary_prefix_bit"; (* :51 *)
  EPrefixed "iec80000::tebibit" "iec80000::tebi" "iec80000::binary_prefix_bit"; (* :52 *)
  EPrefixed "iec80000::pebibit" "iec80000::pebi" "iec80000::binary_prefix_bit"; (* :53 *)
  EPrefixed "iec80000::exbibit" "iec80000::exbi" "iec80000::binary_prefix_bit"; (* :54 *)
  EScaled "iec80000::byte" (ascii "B") "si::prefix" 8 1 0 "iec80000::bit"; (* :56 *)
  EPrefixed "iec80000::kilobyte" "si::kilo" "iec80000::byte"; (* :57 *)
  EPrefixed "iec80000::megabyte" "si::mega" "iec80000::byte"; (* :58 *)
  EPrefixed "iec80000::gigabyte" "si::giga" "iec80000::byte"; (* :59 *)
  EPrefixed "iec80000::terabyte" "si::tera" "iec80000::byte"; (* :60 *)
  EPrefixed "iec80000::petabyte" "si::peta" "iec80000::byte"; (* :61 *)
  EPrefixed "iec80000::exabyte" "si::exa" "iec80000::byte"; (* :62 *)
  EPrefixed "iec80000::zettabyte" "si::zetta" "iec80000::byte"; (* :63 *)
  EPrefixed "iec80000::yottabyte" "si::yotta" "iec80000::byte"; (* :64 *)
  EAlias "iec80000::binary_prefix_byte" "iec80000::byte" (ascii "B") "iec80000::binary_prefix"; (* :66 *)
  EPrefixed "iec80000::kibibyte" "iec80000::kibi" "iec80000::binary_prefix_byte"; (* :67 *)
  EPrefixed "iec80000::mebibyte" "iec80000::mebi" "iec80000::binary_prefix_byte"; (* :68 *)
  EPrefixed "iec80000::gibibyte" "iec80000::gibi" "iec80000::binary_prefix_byte"; (* :69 *)
  EPrefixed "iec80000::tebibyte" "iec80000::tebi" "iec80000::binary_prefix_byte"; (* :70 *)
  EPrefixed "iec80000::pebibyte" "iec80000::pebi" "iec80000::binary_prefix_byte"; (* :71 *)
  EBase "iec80000::dim_storage_capacity" "M" "iec80000::byte" (* :74 *)
].

(** src/systems/isq-iec80000/include/units/isq/iec80000/traffic_intensity.h *)
Definition h_iec80000_traffic_intensity : list entry := [
  ENamed "iec80000::erlang" (ascii "E") no_prefix; (* :36 *)
  EBase "iec80000::dim_traffic_intensity" "A" "iec80000::erlang" (* :38 *)
].

(** src/systems/isq-iec80000/include/units/isq/iec80000/transfer_rate.h *)
Definition h_iec80000_transfer_rate : list entry := [
  EUnit "iec80000::byte_per_second"; (* :37 *)
  EDim "iec80000::dim_transfer_rate" "iec80000::byte_per_second" [("iec80000::dim_storage_capacity", 1); ("si::dim_time", (-1))]; (* :38 *)
  EDerived "iec80000::kilobyte_per_second" "iec80000::dim_transfer_rate" ["iec80000::kilobyte"; "si::second"]; (* :40 *)
  EDerived "iec80000::megabyte_per_second" "iec80000::dim_transfer_rate" ["iec80000::megabyte"; "si::second"]; (* :41 *)
  EDerived "iec80000::gigabyte_per_second" "iec80000::dim_transfer_rate" ["iec80000::gigabyte"; "si::second"]; (* :42 *)
  EDerived "iec80000::terabyte_per_second" "iec80000::dim_transfer_rate" ["iec80000::terabyte"; "si::second"]; (* :43 *)
  EDerived "iec80000::petabyte_per_second" "iec80000::dim_transfer_rate" ["iec80000::petabyte"; "si::second"]; (* :44 *)
  EDerived "iec80000::exabyte_per_second" "iec80000::dim_transfer_rate" ["iec80000::exabyte"; "si::second"]; (* :45 *)
  EDerived "iec80000::zettabyte_per_second" "iec80000::dim_transfer_rate" ["iec80000::zettabyte"; "si::second"]; (* :46 *)
  EDerived "iec80000::yottabyte_per_second" "iec80000::dim_transfer_rate" ["iec80000::yottabyte"; "si::second"] (* :47 *)
].

(** src/systems/isq-natural/include/units/isq/natural/units.h *)
Definition h_natural_units : list entry := [
  ENamed "natural::electronvolt" (ascii "eV") "si::prefix"; (* :34 *)
  EPrefixed "natural::gigaelectronvolt" "si::giga" "natural::electronvolt"; (* :35 *)
  ENamed "natural::inverted_gigaelectronvolt" (SymbolText "GeV⁻¹" "GeV^-1") no_prefix; (* :36 *)
  ENamed "natural::square_gigaelectronvolt" (SymbolText "GeV²" "GeV^2") no_prefix (* :37 *)
].

(** src/systems/isq-natural/include/units/isq/natural/length.h *)
Definition h_natural_length : list entry := [
  EBaseOf "natural::dim_length" "dim_length" "natural::inverted_gigaelectronvolt" (* :35 *)
].

(** src/systems/isq-natural/include/units/isq/natural/time.h *)
Definition h_natural_time : list entry := [
  EBaseOf "natural::dim_time" "dim_time" "natural::inverted_gigaelectronvolt" (* :35 *)
].

(** src/systems/isq-natural/include/units/isq/natural/acceleration.h *)
Definition h_natural_acceleration : list entry := [
  EDimOf "natural::dim_acceleration" "dim_acceleration" "natural::gigaelectronvolt" ["natural::dim_length"; "natural::dim_time"] (* :38 *)
].

(** src/systems/isq-natural/include/units/isq/natural/speed.h *)
Definition h_natural_speed : list entry := [
  EDimOf "natural::dim_speed" "dim_speed" "one" ["natural::dim_length"; "natural::dim_time"] (* :39 *)
].

(** src/systems/isq-natural/include/units/isq/natural/mass.h *)
Definition h_natural_mass : list entry := [
  EBaseOf "natural::dim_mass" "dim_mass" "natural::gigaelectronvolt" (* :35 *)
].

(** src/systems/isq-natural/include/units/isq/natural/force.h *)
Definition h_natural_force : list entry := [
  EDimOf "natural::dim_force" "dim_force" "natural::square_gigaelectronvolt" ["natural::dim_mass"; "natural::dim_acceleration"] (* :38 *)
].

(** src/systems/isq-natural/include/units/isq/natural/energy.h *)
Definition h_natural_energy : list entry := [
  EDimOf "natural::dim_energy" "dim_energy" "natural::gigaelectronvolt" ["natural::dim_force"; "natural::dim_length"] (* :38 *)
].

(** src/systems/isq-natural/include/units/isq/natural/momentum.h *)
Definition h_natural_momentum : list entry := [
  EDimOf "natural::dim_momentum" "dim_momentum" "natural::gigaelectronvolt" ["natural::dim_mass"; "natural::dim_speed"] (* :38 *)
].

(** src/systems/si/include/units/isq/si/length.h *)
Definition h_si_length : list entry := [
  ENamed "si::metre" (ascii "m") "si::prefix"; (* :37 *)
  EPrefixed "si::yoctometre" "si::yocto" "si::metre"; (* :38 *)
  EPrefixed "si::zeptometre" "si::zepto" "si::metre"; (* :39 *)
  EPrefixed "si::attometre" "si::atto" "si::metre"; (* :40 *)
  EPrefixed "si::femtometre" "si::femto" "si::metre"; (* :41 *)
  EPrefixed "si::picometre" "si::pico" "si::metre"; (* :42 *)
  EPrefixed "si::nanometre" "si::nano" "si::metre"; (* :43 *)
  EPrefixed "si::micrometre" "si::micro" "si::metre"; (* :44 *)
  EPrefixed "si::millimetre" "si::milli" "si::metre"; (* :45 *)
  EPrefixed "si::centimetre" "si::centi" "si::metre"; (* :46 *)
  EPrefixed "si::decimetre" "si::deci" "si::metre"; (* :47 *)
  EPrefixed "si::decametre" "si::deca" "si::metre"; (* :48 *)
  EPrefixed "si::hectometre" "si::hecto" "si::metre"; (* :49 *)
  EPrefixed "si::kilometre" "si::kilo" "si::metre"; (* :50 *)
  EPrefixed "si::megametre" "si::mega" "si::metre"; (* :51 *)
  EPrefixed "si::gigametre" "si::giga" "si::metre"; (* :52 *)
  EPrefixed "si::terametre" "si::tera" "si::metre"; (* :53 *)
  EPrefixed "si::petametre" "si::peta" "si::metre"; (* :54 *)
  EPrefixed "si::exametre" "si::exa" "si::metre"; (* :55 *)
  EPrefixed "si::zettametre" "si::zetta" "si::metre"; (* :56 *)
  EPrefixed "si::yottametre" "si::yotta" "si::metre"; (* :57 *)
  EScaled "si::astronomical_unit" (ascii "au") no_prefix 149597870700 1 0 "si::metre"; (* :59 *)
  EBaseOf "si::dim_length" "dim_length" "si::metre" (* :61 *)
].

(** src/systems/si/include/units/isq/si/speed.h *)
Definition h_si_speed : list entry := [
  EUnit "si::metre_per_second"; (* :37 *)
  EDimOf "si::dim_speed" "dim_speed" "si::metre_per_second" ["si::dim_length"; "si::dim_time"]; (* :38 *)
  EDerived "si::kilometre_per_hour" "si::dim_speed" ["si::kilometre"; "si::hour"] (* :40 *)
].

(** src/systems/si/include/units/isq/si/acceleration.h *)
Definition h_si_acceleration : list entry := [
  EUnit "si::metre_per_second_sq"; (* :36 *)
  EDimOf "si::dim_acceleration" "dim_acceleration" "si::metre_per_second_sq" ["si::dim_length"; "si::dim_time"] (* :37 *)
].

(** src/systems/si/include/units/isq/si/mass.h *)
Definition h_si_mass : list entry := [
  ENamed "si::gram" (ascii "g") "si::prefix"; (* :37 *)
  EPrefixed "si::yoctogram" "si::yocto" "si::gram"; (* :38 *)
  EPrefixed "si::zeptogram" "si::zepto" "si::gram"; (* :39 *)
  EPrefixed "si::attogram" "si::atto" "si::gram"; (* :40 *)
  EPrefixed "si::femtogram" "si::femto" "si::gram"; (* :41 *)
  EPrefixed "si::picogram" "si::pico" "si::gram"; (* :42 *)
  EPrefixed "si::nanogram" "si::nano" "si::gram"; (* :43 *)
  EPrefixed "si::microgram" "si::micro" "si::gram"; (* :44 *)
  EPrefixed "si::milligram" "si::milli" "si::gram"; (* :45 *)
  EPrefixed "si::centigram" "si::centi" "si::gram"; (* :46 *)
  EPrefixed "si::decigram" "si::deci" "si::gram"; (* :47 *)
  EPrefixed "si::decagram" "si::deca" "si::gram"; (* :48 *)
  EPrefixed "si::hectogram" "si::hecto" "si::gram"; (* :49 *)
  EPrefixed "si::kilogram" "si::kilo" "si::gram"; (* :50 *)
  EPrefixed "si::megagram" "si::mega" "si::gram"; (* :51 *)
  EPrefixed "si::gigagram" "si::giga" "si::gram"; (* :52 *)
  EPrefixed "si::teragram" "si::tera" "si::gram"; (* :53 *)
  EPrefixed "si::petagram" "si::peta" "si::gram"; (* :54 *)
  EPrefixed "si::exagram" "si::exa" "si::gram"; (* :55 *)
  EPrefixed "si::zettagram" "si::zetta" "si::gram"; (* :56 *)
  EPrefixed "si::yottagram" "si::yotta" "si::gram"; (* :57 *)
  EAlias "si::tonne" "si::megagram" (ascii "t") "si::prefix"; (* :59 *)
  EPrefixedAlias "si::yoctotonne" "si::attogram" "si::yocto" "si::tonne"; (* :60 *)
  EPrefixedAlias "si::zeptotonne" "si::femtogram" "si::zepto" "si::tonne"; (* :61 *)
  EPrefixedAlias "si::attotonne" "si::picogram" "si::atto" "si::tonne"; (* :62 *)
  EPrefixedAlias "si::femtotonne" "si::nanogram" "si::femto" "si::tonne"; (* :63 *)
  EPrefixedAlias "si::picotonne" "si::microgram" "si::pico" "si::tonne"; (* :64 *)
  EPrefixedAlias "si::nanotonne" "si::milligram" "si::nano" "si::tonne"; (* :65 *)
  EPrefixedAlias "si::microtonne" "si::gram" "si::micro" "si::tonne"; (* :66 *)
  EPrefixedAlias "si::millitonne" "si::kilogram" "si::milli" "si::tonne"; (* :67 *)
  EPrefixed "si::centitonne" "si::centi" "si::tonne"; (* :68 *)
  EPrefixed "si::decitonne" "si::deci" "si::tonne"; (* :69 *)
  EPrefixed "si::decatonne" "si::deca" "si::tonne"; (* :70 *)
  EPrefixed "si::hectotonne" "si::hecto" "si::tonne"; (* :71 *)
  EPrefixedAlias "si::kilotonne" "si::gigagram" "si::kilo" "si::tonne"; (* :72 *)
  EPrefixedAlias "si::megatonne" "si::teragram" "si::mega" "si::tonne"; (* :73 *)
  EPrefixedAlias "si::gigatonne" "si::petagram" "si::giga" "si::tonne"; (* :74 *)
  EPrefixedAlias "si::teratonne" "si::exagram" "si::tera" "si::tonne"; (* :75 *)
  EPrefixedAlias "si::petatonne" "si::zettagram" "si::peta" "si::tonne"; (* :76 *)
  EPrefixedAlias "si::exatonne" "si::yottagram" "si::exa" "si::tonne"; (* :77 *)
  EPrefixed "si::zettatonne" "si::zetta" "si::tonne"; (* :78 *)
  EPrefixed "si::yottatonne" "si::yotta" "si::tonne"; (* :79 *)
  EScaled "si::dalton" (ascii "Da") no_prefix 16605390666050 10000000000000 (-27) "si::kilogram"; (* :81 *)
  EBaseOf "si::dim_mass" "dim_mass" "si::kilogram" (* :83 *)
].

(** src/systems/si/include/units/isq/si/force.h *)
Definition h_si_force : list entry := [
  ENamed "si::newton" (ascii "N") "si::prefix"; (* :39 *)
  EPrefixed "si::yoctonewton" "si::yocto" "si::newton"; (* :40 *)
  EPrefixed "si::zeptonewton" "si::zepto" "si::newton"; (* :41 *)
  EPrefixed "si::attonewton" "si::atto" "si::newton"; (* :42 *)
  EPrefixed "si::femtonewton" "si::femto" "si::newton"; (* :43 *)
  EPrefixed "si::piconewton" "si::pico" "si::newton"; (* :44 *)
  EPrefixed "si::nanonewton" "si::nano" "si::newton"; (* :45 *)
  EPrefixed "si::micronewton" "si::micro" "si::newton"; (* :46 *)
  EPrefixed "si::millinewton" "si::milli" "si::newton"; (* :47 *)
  EPrefixed "si::centinewton" "si::centi" "si::newton"; (* :48 *)
  EPrefixed "si::decinewton" "si::deci" "si::newton"; (* :49 *)
  EPrefixed "si::decanewton" "si::deca" "si::newton"; (* :50 *)
  EPrefixed "si::hectonewton" "si::hecto" "si::newton"; (* :51 *)
  EPrefixed "si::kilonewton" "si::kilo" "si::newton"; (* :52 *)
  EPrefixed "si::meganewton" "si::mega" "si::newton"; (* :53 *)
  EPrefixed "si::giganewton" "si::giga" "si::newton"; (* :54 *)
  EPrefixed "si::teranewton" "si::tera" "si::newton"; (* :55 *)
  EPrefixed "si::petanewton" "si::peta" "si::newton"; (* :56 *)
  EPrefixed "si::exanewton" "si::exa" "si::newton"; (* :57 *)
  EPrefixed "si::zettanewton" "si::zetta" "si::newton"; (* :58 *)
  EPrefixed "si::yottanewton" "si::yotta" "si::newton"; (* :59 *)
  EDimOf "si::dim_force" "dim_force" "si::newton" ["si::dim_mass"; "si::dim_acceleration"] (* :61 *)
].

(** src/systems/si/include/units/isq/si/energy.h *)
Definition h_si_energy : list entry := [
  ENamed "si::joule" (ascii "J") "si::prefix"; (* :38 *)
  EPrefixed "si::yoctojoule" "si::yocto" "si::joule"; (* :39 *)
  EPrefixed "si::zeptojoule" "si::zepto" "si::joule"; (* :40 *)
  EPrefixed "si::attojoule" "si::atto" "si::joule"; (* :41 *)
  EPrefixed "si::femtojoule" "si::femto" "si::joule"; (* :42 *)
  EPrefixed "si::picojoule" "si::pico" "si::joule"; (* :43 *)
  EPrefixed "si::nanojoule" "si::nano" "si::joule"; (* :44 *)
  EPrefixed "si::microjoule" "si::micro" "si::joule"; (* :45 *)
  EPrefixed "si::millijoule" "si::milli" "si::joule"; (* :46 *)
  EPrefixed "si::kilojoule" "si::kilo" "si::joule"; (* :47 *)
  EPrefixed "si::megajoule" "si::mega" "si::joule"; (* :48 *)
  EPrefixed "si::gigajoule" "si::giga" "si::joule"; (* :49 *)
  EPrefixed "si::terajoule" "si::tera" "si::joule"; (* :50 *)
  EPrefixed "si::petajoule" "si::peta" "si::joule"; (* :51 *)
  EPrefixed "si::exajoule" "si::exa" "si::joule"; (* :52 *)
  EPrefixed "si::zettajoule" "si::zetta" "si::joule"; (* :53 *)
  EPrefixed "si::yottajoule" "si::yotta" "si::joule"; (* :54 *)
  EScaled "si::electronvolt" (ascii "eV") "si::prefix" 1602176634 1000000000 (-19) "si::joule"; (* :56 *)
  EPrefixed "si::gigaelectronvolt" "si::giga" "si::electronvolt"; (* :57 *)
  EDimOf "si::dim_energy" "dim_energy" "si::joule" ["si::dim_force"; "si::dim_length"] (* :59 *)
].

(** src/systems/si/include/units/isq/si/absorbed_dose.h *)
Definition h_si_absorbed_dose : list entry := [
  ENamed "si::gray" (ascii "Gy") "si::prefix"; (* :38 *)
  EPrefixed "si::yoctogray" "si::yocto" "si::gray"; (* :39 *)
  EPrefixed "si::zeptogray" "si::zepto" "si::gray"; (* :40 *)
  EPrefixed "si::attogray" "si::atto" "si::gray"; (* :41 *)
  EPrefixed "si::femtogray" "si::femto" "si::gray"; (* :42 *)
  EPrefixed "si::picogray" "si::pico" "si::gray"; (* :43 *)
  EPrefixed "si::nanogray" "si::nano" "si::gray"; (* :44 *)
  EPrefixed "si::microgray" "si::micro" "si::gray"; (* :45 *)
  EPrefixed "si::milligray" "si::milli" "si::gray"; (* :46 *)
  EPrefixed "si::centigray" "si::centi" "si::gray"; (* :47 *)
  EPrefixed "si::decigray" "si::deci" "si::gray"; (* :48 *)
  EPrefixed "si::decagray" "si::deca" "si::gray"; (* :49 *)
  EPrefixed "si::hectogray" "si::hecto" "si::gray"; (* :50 *)
  EPrefixed "si::kilogray" "si::kilo" "si::gray"; (* :51 *)
  EPrefixed "si::megagray" "si::mega" "si::gray"; (* :52 *)
  EPrefixed "si::gigagray" "si::giga" "si::gray"; (* :53 *)
  EPrefixed "si::teragray" "si::tera" "si::gray"; (* :54 *)
  EPrefixed "si::petagray" "si::peta" "si::gray"; (* :55 *)
  EPrefixed "si::exagray" "si::exa" "si::gray"; (* :56 *)
  EPrefixed "si::zettagray" "si::zetta" "si::gray"; (* :57 *)
  EPrefixed "si::yottagray" "si::yotta" "si::gray"; (* :58 *)
  EDimOf "si::dim_absorbed_dose" "dim_absorbed_dose" "si::gray" ["si::dim_energy"; "si::dim_mass"] (* :60 *)
].

(** src/systems/si/include/units/isq/si/amount_of_substance.h *)
Definition h_si_amount_of_substance : list entry := [
  ENamed "si::mole" (ascii "mol") "si::prefix"; (* :37 *)
  EBaseOf "si::dim_amount_of_substance" "dim_amount_of_substance" "si::mole" (* :39 *)
].

(** src/systems/si/include/units/isq/si/angular_velocity.h *)
Definition h_si_angular_velocity : list entry := [
  ENamed "si::radian_per_second" (SymbolText "ω" "w") no_prefix; (* :37 *)
  EDimOf "si::dim_angular_velocity" "dim_angular_velocity" "si::radian_per_second" ["dim_angle<>"; "si::dim_time"] (* :39 *)
].

(** src/systems/si/include/units/isq/si/area.h *)
Definition h_si_area : list entry := [
  EUnit "si::square_metre"; (* :37 *)
  EDimOf "si::dim_area" "dim_area" "si::square_metre" ["si::dim_length"]; (* :38 *)
  EDerived "si::square_yoctometre" "si::dim_area" ["si::yoctometre"]; (* :40 *)
  EDerived "si::square_zeptometre" "si::dim_area" ["si::zeptometre"]; (* :41 *)
  EDerived "si::square_attometre" "si::dim_area" ["si::attometre"]; (* :42 *)
  EDerived "si::square_femtometre" "si::dim_area" ["si::femtometre"]; (* :43 *)
  EDerived "si::square_picometre" "si::dim_area" ["si::picometre"]; (* :44 *)
  EDerived "si::square_nanometre" "si::dim_area" ["si::nanometre"]; (* :45 *)
  EDerived "si::square_micrometre" "si::dim_area" ["si::micrometre"]; (* :46 *)
  EDerived "si::square_millimetre" "si::dim_area" ["si::millimetre"]; (* :47 *)
  EDerived "si::square_centimetre" "si::dim_area" ["si::centimetre"]; (* :48 *)
  EDerived "si::square_decimetre" "si::dim_area" ["si::decimetre"]; (* :49 *)
  EDerived "si::square_decametre" "si::dim_area" ["si::decametre"]; (* :50 *)
  EDerived "si::square_hectometre" "si::dim_area" ["si::hectometre"]; (* :51 *)
  EDerived "si::square_kilometre" "si::dim_area" ["si::kilometre"]; (* :52 *)
  EDerived "si::square_megametre" "si::dim_area" ["si::megametre"]; (* :53 *)
  EDerived "si::square_gigametre" "si::dim_area" ["si::gigametre"]; (* :54 *)
  EDerived "si::square_terametre" "si::dim_area" ["si::terametre"]; (* :55 *)
  EDerived "si::square_petametre" "si::dim_area" ["si::petametre"]; (* :56 *)
  EDerived "si::square_exametre" "si::dim_area" ["si::exametre"]; (* :57 *)
  EDerived "si::square_zettametre" "si::dim_area" ["si::zettametre"]; (* :58 *)
  EDerived "si::square_yottametre" "si::dim_area" ["si::yottametre"]; (* :59 *)
  EAlias "si::hectare" "si::square_hectometre" (ascii "ha") no_prefix (* :61 *)
].

(** src/systems/si/include/units/isq/si/electric_current.h *)
Definition h_si_electric_current : list entry := [
  ENamed "si::ampere" (ascii "A") "si::prefix"; (* :37 *)
  EPrefixed "si::yoctoampere" "si::yocto" "si::ampere"; (* :38 *)
  EPrefixed "si::zeptoampere" "si::zepto" "si::ampere"; (* :39 *)
  EPrefixed "si::attoampere" "si::atto" "si::ampere"; (* :40 *)
  EPrefixed "si::femtoampere" "si::femto" "si::ampere"; (* :41 *)
  EPrefixed "si::picoampere" "si::pico" "si::ampere"; (* :42 *)
  EPrefixed "si::nanoampere" "si::nano" "si::ampere"; (* :43 *)
  EPrefixed "si::microampere" "si::micro" "si::ampere"; (* :44 *)
  EPrefixed "si::milliampere" "si::milli" "si::ampere"; (* :45 *)
  EPrefixed "si::centiampere" "si::centi" "si::ampere"; (* :46 *)
  EPrefixed "si::deciampere" "si::deci" "si::ampere"; (* :47 *)
  EPrefixed "si::decaampere" "si::deca" "si::ampere"; (* :48 *)
  EPrefixed "si::hectoampere" "si::hecto" "si::ampere"; (* :49 *)
  EPrefixed "si::kiloampere" "si::kilo" "si::ampere"; (* :50 *)
  EPrefixed "si::megaampere" "si::mega" "si::ampere"; (* :51 *)
  EPrefixed "si::gigaampere" "si::giga" "si::ampere"; (* :52 *)
  EPrefixed "si::teraampere" "si::tera" "si::ampere"; (* :53 *)
  EPrefixed "si::petaampere" "si::peta" "si::ampere"; (* :54 *)
  EPrefixed "si::exaampere" "si::exa" "si::ampere"; (* :55 *)
  EPrefixed "si::zettaampere" "si::zetta" "si::ampere"; (* :56 *)
  EPrefixed "si::yottaampere" "si::yotta" "si::ampere"; (* :57 *)
  EBaseOf "si::dim_electric_current" "dim_electric_current" "si::ampere" (* :59 *)
].

(** src/systems/si/include/units/isq/si/electric_charge.h *)
Definition h_si_electric_charge : list entry := [
  ENamed "si::coulomb" (ascii "C") "si::prefix"; (* :38 *)
  EDimOf "si::dim_electric_charge" "dim_electric_charge" "si::coulomb" ["si::dim_time"; "si::dim_electric_current"] (* :40 *)
].

(** src/systems/si/include/units/isq/si/power.h *)
Definition h_si_power : list entry := [
  ENamed "si::watt" (ascii "W") "si::prefix"; (* :38 *)
  EPrefixed "si::yoctowatt" "si::yocto" "si::watt"; (* :39 *)
  EPrefixed "si::zeptowatt" "si::zepto" "si::watt"; (* :40 *)
  EPrefixed "si::attowatt" "si::atto" "si::watt"; (* :41 *)
  EPrefixed "si::femtowatt" "si::femto" "si::watt"; (* :42 *)
  EPrefixed "si::picowatt" "si::pico" "si::watt"; (* :43 *)
  EPrefixed "si::nanowatt" "si::nano" "si::watt"; (* :44 *)
  EPrefixed "si::microwatt" "si::micro" "si::watt"; (* :45 *)
  EPrefixed "si::milliwatt" "si::milli" "si::watt"; (* :46 *)
  EPrefixed "si::kilowatt" "si::kilo" "si::watt"; (* :47 *)
  EPrefixed "si::megawatt" "si::mega" "si::watt"; (* :48 *)
  EPrefixed "si::gigawatt" "si::giga" "si::watt"; (* :49 *)
  EPrefixed "si::terawatt" "si::tera" "si::watt"; (* :50 *)
  EPrefixed "si::petawatt" "si::peta" "si::watt"; (* :51 *)
  EPrefixed "si::exawatt" "si::exa" "si::watt"; (* :52 *)
  EPrefixed "si::zettawatt" "si::zetta" "si::watt"; (* :53 *)
  EPrefixed "si::yottawatt" "si::yotta" "si::watt"; (* :54 *)
  EDimOf "si::dim_power" "dim_power" "si::watt" ["si::dim_energy"; "si::dim_time"] (* :56 *)
].

(** src/systems/si/include/units/isq/si/voltage.h *)
Definition h_si_voltage : list entry := [
  ENamed "si::volt" (ascii "V") "si::prefix"; (* :39 *)
  EPrefixed "si::yoctovolt" "si::yocto" "si::volt"; (* :40 *)
  EPrefixed "si::zeptovolt" "si::zepto" "si::volt"; (* :41 *)
  EPrefixed "si::attovolt" "si::atto" "si::volt"; (* :42 *)
  EPrefixed "si::femtovolt" "si::femto" "si::volt"; (* :43 *)
  EPrefixed "si::picovolt" "si::pico" "si::volt"; (* :44 *)
  EPrefixed "si::nanovolt" "si::nano" "si::volt"; (* :45 *)
  EPrefixed "si::microvolt" "si::micro" "si::volt"; (* :46 *)
  EPrefixed "si::millivolt" "si::milli" "si::volt"; (* :47 *)
  EPrefixed "si::centivolt" "si::centi" "si::volt"; (* :48 *)
  EPrefixed "si::decivolt" "si::deci" "si::volt"; (* :49 *)
  EPrefixed "si::decavolt" "si::deca" "si::volt"; (* :50 *)
  EPrefixed "si::hectovolt" "si::hecto" "si::volt"; (* :51 *)
  EPrefixed "si::kilovolt" "si::kilo" "si::volt"; (* :52 *)
  EPrefixed "si::megavolt" "si::mega" "si::volt"; (* :53 *)
  EPrefixed "si::gigavolt" "si::giga" "si::volt"; (* :54 *)
  EPrefixed "si::teravolt" "si::tera" "si::volt"; (* :55 *)
  EPrefixed "si::petavolt" "si::peta" "si::volt"; (* :56 *)
  EPrefixed "si::exavolt" "si::exa" "si::volt"; (* :57 *)
  EPrefixed "si::zettavolt" "si::zetta" "si::volt"; (* :58 *)
  EPrefixed "si::yottavolt" "si::yotta" "si::volt"; (* :59 *)
  EDimOf "si::dim_voltage" "dim_voltage" "si::volt" ["si::dim_power"; "si::dim_electric_current"] (* :61 *)
].

(** src/systems/si/include/units/isq/si/capacitance.h *)
Definition h_si_capacitance : list entry := [
  ENamed "si::farad" (ascii "F") "si::prefix"; (* :39 *)
  EPrefixed "si::yoctofarad" "si::yocto" "si::farad"; (* :40 *)
  EPrefixed "si::zeptofarad" "si::zepto" "si::farad"; (* :41 *)
  EPrefixed "si::attofarad" "si::atto" "si::farad"; (* :42 *)
  EPrefixed "si::femtofarad" "si::femto" "si::farad"; (* :43 *)
  EPrefixed "si::picofarad" "si::pico" "si::farad"; (* :44 *)
  EPrefixed "si::nanofarad" "si::nano" "si::farad"; (* :45 *)
  EPrefixed "si::microfarad" "si::micro" "si::farad"; (* :46 *)
  EPrefixed "si::millifarad" "si::milli" "si::farad"; (* :47 *)
  EPrefixed "si::centifarad" "si::centi" "si::farad"; (* :48 *)
  EPrefixed "si::decifarad" "si::deci" "si::farad"; (* :49 *)
  EPrefixed "si::decafarad" "si::deca" "si::farad"; (* :50 *)
  EPrefixed "si::hectofarad" "si::hecto" "si::farad"; (* :51 *)
  EPrefixed "si::kilofarad" "si::kilo" "si::farad"; (* :52 *)
  EPrefixed "si::megafarad" "si::mega" "si::farad"; (* :53 *)
  EPrefixed "si::gigafarad" "si::giga" "si::farad"; (* :54 *)
  EPrefixed "si::terafarad" "si::tera" "si::farad"; (* :55 *)
  EPrefixed "si::petafarad" "si::peta" "si::farad"; (* :56 *)
  EPrefixed "si::exafarad" "si::exa" "si::farad"; (* :57 *)
  EPrefixed "si::zettafarad" "si::zetta" "si::farad"; (* :58 *)
  EPrefixed "si::yottafarad" "si::yotta" "si::farad"; (* :59 *)
  EDimOf "si::dim_capacitance" "dim_capacitance" "si::farad" ["si::dim_electric_charge"; "si::dim_voltage"] (* :61 *)
].

(** src/systems/si/include/units/isq/si/catalytic_activity.h *)
Definition h_si_catalytic_activity : list entry := [
  ENamed "si::katal" (ascii "kat") "si::prefix"; (* :39 *)
  EPrefixed "si::yoctokatal" "si::yocto" "si::katal"; (* :40 *)
  EPrefixed "si::zeptokatal" "si::zepto" "si::katal"; (* :41 *)
  EPrefixed "si::attokatal" "si::atto" "si::katal"; (* :42 *)
  EPrefixed "si::femtokatal" "si::femto" "si::katal"; (* :43 *)
  EPrefixed "si::picokatal" "si::pico" "si::katal"; (* :44 *)
  EPrefixed "si::nanokatal" "si::nano" "si::katal"; (* :45 *)
  EPrefixed "si::microkatal" "si::micro" "si::katal"; (* :46 *)
  EPrefixed "si::millikatal" "si::milli" "si::katal"; (* :47 *)
  EPrefixed "si::centikatal" "si::centi" "si::katal"; (* :48 *)
  EPrefixed "si::decikatal" "si::deci" "si::katal"; (* :49 *)
  EPrefixed "si::decakatal" "si::deca" "si::katal"; (* :50 *)
  EPrefixed "si::hectokatal" "si::hecto" "si::katal"; (* :51 *)
  EPrefixed "si::kilokatal" "si::kilo" "si::katal"; (* :52 *)
  EPrefixed "si::megakatal" "si::mega" "si::katal"; (* :53 *)
  EPrefixed "si::gigakatal" "si::giga" "si::katal"; (* :54 *)
  EPrefixed "si::terakatal" "si::tera" "si::katal"; (* :55 *)
  EPrefixed "si::petakatal" "si::peta" "si::katal"; (* :56 *)
  EPrefixed "si::exakatal" "si::exa" "si::katal"; (* :57 *)
  EPrefixed "si::zettakatal" "si::zetta" "si::katal"; (* :58 *)
  EPrefixed "si::yottakatal" "si::yotta" "si::katal"; (* :59 *)
  EScaled "si::enzyme_unit" (ascii "U") "si::prefix" 1 60 (-6) "si::katal"; (* :61 *)
  EDimOf "si::dim_catalytic_activity" "dim_catalytic_activity" "si::katal" ["si::dim_time"; "si::dim_amount_of_substance"] (* :63 *)
].

(** src/systems/si-cgs/include/units/isq/si/cgs/length.h *)
Definition h_si_cgs_length : list entry := [
  EBaseOf "si::cgs::dim_length" "dim_length" "si::centimetre" (* :39 *)
].

(** src/systems/si-cgs/include/units/isq/si/cgs/speed.h *)
Definition h_si_cgs_speed : list entry := [
  EUnit "si::cgs::centimetre_per_second"; (* :37 *)
  EDimOf "si::cgs::dim_speed" "dim_speed" "si::cgs::centimetre_per_second" ["si::cgs::dim_length"; "si::dim_time"] (* :38 *)
].

(** src/systems/si-cgs/include/units/isq/si/cgs/acceleration.h *)
Definition h_si_cgs_acceleration : list entry := [
  ENamed "si::cgs::gal" (ascii "Gal") "si::prefix"; (* :37 *)
  EDimOf "si::cgs::dim_acceleration" "dim_acceleration" "si::cgs::gal" ["si::cgs::dim_length"; "si::dim_time"] (* :38 *)
].

(** src/systems/si-cgs/include/units/isq/si/cgs/area.h *)
Definition h_si_cgs_area : list entry := [
  EDimOf "si::cgs::dim_area" "dim_area" "si::square_centimetre" ["si::cgs::dim_length"] (* :40 *)
].

(** src/systems/si-cgs/include/units/isq/si/cgs/mass.h *)
Definition h_si_cgs_mass : list entry := [
  EBaseOf "si::cgs::dim_mass" "dim_mass" "si::gram" (* :39 *)
].

(** src/systems/si-cgs/include/units/isq/si/cgs/force.h *)
Definition h_si_cgs_force : list entry := [
  ENamed "si::cgs::dyne" (ascii "dyn") "si::prefix"; (* :39 *)
  EDimOf "si::cgs::dim_force" "dim_force" "si::cgs::dyne" ["si::cgs::dim_mass"; "si::cgs::dim_acceleration"] (* :41 *)
].

(** src/systems/si-cgs/include/units/isq/si/cgs/energy.h *)
Definition h_si_cgs_energy : list entry := [
  ENamed "si::cgs::erg" (ascii "erg") "si::prefix"; (* :38 *)
  EDimOf "si::cgs::dim_energy" "dim_energy" "si::cgs::erg" ["si::cgs::dim_force"; "si::cgs::dim_length"] (* :40 *)
].

(** src/systems/si-cgs/include/units/isq/si/cgs/power.h *)
Definition h_si_cgs_power : list entry := [
  EUnit "si::cgs::erg_per_second"; (* :37 *)
  EDimOf "si::cgs::dim_power" "dim_power" "si::cgs::erg_per_second" ["si::cgs::dim_energy"; "si::dim_time"] (* :39 *)
].

(** src/systems/si-cgs/include/units/isq/si/cgs/pressure.h *)
Definition h_si_cgs_pressure : list entry := [
  ENamed "si::cgs::barye" (ascii "Ba") "si::prefix"; (* :39 *)
  EDimOf "si::cgs::dim_pressure" "dim_pressure" "si::cgs::barye" ["si::cgs::dim_force"; "si::cgs::dim_area"] (* :41 *)
].

(** src/systems/si/include/units/isq/si/charge_density.h *)
Definition h_si_charge_density : list entry := [
  EUnit "si::coulomb_per_metre_cub"; (* :38 *)
  EUnit "si::coulomb_per_metre_sq"; (* :39 *)
  EDimOf "si::dim_charge_density" "dim_charge_density" "si::coulomb_per_metre_cub" ["si::dim_electric_charge"; "si::dim_length"]; (* :41 *)
  EDimOf "si::dim_surface_charge_density" "dim_surface_charge_density" "si::coulomb_per_metre_sq" ["si::dim_electric_charge"; "si::dim_length"] (* :42 *)
].

(** src/systems/si/include/units/isq/si/concentration.h *)
Definition h_si_concentration : list entry := [
  EUnit "si::mol_per_metre_cub"; (* :37 *)
  EDimOf "si::dim_concentration" "dim_concentration" "si::mol_per_metre_cub" ["si::dim_amount_of_substance"; "si::dim_length"] (* :38 *)
].

(** src/systems/si/include/units/isq/si/resistance.h *)
Definition h_si_resistance : list entry := [
  ENamed "si::ohm" (SymbolText "Ω" "ohm") "si::prefix"; (* :39 *)
  EPrefixed "si::yoctoohm" "si::yocto" "si::ohm"; (* :40 *)
  EPrefixed "si::zeptoohm" "si::zepto" "si::ohm"; (* :41 *)
  EPrefixed "si::attoohm" "si::atto" "si::ohm"; (* :42 *)
  EPrefixed "si::femtoohm" "si::femto" "si::ohm"; (* :43 *)
  EPrefixed "si::picoohm" "si::pico" "si::ohm"; (* :44 *)
  EPrefixed "si::nanoohm" "si::nano" "si::ohm"; (* :45 *)
  EPrefixed "si::microohm" "si::micro" "si::ohm"; (* :46 *)
  EPrefixed "si::milliohm" "si::milli" "si::ohm"; (* :47 *)
  EPrefixed "si::kiloohm" "si::kilo" "si::ohm"; (* :48 *)
  EPrefixed "si::megaohm" "si::mega" "si::ohm"; (* :49 *)
  EPrefixed "si::gigaohm" "si::giga" "si::ohm"; (* :50 *)
  EPrefixed "si::teraohm" "si::tera" "si::ohm"; (* :51 *)
  EPrefixed "si::petaohm" "si::peta" "si::ohm"; (* :52 *)
  EPrefixed "si::exaohm" "si::exa" "si::ohm"; (* :53 *)
  EPrefixed "si::zettaohm" "si::zetta" "si::ohm"; (* :54 *)
  EPrefixed "si::yottaohm" "si::yotta" "si::ohm"; (* :55 *)
  EDimOf "si::dim_resistance" "dim_resistance" "si::ohm" ["si::dim_voltage"; "si::dim_electric_current"] (* :57 *)
].

(** src/systems/si/include/units/isq/si/conductance.h *)
Definition h_si_conductance : list entry := [
  ENamed "si::siemens" (ascii "S") "si::prefix"; (* :38 *)
  EPrefixed "si::yoctosiemens" "si::yocto" "si::siemens"; (* :39 *)
  EPrefixed "si::zeptosiemens" "si::zepto" "si::siemens"; (* :40 *)
  EPrefixed "si::attosiemens" "si::atto" "si::siemens"; (* :41 *)
  EPrefixed "si::femtosiemens" "si::femto" "si::siemens"; (* :42 *)
  EPrefixed "si::picosiemens" "si::pico" "si::siemens"; (* :43 *)
  EPrefixed "si::nanosiemens" "si::nano" "si::siemens"; (* :44 *)
  EPrefixed "si::microsiemens" "si::micro" "si::siemens"; (* :45 *)
  EPrefixed "si::millisiemens" "si::milli" "si::siemens"; (* :46 *)
  EPrefixed "si::kilosiemens" "si::kilo" "si::siemens"; (* :47 *)
  EPrefixed "si::megasiemens" "si::mega" "si::siemens"; (* :48 *)
  EPrefixed "si::gigasiemens" "si::giga" "si::siemens"; (* :49 *)
  EPrefixed "si::terasiemens" "si::tera" "si::siemens"; (* :50 *)
  EPrefixed "si::petasiemens" "si::peta" "si::siemens"; (* :51 *)
  EPrefixed "si::exasiemens" "si::exa" "si::siemens"; (* :52 *)
  EPrefixed "si::zettasiemens" "si::zetta" "si::siemens"; (* :53 *)
  EPrefixed "si::yottasiemens" "si::yotta" "si::siemens"; (* :54 *)
  EDimOf "si::dim_conductance" "dim_conductance" "si::siemens" ["si::dim_resistance"] (* :56 *)
].

(** src/systems/si/include/units/isq/si/thermodynamic_temperature.h *)
Definition h_si_thermodynamic_temperature : list entry := [
  ENamed "si::kelvin" (ascii "K") no_prefix; (* :36 *)
  EBaseOf "si::dim_thermodynamic_temperature" "dim_thermodynamic_temperature" "si::kelvin" (* :38 *)
].

(** src/systems/si/include/units/isq/si/current_density.h *)
Definition h_si_current_density : list entry := [
  EUnit "si::ampere_per_metre_sq"; (* :38 *)
  EDimOf "si::dim_current_density" "dim_current_density" "si::ampere_per_metre_sq" ["si::dim_electric_current"; "si::dim_length"] (* :40 *)
].

(** src/systems/si/include/units/isq/si/density.h *)
Definition h_si_density : list entry := [
  EUnit "si::kilogram_per_metre_cub"; (* :38 *)
  EDimOf "si::dim_density" "dim_density" "si::kilogram_per_metre_cub" ["si::dim_mass"; "si::dim_length"] (* :40 *)
].

(** src/systems/si/include/units/isq/si/pressure.h *)
Definition h_si_pressure : list entry := [
  ENamed "si::pascal" (ascii "Pa") "si::prefix"; (* :39 *)
  EPrefixed "si::yoctopascal" "si::yocto" "si::pascal"; (* :40 *)
  EPrefixed "si::zeptopascal" "si::zepto" "si::pascal"; (* :41 *)
  EPrefixed "si::attopascal" "si::atto" "si::pascal"; (* :42 *)
  EPrefixed "si::femtopascal" "si::femto" "si::pascal"; (* :43 *)
  EPrefixed "si::picopascal" "si::pico" "si::pascal"; (* :44 *)
  EPrefixed "si::nanopascal" "si::nano" "si::pascal"; (* :45 *)
  EPrefixed "si::micropascal" "si::micro" "si::pascal"; (* :46 *)
  EPrefixed "si::millipascal" "si::milli" "si::pascal"; (* :47 *)
  EPrefixed "si::centipascal" "si::centi" "si::pascal"; (* :48 *)
  EPrefixed "si::decipascal" "si::deci" "si::pascal"; (* :49 *)
  EPrefixed "si::decapascal" "si::deca" "si::pascal"; (* :50 *)
  EPrefixed "si::hectopascal" "si::hecto" "si::pascal"; (* :51 *)
  EPrefixed "si::kilopascal" "si::kilo" "si::pascal"; (* :52 *)
  EPrefixed "si::megapascal" "si::mega" "si::pascal"; (* :53 *)
  EPrefixed "si::gigapascal" "si::giga" "si::pascal"; (* :54 *)
  EPrefixed "si::terapascal" "si::tera" "si::pascal"; (* :55 *)
  EPrefixed "si::petapascal" "si::peta" "si::pascal"; (* :56 *)
  EPrefixed "si::exapascal" "si::exa" "si::pascal"; (* :57 *)
  EPrefixed "si::zettapascal" "si::zetta" "si::pascal"; (* :58 *)
  EPrefixed "si::yottapascal" "si::yotta" "si::pascal"; (* :59 *)
  EDimOf "si::dim_pressure" "dim_pressure" "si::pascal" ["si::dim_force"; "si::dim_area"] (* :61 *)
].

(** src/systems/si/include/units/isq/si/dynamic_viscosity.h *)
Definition h_si_dynamic_viscosity : list entry := [
  EUnit "si::pascal_second"; (* :37 *)
  EDimOf "si::dim_dynamic_viscosity" "dim_dynamic_viscosity" "si::pascal_second" ["si::dim_pressure"; "si::dim_time"] (* :38 *)
].

(** src/systems/si/include/units/isq/si/electric_field_strength.h *)
Definition h_si_electric_field_strength : list entry := [
  EUnit "si::volt_per_metre"; (* :36 *)
  EDimOf "si::dim_electric_field_strength" "dim_electric_field_strength" "si::volt_per_metre" ["si::dim_voltage"; "si::dim_length"] (* :37 *)
].

(** src/systems/si/include/units/isq/si/volume.h *)
Definition h_si_volume : list entry := [
  EUnit "si::cubic_metre"; (* :37 *)
  EDimOf "si::dim_volume" "dim_volume" "si::cubic_metre" ["si::dim_length"]; (* :38 *)
  EDerived "si::cubic_yoctometre" "si::dim_volume" ["si::yoctometre"]; (* :40 *)
  EDerived "si::cubic_zeptometre" "si::dim_volume" ["si::zeptometre"]; (* :41 *)
  EDerived "si::cubic_attometre" "si::dim_volume" ["si::attometre"]; (* :42 *)
  EDerived "si::cubic_femtometre" "si::dim_volume" ["si::femtometre"]; (* :43 *)
  EDerived "si::cubic_picometre" "si::dim_volume" ["si::picometre"]; (* :44 *)
  EDerived "si::cubic_nanometre" "si::dim_volume" ["si::nanometre"]; (* :45 *)
  EDerived "si::cubic_micrometre" "si::dim_volume" ["si::micrometre"]; (* :46 *)
  EDerived "si::cubic_millimetre" "si::dim_volume" ["si::millimetre"]; (* :47 *)
  EDerived "si::cubic_centimetre" "si::dim_volume" ["si::centimetre"]; (* :48 *)
  EDerived "si::cubic_decimetre" "si::dim_volume" ["si::decimetre"]; (* :49 *)
  EDerived "si::cubic_decametre" "si::dim_volume" ["si::decametre"]; (* :50 *)
  EDerived "si::cubic_hectometre" "si::dim_volume" ["si::hectometre"]; (* :51 *)
  EDerived "si::cubic_kilometre" "si::dim_volume" ["si::kilometre"]; (* :52 *)
  EDerived "si::cubic_megametre" "si::dim_volume" ["si::megametre"]; (* :53 *)
  EDerived "si::cubic_gigametre" "si::dim_volume" ["si::gigametre"]; (* :54 *)
  EDerived "si::cubic_terametre" "si::dim_volume" ["si::terametre"]; (* :55 *)
  EDerived "si::cubic_petametre" "si::dim_volume" ["si::petametre"]; (* :56 *)
  EDerived "si::cubic_exametre" "si::dim_volume" ["si::exametre"]; (* :57 *)
  EDerived "si::cubic_zettametre" "si::dim_volume" ["si::zettametre"]; (* :58 *)
  EDerived "si::cubic_yottametre" "si::dim_volume" ["si::yottametre"]; (* :59 *)
  EAlias "si::litre" "si::cubic_decimetre" (ascii "l") "si::prefix"; (* :61 *)
  EPrefixedAlias "si::yoctolitre" "si::cubic_nanometre" "si::yocto" "si::litre"; (* :62 *)
  EPrefixed "si::zeptolitre" "si::zepto" "si::litre"; (* :63 *)
  EPrefixed "si::attolitre" "si::atto" "si::litre"; (* :64 *)
  EPrefixedAlias "si::femtolitre" "si::cubic_micrometre" "si::femto" "si::litre"; (* :65 *)
  EPrefixed "si::picolitre" "si::pico" "si::litre"; (* :66 *)
  EPrefixed "si::nanolitre" "si::nano" "si::litre"; (* :67 *)
  EPrefixedAlias "si::microlitre" "si::cubic_millimetre" "si::micro" "si::litre"; (* :68 *)
  EPrefixedAlias "si::millilitre" "si::cubic_centimetre" "si::milli" "si::litre"; (* :69 *)
  EPrefixed "si::centilitre" "si::centi" "si::litre"; (* :70 *)
  EPrefixed "si::decilitre" "si::deci" "si::litre"; (* :71 *)
  EPrefixed "si::decalitre" "si::deca" "si::litre"; (* :72 *)
  EPrefixedAlias "si::hectolitre" "si::cubic_decimetre" "si::hecto" "si::litre"; (* :73 *)
  EPrefixedAlias "si::kilolitre" "si::cubic_metre" "si::kilo" "si::litre"; (* :74 *)
  EPrefixedAlias "si::megalitre" "si::cubic_decametre" "si::mega" "si::litre"; (* :75 *)
  EPrefixedAlias "si::gigalitre" "si::cubic_hectometre" "si::giga" "si::litre"; (* :76 *)
  EPrefixedAlias "si::teralitre" "si::cubic_kilometre" "si::tera" "si::litre"; (* :77 *)
  EPrefixed "si::petalitre" "si::peta" "si::litre"; (* :78 *)
  EPrefixed "si::exalitre" "si::exa" "si::litre"; (* :79 *)
  EPrefixedAlias "si::zettalitre" "si::cubic_megametre" "si::zetta" "si::litre"; (* :80 *)
  EPrefixed "si::yottalitre" "si::yotta" "si::litre" (* :81 *)
].

(** src/systems/si/include/units/isq/si/energy_density.h *)
Definition h_si_energy_density : list entry := [
  EUnit "si::joule_per_metre_cub"; (* :37 *)
  EDimOf "si::dim_energy_density" "dim_energy_density" "si::joule_per_metre_cub" ["si::dim_energy"; "si::dim_volume"] (* :38 *)
].

(** src/systems/si-fps/include/units/isq/si/fps/length.h *)
Definition h_si_fps_length : list entry := [
  EScaled "si::fps::foot" (ascii "ft") no_prefix 3048 1000 (-1) "si::metre"; (* :38 *)
  EScaled "si::fps::inch" (ascii "in") no_prefix 1 12 0 "si::fps::foot"; (* :40 *)
  EScaled "si::fps::thousandth" (ascii "thou") no_prefix 1 1000 0 "si::fps::inch"; (* :43 *)
  EAlias "si::fps::thou" "si::fps::thousandth" (ascii "thou") no_prefix; (* :44 *)
  EAlias "si::fps::mil" "si::fps::thousandth" (ascii "mil") no_prefix; (* :45 *)
  EScaled "si::fps::yard" (ascii "yd") "si::prefix" 3 1 0 "si::fps::foot"; (* :47 *)
  EScaled "si::fps::fathom" (ascii "ftm") no_prefix 6 1 0 "si::fps::foot"; (* :49 *)
  EPrefixed "si::fps::kiloyard" "si::kilo" "si::fps::yard"; (* :51 *)
  EScaled "si::fps::mile" (ascii "mile") no_prefix 5280 1 0 "si::fps::foot"; (* :53 *)
  EScaled "si::fps::nautical_mile" (ascii "mi(naut)") no_prefix 2000 1 0 "si::fps::yard"; (* :55 *)
  EBaseOf "si::fps::dim_length" "dim_length" "si::fps::foot" (* :57 *)
].

(** src/systems/si-fps/include/units/isq/si/fps/speed.h *)
Definition h_si_fps_speed : list entry := [
  EUnit "si::fps::foot_per_second"; (* :38 *)
  EDimOf "si::fps::dim_speed" "dim_speed" "si::fps::foot_per_second" ["si::fps::dim_length"; "si::dim_time"]; (* :39 *)
  EDerived "si::fps::mile_per_hour" "si::fps::dim_speed" ["si::fps::mile"; "si::hour"]; (* :44 *)
  EDerived "si::fps::nautical_mile_per_hour" "si::fps::dim_speed" ["si::fps::nautical_mile"; "si::hour"]; (* :45 *)
  EAlias "si::fps::knot" "si::fps::nautical_mile_per_hour" (ascii "knot") no_prefix (* :46 *)
].

(** src/systems/si-fps/include/units/isq/si/fps/acceleration.h *)
Definition h_si_fps_acceleration : list entry := [
  EUnit "si::fps::foot_per_second_sq"; (* :36 *)
  EDimOf "si::fps::dim_acceleration" "dim_acceleration" "si::fps::foot_per_second_sq" ["si::fps::dim_length"; "si::dim_time"] (* :37 *)
].

(** src/systems/si-fps/include/units/isq/si/fps/area.h *)
Definition h_si_fps_area : list entry := [
  EUnit "si::fps::square_foot"; (* :37 *)
  EDimOf "si::fps::dim_area" "dim_area" "si::fps::square_foot" ["si::fps::dim_length"] (* :38 *)
].

(** src/systems/si-fps/include/units/isq/si/fps/mass.h *)
Definition h_si_fps_mass : list entry := [
  EScaled "si::fps::pound" (ascii "lb") no_prefix 45359237 100000000 0 "si::kilogram"; (* :38 *)
  EBaseOf "si::fps::dim_mass" "dim_mass" "si::fps::pound"; (* :40 *)
  EScaled "si::fps::grain" (ascii "gr") no_prefix 1 7000 0 "si::fps::pound"; (* :45 *)
  EScaled "si::fps::dram" (ascii "dr") no_prefix 1 256 0 "si::fps::pound"; (* :47 *)
  EScaled "si::fps::ounce" (ascii "oz") no_prefix 1 16 0 "si::fps::pound"; (* :49 *)
  EScaled "si::fps::stone" (ascii "st") no_prefix 14 1 0 "si::fps::pound"; (* :51 *)
  EScaled "si::fps::quarter" (ascii "qr") no_prefix 28 1 0 "si::fps::pound"; (* :53 *)
  EScaled "si::fps::hundredweight" (ascii "cwt") no_prefix 112 1 0 "si::fps::pound"; (* :55 *)
  EScaled "si::fps::short_ton" (ascii "ton (short)") no_prefix 2000 1 0 "si::fps::pound"; (* :57 *)
  EScaled "si::fps::long_ton" (ascii "ton (long)") no_prefix 2240 1 0 "si::fps::pound" (* :59 *)
].

(** src/systems/si-fps/include/units/isq/si/fps/density.h *)
Definition h_si_fps_density : list entry := [
  EUnit "si::fps::pound_per_foot_cub"; (* :37 *)
  EDimOf "si::fps::dim_density" "dim_density" "si::fps::pound_per_foot_cub" ["si::fps::dim_mass"; "si::fps::dim_length"] (* :39 *)
].

(** src/systems/si-fps/include/units/isq/si/fps/force.h *)
Definition h_si_fps_force : list entry := [
  ENamed "si::fps::poundal" (ascii "pdl") no_prefix; (* :40 *)
  EScaled "si::fps::pound_force" (ascii "lbf") "si::prefix" 32174049 1000000 0 "si::fps::poundal"; (* :43 *)
  EPrefixed "si::fps::kilopound_force" "si::kilo" "si::fps::pound_force"; (* :45 *)
  EAlias "si::fps::kip" "si::fps::kilopound_force" (ascii "klbf") no_prefix; (* :48 *)
  EDimOf "si::fps::dim_force" "dim_force" "si::fps::poundal" ["si::fps::dim_mass"; "si::fps::dim_acceleration"] (* :50 *)
].

(** src/systems/si-fps/include/units/isq/si/fps/energy.h *)
Definition h_si_fps_energy : list entry := [
  EUnit "si::fps::foot_poundal"; (* :38 *)
  EDimOf "si::fps::dim_energy" "dim_energy" "si::fps::foot_poundal" ["si::fps::dim_length"; "si::fps::dim_force"]; (* :40 *)
  EDerived "si::fps::foot_pound_force" "si::fps::dim_energy" ["si::fps::foot"; "si::fps::pound_force"] (* :43 *)
].

(** src/systems/si-fps/include/units/isq/si/fps/power.h *)
Definition h_si_fps_power : list entry := [
  EUnit "si::fps::foot_poundal_per_second"; (* :38 *)
  EDimOf "si::fps::dim_power" "dim_power" "si::fps::foot_poundal_per_second" ["si::fps::dim_length"; "si::fps::dim_force"; "si::dim_time"]; (* :40 *)
  EDerived "si::fps::foot_pound_force_per_second" "si::fps::dim_power" ["si::fps::foot"; "si::fps::pound_force"; "si::second"]; (* :42 *)
  EScaled "si::fps::horse_power" (ascii "hp") no_prefix 550 1 0 "si::fps::foot_pound_force_per_second" (* :44 *)
].

(** src/systems/si-fps/include/units/isq/si/fps/pressure.h *)
Definition h_si_fps_pressure : list entry := [
  EUnit "si::fps::poundal_per_foot_sq"; (* :39 *)
  EDimOf "si::fps::dim_pressure" "dim_pressure" "si::fps::poundal_per_foot_sq" ["si::fps::dim_force"; "si::fps::dim_area"]; (* :41 *)
  EScaled "si::fps::pound_force_per_foot_sq" (ascii "lbf ft2") "si::prefix" 32174049 1000000 0 "si::fps::poundal_per_foot_sq"; (* :46 *)
  EScaled "si::fps::pound_force_per_inch_sq" (ascii "psi") "si::prefix" 1 144 0 "si::fps::pound_force_per_foot_sq"; (* :48 *)
  EPrefixed "si::fps::kilopound_force_per_inch_sq" "si::kilo" "si::fps::pound_force_per_inch_sq" (* :50 *)
].

(** src/systems/si-fps/include/units/isq/si/fps/volume.h *)
Definition h_si_fps_volume : list entry := [
  EUnit "si::fps::cubic_foot"; (* :37 *)
  EDimOf "si::fps::dim_volume" "dim_volume" "si::fps::cubic_foot" ["si::fps::dim_length"]; (* :38 *)
  EDerived "si::fps::cubic_yard" "si::fps::dim_volume" ["si::fps::yard"] (* :40 *)
].

(** src/systems/si/include/units/isq/si/heat_capacity.h *)
Definition h_si_heat_capacity : list entry := [
  EUnit "si::joule_per_kelvin"; (* :39 *)
  EUnit "si::joule_per_kilogram_kelvin"; (* :40 *)
  EUnit "si::joule_per_mole_kelvin"; (* :41 *)
  EDimOf "si::dim_heat_capacity" "dim_heat_capacity" "si::joule_per_kelvin" ["si::dim_energy"; "si::dim_thermodynamic_temperature"]; (* :43 *)
  EDimOf "si::dim_specific_heat_capacity" "dim_specific_heat_capacity" "si::joule_per_kilogram_kelvin" ["si::dim_heat_capacity"; "si::dim_mass"]; (* :44 *)
  EDimOf "si::dim_molar_heat_capacity" "dim_molar_heat_capacity" "si::joule_per_mole_kelvin" ["si::dim_heat_capacity"; "si::dim_amount_of_substance"] (* :45 *)
].

(** src/systems/si-iau/include/units/isq/si/iau/length.h *)
Definition h_si_iau_length : list entry := [
  EScaled "si::iau::light_year" (ascii "ly") no_prefix 9460730472580800 1 0 "si::metre"; (* :39 *)
  EScaled "si::iau::parsec" (ascii "pc") "si::prefix" 30856775814913673 1 0 "si::metre"; (* :42 *)
  EScaled "si::iau::angstrom" (ascii "angstrom") no_prefix 1 1 (-10) "si::metre" (* :45 *)
].

(** src/systems/si-international/include/units/isq/si/international/length.h *)
Definition h_si_international_length : list entry := [
  EScaled "si::international::yard" (ascii "yd") no_prefix 9144 1000 (-1) "si::metre"; (* :40 *)
  EScaled "si::international::foot" (ascii "ft") no_prefix 1 3 0 "si::international::yard"; (* :44 *)
  EScaled "si::international::fathom" (ascii "fathom") no_prefix 2 1 0 "si::international::yard"; (* :47 *)
  EScaled "si::international::inch" (ascii "in") no_prefix 1 36 0 "si::international::yard"; (* :51 *)
  EScaled "si::international::mile" (ascii "mi") no_prefix 25146 15625 0 "si::kilometre"; (* :55 *)
  EScaled "si::international::nautical_mile" (ascii "mi(naut)") no_prefix 1852 1 0 "si::metre"; (* :59 *)
  EScaled "si::international::thou" (ascii "thou") no_prefix 1 1000 0 "si::international::inch" (* :63 *)
].

(** src/systems/si-imperial/include/units/isq/si/imperial/length.h *)
Definition h_si_imperial_length : list entry := [
  EScaled "si::imperial::chain" (ascii "ch") no_prefix 22 1 0 "si::international::yard"; (* :38 *)
  EScaled "si::imperial::rod" (ascii "rd") no_prefix 1 4 0 "si::imperial::chain" (* :41 *)
].

(** src/systems/si/include/units/isq/si/magnetic_induction.h *)
Definition h_si_magnetic_induction : list entry := [
  ENamed "si::tesla" (ascii "T") "si::prefix"; (* :40 *)
  EPrefixed "si::yoctotesla" "si::yocto" "si::tesla"; (* :42 *)
  EPrefixed "si::zeptotesla" "si::zepto" "si::tesla"; (* :43 *)
  EPrefixed "si::attotesla" "si::atto" "si::tesla"; (* :44 *)
  EPrefixed "si::femtotesla" "si::femto" "si::tesla"; (* :45 *)
  EPrefixed "si::picotesla" "si::pico" "si::tesla"; (* :46 *)
  EPrefixed "si::nanotesla" "si::nano" "si::tesla"; (* :47 *)
  EPrefixed "si::microtesla" "si::micro" "si::tesla"; (* :48 *)
  EPrefixed "si::millitesla" "si::milli" "si::tesla"; (* :49 *)
  EPrefixed "si::kilotesla" "si::kilo" "si::tesla"; (* :50 *)
  EPrefixed "si::megatesla" "si::mega" "si::tesla"; (* :51 *)
  EPrefixed "si::gigatesla" "si::giga" "si::tesla"; (* :52 *)
  EPrefixed "si::teratesla" "si::tera" "si::tesla"; (* :53 *)
  EPrefixed "si::petatesla" "si::peta" "si::tesla"; (* :54 *)
  EPrefixed "si::exatesla" "si::exa" "si::tesla"; (* :55 *)
  EPrefixed "si::zettatesla" "si::zetta" "si::tesla"; (* :56 *)
  EPrefixed "si::yottatesla" "si::yotta" "si::tesla"; (* :57 *)
  EScaled "si::gauss" (ascii "G") "si::prefix" 1 10000 0 "si::tesla"; (* :59 *)
  EDimOf "si::dim_magnetic_induction" "dim_magnetic_induction" "si::tesla" ["si::dim_voltage"; "si::dim_time"; "si::dim_length"] (* :61 *)
].

(** src/systems/si/include/units/isq/si/magnetic_flux.h *)
Definition h_si_magnetic_flux : list entry := [
  ENamed "si::weber" (ascii "Wb") "si::prefix"; (* :38 *)
  EPrefixed "si::yoctoweber" "si::yocto" "si::weber"; (* :40 *)
  EPrefixed "si::zeptoweber" "si::zepto" "si::weber"; (* :41 *)
  EPrefixed "si::attoweber" "si::atto" "si::weber"; (* :42 *)
  EPrefixed "si::femtoweber" "si::femto" "si::weber"; (* :43 *)
  EPrefixed "si::picoweber" "si::pico" "si::weber"; (* :44 *)
  EPrefixed "si::nanoweber" "si::nano" "si::weber"; (* :45 *)
  EPrefixed "si::microweber" "si::micro" "si::weber"; (* :46 *)
  EPrefixed "si::milliweber" "si::milli" "si::weber"; (* :47 *)
  EPrefixed "si::kiloweber" "si::kilo" "si::weber"; (* :48 *)
  EPrefixed "si::megaweber" "si::mega" "si::weber"; (* :49 *)
  EPrefixed "si::gigaweber" "si::giga" "si::weber"; (* :50 *)
  EPrefixed "si::teraweber" "si::tera" "si::weber"; (* :51 *)
  EPrefixed "si::petaweber" "si::peta" "si::weber"; (* :52 *)
  EPrefixed "si::exaweber" "si::exa" "si::weber"; (* :53 *)
  EPrefixed "si::zettaweber" "si::zetta" "si::weber"; (* :54 *)
  EPrefixed "si::yottaweber" "si::yotta" "si::weber"; (* :55 *)
  EDimOf "si::dim_magnetic_flux" "dim_magnetic_flux" "si::weber" ["si::dim_magnetic_induction"; "si::dim_area"] (* :57 *)
].

(** src/systems/si/include/units/isq/si/inductance.h *)
Definition h_si_inductance : list entry := [
  ENamed "si::henry" (ascii "H") "si::prefix"; (* :38 *)
  EPrefixed "si::yoctohenry" "si::yocto" "si::henry"; (* :40 *)
  EPrefixed "si::zeptohenry" "si::zepto" "si::henry"; (* :41 *)
  EPrefixed "si::attohenry" "si::atto" "si::henry"; (* :42 *)
  EPrefixed "si::femtohenry" "si::femto" "si::henry"; (* :43 *)
  EPrefixed "si::picohenry" "si::pico" "si::henry"; (* :44 *)
  EPrefixed "si::nanohenry" "si::nano" "si::henry"; (* :45 *)
  EPrefixed "si::microhenry" "si::micro" "si::henry"; (* :46 *)
  EPrefixed "si::millihenry" "si::milli" "si::henry"; (* :47 *)
  EPrefixed "si::kilohenry" "si::kilo" "si::henry"; (* :48 *)
  EPrefixed "si::megahenry" "si::mega" "si::henry"; (* :49 *)
  EPrefixed "si::gigahenry" "si::giga" "si::henry"; (* :50 *)
  EPrefixed "si::terahenry" "si::tera" "si::henry"; (* :51 *)
  EPrefixed "si::petahenry" "si::peta" "si::henry"; (* :52 *)
  EPrefixed "si::exahenry" "si::exa" "si::henry"; (* :53 *)
  EPrefixed "si::zettahenry" "si::zetta" "si::henry"; (* :54 *)
  EPrefixed "si::yottahenry" "si::yotta" "si::henry"; (* :55 *)
  EDimOf "si::dim_inductance" "dim_inductance" "si::henry" ["si::dim_magnetic_flux"; "si::dim_electric_current"] (* :57 *)
].

(** src/systems/si-international/include/units/isq/si/international/area.h *)
Definition h_si_international_area : list entry := [
  EDerived "si::international::square_foot" "si::dim_area" ["si::international::foot"] (* :38 *)
].

(** src/systems/si-international/include/units/isq/si/international/speed.h *)
Definition h_si_international_speed : list entry := [
  EDerived "si::international::mile_per_hour" "si::dim_speed" ["si::international::mile"; "si::hour"] (* :37 *)
].

(** src/systems/si-international/include/units/isq/si/international/volume.h *)
Definition h_si_international_volume : list entry := [
  EDerived "si::international::cubic_foot" "si::dim_volume" ["si::international::foot"] (* :38 *)
].

(** src/systems/si/include/units/isq/si/luminous_intensity.h *)
Definition h_si_luminous_intensity : list entry := [
  ENamed "si::candela" (ascii "cd") "si::prefix"; (* :37 *)
  EPrefixed "si::yoctocandela" "si::yocto" "si::candela"; (* :38 *)
  EPrefixed "si::zeptocandela" "si::zepto" "si::candela"; (* :39 *)
  EPrefixed "si::attocandela" "si::atto" "si::candela"; (* :40 *)
  EPrefixed "si::femtocandela" "si::femto" "si::candela"; (* :41 *)
  EPrefixed "si::picocandela" "si::pico" "si::candela"; (* :42 *)
  EPrefixed "si::nanocandela" "si::nano" "si::candela"; (* :43 *)
  EPrefixed "si::microcandela" "si::micro" "si::candela"; (* :44 *)
  EPrefixed "si::millicandela" "si::milli" "si::candela"; (* :45 *)
  EPrefixed "si::centicandela" "si::centi" "si::candela"; (* :46 *)
  EPrefixed "si::decicandela" "si::deci" "si::candela"; (* :47 *)
  EPrefixed "si::decacandela" "si::deca" "si::candela"; (* :48 *)
  EPrefixed "si::hectocandela" "si::hecto" "si::candela"; (* :49 *)
  EPrefixed "si::kilocandela" "si::kilo" "si::candela"; (* :50 *)
  EPrefixed "si::megacandela" "si::mega" "si::candela"; (* :51 *)
  EPrefixed "si::gigacandela" "si::giga" "si::candela"; (* :52 *)
  EPrefixed "si::teracandela" "si::tera" "si::candela"; (* :53 *)
  EPrefixed "si::petacandela" "si::peta" "si::candela"; (* :54 *)
  EPrefixed "si::exacandela" "si::exa" "si::candela"; (* :55 *)
  EPrefixed "si::zettacandela" "si::zetta" "si::candela"; (* :56 *)
  EPrefixed "si::yottacandela" "si::yotta" "si::candela"; (* :57 *)
  EBaseOf "si::dim_luminous_intensity" "dim_luminous_intensity" "si::candela" (* :59 *)
].

(** src/systems/si/include/units/isq/si/luminance.h *)
Definition h_si_luminance : list entry := [
  EUnit "si::candela_per_metre_sq"; (* :37 *)
  EDimOf "si::dim_luminance" "dim_luminance" "si::candela_per_metre_sq" ["si::dim_luminous_intensity"; "si::dim_length"] (* :38 *)
].

(** src/systems/si/include/units/isq/si/molar_energy.h *)
Definition h_si_molar_energy : list entry := [
  EUnit "si::joule_per_mole"; (* :38 *)
  EDimOf "si::dim_molar_energy" "dim_molar_energy" "si::joule_per_mole" ["si::dim_energy"; "si::dim_amount_of_substance"] (* :40 *)
].

(** src/systems/si/include/units/isq/si/momentum.h *)
Definition h_si_momentum : list entry := [
  EUnit "si::kilogram_metre_per_second"; (* :37 *)
  EDimOf "si::dim_momentum" "dim_momentum" "si::kilogram_metre_per_second" ["si::dim_mass"; "si::dim_speed"] (* :38 *)
].

(** src/systems/si/include/units/isq/si/permeability.h *)
Definition h_si_permeability : list entry := [
  EUnit "si::henry_per_metre"; (* :37 *)
  EDimOf "si::dim_permeability" "dim_permeability" "si::henry_per_metre" ["si::dim_inductance"; "si::dim_length"] (* :39 *)
].

(** src/systems/si/include/units/isq/si/permittivity.h *)
Definition h_si_permittivity : list entry := [
  EUnit "si::farad_per_metre"; (* :37 *)
  EDimOf "si::dim_permittivity" "dim_permittivity" "si::farad_per_metre" ["si::dim_capacitance"; "si::dim_length"] (* :39 *)
].

(** src/systems/si/include/units/isq/si/radioactivity.h *)
Definition h_si_radioactivity : list entry := [
  ENamed "si::becquerel" (ascii "Bq") "si::prefix"; (* :37 *)
  EPrefixed "si::yoctobecquerel" "si::yocto" "si::becquerel"; (* :38 *)
  EPrefixed "si::zeptobecquerel" "si::zepto" "si::becquerel"; (* :39 *)
  EPrefixed "si::attobecquerel" "si::atto" "si::becquerel"; (* :40 *)
  EPrefixed "si::femtobecquerel" "si::femto" "si::becquerel"; (* :41 *)
  EPrefixed "si::picobecquerel" "si::pico" "si::becquerel"; (* :42 *)
  EPrefixed "si::nanobecquerel" "si::nano" "si::becquerel"; (* :43 *)
  EPrefixed "si::microbecquerel" "si::micro" "si::becquerel"; (* :44 *)
  EPrefixed "si::millibecquerel" "si::milli" "si::becquerel"; (* :45 *)
  EPrefixed "si::centibecquerel" "si::centi" "si::becquerel"; (* :46 *)
  EPrefixed "si::decibecquerel" "si::deci" "si::becquerel"; (* :47 *)
  EPrefixed "si::decabecquerel" "si::deca" "si::becquerel"; (* :48 *)
  EPrefixed "si::hectobecquerel" "si::hecto" "si::becquerel"; (* :49 *)
  EPrefixed "si::kilobecquerel" "si::kilo" "si::becquerel"; (* :50 *)
  EPrefixed "si::megabecquerel" "si::mega" "si::becquerel"; (* :51 *)
  EPrefixed "si::gigabecquerel" "si::giga" "si::becquerel"; (* :52 *)
  EPrefixed "si::terabecquerel" "si::tera" "si::becquerel"; (* :53 *)
  EPrefixed "si::petabecquerel" "si::peta" "si::becquerel"; (* :54 *)
  EPrefixed "si::exabecquerel" "si::exa" "si::becquerel"; (* :55 *)
  EPrefixed "si::zettabecquerel" "si::zetta" "si::becquerel"; (* :56 *)
  EPrefixed "si::yottabecquerel" "si::yotta" "si::becquerel"; (* :57 *)
  EDimOf "si::dim_radioactivity" "dim_radioactivity" "si::becquerel" ["si::dim_time"] (* :59 *)
].

(** src/systems/si/include/units/isq/si/surface_tension.h *)
Definition h_si_surface_tension : list entry := [
  EUnit "si::newton_per_metre"; (* :36 *)
  EDimOf "si::dim_surface_tension" "dim_surface_tension" "si::newton_per_metre" ["si::dim_force"; "si::dim_length"] (* :38 *)
].

(** src/systems/si/include/units/isq/si/thermal_conductivity.h *)
Definition h_si_thermal_conductivity : list entry := [
  EUnit "si::watt_per_metre_kelvin"; (* :37 *)
  EDimOf "si::dim_thermal_conductivity" "dim_thermal_conductivity" "si::watt_per_metre_kelvin" ["si::dim_power"; "si::dim_length"; "si::dim_thermodynamic_temperature"] (* :39 *)
].

(** src/systems/si/include/units/isq/si/torque.h *)
Definition h_si_torque : list entry := [
  EUnit "si::newton_metre_per_radian"; (* :38 *)
  EDimOf "si::dim_torque" "dim_torque" "si::newton_metre_per_radian" ["si::dim_force"; "si::dim_length"; "dim_angle<>"] (* :40 *)
].

(** src/systems/si-typographic/include/units/isq/si/typographic/length.h *)
Definition h_si_typographic_length : list entry := [
  EScaled "si::typographic::pica_comp" (ascii "pica(comp)") no_prefix 4233333 1000000 (-3) "si::metre"; (* :39 *)
  EScaled "si::typographic::pica_prn" (ascii "pica(prn)") no_prefix 2108759 500000 (-3) "si::metre"; (* :40 *)
  EScaled "si::typographic::point_comp" (ascii "point(comp)") no_prefix 1763889 500000 (-4) "si::metre"; (* :41 *)
  EScaled "si::typographic::point_prn" (ascii "point(prn)") no_prefix 1757299 500000 (-4) "si::metre" (* :42 *)
].

(** src/systems/si-uscs/include/units/isq/si/uscs/length.h *)
Definition h_si_uscs_length : list entry := [
  EScaled "si::uscs::foot" (ascii "ft(us)") no_prefix 1200 3937 0 "si::metre"; (* :39 *)
  EScaled "si::uscs::fathom" (ascii "fathom(us)") no_prefix 6 1 0 "si::uscs::foot"; (* :42 *)
  EScaled "si::uscs::mile" (ascii "mi(us)") no_prefix 5280 1 0 "si::uscs::foot" (* :46 *)
].

(** A header: its path under [include/units], the headers of the catalogue it includes
    (the [#include] lines not commented out), and its declarations. *)
Record header := Header { h_path : string; h_includes : list string; h_entries : list entry }.

(** All headers, each after the ones it includes. *)
Definition headers : list header := [
  Header "isq/si/prefixes.h" [] h_si_prefixes;
  Header "generic/angle.h" ["isq/si/prefixes.h"] h_generic_angle;
  Header "generic/dimensionless.h" [] h_generic_dimensionless;
  Header "isq/iec80000/binary_prefixes.h" [] h_iec80000_binary_prefixes;
  Header "isq/si/time.h" ["isq/si/prefixes.h"] h_si_time;
  Header "isq/si/frequency.h" ["isq/si/time.h"] h_si_frequency;
  Header "isq/iec80000/modulation_rate.h" ["isq/si/frequency.h"; "isq/si/prefixes.h"] h_iec80000_modulation_rate;
  Header "isq/iec80000/storage_capacity.h" ["isq/iec80000/binary_prefixes.h"; "isq/si/prefixes.h"] h_iec80000_storage_capacity;
  Header "isq/iec80000/traffic_intensity.h" [] h_iec80000_traffic_intensity;
  Header "isq/iec80000/transfer_rate.h" ["isq/iec80000/storage_capacity.h"; "isq/si/time.h"] h_iec80000_transfer_rate;
  Header "isq/iec80000/iec80000.h" ["isq/iec80000/modulation_rate.h"; "isq/iec80000/storage_capacity.h"; "isq/iec80000/traffic_intensity.h"; "isq/iec80000/transfer_rate.h"] [];
  Header "isq/natural/units.h" ["isq/si/prefixes.h"] h_natural_units;
  Header "isq/natural/length.h" ["isq/natural/units.h"] h_natural_length;
  Header "isq/natural/time.h" ["isq/natural/units.h"] h_natural_time;
  Header "isq/natural/acceleration.h" ["isq/natural/length.h"; "isq/natural/time.h"; "isq/natural/units.h"] h_natural_acceleration;
  Header "isq/natural/speed.h" ["isq/natural/length.h"; "isq/natural/time.h"; "generic/dimensionless.h"; "isq/natural/units.h"] h_natural_speed;
  Header "isq/natural/constants.h" ["isq/natural/speed.h"] [];
  Header "isq/natural/mass.h" ["isq/natural/units.h"] h_natural_mass;
  Header "isq/natural/force.h" ["isq/natural/acceleration.h"; "isq/natural/mass.h"; "isq/natural/units.h"] h_natural_force;
  Header "isq/natural/energy.h" ["isq/natural/force.h"; "isq/natural/length.h"; "isq/natural/units.h"] h_natural_energy;
  Header "isq/natural/momentum.h" ["isq/natural/mass.h"; "isq/natural/speed.h"; "isq/natural/units.h"] h_natural_momentum;
  Header "isq/natural/natural.h" ["isq/natural/acceleration.h"; "isq/natural/constants.h"; "isq/natural/energy.h"; "isq/natural/force.h"; "isq/natural/length.h"; "isq/natural/mass.h"; "isq/natural/momentum.h"; "isq/natural/speed.h"; "isq/natural/time.h"] [];
  Header "isq/si/length.h" ["isq/si/prefixes.h"] h_si_length;
  Header "isq/si/speed.h" ["isq/si/length.h"; "isq/si/time.h"] h_si_speed;
  Header "isq/si/acceleration.h" ["isq/si/speed.h"] h_si_acceleration;
  Header "isq/si/mass.h" ["isq/si/prefixes.h"] h_si_mass;
  Header "isq/si/force.h" ["isq/si/acceleration.h"; "isq/si/mass.h"; "isq/si/prefixes.h"] h_si_force;
  Header "isq/si/energy.h" ["isq/si/force.h"; "isq/si/prefixes.h"] h_si_energy;
  Header "isq/si/absorbed_dose.h" ["isq/si/energy.h"; "isq/si/prefixes.h"] h_si_absorbed_dose;
  Header "isq/si/amount_of_substance.h" ["isq/si/prefixes.h"] h_si_amount_of_substance;
  Header "isq/si/angular_velocity.h" ["generic/angle.h"; "isq/si/time.h"] h_si_angular_velocity;
  Header "isq/si/area.h" ["isq/si/length.h"] h_si_area;
  Header "isq/si/electric_current.h" ["isq/si/prefixes.h"] h_si_electric_current;
  Header "isq/si/electric_charge.h" ["isq/si/electric_current.h"; "isq/si/time.h"] h_si_electric_charge;
  Header "isq/si/power.h" ["isq/si/energy.h"; "isq/si/prefixes.h"] h_si_power;
  Header "isq/si/voltage.h" ["isq/si/electric_current.h"; "isq/si/power.h"; "isq/si/prefixes.h"] h_si_voltage;
  Header "isq/si/capacitance.h" ["isq/si/electric_charge.h"; "isq/si/voltage.h"; "isq/si/prefixes.h"] h_si_capacitance;
  Header "isq/si/catalytic_activity.h" ["isq/si/amount_of_substance.h"; "isq/si/time.h"; "isq/si/prefixes.h"] h_si_catalytic_activity;
  Header "isq/si/cgs/length.h" ["isq/si/length.h"] h_si_cgs_length;
  Header "isq/si/cgs/time.h" ["isq/si/time.h"] [];
  Header "isq/si/cgs/speed.h" ["isq/si/cgs/length.h"; "isq/si/cgs/time.h"] h_si_cgs_speed;
  Header "isq/si/cgs/acceleration.h" ["isq/si/cgs/speed.h"] h_si_cgs_acceleration;
  Header "isq/si/cgs/area.h" ["isq/si/area.h"; "isq/si/cgs/length.h"] h_si_cgs_area;
  Header "isq/si/cgs/mass.h" ["isq/si/mass.h"] h_si_cgs_mass;
  Header "isq/si/cgs/force.h" ["isq/si/cgs/acceleration.h"; "isq/si/cgs/mass.h"; "isq/si/prefixes.h"] h_si_cgs_force;
  Header "isq/si/cgs/energy.h" ["isq/si/cgs/force.h"; "isq/si/prefixes.h"] h_si_cgs_energy;
  Header "isq/si/cgs/power.h" ["isq/si/cgs/energy.h"; "isq/si/prefixes.h"] h_si_cgs_power;
  Header "isq/si/cgs/pressure.h" ["isq/si/cgs/area.h"; "isq/si/cgs/force.h"; "isq/si/prefixes.h"] h_si_cgs_pressure;
  Header "isq/si/cgs/cgs.h" ["isq/si/cgs/length.h"; "isq/si/cgs/mass.h"; "isq/si/cgs/time.h"; "isq/si/cgs/acceleration.h"; "isq/si/cgs/area.h"; "isq/si/cgs/energy.h"; "isq/si/cgs/force.h"; "isq/si/cgs/power.h"; "isq/si/cgs/pressure.h"; "isq/si/cgs/speed.h"] [];
  Header "isq/si/charge_density.h" ["isq/si/electric_charge.h"; "isq/si/length.h"; "isq/si/prefixes.h"] h_si_charge_density;
  Header "isq/si/concentration.h" ["isq/si/length.h"; "isq/si/amount_of_substance.h"] h_si_concentration;
  Header "isq/si/resistance.h" ["isq/si/voltage.h"; "isq/si/electric_current.h"; "isq/si/prefixes.h"] h_si_resistance;
  Header "isq/si/conductance.h" ["isq/si/resistance.h"; "isq/si/prefixes.h"] h_si_conductance;
  Header "isq/si/thermodynamic_temperature.h" [] h_si_thermodynamic_temperature;
  Header "isq/si/constants.h" ["isq/si/amount_of_substance.h"; "isq/si/thermodynamic_temperature.h"; "isq/si/electric_charge.h"; "isq/si/energy.h"; "isq/si/frequency.h"; "isq/si/power.h"; "isq/si/speed.h"] [];
  Header "isq/si/current_density.h" ["isq/si/electric_current.h"; "isq/si/length.h"; "isq/si/prefixes.h"] h_si_current_density;
  Header "isq/si/density.h" ["isq/si/mass.h"; "isq/si/length.h"; "isq/si/prefixes.h"] h_si_density;
  Header "isq/si/pressure.h" ["isq/si/area.h"; "isq/si/force.h"; "isq/si/prefixes.h"] h_si_pressure;
  Header "isq/si/dynamic_viscosity.h" ["isq/si/time.h"; "isq/si/pressure.h"] h_si_dynamic_viscosity;
  Header "isq/si/electric_field_strength.h" ["isq/si/voltage.h"] h_si_electric_field_strength;
  Header "isq/si/volume.h" ["isq/si/length.h"] h_si_volume;
  Header "isq/si/energy_density.h" ["isq/si/energy.h"; "isq/si/volume.h"] h_si_energy_density;
  Header "isq/si/fps/length.h" ["isq/si/length.h"] h_si_fps_length;
  Header "isq/si/fps/time.h" ["isq/si/time.h"] [];
  Header "isq/si/fps/speed.h" ["isq/si/fps/length.h"; "isq/si/fps/time.h"] h_si_fps_speed;
  Header "isq/si/fps/acceleration.h" ["isq/si/fps/speed.h"] h_si_fps_acceleration;
  Header "isq/si/fps/area.h" ["isq/si/fps/length.h"] h_si_fps_area;
  Header "isq/si/fps/mass.h" ["isq/si/mass.h"] h_si_fps_mass;
  Header "isq/si/fps/density.h" ["isq/si/fps/mass.h"; "isq/si/fps/length.h"] h_si_fps_density;
  Header "isq/si/fps/force.h" ["isq/si/fps/acceleration.h"; "isq/si/fps/mass.h"; "isq/si/prefixes.h"] h_si_fps_force;
  Header "isq/si/fps/energy.h" ["isq/si/fps/force.h"; "isq/si/prefixes.h"] h_si_fps_energy;
  Header "isq/si/fps/power.h" ["isq/si/fps/energy.h"; "isq/si/prefixes.h"] h_si_fps_power;
  Header "isq/si/fps/pressure.h" ["isq/si/fps/area.h"; "isq/si/fps/force.h"; "isq/si/prefixes.h"] h_si_fps_pressure;
  Header "isq/si/fps/volume.h" ["isq/si/fps/length.h"] h_si_fps_volume;
  Header "isq/si/fps/fps.h" ["isq/si/fps/length.h"; "isq/si/fps/mass.h"; "isq/si/fps/time.h"; "isq/si/fps/acceleration.h"; "isq/si/fps/area.h"; "isq/si/fps/density.h"; "isq/si/fps/energy.h"; "isq/si/fps/force.h"; "isq/si/fps/power.h"; "isq/si/fps/pressure.h"; "isq/si/fps/speed.h"; "isq/si/fps/volume.h"] [];
  Header "isq/si/heat_capacity.h" ["isq/si/thermodynamic_temperature.h"; "isq/si/energy.h"; "isq/si/mass.h"; "isq/si/amount_of_substance.h"] h_si_heat_capacity;
  Header "isq/si/iau/length.h" ["isq/si/length.h"] h_si_iau_length;
  Header "isq/si/iau/iau.h" ["isq/si/iau/length.h"] [];
  Header "isq/si/international/length.h" ["isq/si/length.h"] h_si_international_length;
  Header "isq/si/imperial/length.h" ["isq/si/international/length.h"] h_si_imperial_length;
  Header "isq/si/imperial/imperial.h" ["isq/si/imperial/length.h"] [];
  Header "isq/si/magnetic_induction.h" ["isq/si/voltage.h"; "isq/si/time.h"; "isq/si/length.h"; "isq/si/prefixes.h"] h_si_magnetic_induction;
  Header "isq/si/magnetic_flux.h" ["isq/si/magnetic_induction.h"; "isq/si/area.h"] h_si_magnetic_flux;
  Header "isq/si/inductance.h" ["isq/si/magnetic_flux.h"; "isq/si/electric_current.h"] h_si_inductance;
  Header "isq/si/international/area.h" ["isq/si/area.h"; "isq/si/international/length.h"] h_si_international_area;
  Header "isq/si/international/speed.h" ["isq/si/international/length.h"; "isq/si/speed.h"] h_si_international_speed;
  Header "isq/si/international/volume.h" ["isq/si/international/length.h"; "isq/si/volume.h"] h_si_international_volume;
  Header "isq/si/international/international.h" ["isq/si/international/length.h"; "isq/si/international/area.h"; "isq/si/international/speed.h"; "isq/si/international/volume.h"] [];
  Header "isq/si/luminous_intensity.h" ["isq/si/prefixes.h"] h_si_luminous_intensity;
  Header "isq/si/luminance.h" ["isq/si/length.h"; "isq/si/luminous_intensity.h"] h_si_luminance;
  Header "isq/si/molar_energy.h" ["isq/si/energy.h"; "isq/si/amount_of_substance.h"; "isq/si/prefixes.h"] h_si_molar_energy;
  Header "isq/si/momentum.h" ["isq/si/mass.h"; "isq/si/speed.h"] h_si_momentum;
  Header "isq/si/permeability.h" ["isq/si/inductance.h"; "isq/si/prefixes.h"] h_si_permeability;
  Header "isq/si/permittivity.h" ["isq/si/capacitance.h"; "isq/si/prefixes.h"] h_si_permittivity;
  Header "isq/si/radioactivity.h" ["isq/si/time.h"] h_si_radioactivity;
  Header "isq/si/surface_tension.h" ["isq/si/force.h"] h_si_surface_tension;
  Header "isq/si/thermal_conductivity.h" ["isq/si/power.h"; "isq/si/thermodynamic_temperature.h"] h_si_thermal_conductivity;
  Header "isq/si/torque.h" ["isq/si/energy.h"; "generic/angle.h"; "isq/si/prefixes.h"] h_si_torque;
  Header "isq/si/si.h" ["isq/si/electric_current.h"; "isq/si/length.h"; "isq/si/luminous_intensity.h"; "isq/si/mass.h"; "isq/si/amount_of_substance.h"; "isq/si/thermodynamic_temperature.h"; "isq/si/time.h"; "isq/si/absorbed_dose.h"; "isq/si/acceleration.h"; "isq/si/angular_velocity.h"; "isq/si/area.h"; "isq/si/capacitance.h"; "isq/si/catalytic_activity.h"; "isq/si/charge_density.h"; "isq/si/concentration.h"; "isq/si/conductance.h"; "isq/si/current_density.h"; "isq/si/density.h"; "isq/si/dynamic_viscosity.h"; "isq/si/electric_charge.h"; "isq/si/electric_field_strength.h"; "isq/si/energy.h"; "isq/si/force.h"; "isq/si/frequency.h"; "isq/si/heat_capacity.h"; "isq/si/inductance.h"; "isq/si/luminance.h"; "isq/si/magnetic_flux.h"; "isq/si/magnetic_induction.h"; "isq/si/molar_energy.h"; "isq/si/momentum.h"; "isq/si/permeability.h"; "isq/si/permittivity.h"; "isq/si/power.h"; "isq/si/pressure.h"; "isq/si/resistance.h"; "isq/si/speed.h"; "isq/si/surface_tension.h"; "isq/si/thermal_conductivity.h"; "isq/si/torque.h"; "isq/si/voltage.h"; "isq/si/volume.h"; "isq/si/constants.h"; "isq/si/prefixes.h"] [];
  Header "isq/si/typographic/length.h" ["isq/si/length.h"] h_si_typographic_length;
  Header "isq/si/typographic/typographic.h" ["isq/si/typographic/length.h"] [];
  Header "isq/si/uscs/length.h" ["isq/si/length.h"] h_si_uscs_length;
  Header "isq/si/uscs/uscs.h" ["isq/si/uscs/length.h"] []
].

(** The whole catalogue. *)
Definition catalogue : list entry := flat_map h_entries headers.
