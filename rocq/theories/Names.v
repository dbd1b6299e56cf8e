(** The names a header gives to the units of a quantity, beside the unit types: the
    user-defined literals ([2_q_km]), the reference constants ([km] in [2 * km]) and the
    alias templates ([km<>], namespace [units::aliases]) of the headers under
    [src/systems/*/include/units/isq] and of [src/core/include/units/generic/angle.h].

    Dimensions and units are named as in [Catalogue]; the quantity alias
    ([template<UnitOf<D> U, Representation Rep> using length = quantity<D, U, Rep>]) a header
    uses is replaced by the dimension it stands for.  Simplifications: the namespace of a
    name is given without the inline and the nested parts ([literals], [references],
    [length_references], [aliases]); for the aliases the inline namespace of the quantity
    ([si::length]) is kept. *)

From Coq Require Import ZArith String List Bool.
From Verif Require Import Outcome CInt Root Ratio Unit Downcast Dim DimOp Rep QuantityCast Quantity Reference System.
Import ListNotations.
Local Open Scope string_scope.
Local Open Scope Z_scope.
Local Open Scope res_scope.

(** [namespace ns], the name, and the dimension and the unit it stands for. *)
Record uname := UName { n_ns : string; n_name : string; n_dim : string; n_unit : string }.
Definition names_of (ns d : string) (l : list (string * string)) : list uname :=
  map (fun x => UName ns (fst x) d (snd x)) l.

(** [quantity<D, U, Rep>] of the names, in a program that has declared them. *)
Definition named_type (e : env) (n : uname) (r : rep) : res qtype :=
  x <- find_dim e (n_dim n);
  u <- find_unit e (n_unit n);
  _ <- constrained (unit_of u (snd x));
  Ok (QType (snd x) u r).

(** A literal [_q_name]: for whole numbers, and unless [l_float] is false for decimal ones. *)
Record literal := Literal { l_name : uname; l_float : bool }.
Definition literals_of (float : bool) (ns d : string) (l : list (string * string)) : list literal :=
  map (fun n => Literal n float) (names_of ns d l).

(** [constexpr auto operator"" _q_name(unsigned long long l)
      { gsl_ExpectsAudit(std::in_range<std::int64_t>(l));
        return alias<U, std::int64_t>(static_cast<std::int64_t>(l)); }],
    time.h:60 and all the others.  [gsl_ExpectsAudit] checks only in programs built with
    audit checks ([audit]). *)
Definition whole_literal (audit : bool) (e : env) (n : uname) (l : Z) : res quantity :=
  t <- named_type e n (RInt I64);
  if audit && negb (in_range I64 l) then Contract
  else v <- n_convert (RInt I64) (NInt l); q_make t (RInt I64) v.

(** [constexpr auto operator"" _q_name(long double l) { return alias<U, long double>(l); }],
    time.h:61 and the others that exist. *)
Definition float_literal (e : env) (x : literal) (l : number) : res quantity :=
  _ <- constrained (l_float x);
  t <- named_type e (l_name x) (RFlt F80);
  q_make t (RFlt F80) l.

(** The constant [name] of type [reference<D, U>] (time.h:115 and all the others), and
    [v * name], reference.h:111-115. *)
Definition named_reference (e : env) (n : uname) : res reference :=
  x <- find_dim e (n_dim n);
  u <- find_unit e (n_unit n);
  mk_reference (snd x) u.
Definition times_reference (r : rep) (v : number) (x : reference) : res quantity :=
  q_make (QType (ref_dim x) (ref_unit x) r) r v.

(** [name<Rep>(v)] with the alias template [name]. *)
Definition aliased (e : env) (n : uname) (r : rep) (v : number) : res quantity :=
  t <- named_type e n r; q_make t r v.

(** The user-defined literals. *)
Definition literals : list literal :=
  (* generic/angle.h:51-52 *)
  literals_of true "" "dim_angle<>" [
     ("rad", "radian")] ++
  (* isq/si/time.h:60-105 *)
  literals_of true "si" "si::dim_time" [
     ("ys", "si::yoctosecond"); ("zs", "si::zeptosecond"); ("as", "si::attosecond");
     ("fs", "si::femtosecond"); ("ps", "si::picosecond"); ("ns", "si::nanosecond");
     ("us", "si::microsecond"); ("ms", "si::millisecond"); ("s", "si::second"); ("min", "si::minute");
     ("h", "si::hour"); ("d", "si::day")] ++
  (* isq/si/frequency.h:65-130 *)
  literals_of true "si" "si::dim_frequency" [
     ("Hz", "si::hertz"); ("yHz", "si::yoctohertz"); ("zHz", "si::zeptohertz"); ("aHz", "si::attohertz");
     ("fHz", "si::femtohertz"); ("pHz", "si::picohertz"); ("nHz", "si::nanohertz");
     ("uHz", "si::microhertz"); ("mHz", "si::millihertz"); ("kHz", "si::kilohertz");
     ("MHz", "si::megahertz"); ("GHz", "si::gigahertz"); ("THz", "si::terahertz");
     ("PHz", "si::petahertz"); ("EHz", "si::exahertz"); ("ZHz", "si::zettahertz");
     ("YHz", "si::yottahertz")] ++
  (* isq/iec80000/modulation_rate.h:57-65 *)
  literals_of false "iec80000" "si::dim_frequency" [
     ("Bd", "iec80000::baud"); ("kBd", "iec80000::kilobaud"); ("MBd", "iec80000::megabaud");
     ("GBd", "iec80000::gigabaud"); ("TBd", "iec80000::terabaud"); ("PBd", "iec80000::petabaud");
     ("EBd", "iec80000::exabaud"); ("ZBd", "iec80000::zettabaud"); ("YBd", "iec80000::yottabaud")] ++
  (* isq/iec80000/storage_capacity.h:87-121 *)
  literals_of false "iec80000" "iec80000::dim_storage_capacity" [
     ("bit", "iec80000::bit"); ("kbit", "iec80000::kilobit"); ("Mbit", "iec80000::megabit");
     ("Gbit", "iec80000::gigabit"); ("Tbit", "iec80000::terabit"); ("Pbit", "iec80000::petabit");
     ("Ebit", "iec80000::exabit"); ("Zbit", "iec80000::zettabit"); ("Ybit", "iec80000::yottabit");
     ("Kibit", "iec80000::kibibit"); ("Mibit", "iec80000::mebibit"); ("Gibit", "iec80000::gibibit");
     ("Tibit", "iec80000::tebibit"); ("Pibit", "iec80000::pebibit"); ("Eibit", "iec80000::exbibit");
     ("B", "iec80000::byte"); ("kB", "iec80000::kilobyte"); ("MB", "iec80000::megabyte");
     ("GB", "iec80000::gigabyte"); ("TB", "iec80000::terabyte"); ("PB", "iec80000::petabyte");
     ("EB", "iec80000::exabyte"); ("ZB", "iec80000::zettabyte"); ("YB", "iec80000::yottabyte");
     ("KiB", "iec80000::kibibyte"); ("MiB", "iec80000::mebibyte"); ("GiB", "iec80000::gibibyte");
     ("TiB", "iec80000::tebibyte"); ("PiB", "iec80000::pebibyte")] ++
  (* isq/iec80000/traffic_intensity.h:50-50 *)
  literals_of false "iec80000" "iec80000::dim_traffic_intensity" [
     ("E", "iec80000::erlang")] ++
  (* isq/iec80000/transfer_rate.h:59-67 *)
  literals_of false "iec80000" "iec80000::dim_transfer_rate" [
     ("B_per_s", "iec80000::byte_per_second"); ("kB_per_s", "iec80000::kilobyte_per_second");
     ("MB_per_s", "iec80000::megabyte_per_second"); ("GB_per_s", "iec80000::gigabyte_per_second");
     ("TB_per_s", "iec80000::terabyte_per_second"); ("PB_per_s", "iec80000::petabyte_per_second");
     ("EB_per_s", "iec80000::exabyte_per_second"); ("ZB_per_s", "iec80000::zettabyte_per_second");
     ("YB_per_s", "iec80000::yottabyte_per_second")] ++
  (* isq/si/length.h:71-156 *)
  literals_of true "si" "si::dim_length" [
     ("m", "si::metre"); ("ym", "si::yoctometre"); ("zm", "si::zeptometre"); ("am", "si::attometre");
     ("fm", "si::femtometre"); ("pm", "si::picometre"); ("nm", "si::nanometre"); ("um", "si::micrometre");
     ("mm", "si::millimetre"); ("cm", "si::centimetre"); ("dm", "si::decimetre");
     ("dam", "si::decametre"); ("hm", "si::hectometre"); ("km", "si::kilometre"); ("Mm", "si::megametre");
     ("Gm", "si::gigametre"); ("Tm", "si::terametre"); ("Pm", "si::petametre"); ("Em", "si::exametre");
     ("Zm", "si::zettametre"); ("Ym", "si::yottametre"); ("au", "si::astronomical_unit")] ++
  (* isq/si/speed.h:50-55 *)
  literals_of true "si" "si::dim_speed" [
     ("m_per_s", "si::metre_per_second"); ("km_per_h", "si::kilometre_per_hour")] ++
  (* isq/si/acceleration.h:47-48 *)
  literals_of true "si" "si::dim_acceleration" [
     ("m_per_s2", "si::metre_per_second_sq")] ++
  (* isq/si/mass.h:93-263 *)
  literals_of true "si" "si::dim_mass" [
     ("g", "si::gram"); ("yg", "si::yoctogram"); ("zg", "si::zeptogram"); ("ag", "si::attogram");
     ("fg", "si::femtogram"); ("pg", "si::picogram"); ("ng", "si::nanogram"); ("ug", "si::microgram");
     ("mg", "si::milligram"); ("cg", "si::centigram"); ("dg", "si::decigram"); ("dag", "si::decagram");
     ("hg", "si::hectogram"); ("kg", "si::kilogram"); ("Mg", "si::megagram"); ("Gg", "si::gigagram");
     ("Tg", "si::teragram"); ("Pg", "si::petagram"); ("Eg", "si::exagram"); ("Zg", "si::zettagram");
     ("Yg", "si::yottagram"); ("t", "si::tonne"); ("yt", "si::yoctotonne"); ("zt", "si::zeptotonne");
     ("at", "si::attotonne"); ("pt", "si::picotonne"); ("nt", "si::nanotonne"); ("ut", "si::microtonne");
     ("mt", "si::millitonne"); ("ct", "si::centitonne"); ("dt", "si::decitonne");
     ("dat", "si::decatonne"); ("ht", "si::hectotonne"); ("kt", "si::kilotonne"); ("Mt", "si::megatonne");
     ("Gt", "si::gigatonne"); ("Tt", "si::teratonne"); ("Pt", "si::petatonne"); ("Et", "si::exatonne");
     ("Zt", "si::zettatonne"); ("Yt", "si::yottatonne"); ("Da", "si::dalton")] ++
  (* isq/si/force.h:71-152 *)
  literals_of true "si" "si::dim_force" [
     ("N", "si::newton"); ("yN", "si::yoctonewton"); ("zN", "si::zeptonewton"); ("aN", "si::attonewton");
     ("fN", "si::femtonewton"); ("pN", "si::piconewton"); ("nN", "si::nanonewton");
     ("uN", "si::micronewton"); ("mN", "si::millinewton"); ("cN", "si::centinewton");
     ("dN", "si::decinewton"); ("daN", "si::decanewton"); ("hN", "si::hectonewton");
     ("kN", "si::kilonewton"); ("MN", "si::meganewton"); ("GN", "si::giganewton");
     ("TN", "si::teranewton"); ("PN", "si::petanewton"); ("EN", "si::exanewton");
     ("ZN", "si::zettanewton"); ("YN", "si::yottanewton")] ++
  (* isq/si/energy.h:69-142 *)
  literals_of true "si" "si::dim_energy" [
     ("J", "si::joule"); ("yJ", "si::yoctojoule"); ("zJ", "si::zeptojoule"); ("aJ", "si::attojoule");
     ("fJ", "si::femtojoule"); ("pJ", "si::picojoule"); ("nJ", "si::nanojoule"); ("uJ", "si::microjoule");
     ("mJ", "si::millijoule"); ("kJ", "si::kilojoule"); ("MJ", "si::megajoule"); ("GJ", "si::gigajoule");
     ("TJ", "si::terajoule"); ("PJ", "si::petajoule"); ("EJ", "si::exajoule"); ("ZJ", "si::zettajoule");
     ("YJ", "si::yottajoule"); ("eV", "si::electronvolt"); ("GeV", "si::gigaelectronvolt")] ++
  (* isq/si/absorbed_dose.h:70-151 *)
  literals_of true "si" "si::dim_absorbed_dose" [
     ("Gy", "si::gray"); ("yGy", "si::yoctogray"); ("zGy", "si::zeptogray"); ("aGy", "si::attogray");
     ("fGy", "si::femtogray"); ("pGy", "si::picogray"); ("nGy", "si::nanogray"); ("uGy", "si::microgray");
     ("mGy", "si::milligray"); ("cGy", "si::centigray"); ("dGy", "si::decigray");
     ("daGy", "si::decagray"); ("hGy", "si::hectogray"); ("kGy", "si::kilogray"); ("MGy", "si::megagray");
     ("GGy", "si::gigagray"); ("TGy", "si::teragray"); ("PGy", "si::petagray"); ("EGy", "si::exagray");
     ("ZGy", "si::zettagray"); ("YGy", "si::yottagray")] ++
  (* isq/si/amount_of_substance.h:49-50 *)
  literals_of true "si" "si::dim_amount_of_substance" [
     ("mol", "si::mole")] ++
  (* isq/si/angular_velocity.h:49-50 *)
  literals_of true "si" "si::dim_angular_velocity" [
     ("rad_per_s", "si::radian_per_second")] ++
  (* isq/si/area.h:71-156 *)
  literals_of true "si" "si::dim_area" [
     ("m2", "si::square_metre"); ("ym2", "si::square_yoctometre"); ("zm2", "si::square_zeptometre");
     ("am2", "si::square_attometre"); ("fm2", "si::square_femtometre"); ("pm2", "si::square_picometre");
     ("nm2", "si::square_nanometre"); ("um2", "si::square_micrometre"); ("mm2", "si::square_millimetre");
     ("cm2", "si::square_centimetre"); ("dm2", "si::square_decimetre"); ("dam2", "si::square_decametre");
     ("hm2", "si::square_hectometre"); ("km2", "si::square_kilometre"); ("Mm2", "si::square_megametre");
     ("Gm2", "si::square_gigametre"); ("Tm2", "si::square_terametre"); ("Pm2", "si::square_petametre");
     ("Em2", "si::square_exametre"); ("Zm2", "si::square_zettametre"); ("Ym2", "si::square_yottametre");
     ("ha", "si::hectare")] ++
  (* isq/si/electric_current.h:69-150 *)
  literals_of true "si" "si::dim_electric_current" [
     ("A", "si::ampere"); ("yA", "si::yoctoampere"); ("zA", "si::zeptoampere"); ("aA", "si::attoampere");
     ("fA", "si::femtoampere"); ("pA", "si::picoampere"); ("nA", "si::nanoampere");
     ("uA", "si::microampere"); ("mA", "si::milliampere"); ("cA", "si::centiampere");
     ("dA", "si::deciampere"); ("daA", "si::decaampere"); ("hA", "si::hectoampere");
     ("kA", "si::kiloampere"); ("MA", "si::megaampere"); ("GA", "si::gigaampere");
     ("TA", "si::teraampere"); ("PA", "si::petaampere"); ("EA", "si::exaampere");
     ("ZA", "si::zettaampere"); ("YA", "si::yottaampere")] ++
  (* isq/si/electric_charge.h:50-51 *)
  literals_of true "si" "si::dim_electric_charge" [
     ("C", "si::coulomb")] ++
  (* isq/si/power.h:66-131 *)
  literals_of true "si" "si::dim_power" [
     ("W", "si::watt"); ("yW", "si::yoctowatt"); ("zW", "si::zeptowatt"); ("aW", "si::attowatt");
     ("fW", "si::femtowatt"); ("pW", "si::picowatt"); ("nW", "si::nanowatt"); ("uW", "si::microwatt");
     ("mW", "si::milliwatt"); ("kW", "si::kilowatt"); ("MW", "si::megawatt"); ("GW", "si::gigawatt");
     ("TW", "si::terawatt"); ("PW", "si::petawatt"); ("EW", "si::exawatt"); ("ZW", "si::zettawatt");
     ("YW", "si::yottawatt")] ++
  (* isq/si/voltage.h:71-152 *)
  literals_of true "si" "si::dim_voltage" [
     ("V", "si::volt"); ("yV", "si::yoctovolt"); ("zV", "si::zeptovolt"); ("aV", "si::attovolt");
     ("fV", "si::femtovolt"); ("pV", "si::picovolt"); ("nV", "si::nanovolt"); ("uV", "si::microvolt");
     ("mV", "si::millivolt"); ("cV", "si::centivolt"); ("dV", "si::decivolt"); ("daV", "si::decavolt");
     ("hV", "si::hectovolt"); ("kV", "si::kilovolt"); ("MV", "si::megavolt"); ("GV", "si::gigavolt");
     ("TV", "si::teravolt"); ("PV", "si::petavolt"); ("EV", "si::exavolt"); ("ZV", "si::zettavolt");
     ("YV", "si::yottavolt")] ++
  (* isq/si/capacitance.h:71-152 *)
  literals_of true "si" "si::dim_capacitance" [
     ("F", "si::farad"); ("yF", "si::yoctofarad"); ("zF", "si::zeptofarad"); ("aF", "si::attofarad");
     ("fF", "si::femtofarad"); ("pF", "si::picofarad"); ("nF", "si::nanofarad"); ("uF", "si::microfarad");
     ("mF", "si::millifarad"); ("cF", "si::centifarad"); ("dF", "si::decifarad");
     ("daF", "si::decafarad"); ("hF", "si::hectofarad"); ("kF", "si::kilofarad"); ("MF", "si::megafarad");
     ("GF", "si::gigafarad"); ("TF", "si::terafarad"); ("PF", "si::petafarad"); ("EF", "si::exafarad");
     ("ZF", "si::zettafarad"); ("YF", "si::yottafarad")] ++
  (* isq/si/catalytic_activity.h:73-158 *)
  literals_of true "si" "si::dim_catalytic_activity" [
     ("kat", "si::katal"); ("ykat", "si::yoctokatal"); ("zkat", "si::zeptokatal");
     ("akat", "si::attokatal"); ("fkat", "si::femtokatal"); ("pkat", "si::picokatal");
     ("nkat", "si::nanokatal"); ("ukat", "si::microkatal"); ("mkat", "si::millikatal");
     ("ckat", "si::centikatal"); ("dkat", "si::decikatal"); ("dakat", "si::decakatal");
     ("hkat", "si::hectokatal"); ("kkat", "si::kilokatal"); ("Mkat", "si::megakatal");
     ("Gkat", "si::gigakatal"); ("Tkat", "si::terakatal"); ("Pkat", "si::petakatal");
     ("Ekat", "si::exakatal"); ("Zkat", "si::zettakatal"); ("Ykat", "si::yottakatal");
     ("U", "si::enzyme_unit")] ++
  (* isq/si/cgs/length.h:49-50 *)
  literals_of true "si::cgs" "si::cgs::dim_length" [
     ("cm", "si::centimetre")] ++
  (* isq/si/cgs/speed.h:48-49 *)
  literals_of true "si::cgs" "si::cgs::dim_speed" [
     ("cm_per_s", "si::cgs::centimetre_per_second")] ++
  (* isq/si/cgs/acceleration.h:48-49 *)
  literals_of true "si::cgs" "si::cgs::dim_acceleration" [
     ("Gal", "si::cgs::gal")] ++
  (* isq/si/cgs/area.h:50-51 *)
  literals_of true "si::cgs" "si::cgs::dim_area" [
     ("cm2", "si::square_centimetre")] ++
  (* isq/si/cgs/mass.h:49-50 *)
  literals_of true "si::cgs" "si::cgs::dim_mass" [
     ("g", "si::gram")] ++
  (* isq/si/cgs/force.h:51-52 *)
  literals_of true "si::cgs" "si::cgs::dim_force" [
     ("dyn", "si::cgs::dyne")] ++
  (* isq/si/cgs/energy.h:50-51 *)
  literals_of true "si::cgs" "si::cgs::dim_energy" [
     ("erg", "si::cgs::erg")] ++
  (* isq/si/cgs/power.h:49-50 *)
  literals_of true "si::cgs" "si::cgs::dim_power" [
     ("erg_per_s", "si::cgs::erg_per_second")] ++
  (* isq/si/cgs/pressure.h:51-52 *)
  literals_of true "si::cgs" "si::cgs::dim_pressure" [
     ("Ba", "si::cgs::barye")] ++
  (* isq/si/charge_density.h:55-56 *)
  literals_of true "si" "si::dim_charge_density" [
     ("C_per_m3", "si::coulomb_per_metre_cub")] ++
  (* isq/si/charge_density.h:59-60 *)
  literals_of true "si" "si::dim_surface_charge_density" [
     ("C_per_m2", "si::coulomb_per_metre_sq")] ++
  (* isq/si/concentration.h:48-49 *)
  literals_of true "si" "si::dim_concentration" [
     ("mol_per_m3", "si::mol_per_metre_cub")] ++
  (* isq/si/resistance.h:67-132 *)
  literals_of true "si" "si::dim_resistance" [
     ("R", "si::ohm"); ("yR", "si::yoctoohm"); ("zR", "si::zeptoohm"); ("aR", "si::attoohm");
     ("fR", "si::femtoohm"); ("pR", "si::picoohm"); ("nR", "si::nanoohm"); ("uR", "si::microohm");
     ("mR", "si::milliohm"); ("kR", "si::kiloohm"); ("MR", "si::megaohm"); ("GR", "si::gigaohm");
     ("TR", "si::teraohm"); ("PR", "si::petaohm"); ("ER", "si::exaohm"); ("ZR", "si::zettaohm");
     ("YR", "si::yottaohm")] ++
  (* isq/si/conductance.h:66-131 *)
  literals_of true "si" "si::dim_conductance" [
     ("S", "si::siemens"); ("yS", "si::yoctosiemens"); ("zS", "si::zeptosiemens");
     ("aS", "si::attosiemens"); ("fS", "si::femtosiemens"); ("pS", "si::picosiemens");
     ("nS", "si::nanosiemens"); ("uS", "si::microsiemens"); ("mS", "si::millisiemens");
     ("kS", "si::kilosiemens"); ("MS", "si::megasiemens"); ("GS", "si::gigasiemens");
     ("TS", "si::terasiemens"); ("PS", "si::petasiemens"); ("ES", "si::exasiemens");
     ("ZS", "si::zettasiemens"); ("YS", "si::yottasiemens")] ++
  (* isq/si/thermodynamic_temperature.h:48-49 *)
  literals_of true "si" "si::dim_thermodynamic_temperature" [
     ("K", "si::kelvin")] ++
  (* isq/si/current_density.h:50-51 *)
  literals_of true "si" "si::dim_current_density" [
     ("A_per_m2", "si::ampere_per_metre_sq")] ++
  (* isq/si/density.h:50-51 *)
  literals_of true "si" "si::dim_density" [
     ("kg_per_m3", "si::kilogram_per_metre_cub")] ++
  (* isq/si/pressure.h:71-152 *)
  literals_of true "si" "si::dim_pressure" [
     ("Pa", "si::pascal"); ("yPa", "si::yoctopascal"); ("zPa", "si::zeptopascal");
     ("aPa", "si::attopascal"); ("fPa", "si::femtopascal"); ("pPa", "si::picopascal");
     ("nPa", "si::nanopascal"); ("uPa", "si::micropascal"); ("mPa", "si::millipascal");
     ("cPa", "si::centipascal"); ("dPa", "si::decipascal"); ("daPa", "si::decapascal");
     ("hPa", "si::hectopascal"); ("kPa", "si::kilopascal"); ("MPa", "si::megapascal");
     ("GPa", "si::gigapascal"); ("TPa", "si::terapascal"); ("PPa", "si::petapascal");
     ("EPa", "si::exapascal"); ("ZPa", "si::zettapascal"); ("YPa", "si::yottapascal")] ++
  (* isq/si/dynamic_viscosity.h:48-49 *)
  literals_of true "si" "si::dim_dynamic_viscosity" [
     ("Pa_s", "si::pascal_second")] ++
  (* isq/si/electric_field_strength.h:47-48 *)
  literals_of true "si" "si::dim_electric_field_strength" [
     ("V_per_m", "si::volt_per_metre")] ++
  (* isq/si/volume.h:91-256 *)
  literals_of true "si" "si::dim_volume" [
     ("m3", "si::cubic_metre"); ("ym3", "si::cubic_yoctometre"); ("zm3", "si::cubic_zeptometre");
     ("am3", "si::cubic_attometre"); ("fm3", "si::cubic_femtometre"); ("pm3", "si::cubic_picometre");
     ("nm3", "si::cubic_nanometre"); ("um3", "si::cubic_micrometre"); ("mm3", "si::cubic_millimetre");
     ("cm3", "si::cubic_centimetre"); ("dm3", "si::cubic_decimetre"); ("dam3", "si::cubic_decametre");
     ("hm3", "si::cubic_hectometre"); ("km3", "si::cubic_kilometre"); ("Mm3", "si::cubic_megametre");
     ("Gm3", "si::cubic_gigametre"); ("Tm3", "si::cubic_terametre"); ("Pm3", "si::cubic_petametre");
     ("Em3", "si::cubic_exametre"); ("Zm3", "si::cubic_zettametre"); ("Ym3", "si::cubic_yottametre");
     ("l", "si::litre"); ("yl", "si::yoctolitre"); ("zl", "si::zeptolitre"); ("al", "si::attolitre");
     ("fl", "si::femtolitre"); ("pl", "si::picolitre"); ("nl", "si::nanolitre"); ("ul", "si::microlitre");
     ("ml", "si::millilitre"); ("cl", "si::centilitre"); ("dl", "si::decilitre");
     ("dal", "si::decalitre"); ("hl", "si::hectolitre"); ("kl", "si::kilolitre"); ("Ml", "si::megalitre");
     ("Gl", "si::gigalitre"); ("Tl", "si::teralitre"); ("Pl", "si::petalitre"); ("El", "si::exalitre");
     ("Zl", "si::zettalitre"); ("Yl", "si::yottalitre")] ++
  (* isq/si/energy_density.h:48-49 *)
  literals_of true "si" "si::dim_energy_density" [
     ("J_per_m3", "si::joule_per_metre_cub")] ++
  (* isq/si/fps/length.h:67-99 *)
  literals_of true "si::fps" "si::fps::dim_length" [
     ("thou", "si::fps::thousandth"); ("mil", "si::fps::thousandth"); ("in", "si::fps::inch");
     ("ft", "si::fps::foot"); ("yd", "si::fps::yard"); ("ftm", "si::fps::fathom");
     ("kyd", "si::fps::kiloyard"); ("mile", "si::fps::mile"); ("naut_mi", "si::fps::nautical_mile")] ++
  (* isq/si/fps/speed.h:53-62 *)
  literals_of true "si::fps" "si::fps::dim_speed" [
     ("ft_per_s", "si::fps::foot_per_second"); ("mph", "si::fps::mile_per_hour");
     ("knot", "si::fps::knot")] ++
  (* isq/si/fps/acceleration.h:47-48 *)
  literals_of true "si::fps" "si::fps::dim_acceleration" [
     ("ft_per_s2", "si::fps::foot_per_second_sq")] ++
  (* isq/si/fps/area.h:49-50 *)
  literals_of true "si::fps" "si::fps::dim_area" [
     ("ft2", "si::fps::square_foot")] ++
  (* isq/si/fps/mass.h:66-99 *)
  literals_of true "si::fps" "si::fps::dim_mass" [
     ("gr", "si::fps::grain"); ("dr", "si::fps::dram"); ("oz", "si::fps::ounce");
     ("lb", "si::fps::pound"); ("st", "si::fps::stone"); ("qr", "si::fps::quarter");
     ("cwt", "si::fps::hundredweight"); ("ston", "si::fps::short_ton"); ("lton", "si::fps::long_ton")] ++
  (* isq/si/fps/density.h:49-50 *)
  literals_of true "si::fps" "si::fps::dim_density" [
     ("lb_per_ft3", "si::fps::pound_per_foot_cub")] ++
  (* isq/si/fps/force.h:60-69 *)
  literals_of true "si::fps" "si::fps::dim_force" [
     ("pdl", "si::fps::poundal"); ("lbf", "si::fps::pound_force"); ("klbf", "si::fps::kilopound_force")] ++
  (* isq/si/fps/energy.h:53-58 *)
  literals_of true "si::fps" "si::fps::dim_energy" [
     ("ft_pdl", "si::fps::foot_poundal"); ("ft_lbf", "si::fps::foot_pound_force")] ++
  (* isq/si/fps/power.h:54-63 *)
  literals_of true "si::fps" "si::fps::dim_power" [
     ("ft_pdl_per_s", "si::fps::foot_poundal_per_second");
     ("ft_lbf_per_s", "si::fps::foot_pound_force_per_second"); ("hp", "si::fps::horse_power")] ++
  (* isq/si/fps/pressure.h:57-66 *)
  literals_of true "si::fps" "si::fps::dim_pressure" [
     ("pdl_per_ft2", "si::fps::poundal_per_foot_sq"); ("psi", "si::fps::pound_force_per_inch_sq");
     ("kpsi", "si::fps::kilopound_force_per_inch_sq")] ++
  (* isq/si/fps/volume.h:50-55 *)
  literals_of true "si::fps" "si::fps::dim_volume" [
     ("ft3", "si::fps::cubic_foot"); ("yd3", "si::fps::cubic_yard")] ++
  (* isq/si/heat_capacity.h:61-62 *)
  literals_of true "si" "si::dim_heat_capacity" [
     ("J_per_K", "si::joule_per_kelvin")] ++
  (* isq/si/heat_capacity.h:65-66 *)
  literals_of true "si" "si::dim_specific_heat_capacity" [
     ("J_per_kg_K", "si::joule_per_kilogram_kelvin")] ++
  (* isq/si/heat_capacity.h:69-70 *)
  literals_of true "si" "si::dim_molar_heat_capacity" [
     ("J_per_mol_K", "si::joule_per_mole_kelvin")] ++
  (* isq/si/iau/length.h:52-61 *)
  literals_of true "si::iau" "si::dim_length" [
     ("ly", "si::iau::light_year"); ("pc", "si::iau::parsec"); ("angstrom", "si::iau::angstrom")] ++
  (* isq/si/international/length.h:74-103 *)
  literals_of true "si::international" "si::dim_length" [
     ("yd", "si::international::yard"); ("ft", "si::international::foot");
     ("fathom", "si::international::fathom"); ("in", "si::international::inch");
     ("mi", "si::international::mile"); ("naut_mi", "si::international::nautical_mile");
     ("thou", "si::international::thou"); ("mil", "si::international::thou")] ++
  (* isq/si/imperial/length.h:48-53 *)
  literals_of true "si::imperial" "si::dim_length" [
     ("ch", "si::imperial::chain"); ("rd", "si::imperial::rod")] ++
  (* isq/si/magnetic_induction.h:71-140 *)
  literals_of true "si" "si::dim_magnetic_induction" [
     ("T", "si::tesla"); ("yT", "si::yoctotesla"); ("zT", "si::zeptotesla"); ("aT", "si::attotesla");
     ("fT", "si::femtotesla"); ("pT", "si::picotesla"); ("nT", "si::nanotesla"); ("uT", "si::microtesla");
     ("mT", "si::millitesla"); ("kT", "si::kilotesla"); ("MT", "si::megatesla"); ("GT", "si::gigatesla");
     ("TT", "si::teratesla"); ("PT", "si::petatesla"); ("ET", "si::exatesla"); ("ZT", "si::zettatesla");
     ("YT", "si::yottatesla"); ("G", "si::gauss")] ++
  (* isq/si/magnetic_flux.h:67-132 *)
  literals_of true "si" "si::dim_magnetic_flux" [
     ("Wb", "si::weber"); ("yWb", "si::yoctoweber"); ("zWb", "si::zeptoweber"); ("aWb", "si::attoweber");
     ("fWb", "si::femtoweber"); ("pWb", "si::picoweber"); ("nWb", "si::nanoweber");
     ("uWb", "si::microweber"); ("mWb", "si::milliweber"); ("kWb", "si::kiloweber");
     ("MWb", "si::megaweber"); ("GWb", "si::gigaweber"); ("TWb", "si::teraweber");
     ("PWb", "si::petaweber"); ("EWb", "si::exaweber"); ("ZWb", "si::zettaweber");
     ("YWb", "si::yottaweber")] ++
  (* isq/si/inductance.h:67-132 *)
  literals_of true "si" "si::dim_inductance" [
     ("H", "si::henry"); ("yH", "si::yoctohenry"); ("zH", "si::zeptohenry"); ("aH", "si::attohenry");
     ("fH", "si::femtohenry"); ("pH", "si::picohenry"); ("nH", "si::nanohenry"); ("uH", "si::microhenry");
     ("mH", "si::millihenry"); ("kH", "si::kilohenry"); ("MH", "si::megahenry"); ("GH", "si::gigahenry");
     ("TH", "si::terahenry"); ("PH", "si::petahenry"); ("EH", "si::exahenry"); ("ZH", "si::zettahenry");
     ("YH", "si::yottahenry")] ++
  (* isq/si/international/area.h:45-46 *)
  literals_of true "si::international" "si::dim_area" [
     ("ft2", "si::international::square_foot")] ++
  (* isq/si/international/speed.h:44-45 *)
  literals_of true "si::international" "si::dim_speed" [
     ("mi_per_h", "si::international::mile_per_hour")] ++
  (* isq/si/international/volume.h:45-46 *)
  literals_of true "si::international" "si::dim_volume" [
     ("ft3", "si::international::cubic_foot")] ++
  (* isq/si/luminous_intensity.h:69-150 *)
  literals_of true "si" "si::dim_luminous_intensity" [
     ("cd", "si::candela"); ("ycd", "si::yoctocandela"); ("zcd", "si::zeptocandela");
     ("acd", "si::attocandela"); ("fcd", "si::femtocandela"); ("pcd", "si::picocandela");
     ("ncd", "si::nanocandela"); ("ucd", "si::microcandela"); ("mcd", "si::millicandela");
     ("ccd", "si::centicandela"); ("dcd", "si::decicandela"); ("dacd", "si::decacandela");
     ("hcd", "si::hectocandela"); ("kcd", "si::kilocandela"); ("Mcd", "si::megacandela");
     ("Gcd", "si::gigacandela"); ("Tcd", "si::teracandela"); ("Pcd", "si::petacandela");
     ("Ecd", "si::exacandela"); ("Zcd", "si::zettacandela"); ("Ycd", "si::yottacandela")] ++
  (* isq/si/luminance.h:48-49 *)
  literals_of true "si" "si::dim_luminance" [
     ("cd_per_m2", "si::candela_per_metre_sq")] ++
  (* isq/si/molar_energy.h:50-51 *)
  literals_of true "si" "si::dim_molar_energy" [
     ("J_per_mol", "si::joule_per_mole")] ++
  (* isq/si/momentum.h:48-49 *)
  literals_of true "si" "si::dim_momentum" [
     ("kg_m_per_s", "si::kilogram_metre_per_second")] ++
  (* isq/si/permeability.h:49-50 *)
  literals_of true "si" "si::dim_permeability" [
     ("H_per_m", "si::henry_per_metre")] ++
  (* isq/si/permittivity.h:49-50 *)
  literals_of true "si" "si::dim_permittivity" [
     ("F_per_m", "si::farad_per_metre")] ++
  (* isq/si/radioactivity.h:69-150 *)
  literals_of true "si" "si::dim_radioactivity" [
     ("Bq", "si::becquerel"); ("yBq", "si::yoctobecquerel"); ("zBq", "si::zeptobecquerel");
     ("aBq", "si::attobecquerel"); ("fBq", "si::femtobecquerel"); ("pBq", "si::picobecquerel");
     ("nBq", "si::nanobecquerel"); ("uBq", "si::microbecquerel"); ("mBq", "si::millibecquerel");
     ("cBq", "si::centibecquerel"); ("dBq", "si::decibecquerel"); ("daBq", "si::decabecquerel");
     ("hBq", "si::hectobecquerel"); ("kBq", "si::kilobecquerel"); ("MBq", "si::megabecquerel");
     ("GBq", "si::gigabecquerel"); ("TBq", "si::terabecquerel"); ("PBq", "si::petabecquerel");
     ("EBq", "si::exabecquerel"); ("ZBq", "si::zettabecquerel"); ("YBq", "si::yottabecquerel")] ++
  (* isq/si/surface_tension.h:48-49 *)
  literals_of true "si" "si::dim_surface_tension" [
     ("N_per_m", "si::newton_per_metre")] ++
  (* isq/si/thermal_conductivity.h:49-50 *)
  literals_of true "si" "si::dim_thermal_conductivity" [
     ("W_per_m_K", "si::watt_per_metre_kelvin")] ++
  (* isq/si/torque.h:50-51 *)
  literals_of true "si" "si::dim_torque" [
     ("N_m_per_rad", "si::newton_metre_per_radian")] ++
  (* isq/si/typographic/length.h:49-62 *)
  literals_of true "si::typographic" "si::dim_length" [
     ("pica_comp", "si::typographic::pica_comp"); ("pica_prn", "si::typographic::pica_prn");
     ("point_comp", "si::typographic::point_comp"); ("point_prn", "si::typographic::point_prn")] ++
  (* isq/si/uscs/length.h:53-62 *)
  literals_of true "si::uscs" "si::dim_length" [
     ("ft_us", "si::uscs::foot"); ("fathom_us", "si::uscs::fathom"); ("mi_us", "si::uscs::mile")].

(** The reference constants. *)
Definition references : list uname :=
  (* generic/angle.h:62-62 *)
  names_of "" "dim_angle<>" [
     ("rad", "radian")] ++
  (* isq/si/time.h:115-126 *)
  names_of "si" "si::dim_time" [
     ("ys", "si::yoctosecond"); ("zs", "si::zeptosecond"); ("as", "si::attosecond");
     ("fs", "si::femtosecond"); ("ps", "si::picosecond"); ("ns", "si::nanosecond");
     ("us", "si::microsecond"); ("ms", "si::millisecond"); ("s", "si::second"); ("min", "si::minute");
     ("h", "si::hour"); ("d", "si::day")] ++
  (* isq/si/frequency.h:140-156 *)
  names_of "si" "si::dim_frequency" [
     ("Hz", "si::hertz"); ("yHz", "si::yoctohertz"); ("zHz", "si::zeptohertz"); ("aHz", "si::attohertz");
     ("fHz", "si::femtohertz"); ("pHz", "si::picohertz"); ("nHz", "si::nanohertz");
     ("uHz", "si::microhertz"); ("mHz", "si::millihertz"); ("kHz", "si::kilohertz");
     ("MHz", "si::megahertz"); ("GHz", "si::gigahertz"); ("THz", "si::terahertz");
     ("PHz", "si::petahertz"); ("EHz", "si::exahertz"); ("ZHz", "si::zettahertz");
     ("YHz", "si::yottahertz")] ++
  (* isq/iec80000/modulation_rate.h:75-83 *)
  names_of "iec80000" "si::dim_frequency" [
     ("Bd", "iec80000::baud"); ("kBd", "iec80000::kilobaud"); ("MBd", "iec80000::megabaud");
     ("GBd", "iec80000::gigabaud"); ("TBd", "iec80000::terabaud"); ("PBd", "iec80000::petabaud");
     ("EBd", "iec80000::exabaud"); ("ZBd", "iec80000::zettabaud"); ("YBd", "iec80000::yottabaud")] ++
  (* isq/iec80000/storage_capacity.h:133-167 *)
  names_of "iec80000" "iec80000::dim_storage_capacity" [
     ("bit", "iec80000::bit"); ("kbit", "iec80000::kilobit"); ("Mbit", "iec80000::megabit");
     ("Gbit", "iec80000::gigabit"); ("Tbit", "iec80000::terabit"); ("Pbit", "iec80000::petabit");
     ("Ebit", "iec80000::exabit"); ("Zbit", "iec80000::zettabit"); ("Ybit", "iec80000::yottabit");
     ("Kibit", "iec80000::kibibit"); ("Mibit", "iec80000::mebibit"); ("Gibit", "iec80000::gibibit");
     ("Tibit", "iec80000::tebibit"); ("Pibit", "iec80000::pebibit"); ("Eibit", "iec80000::exbibit");
     ("B", "iec80000::byte"); ("kB", "iec80000::kilobyte"); ("MB", "iec80000::megabyte");
     ("GB", "iec80000::gigabyte"); ("TB", "iec80000::terabyte"); ("PB", "iec80000::petabyte");
     ("EB", "iec80000::exabyte"); ("ZB", "iec80000::zettabyte"); ("YB", "iec80000::yottabyte");
     ("KiB", "iec80000::kibibyte"); ("MiB", "iec80000::mebibyte"); ("GiB", "iec80000::gibibyte");
     ("TiB", "iec80000::tebibyte"); ("PiB", "iec80000::pebibyte")] ++
  (* isq/iec80000/traffic_intensity.h:60-60 *)
  names_of "iec80000" "iec80000::dim_traffic_intensity" [
     ("E", "iec80000::erlang")] ++
  (* isq/natural/length.h:44-44 *)
  names_of "natural" "natural::dim_length" [
     ("inv_GeV", "natural::inverted_gigaelectronvolt")] ++
  (* isq/natural/time.h:44-44 *)
  names_of "natural" "natural::dim_time" [
     ("inv_GeV", "natural::inverted_gigaelectronvolt")] ++
  (* isq/natural/acceleration.h:47-47 *)
  names_of "natural" "natural::dim_acceleration" [
     ("GeV", "natural::gigaelectronvolt")] ++
  (* isq/natural/mass.h:44-44 *)
  names_of "natural" "natural::dim_mass" [
     ("GeV", "natural::gigaelectronvolt")] ++
  (* isq/natural/force.h:47-47 *)
  names_of "natural" "natural::dim_force" [
     ("GeV2", "natural::square_gigaelectronvolt")] ++
  (* isq/natural/energy.h:47-47 *)
  names_of "natural" "natural::dim_energy" [
     ("GeV", "natural::gigaelectronvolt")] ++
  (* isq/natural/momentum.h:47-47 *)
  names_of "natural" "natural::dim_momentum" [
     ("GeV", "natural::gigaelectronvolt")] ++
  (* isq/si/length.h:166-187 *)
  names_of "si" "si::dim_length" [
     ("m", "si::metre"); ("ym", "si::yoctometre"); ("zm", "si::zeptometre"); ("am", "si::attometre");
     ("fm", "si::femtometre"); ("pm", "si::picometre"); ("nm", "si::nanometre"); ("um", "si::micrometre");
     ("mm", "si::millimetre"); ("cm", "si::centimetre"); ("dm", "si::decimetre");
     ("dam", "si::decametre"); ("hm", "si::hectometre"); ("km", "si::kilometre"); ("Mm", "si::megametre");
     ("Gm", "si::gigametre"); ("Tm", "si::terametre"); ("Pm", "si::petametre"); ("Em", "si::exametre");
     ("Zm", "si::zettametre"); ("Ym", "si::yottametre"); ("au", "si::astronomical_unit")] ++
  (* isq/si/mass.h:273-316 *)
  names_of "si" "si::dim_mass" [
     ("g", "si::gram"); ("yg", "si::yoctogram"); ("zg", "si::zeptogram"); ("ag", "si::attogram");
     ("fg", "si::femtogram"); ("pg", "si::picogram"); ("ng", "si::nanogram"); ("ug", "si::microgram");
     ("mg", "si::milligram"); ("cg", "si::centigram"); ("dg", "si::decigram"); ("dag", "si::decagram");
     ("hg", "si::hectogram"); ("kg", "si::kilogram"); ("Mg", "si::megagram"); ("Gg", "si::gigagram");
     ("Tg", "si::teragram"); ("Pg", "si::petagram"); ("Eg", "si::exagram"); ("Zg", "si::zettagram");
     ("Yg", "si::yottagram"); ("t", "si::tonne"); ("yt", "si::yoctotonne"); ("zt", "si::zeptotonne");
     ("at", "si::attotonne"); ("ft", "si::femtotonne"); ("pt", "si::picotonne"); ("nt", "si::nanotonne");
     ("ut", "si::microtonne"); ("mt", "si::millitonne"); ("ct", "si::centitonne");
     ("dt", "si::decitonne"); ("dat", "si::decatonne"); ("ht", "si::hectotonne"); ("kt", "si::kilotonne");
     ("Mt", "si::megatonne"); ("Gt", "si::gigatonne"); ("Tt", "si::teratonne"); ("Pt", "si::petatonne");
     ("Et", "si::exatonne"); ("Zt", "si::zettatonne"); ("Yt", "si::yottatonne"); ("Da", "si::dalton")] ++
  (* isq/si/force.h:162-182 *)
  names_of "si" "si::dim_force" [
     ("N", "si::newton"); ("yN", "si::yoctonewton"); ("zN", "si::zeptonewton"); ("aN", "si::attonewton");
     ("fN", "si::femtonewton"); ("pN", "si::piconewton"); ("nN", "si::nanonewton");
     ("uN", "si::micronewton"); ("mN", "si::millinewton"); ("cN", "si::centinewton");
     ("dN", "si::decinewton"); ("daN", "si::decanewton"); ("hN", "si::hectonewton");
     ("kN", "si::kilonewton"); ("MN", "si::meganewton"); ("GN", "si::giganewton");
     ("TN", "si::teranewton"); ("PN", "si::petanewton"); ("EN", "si::exanewton");
     ("ZN", "si::zettanewton"); ("YN", "si::yottanewton")] ++
  (* isq/si/energy.h:152-171 *)
  names_of "si" "si::dim_energy" [
     ("J", "si::joule"); ("yJ", "si::yoctojoule"); ("zJ", "si::zeptojoule"); ("aJ", "si::attojoule");
     ("fJ", "si::femtojoule"); ("pJ", "si::picojoule"); ("nJ", "si::nanojoule"); ("uJ", "si::microjoule");
     ("mJ", "si::millijoule"); ("kJ", "si::kilojoule"); ("MJ", "si::megajoule"); ("GJ", "si::gigajoule");
     ("TJ", "si::terajoule"); ("PJ", "si::petajoule"); ("EJ", "si::exajoule"); ("ZJ", "si::zettajoule");
     ("YJ", "si::yottajoule"); ("eV", "si::electronvolt"); ("GeV", "si::gigaelectronvolt")] ++
  (* isq/si/absorbed_dose.h:161-181 *)
  names_of "si" "si::dim_absorbed_dose" [
     ("Gy", "si::gray"); ("yGy", "si::yoctogray"); ("zGy", "si::zeptogray"); ("aGy", "si::attogray");
     ("fGy", "si::femtogray"); ("pGy", "si::picogray"); ("nGy", "si::nanogray"); ("uGy", "si::microgray");
     ("mGy", "si::milligray"); ("cGy", "si::centigray"); ("dGy", "si::decigray");
     ("daGy", "si::decagray"); ("hGy", "si::hectogray"); ("kGy", "si::kilogray"); ("MGy", "si::megagray");
     ("GGy", "si::gigagray"); ("TGy", "si::teragray"); ("PGy", "si::petagray"); ("EGy", "si::exagray");
     ("ZGy", "si::zettagray"); ("YGy", "si::yottagray")] ++
  (* isq/si/amount_of_substance.h:60-60 *)
  names_of "si" "si::dim_amount_of_substance" [
     ("mol", "si::mole")] ++
  (* isq/si/area.h:166-188 *)
  names_of "si" "si::dim_area" [
     ("m2", "si::square_metre"); ("ym2", "si::square_yoctometre"); ("zm2", "si::square_zeptometre");
     ("am2", "si::square_attometre"); ("fm2", "si::square_femtometre"); ("pm2", "si::square_picometre");
     ("nm2", "si::square_nanometre"); ("um2", "si::square_micrometre"); ("mm2", "si::square_millimetre");
     ("cm2", "si::square_centimetre"); ("dm2", "si::square_decimetre"); ("dam2", "si::square_decametre");
     ("hm2", "si::square_hectometre"); ("km2", "si::square_kilometre"); ("Mm2", "si::square_megametre");
     ("Gm2", "si::square_gigametre"); ("Tm2", "si::square_terametre"); ("Pm2", "si::square_petametre");
     ("Em2", "si::square_exametre"); ("Zm2", "si::square_zettametre"); ("Ym2", "si::square_yottametre");
     ("ha", "si::hectare")] ++
  (* isq/si/electric_current.h:160-180 *)
  names_of "si" "si::dim_electric_current" [
     ("A", "si::ampere"); ("yA", "si::yoctoampere"); ("zA", "si::zeptoampere"); ("aA", "si::attoampere");
     ("fA", "si::femtoampere"); ("pA", "si::picoampere"); ("nA", "si::nanoampere");
     ("uA", "si::microampere"); ("mA", "si::milliampere"); ("cA", "si::centiampere");
     ("dA", "si::deciampere"); ("daA", "si::decaampere"); ("hA", "si::hectoampere");
     ("kA", "si::kiloampere"); ("MA", "si::megaampere"); ("GA", "si::gigaampere");
     ("TA", "si::teraampere"); ("PA", "si::petaampere"); ("EA", "si::exaampere");
     ("ZA", "si::zettaampere"); ("YA", "si::yottaampere")] ++
  (* isq/si/electric_charge.h:61-61 *)
  names_of "si" "si::dim_electric_charge" [
     ("C", "si::coulomb")] ++
  (* isq/si/power.h:141-157 *)
  names_of "si" "si::dim_power" [
     ("W", "si::watt"); ("yW", "si::yoctowatt"); ("zW", "si::zeptowatt"); ("aW", "si::attowatt");
     ("fW", "si::femtowatt"); ("pW", "si::picowatt"); ("nW", "si::nanowatt"); ("uW", "si::microwatt");
     ("mW", "si::milliwatt"); ("kW", "si::kilowatt"); ("MW", "si::megawatt"); ("GW", "si::gigawatt");
     ("TW", "si::terawatt"); ("PW", "si::petawatt"); ("EW", "si::exawatt"); ("ZW", "si::zettawatt");
     ("YW", "si::yottawatt")] ++
  (* isq/si/voltage.h:162-182 *)
  names_of "si" "si::dim_voltage" [
     ("V", "si::volt"); ("yV", "si::yoctovolt"); ("zV", "si::zeptovolt"); ("aV", "si::attovolt");
     ("fV", "si::femtovolt"); ("pV", "si::picovolt"); ("nV", "si::nanovolt"); ("uV", "si::microvolt");
     ("mV", "si::millivolt"); ("cV", "si::centivolt"); ("dV", "si::decivolt"); ("daV", "si::decavolt");
     ("hV", "si::hectovolt"); ("kV", "si::kilovolt"); ("MV", "si::megavolt"); ("GV", "si::gigavolt");
     ("TV", "si::teravolt"); ("PV", "si::petavolt"); ("EV", "si::exavolt"); ("ZV", "si::zettavolt");
     ("YV", "si::yottavolt")] ++
  (* isq/si/capacitance.h:162-182 *)
  names_of "si" "si::dim_capacitance" [
     ("F", "si::farad"); ("yF", "si::yoctofarad"); ("zF", "si::zeptofarad"); ("aF", "si::attofarad");
     ("fF", "si::femtofarad"); ("pF", "si::picofarad"); ("nF", "si::nanofarad"); ("uF", "si::microfarad");
     ("mF", "si::millifarad"); ("cF", "si::centifarad"); ("dF", "si::decifarad");
     ("daF", "si::decafarad"); ("hF", "si::hectofarad"); ("kF", "si::kilofarad"); ("MF", "si::megafarad");
     ("GF", "si::gigafarad"); ("TF", "si::terafarad"); ("PF", "si::petafarad"); ("EF", "si::exafarad");
     ("ZF", "si::zettafarad"); ("YF", "si::yottafarad")] ++
  (* isq/si/catalytic_activity.h:168-189 *)
  names_of "si" "si::dim_catalytic_activity" [
     ("kat", "si::katal"); ("ykat", "si::yoctokatal"); ("zkat", "si::zeptokatal");
     ("akat", "si::attokatal"); ("fkat", "si::femtokatal"); ("pkat", "si::picokatal");
     ("nkat", "si::nanokatal"); ("ukat", "si::microkatal"); ("mkat", "si::millikatal");
     ("ckat", "si::centikatal"); ("dkat", "si::decikatal"); ("dakat", "si::decakatal");
     ("hkat", "si::hectokatal"); ("kkat", "si::kilokatal"); ("Mkat", "si::megakatal");
     ("Gkat", "si::gigakatal"); ("Tkat", "si::terakatal"); ("Pkat", "si::petakatal");
     ("Ekat", "si::exakatal"); ("Zkat", "si::zettakatal"); ("Ykat", "si::yottakatal");
     ("U", "si::enzyme_unit")] ++
  (* isq/si/cgs/length.h:60-60 *)
  names_of "si::cgs" "si::cgs::dim_length" [
     ("cm", "si::centimetre")] ++
  (* isq/si/cgs/acceleration.h:59-59 *)
  names_of "si::cgs" "si::cgs::dim_acceleration" [
     ("Gal", "si::cgs::gal")] ++
  (* isq/si/cgs/area.h:61-61 *)
  names_of "si::cgs" "si::cgs::dim_area" [
     ("cm2", "si::square_centimetre")] ++
  (* isq/si/cgs/mass.h:60-60 *)
  names_of "si::cgs" "si::cgs::dim_mass" [
     ("g", "si::gram")] ++
  (* isq/si/cgs/force.h:62-62 *)
  names_of "si::cgs" "si::cgs::dim_force" [
     ("dyn", "si::cgs::dyne")] ++
  (* isq/si/cgs/energy.h:61-61 *)
  names_of "si::cgs" "si::cgs::dim_energy" [
     ("erg", "si::cgs::erg")] ++
  (* isq/si/cgs/pressure.h:62-62 *)
  names_of "si::cgs" "si::cgs::dim_pressure" [
     ("Ba", "si::cgs::barye")] ++
  (* isq/si/resistance.h:142-158 *)
  names_of "si" "si::dim_resistance" [
     ("R", "si::ohm"); ("yR", "si::yoctoohm"); ("zR", "si::zeptoohm"); ("aR", "si::attoohm");
     ("fR", "si::femtoohm"); ("pR", "si::picoohm"); ("nR", "si::nanoohm"); ("uR", "si::microohm");
     ("mR", "si::milliohm"); ("kR", "si::kiloohm"); ("MR", "si::megaohm"); ("GR", "si::gigaohm");
     ("TR", "si::teraohm"); ("PR", "si::petaohm"); ("ER", "si::exaohm"); ("ZR", "si::zettaohm");
     ("YR", "si::yottaohm")] ++
  (* isq/si/conductance.h:141-157 *)
  names_of "si" "si::dim_conductance" [
     ("S", "si::siemens"); ("yS", "si::yoctosiemens"); ("zS", "si::zeptosiemens");
     ("aS", "si::attosiemens"); ("fS", "si::femtosiemens"); ("pS", "si::picosiemens");
     ("nS", "si::nanosiemens"); ("uS", "si::microsiemens"); ("mS", "si::millisiemens");
     ("kS", "si::kilosiemens"); ("MS", "si::megasiemens"); ("GS", "si::gigasiemens");
     ("TS", "si::terasiemens"); ("PS", "si::petasiemens"); ("ES", "si::exasiemens");
     ("ZS", "si::zettasiemens"); ("YS", "si::yottasiemens")] ++
  (* isq/si/thermodynamic_temperature.h:59-59 *)
  names_of "si" "si::dim_thermodynamic_temperature" [
     ("K", "si::kelvin")] ++
  (* isq/si/pressure.h:162-182 *)
  names_of "si" "si::dim_pressure" [
     ("Pa", "si::pascal"); ("yPa", "si::yoctopascal"); ("zPa", "si::zeptopascal");
     ("aPa", "si::attopascal"); ("fPa", "si::femtopascal"); ("pPa", "si::picopascal");
     ("nPa", "si::nanopascal"); ("uPa", "si::micropascal"); ("mPa", "si::millipascal");
     ("cPa", "si::centipascal"); ("dPa", "si::decipascal"); ("daPa", "si::decapascal");
     ("hPa", "si::hectopascal"); ("kPa", "si::kilopascal"); ("MPa", "si::megapascal");
     ("GPa", "si::gigapascal"); ("TPa", "si::terapascal"); ("PPa", "si::petapascal");
     ("EPa", "si::exapascal"); ("ZPa", "si::zettapascal"); ("YPa", "si::yottapascal")] ++
  (* isq/si/volume.h:266-308 *)
  names_of "si" "si::dim_volume" [
     ("m3", "si::cubic_metre"); ("ym3", "si::cubic_yoctometre"); ("zm3", "si::cubic_zeptometre");
     ("am3", "si::cubic_attometre"); ("fm3", "si::cubic_femtometre"); ("pm3", "si::cubic_picometre");
     ("nm3", "si::cubic_nanometre"); ("um3", "si::cubic_micrometre"); ("mm3", "si::cubic_millimetre");
     ("cm3", "si::cubic_centimetre"); ("dm3", "si::cubic_decimetre"); ("dam3", "si::cubic_decametre");
     ("hm3", "si::cubic_hectometre"); ("km3", "si::cubic_kilometre"); ("Mm3", "si::cubic_megametre");
     ("Gm3", "si::cubic_gigametre"); ("Tm3", "si::cubic_terametre"); ("Pm3", "si::cubic_petametre");
     ("Em3", "si::cubic_exametre"); ("Zm3", "si::cubic_zettametre"); ("Ym3", "si::cubic_yottametre");
     ("l", "si::litre"); ("yl", "si::yoctolitre"); ("zl", "si::zeptolitre"); ("al", "si::attolitre");
     ("fl", "si::femtolitre"); ("pl", "si::picolitre"); ("nl", "si::nanolitre"); ("ul", "si::microlitre");
     ("ml", "si::millilitre"); ("cl", "si::centilitre"); ("dl", "si::decilitre");
     ("dal", "si::decalitre"); ("hl", "si::hectolitre"); ("kl", "si::kilolitre"); ("Ml", "si::megalitre");
     ("Gl", "si::gigalitre"); ("Tl", "si::teralitre"); ("Pl", "si::petalitre"); ("El", "si::exalitre");
     ("Zl", "si::zettalitre"); ("Yl", "si::yottalitre")] ++
  (* isq/si/fps/length.h:109-118 *)
  names_of "si::fps" "si::fps::dim_length" [
     ("thou", "si::fps::thousandth"); ("in", "si::fps::inch"); ("ft", "si::fps::foot");
     ("yd", "si::fps::yard"); ("ftm", "si::fps::fathom"); ("kyd", "si::fps::kiloyard");
     ("mile", "si::fps::mile"); ("naut_mi", "si::fps::nautical_mile")] ++
  (* isq/si/fps/speed.h:72-73 *)
  names_of "si::fps" "si::fps::dim_speed" [
     ("mph", "si::fps::mile_per_hour"); ("knot", "si::fps::knot")] ++
  (* isq/si/fps/area.h:60-60 *)
  names_of "si::fps" "si::fps::dim_area" [
     ("ft2", "si::fps::square_foot")] ++
  (* isq/si/fps/mass.h:109-117 *)
  names_of "si::fps" "si::fps::dim_mass" [
     ("gr", "si::fps::grain"); ("dr", "si::fps::dram"); ("oz", "si::fps::ounce");
     ("lb", "si::fps::pound"); ("st", "si::fps::stone"); ("qr", "si::fps::quarter");
     ("cwt", "si::fps::hundredweight"); ("ston", "si::fps::short_ton"); ("lton", "si::fps::long_ton")] ++
  (* isq/si/fps/force.h:79-81 *)
  names_of "si::fps" "si::fps::dim_force" [
     ("pdl", "si::fps::poundal"); ("lbf", "si::fps::pound_force"); ("klbf", "si::fps::kilopound_force")] ++
  (* isq/si/fps/power.h:73-73 *)
  names_of "si::fps" "si::fps::dim_power" [
     ("hp", "si::fps::horse_power")] ++
  (* isq/si/fps/pressure.h:76-77 *)
  names_of "si::fps" "si::fps::dim_pressure" [
     ("psi", "si::fps::pound_force_per_inch_sq"); ("kpsi", "si::fps::kilopound_force_per_inch_sq")] ++
  (* isq/si/fps/volume.h:65-66 *)
  names_of "si::fps" "si::fps::dim_volume" [
     ("ft3", "si::fps::cubic_foot"); ("yd3", "si::fps::cubic_yard")] ++
  (* isq/si/iau/length.h:71-73 *)
  names_of "si::iau" "si::dim_length" [
     ("ly", "si::iau::light_year"); ("pc", "si::iau::parsec"); ("angstrom", "si::iau::angstrom")] ++
  (* isq/si/international/length.h:113-120 *)
  names_of "si::international" "si::dim_length" [
     ("yd", "si::international::yard"); ("ft", "si::international::foot");
     ("fathom", "si::international::fathom"); ("in", "si::international::inch");
     ("mi", "si::international::mile"); ("mi_naut", "si::international::nautical_mile");
     ("thou", "si::international::thou"); ("mil", "si::international::thou")] ++
  (* isq/si/imperial/length.h:63-64 *)
  names_of "si::imperial" "si::dim_length" [
     ("ch", "si::imperial::chain"); ("rd", "si::imperial::rod")] ++
  (* isq/si/magnetic_induction.h:150-167 *)
  names_of "si" "si::dim_magnetic_induction" [
     ("T", "si::tesla"); ("yT", "si::yoctotesla"); ("zT", "si::zeptotesla"); ("aT", "si::attotesla");
     ("fT", "si::femtotesla"); ("pT", "si::picotesla"); ("nT", "si::nanotesla"); ("uT", "si::microtesla");
     ("mT", "si::millitesla"); ("kT", "si::kilotesla"); ("MT", "si::megatesla"); ("GT", "si::gigatesla");
     ("TT", "si::teratesla"); ("PT", "si::petatesla"); ("ET", "si::exatesla"); ("ZT", "si::zettatesla");
     ("YT", "si::yottatesla"); ("G", "si::gauss")] ++
  (* isq/si/magnetic_flux.h:142-158 *)
  names_of "si" "si::dim_magnetic_flux" [
     ("Wb", "si::weber"); ("yWb", "si::yoctoweber"); ("zWb", "si::zeptoweber"); ("aWb", "si::attoweber");
     ("fWb", "si::femtoweber"); ("pWb", "si::picoweber"); ("nWb", "si::nanoweber");
     ("uWb", "si::microweber"); ("mWb", "si::milliweber"); ("kWb", "si::kiloweber");
     ("MWb", "si::megaweber"); ("GWb", "si::gigaweber"); ("TWb", "si::teraweber");
     ("PWb", "si::petaweber"); ("EWb", "si::exaweber"); ("ZWb", "si::zettaweber");
     ("YWb", "si::yottaweber")] ++
  (* isq/si/inductance.h:142-158 *)
  names_of "si" "si::dim_inductance" [
     ("H", "si::henry"); ("yH", "si::yoctohenry"); ("zH", "si::zeptohenry"); ("aH", "si::attohenry");
     ("fH", "si::femtohenry"); ("pH", "si::picohenry"); ("nH", "si::nanohenry"); ("uH", "si::microhenry");
     ("mH", "si::millihenry"); ("kH", "si::kilohenry"); ("MH", "si::megahenry"); ("GH", "si::gigahenry");
     ("TH", "si::terahenry"); ("PH", "si::petahenry"); ("EH", "si::exahenry"); ("ZH", "si::zettahenry");
     ("YH", "si::yottahenry")] ++
  (* isq/si/international/area.h:56-56 *)
  names_of "si::international" "si::dim_area" [
     ("ft2", "si::international::square_foot")] ++
  (* isq/si/international/volume.h:56-56 *)
  names_of "si::international" "si::dim_volume" [
     ("ft3", "si::international::cubic_foot")] ++
  (* isq/si/luminous_intensity.h:160-180 *)
  names_of "si" "si::dim_luminous_intensity" [
     ("cd", "si::candela"); ("ycd", "si::yoctocandela"); ("zcd", "si::zeptocandela");
     ("acd", "si::attocandela"); ("fcd", "si::femtocandela"); ("pcd", "si::picocandela");
     ("ncd", "si::nanocandela"); ("ucd", "si::microcandela"); ("mcd", "si::millicandela");
     ("ccd", "si::centicandela"); ("dcd", "si::decicandela"); ("dacd", "si::decacandela");
     ("hcd", "si::hectocandela"); ("kcd", "si::kilocandela"); ("Mcd", "si::megacandela");
     ("Gcd", "si::gigacandela"); ("Tcd", "si::teracandela"); ("Pcd", "si::petacandela");
     ("Ecd", "si::exacandela"); ("Zcd", "si::zettacandela"); ("Ycd", "si::yottacandela")] ++
  (* isq/si/radioactivity.h:160-180 *)
  names_of "si" "si::dim_radioactivity" [
     ("Bq", "si::becquerel"); ("yBq", "si::yoctobecquerel"); ("zBq", "si::zeptobecquerel");
     ("aBq", "si::attobecquerel"); ("fBq", "si::femtobecquerel"); ("pBq", "si::picobecquerel");
     ("nBq", "si::nanobecquerel"); ("uBq", "si::microbecquerel"); ("mBq", "si::millibecquerel");
     ("cBq", "si::centibecquerel"); ("dBq", "si::decibecquerel"); ("daBq", "si::decabecquerel");
     ("hBq", "si::hectobecquerel"); ("kBq", "si::kilobecquerel"); ("MBq", "si::megabecquerel");
     ("GBq", "si::gigabecquerel"); ("TBq", "si::terabecquerel"); ("PBq", "si::petabecquerel");
     ("EBq", "si::exabecquerel"); ("ZBq", "si::zettabecquerel"); ("YBq", "si::yottabecquerel")] ++
  (* isq/si/typographic/length.h:72-75 *)
  names_of "si::typographic" "si::dim_length" [
     ("pica_comp", "si::typographic::pica_comp"); ("pica_prn", "si::typographic::pica_prn");
     ("point_comp", "si::typographic::point_comp"); ("point_prn", "si::typographic::point_prn")] ++
  (* isq/si/uscs/length.h:72-74 *)
  names_of "si::uscs" "si::dim_length" [
     ("ft", "si::uscs::foot"); ("fathom", "si::uscs::fathom"); ("mi", "si::uscs::mile")].

(** The alias templates of [units::aliases]. *)
Definition aliases : list uname :=
  (* isq/iec80000/modulation_rate.h:101-109 *)
  names_of "iec80000::modulation_rate" "si::dim_frequency" [
     ("Bd", "iec80000::baud"); ("kBd", "iec80000::kilobaud"); ("MBd", "iec80000::megabaud");
     ("GBd", "iec80000::gigabaud"); ("TBd", "iec80000::terabaud"); ("PBd", "iec80000::petabaud");
     ("EBd", "iec80000::exabaud"); ("ZBd", "iec80000::zettabaud"); ("YBd", "iec80000::yottabaud")] ++
  (* isq/iec80000/storage_capacity.h:187-221 *)
  names_of "iec80000::storage_capacity" "iec80000::dim_storage_capacity" [
     ("bit", "iec80000::bit"); ("kbit", "iec80000::kilobit"); ("Mbit", "iec80000::megabit");
     ("Gbit", "iec80000::gigabit"); ("Tbit", "iec80000::terabit"); ("Pbit", "iec80000::petabit");
     ("Ebit", "iec80000::exabit"); ("Zbit", "iec80000::zettabit"); ("Ybit", "iec80000::yottabit");
     ("Kibit", "iec80000::kibibit"); ("Mibit", "iec80000::mebibit"); ("Gibit", "iec80000::gibibit");
     ("Tibit", "iec80000::tebibit"); ("Pibit", "iec80000::pebibit"); ("Eibit", "iec80000::exbibit");
     ("B", "iec80000::byte"); ("kB", "iec80000::kilobyte"); ("MB", "iec80000::megabyte");
     ("GB", "iec80000::gigabyte"); ("TB", "iec80000::terabyte"); ("PB", "iec80000::petabyte");
     ("EB", "iec80000::exabyte"); ("ZB", "iec80000::zettabyte"); ("YB", "iec80000::yottabyte");
     ("KiB", "iec80000::kibibyte"); ("MiB", "iec80000::mebibyte"); ("GiB", "iec80000::gibibyte");
     ("TiB", "iec80000::tebibyte"); ("PiB", "iec80000::pebibyte")] ++
  (* isq/iec80000/traffic_intensity.h:78-78 *)
  names_of "iec80000::traffic_intensity" "iec80000::dim_traffic_intensity" [
     ("E", "iec80000::erlang")] ++
  (* isq/iec80000/transfer_rate.h:79-87 *)
  names_of "iec80000::transfer_rate" "iec80000::dim_transfer_rate" [
     ("B_per_s", "iec80000::byte_per_second"); ("kB_per_s", "iec80000::kilobyte_per_second");
     ("MB_per_s", "iec80000::megabyte_per_second"); ("GB_per_s", "iec80000::gigabyte_per_second");
     ("TB_per_s", "iec80000::terabyte_per_second"); ("PB_per_s", "iec80000::petabyte_per_second");
     ("EB_per_s", "iec80000::exabyte_per_second"); ("ZB_per_s", "iec80000::zettabyte_per_second");
     ("YB_per_s", "iec80000::yottabyte_per_second")] ++
  (* isq/natural/acceleration.h:65-65 *)
  names_of "natural::acceleration" "natural::dim_acceleration" [
     ("GeV", "natural::gigaelectronvolt")] ++
  (* isq/natural/energy.h:65-65 *)
  names_of "natural::energy" "natural::dim_energy" [
     ("GeV", "natural::gigaelectronvolt")] ++
  (* isq/natural/force.h:65-65 *)
  names_of "natural::force" "natural::dim_force" [
     ("GeV2", "natural::square_gigaelectronvolt")] ++
  (* isq/natural/length.h:62-62 *)
  names_of "natural::length" "natural::dim_length" [
     ("inv_GeV", "natural::inverted_gigaelectronvolt")] ++
  (* isq/natural/mass.h:62-62 *)
  names_of "natural::mass" "natural::dim_mass" [
     ("GeV", "natural::gigaelectronvolt")] ++
  (* isq/natural/momentum.h:65-65 *)
  names_of "natural::momentum" "natural::dim_momentum" [
     ("GeV", "natural::gigaelectronvolt")] ++
  (* isq/natural/time.h:62-62 *)
  names_of "natural::time" "natural::dim_time" [
     ("inv_GeV", "natural::inverted_gigaelectronvolt")] ++
  (* isq/si/cgs/acceleration.h:77-77 *)
  names_of "si::cgs::acceleration" "si::cgs::dim_acceleration" [
     ("Gal", "si::cgs::gal")] ++
  (* isq/si/cgs/area.h:79-79 *)
  names_of "si::cgs::area" "si::cgs::dim_area" [
     ("cm2", "si::square_centimetre")] ++
  (* isq/si/cgs/energy.h:79-79 *)
  names_of "si::cgs::energy" "si::cgs::dim_energy" [
     ("erg", "si::cgs::erg")] ++
  (* isq/si/cgs/force.h:80-80 *)
  names_of "si::cgs::force" "si::cgs::dim_force" [
     ("dyn", "si::cgs::dyne")] ++
  (* isq/si/cgs/length.h:78-78 *)
  names_of "si::cgs::length" "si::cgs::dim_length" [
     ("cm", "si::centimetre")] ++
  (* isq/si/cgs/mass.h:78-78 *)
  names_of "si::cgs::mass" "si::cgs::dim_mass" [
     ("g", "si::gram")] ++
  (* isq/si/cgs/power.h:62-62 *)
  names_of "si::cgs::power" "si::cgs::dim_power" [
     ("erg_per_s", "si::cgs::erg_per_second")] ++
  (* isq/si/cgs/pressure.h:80-80 *)
  names_of "si::cgs::pressure" "si::cgs::dim_pressure" [
     ("Ba", "si::cgs::barye")] ++
  (* isq/si/cgs/speed.h:61-61 *)
  names_of "si::cgs::speed" "si::cgs::dim_speed" [
     ("cm_per_s", "si::cgs::centimetre_per_second")] ++
  (* isq/si/fps/acceleration.h:60-60 *)
  names_of "si::fps::acceleration" "si::fps::dim_acceleration" [
     ("ft_per_s2", "si::fps::foot_per_second_sq")] ++
  (* isq/si/fps/area.h:78-78 *)
  names_of "si::fps::area" "si::fps::dim_area" [
     ("ft2", "si::fps::square_foot")] ++
  (* isq/si/fps/density.h:62-62 *)
  names_of "si::fps::density" "si::fps::dim_density" [
     ("lb_per_ft3", "si::fps::pound_per_foot_cub")] ++
  (* isq/si/fps/energy.h:70-71 *)
  names_of "si::fps::energy" "si::fps::dim_energy" [
     ("ft_pdl", "si::fps::foot_poundal"); ("ft_lbf", "si::fps::foot_pound_force")] ++
  (* isq/si/fps/force.h:99-101 *)
  names_of "si::fps::force" "si::fps::dim_force" [
     ("pdl", "si::fps::poundal"); ("lbf", "si::fps::pound_force"); ("klbf", "si::fps::kilopound_force")] ++
  (* isq/si/fps/length.h:136-145 *)
  names_of "si::fps::length" "si::fps::dim_length" [
     ("thou", "si::fps::thousandth"); ("mil", "si::fps::thousandth"); ("in", "si::fps::inch");
     ("ft", "si::fps::foot"); ("yd", "si::fps::yard"); ("ftm", "si::fps::fathom");
     ("kyd", "si::fps::kiloyard"); ("mile", "si::fps::mile"); ("naut_mi", "si::fps::nautical_mile")] ++
  (* isq/si/fps/mass.h:135-143 *)
  names_of "si::fps::mass" "si::fps::dim_mass" [
     ("gr", "si::fps::grain"); ("dr", "si::fps::dram"); ("oz", "si::fps::ounce");
     ("lb", "si::fps::pound"); ("st", "si::fps::stone"); ("qr", "si::fps::quarter");
     ("cwt", "si::fps::hundredweight"); ("ston", "si::fps::short_ton"); ("lton", "si::fps::long_ton")] ++
  (* isq/si/fps/power.h:91-93 *)
  names_of "si::fps::power" "si::fps::dim_power" [
     ("ft_pdl_per_s", "si::fps::foot_poundal_per_second");
     ("ft_lbf_per_s", "si::fps::foot_pound_force_per_second"); ("hp", "si::fps::horse_power")] ++
  (* isq/si/fps/pressure.h:95-97 *)
  names_of "si::fps::pressure" "si::fps::dim_pressure" [
     ("pdl_per_ft2", "si::fps::poundal_per_foot_sq"); ("psi", "si::fps::pound_force_per_inch_sq");
     ("kpsi", "si::fps::kilopound_force_per_inch_sq")] ++
  (* isq/si/fps/speed.h:91-93 *)
  names_of "si::fps::speed" "si::fps::dim_speed" [
     ("ft_per_s", "si::fps::foot_per_second"); ("mph", "si::fps::mile_per_hour");
     ("knot", "si::fps::knot")] ++
  (* isq/si/fps/volume.h:84-85 *)
  names_of "si::fps::volume" "si::fps::dim_volume" [
     ("ft3", "si::fps::cubic_foot"); ("yd3", "si::fps::cubic_yard")] ++
  (* isq/si/iau/length.h:91-93 *)
  names_of "si::iau::length" "si::dim_length" [
     ("ly", "si::iau::light_year"); ("pc", "si::iau::parsec"); ("angstrom", "si::iau::angstrom")] ++
  (* isq/si/imperial/length.h:82-83 *)
  names_of "si::imperial::length" "si::dim_length" [
     ("ch", "si::imperial::chain"); ("rd", "si::imperial::rod")] ++
  (* isq/si/international/area.h:74-74 *)
  names_of "si::international::area" "si::dim_area" [
     ("ft2", "si::international::square_foot")] ++
  (* isq/si/international/length.h:138-145 *)
  names_of "si::international::length" "si::dim_length" [
     ("yd", "si::international::yard"); ("ft", "si::international::foot");
     ("fathom", "si::international::fathom"); ("in", "si::international::inch");
     ("mi", "si::international::mile"); ("mi_naut", "si::international::nautical_mile");
     ("thou", "si::international::thou"); ("mil", "si::international::thou")] ++
  (* isq/si/international/speed.h:57-57 *)
  names_of "si::international::speed" "si::dim_speed" [
     ("mi_per_h", "si::international::mile_per_hour")] ++
  (* isq/si/international/volume.h:74-74 *)
  names_of "si::international::volume" "si::dim_volume" [
     ("ft3", "si::international::cubic_foot")] ++
  (* isq/si/typographic/length.h:93-96 *)
  names_of "si::typographic::length" "si::dim_length" [
     ("pica_comp", "si::typographic::pica_comp"); ("pica_prn", "si::typographic::pica_prn");
     ("point_comp", "si::typographic::point_comp"); ("point_prn", "si::typographic::point_prn")] ++
  (* isq/si/uscs/length.h:92-94 *)
  names_of "si::uscs::length" "si::dim_length" [
     ("ft", "si::uscs::foot"); ("fathom", "si::uscs::fathom"); ("mi", "si::uscs::mile")] ++
  (* isq/si/absorbed_dose.h:199-219 *)
  names_of "si::absorbed_dose" "si::dim_absorbed_dose" [
     ("Gy", "si::gray"); ("yGy", "si::yoctogray"); ("zGy", "si::zeptogray"); ("aGy", "si::attogray");
     ("fGy", "si::femtogray"); ("pGy", "si::picogray"); ("nGy", "si::nanogray"); ("uGy", "si::microgray");
     ("mGy", "si::milligray"); ("cGy", "si::centigray"); ("dGy", "si::decigray");
     ("daGy", "si::decagray"); ("hGy", "si::hectogray"); ("kGy", "si::kilogray"); ("MGy", "si::megagray");
     ("GGy", "si::gigagray"); ("TGy", "si::teragray"); ("PGy", "si::petagray"); ("EGy", "si::exagray");
     ("ZGy", "si::zettagray"); ("YGy", "si::yottagray")] ++
  (* isq/si/acceleration.h:60-60 *)
  names_of "si::acceleration" "si::dim_acceleration" [
     ("m_per_s2", "si::metre_per_second_sq")] ++
  (* isq/si/amount_of_substance.h:78-78 *)
  names_of "si::amount_of_substance" "si::dim_amount_of_substance" [
     ("mol", "si::mole")] ++
  (* isq/si/angular_velocity.h:62-62 *)
  names_of "si::angular_velocity" "si::dim_angular_velocity" [
     ("rad_per_s", "si::radian_per_second")] ++
  (* isq/si/area.h:206-228 *)
  names_of "si::area" "si::dim_area" [
     ("m2", "si::square_metre"); ("ym2", "si::square_yoctometre"); ("zm2", "si::square_zeptometre");
     ("am2", "si::square_attometre"); ("fm2", "si::square_femtometre"); ("pm2", "si::square_picometre");
     ("nm2", "si::square_nanometre"); ("um2", "si::square_micrometre"); ("mm2", "si::square_millimetre");
     ("cm2", "si::square_centimetre"); ("dm2", "si::square_decimetre"); ("dam2", "si::square_decametre");
     ("hm2", "si::square_hectometre"); ("km2", "si::square_kilometre"); ("Mm2", "si::square_megametre");
     ("Gm2", "si::square_gigametre"); ("Tm2", "si::square_terametre"); ("Pm2", "si::square_petametre");
     ("Em2", "si::square_exametre"); ("Zm2", "si::square_zettametre"); ("Ym2", "si::square_yottametre");
     ("ha", "si::hectare")] ++
  (* isq/si/capacitance.h:200-220 *)
  names_of "si::capacitance" "si::dim_capacitance" [
     ("F", "si::farad"); ("yF", "si::yoctofarad"); ("zF", "si::zeptofarad"); ("aF", "si::attofarad");
     ("fF", "si::femtofarad"); ("pF", "si::picofarad"); ("nF", "si::nanofarad"); ("uF", "si::microfarad");
     ("mF", "si::millifarad"); ("cF", "si::centifarad"); ("dF", "si::decifarad");
     ("daF", "si::decafarad"); ("hF", "si::hectofarad"); ("kF", "si::kilofarad"); ("MF", "si::megafarad");
     ("GF", "si::gigafarad"); ("TF", "si::terafarad"); ("PF", "si::petafarad"); ("EF", "si::exafarad");
     ("ZF", "si::zettafarad"); ("YF", "si::yottafarad")] ++
  (* isq/si/catalytic_activity.h:207-228 *)
  names_of "si::catalytic_activity" "si::dim_catalytic_activity" [
     ("kat", "si::katal"); ("ykat", "si::yoctokatal"); ("zkat", "si::zeptokatal");
     ("akat", "si::attokatal"); ("fkat", "si::femtokatal"); ("pkat", "si::picokatal");
     ("nkat", "si::nanokatal"); ("ukat", "si::microkatal"); ("mkat", "si::millikatal");
     ("ckat", "si::centikatal"); ("dkat", "si::decikatal"); ("dakat", "si::decakatal");
     ("hkat", "si::hectokatal"); ("kkat", "si::kilokatal"); ("Mkat", "si::megakatal");
     ("Gkat", "si::gigakatal"); ("Tkat", "si::terakatal"); ("Pkat", "si::petakatal");
     ("Ekat", "si::exakatal"); ("Zkat", "si::zettakatal"); ("Ykat", "si::yottakatal");
     ("U", "si::enzyme_unit")] ++
  (* isq/si/charge_density.h:72-72 *)
  names_of "si::charge_density" "si::dim_charge_density" [
     ("C_per_m3", "si::coulomb_per_metre_cub")] ++
  (* isq/si/charge_density.h:73-73 *)
  names_of "si::charge_density" "si::dim_surface_charge_density" [
     ("C_per_m2", "si::coulomb_per_metre_sq")] ++
  (* isq/si/concentration.h:61-61 *)
  names_of "si::concentration" "si::dim_concentration" [
     ("mol_per_m3", "si::mol_per_metre_cub")] ++
  (* isq/si/conductance.h:175-191 *)
  names_of "si::conductance" "si::dim_conductance" [
     ("S", "si::siemens"); ("yS", "si::yoctosiemens"); ("zS", "si::zeptosiemens");
     ("aS", "si::attosiemens"); ("fS", "si::femtosiemens"); ("pS", "si::picosiemens");
     ("nS", "si::nanosiemens"); ("uS", "si::microsiemens"); ("mS", "si::millisiemens");
     ("kS", "si::kilosiemens"); ("MS", "si::megasiemens"); ("GS", "si::gigasiemens");
     ("TS", "si::terasiemens"); ("PS", "si::petasiemens"); ("ES", "si::exasiemens");
     ("ZS", "si::zettasiemens"); ("YS", "si::yottasiemens")] ++
  (* isq/si/current_density.h:63-63 *)
  names_of "si::current_density" "si::dim_current_density" [
     ("A_per_m2", "si::ampere_per_metre_sq")] ++
  (* isq/si/density.h:63-63 *)
  names_of "si::density" "si::dim_density" [
     ("kg_per_m3", "si::kilogram_per_metre_cub")] ++
  (* isq/si/dynamic_viscosity.h:61-61 *)
  names_of "si::dynamic_viscosity" "si::dim_dynamic_viscosity" [
     ("Pa_s", "si::pascal_second")] ++
  (* isq/si/electric_charge.h:79-79 *)
  names_of "si::electric_charge" "si::dim_electric_charge" [
     ("C", "si::coulomb")] ++
  (* isq/si/electric_current.h:198-218 *)
  names_of "si::electric_current" "si::dim_electric_current" [
     ("A", "si::ampere"); ("yA", "si::yoctoampere"); ("zA", "si::zeptoampere"); ("aA", "si::attoampere");
     ("fA", "si::femtoampere"); ("pA", "si::picoampere"); ("nA", "si::nanoampere");
     ("uA", "si::microampere"); ("mA", "si::milliampere"); ("cA", "si::centiampere");
     ("dA", "si::deciampere"); ("daA", "si::decaampere"); ("hA", "si::hectoampere");
     ("kA", "si::kiloampere"); ("MA", "si::megaampere"); ("GA", "si::gigaampere");
     ("TA", "si::teraampere"); ("PA", "si::petaampere"); ("EA", "si::exaampere");
     ("ZA", "si::zettaampere"); ("YA", "si::yottaampere")] ++
  (* isq/si/electric_field_strength.h:60-60 *)
  names_of "si::electric_field_strength" "si::dim_electric_field_strength" [
     ("V_per_m", "si::volt_per_metre")] ++
  (* isq/si/energy.h:189-208 *)
  names_of "si::energy" "si::dim_energy" [
     ("J", "si::joule"); ("yJ", "si::yoctojoule"); ("zJ", "si::zeptojoule"); ("aJ", "si::attojoule");
     ("fJ", "si::femtojoule"); ("pJ", "si::picojoule"); ("nJ", "si::nanojoule"); ("uJ", "si::microjoule");
     ("mJ", "si::millijoule"); ("kJ", "si::kilojoule"); ("MJ", "si::megajoule"); ("GJ", "si::gigajoule");
     ("TJ", "si::terajoule"); ("PJ", "si::petajoule"); ("EJ", "si::exajoule"); ("ZJ", "si::zettajoule");
     ("YJ", "si::yottajoule"); ("eV", "si::electronvolt"); ("GeV", "si::gigaelectronvolt")] ++
  (* isq/si/energy_density.h:61-61 *)
  names_of "si::energy_density" "si::dim_energy_density" [
     ("J_per_m3", "si::joule_per_metre_cub")] ++
  (* isq/si/force.h:200-220 *)
  names_of "si::force" "si::dim_force" [
     ("N", "si::newton"); ("yN", "si::yoctonewton"); ("zN", "si::zeptonewton"); ("aN", "si::attonewton");
     ("fN", "si::femtonewton"); ("pN", "si::piconewton"); ("nN", "si::nanonewton");
     ("uN", "si::micronewton"); ("mN", "si::millinewton"); ("cN", "si::centinewton");
     ("dN", "si::decinewton"); ("daN", "si::decanewton"); ("hN", "si::hectonewton");
     ("kN", "si::kilonewton"); ("MN", "si::meganewton"); ("GN", "si::giganewton");
     ("TN", "si::teranewton"); ("PN", "si::petanewton"); ("EN", "si::exanewton");
     ("ZN", "si::zettanewton"); ("YN", "si::yottanewton")] ++
  (* isq/si/frequency.h:174-190 *)
  names_of "si::frequency" "si::dim_frequency" [
     ("Hz", "si::hertz"); ("yHz", "si::yoctohertz"); ("zHz", "si::zeptohertz"); ("aHz", "si::attohertz");
     ("fHz", "si::femtohertz"); ("pHz", "si::picohertz"); ("nHz", "si::nanohertz");
     ("uHz", "si::microhertz"); ("mHz", "si::millihertz"); ("kHz", "si::kilohertz");
     ("MHz", "si::megahertz"); ("GHz", "si::gigahertz"); ("THz", "si::terahertz");
     ("PHz", "si::petahertz"); ("EHz", "si::exahertz"); ("ZHz", "si::zettahertz");
     ("YHz", "si::yottahertz")] ++
  (* isq/si/heat_capacity.h:82-82 *)
  names_of "si::heat_capacity" "si::dim_heat_capacity" [
     ("J_per_K", "si::joule_per_kelvin")] ++
  (* isq/si/heat_capacity.h:83-83 *)
  names_of "si::heat_capacity" "si::dim_specific_heat_capacity" [
     ("J_per_kg_K", "si::joule_per_kilogram_kelvin")] ++
  (* isq/si/heat_capacity.h:84-84 *)
  names_of "si::heat_capacity" "si::dim_molar_heat_capacity" [
     ("J_per_mol_K", "si::joule_per_mole_kelvin")] ++
  (* isq/si/inductance.h:176-192 *)
  names_of "si::inductance" "si::dim_inductance" [
     ("H", "si::henry"); ("yH", "si::yoctohenry"); ("zH", "si::zeptohenry"); ("aH", "si::attohenry");
     ("fH", "si::femtohenry"); ("pH", "si::picohenry"); ("nH", "si::nanohenry"); ("uH", "si::microhenry");
     ("mH", "si::millihenry"); ("kH", "si::kilohenry"); ("MH", "si::megahenry"); ("GH", "si::gigahenry");
     ("TH", "si::terahenry"); ("PH", "si::petahenry"); ("EH", "si::exahenry"); ("ZH", "si::zettahenry");
     ("YH", "si::yottahenry")] ++
  (* isq/si/length.h:205-226 *)
  names_of "si::length" "si::dim_length" [
     ("m", "si::metre"); ("ym", "si::yoctometre"); ("zm", "si::zeptometre"); ("am", "si::attometre");
     ("fm", "si::femtometre"); ("pm", "si::picometre"); ("nm", "si::nanometre"); ("um", "si::micrometre");
     ("mm", "si::millimetre"); ("cm", "si::centimetre"); ("dm", "si::decimetre");
     ("dam", "si::decametre"); ("hm", "si::hectometre"); ("km", "si::kilometre"); ("Mm", "si::megametre");
     ("Gm", "si::gigametre"); ("Tm", "si::terametre"); ("Pm", "si::petametre"); ("Em", "si::exametre");
     ("Zm", "si::zettametre"); ("Ym", "si::yottametre"); ("au", "si::astronomical_unit")] ++
  (* isq/si/luminance.h:61-61 *)
  names_of "si::luminance" "si::dim_luminance" [
     ("cd_per_m2", "si::candela_per_metre_sq")] ++
  (* isq/si/luminous_intensity.h:198-218 *)
  names_of "si::luminous_intensity" "si::dim_luminous_intensity" [
     ("cd", "si::candela"); ("ycd", "si::yoctocandela"); ("zcd", "si::zeptocandela");
     ("acd", "si::attocandela"); ("fcd", "si::femtocandela"); ("pcd", "si::picocandela");
     ("ncd", "si::nanocandela"); ("ucd", "si::microcandela"); ("mcd", "si::millicandela");
     ("ccd", "si::centicandela"); ("dcd", "si::decicandela"); ("dacd", "si::decacandela");
     ("hcd", "si::hectocandela"); ("kcd", "si::kilocandela"); ("Mcd", "si::megacandela");
     ("Gcd", "si::gigacandela"); ("Tcd", "si::teracandela"); ("Pcd", "si::petacandela");
     ("Ecd", "si::exacandela"); ("Zcd", "si::zettacandela"); ("Ycd", "si::yottacandela")] ++
  (* isq/si/magnetic_flux.h:176-192 *)
  names_of "si::magnetic_flux" "si::dim_magnetic_flux" [
     ("Wb", "si::weber"); ("yWb", "si::yoctoweber"); ("zWb", "si::zeptoweber"); ("aWb", "si::attoweber");
     ("fWb", "si::femtoweber"); ("pWb", "si::picoweber"); ("nWb", "si::nanoweber");
     ("uWb", "si::microweber"); ("mWb", "si::milliweber"); ("kWb", "si::kiloweber");
     ("MWb", "si::megaweber"); ("GWb", "si::gigaweber"); ("TWb", "si::teraweber");
     ("PWb", "si::petaweber"); ("EWb", "si::exaweber"); ("ZWb", "si::zettaweber");
     ("YWb", "si::yottaweber")] ++
  (* isq/si/magnetic_induction.h:185-202 *)
  names_of "si::magnetic_induction" "si::dim_magnetic_induction" [
     ("T", "si::tesla"); ("yT", "si::yoctotesla"); ("zT", "si::zeptotesla"); ("aT", "si::attotesla");
     ("fT", "si::femtotesla"); ("pT", "si::picotesla"); ("nT", "si::nanotesla"); ("uT", "si::microtesla");
     ("mT", "si::millitesla"); ("kT", "si::kilotesla"); ("MT", "si::megatesla"); ("GT", "si::gigatesla");
     ("TT", "si::teratesla"); ("PT", "si::petatesla"); ("ET", "si::exatesla"); ("ZT", "si::zettatesla");
     ("YT", "si::yottatesla"); ("G", "si::gauss")] ++
  (* isq/si/mass.h:334-377 *)
  names_of "si::mass" "si::dim_mass" [
     ("g", "si::gram"); ("yg", "si::yoctogram"); ("zg", "si::zeptogram"); ("ag", "si::attogram");
     ("fg", "si::femtogram"); ("pg", "si::picogram"); ("ng", "si::nanogram"); ("ug", "si::microgram");
     ("mg", "si::milligram"); ("cg", "si::centigram"); ("dg", "si::decigram"); ("dag", "si::decagram");
     ("hg", "si::hectogram"); ("kg", "si::kilogram"); ("Mg", "si::megagram"); ("Gg", "si::gigagram");
     ("Tg", "si::teragram"); ("Pg", "si::petagram"); ("Eg", "si::exagram"); ("Zg", "si::zettagram");
     ("Yg", "si::yottagram"); ("t", "si::tonne"); ("yt", "si::yoctotonne"); ("zt", "si::zeptotonne");
     ("at", "si::attotonne"); ("ft", "si::femtotonne"); ("pt", "si::picotonne"); ("nt", "si::nanotonne");
     ("ut", "si::microtonne"); ("mt", "si::millitonne"); ("ct", "si::centitonne");
     ("dt", "si::decitonne"); ("dat", "si::decatonne"); ("ht", "si::hectotonne"); ("kt", "si::kilotonne");
     ("Mt", "si::megatonne"); ("Gt", "si::gigatonne"); ("Tt", "si::teratonne"); ("Pt", "si::petatonne");
     ("Et", "si::exatonne"); ("Zt", "si::zettatonne"); ("Yt", "si::yottatonne"); ("Da", "si::dalton")] ++
  (* isq/si/molar_energy.h:63-63 *)
  names_of "si::molar_energy" "si::dim_molar_energy" [
     ("J_per_mol", "si::joule_per_mole")] ++
  (* isq/si/momentum.h:61-61 *)
  names_of "si::momentum" "si::dim_momentum" [
     ("kg_m_per_s", "si::kilogram_metre_per_second")] ++
  (* isq/si/permeability.h:62-62 *)
  names_of "si::permeability" "si::dim_permeability" [
     ("H_per_m", "si::henry_per_metre")] ++
  (* isq/si/permittivity.h:62-62 *)
  names_of "si::permittivity" "si::dim_permittivity" [
     ("F_per_m", "si::farad_per_metre")] ++
  (* isq/si/power.h:175-191 *)
  names_of "si::power" "si::dim_power" [
     ("W", "si::watt"); ("yW", "si::yoctowatt"); ("zW", "si::zeptowatt"); ("aW", "si::attowatt");
     ("fW", "si::femtowatt"); ("pW", "si::picowatt"); ("nW", "si::nanowatt"); ("uW", "si::microwatt");
     ("mW", "si::milliwatt"); ("kW", "si::kilowatt"); ("MW", "si::megawatt"); ("GW", "si::gigawatt");
     ("TW", "si::terawatt"); ("PW", "si::petawatt"); ("EW", "si::exawatt"); ("ZW", "si::zettawatt");
     ("YW", "si::yottawatt")] ++
  (* isq/si/pressure.h:200-220 *)
  names_of "si::pressure" "si::dim_pressure" [
     ("Pa", "si::pascal"); ("yPa", "si::yoctopascal"); ("zPa", "si::zeptopascal");
     ("aPa", "si::attopascal"); ("fPa", "si::femtopascal"); ("pPa", "si::picopascal");
     ("nPa", "si::nanopascal"); ("uPa", "si::micropascal"); ("mPa", "si::millipascal");
     ("cPa", "si::centipascal"); ("dPa", "si::decipascal"); ("daPa", "si::decapascal");
     ("hPa", "si::hectopascal"); ("kPa", "si::kilopascal"); ("MPa", "si::megapascal");
     ("GPa", "si::gigapascal"); ("TPa", "si::terapascal"); ("PPa", "si::petapascal");
     ("EPa", "si::exapascal"); ("ZPa", "si::zettapascal"); ("YPa", "si::yottapascal")] ++
  (* isq/si/radioactivity.h:198-218 *)
  names_of "si::radioactivity" "isq::radioactivity" [
     ("Bq", "isq::becquerel"); ("yBq", "isq::yoctobecquerel"); ("zBq", "isq::zeptobecquerel");
     ("aBq", "isq::attobecquerel"); ("fBq", "isq::femtobecquerel"); ("pBq", "isq::picobecquerel");
     ("nBq", "isq::nanobecquerel"); ("uBq", "isq::microbecquerel"); ("mBq", "isq::millibecquerel");
     ("cBq", "isq::centibecquerel"); ("dBq", "isq::decibecquerel"); ("daBq", "isq::decabecquerel");
     ("hBq", "isq::hectobecquerel"); ("kBq", "isq::kilobecquerel"); ("MBq", "isq::megabecquerel");
     ("GBq", "isq::gigabecquerel"); ("TBq", "isq::terabecquerel"); ("PBq", "isq::petabecquerel");
     ("EBq", "isq::exabecquerel"); ("ZBq", "isq::zettabecquerel"); ("YBq", "isq::yottabecquerel")] ++
  (* isq/si/resistance.h:176-192 *)
  names_of "si::resistance" "si::dim_resistance" [
     ("R", "si::ohm"); ("yR", "si::yoctoohm"); ("zR", "si::zeptoohm"); ("aR", "si::attoohm");
     ("fR", "si::femtoohm"); ("pR", "si::picoohm"); ("nR", "si::nanoohm"); ("uR", "si::microohm");
     ("mR", "si::milliohm"); ("kR", "si::kiloohm"); ("MR", "si::megaohm"); ("GR", "si::gigaohm");
     ("TR", "si::teraohm"); ("PR", "si::petaohm"); ("ER", "si::exaohm"); ("ZR", "si::zettaohm");
     ("YR", "si::yottaohm")] ++
  (* isq/si/speed.h:67-68 *)
  names_of "si::speed" "si::dim_speed" [
     ("m_per_s", "si::metre_per_second"); ("km_per_h", "si::kilometre_per_hour")] ++
  (* isq/si/surface_tension.h:61-61 *)
  names_of "si::surface_tension" "si::dim_surface_tension" [
     ("N_per_m", "si::newton_per_metre")] ++
  (* isq/si/thermal_conductivity.h:62-62 *)
  names_of "si::thermal_conductivity" "si::dim_thermal_conductivity" [
     ("W_per_m_K", "si::watt_per_metre_kelvin")] ++
  (* isq/si/thermodynamic_temperature.h:77-77 *)
  names_of "si::thermodynamic_temperature" "si::dim_thermodynamic_temperature" [
     ("K", "si::kelvin")] ++
  (* isq/si/time.h:144-155 *)
  names_of "si::time" "si::dim_time" [
     ("ys", "si::yoctosecond"); ("zs", "si::zeptosecond"); ("as", "si::attosecond");
     ("fs", "si::femtosecond"); ("ps", "si::picosecond"); ("ns", "si::nanosecond");
     ("us", "si::microsecond"); ("ms", "si::millisecond"); ("s", "si::second"); ("min", "si::minute");
     ("h", "si::hour"); ("d", "si::day")] ++
  (* isq/si/torque.h:63-63 *)
  names_of "si::torque" "si::dim_torque" [
     ("N_m_per_rad", "si::newton_metre_per_radian")] ++
  (* isq/si/voltage.h:200-220 *)
  names_of "si::voltage" "si::dim_voltage" [
     ("V", "si::volt"); ("yV", "si::yoctovolt"); ("zV", "si::zeptovolt"); ("aV", "si::attovolt");
     ("fV", "si::femtovolt"); ("pV", "si::picovolt"); ("nV", "si::nanovolt"); ("uV", "si::microvolt");
     ("mV", "si::millivolt"); ("cV", "si::centivolt"); ("dV", "si::decivolt"); ("daV", "si::decavolt");
     ("hV", "si::hectovolt"); ("kV", "si::kilovolt"); ("MV", "si::megavolt"); ("GV", "si::gigavolt");
     ("TV", "si::teravolt"); ("PV", "si::petavolt"); ("EV", "si::exavolt"); ("ZV", "si::zettavolt");
     ("YV", "si::yottavolt")] ++
  (* isq/si/volume.h:326-368 *)
  names_of "si::volume" "si::dim_volume" [
     ("m3", "si::cubic_metre"); ("ym3", "si::cubic_yoctometre"); ("zm3", "si::cubic_zeptometre");
     ("am3", "si::cubic_attometre"); ("fm3", "si::cubic_femtometre"); ("pm3", "si::cubic_picometre");
     ("nm3", "si::cubic_nanometre"); ("um3", "si::cubic_micrometre"); ("mm3", "si::cubic_millimetre");
     ("cm3", "si::cubic_centimetre"); ("dm3", "si::cubic_decimetre"); ("dam3", "si::cubic_decametre");
     ("hm3", "si::cubic_hectometre"); ("km3", "si::cubic_kilometre"); ("Mm3", "si::cubic_megametre");
     ("Gm3", "si::cubic_gigametre"); ("Tm3", "si::cubic_terametre"); ("Pm3", "si::cubic_petametre");
     ("Em3", "si::cubic_exametre"); ("Zm3", "si::cubic_zettametre"); ("Ym3", "si::cubic_yottametre");
     ("l", "si::litre"); ("yl", "si::yoctolitre"); ("zl", "si::zeptolitre"); ("al", "si::attolitre");
     ("fl", "si::femtolitre"); ("pl", "si::picolitre"); ("nl", "si::nanolitre"); ("ul", "si::microlitre");
     ("ml", "si::millilitre"); ("cl", "si::centilitre"); ("dl", "si::decilitre");
     ("dal", "si::decalitre"); ("hl", "si::hectolitre"); ("kl", "si::kilolitre"); ("Ml", "si::megalitre");
     ("Gl", "si::gigalitre"); ("Tl", "si::teralitre"); ("Pl", "si::petalitre"); ("El", "si::exalitre");
     ("Zl", "si::zettalitre"); ("Yl", "si::yottalitre")].
