(** Model of the concepts of the quantities: [DimensionOfT] and [QuantityOfT]
    (src/core/include/units/bits/quantity_of.h) and the concepts of the headers of the ISQ defined
    with them ([Length], [Speed], ...). *)

From Coq Require Import ZArith String List Bool.
From Verif Require Import Outcome Root Ratio Unit Downcast Dim DimOp Rep QuantityCast Quantity Equivalent System.
Import ListNotations.
Local Open Scope string_scope.
Local Open Scope Z_scope.
Local Open Scope res_scope.

(** [is_derived_from_specialization_of] for the class templates of the ISQ
    (bits/external/type_traits.h:68-78): the template the struct was declared with. *)
Definition specialises (e : env) (d : dimension) : option string :=
  match d with
  | DUnknown _ _ => None
  | _ => match find_dim e (dim_name d) with Ok (t, _) => t | _ => None end
  end.

(** [std::same_as<exponent_list<Es...>, recipe>]. *)
Fixpoint same_recipe (rec : list (dimension * (Z * Z))) (es : list bexp) : bool :=
  match rec, es with
  | [], [] => true
  | (DBase b, (n, d)) :: rec', x :: es' => (if bexp_eq_dec (BExp b n d) x then true else false) && same_recipe rec' es'
  | _, _ => false
  end.

(** [same_exponents_of<unknown_dimension<Es...>, DimTemplate>], quantity_of.h:35-39.  A
    specialisation without definition, or no such specialisation, has no member [recipe];
    that is no substitution failure but an error, in the initializer of a variable template
    (the type requirement before it does not help: it is satisfied by an incomplete type, and
    the operands of [&&] are instantiated both).  Simplification: instantiating the definition
    (the base class [derived_dimension]) always succeeds. *)
Definition same_exponents_of (ts : list template) (e : env) (es : list bexp) (t : string) : res bool :=
  r <- specialisation ts t (map (fun x => specialises e (DBase (e_dim x))) es);
  rec <- substitute (map (fun x => DBase (e_dim x)) es) r;
  Ok (same_recipe rec es).

(** [DimensionOfT<Dim, DimTemplate>], quantity_of.h:41-59; the second disjunct exists when
    downcasting is off only. *)
Definition dimension_of_t (mode : downcast_mode) (ts : list template) (e : env) (d : dimension) (t : string) : res bool :=
  if match specialises e d with Some t' => String.eqb t t' | None => false end then Ok true
  else match mode, d with
       | Off, DUnknown es _ => same_exponents_of ts e es t
       | _, _ => Ok false
       end.

(** [QuantityOfT<Q, DimTemplate>] and [QuantityOf<Q, Dim>] of a quantity, quantity_of.h:67-77. *)
Definition quantity_of_t (mode : downcast_mode) (ts : list template) (e : env) (q : qtype) (t : string) : res bool :=
  dimension_of_t mode ts e (q_dim q) t.
Definition quantity_of_dim (q : qtype) (d : dimension) : bool := dim_equivalent (q_dim q) d.

(** The concepts defined with [QuantityOfT]. *)
Definition isq_concepts : list (string * string) := [
  ("Angle", "dim_angle") (* generic/angle.h:41 *);
  ("AbsorbedDose", "dim_absorbed_dose") (* dimensions/absorbed_dose.h:38 *);
  ("Acceleration", "dim_acceleration") (* dimensions/acceleration.h:38 *);
  ("AmountOfSubstance", "dim_amount_of_substance") (* dimensions/amount_of_substance.h:33 *);
  ("AngularVelocity", "dim_angular_velocity") (* dimensions/angular_velocity.h:38 *);
  ("Area", "dim_area") (* dimensions/area.h:37 *);
  ("Capacitance", "dim_capacitance") (* dimensions/capacitance.h:38 *);
  ("CatalyticActivity", "dim_catalytic_activity") (* dimensions/catalytic_activity.h:38 *);
  ("ChargeDensity", "dim_charge_density") (* dimensions/charge_density.h:44 *);
  ("SurfaceChargeDensity", "dim_surface_charge_density") (* dimensions/charge_density.h:47 *);
  ("Concentration", "dim_concentration") (* dimensions/concentration.h:38 *);
  ("Conductance", "dim_conductance") (* dimensions/conductance.h:37 *);
  ("CurrentDensity", "dim_current_density") (* dimensions/current_density.h:38 *);
  ("Density", "dim_density") (* dimensions/density.h:38 *);
  ("DynamicViscosity", "dim_dynamic_viscosity") (* dimensions/dynamic_viscosity.h:38 *);
  ("ElectricCharge", "dim_electric_charge") (* dimensions/electric_charge.h:38 *);
  ("ElectricCurrent", "dim_electric_current") (* dimensions/electric_current.h:33 *);
  ("ElectricFieldStrength", "dim_electric_field_strength") (* dimensions/electric_field_strength.h:38 *);
  ("Energy", "dim_energy") (* dimensions/energy.h:41 *);
  ("EnergyDensity", "dim_energy_density") (* dimensions/energy_density.h:38 *);
  ("Force", "dim_force") (* dimensions/force.h:38 *);
  ("Frequency", "dim_frequency") (* dimensions/frequency.h:37 *);
  ("HeatCapacity", "dim_heat_capacity") (* dimensions/heat_capacity.h:52 *);
  ("SpecificHeatCapacity", "dim_specific_heat_capacity") (* dimensions/heat_capacity.h:55 *);
  ("MolarHeatCapacity", "dim_molar_heat_capacity") (* dimensions/heat_capacity.h:58 *);
  ("Inductance", "dim_inductance") (* dimensions/inductance.h:38 *);
  ("Length", "dim_length") (* dimensions/length.h:33 *);
  ("Luminance", "dim_luminance") (* dimensions/luminance.h:38 *);
  ("LuminousIntensity", "dim_luminous_intensity") (* dimensions/luminous_intensity.h:33 *);
  ("MagneticFlux", "dim_magnetic_flux") (* dimensions/magnetic_flux.h:38 *);
  ("MagneticInduction", "dim_magnetic_induction") (* dimensions/magnetic_induction.h:39 *);
  ("Mass", "dim_mass") (* dimensions/mass.h:33 *);
  ("MolarEnergy", "dim_molar_energy") (* dimensions/molar_energy.h:38 *);
  ("Momentum", "dim_momentum") (* dimensions/momentum.h:37 *);
  ("Permeability", "dim_permeability") (* dimensions/permeability.h:38 *);
  ("Permittivity", "dim_permittivity") (* dimensions/permittivity.h:38 *);
  ("Power", "dim_power") (* dimensions/power.h:41 *);
  ("Pressure", "dim_pressure") (* dimensions/pressure.h:38 *);
  ("Radioactivity", "dim_radioactivity") (* dimensions/radioactivity.h:37 *);
  ("Resistance", "dim_resistance") (* dimensions/resistance.h:38 *);
  ("Speed", "dim_speed") (* dimensions/speed.h:38 *);
  ("SurfaceTension", "dim_surface_tension") (* dimensions/surface_tension.h:38 *);
  ("ThermalConductivity", "dim_thermal_conductivity") (* dimensions/thermal_conductivity.h:39 *);
  ("ThermodynamicTemperature", "dim_thermodynamic_temperature") (* dimensions/thermodynamic_temperature.h:33 *);
  ("Time", "dim_time") (* dimensions/time.h:33 *);
  ("Torque", "dim_torque") (* dimensions/torque.h:38 *);
  ("Voltage", "dim_voltage") (* dimensions/voltage.h:38 *);
  ("Volume", "dim_volume") (* dimensions/volume.h:37 *)].
(** And with [QuantityOf]. *)
Definition dim_concepts : list (string * string) := [
  ("Dimensionless", "dim_one") (* generic/dimensionless.h:45 *);
  ("StorageCapacity", "iec80000::dim_storage_capacity") (* iec80000/storage_capacity.h:77 *);
  ("TrafficIntensity", "iec80000::dim_traffic_intensity") (* iec80000/traffic_intensity.h:41 *);
  ("TransferRate", "iec80000::dim_transfer_rate") (* iec80000/transfer_rate.h:50 *)].

(** Whether the quantity type satisfies the concept. *)
Definition satisfies (mode : downcast_mode) (ts : list template) (e : env) (q : qtype) (c : string) : res bool :=
  match find (fun x => String.eqb c (fst x)) isq_concepts, find (fun x => String.eqb c (fst x)) dim_concepts with
  | Some (_, t), _ => quantity_of_t mode ts e q t
  | None, Some (_, n) => d <- find_dim e n; Ok (quantity_of_dim q (snd d))
  | None, None => IllFormed
  end.
