(** The systems of units the library provides: their base dimensions. *)

From Coq Require Import String List.
From Verif Require Import Dim System.
Import ListNotations.
Local Open Scope string_scope.

(** The SI (with the plane angle as a base quantity), the centimetre-gram-second and the
    foot-pound-second system, which share the time of the SI, and the natural system: *)
Definition isq_systems : list (list string) := [
  ["si::dim_length"; "si::dim_mass"; "si::dim_time"; "si::dim_electric_current"; "si::dim_thermodynamic_temperature";
   "si::dim_amount_of_substance"; "si::dim_luminous_intensity"; "dim_angle<>"];
  ["si::cgs::dim_length"; "si::cgs::dim_mass"; "si::dim_time"];
  ["si::fps::dim_length"; "si::fps::dim_mass"; "si::dim_time"];
  ["natural::dim_length"; "natural::dim_mass"; "natural::dim_time"]].
(** and the units of information, with the time of the SI. *)
Definition systems : list (list string) :=
  isq_systems ++ [["iec80000::dim_storage_capacity"; "iec80000::dim_traffic_intensity"; "si::dim_time"]].

(** The base dimensions of the system [s] a program has declared. *)
Definition base_of (e : env) (s : list string) (b : bdim) : Prop :=
  (exists o, In (o, DBase b) (en_dims e)) /\ In (bd_name b) s.
(** The dimension is built on them. *)
Definition built_on (s : list string) (d : dimension) : Prop :=
  forall x, In x (exponents d) -> In (bd_name (e_dim x)) s.
(** No other derived dimension of the program has the exponents of [d]. *)
Definition alone (e : env) (d : dimension) : Prop :=
  forall o n es u r, In (o, DDerived n es u r) (en_dims e) -> es = exponents d -> DDerived n es u r = d.
