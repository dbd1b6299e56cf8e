(** Model of [src/systems/si/include/units/isq/si/constants.h] (namespace [si2019]) and
    [src/systems/isq-natural/include/units/isq/natural/constants.h]: the variable templates
    [name<Rep>].

    A decimal literal of type [double] is the nearest double, ties to even (the standard leaves
    the choice of a neighbour to the implementation; the usual ones do this).  The alias
    [energy<joule, Rep>] is the quantity type of the dimension it is declared for. *)

From Coq Require Import ZArith String List Bool SpecFloat.
From Verif Require Import Outcome CInt Root Ratio Unit Downcast Dim DimOp Rep QuantityCast Quantity System Names.
Import ListNotations.
Local Open Scope string_scope.
Local Open Scope Z_scope.
Local Open Scope res_scope.

(** The literal [m * 10^k] of type [double]. *)
Definition decimal (m : positive) (k : Z) : number :=
  NFlt (match k with
        | Zneg j => SFdiv 53 1024 (S754_finite false m 0) (S754_finite false (10 ^ j)%positive 0)
        | _ => float_of_int F64 (Zpos m * 10 ^ k)
        end).

(** [alias<unit, Rep>(v)]. *)
Definition value_of (e : env) (dim unit : string) (r : rep) (from : rep) (v : number) : res quantity :=
  t <- named_type e (UName "" "" dim unit) r; q_make t from v.

(** constants.h:35-36 *)
Definition planck_constant (e : env) (r : rep) : res quantity :=
  a <- value_of e "si::dim_energy" "si::joule" r (RFlt F64) (decimal 662607015 (-42));
  b <- value_of e "si::dim_time" "si::second" r (RInt I32) (NInt 1);
  q_times (en_world e) a b.
(** constants.h:38-39 *)
Definition reduced_planck_constant (e : env) (r : rep) : res quantity :=
  a <- value_of e "si::dim_energy" "si::gigaelectronvolt" r (RFlt F64) (decimal 6582119569 (-19));
  b <- value_of e "si::dim_time" "si::second" r (RInt I32) (NInt 1);
  q_times (en_world e) a b.
(** constants.h:41-42 *)
Definition elementary_charge (e : env) (r : rep) : res quantity :=
  value_of e "si::dim_electric_charge" "si::coulomb" r (RFlt F64) (decimal 1602176634 (-28)).
(** constants.h:44-45 *)
Definition boltzmann_constant (e : env) (r : rep) : res quantity :=
  a <- value_of e "si::dim_energy" "si::joule" r (RFlt F64) (decimal 1380649 (-29));
  b <- value_of e "si::dim_thermodynamic_temperature" "si::kelvin" r (RInt I32) (NInt 1);
  q_over (en_world e) a b.
(** constants.h:47-48.  The initializer of a [constexpr] variable has to be a constant
    expression: a conversion with undefined behaviour is an error. *)
Definition avogadro_constant (e : env) (r : rep) : res quantity :=
  v <- match n_convert r (decimal 602214076 15) with Undef => IllFormed | x => x end;
  b <- value_of e "si::dim_amount_of_substance" "si::mole" r (RInt I32) (NInt 1);
  value_div_q (en_world e) r v b.
(** constants.h:50-51 *)
Definition speed_of_light (e : env) (r : rep) : res quantity :=
  value_of e "si::dim_speed" "si::metre_per_second" r (RInt I32) (NInt 299792458).
(** constants.h:53-54; the literal does not fit an [int] and has type [long] *)
Definition hyperfine_structure_transition_frequency (e : env) (r : rep) : res quantity :=
  value_of e "si::dim_frequency" "si::hertz" r (RInt I64) (NInt 9192631770).
(** constants.h:59-60 *)
Definition standard_gravity (e : env) (r : rep) : res quantity :=
  value_of e "si::dim_acceleration" "si::metre_per_second_sq" r (RFlt F64) (decimal 980665 (-5)).

(** natural/constants.h:29-30 *)
Definition natural_speed_of_light (e : env) (r : rep) : res quantity :=
  value_of e "natural::dim_speed" "one" r (RInt I32) (NInt 1).

Definition si_constants : list (string * (env -> rep -> res quantity)) := [
  ("planck_constant", planck_constant); ("reduced_planck_constant", reduced_planck_constant);
  ("elementary_charge", elementary_charge); ("boltzmann_constant", boltzmann_constant);
  ("avogadro_constant", avogadro_constant); ("speed_of_light", speed_of_light);
  ("hyperfine_structure_transition_frequency", hyperfine_structure_transition_frequency);
  ("standard_gravity", standard_gravity)].
