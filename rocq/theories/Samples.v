(** Concrete types used in examples and witnesses: a few declarations of
    [src/systems/si] and [src/systems/si-cgs], evaluated. *)

From Coq Require Import ZArith String List.
From Verif Require Import Outcome Ratio FixedString Unit Dim DimOp.
Import ListNotations.
Local Open Scope string_scope.
Local Open Scope Z_scope.

Definition one_r : ratio := Ratio 1 1 0.
Definition mk_sample_unit (name sym : string) (r : ratio) (ref : string) : cunit :=
  CUnit (Some name) [] r ref true (Some (st_of_ascii sym)) "no_prefix".

(** si/include/units/isq/si/length.h, time.h, mass.h. *)
Definition metre := mk_sample_unit "metre" "m" one_r "metre".
Definition kilometre := mk_sample_unit "kilometre" "km" (Ratio 1 1 3) "metre".
Definition centimetre := mk_sample_unit "centimetre" "cm" (Ratio 1 1 (-2)) "metre".
Definition second := mk_sample_unit "second" "s" one_r "second".
Definition minute := mk_sample_unit "minute" "min" (Ratio 6 1 1) "second".
Definition hour := mk_sample_unit "hour" "h" (Ratio 36 1 2) "second".
Definition gram := mk_sample_unit "gram" "g" one_r "gram".
Definition kilogram := mk_sample_unit "kilogram" "kg" (Ratio 1 1 3) "gram".

Definition dim_L : bdim := BDim "dim_length" "L" metre.
Definition dim_T : bdim := BDim "dim_time" "T" second.
Definition dim_M : bdim := BDim "dim_mass" "M" kilogram.

(** si-cgs: [dim_length : isq::dim_length<centimetre>]. *)
Definition cgs_L : bdim := BDim "cgs_dim_length" "L" centimetre.
Definition cgs_M : bdim := BDim "cgs_dim_mass" "M" gram.

Definition si_base (b : bdim) : Prop := b = dim_L \/ b = dim_T \/ b = dim_M.

(** A declared derived dimension and its coherent unit. *)
Definition metre_per_second : cunit :=
  CUnit (Some "metre_per_second") [] one_r "metre_per_second" false None "no_prefix".
Definition speed_recipe : list (dimension * (Z * Z)) := [(DBase dim_L, (1, 1)); (DBase dim_T, (-1, 1))].
Definition dim_speed : dimension :=
  DDerived "dim_speed" [BExp dim_L 1 1; BExp dim_T (-1) 1] metre_per_second speed_recipe.
Definition square_metre : cunit :=
  CUnit (Some "square_metre") [] one_r "square_metre" false None "no_prefix".
Definition dim_area : dimension :=
  DDerived "dim_area" [BExp dim_L 2 1] square_metre [(DBase dim_L, (2, 1))].
