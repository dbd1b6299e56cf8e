(** Model of [src/core/include/units/bits/equivalent.h], units and dimensions. *)

From Coq Require Import ZArith String List Bool.
From Verif Require Import Outcome Ratio FixedString Unit Dim DimOp.
Import ListNotations.
Local Open Scope Z_scope.

(** [std::is_base_of<A, B>] for units: every unit inherits from the [scaled_unit]
    with its ratio and reference; named units inherit from the units they alias. *)
Definition unit_base_of (a b : cunit) : bool :=
  match u_name a with
  | None => (if ratio_eq_dec (u_ratio a) (u_ratio b) then true else false)
            && String.eqb (u_ref a) (u_ref b)
  | Some n =>
      (if cunit_eq_dec a b then true else false) || existsb (String.eqb n) (u_bases b)
  end.

(** [equivalent_impl<U1, U2>] for units, equivalent.h:44-45 and 37-39. *)
Definition unit_equivalent (a b : cunit) : bool :=
  (if cunit_eq_dec a b then true else false) || (unit_base_of a b || unit_base_of b a).

(** Base dimensions, equivalent.h:50-53. *)
Definition base_equivalent (a b : bdim) : bool :=
  fs_eqb (bd_symbol a) (bd_symbol b) && same_unit_reference (bd_unit a) (bd_unit b).

(** Exponents, equivalent.h:55-61. *)
Definition exp_equivalent (a b : bexp) : bool :=
  (e_num a =? e_num b) && (e_den a =? e_den b) && base_equivalent (e_dim a) (e_dim b).

(** [equivalent_derived_dim], equivalent.h:63-71. *)
Fixpoint exps_equivalent (l1 l2 : list bexp) : bool :=
  match l1, l2 with
  | [], [] => true
  | a :: r1, b :: r2 => exp_equivalent a b && exps_equivalent r1 r2
  | _, _ => false
  end.

(** [equivalent_impl<D1, D2>], equivalent.h:32-39, 50-53, 73-77.  The two
    [is_base_of] disjuncts for derived dimensions hold only for types with the
    same [derived_dimension_base], for which the third disjunct holds too. *)
Definition dim_equivalent (d1 d2 : dimension) : bool :=
  match d1, d2 with
  | DBase a, DBase b => base_equivalent a b
  | DBase _, _ | _, DBase _ => false
  | _, _ => exps_equivalent (exponents d1) (exponents d2)
  end.

(** [equivalent_unit], equivalent.h:80-83. *)
Definition equivalent_unit (u1 : cunit) (d1 : dimension) (u2 : cunit) (d2 : dimension) : res bool :=
  (a <- rdiv (u_ratio u1) (u_ratio (dimension_unit d1));
   b <- rdiv (u_ratio u2) (u_ratio (dimension_unit d2));
   Ok (unit_equivalent u1 u2 || ratio_eqb a b))%res.
