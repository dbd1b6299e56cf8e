(** Model of [src/core/include/units/bits/common_quantity.h]. *)

From Coq Require Import ZArith String List Bool.
From Verif Require Import Outcome CInt Root Ratio Unit Dim DimOp Equivalent Rep QuantityCast.
Local Open Scope Z_scope.
Local Open Scope res_scope.

(** [base_units_ratio] as a member of the dimension; base dimensions have none. *)
Definition member_base_units_ratio (est : estimate) (d : dimension) : res ratio :=
  match d with DBase _ => IllFormed | _ => base_units_ratio est (exponents d) end.

Definition is_unknown (d : dimension) : bool := match d with DUnknown _ _ => true | _ => false end.

(** Dimension and unit of [common_quantity_impl], common_quantity.h:45-72, most
    specialised case first. *)
Definition common_dim_unit (est : estimate) (w : world) (d1 : dimension) (u1 : cunit) (d2 : dimension) (u2 : cunit)
  : res (dimension * cunit) :=
  if dimension_eq_dec d1 d2 then
    if cunit_eq_dec u1 u2 then Ok (d1, u1)
    else
      c <- common_ratio (u_ratio u1) (u_ratio u2);
      u <- downcast_unit w d1 c; Ok (d1, u)
  else if same_unit_reference (dimension_unit d1) (dimension_unit d2) then
    c <- common_ratio (u_ratio u1) (u_ratio u2);
    u <- downcast_unit w d1 c; Ok (d1, u)
  else
    let d := if is_unknown d1 then d2 else d1 in
    b1 <- member_base_units_ratio est d1;
    r1 <- rmul b1 (u_ratio u1);
    b2 <- member_base_units_ratio est d2;
    r2 <- rmul b2 (u_ratio u2);
    cr <- common_ratio r1 r2;
    b <- member_base_units_ratio est d;
    x <- rdiv cr b;
    u <- downcast_unit w d x;
    Ok (d, u).

(** [common_quantity<Q1, Q2, Rep>], common_quantity.h:76-77 ([QuantityEquivalentTo]). *)
Definition common_quantity (est : estimate) (w : world) (q1 q2 : qtype) (r : rep) : res qtype :=
  _ <- constrained (dim_equivalent (q_dim q2) (q_dim q1));
  du <- common_dim_unit est w (q_dim q1) (q_unit q1) (q_dim q2) (q_unit q2);
  mk_qtype (fst du) (snd du) r.
