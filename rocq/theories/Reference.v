(** Model of [src/core/include/units/reference.h]. *)

From Coq Require Import ZArith String List Bool.
From Verif Require Import Outcome CInt Ratio Unit Dim DimOp.
Local Open Scope Z_scope.
Local Open Scope res_scope.

(** [reference<D, U>], reference.h:95-98. *)
Record reference := Reference { ref_dim : dimension; ref_unit : cunit }.
Definition mk_reference (d : dimension) (u : cunit) : res reference :=
  _ <- constrained (unit_of u d); Ok (Reference d u).

(** [U::ratio / dimension_unit<D>::ratio], reference.h:41-46. *)
Definition relative_ratio (d : dimension) (u : cunit) : res ratio :=
  rdiv (u_ratio u) (u_ratio (dimension_unit d)).

(** [reference_multiply], reference.h:39-41 and 50-53. *)
Definition reference_multiply (w : world) (r1 r2 : reference) : res reference :=
  d <- dimension_multiply w (ref_dim r1) (ref_dim r2);
  a <- relative_ratio (ref_dim r1) (ref_unit r1);
  b <- relative_ratio (ref_dim r2) (ref_unit r2);
  x <- rmul a b;
  y <- rmul x (u_ratio (dimension_unit d));
  u <- downcast_unit w d y;
  mk_reference d u.

(** [reference_divide], reference.h:43-46 and 55-58. *)
Definition reference_divide (w : world) (r1 r2 : reference) : res reference :=
  d <- dimension_divide w (ref_dim r1) (ref_dim r2);
  a <- relative_ratio (ref_dim r1) (ref_unit r1);
  b <- relative_ratio (ref_dim r2) (ref_unit r2);
  x <- rdiv a b;
  y <- rmul x (u_ratio (dimension_unit d));
  u <- downcast_unit w d y;
  mk_reference d u.
