(** Specification side of the operators of dimensionless quantities with plain numbers. *)

From Coq Require Import ZArith Reals.
From Verif Require Import Outcome CInt Rep Dim DimOp QuantityCast Quantity SpecReal.
Local Open Scope R_scope.

(** The type [dimensionless<one, Rep>]. *)
Definition plain_type (t : qtype) : Prop := q_dim t = dim_one /\ q_unit t = unit_one.
(** No fraction is lost by the types alone: a floating-point target, or a whole source. *)
Definition kept_kind (from to : rep) : Prop := floating to = true \/ floating from = false.
(** The type can hold the number exactly. *)
Definition fits (r : rep) (v : number) : Prop := exists x, is_value r x /\ nval x = nval v.
(** A quantity and a number to compare it with. *)
Definition comparable (q : quantity) (r : rep) (v : number) : Prop :=
  plain_type (q_type q) /\ kept_kind r (q_rep (q_type q)) /\ is_value (q_rep (q_type q)) (q_num q) /\ is_value r v.
