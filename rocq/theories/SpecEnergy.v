(** Specification vocabulary for powers and roots of floating-point quantities: how accurate
    [std::pow] is, and what happens on the way to the total energy. *)

From Coq Require Import ZArith QArith Qreals Reals List SpecFloat.
From Flocq Require Import Core.
From Verif Require Import Outcome CInt Root Ratio SpecRatio Unit Dim DimOp Rep QuantityCast CommonQuantity Quantity SpecQuantity SpecReal SpecMeasure Math Energy.
Local Open Scope R_scope.

(** [std::pow] with the exponent [N], rounded back to the type of the argument, is within [h]
    roundings of the power wherever that is a number of the type. *)
Definition pow_accurate (l : libm) (f : fty) (N : Z) (h : nat) : Prop :=
  forall x y, is_number f x -> is_number (pow_fty (RFlt f)) y -> fval y = IZR N -> in_reach f (fval x ^ Z.to_nat N) ->
  let z := float_conv f (m_pow l (pow_fty (RFlt f)) (float_conv (pow_fty (RFlt f)) x) y) in
  is_number f z /\ exists t, fval z = fval x ^ Z.to_nat N * t /\ / (1 + roundoff f) ^ h <= t <= (1 + roundoff f) ^ h.

(** A number [x] of the floating type, in units of the size [m]. *)
Definition measures (est : estimate) (f : fty) (q : quantity) (x : spec_float) (m : Q) : Prop :=
  q_rep (q_type q) = RFlt f /\ q_num q = NFlt x /\ is_number f x /\ sized est (q_type q) m.

(** The exponents of a dimension of mechanics. *)
Definition slight (d : dimension) : Prop := Forall (fun e => (-4 <= e_num e <= 4)%Z) (exponents d).

(** The quantities the function computes on its way. *)
Definition energy_steps (est : estimate) (w : world) (l : libm) (p m c pc a c2 mc2 b s : quantity) : Prop :=
  q_times w p c = Ok pc /\ q_square est w l pc = Ok a /\ q_square est w l c = Ok c2 /\ q_times w m c2 = Ok mc2 /\
  q_square est w l mc2 = Ok b /\ q_add est w a b = Ok s.
