(** Specification vocabulary for expressions of floating-point quantities in any units: the
    value in exact arithmetic and how many roundings away from it the result may be. *)

From Coq Require Import ZArith QArith Qreals Reals String List SpecFloat.
From Flocq Require Import Core.
From Verif Require Import Outcome CInt Root Ratio SpecRatio Unit Dim DimOp Equivalent SpecDim SpecUnit Rep QuantityCast CommonQuantity Quantity SpecQuantity Point
  Expr SpecExpr SpecReal SpecOrder.
Local Open Scope R_scope.

(** The result of the expression is a number of units of the size [m]. *)
Definition in_units (est : estimate) (w : world) (e : qexpr) (m : Q) : Prop :=
  forall q, eval est w e = Ok q -> sized est (q_type q) m.

(** The factor is a whole number, and it and the numbers it is computed from are numbers of the
    format. *)
Definition exact_factor (f : fty) (c : ratio) : Prop :=
  exists z, (rnum c * 10 ^ rexp c = z * rden c)%Z /\ (0 <= rexp c)%Z /\ (5 ^ rexp c <= 2 ^ fprec f)%Z /\
    holds f (rnum c) /\ holds f (rden c) /\ holds f (rnum c * 10 ^ rexp c) /\ holds f z.
(** What the factor between two units costs: nothing if it is exact; otherwise one rounding per
    factor of ten and four more. *)
Definition factor_costs (est : estimate) (f : fty) (from to : qtype) (k : nat) : Prop :=
  exists c, cast_ratio est (q_dim from) (q_unit from) (q_dim to) (q_unit to) = Ok c /\
    ((exact_factor f c /\ k = 0%nat) \/ (factor_in_range f c /\ k = (Z.abs_nat (rexp c) + 4)%nat)).
(** A number that is not of a floating type is rounded on its way into the format. *)
Definition entry_costs (r : rep) : nat := if floating r then 0 else 1.
(** A conversion multiplies by the factor, unless the types are the same. *)
Definition conversion_costs (est : estimate) (f : fty) (from to : qtype) (k : nat) : Prop :=
  (from = to /\ k = 0%nat) \/ (from <> to /\ exists j, factor_costs est f from to j /\ k = (entry_costs (q_rep from) + j + 1)%nat).
(** The conversions of the operands of a sum to their common type, which is that of the sum. *)
Definition sum_costs (est : estimate) (w : world) (f : fty) (a b s : qexpr) (ka kb : nat) : Prop :=
  forall x y q, eval est w a = Ok x -> eval est w b = Ok y -> eval est w s = Ok q ->
  conversion_costs est f (q_type x) (q_type q) ka /\ conversion_costs est f (q_type y) (q_type q) kb.
Definition cast_costs (est : estimate) (w : world) (f : fty) (a s : qexpr) (k : nat) : Prop :=
  forall x q, eval est w a = Ok x -> eval est w s = Ok q -> q_rep (q_type q) = RFlt f /\ factor_costs est f (q_type x) (q_type q) k.

(** [computes e r k]: in exact arithmetic the expression has the value [r], and the library
    arrives there by [k] roundings.  Every product, quotient and sum adds one, and every factor
    of a conversion its costs; errors of the operands of a product add up, of those of a sum the
    greater counts.  The operands of a sum must not have opposite signs, those of a difference
    not the same, for otherwise the relative error has no bound.  The exact values, in the units
    in which the library has them, stay away from the ends of the range. *)
Inductive computes (est : estimate) (w : world) (f : fty) : qexpr -> R -> nat -> Prop :=
| cp_lit : forall q x m, q_rep (q_type q) = RFlt f -> q_num q = NFlt x -> is_number f x -> sized est (q_type q) m ->
    computes est w f (ELit q) (fval x * Q2R m) 0
| cp_entry : forall q t m mt k, is_value (q_rep (q_type q)) (q_num q) -> cast_rep (q_rep (q_type q)) (RFlt f) = RFlt f -> q_rep t = RFlt f ->
    sized est (q_type q) m -> sized est t mt -> conversion_costs est f (q_type q) t k ->
    mid_range f (nval (q_num q) * Q2R m / Q2R mt) -> computes est w f (EConv t (ELit q)) (nval (q_num q) * Q2R m) k
| cp_pos : forall a r k, computes est w f a r k -> computes est w f (EPos a) r k
| cp_neg : forall a r k, computes est w f a r k -> computes est w f (ENeg a) (- r) k
| cp_add : forall a b r s k l ka kb m, computes est w f a r k -> computes est w f b s l -> 0 <= r * s ->
    sum_costs est w f a b (EAdd a b) ka kb -> in_units est w (EAdd a b) m ->
    mid_range f (r / Q2R m) -> mid_range f (s / Q2R m) -> mid_range f ((r + s) / Q2R m) ->
    computes est w f (EAdd a b) (r + s) (Nat.max (k + ka) (l + kb) + 1)
| cp_sub : forall a b r s k l ka kb m, computes est w f a r k -> computes est w f b s l -> r * s <= 0 ->
    sum_costs est w f a b (ESub a b) ka kb -> in_units est w (ESub a b) m ->
    mid_range f (r / Q2R m) -> mid_range f (s / Q2R m) -> mid_range f ((r - s) / Q2R m) ->
    computes est w f (ESub a b) (r - s) (Nat.max (k + ka) (l + kb) + 1)
| cp_mul : forall a b r s k l m, computes est w f a r k -> computes est w f b s l ->
    in_units est w (EMul a b) m -> mid_range f (r * s / Q2R m) -> computes est w f (EMul a b) (r * s) (k + l + 1)
| cp_div : forall a b r s k l m, computes est w f a r k -> computes est w f b s l -> s <> 0 ->
    in_units est w (EDiv a b) m -> mid_range f (r / s / Q2R m) -> computes est w f (EDiv a b) (r / s) (k + l + 1)
| cp_mulv : forall a p v r k m, computes est w f a r k -> arith_rep (RFlt f) p = RFlt f -> is_value p v ->
    in_units est w (EMulV a p v) m -> mid_range f (r * nval v / Q2R m) ->
    computes est w f (EMulV a p v) (r * nval v) (k + entry_costs p + 1)
| cp_vmul : forall a p v r k m, computes est w f a r k -> arith_rep (RFlt f) p = RFlt f -> is_value p v ->
    in_units est w (EVMul p v a) m -> mid_range f (nval v * r / Q2R m) ->
    computes est w f (EVMul p v a) (nval v * r) (entry_costs p + k + 1)
| cp_divv : forall a p v r k m, computes est w f a r k -> arith_rep (RFlt f) p = RFlt f -> is_value p v -> nval v <> 0 ->
    in_units est w (EDivV a p v) m -> mid_range f (r / nval v / Q2R m) ->
    computes est w f (EDivV a p v) (r / nval v) (k + entry_costs p + 1)
| cp_vdiv : forall a p v r k m, computes est w f a r k -> arith_rep (RFlt f) p = RFlt f -> is_value p v -> r <> 0 ->
    inverse_coherent est w a -> in_units est w (EVDiv p v a) m -> mid_range f (nval v / r / Q2R m) ->
    computes est w f (EVDiv p v a) (nval v / r) (entry_costs p + k + 1)
| cp_conv : forall t a r k j mt, computes est w f a r k -> q_rep t = RFlt f -> sized est t mt ->
    (forall q, eval est w a = Ok q -> conversion_costs est f (q_type q) t j) -> mid_range f (r / Q2R mt) ->
    computes est w f (EConv t a) r (k + j)
| cp_cast : forall c a r k j m, computes est w f a r k -> cast_costs est w f a (ECast c a) j ->
    in_units est w (ECast c a) m -> mid_range f (r / Q2R m) -> computes est w f (ECast c a) r (k + j + 1).

(** The result is a number of the format, and its value [r] up to [k] roundings. *)
Definition accurate (est : estimate) (f : fty) (q : quantity) (r : R) (k : nat) : Prop :=
  exists x m, q_rep (q_type q) = RFlt f /\ q_num q = NFlt x /\ is_number f x /\ sized est (q_type q) m /\
    within f k (fval x * Q2R m) r.
