(** Specification vocabulary for expressions of floating-point quantities in which terms may
    cancel: the value in exact arithmetic, the magnitude of what it is computed from, and how many
    roundings of that magnitude the result may be off. *)

From Coq Require Import ZArith QArith Qreals Reals String List SpecFloat.
From Flocq Require Import Core.
From Verif Require Import Outcome CInt Root Ratio SpecRatio Unit Dim DimOp Equivalent SpecDim SpecUnit Rep QuantityCast CommonQuantity Quantity SpecQuantity Point
  Expr SpecExpr SpecReal SpecOrder SpecRounding.
Local Open Scope R_scope.

(** [errs e r M k]: in exact arithmetic the expression has the value [r]; the same expression with
    every term counted positively has the magnitude [M]; and the library is at most [k] roundings
    of [M] away.  Terms without cancellation are those of [computes] and have the magnitude of
    their value; magnitudes add up in sums and in differences alike.  A divisor (or any other part)
    whose magnitude is at most [c] times its value costs [c] times as many roundings as before; in a
    denominator twice that.  Only magnitudes, not values, must stay away from the ends of the range,
    in the units in which the library has them. *)
Inductive errs (est : estimate) (w : world) (f : fty) : qexpr -> R -> R -> nat -> Prop :=
| er_computes : forall e r k, computes est w f e r k -> errs est w f e r (Rabs r) k
| er_settle : forall e r M k c, errs est w f e r M k -> (0 < c)%nat -> M <= INR c * Rabs r -> errs est w f e r (Rabs r) (k * c)
| er_pos : forall a r M k, errs est w f a r M k -> errs est w f (EPos a) r M k
| er_neg : forall a r M k, errs est w f a r M k -> errs est w f (ENeg a) (- r) M k
| er_add : forall a b r s M N k l ka kb m, errs est w f a r M k -> errs est w f b s N l ->
    sum_costs est w f a b (EAdd a b) ka kb -> in_units est w (EAdd a b) m ->
    mid_range f (M / Q2R m) -> mid_range f (N / Q2R m) -> mid_range f ((M + N) / Q2R m) ->
    errs est w f (EAdd a b) (r + s) (M + N) (Nat.max (k + ka) (l + kb) + 1)
| er_sub : forall a b r s M N k l ka kb m, errs est w f a r M k -> errs est w f b s N l ->
    sum_costs est w f a b (ESub a b) ka kb -> in_units est w (ESub a b) m ->
    mid_range f (M / Q2R m) -> mid_range f (N / Q2R m) -> mid_range f ((M + N) / Q2R m) ->
    errs est w f (ESub a b) (r - s) (M + N) (Nat.max (k + ka) (l + kb) + 1)
| er_mul : forall a b r s M N k l m, errs est w f a r M k -> errs est w f b s N l ->
    in_units est w (EMul a b) m -> mid_range f (M * N / Q2R m) -> errs est w f (EMul a b) (r * s) (M * N) (k + l + 1)
| er_div : forall a b r s M k l m, errs est w f a r M k -> computes est w f b s l -> s <> 0 ->
    in_units est w (EDiv a b) m -> mid_range f (M / Rabs s / Q2R m) -> errs est w f (EDiv a b) (r / s) (M / Rabs s) (k + l + 1)
| er_div_settled : forall a b r s M N k l c m, errs est w f a r M k -> errs est w f b s N l -> s <> 0 -> N <= INR c * Rabs s ->
    in_units est w (EDiv a b) m -> mid_range f (M / Rabs s / Q2R m) -> errs est w f (EDiv a b) (r / s) (M / Rabs s) (k + 2 * (l * c) + 1)
| er_mulv : forall a p v r M k m, errs est w f a r M k -> arith_rep (RFlt f) p = RFlt f -> is_value p v ->
    in_units est w (EMulV a p v) m -> mid_range f (M * Rabs (nval v) / Q2R m) ->
    errs est w f (EMulV a p v) (r * nval v) (M * Rabs (nval v)) (k + entry_costs p + 1)
| er_vmul : forall a p v r M k m, errs est w f a r M k -> arith_rep (RFlt f) p = RFlt f -> is_value p v ->
    in_units est w (EVMul p v a) m -> mid_range f (Rabs (nval v) * M / Q2R m) ->
    errs est w f (EVMul p v a) (nval v * r) (Rabs (nval v) * M) (entry_costs p + k + 1)
| er_divv : forall a p v r M k m, errs est w f a r M k -> arith_rep (RFlt f) p = RFlt f -> is_value p v -> nval v <> 0 ->
    in_units est w (EDivV a p v) m -> mid_range f (M / Rabs (nval v) / Q2R m) ->
    errs est w f (EDivV a p v) (r / nval v) (M / Rabs (nval v)) (k + entry_costs p + 1)
| er_conv : forall t a r M k j mt, errs est w f a r M k -> q_rep t = RFlt f -> sized est t mt ->
    (forall q, eval est w a = Ok q -> conversion_costs est f (q_type q) t j) -> mid_range f (M / Q2R mt) ->
    errs est w f (EConv t a) r M (k + j)
| er_cast : forall c a r M k j m, errs est w f a r M k -> cast_costs est w f a (ECast c a) j ->
    in_units est w (ECast c a) m -> mid_range f (M / Q2R m) -> errs est w f (ECast c a) r M (k + j + 1).

(** The result is a number of the format, and its value [r] up to [k] roundings of [M]. *)
Definition bounded (est : estimate) (f : fty) (q : quantity) (r M : R) (k : nat) : Prop :=
  exists x m, q_rep (q_type q) = RFlt f /\ q_num q = NFlt x /\ is_number f x /\ sized est (q_type q) m /\
    Rabs (fval x * Q2R m - r) <= gamma f k * M.
