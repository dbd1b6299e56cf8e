(** Specification vocabulary for measurements: the central value and the uncertainty of an
    expression by the theory of errors, for quantities measured independently of each other. *)

From Coq Require Import ZArith QArith Qreals Reals String List SpecFloat.
From Flocq Require Import Core.
From Verif Require Import Outcome CInt Root Ratio SpecRatio Unit Dim DimOp Equivalent SpecDim SpecUnit Rep QuantityCast CommonQuantity Quantity SpecQuantity Point
  Expr SpecExpr SpecReal SpecOrder SpecRounding Custom Measure.
Local Open Scope R_scope.

(** The same expression of the central values only. *)
Fixpoint centre (e : mexpr) : qexpr :=
  match e with
  | MLit t x _ => ELit (Quantity t x)
  | MNeg a => ENeg (centre a)
  | MAdd a b => EAdd (centre a) (centre b)
  | MSub a b => ESub (centre a) (centre b)
  | MMul a b => EMul (centre a) (centre b)
  | MDiv a b => EDiv (centre a) (centre b)
  | MMulV a r v => EMulV (centre a) r v
  | MVMul r v a => EVMul r v (centre a)
  | MDivV a r v => EDivV (centre a) r v
  | MConv t a => EConv t (centre a)
  | MCast c a => ECast c (centre a)
  end.

(** All measurements are of the floating-point type [f]; numbers that scale them do not widen it. *)
Fixpoint over (f : fty) (e : mexpr) : Prop :=
  match e with
  | MLit t x _ => q_rep t = RFlt f /\ num_ok (RFlt f) x = true
  | MNeg a => over f a
  | MAdd a b | MSub a b | MMul a b | MDiv a b => over f a /\ over f b
  | MMulV a r v | MVMul r v a | MDivV a r v => arith_rep (RFlt f) r = RFlt f /\ num_ok r v = true /\ over f a
  | MConv t a => q_rep t = RFlt f /\ over f a
  | MCast c a => match c with ToQuantity t => q_rep t = RFlt f | ToRep r => r = RFlt f | _ => True end /\ over f a
  end.

(** The number is not negative, or not a number. *)
Definition unsigned (x : spec_float) : Prop :=
  match x with S754_zero s | S754_infinity s | S754_finite s _ _ => s = false | S754_nan => True end.

(** [std::hypot] is accurate to [h] roundings as long as the squares are in range. *)
Definition hypotenuse (x y : R) : R := sqrt (x * x + y * y).
Definition in_reach (f : fty) (r : R) : Prop := r = 0 \/ bpow radix2 (2 - femax f) <= Rabs r <= bpow radix2 (femax f - 1).
Definition hypot_accurate (f : fty) (h : nat) (hyp : fty -> number -> number -> res spec_float) : Prop :=
  forall x y, is_number f x -> is_number f y -> in_reach f (fval x * fval x) -> in_reach f (fval y * fval y) ->
    in_reach f (fval x * fval x + fval y * fval y) ->
    exists z, hyp f (NFlt x) (NFlt y) = Ok z /\ is_number f z /\
      exists t, fval z = hypotenuse (fval x) (fval y) * t /\ / (1 + roundoff f) ^ h <= t <= (1 + roundoff f) ^ h.

(** Two uncertainties whose squares and sum of squares stay away from the ends of the range. *)
Definition combinable (f : fty) (u v : R) : Prop :=
  mid_range f u /\ mid_range f v /\ mid_range f (u * u) /\ mid_range f (v * v) /\ mid_range f (u * u + v * v).

Section Spreads.
Variable est : estimate.
Variable w : world.
Variable f : fty.
Variable h : nat.

(** The operand [a] with the uncertainty [u] on its way to the type [to] of a sum, in units of
    the size [m]: unless it has this type, the uncertainty is computed from the relative one. *)
Definition moved (a : mexpr) (from to : qtype) (m : Q) (u : R) (l l' : nat) : Prop :=
  (from = to /\ l' = l) \/
  (exists r k j, computes est w f (centre a) r k /\ r <> 0 /\ conversion_costs est f from to j /\ mid_range f (u / r) /\ mid_range f (r / Q2R m) /\
     l' = ((k + j) + (k + l + 1) + 1)%nat).

(** [spreads e u l]: by the theory of errors the uncertainty of [e] is [u], and the library arrives
    there by [l] roundings.  Uncertainties of sums and differences are the roots of the sums of the
    squares; of products and quotients the relative uncertainties are; scaling and changes of units
    keep the relative uncertainty.  The measured values whose relative uncertainty is formed are
    not zero, and nothing comes near the ends of the range. *)
Inductive spreads : mexpr -> R -> nat -> Prop :=
| sp_lit : forall t x e m, is_number f e -> sized est t m -> spreads (MLit t x (NFlt e)) (Rabs (fval e) * Q2R m) 0
| sp_neg : forall a u l, spreads a u l -> spreads (MNeg a) u l
| sp_add : forall a b u v l l' la lb m, spreads a u l -> spreads b v l' ->
    (forall x y q, eval est w (centre a) = Ok x -> eval est w (centre b) = Ok y -> eval est w (centre (MAdd a b)) = Ok q ->
       moved a (q_type x) (q_type q) m u l la /\ moved b (q_type y) (q_type q) m v l' lb) ->
    in_units est w (centre (MAdd a b)) m -> combinable f (u / Q2R m) (v / Q2R m) ->
    spreads (MAdd a b) (hypotenuse u v) (Nat.max la lb + h)
| sp_sub : forall a b u v l l' la lb m, spreads a u l -> spreads b v l' ->
    (forall x y q, eval est w (centre a) = Ok x -> eval est w (centre b) = Ok y -> eval est w (centre (MSub a b)) = Ok q ->
       moved a (q_type x) (q_type q) m u l la /\ moved b (q_type y) (q_type q) m v l' lb) ->
    in_units est w (centre (MSub a b)) m -> combinable f (u / Q2R m) (v / Q2R m) ->
    spreads (MSub a b) (hypotenuse u v) (Nat.max la lb + h)
| sp_mul : forall a b r s u v k k' n l l' m, computes est w f (centre a) r k -> computes est w f (centre b) s k' ->
    computes est w f (centre (MMul a b)) (r * s) n -> spreads a u l -> spreads b v l' -> r <> 0 -> s <> 0 ->
    in_units est w (centre (MMul a b)) m -> combinable f (u / r) (v / s) -> mid_range f (r * s * hypotenuse (u / r) (v / s) / Q2R m) ->
    spreads (MMul a b) (Rabs (r * s) * hypotenuse (u / r) (v / s)) (n + (Nat.max (k + l + 1) (k' + l' + 1) + h) + 1)
| sp_div : forall a b r s u v k k' n l l' m, computes est w f (centre a) r k -> computes est w f (centre b) s k' ->
    computes est w f (centre (MDiv a b)) (r / s) n -> spreads a u l -> spreads b v l' -> r <> 0 -> s <> 0 ->
    in_units est w (centre (MDiv a b)) m -> combinable f (u / r) (v / s) -> mid_range f (r / s * hypotenuse (u / r) (v / s) / Q2R m) ->
    spreads (MDiv a b) (Rabs (r / s) * hypotenuse (u / r) (v / s)) (n + (Nat.max (k + l + 1) (k' + l' + 1) + h) + 1)
| sp_mulv : forall a p c r u k n l m, computes est w f (centre a) r k -> computes est w f (centre (MMulV a p c)) (r * nval c) n -> spreads a u l -> r <> 0 ->
    in_units est w (centre (MMulV a p c)) m -> mid_range f (u / r) -> mid_range f (nval c * u / Q2R m) ->
    spreads (MMulV a p c) (Rabs (nval c) * u) (n + (k + l + 1) + 1)
| sp_vmul : forall a p c r u k n l m, computes est w f (centre a) r k -> computes est w f (centre (MVMul p c a)) (nval c * r) n -> spreads a u l -> r <> 0 ->
    in_units est w (centre (MVMul p c a)) m -> mid_range f (u / r) -> mid_range f (nval c * u / Q2R m) ->
    spreads (MVMul p c a) (Rabs (nval c) * u) (n + (k + l + 1) + 1)
| sp_divv : forall a p c r u k n l m, computes est w f (centre a) r k -> computes est w f (centre (MDivV a p c)) (r / nval c) n -> spreads a u l -> r <> 0 ->
    nval c <> 0 -> in_units est w (centre (MDivV a p c)) m -> mid_range f (u / r) -> mid_range f (u / nval c / Q2R m) ->
    spreads (MDivV a p c) (u / Rabs (nval c)) (n + (k + l + 1) + 1)
| sp_conv : forall t a r u k n l m, computes est w f (centre a) r k -> computes est w f (centre (MConv t a)) r n -> spreads a u l -> r <> 0 ->
    sized est t m -> mid_range f (u / r) -> mid_range f (u / Q2R m) -> spreads (MConv t a) u (n + (k + l + 1) + 1)
| sp_cast : forall c a r u k n l m, computes est w f (centre a) r k -> computes est w f (centre (MCast c a)) r n -> spreads a u l -> r <> 0 ->
    in_units est w (centre (MCast c a)) m -> mid_range f (u / r) -> mid_range f (u / Q2R m) -> spreads (MCast c a) u (n + (k + l + 1) + 1).
End Spreads.

(** The uncertainty of the result is a number, not negative, and [u] up to [l] roundings. *)
Definition uncertain (est : estimate) (f : fty) (t : qtype) (v : number * number) (u : R) (l : nat) : Prop :=
  exists e m, snd v = NFlt e /\ is_number f e /\ 0 <= fval e /\ sized est t m /\ within f l (fval e * Q2R m) u.
