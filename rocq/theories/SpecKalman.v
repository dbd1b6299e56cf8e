(** Specification side of the Kalman filters of the examples: when the compiler chooses types
    between which no number is rescaled, and what a measurement reads. *)

From Coq Require Import ZArith Reals String List Bool SpecFloat.
From Flocq Require Import Core.
From Verif Require Import Outcome CInt Root Ratio Unit Dim DimOp Equivalent Rep Reference QuantityCast CommonQuantity Quantity Kalman SpecReal.
Import ListNotations.
Local Open Scope res_scope.

Definition double : rep := RFlt F64.
Definition in_doubles (t : qtype) : Prop := q_rep t = double.

(** The units of the two types are equal as far as the compiler can tell: the conversion factor
    is the ratio 1/1 * 10^0. *)
Definition unscaled (est : estimate) (from to : qtype) : bool :=
  dim_equivalent (q_dim to) (q_dim from) &&
  match cast_ratio est (q_dim from) (q_unit from) (q_dim to) (q_unit to) with
  | Ok c => (rnum c =? 1)%Z && (rden c =? 1)%Z && (rexp c =? 0)%Z
  | _ => false
  end.

(** The types of sums, products and quotients of doubles; sums without rescaling. *)
Definition sum_type (est : estimate) (w : world) (a b : qtype) : res qtype :=
  c <- common_quantity est w a b double;
  _ <- constrained (unscaled est a c && unscaled est b c); Ok c.
Definition product_type (w : world) (a b : qtype) : res qtype :=
  r <- reference_multiply w (Reference (q_dim a) (q_unit a)) (Reference (q_dim b) (q_unit b));
  Ok (QType (ref_dim r) (ref_unit r) double).
Definition quotient_type (w : world) (a b : qtype) : res qtype :=
  r <- reference_divide w (Reference (q_dim a) (q_unit a)) (Reference (q_dim b) (q_unit b));
  Ok (QType (ref_dim r) (ref_unit r) double).
Definition converts_to (est : estimate) (a b : qtype) : res unit := constrained (unscaled est a b).

Definition pure_number : qtype := QType dim_one unit_one double.

(** [a / (a + b)] is a number of unit one. *)
Definition gain_fits (est : estimate) (w : world) (t : qtype) : Prop :=
  (s <- sum_type est w t t; g <- quotient_type w t s; converts_to est g pure_number) = Ok tt.
(** [x + k * (m - x)] is in the unit of [x]. *)
Definition update_fits (est : estimate) (w : world) (t : qtype) : Prop :=
  (d <- sum_type est w t t; p <- product_type w pure_number d; s <- sum_type est w t p; converts_to est s t) = Ok tt.
(** Likewise, and the sum has the dimension of [x]. *)
Definition point_fits (est : estimate) (w : world) (t : qtype) : Prop :=
  (d <- sum_type est w t t; p <- product_type w pure_number d; s <- sum_type est w t p; Ok (q_dim s)) = Ok (q_dim t).
(** [k * u] is in the unit of [u], and so is [u + u]. *)
Definition covariance_fits (est : estimate) (w : world) (t : qtype) : Prop :=
  (p <- product_type w pure_number t; converts_to est p t) = Ok tt /\
  (s <- sum_type est w t t; converts_to est s t) = Ok tt.
(** [x + v * i] is in the unit of [x]. *)
Definition motion_fits (est : estimate) (w : world) (tx tv ti : qtype) : Prop :=
  (p <- product_type w tv ti; s <- sum_type est w tx p; converts_to est s tx) = Ok tt.
(** [v + k * (m - x) / i] is in the unit of [v]. *)
Definition rate_fits (est : estimate) (w : world) (tx tv ti : qtype) : Prop :=
  (d <- sum_type est w tx tx; p <- product_type w pure_number d; r <- quotient_type w p ti; s <- sum_type est w tv r; converts_to est s tv) = Ok tt.

(** [a + k * (m - x) / (i * i / 2)] is in the unit of [a]. *)
Definition acceleration_fits (est : estimate) (w : world) (tx ta ti : qtype) : Prop :=
  exists th, product_type w ti ti = Ok th /\ rate_fits est w tx ta th.
(** The type of [pow<2>(i)]; [x + v * i + a * pow<2>(i) / 2] is in the unit of [x]. *)
Definition square_type (est : estimate) (w : world) (t : qtype) : res qtype :=
  d <- dimension_pow w (q_dim t) 2 1; c <- rpow est 2 1 (u_ratio (q_unit t)); u <- downcast_unit w d c; mk_qtype d u double.
Definition curve_fits (est : estimate) (w : world) (tx tv ta ti : qtype) : Prop :=
  (p <- product_type w tv ti; s <- sum_type est w tx p; q <- square_type est w ti; y <- product_type w ta q; z <- sum_type est w s y; converts_to est z tx) = Ok tt.

(** The measurement [q], in the unit of the type [t], reads [r]: a double, or an integer of any
    type up to 2^53. *)
Inductive reads (t : qtype) : quantity -> R -> Prop :=
| reads_double : forall x, is_number F64 x -> reads t (Quantity (with_rep t double) (NFlt x)) (fval x)
| reads_integer : forall i z, in_range i z = true -> (Z.abs z <= 2 ^ 53)%Z -> reads t (Quantity (with_rep t (RInt i)) (NInt z)) (IZR z).

(** A quantity of type [t] that holds the number [r]. *)
Definition is_held (t : qtype) (q : quantity) (r : R) : Prop :=
  exists x, q = Quantity t (NFlt x) /\ is_number F64 x /\ fval x = r.

(** The mean of a list of numbers. *)
Definition mean (l : list R) : R := (fold_right Rplus 0 l / INR (List.length l))%R.

(** * A run of a filter

    [ideal u v] is the gain for the uncertainties [u] of the estimate and [v] of the measurement.
    In a run every turn belongs to a measurement; its gain is between 0 and 1, at least or at most
    a half as the measurement is the more or the less certain one, and within 2^-52 of the ideal
    one; the state stays within [2^j] and is within three half units of [2^j] of
    [x + g (r - x)]; the uncertainty does not grow, stays within [2^k] and is within a half unit of
    [2^k] of [(1 - g) u]; the prediction adds the noise [n] (0 if there is none), also within
    [2^k]. *)
Section Run.
Local Open Scope R_scope.
Variables (t tu : qtype) (j k : Z) (v n : R).
Definition ideal (u v : R) : R := u / (u + v).
Inductive runs : R -> R -> list R -> list (turn quantity) -> Prop :=
| runs_end : forall x u, runs x u [] []
| runs_turn : forall x u r rs tr ts g x' u' u'',
    is_held pure_number (t_gain tr) g -> is_held t (t_state tr) x' -> is_held tu (t_uncertainty tr) u' -> is_held tu (t_next tr) u'' ->
    0 <= g <= 1 -> (v <= u -> 1 / 2 <= g) -> (u <= v -> g <= 1 / 2) -> Rabs (g - ideal u v) <= bpow radix2 (-52) ->
    Rabs x' <= bpow radix2 j -> Rabs (x' - (x + g * (r - x))) <= 3 * bpow radix2 (j - 53) ->
    0 <= u' <= u -> Rabs (u' - (1 - g) * u) <= bpow radix2 (k - 53) ->
    u' <= u'' <= bpow radix2 k -> Rabs (u'' - (u' + n)) <= bpow radix2 (k - 54) -> (n = 0 -> u'' = u') ->
    runs x' u'' rs ts -> runs x u (r :: rs) (tr :: ts).
End Run.
