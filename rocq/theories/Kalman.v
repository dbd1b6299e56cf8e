(** Model of the functions of [example/kalman_filter/kalman.h] and of the loops of the
    programs [kalman_filter-example_1.cpp] and [kalman_filter-example_5.cpp] to
    [kalman_filter-example_8.cpp].

    Simplifications: a state is the tuple of its variables; of the constraints those of
    [isq::Time] and of [are_derivatives] (kalman.h:39-48) are left out, the one of [Dimensionless]
    asks for the dimension; formatters are not modelled. *)

From Coq Require Import ZArith String List Bool SpecFloat.
From Verif Require Import Outcome CInt Root Ratio Unit Dim DimOp Equivalent Rep Reference QuantityCast CommonQuantity Quantity Point Math.
Import ListNotations.
Local Open Scope Z_scope.
Local Open Scope res_scope.

(** [dimensionless<one>], generic/dimensionless.h:47-48, with its default representation. *)
Definition dimensionless_one : qtype := QType dim_one unit_one (RFlt F64).
(** [Dimensionless<K>], generic/dimensionless.h:44-45. *)
Definition is_dimensionless (q : quantity) : res unit := constrained (dim_equivalent (q_dim (q_type q)) dim_one).

(** [kalman_gain], kalman.h:85-90. *)
Definition kalman_gain (est : estimate) (w : world) (estimate_uncertainty measurement_uncertainty : quantity) : res quantity :=
  s <- q_add est w estimate_uncertainty measurement_uncertainty;
  g <- q_over w estimate_uncertainty s;
  q_to est dimensionless_one g.

(** [gain * (measured - predicted)], the innovation in kalman.h:97, 104-105, 113-115. *)
Definition innovation (est : estimate) (w : world) (predicted measured gain : quantity) : res quantity :=
  _ <- constrained (dim_equivalent (q_dim (q_type predicted)) (q_dim (q_type measured)));
  _ <- is_dimensionless gain;
  d <- q_sub est w measured predicted;
  q_times w gain d.

(** [state_update] of one variable, kalman.h:92-98: the result is converted to the variable. *)
Definition state_update (est : estimate) (w : world) (predicted measured gain : quantity) : res quantity :=
  i <- innovation est w predicted measured gain;
  s <- q_add est w predicted i;
  q_to est (q_type predicted) s.
(** The same for a variable that is a point. *)
Definition state_update_point (rb : rebinding) (est : estimate) (w : world) (predicted measured : point) (gain : quantity) : res point :=
  _ <- constrained (dim_equivalent (o_dim (p_origin (pt_type predicted))) (o_dim (p_origin (pt_type measured))));
  _ <- is_dimensionless gain;
  d <- p_diff rb est w measured predicted;
  i <- q_times w gain d;
  s <- p_add rb est w predicted i;
  p_to rb est (pt_type predicted) s.

(** [state_update] of two variables, kalman.h:100-107. *)
Definition state_update_2 (est : estimate) (w : world) (x v measured g0 g1 interval : quantity) : res (quantity * quantity) :=
  q1 <- (i <- innovation est w x measured g0; q_add est w x i);
  q2 <- (i <- innovation est w x measured g1; r <- q_over w i interval; q_add est w v r);
  q1 <- q_to est (q_type x) q1;
  q2 <- q_to est (q_type v) q2;
  Ok (q1, q2).
(** [state_update] of three variables, kalman.h:109-117. *)
Definition state_update_3 (est : estimate) (w : world) (x v a measured g0 g1 g2 interval : quantity) : res (quantity * quantity * quantity) :=
  q1 <- (i <- innovation est w x measured g0; q_add est w x i);
  q2 <- (i <- innovation est w x measured g1; r <- q_over w i interval; q_add est w v r);
  q3 <- (i <- innovation est w x measured g2;
         s <- q_times w interval interval; h <- q_div_value s (RInt I32) (NInt 2);
         r <- q_over w i h; q_add est w a r);
  q1 <- q_to est (q_type x) q1;
  q2 <- q_to est (q_type v) q2;
  q3 <- q_to est (q_type a) q3;
  Ok (q1, q2, q3).

(** [covariance_update], kalman.h:119-124. *)
Definition covariance_update (est : estimate) (w : world) (uncertainty gain : quantity) : res quantity :=
  _ <- is_dimensionless gain;
  k <- q_addsub_value OpSub true gain (RInt I32) (NInt 1);
  u <- q_times w k uncertainty;
  q_to est (q_type uncertainty) u.

(** [state_extrapolation] of two variables, kalman.h:126-133. *)
Definition state_extrapolation_2 (est : estimate) (w : world) (x v interval : quantity) : res (quantity * quantity) :=
  r <- q_times w v interval;
  q1 <- q_add est w x r;
  q1 <- q_to est (q_type x) q1;
  Ok (q1, v).
(** [state_extrapolation] of three variables, kalman.h:135-142. *)
Definition state_extrapolation_3 (est : estimate) (w : world) (l : libm) (x v a interval : quantity) : res (quantity * quantity * quantity) :=
  q1 <- (r <- q_times w v interval;
         s <- q_add est w x r;
         p <- q_pow est w l 2 1 interval;
         match p with
         | inr p =>
             y <- q_times w a p;
             y <- q_div_value y (RInt I32) (NInt 2);
             q_add est w s y
         | inl _ => IllFormed
         end);
  q2 <- (r <- q_times w a interval; q_add est w v r);
  q1 <- q_to est (q_type x) q1;
  q2 <- q_to est (q_type v) q2;
  Ok (q1, q2, a).

(** [covariance_extrapolation], kalman.h:144-149. *)
Definition covariance_extrapolation (est : estimate) (w : world) (uncertainty process_noise_variance : quantity) : res quantity :=
  s <- q_add est w uncertainty process_noise_variance;
  q_to est (q_type uncertainty) s.

(** One turn of the loop of the example programs: the gain, the current and the next estimation
    (kalman_filter-example_5.cpp:65-71; the function [predict] of example 5 is the identity
    (:61), the one of examples 6 to 8 adds the process noise (kalman_filter-example_6.cpp:93-95)). *)
Record turn (S : Type) := Turn { t_gain : quantity; t_state : S; t_uncertainty : quantity; t_next : quantity }.
Arguments Turn {S}. Arguments t_gain {S}. Arguments t_state {S}. Arguments t_uncertainty {S}. Arguments t_next {S}.

Definition predict (est : estimate) (w : world) (noise : option quantity) (u : quantity) : res quantity :=
  match noise with None => Ok u | Some n => covariance_extrapolation est w u n end.

Definition turn_with {S M : Type} (update : S -> M -> quantity -> res S) (est : estimate) (w : world) (noise : option quantity)
  (measurement_uncertainty : quantity) (x : S) (u : quantity) (m : M) : res (turn S) :=
  g <- kalman_gain est w u measurement_uncertainty;
  x' <- update x m g;
  u' <- covariance_update est w u g;
  u'' <- predict est w noise u';
  Ok (Turn g x' u' u'').

(** The loop, on the uncertainty that [predict] made of the initial one. *)
Fixpoint loop {S M : Type} (update : S -> M -> quantity -> res S) (est : estimate) (w : world) (noise : option quantity)
  (measurement_uncertainty : quantity) (x : S) (u : quantity) (ms : list M) : res (list (turn S)) :=
  match ms with
  | [] => Ok []
  | m :: ms =>
      t <- turn_with update est w noise measurement_uncertainty x u m;
      ts <- loop update est w noise measurement_uncertainty (t_state t) (t_next t) ms;
      Ok (t :: ts)
  end.

(** The filters of quantities (example 5) and of points (examples 6 to 8). *)
Definition filter {S M : Type} (update : S -> M -> quantity -> res S) (est : estimate) (w : world) (noise : option quantity)
  (measurement_uncertainty : quantity) (x : S) (u : quantity) (ms : list M) : res (list (turn S)) :=
  u <- predict est w noise u; loop update est w noise measurement_uncertainty x u ms.
Definition quantity_filter (est : estimate) (w : world) := filter (state_update est w) est w.
Definition point_filter (rb : rebinding) (est : estimate) (w : world) := filter (state_update_point rb est w) est w.

(** The loop of kalman_filter-example_1.cpp:55-62, which weighs the measurement number [index] by
    [1. / index], a value that becomes a [dimensionless<one>]; the states, latest last. *)
Definition average_gain (index : Z) : res quantity :=
  v <- n_op OpDiv (RFlt F64) (RInt I32) (NFlt (float_of_int F64 1)) (NInt index);
  q_make dimensionless_one (RFlt F64) v.
Fixpoint average_loop (est : estimate) (w : world) (index : Z) (x : quantity) (ms : list quantity) : res (list quantity) :=
  match ms with
  | [] => Ok []
  | m :: ms =>
      g <- average_gain index;
      x' <- state_update est w x m g;
      index' <- cadd I32 index 1;
      xs <- average_loop est w index' x' ms;
      Ok (x' :: xs)
  end.
Definition averages (est : estimate) (w : world) (initial : quantity) (ms : list quantity) := average_loop est w 1 initial ms.
