(** Model of [src/core/include/units/chrono.h] and of the constructors from quantity-like
    and quantity-point-like types (quantity.h, quantity_point.h). *)

From Coq Require Import ZArith String List Bool.
From Verif Require Import Outcome CInt Root Ratio FixedString Unit Dim DimOp Equivalent Rep QuantityCast Quantity Point.
Import ListNotations.
Local Open Scope string_scope.
Local Open Scope Z_scope.
Local Open Scope res_scope.

(** [std::chrono::duration<Rep, Period>]: the members [Period::num] and [Period::den] of the
    [std::ratio], the representation, and [count()]. *)
Record dtype := DType { per_num : Z; per_den : Z; dur_rep : rep }.
Record duration := Duration { dur_type : dtype; dur_count : number }.
(** [std::chrono::time_point<Clock, Duration>]; [time_since_epoch()]. *)
Record time_point := TimePoint { tp_clock : string; tp_since_epoch : duration }.

(** [second] and [isq::si::dim_time], src/systems/isq/si/include/units/isq/si/time.h and
    isq/include/units/isq/dimensions/time.h, as in the catalogue. *)
Definition si_second : cunit := CUnit (Some "si::second") [] (Ratio 1 1 0) "si::second" true (Some (st_of_ascii "s")) "si::prefix".
Definition si_dim_time : bdim := BDim "si::dim_time" "T" si_second.

(** [quantity_like_traits<duration>], chrono.h:34-40, as a quantity type ([quantity_like_type],
    quantity.h:97-98). *)
Definition like_unit (w : world) (p : dtype) : res cunit :=
  r <- mk_ratio (per_num p) (per_den p) 0;
  downcast_unit w (DBase si_dim_time) r.
Definition like_type (w : world) (p : dtype) : res qtype :=
  u <- like_unit w p;
  mk_qtype (DBase si_dim_time) u (dur_rep p).

(** [quantity(d)] with the template arguments deduced, quantity.h:395-396. *)
Definition q_of_duration (w : world) (d : duration) : res quantity :=
  t <- like_type w (dur_type d);
  q_make t (dur_rep (dur_type d)) (dur_count d).
(** The constructor of another type [t], quantity.h:158-160. *)
Definition q_from_duration (est : estimate) (w : world) (t : qtype) (d : duration) : res quantity :=
  l <- like_type w (dur_type d);
  b <- safe_castable_to est l t;
  _ <- constrained b;
  q <- q_make l (dur_rep (dur_type d)) (dur_count d);
  q_to est t q.

(** [clock_origin<C>], chrono.h:42-43: one origin per clock. *)
Definition clock_origin (c : string) : origin := OUser ("clock_origin<" ++ c ++ ">") (DBase si_dim_time).

(** [quantity_point(tp)] with the template arguments deduced, quantity_point.h:213-216, and the
    constructor of another type, quantity_point.h:85-89, with the traits of chrono.h:45-54. *)
Definition p_of_time_point (est : estimate) (w : world) (p : time_point) : res point :=
  u <- like_unit w (dur_type (tp_since_epoch p));
  t <- mk_ptype (clock_origin (tp_clock p)) u (dur_rep (dur_type (tp_since_epoch p)));
  q <- q_from_duration est w (p_qtype t) (tp_since_epoch p);
  Ok (Point t (q_num q)).
Definition p_from_time_point (rb : rebinding) (est : estimate) (w : world) (t : ptype) (p : time_point) : res point :=
  _ <- constrained (origin_equivalent rb (p_origin t) (clock_origin (tp_clock p)));
  q <- q_from_duration est w (p_qtype t) (tp_since_epoch p);
  Ok (Point t (q_num q)).
