(** Model of [src/core/include/units/math.h]. *)

From Coq Require Import ZArith String List Bool SpecFloat.
From Verif Require Import Outcome CInt RatioMaths Root Ratio FixedString Unit Dim DimOp Equivalent Rep Reference
  QuantityCast CommonQuantity Quantity.
Import ListNotations.
Local Open Scope Z_scope.
Local Open Scope res_scope.

(** The functions of [<cmath>] whose accuracy the standard leaves open: [std::pow],
    [std::cbrt] and [std::exp] at each floating-point type. *)
Record libm := Libm {
  m_pow : fty -> spec_float -> spec_float -> spec_float;
  m_cbrt : fty -> spec_float -> spec_float;
  m_exp : fty -> spec_float -> spec_float }.

(** The overload of a [<cmath>] function of one argument: the type of a floating-point
    argument, [double] for an integer. *)
Definition cmath_fty (r : rep) : fty := match r with RInt _ => F64 | RFlt f => f end.
(** [std::pow(x, y)] with [y] of type [double]: the wider of the two types. *)
Definition pow_fty (r : rep) : fty := match r with RFlt F80 => F80 | _ => F64 end.

(** A floating-point argument. *)
Definition to_float (f : fty) (n : number) : spec_float :=
  match n with NInt z => float_of_int f z | NFlt v => float_conv f v end.

(** [quantity<dim, unit, rep>(static_cast<rep>(x))], as in math.h:60-61, 80, 98. *)
Definition math_result (w : world) (d : dimension) (c : ratio) (r : rep) (x : spec_float) : res quantity :=
  u <- downcast_unit w d c;
  t <- mk_qtype d u r;
  v <- n_convert r (NFlt x);
  q_make t r v.

(** [pow<Num, Den>(q)], math.h:50-63: a plain value for the exponent 0. *)
Definition q_pow (est : estimate) (w : world) (l : libm) (Num Den : Z) (q : quantity) : res (number + quantity) :=
  let t := q_type q in
  let f := pow_fty (q_rep t) in
  _ <- constrained (negb (Den =? 0));
  if Num =? 0 then Ok (inl (rep_one (q_rep t)))
  else
    d <- dimension_pow w (q_dim t) Num Den;
    c <- rpow est Num Den (u_ratio (q_unit t));
    let y := SFdiv (fprec F64) (femax F64) (float_of_int F64 Num) (float_of_int F64 Den) in
    s <- math_result w d c (q_rep t) (m_pow l f (to_float f (q_num q)) (float_conv f y));
    Ok (inr s).

(** [sqrt(q)], math.h:73-81; [std::sqrt] is correctly rounded (IEEE 754). *)
Definition q_sqrt (est : estimate) (w : world) (q : quantity) : res quantity :=
  let t := q_type q in
  let f := cmath_fty (q_rep t) in
  d <- dimension_pow w (q_dim t) 1 2;
  c <- rsqrt est (u_ratio (q_unit t));
  math_result w d c (q_rep t) (SFsqrt (fprec f) (femax f) (to_float f (q_num q))).

(** [cbrt(q)], math.h:91-99. *)
Definition q_cbrt (est : estimate) (w : world) (l : libm) (q : quantity) : res quantity :=
  let t := q_type q in
  let f := cmath_fty (q_rep t) in
  d <- dimension_pow w (q_dim t) 1 3;
  c <- rcbrt est (u_ratio (q_unit t));
  math_result w d c (q_rep t) (m_cbrt l f (to_float f (q_num q))).

(** [exp(q)], math.h:109-113, for [dimensionless<U, Rep>] = [quantity<dim_one, U, Rep>]. *)
Definition q_exp (est : estimate) (l : libm) (q : quantity) : res quantity :=
  let t := q_type q in
  let f := cmath_fty (q_rep t) in
  _ <- constrained (if dimension_eq_dec (q_dim t) dim_one then true else false);
  p <- quantity_cast_unit est unit_one t (q_num q);
  t1 <- mk_qtype dim_one unit_one (q_rep t);
  y <- q_make t1 (RFlt f) (NFlt (m_exp l f (to_float f (snd p))));
  n <- quantity_cast est (q_type y) t (q_num y);
  Ok (Quantity t n).

(** [std::abs(x)] for [x] of type [r]: the overloads for [int], [long], [long long] and
    the floating-point types.  Narrower integers are promoted to [int]; [unsigned int] and
    [unsigned long] have no best overload, the requires-clause of math.h:123 fails.  The
    absolute value of the lowest number is not representable: undefined behaviour. *)
Definition std_abs (r : rep) (n : number) : res (rep * number) :=
  match r, n with
  | RInt t, NInt z =>
      let p := promote t in
      _ <- constrained (isigned p);
      a <- (if z <? 0 then cneg p z else Ok z);
      Ok (RInt p, NInt a)
  | RFlt f, NFlt x => Ok (RFlt f, NFlt (SFabs x))
  | _, _ => IllFormed
  end.
(** [abs(q)], math.h:121-126: the constructor converts the result of [std::abs] to [Rep]. *)
Definition q_abs (q : quantity) : res quantity :=
  p <- std_abs (q_rep (q_type q)) (q_num q);
  q_make (q_type q) (fst p) (snd p).

(** [std::numeric_limits<Rep>::epsilon()]. *)
Definition rep_epsilon (r : rep) : number :=
  match r with
  | RInt _ => NInt 0
  | RFlt f => NFlt (binary_normalize (fprec f) (femax f) 1 (1 - fprec f) false)
  end.
(** [epsilon<Q>()], math.h:136-141. *)
Definition q_epsilon (t : qtype) : res quantity := q_make t (q_rep t) (rep_epsilon (q_rep t)).
