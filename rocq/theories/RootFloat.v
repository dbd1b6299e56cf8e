(** The floating-point estimate of [iroot_runtime] in [src/core/include/units/bits/root.h].

    For N = 2 it is [std::sqrt] on [double], correctly rounded (IEEE 754); for the other
    degrees ([std::cbrt], [std::pow]) the standard fixes no accuracy and the estimate stays
    an argument. *)

From Coq Require Import ZArith SpecFloat.
From Verif Require Import Outcome CInt Root Rep.
Local Open Scope Z_scope.
Local Open Scope res_scope.

(** [static_cast<std::intmax_t>(std::sqrt(static_cast<double>(v)))], root.h:47, 72-77. *)
Definition sqrt_estimate (v : Z) : res Z :=
  n <- n_convert (RInt I64) (NFlt (SFsqrt (fprec F64) (femax F64) (float_of_int F64 v)));
  match n with NInt z => Ok z | NFlt _ => Stuck end.

(** [iroot_runtime], root.h:70-84. *)
Definition runtime_estimate (other : estimate) : estimate :=
  fun n v => if (n =? 2)%positive then sqrt_estimate v else other n v.
