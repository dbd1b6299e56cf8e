(** Specification side of sums and comparisons of floating-point quantities in different
    units: whole factors that a format holds exactly, and the nearest number. *)

From Coq Require Import ZArith QArith Qreals Reals Bool SpecFloat.
From Flocq Require Import Core.
From Verif Require Import Outcome CInt Root Ratio SpecRatio Unit Dim DimOp Equivalent Rep QuantityCast Quantity SpecReal.
Local Open Scope R_scope.

(** The number of the format nearest to [r], ties to the even significand (IEEE 754). *)
Definition nearest (f : fty) (r : R) : R := round radix2 (FLT_exp (3 - femax f - fprec f) (fprec f)) ZnearestE r.

(** The whole number [z] is a number of the format. *)
Definition holds (f : fty) (z : Z) : Prop :=
  exists j i, (0 <= i)%Z /\ z = (j * 2 ^ i)%Z /\ (Z.abs j <= 2 ^ fprec f)%Z /\ (Z.abs z < 2 ^ femax f)%Z.

(** The factor from one type to the other is a whole number, and it and the numbers it is
    computed from are numbers of the format. *)
Definition whole_factor (est : estimate) (f : fty) (from to : qtype) : Prop :=
  from = to \/
  exists c k, cast_ratio est (q_dim from) (q_unit from) (q_dim to) (q_unit to) = Ok c /\
    (rnum c * 10 ^ rexp c = k * rden c)%Z /\ (0 <= rexp c)%Z /\ (5 ^ rexp c <= 2 ^ fprec f)%Z /\
    holds f (rnum c) /\ holds f (rden c) /\ holds f (rnum c * 10 ^ rexp c) /\ holds f k.

(** A value of the representation that the format holds exactly. *)
Definition exact_value (f : fty) (r : rep) (n : number) : Prop :=
  is_value r n /\ match r, n with RInt _, NInt z => holds f z | _, _ => True end.

(** Far enough from the largest number of the format. *)
Definition no_infinity (f : fty) (r : R) : Prop := Rabs r <= bpow radix2 (femax f - 1).

(** The roundings of a conversion: none between identical types. *)
Definition conversion_roundings (est : estimate) (from to : qtype) (k : nat) : Prop :=
  (from = to /\ k = 0%nat) \/
  (from <> to /\ exists c, cast_ratio est (q_dim from) (q_unit from) (q_dim to) (q_unit to) = Ok c /\ k = roundings (q_rep from) c).
(** What such a conversion asks of the factor and of the value in the new unit. *)
Definition conversion_in_range (est : estimate) (f : fty) (from to : qtype) (r : R) : Prop :=
  mid_range f r /\
  (from = to \/ exists c, cast_ratio est (q_dim from) (q_unit from) (q_dim to) (q_unit to) = Ok c /\ factor_in_range f c).
