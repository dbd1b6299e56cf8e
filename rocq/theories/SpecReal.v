(** Specification side of the floating-point theorems: the real number a floating value
    stands for, and what it means to be close to a real number. *)

From Coq Require Import ZArith Reals QArith Qreals Bool SpecFloat.
From Flocq Require Import Core BinarySingleNaN.
From Verif Require Import Outcome CInt Ratio Rep.
Local Open Scope R_scope.

(** [x] is a number of the format (not an infinity or a NaN). *)
Definition is_number (f : fty) (x : spec_float) : Prop :=
  valid_binary (fprec f) (femax f) x = true /\ is_finite_SF x = true.
(** The real number it stands for. *)
Definition fval (x : spec_float) : R := SF2R radix2 x.
(** The same for the values of all the representation types. *)
Definition is_value (r : rep) (x : number) : Prop :=
  match r, x with
  | RInt t, NInt z => in_range t z = true
  | RFlt f, NFlt v => is_number f v
  | _, _ => False
  end.
Definition nval (x : number) : R := match x with NInt z => IZR z | NFlt v => fval v end.

(** The unit round-off: half the distance from one to the next number. *)
Definition roundoff (f : fty) : R := bpow radix2 (- fprec f).
(** The classical bound of the relative error of [k] roundings. *)
Definition gamma (f : fty) (k : nat) : R := INR k * roundoff f / (1 - INR k * roundoff f).
(** [y] is [r] up to [k] roundings. *)
Definition within (f : fty) (k : nat) (y r : R) : Prop := Rabs (y - r) <= gamma f k * Rabs r.

(** Away from the smallest and the largest numbers, or zero. *)
Definition mid_range (f : fty) (r : R) : Prop :=
  r = 0 \/ (bpow radix2 (3 - femax f) <= Rabs r <= bpow radix2 (femax f - 2)).

(** The factor and the intermediate results stay away from the ends of the range. *)
Definition factor_in_range (f : fty) (c : ratio) : Prop :=
  mid_range f (powerRZ 10 (rexp c)) /\ mid_range f (IZR (rnum c) * powerRZ 10 (rexp c)) /\
  mid_range f (IZR (rnum c) * powerRZ 10 (rexp c) / IZR (rden c)).
(** The roundings of a cast: one per factor of ten, and those of the numerator, of the
    denominator, of their products and quotient with the power and of the last product;
    one more for a whole number to begin with. *)
Definition roundings (from : rep) (c : ratio) : nat := (Z.abs_nat (rexp c) + if floating from then 5 else 6)%nat.
