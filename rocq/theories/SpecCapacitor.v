(** The capacitor of the example on plain doubles: the voltage in volts and the quantity printed.
    Nothing of the model of the example is used. *)

From Coq Require Import ZArith List String SpecFloat Reals.
From Flocq Require Import Core.
From Verif Require Import Root Rep SpecReal SpecGlide.
Import ListNotations.

(** The voltage after [t] milliseconds: [v] volts, [r] kiloohms, [c] microfarads. *)
Definition plain_voltage (exp : spec_float -> spec_float) (c v r : spec_float) (t : Z) : spec_float :=
  (v * exp (int (- t) / (r * c)))%D.

(** [x >= 1] for doubles. *)
Definition reaches_one (x : spec_float) : bool := match SFcompare x (int 1) with Some Gt | Some Eq => true | _ => false end.

(** The unit printed, as the number of steps of a thousand below the volt, and its name. *)
Definition in_step (v : spec_float) (k : Z) : spec_float := if (k =? 0)%Z then v else (v * int (1000 ^ k))%D.
Definition plain_step (v : spec_float) : Z :=
  if reaches_one v then 0
  else if reaches_one (in_step v 1) then 1
  else if reaches_one (in_step v 2) then 2
  else if reaches_one (in_step v 3) then 3
  else 4.
Definition step_name (k : Z) : option string :=
  nth_error ["si::volt"; "si::millivolt"; "si::microvolt"; "si::nanovolt"; "si::picovolt"]%string (Z.to_nat k).
Definition plain_shown (v : spec_float) : spec_float := in_step v (plain_step v).

(** The times from [t] on, [n] of them. *)
Fixpoint times_from (t : Z) (n : nat) : list Z := match n with O => [] | S n => t :: times_from (t + 1) n end.

(** [std::exp] on doubles between -128 and 0: [k] roundings off the exponential; and it does not
    grow when its argument falls. *)
Definition exp_rounds (e : spec_float -> spec_float) (k : nat) : Prop :=
  forall x, is_number F64 x -> (-128 <= fval x <= 0)%R ->
  is_number F64 (e x) /\ exists s, (fval (e x) = exp (fval x) * s /\ / (1 + roundoff F64) ^ k <= s <= (1 + roundoff F64) ^ k)%R.
Definition exp_monotone (e : spec_float -> spec_float) : Prop :=
  forall x y, is_number F64 x -> is_number F64 y -> (fval x <= fval y <= 0)%R ->
  is_number F64 (e x) /\ is_number F64 (e y) /\ (0 <= fval (e x) <= fval (e y))%R.

(** A size of daily life, from 10^-18 to 10^18. *)
Definition usual_size (x : spec_float) : Prop := is_number F64 x /\ (bpow radix2 (-60) <= fval x <= bpow radix2 60)%R.
