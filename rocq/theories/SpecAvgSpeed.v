(** Specification for C106: quantities of [int] and [double], and the plain double computations. *)

From Coq Require Import ZArith SpecFloat.
From Verif Require Import CInt Rep Reference QuantityCast Quantity AvgSpeed SpecGlide.

Definition ints (x : reference) (z : Z) : quantity := Quantity (of_ref x (RInt I32)) (NInt z).
Definition doubles (x : reference) (d : spec_float) : quantity := Quantity (of_ref x (RFlt F64)) (NFlt d).

(** The range of [int]. *)
Definition an_int (z : Z) : Prop := (-2147483648 <= z <= 2147483647)%Z.

(** Metres over seconds, from kilometres and hours; kilometres per hour from metres per second. *)
Definition plain_mps (km h : spec_float) : spec_float := ((km * int 1000) / (h * int 3600))%D.
Definition plain_kmph (mps : spec_float) : spec_float := (mps * (int 36 / int 10))%D.
