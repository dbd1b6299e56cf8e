(** The box of the example on plain doubles, in metres, kilograms and seconds, and the physics it
    is meant to compute.  Only the records of [Box] are used. *)

From Coq Require Import ZArith Reals List SpecFloat.
From Flocq Require Import Core.
From Verif Require Import Outcome Rep Root QuantityCast Quantity SpecReal Box SpecGlide.
Import ListNotations.
Local Open Scope R_scope.
Local Open Scope res_scope.

(** 9.80665 and 1.225 as doubles. *)
Definition g_double : spec_float := (int 980665 / int 100000)%D.
Definition air_double : spec_float := (int 1225 / int 1000)%D.

Definition plain_box (l w h : spec_float) : box := Box (l * w)%D h air_double.
Definition plain_weight (b : box) : spec_float := (density_ b * (base_ b * height_ b) * g_double)%D.
Definition plain_level (b : box) (m : spec_float) : spec_float := (height_ b * m * g_double / plain_weight b)%D.
Definition plain_spare (b : box) (m : spec_float) : spec_float := ((height_ b - plain_level b m) * base_ b)%D.
Definition plain_left (h level time : spec_float) : spec_float := ((h / level - int 1) * time)%D.
Definition milli : spec_float := (int 1 / int 1000)%D.

(** A box filled with contents: any number of densities are set, one after the other. *)
Fixpoint set_densities (e : benv) (b : box) (ds : list spec_float) : res box :=
  match ds with
  | [] => Ok b
  | d :: r => b <- set_contents_density e b d; set_densities e b r
  end.

(** The numbers of the report. *)
Definition number_of (q : quantity) : option spec_float := match q_num q with NFlt x => Some x | NInt _ => None end.

(** A size of daily life, from 10^-18 to 10^18. *)
Definition ordinary (x : spec_float) : Prop := is_number F64 x /\ bpow radix2 (-60) <= fval x <= bpow radix2 60.
