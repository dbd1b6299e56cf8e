(** Model of [example/conversion_factor.cpp]: the function [conversion_factor] and the
    computations of [main].

    Simplifications: the arguments of [conversion_factor] serve only for their types, so the types
    are the arguments here; [main] yields the numbers it passes to [fmt::format], and its literal
    [2.0] is an argument. *)

From Coq Require Import ZArith String List Bool SpecFloat.
From Verif Require Import Outcome CInt Root Ratio Unit Dim DimOp Equivalent Rep Reference QuantityCast CommonQuantity Quantity.
Local Open Scope res_scope.

(** [conversion_factor(Target, Source)], conversion_factor.cpp:30-40. *)
Definition conversion_factor (est : estimate) (target source : qtype) : res number :=
  _ <- constrained (dim_equivalent (q_dim source) (q_dim target));
  let r := common_rep (q_rep target) (q_rep source) in
  one <- q_make (with_rep source r) (RInt I32) (NInt 1);
  x <- q_to est (with_rep target r) one;
  Ok (q_num x).

(** [main], conversion_factor.cpp:50-61: the numbers of [lengthA] and [lengthB], the number of
    [lengthA / lengthB] and the factor. *)
Definition factor_main (est : estimate) (w : world) (metres millimetres : qtype) (a : number) : res (number * number * number * number) :=
  la <- q_make metres (RFlt F64) a;
  lb <- q_to est millimetres la;
  quotient <- q_over w la lb;
  k <- conversion_factor est (q_type lb) (q_type la);
  Ok (q_num la, q_num lb, q_num quotient, k).
