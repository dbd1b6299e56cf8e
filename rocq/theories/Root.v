(** Model of [src/core/include/units/bits/root.h].

    The floating-point function called by [iroot_impl] is an argument:
    [est n v] is the value of
    [static_cast<std::intmax_t>(pow_function(static_cast<double>(v), 1.0 / n))].
    [iroot_compile] (root.h:65-70) and [iroot_runtime] (root.h:72-85) differ only
    in that argument.  [RootFloat.v] instantiates it with the IEEE square root. *)

From Coq Require Import ZArith.
From Verif Require Import Outcome CInt Pow.
Local Open Scope Z_scope.
Local Open Scope res_scope.

Definition estimate := positive -> Z -> res Z.

(** [pow_impl<N>] at [T = std::intmax_t] for N >= 1. *)
Definition ipow (n : positive) (v : Z) : res Z := pow_impl_pos (cmul I64) n v.

(** [iroot_impl<N>], root.h:34-59. *)
Definition iroot (est : estimate) (n : positive) (v : Z) : res Z :=
  if (n =? 1)%positive then Ok v
  else
    _ <- expects (0 <=? v);
    if v =? 0 then Ok 0
    else
      root <- est n v;
      root1 <- cadd I64 root 1;
      p1 <- ipow n root1;
      if v =? p1 then Ok root1
      else
        p <- ipow n root;
        if v <? p then csub I64 root 1 else Ok root.
