(** Model of the integer part of [src/core/include/units/bits/pow.h]. *)

From Coq Require Import ZArith.
From Verif Require Import Outcome CInt.
Local Open Scope Z_scope.
Local Open Scope res_scope.

(** The loop of [ipow10], pow.h:34-38: [n] iterations of [result *= 10]. *)
Fixpoint ipow10_loop (n : nat) (result : Z) : res Z :=
  match n with
  | O => Ok result
  | S n' => r <- cmul I64 result 10; ipow10_loop n' r
  end.

(** [ipow10], pow.h:30-40. *)
Definition ipow10 (exp : Z) : res Z :=
  _ <- expects (0 <=? exp);
  ipow10_loop (Z.to_nat exp) 1.

(** [pow_impl<N>], pow.h:61-75, for N >= 1: the template recursion halves N,
    so it follows the binary digits of N. *)
Fixpoint pow_impl_pos {A : Type} (mul : A -> A -> res A) (n : positive) (v : A) : res A :=
  match n with
  | xH => Ok v
  | xO n' => vv <- mul v v; pow_impl_pos mul n' vv
  | xI n' => vv <- mul v v; p <- pow_impl_pos mul n' vv; mul v p
  end.

(** [pow_impl<N>], pow.h:61-75, complete.  [one] is [T(1)], [inv x] is [1 / x]. *)
Definition pow_impl {A : Type} (one : A) (inv : A -> res A) (mul : A -> A -> res A)
  (n : Z) (v : A) : res A :=
  match n with
  | Z0 => Ok one
  | Zpos p => pow_impl_pos mul p v
  | Zneg p => x <- pow_impl_pos mul p v; inv x
  end.
