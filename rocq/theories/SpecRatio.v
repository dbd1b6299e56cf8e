(** Specification vocabulary for ratios: plain rational arithmetic.

    Nothing here mentions the algorithms of the model; only the three stored
    integers of a ratio are read. *)

From Coq Require Import ZArith QArith Qpower.
From Verif Require Import CInt Ratio.
Local Open Scope Z_scope.

(** The rational n/d * 10^e. *)
Definition frac (n d e : Z) : Q := (inject_Z n / inject_Z d * (10 # 1) ^ e)%Q.

(** The number a ratio denotes. *)
Definition rval (r : ratio) : Q := frac (rnum r) (rden r) (rexp r).

(** Lowest terms, as documented: positive denominator, coprime parts, no factor
    of ten left in either part, a single zero. *)
Definition lowest (r : ratio) : Prop :=
  0 < rden r /\ Z.gcd (rnum r) (rden r) = 1 /\ rden r mod 10 <> 0 /\
  (rnum r = 0 -> rexp r = 0) /\ (rnum r <> 0 -> rnum r mod 10 <> 0).

(** The stored integers are representable, and so are their opposites. *)
Definition storable (r : ratio) : Prop :=
  Z.abs (rnum r) <= INTMAX_MAX /\ Z.abs (rden r) <= INTMAX_MAX /\
  INTMAX_MIN <= rexp r <= INTMAX_MAX.

(** [q] is an integer. *)
Definition is_int (q : Q) : Prop := exists z : Z, (q == inject_Z z)%Q.

(** [q] is a whole multiple of [g]. *)
Definition multiple_of (q g : Q) : Prop := exists z : Z, (q == inject_Z z * g)%Q.

(** [x] is the integer part of the n-th root of [v]. *)
Definition floor_root (n : positive) (v x : Z) : Prop :=
  0 <= x /\ x ^ Zpos n <= v < (x + 1) ^ Zpos n.
