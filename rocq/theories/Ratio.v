(** Model of [src/core/include/units/ratio.h]. *)

From Coq Require Import ZArith Bool.
From Verif Require Import Outcome CInt RatioMaths Pow Root.
Local Open Scope Z_scope.
Local Open Scope res_scope.

(** [struct ratio], ratio.h:50-53.  The members are public in C++; the model
    covers ratios obtained through the constructor and the operations. *)
Record ratio := Ratio { rnum : Z; rden : Z; rexp : Z }.

(** Constructor, ratio.h:55-59. *)
Definition mk_ratio (n d e : Z) : res ratio :=
  _ <- expects (negb (d =? 0));
  nde <- normalize n d e;
  let '(n', d', e') := nde in Ok (Ratio n' d' e').

(** [operator==], ratio.h:61 (defaulted: memberwise). *)
Definition ratio_eqb (l r : ratio) : bool :=
  (rnum l =? rnum r) && (rden l =? rden r) && (rexp l =? rexp r).

(** [operator*], ratio.h:63-70.  The order of evaluation of the constructor
    arguments is unspecified in C++; the model evaluates left to right, which
    decides only which of two failures is reported. *)
Definition rmul (l r : ratio) : res ratio :=
  gcd1 <- cgcd (rnum l) (rden r);
  gcd2 <- cgcd (rnum r) (rden l);
  a <- cdiv I64 (rnum l) gcd1;
  b <- cdiv I64 (rnum r) gcd2;
  n <- safe_multiply a b;
  c <- cdiv I64 (rden l) gcd2;
  d <- cdiv I64 (rden r) gcd1;
  m <- safe_multiply c d;
  e <- cadd I64 (rexp l) (rexp r);
  mk_ratio n m e.

(** [inverse], ratio.h:78-81. *)
Definition rinv (r : ratio) : res ratio :=
  e <- cneg I64 (rexp r);
  mk_ratio (rden r) (rnum r) e.

(** [operator/], ratio.h:72-75. *)
Definition rdiv (l r : ratio) : res ratio :=
  i <- rinv r; rmul l i.

(** [is_integral], ratio.h:83-90. *)
Definition is_integral (r : ratio) : res bool :=
  if rexp r <? 0 then Ok false
  else g <- gcdpow (rnum r) (rexp r) (rden r); Ok (g =? rden r).

(** [detail::make_exp_align], ratio.h:94-109. *)
Definition make_exp_align (r : ratio) (alignment : Z) : res (Z * Z * Z) :=
  _ <- expects (0 <? alignment);
  rem <- crem I64 (rexp r) alignment;
  if rem =? 0 then Ok (rnum r, rden r, rexp r)
  else if 0 <? rexp r then
    p <- ipow10 rem;
    n <- cmul I64 (rnum r) p;
    e <- csub I64 (rexp r) rem;
    Ok (n, rden r, e)
  else
    m <- cneg I64 rem;
    p <- ipow10 m;
    d <- cmul I64 (rden r) p;
    e <- csub I64 (rexp r) rem;
    Ok (rnum r, d, e).

(** [detail::root<N>], ratio.h:111-125. *)
Definition rroot (est : estimate) (n : positive) (r : ratio) : res ratio :=
  if (n =? 1)%positive then Ok r
  else if rnum r =? 0 then mk_ratio 0 1 0
  else
    al <- make_exp_align r (Zpos n);
    let '(a0, a1, a2) := al in
    x <- iroot est n a0;
    y <- iroot est n a1;
    z <- cdiv I64 a2 (Zpos n);
    mk_ratio x y z.

(** [detail::pow_impl<N>] at [T = ratio] for N >= 1. *)
Definition rpow_pos (n : positive) (r : ratio) : res ratio := pow_impl_pos rmul n r.

(** [pow<Num, Den>], ratio.h:129-152.  [Den == 0] violates the constraint. *)
Definition rpow (est : estimate) (Num Den : Z) (r : ratio) : res ratio :=
  _ <- constrained (negb (Den =? 0));
  if Num =? 0 then mk_ratio 1 1 0
  else if Num =? Den then Ok r
  else
    g <- cgcd Num Den;
    n0 <- cdiv I64 Num g;
    n <- iabs n0;
    d0 <- cdiv I64 Den g;
    d <- iabs d0;
    match n, d with
    | Zpos np, Zpos dp =>
        x <- rpow_pos np r;
        result <- rroot est dp x;
        s <- cmul I64 Num Den;
        if s <? 0 then rinv result else Ok result
    | _, _ => Stuck   (* impossible: Num, Den are non-zero *)
    end.

(** [sqrt], [cbrt], ratio.h:154, 156. *)
Definition rsqrt (est : estimate) (r : ratio) : res ratio := rpow est 1 2 r.
Definition rcbrt (est : estimate) (r : ratio) : res ratio := rpow est 1 3 r.

(** [common_ratio], ratio.h:159-163. *)
Definition common_ratio (r1 r2 : ratio) : res ratio :=
  x <- gcd_frac (rnum r1) (rden r1) (rexp r1) (rnum r2) (rden r2) (rexp r2);
  let '(n, d, e) := x in mk_ratio n d e.
