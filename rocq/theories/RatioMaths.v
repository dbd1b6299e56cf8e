(** Model of [src/core/include/units/bits/ratio_maths.h]. *)

From Coq Require Import ZArith Lia Bool.
From Verif Require Import Outcome CInt.
Local Open Scope Z_scope.
Local Open Scope res_scope.

(** [detail::abs], ratio_maths.h:37-41, at [T = std::intmax_t]. *)
Definition iabs (v : Z) : res Z := if v <? 0 then cneg I64 v else Ok v.

(** Unsigned 64-bit operations used by [mulmod]/[modpow]: they wrap. *)
Definition u64 (z : Z) : Z := z mod 2 ^ 64.

(** [mulmod], ratio_maths.h:49-78: one "add" step (lines 63-68). *)
Definition mulmod_acc (res b m : Z) : Z :=
  let res1 := if u64 (m - res) <=? b then u64 (res - m) else res in
  u64 (res1 + b).

(** [mulmod], ratio_maths.h:71-75: the doubling step. *)
Definition mulmod_dbl (b m : Z) : Z :=
  let temp_b := if u64 (m - b) <=? b then u64 (b - m) else b in
  u64 (b + temp_b).

(** [mulmod], the loop of ratio_maths.h:61-76.  The C++ loop shifts [a] right
    until it is zero, so it follows the binary digits of [a]. *)
Fixpoint mulmod_loop (a : positive) (b acc m : Z) : Z :=
  match a with
  | xH => mulmod_acc acc b m
  | xO a' => mulmod_loop a' (mulmod_dbl b m) acc m
  | xI a' => mulmod_loop a' (mulmod_dbl b m) (mulmod_acc acc b m) m
  end.

(** [mulmod], ratio_maths.h:49-78.  Arguments are [std::uint64_t] values. *)
Definition mulmod (a b m : Z) : res Z :=
  b' <- (if m <=? b then
           (if (2 ^ 64 - 1) / 2 <? m then Ok (u64 (b - m))
            else if m =? 0 then Undef else Ok (b mod m))
         else Ok b);
  match a with
  | Zpos p => Ok (mulmod_loop p b' 0 m)
  | _ => Ok 0
  end.

(** [modpow], the loop of ratio_maths.h:86-92. *)
Fixpoint modpow_loop (e : positive) (a result m : Z) : res Z :=
  match e with
  | xH => r <- mulmod result a m; _ <- mulmod a a m; Ok r
  | xO e' => a' <- mulmod a a m; modpow_loop e' a' result m
  | xI e' => r <- mulmod result a m; a' <- mulmod a a m; modpow_loop e' a' r m
  end.

(** [modpow], ratio_maths.h:81-94. *)
Definition modpow (a e m : Z) : res Z :=
  if m =? 0 then Undef
  else match e with
       | Zpos p => modpow_loop p (a mod m) 1 m
       | _ => Ok 1
       end.

(** [gcdpow], ratio_maths.h:97-113: gcd(a * 10^e, b).  The casts between
    [intmax_t] and [uint64_t] are written as [wrap]. *)
Definition gcdpow (a e b : Z) : res Z :=
  _ <- expects (0 <? a);
  _ <- expects (0 <=? e);
  _ <- expects (0 <? b);
  r <- crem I64 a b;
  p <- modpow 10 (wrap U64 e) (wrap U64 b);
  x <- mulmod (wrap U64 r) p (wrap U64 b);
  cgcd b (wrap I64 x).

(** [gcd_frac], ratio_maths.h:123-153, after the swap of lines 132-136
    ([cwap], 115-120, three times). *)
Definition gcd_frac_ordered (n1 d1 e1 n2 d2 e2 : Z) : res (Z * Z * Z) :=
  q1 <- cdiv I64 INTMAX_MAX n1;
  _ <- expects (d2 <? q1);
  q2 <- cdiv I64 INTMAX_MAX n2;
  _ <- expects (d1 <? q2);
  x <- cmul I64 n1 d2;
  e <- csub I64 e1 e2;
  y <- cmul I64 n2 d1;
  num <- gcdpow x e y;
  q3 <- cdiv I64 INTMAX_MAX d1;
  _ <- expects (d2 <? q3);
  den <- cmul I64 d1 d2;
  g <- cgcd num den;
  n <- cdiv I64 num g;
  d <- cdiv I64 den g;
  Ok (n, d, e2).

(** [gcd_frac], ratio_maths.h:123-153. *)
Definition gcd_frac (n1 d1 e1 n2 d2 e2 : Z) : res (Z * Z * Z) :=
  if (n1 =? n2) && (d1 =? d2) && (e1 =? e2) then Ok (n1, d1, e1)
  else if e1 <? e2 then gcd_frac_ordered n2 d2 e2 n1 d1 e1
  else gcd_frac_ordered n1 d1 e1 n2 d2 e2.

(** [normalize], ratio_maths.h:167-170: strips factors of ten from the
    numerator.  A non-zero [intmax_t] has fewer than 64 of them, so fuel 64 is
    enough (proved in RatioMathsProofs). *)
Fixpoint strip_num (fuel : nat) (num exp : Z) : res (Z * Z) :=
  match fuel with
  | O => Stuck
  | S f =>
      if Z.rem num 10 =? 0
      then e <- cadd I64 exp 1; strip_num f (Z.quot num 10) e
      else Ok (num, exp)
  end.

(** [normalize], ratio_maths.h:171-174: the same for the denominator. *)
Fixpoint strip_den (fuel : nat) (den exp : Z) : res (Z * Z) :=
  match fuel with
  | O => Stuck
  | S f =>
      if Z.rem den 10 =? 0
      then e <- csub I64 exp 1; strip_den f (Z.quot den 10) e
      else Ok (den, exp)
  end.

Definition strip_fuel : nat := 64.

(** [normalize], ratio_maths.h:155-175.  In/out parameters become the result. *)
Definition normalize (num den exp : Z) : res (Z * Z * Z) :=
  if num =? 0 then Ok (0, 1, 0)
  else
    g <- cgcd num den;
    n1 <- cmul I64 num (if den <? 0 then -1 else 1);
    n2 <- cdiv I64 n1 g;
    d1 <- iabs den;
    d2 <- cdiv I64 d1 g;
    ne <- strip_num strip_fuel n2 exp;
    de <- strip_den strip_fuel d2 (snd ne);
    Ok (fst ne, fst de, snd de).

(** [safe_multiply], ratio_maths.h:177-192. *)
Definition safe_multiply (lhs rhs : Z) : res Z :=
  let c := 2 ^ 32 in
  al <- iabs lhs;
  ar <- iabs rhs;
  let a0 := Z.rem al c in
  let a1 := Z.quot al c in
  let b0 := Z.rem ar c in
  let b1 := Z.quot ar c in
  _ <- expects ((a1 =? 0) || (b1 =? 0));
  p1 <- cmul I64 a0 b1;
  p2 <- cmul I64 b0 a1;
  s <- cadd I64 p1 p2;
  _ <- expects (s <? 2 ^ 31);
  p3 <- cmul I64 b0 a0;
  _ <- expects (p3 <=? INTMAX_MAX);
  h <- cmul I64 s c;
  k <- csub I64 INTMAX_MAX p3;
  _ <- expects (h <=? k);
  cmul I64 lhs rhs.
