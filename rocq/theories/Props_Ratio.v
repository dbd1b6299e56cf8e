(** Property theorems about ratios: C01-C16. *)

From Coq Require Import ZArith QArith Qpower Bool Lia.
From Verif Require Import Outcome CInt RatioMaths Pow Root Ratio SpecRatio QTen RatioMathsProofs
  RatioProofs RatioProofs2 RatioPowProofs.
Local Open Scope Z_scope.

(** * C01: a ratio denotes the fraction it was built from *)

Theorem C01_denotes : forall n d e r, mk_ratio n d e = Ok r ->
  d <> 0 /\ (rval r == frac n d e)%Q /\ lowest r.
Proof. exact mk_ratio_sound. Qed.
Print Assumptions C01_denotes.

(** Nothing but a zero denominator is a contract violation; the loops terminate
    ([Stuck] never occurs). *)
Theorem C01_outcome : forall n d e,
  (d = 0 /\ mk_ratio n d e = Contract) \/
  (d <> 0 /\ ((exists r, mk_ratio n d e = Ok r) \/ mk_ratio n d e = Undef)).
Proof. exact mk_ratio_outcome. Qed.
Print Assumptions C01_outcome.

Theorem C01_total : forall n d e, d <> 0 -> Z.abs n <= INTMAX_MAX -> Z.abs d <= INTMAX_MAX ->
  INTMAX_MIN + 18 <= e <= INTMAX_MAX - 18 -> exists r, mk_ratio n d e = Ok r.
Proof. exact mk_ratio_total. Qed.
Print Assumptions C01_total.

Example C01_ex : mk_ratio (-36000) 250 (-2) = Ok (Ratio (-144) 1 (-2)).
Proof. vm_compute. reflexivity. Qed.
Example C01_ex_negative_denominator : mk_ratio 14 (-3) 5 = Ok (Ratio (-14) 3 5).
Proof. vm_compute. reflexivity. Qed.
(** The smallest [intmax_t] has no absolute value. *)
Example C01_ex_undef : mk_ratio INTMAX_MIN 3 0 = Undef.
Proof. vm_compute. reflexivity. Qed.

(** * C02: lowest terms *)

Theorem C02_lowest : forall est r, obtainable est r -> lowest r /\ storable r.
Proof. exact obtainable_good. Qed.
Print Assumptions C02_lowest.

Example C02_ex : forall est, exists r, obtainable est r /\ r = Ratio 7 3 1.
Proof.
  intros est. destruct (mk_ratio 14 3 0) as [a| | | |] eqn:A; vm_compute in A; try discriminate A.
  destruct (mk_ratio 5 1 0) as [b| | | |] eqn:B; vm_compute in B; try discriminate B.
  injection A as <-. injection B as <-. eexists. split; [|reflexivity].
  apply (ob_mul est (Ratio 14 3 0) (Ratio 5 1 0)); [| |vm_compute; reflexivity].
  - apply (ob_ctor est 14 3 0); [unfold INTMAX_MIN, INTMAX_MAX; lia|vm_compute; reflexivity].
  - apply (ob_ctor est 5 1 0); [unfold INTMAX_MIN, INTMAX_MAX; lia|vm_compute; reflexivity].
Qed.

(** * C03: equality *)

Theorem C03_equality : forall l r, lowest l -> lowest r ->
  (ratio_eqb l r = true <-> ((rval l == rval r)%Q /\ rexp l = rexp r)).
Proof. exact ratio_eqb_value. Qed.
Print Assumptions C03_equality.

(** The representation is not canonical: 2/5 and 4 * 10^-1. *)
Theorem C03_canonical_refuted : exists l r, mk_ratio 2 5 0 = Ok l /\ mk_ratio 4 1 (-1) = Ok r /\
  (rval l == rval r)%Q /\ ratio_eqb l r = false.
Proof. exists (Ratio 2 5 0), (Ratio 4 1 (-1)). vm_compute. auto. Qed.
Print Assumptions C03_canonical_refuted.

Example C03_ex : exists l r, mk_ratio 6 4 2 = Ok l /\ mk_ratio 15 1 1 = Ok r /\
  (rval l == rval r)%Q /\ ratio_eqb l r = false.
Proof. exists (Ratio 3 2 2), (Ratio 15 1 1). vm_compute. auto. Qed.

(** * C04: multiplication *)

Theorem C04_exact : forall l r p, lowest l -> lowest r -> rmul l r = Ok p ->
  (rval p == rval l * rval r)%Q /\ lowest p /\ storable p.
Proof. exact rmul_sound. Qed.
Print Assumptions C04_exact.

(** Accepted whenever the product of the fractional parts can be written with
    parts that fit at all, and the exponents add up. *)
Theorem C04_accepts : forall l r n m, lowest l -> lowest r -> storable l -> storable r ->
  Z.abs n <= INTMAX_MAX -> Z.abs m <= INTMAX_MAX -> m <> 0 ->
  rnum l * rnum r * m = n * (rden l * rden r) ->
  INTMAX_MIN + 18 <= rexp l + rexp r <= INTMAX_MAX - 18 ->
  exists p, rmul l r = Ok p.
Proof. exact rmul_complete. Qed.
Print Assumptions C04_accepts.

(** Cross reduction saves a product whose plain numerators would overflow. *)
Example C04_ex : rmul (Ratio 9000000000000000001 7 0) (Ratio 49 9000000000000000001 3) = Ok (Ratio 7 1 3).
Proof. vm_compute. reflexivity. Qed.
Example C04_ex_refused : rmul (Ratio 9000000000000000001 7 0) (Ratio 3 1 0) = Contract \/
  rmul (Ratio 9000000000000000001 7 0) (Ratio 3 1 0) = Undef.
Proof. vm_compute. auto. Qed.

(** * C05: inverse and division *)

Theorem C05_inverse : forall r i, lowest r -> rinv r = Ok i ->
  rnum r <> 0 /\ (rval i == / rval r)%Q /\ lowest i /\ storable i.
Proof. exact rinv_sound. Qed.
Print Assumptions C05_inverse.

Theorem C05_inverse_defined : forall n d e, lowest (Ratio n d e) -> storable (Ratio n d e) ->
  n <> 0 -> e <> INTMAX_MIN ->
  rinv (Ratio n d e) = Ok (Ratio (Z.sgn n * d) (Z.abs n) (- e)).
Proof. exact rinv_explicit. Qed.
Print Assumptions C05_inverse_defined.

Theorem C05_inverse_involutive : forall r i, lowest r -> storable r -> rinv r = Ok i -> rinv i = Ok r.
Proof. exact rinv_involutive. Qed.
Print Assumptions C05_inverse_involutive.

Theorem C05_division : forall l r p, lowest l -> lowest r -> rdiv l r = Ok p ->
  rnum r <> 0 /\ (rval p == rval l / rval r)%Q /\ lowest p /\ storable p.
Proof. exact rdiv_sound. Qed.
Print Assumptions C05_division.

Theorem C05_division_by_zero : forall l r, lowest r -> storable r -> rnum r = 0 -> rdiv l r = Contract.
Proof. exact rdiv_zero. Qed.
Print Assumptions C05_division_by_zero.

Theorem C05_self_quotient : forall r, lowest r -> storable r -> rnum r <> 0 -> rexp r <> INTMAX_MIN ->
  rdiv r r = Ok (Ratio 1 1 0).
Proof. exact rdiv_same. Qed.
Print Assumptions C05_self_quotient.

Example C05_ex : rdiv (Ratio (-3) 2 4) (Ratio 9 7 (-1)) = Ok (Ratio (-7) 6 5).
Proof. vm_compute. reflexivity. Qed.

(** * C06: laws *)

Theorem C06_commutative : forall l r p, storable l -> storable r -> rden l <> 0 -> rden r <> 0 ->
  rmul l r = Ok p -> rmul r l = Ok p.
Proof. exact rmul_comm_ok. Qed.
Print Assumptions C06_commutative.

Theorem C06_identity : forall r, lowest r -> storable r ->
  rmul r (Ratio 1 1 0) = Ok r.
Proof. exact rmul_one_r. Qed.
Print Assumptions C06_identity.

Theorem C06_associative_in_value : forall a b c ab bc x y, lowest a -> lowest b -> lowest c ->
  rmul a b = Ok ab -> rmul ab c = Ok x -> rmul b c = Ok bc -> rmul a bc = Ok y ->
  (rval x == rval y)%Q.
Proof. exact rmul_assoc_value. Qed.
Print Assumptions C06_associative_in_value.

(** Not associative as [==]: (1/2 * 2) * 5 = 5 but 1/2 * (2 * 5) = 1/2 * 10^1. *)
Theorem C06_associative_refuted : exists a b c ab bc x y, lowest a /\ lowest b /\ lowest c /\
  rmul a b = Ok ab /\ rmul ab c = Ok x /\ rmul b c = Ok bc /\ rmul a bc = Ok y /\
  ratio_eqb x y = false.
Proof.
  exists (Ratio 1 2 0), (Ratio 2 1 0), (Ratio 5 1 0), (Ratio 1 1 0), (Ratio 1 1 1), (Ratio 5 1 0), (Ratio 1 2 1).
  unfold lowest; vm_compute. repeat split; try discriminate; auto.
Qed.
Print Assumptions C06_associative_refuted.

(** * C07: checked product *)

Theorem C07_exact : forall a b p, safe_multiply a b = Ok p -> p = a * b /\ Z.abs p <= INTMAX_MAX.
Proof. exact safe_multiply_sound. Qed.
Print Assumptions C07_exact.

Theorem C07_accepts : forall a b, Z.abs a <= INTMAX_MAX -> Z.abs b <= INTMAX_MAX ->
  ((exists p, safe_multiply a b = Ok p) <-> Z.abs (a * b) <= INTMAX_MAX).
Proof. exact safe_multiply_iff. Qed.
Print Assumptions C07_accepts.

Theorem C07_refuses : forall a b, Z.abs a <= INTMAX_MAX -> Z.abs b <= INTMAX_MAX ->
  INTMAX_MAX < Z.abs (a * b) -> safe_multiply a b = Contract \/ safe_multiply a b = Undef.
Proof. exact safe_multiply_refuses. Qed.
Print Assumptions C07_refuses.

(** The guard can itself overflow, so the refusal is not always a contract violation. *)
Theorem C07_guard_overflow_refuted : exists a b, 0 < a <= INTMAX_MAX /\ 0 < b <= INTMAX_MAX /\
  safe_multiply a b = Undef.
Proof. exists 4294967295, 4294967295. vm_compute. repeat split; auto; discriminate. Qed.
Print Assumptions C07_guard_overflow_refuted.

(** Exactly when: the low halves are multiplied before their product is known to fit. *)
Theorem C07_refusal_kind : forall a b, Z.abs a <= INTMAX_MAX -> Z.abs b <= INTMAX_MAX ->
  (safe_multiply a b = Undef <->
   (Z.abs a < 2 ^ 32 \/ Z.abs b < 2 ^ 32) /\
   (Z.abs a mod 2 ^ 32) * (Z.abs b / 2 ^ 32) + (Z.abs b mod 2 ^ 32) * (Z.abs a / 2 ^ 32) < 2 ^ 31 /\
   INTMAX_MAX < (Z.abs b mod 2 ^ 32) * (Z.abs a mod 2 ^ 32)).
Proof. exact safe_multiply_undef. Qed.
Print Assumptions C07_refusal_kind.

Example C07_ex : safe_multiply (-3037000499) 3037000499 = Ok (-9223372030926249001).
Proof. vm_compute. reflexivity. Qed.
Example C07_ex_refused : safe_multiply 4294967296 4294967296 = Contract.
Proof. vm_compute. reflexivity. Qed.

(** * C08: modular helpers *)

Theorem C08_mulmod : forall a b m, 0 <= a < 2 ^ 64 -> 0 <= b < 2 ^ 64 -> 0 < m < 2 ^ 64 ->
  mulmod a b m = Ok ((a * b) mod m).
Proof. exact mulmod_spec. Qed.
Print Assumptions C08_mulmod.

Theorem C08_modpow : forall a e m, 0 <= a < 2 ^ 64 -> 0 <= e < 2 ^ 64 -> 0 < m < 2 ^ 64 ->
  modpow a e m = Ok (if e =? 0 then 1 else (a ^ e) mod m).
Proof. exact modpow_spec. Qed.
Print Assumptions C08_modpow.

Theorem C08_zero_modulus : forall a b, 0 <= b < 2 ^ 64 -> mulmod a b 0 = Undef.
Proof. exact mulmod_zero_modulus. Qed.
Print Assumptions C08_zero_modulus.

(** [modpow(a, 0, 1)] is 1, not 0. *)
Theorem C08_modulus_one_refuted : modpow 5 0 1 = Ok 1 /\ (5 ^ 0) mod 1 = 0.
Proof. vm_compute. auto. Qed.
Print Assumptions C08_modulus_one_refuted.

Example C08_ex : mulmod 18446744073709551615 18446744073709551614 18446744073709551613 = Ok 2.
Proof. vm_compute. reflexivity. Qed.
Example C08_ex_pow : modpow 10 1000003 9223372036854775783 = Ok 1370448752992116498.
Proof. vm_compute. reflexivity. Qed.

(** * C09: gcd with a scaled operand *)

Theorem C09_gcdpow : forall a e b, 0 < a <= INTMAX_MAX -> 0 <= e <= INTMAX_MAX ->
  0 < b <= INTMAX_MAX -> gcdpow a e b = Ok (Z.gcd (a * 10 ^ e) b).
Proof. exact gcdpow_spec. Qed.
Print Assumptions C09_gcdpow.

(** 6 * 10^100000 against 2^40 * 3. *)
Example C09_ex : gcdpow 6 100000 3298534883328 = Ok 3298534883328.
Proof. vm_compute. reflexivity. Qed.

(** * C10: integrality *)

Theorem C10_is_integral : forall r, lowest r -> storable r -> 0 < rnum r ->
  exists b, is_integral r = Ok b /\ (b = true <-> is_int (rval r)).
Proof. exact is_integral_spec. Qed.
Print Assumptions C10_is_integral.

(** Outside of that domain the function is a contract violation, even for the
    integer 0 and for negative integers. *)
Theorem C10_nonpositive_refuted : forall r, rnum r <= 0 -> 0 <= rexp r -> is_integral r = Contract.
Proof. exact is_integral_nonpos. Qed.
Print Assumptions C10_nonpositive_refuted.

Example C10_ex : is_integral (Ratio 7 8 3) = Ok true /\ is_integral (Ratio 7 8 2) = Ok false.
Proof. vm_compute. auto. Qed.

(** * C11, C12: common ratio *)

Theorem C11_greatest : forall r1 r2 g,
  lowest r1 -> lowest r2 -> storable r1 -> storable r2 -> 0 < rnum r1 -> 0 < rnum r2 ->
  common_ratio r1 r2 = Ok g ->
  lowest g /\ storable g /\ (0 < rval g)%Q /\ rational_gcd (rval r1) (rval r2) (rval g).
Proof. exact common_ratio_sound. Qed.
Print Assumptions C11_greatest.

Theorem C11_unique : forall a b g h, (0 < g)%Q -> (0 < h)%Q ->
  rational_gcd a b g -> rational_gcd a b h -> (g == h)%Q.
Proof. exact rational_gcd_unique. Qed.
Print Assumptions C11_unique.

Theorem C11_accepts : forall r1 r2,
  lowest r1 -> lowest r2 -> storable r1 -> storable r2 -> 0 < rnum r1 -> 0 < rnum r2 ->
  Z.abs (rexp r1 - rexp r2) <= INTMAX_MAX ->
  INTMAX_MIN + 18 <= rexp r1 <= INTMAX_MAX - 18 -> INTMAX_MIN + 18 <= rexp r2 <= INTMAX_MAX - 18 ->
  (rden r2 + 1) * rnum r1 <= INTMAX_MAX -> (rden r1 + 1) * rnum r2 <= INTMAX_MAX ->
  (rden r1 + 1) * (rden r2 + 1) <= INTMAX_MAX ->
  exists g, common_ratio r1 r2 = Ok g.
Proof. exact common_ratio_complete. Qed.
Print Assumptions C11_accepts.

(** Mile (1609.344 m) and kilometre. *)
Example C11_ex : common_ratio (Ratio 1609344 1 (-3)) (Ratio 1 1 3) = Ok (Ratio 64 1 (-3)).
Proof. vm_compute. reflexivity. Qed.

Theorem C12_symmetric : forall r1 r2 g h,
  lowest r1 -> lowest r2 -> storable r1 -> storable r2 -> 0 < rnum r1 -> 0 < rnum r2 ->
  common_ratio r1 r2 = Ok g -> common_ratio r2 r1 = Ok h -> g = h.
Proof. exact common_ratio_sym. Qed.
Print Assumptions C12_symmetric.

Theorem C12_idempotent : forall r, lowest r -> storable r -> common_ratio r r = Ok r.
Proof. exact common_ratio_idem. Qed.
Print Assumptions C12_idempotent.

Theorem C12_associative_in_value : forall a b c ab bc x y,
  lowest a -> lowest b -> lowest c -> storable a -> storable b -> storable c ->
  0 < rnum a -> 0 < rnum b -> 0 < rnum c ->
  common_ratio a b = Ok ab -> common_ratio ab c = Ok x ->
  common_ratio b c = Ok bc -> common_ratio a bc = Ok y ->
  (rval x == rval y)%Q.
Proof. exact common_ratio_assoc_value. Qed.
Print Assumptions C12_associative_in_value.

Example C12_ex : common_ratio (Ratio 6 1 1) (Ratio 36 1 2) = Ok (Ratio 6 1 1) /\
  common_ratio (Ratio 36 1 2) (Ratio 6 1 1) = Ok (Ratio 6 1 1).
Proof. vm_compute. auto. Qed.

(** * C13: powers *)

Theorem C13_power : forall est k Den r p, Den <> 0 -> lowest r ->
  rpow est (k * Den) Den r = Ok p ->
  (rval p == rval r ^ k)%Q /\ lowest p /\ (storable r -> storable p) /\ (k < 0 -> rnum r <> 0).
Proof. exact rpow_sound. Qed.
Print Assumptions C13_power.

Theorem C13_power_defined : forall est k r, lowest r -> storable r -> rnum r <> 0 ->
  Z.abs k <= INTMAX_MAX ->
  Z.abs (rnum r ^ Z.abs k) <= INTMAX_MAX -> Z.abs (rden r ^ Z.abs k) <= INTMAX_MAX ->
  Z.abs (Z.abs k * rexp r) <= INTMAX_MAX ->
  exists p, rpow est k 1 r = Ok p.
Proof. exact rpow_complete. Qed.
Print Assumptions C13_power_defined.

Example C13_ex : forall est, rpow est (-3) 1 (Ratio (-2) 3 4) = Ok (Ratio (-27) 8 (-12)).
Proof. intros. vm_compute. reflexivity. Qed.

(** * C14: roots *)

Theorem C14_exact_root : forall est (k : positive) r q, (1 < k)%positive ->
  lowest r -> storable r -> 0 < rnum r -> (Zpos k | rexp r) ->
  (0 < q)%Q -> (rval r == q ^ Zpos k)%Q ->
  usable est k (rnum r) -> usable est k (rden r) ->
  exists p, rroot est k r = Ok p /\ (rval p == q)%Q /\ lowest p /\ storable p.
Proof. exact rroot_exact. Qed.
Print Assumptions C14_exact_root.

(** In general the numerator and the denominator, the exponent having been rounded towards
    zero to a multiple of the degree, are replaced by the floors of their roots. *)
Theorem C14_rounding : forall est (k : positive) r p, (1 < k)%positive -> lowest r -> 0 < rnum r ->
  (forall v, 0 < v -> exists x e, floor_root k v x /\ est k v = Ok e /\ x <= e <= x + 1) ->
  rroot est k r = Ok p ->
  exists a b x y, 0 <= a < Zpos k /\ 0 <= b < Zpos k /\ (a = 0 \/ b = 0) /\
    rexp r = Zpos k * Z.quot (rexp r) (Zpos k) + a - b /\
    floor_root k (rnum r * 10 ^ a) x /\ floor_root k (rden r * 10 ^ b) y /\
    (rval p == frac x y (Z.quot (rexp r) (Zpos k)))%Q.
Proof. exact rroot_rounds. Qed.
Print Assumptions C14_rounding.

(** An exact integer estimate, for the examples. *)
Definition sqrt_est : estimate := fun _ v => Ok (Z.sqrt v).

(** Other operands are rounded silently, in either direction: sqrt(1/2) = 1 and sqrt(2) = 1. *)
Theorem C14_silent_rounding_refuted :
  rsqrt sqrt_est (Ratio 1 2 0) = Ok (Ratio 1 1 0) /\ rsqrt sqrt_est (Ratio 2 1 0) = Ok (Ratio 1 1 0).
Proof. vm_compute. auto. Qed.
Print Assumptions C14_silent_rounding_refuted.

(** Even a perfect square is rounded when its power of ten is odd:
    8/5 * 10^-1 = 0.16 = 0.4^2, the root found is 2/7. *)
Theorem C14_odd_exponent_refuted :
  lowest (Ratio 8 5 (-1)) /\ (rval (Ratio 8 5 (-1)) == (4 # 10) ^ 2)%Q /\
  rsqrt sqrt_est (Ratio 8 5 (-1)) = Ok (Ratio 2 7 0).
Proof. unfold lowest; vm_compute. repeat split; auto; discriminate. Qed.
Print Assumptions C14_odd_exponent_refuted.

Example C14_ex : rsqrt sqrt_est (Ratio 144 169 6) = Ok (Ratio 12 13 3).
Proof. vm_compute. reflexivity. Qed.
Example C14_ex_rounding : rsqrt sqrt_est (Ratio 7 3 5) = Ok (Ratio 8 1 2) /\ floor_root 2 (7 * 10 ^ 1) 8.
Proof. unfold floor_root. split; [vm_compute; reflexivity|]. lia. Qed.
Example C14_ex_estimate : forall v, 0 < v ->
  exists x e, floor_root 2 v x /\ sqrt_est 2%positive v = Ok e /\ x <= e <= x + 1.
Proof.
  intros v Hv. exists (Z.sqrt v), (Z.sqrt v). pose proof (Z.sqrt_spec v ltac:(lia)) as S.
  pose proof (Z.sqrt_nonneg v). unfold floor_root. cbv zeta in S.
  change (Z.succ (Z.sqrt v)) with (Z.sqrt v + 1) in S.
  rewrite !Z.pow_2_r. split; [lia|]. split; [reflexivity|lia].
Qed.
Example C14_ex_usable : usable sqrt_est 2 144.
Proof. exists 12, 12. unfold floor_root. repeat split; vm_compute; auto; discriminate. Qed.

(** * C15: integer root *)

Theorem C15_near_estimate : forall est n v x e,
  (1 < n)%positive -> 0 < v -> floor_root n v x ->
  est n v = Ok e -> Z.abs (e - x) <= 1 -> (e + 1) ^ Zpos n <= INTMAX_MAX -> e < INTMAX_MAX ->
  iroot est n v = Ok (if (e =? x - 1) && negb (x ^ Zpos n =? v) then x - 1 else x).
Proof. exact iroot_near. Qed.
Print Assumptions C15_near_estimate.

Example C15_ex : iroot (fun _ _ => Ok 12) 2 168 = Ok 12 /\ iroot (fun _ _ => Ok 13) 2 168 = Ok 12 /\
  iroot (fun _ _ => Ok 12) 2 169 = Ok 13 /\ iroot (fun _ _ => Ok 11) 2 168 = Ok 11.
Proof. vm_compute. auto. Qed.

(** * C16: powers of ten *)

Theorem C16_ipow10 : forall e,
  (0 <= e <= 18 -> ipow10 e = Ok (10 ^ e)) /\
  (18 < e -> ipow10 e = Undef) /\
  (e < 0 -> ipow10 e = Contract).
Proof. exact ipow10_spec. Qed.
Print Assumptions C16_ipow10.

Example C16_ex : ipow10 18 = Ok 1000000000000000000 /\ ipow10 19 = Undef.
Proof. vm_compute. auto. Qed.
