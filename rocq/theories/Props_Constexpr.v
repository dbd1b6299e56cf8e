(** Theorems about what the library computes while a program is compiled: logarithm,
    exponential and power (C71), and roots (C72). *)

From Coq Require Import ZArith Reals QArith Qpower String List Lia Lra Bool SpecFloat.
From Flocq Require Import Core BinarySingleNaN.
From Verif Require Import Outcome CInt Pow Root RootFloat Ratio SpecRatio RatioPowProofs FixedString Unit Downcast Dim DimOp Equivalent
  SpecDim SpecUnit DimProofs Rep SpecReal QuantityCast CommonQuantity Quantity SpecQuantity DimOpProofs DimOpProofs2
  MagnitudeProofs QuantityProofs Math MathProofs FloatProofs FloatRootProofs ConstexprMath ConstexprProofs2 ConstexprProofs4 ConstexprProofs5 ConstexprProofs6
  ConstexprRootProofs Samples Props_Ratio Props_Quantity Props_Math.
Local Open Scope R_scope.

(** * C71: elementary functions evaluated by the compiler *)

(** The decimal form of every finite number but zero: a significant with one digit before the
    point, the sign of the number, and an exponent; the product is the number up to 800
    roundings.  In particular the loops end. *)
Theorem C71_decimal : forall v, is_number F64 v -> fval v <> 0 ->
  exists s e, to_decimal v = Ok (s, e) /\ is_number F64 s /\ 1 <= Rabs (fval s) < 10 /\ 0 < fval s * fval v /\
    within F64 800 (fval s * powerRZ 10 e) (fval v).
Proof. exact decimal_form. Qed.
Print Assumptions C71_decimal.

Theorem C71_decimal_zero : forall v, is_number F64 v -> fval v = 0 -> to_decimal v = Ok (S754_zero false, 0%Z).
Proof.
  intros v N E. destruct v as [s|s| |s m e]; try (destruct N; discriminate); [reflexivity|exfalso].
  unfold fval in E. cbn [SF2R] in E. destruct s; cbn [SpecFloat.cond_Zopp] in E.
  - pose proof (F2R_lt_0 radix2 (Float radix2 (Zneg m) e) ltac:(reflexivity)). cbn in E, H. lra.
  - pose proof (F2R_gt_0 radix2 (Float radix2 (Zpos m) e) ltac:(reflexivity)). cbn in E, H. lra.
Qed.
Print Assumptions C71_decimal_zero.

(** An infinity never leaves the loop, however long it runs. *)
Theorem C71_decimal_infinity_refuted : forall fuel e r, scale_down fuel (S754_infinity false) e <> Ok r.
Proof.
  induction fuel as [|n IH]; intros e r H; [discriminate|].
  cbn [scale_down] in H. change (SFleb (dint 10) (S754_infinity false)) with true in H. cbv iota in H.
  destruct (cadd I64 e 1) as [e'| | | |]; try discriminate. cbn [bind] in H. 
  change (ddiv (S754_infinity false) (dint 10)) with (S754_infinity false) in H. now apply (IH e' r).
Qed.
Print Assumptions C71_decimal_infinity_refuted.

(** The logarithm of every positive number is right to twelve decimals; the table is never
    indexed outside. *)
Theorem C71_log : forall v, is_number F64 v -> 0 < fval v ->
  exists l, constexpr_log v = Ok l /\ is_number F64 l /\ Rabs (fval l - ln (fval v)) <= / 10 ^ 12.
Proof.
  intros v N P. destruct (constexpr_log_spec v N P) as (l & A & B & C). exists l. split; [exact A|]. split; [exact B|].
  replace (10 ^ 12) with 1000000000000 by (cbn [pow]; ring). exact C.
Qed.
Print Assumptions C71_log.

(** Other numbers violate the precondition. *)
Theorem C71_log_contract : forall v, is_number F64 v -> fval v <= 0 -> constexpr_log v = Contract.
Proof.
  intros v N P. destruct (dint_value 0) as [N0 V0]; [lia|]. unfold constexpr_log.
  destruct (SFltb (dint 0) v) eqn:E; [|reflexivity]. exfalso. apply (ltb_value (dint 0) v N0 N) in E. lra.
Qed.
Print Assumptions C71_log_contract.

(** The exponential, with the orders and factors in use, between e^-23 and e^23. *)
Theorem C71_exp : forall n factor x, (n, factor) = (12%nat, 64%positive) \/ (n, factor) = (10%nat, 128%positive) ->
  is_number F64 x -> Rabs (fval x) <= 23 ->
  exists p, constexpr_exp n factor x = Ok p /\ is_number F64 p /\ Rabs (fval p - exp (fval x)) <= 2 / 10 ^ 13 * exp (fval x).
Proof.
  intros n factor x U N B. destruct (exp_logs n factor x U N B) as (p & E & L). exists p. split; [exact E|]. split; [apply L|].
  eapply Rle_trans; [apply (logs_relative _ _ _ L); lra|]. apply Rmult_le_compat_r; [left; apply exp_pos|]. cbn [pow]. lra.
Qed.
Print Assumptions C71_exp.

(** The power: [v] to the [e] is e^(e ln v). *)
Theorem C71_pow : forall n factor v e, (n, factor) = (12%nat, 64%positive) \/ (n, factor) = (10%nat, 128%positive) ->
  is_number F64 v -> 0 < fval v -> is_number F64 e -> Rabs (fval e) <= 10 ^ 9 -> Rabs (fval e * ln (fval v)) <= 22 ->
  exists p, constexpr_pow n factor v e = Ok p /\ is_number F64 p /\
    Rabs (fval p - Rpower (fval v) (fval e)) <= (11 * Rabs (fval e) + 2) / 10 ^ 13 * Rpower (fval v) (fval e).
Proof.
  intros n factor v e U N P Ne Be B. replace (10 ^ 9) with 1000000000 in Be by (cbn [pow]; ring).
  destruct (pow_logs n factor v e U N P Ne Be B) as (p & E & L).
  exists p. split; [exact E|]. split; [apply L|]. unfold Rpower. pose proof (Rabs_pos (fval e)) as Pe.
  eapply Rle_trans; [apply (logs_relative _ _ _ L); lra|]. apply Rmult_le_compat_r; [left; apply exp_pos|]. cbn [pow]. lra.
Qed.
Print Assumptions C71_pow.

(** e^22 = 3584912846.13...: the result is 3584912846.1315... *)
Example C71_ex : constexpr_log (dint 1) = Ok (S754_zero false) /\
  (exists l, constexpr_log (dint 1000) = Ok l /\ SFltb l (dint 7) = true /\ SFltb (ddiv (dint 69) (dint 10)) l = true) /\
  (exists p, constexpr_exp 12 64 (dint 22) = Ok p /\ dtrunc I64 p = Ok 3584912846%Z) /\
  (exists p, constexpr_pow 10 128 (dint 9) (ddiv (dint 1) (dint 2)) = Ok p /\ SFltb p (ddiv (dint 300001) (dint 100000)) = true /\
    SFltb (ddiv (dint 299999) (dint 100000)) p = true).
Proof.
  split; [vm_compute; reflexivity|].
  split; [eexists; split; [vm_compute; reflexivity|]; vm_compute; auto|].
  split; [eexists; split; [vm_compute; reflexivity|]; vm_compute; auto|].
  eexists; split; [vm_compute; reflexivity|]; vm_compute; auto.
Qed.
(** The smallest and the largest number. *)
Example C71_ex_range : exists l h, constexpr_log (S754_finite false 1 (-1074)) = Ok l /\ dtrunc I64 l = Ok (-744)%Z /\
  constexpr_log (S754_finite false (2 ^ 53 - 1) 971) = Ok h /\ dtrunc I64 h = Ok 709%Z.
Proof. eexists. eexists. split; [vm_compute; reflexivity|]. split; [reflexivity|]. split; [vm_compute; reflexivity|reflexivity]. Qed.

(** * C72: roots taken by the compiler *)

Local Open Scope Z_scope.

(** The estimate is never further than one from the root, for any number and any degree. *)
Theorem C72_estimate : forall n v x, 2 <= Zpos n <= 2 ^ 53 -> 1 <= v <= INTMAX_MAX -> floor_root n v x ->
  exists e, compile_estimate n v = Ok e /\ Z.abs (e - x) <= 1.
Proof. exact estimate_near. Qed.
Print Assumptions C72_estimate.

(** The root of a perfect power is found, of whatever degree, as long as the next power fits. *)
Theorem C72_exact : forall n x, 0 <= x -> (x + 1) ^ Zpos n <= INTMAX_MAX -> iroot compile_estimate n (x ^ Zpos n) = Ok x.
Proof. exact compile_exact. Qed.
Print Assumptions C72_exact.

(** The root of any other number is rounded down, up to 10^12 divided by the degree. *)
Theorem C72_floor : forall n v x, (1 < n)%positive -> 0 <= v -> Zpos n * (v + 1) <= 10 ^ 12 -> floor_root n v x ->
  (x + 1) ^ Zpos n <= INTMAX_MAX -> iroot compile_estimate n v = Ok x.
Proof. exact compile_floor. Qed.
Print Assumptions C72_floor.

(** There a square root is the same whether the compiler or the program takes it. *)
Theorem C72_same_at_run_time : forall other v, 0 <= v < 5 * 10 ^ 11 ->
  exists x, floor_root 2 v x /\ iroot compile_estimate 2 v = Ok x /\ iroot (runtime_estimate other) 2 v = Ok x.
Proof.
  intros other v V. pose proof (Z.sqrt_spec v ltac:(lia)) as S. pose proof (Z.sqrt_nonneg v) as P. cbv zeta in S. set (x := Z.sqrt v) in *.
  assert (F : floor_root 2 v x) by (unfold floor_root; rewrite !Z.pow_2_r; lia).
  exists x. split; [exact F|]. split.
  - apply compile_floor; auto; [reflexivity|lia|lia|]. unfold INTMAX_MAX. rewrite Z.pow_2_r. nia.
  - apply runtime_sqrt; [lia|exact F].
Qed.
Print Assumptions C72_same_at_run_time.

(** Further up the compiler may be one too low where the program is right. *)
Theorem C72_differs_refuted : forall other, floor_root 2 (1000000000 ^ 2 + 1) 1000000000 /\
  iroot compile_estimate 2 (1000000000 ^ 2 + 1) = Ok 999999999 /\ iroot (runtime_estimate other) 2 (1000000000 ^ 2 + 1) = Ok 1000000000.
Proof. intros other. split; [unfold floor_root; lia|]. split; vm_compute; reflexivity. Qed.
Print Assumptions C72_differs_refuted.

(** No root of degree 63 or more is found, not even that of 1: 2 to the 63 does not fit. *)
Theorem C72_degree_refuted : iroot compile_estimate 63 1 = Undef /\ iroot compile_estimate 62 1 = Ok 1.
Proof. split; vm_compute; reflexivity. Qed.
Print Assumptions C72_degree_refuted.

(** The root of a ratio: exact for every perfect power with a matching power of ten, with a
    factor of two to spare per degree. *)
Theorem C72_ratio : forall (k : positive) r q, (1 < k)%positive -> lowest r -> storable r -> 0 < rnum r -> (Zpos k | rexp r) ->
  (0 < q)%Q -> (rval r == q ^ Zpos k)%Q -> rnum r * 2 ^ Zpos k <= INTMAX_MAX -> rden r * 2 ^ Zpos k <= INTMAX_MAX ->
  exists p, rroot compile_estimate k r = Ok p /\ (rval p == q)%Q /\ lowest p /\ storable p.
Proof.
  intros k r q Hk L St Pr D Hq V Bn Bd. destruct (compile_rootable k r q Hk L Pr D Hq V Bn Bd) as (_ & _ & U1 & U2).
  eapply rroot_exact; eauto.
Qed.
Print Assumptions C72_ratio.

(** The unit of a square root, nothing assumed of the estimate: its square is the unit of the operand. *)
Theorem C72_unit : forall w q s m m' i n x p, consistent w -> raisable (q_dim (q_type q)) 1 2 ->
  sized compile_estimate (q_type q) m ->
  (2 | rexp (u_ratio (q_unit (q_type q)))) -> (0 < p)%Q -> (rval (u_ratio (q_unit (q_type q))) == p ^ 2)%Q ->
  rnum (u_ratio (q_unit (q_type q))) * 4 <= INTMAX_MAX -> rden (u_ratio (q_unit (q_type q))) * 4 <= INTMAX_MAX ->
  integral q i n -> 0 <= n < 2 ^ 52 -> floor_root 2 n x ->
  q_sqrt compile_estimate w q = Ok s -> unit_good (dimension_unit (q_dim (q_type s))) ->
  magnitude (q_dim (q_type s)) (q_unit (q_type s)) m' ->
  integral s i x /\ (0 < m')%Q /\ ((m' * coherent s) ^ 2 == m * coherent q)%Q.
Proof.
  intros w q s m m' i n x p C R Sz D Pp V Bn Bd I Bi F H G M.
  apply (C54_sqrt compile_estimate w q s m m' i n x C R Sz); auto.
  assert (Gu : unit_good (q_unit (q_type q))) by apply Sz. pose proof (good_pos _ Gu).
  apply (compile_rootable 2 _ p); auto; try reflexivity; apply Gu.
Qed.
Print Assumptions C72_unit.

Example C72_ex : iroot compile_estimate 2 (3037000498 ^ 2) = Ok 3037000498 /\ iroot compile_estimate 62 (2 ^ 62) = Ok 2 /\
  (3037000498 + 1) ^ 2 <= INTMAX_MAX /\ iroot compile_estimate 7 1000000 = Ok 7 /\ floor_root 7 1000000 7 /\ 7 * (1000000 + 1) <= 10 ^ 12.
Proof.
  split; [vm_compute; reflexivity|]. split; [vm_compute; reflexivity|]. split; [vm_compute; discriminate|]. split; [vm_compute; reflexivity|].
  split; [unfold floor_root; lia|lia].
Qed.
Example C72_ex_ratio : rroot compile_estimate 3 (Ratio 343 125 6) = Ok (Ratio 7 5 2) /\ lowest (Ratio 343 125 6) /\
  (rval (Ratio 343 125 6) == (140 # 1) ^ 3)%Q /\ (3 | 6) /\ 343 * 2 ^ 3 <= INTMAX_MAX.
Proof.
  split; [vm_compute; reflexivity|]. split; [unfold lowest; vm_compute; repeat split; auto; discriminate|]. split; [vm_compute; reflexivity|].
  split; [exists 2; reflexivity|vm_compute; discriminate].
Qed.
Example C72_ex_unit : q_sqrt compile_estimate empty_world (Quantity (areas (Ratio 1 1 6) I64) (NInt 50)) =
    Ok (Quantity (lengths (unnamed_metre (Ratio 1 1 3)) I64) (NInt 7)) /\
  (rval (Ratio 1 1 6) == (1000 # 1) ^ 2)%Q /\ (2 | 6).
Proof. split; [vm_compute; reflexivity|]. split; [vm_compute; reflexivity|]. exists 3. reflexivity. Qed.
