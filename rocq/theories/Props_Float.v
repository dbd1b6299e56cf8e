(** Theorems about floating-point numbers: powers of ten (C16), casts (C22) and the
    run-time square root (C15). *)

From Coq Require Import ZArith Reals QArith Qreals String List Lia Lra Bool SpecFloat.
From Flocq Require Import Core.
From Verif Require Import Outcome CInt Pow Root Ratio SpecRatio FixedString Unit Downcast Dim DimOp Equivalent SpecDim SpecUnit
  Rep RootFloat QuantityCast CommonQuantity Quantity SpecQuantity CastProofs QuantityProofs4 SpecReal FloatProofs FloatCastProofs
  FloatRootProofs Samples Props_Quantity.
Local Open Scope R_scope.

(** * C16: powers of ten in floating point *)

(** Exact as long as the power of five fits the significand. *)
Theorem C16_fpow10_exact : forall f e, (0 <= e)%Z -> (5 ^ e <= 2 ^ fprec f)%Z ->
  is_number f (fpow10 f e) /\ fval (fpow10 f e) = powerRZ 10 e.
Proof. exact fpow10_exact. Qed.
Print Assumptions C16_fpow10_exact.

(** Otherwise one rounding per factor. *)
Theorem C16_fpow10_accuracy : forall f e, mid_range f (powerRZ 10 e) ->
  is_number f (fpow10 f e) /\ within f (Z.abs_nat e) (fval (fpow10 f e)) (powerRZ 10 e).
Proof.
  intros f e M. destruct (fpow10_near f e M) as [A B]. split; auto. apply near_within; auto.
  pose proof (mid_steps f e M) as K. apply Rle_lt_trans with (IZR (2 ^ 23) * bpow radix2 (-24)).
  - apply Rmult_le_compat; [apply pos_INR|apply Rlt_le, roundoff_pos| |apply roundoff_small]. rewrite INR_IZR_INZ. apply IZR_le. lia.
  - rewrite (IZR_Zpower radix2) by lia. rewrite <- bpow_plus. cbn. lra.
Qed.
Print Assumptions C16_fpow10_accuracy.

(** The exponents it applies to, for [double]. *)
Theorem C16_fpow10_double : forall e, (-307 <= e <= 307)%Z ->
  is_number F64 (fpow10 F64 e) /\ within F64 (Z.abs_nat e) (fval (fpow10 F64 e)) (powerRZ 10 e).
Proof.
  intros e H. apply C16_fpow10_accuracy. right.
  assert (T : forall k, (0 <= k <= 307)%Z -> 1 <= IZR (10 ^ k) <= bpow radix2 1021).
  { intros k Hk. split; [apply IZR_le; apply (Z.pow_le_mono_r 10 0); lia|].
    rewrite <- (IZR_Zpower radix2) by lia. apply IZR_le. apply Z.le_trans with (10 ^ 307)%Z; [apply Z.pow_le_mono_r; lia|].
    vm_compute. discriminate. }
  destruct (Z.le_gt_cases 0 e) as [L|L].
  - rewrite powerRZ_Z by lia. destruct (T e ltac:(lia)) as [A B]. rewrite Rabs_right by lra. split.
    + apply Rle_trans with 1; auto. apply (bpow_le radix2 _ 0). discriminate.
    + eapply Rle_trans; [exact B|]. apply bpow_le. discriminate.
  - replace e with (- - e)%Z by lia. rewrite powerRZ_neg', powerRZ_Z by lia. destruct (T (- e)%Z ltac:(lia)) as [A B].
    rewrite Rabs_right by (apply Rle_ge, Rlt_le, Rinv_0_lt_compat; lra). split.
    + replace (3 - femax F64)%Z with (- (1021))%Z by reflexivity. rewrite bpow_opp. apply Rinv_le; [lra|exact B].
    + apply Rle_trans with 1; [rewrite <- Rinv_1; apply Rinv_le; lra|]. apply (bpow_le radix2 0). discriminate.
Qed.
Print Assumptions C16_fpow10_double.

(** Beyond the range: infinity and zero. *)
Definition overflow_exponent (f : fty) : Z := match f with F32 => 39 | F64 => 309 | F80 => 4933 end.
Definition underflow_exponent (f : fty) : Z := match f with F32 => -46 | F64 => -324 | F80 => -4951 end.
Theorem C16_fpow10_saturates : forall f e,
  ((overflow_exponent f <= e)%Z -> fpow10 f e = S754_infinity false) /\
  ((e <= underflow_exponent f)%Z -> fpow10 f e = S754_zero false).
Proof.
  intros f e. rewrite fpow10_iter. split; intros H.
  - rewrite (proj2 (Z.leb_le 0 e)) by (destruct f; cbn in H; lia).
    apply (fup_inf f (Z.to_nat (overflow_exponent f))); [destruct f; vm_compute; reflexivity|].
    destruct f; cbn [overflow_exponent] in *; lia.
  - rewrite (proj2 (Z.leb_gt 0 e)) by (destruct f; cbn in H; lia).
    apply (fdown_zero f (Z.to_nat (- underflow_exponent f))); [destruct f; vm_compute; reflexivity|].
    destruct f; cbn [underflow_exponent] in *; lia.
Qed.
Print Assumptions C16_fpow10_saturates.

(** The last exact power, the first inexact one (10^23 is not a double), and both ends. *)
Example C16_fpow10_ex : (5 ^ 22 <= 2 ^ fprec F64)%Z /\ ~ (5 ^ 23 <= 2 ^ fprec F64)%Z /\
  fval (fpow10 F64 23) <> powerRZ 10 23 /\
  fpow10 F64 308 <> S754_infinity false /\ fpow10 F64 (-323) <> S754_zero false.
Proof.
  split; [vm_compute; discriminate|]. split; [intros H; vm_compute in H; now apply H|]. split.
  - rewrite powerRZ_Z by lia. replace (fpow10 F64 23) with (S754_finite false 5960464477539062 24) by (vm_compute; reflexivity).
    unfold fval. cbn [BinarySingleNaN.SF2R cond_Zopp]. unfold F2R. cbn [Fnum Fexp]. rewrite <- (IZR_Zpower radix2) by lia. rewrite <- mult_IZR.
    apply IZR_neq. vm_compute. discriminate.
  - split; vm_compute; discriminate.
Qed.

(** * C22: casts of floating-point quantities *)

(** The result is the exact value up to a few roundings. *)
Theorem C22_accuracy : forall est from to f m1 m2 c n, sized est from m1 -> sized est to m2 -> references_ok from to ->
  dim_equivalent (q_dim to) (q_dim from) = true -> cast_rep (q_rep from) (q_rep to) = RFlt f -> q_rep to = RFlt f ->
  cast_ratio est (q_dim from) (q_unit from) (q_dim to) (q_unit to) = Ok c ->
  is_value (q_rep from) n -> factor_in_range f c -> mid_range f (nval n * Q2R (m1 / m2)) ->
  exists y, quantity_cast est from to n = Ok (NFlt y) /\ is_number f y /\
    within f (roundings (q_rep from) c) (fval y) (nval n * Q2R (m1 / m2)).
Proof. exact cast_accurate. Qed.
Print Assumptions C22_accuracy.

(** To a narrower type: one more rounding, in that type. *)
Theorem C22_narrowing : forall est from to f g m1 m2 c n, sized est from m1 -> sized est to m2 -> references_ok from to ->
  dim_equivalent (q_dim to) (q_dim from) = true -> cast_rep (q_rep from) (q_rep to) = RFlt f -> q_rep to = RFlt g ->
  cast_ratio est (q_dim from) (q_unit from) (q_dim to) (q_unit to) = Ok c ->
  is_value (q_rep from) n -> factor_in_range f c ->
  mid_range f (nval n * Q2R (m1 / m2)) -> mid_range g (nval n * Q2R (m1 / m2)) ->
  exists y z, quantity_cast est from to n = Ok (NFlt y) /\ is_number g y /\
    within f (roundings (q_rep from) c) z (nval n * Q2R (m1 / m2)) /\ within g 1 (fval y) z.
Proof. exact cast_narrowing. Qed.
Print Assumptions C22_narrowing.

(** To an integral type: the fraction of the approximate value is discarded; a value that
    does not fit is undefined behaviour. *)
Theorem C22_to_integer : forall est from to f t m1 m2 c n, sized est from m1 -> sized est to m2 -> references_ok from to ->
  dim_equivalent (q_dim to) (q_dim from) = true -> q_rep from = RFlt f -> q_rep to = RInt t ->
  cast_ratio est (q_dim from) (q_unit from) (q_dim to) (q_unit to) = Ok c ->
  is_value (q_rep from) n -> factor_in_range f c -> mid_range f (nval n * Q2R (m1 / m2)) ->
  exists z, within f (roundings (q_rep from) c) z (nval n * Q2R (m1 / m2)) /\
    quantity_cast est from to n = (if in_range t (Ztrunc z) then Ok (NInt (Ztrunc z)) else Undef).
Proof. exact cast_to_integer. Qed.
Print Assumptions C22_to_integer.

(** The same unit: nothing changes, not even a NaN, an infinity or the sign of a zero. *)
Theorem C22_identity : forall est t f m x, sized est t m -> q_rep t = RFlt f -> rexp (u_ratio (q_unit t)) <> INTMAX_MIN ->
  valid_binary (fprec f) (femax f) x = true -> dim_equivalent (q_dim t) (q_dim t) = true ->
  quantity_cast est t t (NFlt x) = Ok (NFlt x).
Proof. exact cast_identity. Qed.
Print Assumptions C22_identity.

(** Whole numbers of a unit that is a whole multiple of the target are converted exactly
    while everything fits the significand. *)
Theorem C22_exact : forall est from to f m1 m2 c k x z, sized est from m1 -> sized est to m2 -> references_ok from to ->
  dim_equivalent (q_dim to) (q_dim from) = true -> q_rep from = RFlt f -> q_rep to = RFlt f ->
  cast_ratio est (q_dim from) (q_unit from) (q_dim to) (q_unit to) = Ok c ->
  (m1 == inject_Z k * m2)%Q -> (k * rden c <= 2 ^ fprec f)%Z ->
  is_number f x -> fval x = IZR z -> (Z.abs (z * k) <= 2 ^ fprec f)%Z ->
  exists y, quantity_cast est from to (NFlt x) = Ok (NFlt y) /\ is_number f y /\ fval y = IZR (z * k).
Proof. exact cast_exact. Qed.
Print Assumptions C22_exact.

(** The order is kept. *)
Theorem C22_monotone : forall est from to f g c a b x y m1 m2, sized est from m1 -> sized est to m2 -> references_ok from to ->
  cast_rep (q_rep from) (q_rep to) = RFlt f -> q_rep to = RFlt g ->
  cast_ratio est (q_dim from) (q_unit from) (q_dim to) (q_unit to) = Ok c -> factor_in_range f c ->
  is_value (q_rep from) a -> is_value (q_rep from) b -> nval a <= nval b ->
  quantity_cast est from to a = Ok (NFlt x) -> quantity_cast est from to b = Ok (NFlt y) ->
  is_number g x -> is_number g y -> fval x <= fval y.
Proof. exact cast_monotone. Qed.
Print Assumptions C22_monotone.

(** There and back: the errors add up, the unit does not. *)
Theorem C22_round_trip : forall est from to f m1 m2 c c' n, sized est from m1 -> sized est to m2 -> references_ok from to ->
  references_ok to from -> dim_equivalent (q_dim to) (q_dim from) = true -> dim_equivalent (q_dim from) (q_dim to) = true ->
  q_rep from = RFlt f -> q_rep to = RFlt f ->
  cast_ratio est (q_dim from) (q_unit from) (q_dim to) (q_unit to) = Ok c ->
  cast_ratio est (q_dim to) (q_unit to) (q_dim from) (q_unit from) = Ok c' ->
  is_value (RFlt f) n -> factor_in_range f c -> factor_in_range f c' ->
  mid_range f (nval n) -> mid_range f (nval n * Q2R (m1 / m2)) ->
  exists y z, quantity_cast est from to n = Ok (NFlt y) /\ quantity_cast est to from (NFlt y) = Ok (NFlt z) /\
    within f (roundings (RFlt f) c + roundings (RFlt f) c') (fval z) (nval n).
Proof. exact cast_round_trip. Qed.
Print Assumptions C22_round_trip.

(** Durations in hours and in seconds as doubles. *)
Definition flt (d : bdim) (u : cunit) (f : fty) : qtype := QType (DBase d) u (RFlt f).
Lemma flt_sized_time : forall est u f, unit_good u -> u_ref u = "second"%string -> sized est (flt dim_T u f) (rval (u_ratio u)).
Proof.
  intros est u f G R. apply base_sized; auto.
  - vm_compute. repeat split; congruence.
  - unfold unit_of. rewrite R. reflexivity.
Qed.
Lemma mid_small : forall f r, bpow radix2 (-100) <= Rabs r <= bpow radix2 100 -> mid_range f r.
Proof.
  intros f r [A B]. right. split; [eapply Rle_trans; [|exact A]|eapply Rle_trans; [exact B|]]; apply bpow_le; destruct f; cbn; lia.
Qed.
Lemma mid_int : forall f z, (1 <= z <= 2 ^ 60)%Z -> mid_range f (IZR z).
Proof.
  intros f z H. apply int_mid. lia.
Qed.
(** 1.1 h is 3960.0000000000005 s, 0.1 h are 360 s, -0.0 h stay -0.0 h. *)
Definition one_point_one := S754_finite false 4953959590107546 (-52).
Definition one_tenth := S754_finite false 7205759403792794 (-56).
Example C22_ex : forall est,
  quantity_cast est (flt dim_T hour F64) (flt dim_T second F64) (NFlt one_point_one) = Ok (NFlt (S754_finite false 8708132091985921 (-41))) /\
  quantity_cast est (flt dim_T hour F64) (flt dim_T second F64) (NFlt one_tenth) = Ok (NFlt (S754_finite false 6333186975989760 (-44))) /\
  quantity_cast est (flt dim_T hour F64) (times second I64) (NFlt one_point_one) = Ok (NInt 3960) /\
  quantity_cast est (flt dim_T hour F64) (flt dim_T hour F64) (NFlt (S754_zero true)) = Ok (NFlt (S754_zero true)) /\
  quantity_cast est (flt dim_T hour F64) (flt dim_T hour F64) (NFlt S754_nan) = Ok (NFlt S754_nan).
Proof. intros est. vm_compute. auto. Qed.
Example C22_ex_hypotheses : forall est, sized est (flt dim_T hour F64) (rval (Ratio 36 1 2)) /\
  sized est (flt dim_T second F64) (rval (Ratio 1 1 0)) /\ references_ok (flt dim_T hour F64) (flt dim_T second F64) /\
  cast_ratio est (DBase dim_T) hour (DBase dim_T) second = Ok (Ratio 36 1 2) /\
  cast_rep (RFlt F64) (RFlt F64) = RFlt F64 /\ is_value (RFlt F64) (NFlt one_point_one) /\ factor_in_range F64 (Ratio 36 1 2) /\
  mid_range F64 (nval (NFlt one_point_one) * Q2R (rval (Ratio 36 1 2) / rval (Ratio 1 1 0))) /\
  roundings (RFlt F64) (Ratio 36 1 2) = 7%nat.
Proof.
  intros est. destruct good_units as (_ & _ & _ & Gs & _ & Gh & _).
  split; [now apply (flt_sized_time est hour)|]. split; [now apply (flt_sized_time est second)|].
  split; [now apply references_ok_refl|]. split; [reflexivity|]. split; [reflexivity|].
  split; [split; reflexivity|].
  split.
  { unfold factor_in_range. cbn [rnum rden rexp]. rewrite powerRZ_Z by lia. rewrite <- mult_IZR.
    replace (IZR (36 * 10 ^ 2) / IZR 1) with (IZR (36 * 10 ^ 2)) by field.
    split; [|split]; apply mid_int; lia. }
  split; [|reflexivity].
  rewrite (Qeq_eqR _ (inject_Z 3600)) by (vm_compute; reflexivity). rewrite Q2R_Z.
  assert (V : nval (NFlt one_point_one) = IZR 4953959590107546 * bpow radix2 (-52)) by reflexivity. rewrite V.
  rewrite Rmult_assoc, (Rmult_comm _ (IZR 3600)), <- Rmult_assoc, <- mult_IZR.
  assert (A : 1 <= IZR (4953959590107546 * 3600)) by (apply IZR_le; lia).
  assert (B : IZR (4953959590107546 * 3600) <= bpow radix2 80).
  { rewrite <- (IZR_Zpower radix2) by lia. apply IZR_le. vm_compute. discriminate. }
  pose proof (bpow_gt_0 radix2 (-52)) as P.
  apply mid_small. rewrite Rabs_right by (apply Rle_ge, Rmult_le_pos; lra). split.
  - apply Rle_trans with (1 * bpow radix2 (-52)); [rewrite Rmult_1_l; apply bpow_le; lia|]. apply Rmult_le_compat_r; lra.
  - apply Rle_trans with (bpow radix2 80 * bpow radix2 (-52)); [apply Rmult_le_compat_r; lra|]. rewrite <- bpow_plus. apply bpow_le. lia.
Qed.
(** The conditions of exactness: hours to seconds, up to 2^53/3600 hours. *)
Example C22_ex_exact : (rval (Ratio 36 1 2) == inject_Z 3600 * rval (Ratio 1 1 0))%Q /\
  (3600 * rden (Ratio 36 1 2) <= 2 ^ fprec F64)%Z /\ fval (float_of_int F64 1000000) = IZR 1000000 /\
  (Z.abs (1000000 * 3600) <= 2 ^ fprec F64)%Z.
Proof.
  split; [vm_compute; reflexivity|]. split; [vm_compute; discriminate|]. split; [|vm_compute; discriminate].
  apply (of_int_exact F64 1000000). vm_compute. discriminate.
Qed.
(** Far outside the range a defined result can be wrong by any factor: the factor 10^-324
    becomes zero although the result, 10^-20, is representable. *)
Definition tiny_time : cunit := (mk_sample_unit "tiny" "t" (Ratio 1 1 (-324)) "second")%string.
Theorem C22_underflow_refuted : forall est,
  quantity_cast est (flt dim_T tiny_time F64) (flt dim_T second F64) (NFlt (fpow10 F64 304)) = Ok (NFlt (S754_zero false)).
Proof. intros est. vm_compute. reflexivity. Qed.
Print Assumptions C22_underflow_refuted.

(** * C15: the run-time square root *)

Theorem C15_runtime_sqrt : forall other v x, (0 <= v < 3037000498 ^ 2)%Z -> floor_root 2 v x ->
  iroot (runtime_estimate other) 2 v = Ok x.
Proof. exact runtime_sqrt. Qed.
Print Assumptions C15_runtime_sqrt.

(** The largest operands: [(root + 1) * (root + 1)] overflows. *)
Theorem C15_runtime_overflow_refuted : forall other, iroot (runtime_estimate other) 2 INTMAX_MAX = Undef /\
  floor_root 2 INTMAX_MAX 3037000499.
Proof. intros other. split; [vm_compute; reflexivity|]. split; [lia|]. split; vm_compute; (discriminate || reflexivity). Qed.
Print Assumptions C15_runtime_overflow_refuted.

Example C15_runtime_ex : forall other, iroot (runtime_estimate other) 2 (3037000497 ^ 2) = Ok 3037000497%Z /\
  iroot (runtime_estimate other) 2 (3037000497 ^ 2 - 1) = Ok 3037000496%Z /\ floor_root 2 (3037000497 ^ 2 - 1) 3037000496.
Proof. intros other. split; [|split]; [vm_compute; reflexivity..|]. split; [lia|]. split; vm_compute; (discriminate || reflexivity). Qed.
