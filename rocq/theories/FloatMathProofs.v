(** Numbers of powers, roots and absolute values of quantities. *)

From Coq Require Import ZArith Reals Lia Lra Psatz Bool SpecFloat.
From Flocq Require Import Core BinarySingleNaN.
From Verif Require Import Outcome CInt Root Rep SpecRatio SpecReal FloatProofs FloatCastProofs Ratio Unit Dim DimOp
  QuantityCast Quantity SpecQuantity Math.
Local Open Scope R_scope.

(** [std::pow] returns the whole number x^N when that is a number of the format. *)
Definition exact_pow (l : libm) : Prop := forall f x y z N, is_number f x -> is_number f y ->
  fval x = IZR z -> fval y = IZR N -> (0 < N)%Z -> (Z.abs (z ^ N) <= 2 ^ fprec f)%Z ->
  is_number f (m_pow l f x y) /\ fval (m_pow l f x y) = IZR (z ^ N).

Lemma pow_fty_wide : forall r, (53 <= fprec (pow_fty r))%Z.
Proof. intros [t|[]]; discriminate. Qed.

Lemma conv_int_exact : forall f x z, is_number F64 x -> fval x = IZR z -> (Z.abs z <= 2 ^ fprec f)%Z ->
  is_number f (float_conv f x) /\ fval (float_conv f x) = IZR z.
Proof.
  intros f x z [_ F] V L. pose proof (frnd_id f (IZR z) (format_int f z L)) as E.
  destruct (conv_rounds f x F) as [A B].
  { rewrite V, E. rewrite <- E. apply frnd_lt_emax with (e := fprec f); [destruct f; discriminate|destruct f; reflexivity|].
    rewrite <- abs_IZR, <- (IZR_Zpower radix2) by (destruct f; discriminate). now apply IZR_le. }
  rewrite V, E in B. auto.
Qed.

Lemma trunc_back : forall t x z, is_finite_SF x = true -> fval x = IZR z -> in_range t z = true ->
  n_convert (RInt t) (NFlt x) = Ok (NInt z).
Proof. intros t x z F V R. cbn [n_convert]. rewrite trunc_value by exact F. rewrite V, Ztrunc_IZR, R. reflexivity. Qed.

Lemma base_small : forall z N k, (0 < N)%Z -> (Z.abs (z ^ N) <= k)%Z -> (Z.abs z <= k)%Z.
Proof.
  intros z N k P H. rewrite Z.abs_pow in H. set (a := Z.abs z) in *. assert (0 <= a)%Z by apply Z.abs_nonneg.
  destruct (Z.eq_dec a 0) as [E|E]; [rewrite E, Z.pow_0_l in *; lia|].
  apply Z.le_trans with (a ^ N)%Z; auto. replace a with (a ^ 1)%Z at 1 by lia. apply Z.pow_le_mono_r; lia.
Qed.

Lemma pow_number : forall l t z N, exact_pow l -> (0 < N <= 2 ^ 53)%Z -> (Z.abs (z ^ N) <= 2 ^ 53)%Z ->
  in_range t (z ^ N) = true ->
  let f := pow_fty (RInt t) in
  n_convert (RInt t) (NFlt (m_pow l f (to_float f (NInt z))
    (float_conv f (SFdiv (fprec F64) (femax F64) (float_of_int F64 N) (float_of_int F64 1))))) = Ok (NInt (z ^ N)).
Proof.
  intros l t z N X HN B R. cbn [pow_fty to_float].
  destruct (of_int_exact F64 z) as [A1 B1]; [cbn [fprec]; apply (base_small z N); [lia|exact B]|].
  destruct (of_int_exact F64 N) as [A2 B2]; [cbn [fprec]; lia|].
  destruct (of_int_exact F64 1) as [A3 B3]; [cbn [fprec]; lia|].
  assert (E : frnd F64 (fval (float_of_int F64 N) / fval (float_of_int F64 1)) = IZR N).
  { rewrite B2, B3. replace (IZR N / 1) with (IZR N) by field. apply frnd_id, format_int. cbn [fprec]. lia. }
  destruct (div_rounds F64 _ _ A2 A3) as [A4 B4].
  { rewrite B3. lra. }
  { rewrite E, <- (frnd_id F64 (IZR N)) by (apply format_int; cbn [fprec]; lia).
    apply frnd_lt_emax with (e := 53%Z); [discriminate|reflexivity|].
    rewrite <- abs_IZR, <- (IZR_Zpower radix2) by discriminate. apply IZR_le. change (radix2 ^ 53)%Z with (2 ^ 53)%Z. lia. }
  rewrite E in B4.
  destruct (conv_int_exact F64 _ N A4 B4) as [A5 B5]; [cbn [fprec]; lia|].
  destruct (X F64 _ _ z N A1 A5 B1 B5) as [A6 B6]; [lia|exact B|].
  apply trunc_back; auto. apply A6.
Qed.

(** The square root of a whole number below 2^52, computed in double and truncated. *)
Lemma sqrt_number : forall t z x, (0 <= z < 2 ^ 52)%Z -> in_range t z = true -> floor_root 2 z x ->
  n_convert (RInt t) (NFlt (SFsqrt (fprec F64) (femax F64) (to_float F64 (NInt z)))) = Ok (NInt x).
Proof.
  intros t z x B R (X0 & X1 & X2). change (x ^ 2 <= z)%Z in X1. change (z < (x + 1) ^ 2)%Z in X2.
  cbn [to_float]. destruct (of_int_exact F64 z) as [A1 B1]; [cbn [fprec]; lia|].
  destruct (sqrt_rounds F64 _ A1) as [A2 B2]; [rewrite B1; apply IZR_le; lia|]. rewrite B1 in B2.
  cbn [n_convert]. rewrite trunc_value by apply A2. rewrite B2.
  assert (Xb : (x + 1 <= 2 ^ 26)%Z) by nia.
  set (s := sqrt (IZR z)) in *.
  assert (Ss : s * s = IZR z) by (apply sqrt_sqrt, IZR_le; lia).
  assert (Sp : 0 <= s) by apply sqrt_pos.
  assert (L : IZR x <= s).
  { unfold s. rewrite <- (sqrt_square (IZR x)) by (apply IZR_le; lia). apply sqrt_le_1_alt. rewrite <- mult_IZR. apply IZR_le. lia. }
  assert (U : IZR z <= (IZR x + 1) * (IZR x + 1) - 1).
  { rewrite <- (plus_IZR x 1), <- mult_IZR, <- minus_IZR. apply IZR_le. lia. }
  set (y := IZR x + 1) in *.
  assert (Y1 : 1 <= y) by (unfold y; rewrite <- (plus_IZR x 1); apply IZR_le; lia).
  assert (Y2 : y <= bpow radix2 26).
  { unfold y. rewrite <- (plus_IZR x 1), <- (IZR_Zpower radix2) by discriminate. apply IZR_le. exact Xb. }
  assert (G : s * (2 * y) <= 2 * y * y - 1) by nra.
  assert (Sy : s < y) by nra.
  assert (E : Rabs (frnd F64 s - s) <= bpow radix2 (-28)).
  { eapply Rle_trans; [apply error_le_half_ulp; apply FLT_exp_valid, fprec_pos|].
    assert (W : ulp radix2 (FLT_exp (3 - femax F64 - fprec F64) (fprec F64)) s <= bpow radix2 (-27)).
    { destruct (Req_dec s 0) as [->|Nz].
      - rewrite ulp_FLT_small; [apply bpow_le; discriminate|apply fprec_pos|]. rewrite Rabs_R0. apply bpow_gt_0.
      - rewrite ulp_neq_0 by exact Nz. apply bpow_le. unfold cexp.
        assert (M : (mag radix2 s <= 26)%Z). { apply mag_le_bpow; auto. rewrite Rabs_right by lra. lra. }
        unfold FLT_exp. cbn [fprec femax]. lia. }
    change (-27)%Z with (-28 + 1)%Z in W. rewrite bpow_plus in W. change (bpow radix2 1) with 2 in W. lra. }
  assert (H28 : bpow radix2 (-28) * bpow radix2 26 = / 4) by (rewrite <- bpow_plus; reflexivity).
  assert (E28 : bpow radix2 (-28) * y <= / 4).
  { rewrite <- H28. apply Rmult_le_compat_l; [apply bpow_ge_0|exact Y2]. }
  assert (Hi : frnd F64 s < y).
  { apply Rabs_le_inv in E. assert (frnd F64 s <= s + bpow radix2 (-28)) by lra.
    apply Rle_lt_trans with (s + bpow radix2 (-28)); auto. nra. }
  assert (Lo : IZR x <= frnd F64 s).
  { rewrite <- (frnd_id F64 (IZR x)) by (apply format_int; cbn [fprec]; lia). now apply frnd_le. }
  assert (T : Ztrunc (frnd F64 s) = x).
  { rewrite Ztrunc_floor by (apply Rle_trans with (IZR x); auto; apply IZR_le; lia). apply Zfloor_imp. rewrite plus_IZR. auto. }
  rewrite T. assert (R' : in_range t x = true).
  { apply in_range_spec in R. apply in_range_spec. destruct t as [w []]; unfold imin, imax in *; cbn [isigned iwidth] in *;
      assert (0 < 2 ^ (wbits w - 1))%Z by (destruct w; reflexivity); nia. }
  rewrite R'. reflexivity.
Qed.

Lemma sqrt_accuracy : forall f x, is_number f x -> 0 <= fval x ->
  is_number f (SFsqrt (fprec f) (femax f) x) /\ within f 1 (fval (SFsqrt (fprec f) (femax f) x)) (sqrt (fval x)).
Proof.
  intros f x Hx P. destruct (sqrt_rounds f x Hx P) as [A B]. split; auto. rewrite B.
  apply near_within.
  { change (INR 1) with 1. rewrite Rmult_1_l. eapply Rle_lt_trans; [apply roundoff_small|]. apply (bpow_lt radix2 _ 0). reflexivity. }
  apply near_round_0. destruct (Req_dec (fval x) 0) as [Z|Nz]; [left; now rewrite Z, sqrt_0|right].
  assert (L : bpow radix2 (3 - femax f - fprec f) <= fval x).
  { apply (generic_format_ge_bpow radix2 (FLT_exp (3 - femax f - fprec f) (fprec f))); [|lra|now apply number_format].
    intros e. apply Z.le_max_r. }
  rewrite Rabs_right by (apply Rle_ge, sqrt_pos).
  rewrite <- (sqrt_square (bpow radix2 (2 - femax f))) by apply bpow_ge_0. apply sqrt_le_1_alt. eapply Rle_trans; [|exact L].
  rewrite <- bpow_plus. apply bpow_le. destruct f; discriminate.
Qed.

(** ** Absolute values *)

Lemma abs_int : forall t z, std_abs (RInt t) (NInt z) =
  if negb (isigned (promote t)) then IllFormed
  else if (z <? 0)%Z && negb (in_range (promote t) (- z)) then Undef else Ok (RInt (promote t), NInt (Z.abs z)).
Proof.
  intros t z. cbn [std_abs]. destruct (isigned (promote t)) eqn:S; cbn [negb constrained bind]; [|reflexivity].
  destruct (Z.ltb_spec z 0) as [L|L]; cbn [andb bind].
  - unfold cneg, arith. rewrite S. destruct (in_range (promote t) (- z)); cbn [negb bind]; [|reflexivity].
    now rewrite Z.abs_neq by lia.
  - now rewrite Z.abs_eq by lia.
Qed.

Lemma abs_float : forall f x, is_number f x -> is_number f (SFabs x) /\ fval (SFabs x) = Rabs (fval x).
Proof.
  intros f x [V F]. destruct x as [s|s| |s m e]; try discriminate.
  - split; [split; [exact V|reflexivity]|]. cbn. now rewrite Rabs_R0.
  - split; [split; [exact V|reflexivity]|]. unfold fval. cbn [SFabs SF2R]. rewrite <- F2R_Zabs. destruct s; reflexivity.
Qed.

(** ** The epsilon *)

Lemma epsilon_value : forall f, exists x, rep_epsilon (RFlt f) = NFlt x /\ is_number f x /\ fval x = bpow radix2 (1 - fprec f).
Proof.
  intros f. eexists. split; [reflexivity|].
  assert (E : F2R (Float radix2 1 (1 - fprec f)) = bpow radix2 (1 - fprec f)) by (unfold F2R; cbn [Fnum Fexp]; ring).
  pose proof (frnd_id f (bpow radix2 (1 - fprec f))) as I. specialize (I ltac:(apply format_bpow; destruct f; discriminate)).
  destruct (normalize_rounds f 1 (1 - fprec f) false) as [A B].
  - rewrite E, I, Rabs_right by (apply Rle_ge, bpow_ge_0). apply bpow_lt. destruct f; reflexivity.
  - rewrite E, I in B. auto.
Qed.

(** It is the distance from one to the next number. *)
Lemma epsilon_gap : forall f y, is_number f y -> 1 < fval y -> 1 + bpow radix2 (1 - fprec f) <= fval y.
Proof.
  intros f y H L. pose proof (number_format f y H) as F.
  assert (F1 : in_format f 1) by (apply (format_int f 1); destruct f; discriminate).
  assert (S : succ radix2 (FLT_exp (3 - femax f - fprec f) (fprec f)) 1 <= fval y).
  { apply succ_le_lt; auto. apply FLT_exp_valid, fprec_pos. }
  rewrite succ_eq_pos in S by lra. change 1 with (bpow radix2 0) in S at 2. rewrite ulp_bpow in S.
  replace (FLT_exp (3 - femax f - fprec f) (fprec f) (0 + 1)) with (1 - fprec f)%Z in S; [exact S|].
  unfold FLT_exp. destruct f; reflexivity.
Qed.
