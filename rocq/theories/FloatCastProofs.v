(** [fpow10] and [quantity_cast] on floating-point representations. *)

From Coq Require Import ZArith Reals QArith Qpower Qreals String List Lia Lra Psatz Bool SpecFloat.
From Flocq Require Import Core BinarySingleNaN.
From Verif Require Import Outcome CInt Ratio SpecRatio QTen RatioProofs2 Unit Dim DimOp Equivalent SpecDim SpecUnit Rep QuantityCast Quantity
  SpecQuantity MagnitudeProofs CastProofs SpecReal FloatProofs.
Local Open Scope R_scope.

(** ** Operations on values known up to some roundings *)

Lemma mid_bounds : forall f k p r, (Z.of_nat k <= 2 ^ 23)%Z -> mid_range f r -> near f k p r ->
  (p = 0 \/ bpow radix2 (2 - femax f) <= Rabs p) /\ Rabs p <= bpow radix2 (femax f - 1).
Proof.
  intros f k p r K M N. destruct M as [->|[A B]].
  - apply near_0 in N. subst. split; auto. rewrite Rabs_R0. apply bpow_ge_0.
  - destruct (near_between f k p r K N) as [C D].
    assert (E1 : bpow radix2 (3 - femax f) = bpow radix2 (2 - femax f) * 2).
    { replace (3 - femax f)%Z with (2 - femax f + 1)%Z by lia. now rewrite bpow_plus. }
    assert (E2 : bpow radix2 (femax f - 1) = bpow radix2 (femax f - 2) * 2).
    { replace (femax f - 1)%Z with (femax f - 2 + 1)%Z by lia. now rewrite bpow_plus. }
    split; [right|]; lra.
Qed.
Lemma emin_small : forall f, (3 - femax f - fprec f <= femax f - 1)%Z.
Proof. intros []; cbn; lia. Qed.
Lemma near_round_mid : forall f k p r, (Z.of_nat k <= 2 ^ 23)%Z -> mid_range f r -> near f k p r ->
  Rabs (frnd f p) < bpow radix2 (femax f) /\ near f (k + 1) (frnd f p) r.
Proof.
  intros f k p r K M N. destruct (mid_bounds f k p r K M N) as [A B]. split.
  - apply frnd_lt_emax with (e := (femax f - 1)%Z); auto; [apply emin_small|lia].
  - rewrite Nat.add_comm. eapply near_trans; [apply near_round_0; exact A|exact N].
Qed.
Lemma mul_near : forall f k l x y r s, is_number f x -> is_number f y -> near f k (fval x) r -> near f l (fval y) s ->
  (Z.of_nat (k + l) <= 2 ^ 23)%Z -> mid_range f (r * s) ->
  is_number f (SFmul (fprec f) (femax f) x y) /\ near f (k + l + 1) (fval (SFmul (fprec f) (femax f) x y)) (r * s).
Proof.
  intros f k l x y r s Nx Ny X Y K M. destruct (near_round_mid f (k + l) _ _ K M (near_mul _ _ _ _ _ _ _ X Y)) as [L N].
  destruct (mul_rounds f x y Nx Ny L) as [A ->]. auto.
Qed.
Lemma div_near : forall f k l x y r s, is_number f x -> is_number f y -> near f k (fval x) r -> near f l (fval y) s -> s <> 0 ->
  (Z.of_nat (k + l) <= 2 ^ 23)%Z -> mid_range f (r / s) ->
  is_number f (SFdiv (fprec f) (femax f) x y) /\ near f (k + l + 1) (fval (SFdiv (fprec f) (femax f) x y)) (r / s).
Proof.
  intros f k l x y r s Nx Ny X Y S K M.
  destruct (near_round_mid f (k + l) _ _ K M (near_mul _ _ _ _ _ _ _ X (near_inv _ _ _ _ S Y))) as [L N].
  destruct (div_rounds f x y Nx Ny (near_neq0 _ _ _ _ Y S) L) as [A B]. rewrite B. auto.
Qed.

(** ** fpow10 *)

Lemma ten_exact : forall f, is_number f (float_of_int f 10) /\ fval (float_of_int f 10) = 10.
Proof. intros f. apply (of_int_exact f 10). destruct f; discriminate. Qed.
Lemma one_exact : forall f, is_number f (float_of_int f 1) /\ fval (float_of_int f 1) = 1.
Proof. intros f. apply (of_int_exact f 1). destruct f; discriminate. Qed.

Definition fup (f : fty) (n : nat) : spec_float :=
  Nat.iter n (fun r => SFmul (fprec f) (femax f) r (float_of_int f 10)) (float_of_int f 1).
Definition fdown (f : fty) (n : nat) : spec_float :=
  Nat.iter n (fun r => SFdiv (fprec f) (femax f) r (float_of_int f 10)) (float_of_int f 1).
Lemma fpow10_iter : forall f e, fpow10 f e = if (0 <=? e)%Z then fup f (Z.abs_nat e) else fdown f (Z.abs_nat e).
Proof.
  intros f [|p|p]; cbn [fpow10 Z.leb Z.compare Z.abs_nat]; [reflexivity| |];
  rewrite Pos2Nat.inj_iter; reflexivity.
Qed.

Lemma ten_ge_1 : forall n, 1 <= 10 ^ n.
Proof. intros. apply pow_R1_Rle. lra. Qed.
Lemma small_steps : forall f n, 10 ^ n <= bpow radix2 (femax f) -> (Z.of_nat n <= 16384)%Z.
Proof.
  intros f n H. assert (A : bpow radix2 (Z.of_nat n) <= bpow radix2 (femax f)).
  { apply Rle_trans with (10 ^ n); auto. rewrite bpow_powerRZ. cbn [radix_val radix2]. rewrite <- pow_powerRZ.
    apply pow_incr. lra. }
  apply le_bpow in A. destruct f; cbn in A; lia.
Qed.
Lemma emax_lt : forall f, (3 - femax f <= 0)%Z /\ (0 <= femax f - 2)%Z.
Proof. intros []; cbn; lia. Qed.

Lemma fup_near : forall f n, 10 ^ n <= bpow radix2 (femax f - 2) ->
  is_number f (fup f n) /\ near f n (fval (fup f n)) (10 ^ n).
Proof.
  intros f n. induction n as [|n IH]; intros H.
  - destruct (one_exact f) as [A B]. split; [exact A|]. change (fval (fup f 0)) with (fval (float_of_int f 1)). rewrite B. apply near_refl.
  - pose proof (ten_ge_1 n) as T. assert (Hn : 10 ^ n <= bpow radix2 (femax f - 2)) by (cbn [pow] in H; lra).
    destruct (IH Hn) as [A B]. destruct (ten_exact f) as [C D].
    assert (K : (Z.of_nat n <= 16384)%Z).
    { apply (small_steps f). eapply Rle_trans; [exact Hn|]. apply bpow_le. lia. }
    destruct (mul_near f n 0 (fup f n) (float_of_int f 10) (10 ^ n) 10) as [E F]; auto.
    + rewrite D. apply near_refl.
    + lia.
    + right. rewrite Rabs_right by lra. cbn [pow] in H. split; [|lra].
      apply Rle_trans with 1; [|lra]. apply (bpow_le radix2 _ 0). apply emax_lt.
    + rewrite Nat.add_0_r, Nat.add_1_r in F. cbn [pow]. rewrite (Rmult_comm 10). auto.
Qed.
Lemma fdown_near : forall f n, 10 ^ n <= bpow radix2 (femax f - 3) ->
  is_number f (fdown f n) /\ near f n (fval (fdown f n)) (/ 10 ^ n).
Proof.
  intros f n. induction n as [|n IH]; intros H.
  - destruct (one_exact f) as [A B]. split; [exact A|]. change (fval (fdown f 0)) with (fval (float_of_int f 1)). rewrite B. cbn [pow].
    rewrite Rinv_1. apply near_refl.
  - pose proof (ten_ge_1 n) as T. assert (Hn : 10 ^ n <= bpow radix2 (femax f - 3)) by (cbn [pow] in H; lra).
    destruct (IH Hn) as [A B]. destruct (ten_exact f) as [C D].
    assert (K : (Z.of_nat n <= 16384)%Z).
    { apply (small_steps f). eapply Rle_trans; [exact Hn|]. apply bpow_le. lia. }
    assert (Q : / 10 ^ n / 10 = / 10 ^ S n) by (cbn [pow]; field; lra).
    assert (P : 0 < / 10 ^ S n) by (apply Rinv_0_lt_compat; cbn [pow]; lra).
    destruct (div_near f n 0 (fdown f n) (float_of_int f 10) (/ 10 ^ n) 10) as [E F]; auto; try lra.
    + rewrite D. apply near_refl.
    + lia.
    + rewrite Q. right. rewrite Rabs_right by lra. split.
      * replace (3 - femax f)%Z with (- (femax f - 3))%Z by lia. rewrite bpow_opp. apply Rinv_le; [|exact H]. cbn [pow]. lra.
      * apply Rle_trans with 1.
        -- rewrite <- Rinv_1. apply Rinv_le; [lra|apply ten_ge_1].
        -- apply (bpow_le radix2 0). apply emax_lt.
    + rewrite Nat.add_0_r, Nat.add_1_r, Q in F. auto.
Qed.

Lemma powerRZ_abs : forall e, (0 <= e)%Z -> powerRZ 10 e = 10 ^ Z.abs_nat e.
Proof. intros [|p|p] H; try lia; reflexivity. Qed.
Lemma powerRZ_abs_neg : forall e, (e < 0)%Z -> powerRZ 10 e = / 10 ^ Z.abs_nat e.
Proof. intros [|p|p] H; try lia. reflexivity. Qed.

Lemma fpow10_near : forall f e, mid_range f (powerRZ 10 e) ->
  is_number f (fpow10 f e) /\ near f (Z.abs_nat e) (fval (fpow10 f e)) (powerRZ 10 e).
Proof.
  intros f e [M|[A B]]; [exfalso; apply (powerRZ_NOR 10 e); [lra|exact M]|].
  assert (P : 0 < powerRZ 10 e) by (apply powerRZ_lt; lra). rewrite Rabs_right in A, B by lra.
  rewrite fpow10_iter. destruct (Z.leb_spec 0 e) as [H|H].
  - rewrite powerRZ_abs in * by lia. now apply fup_near.
  - rewrite powerRZ_abs_neg in * by lia. apply fdown_near. pose proof (ten_ge_1 (Z.abs_nat e)) as T.
    replace (femax f - 3)%Z with (- (3 - femax f))%Z by lia. rewrite bpow_opp. rewrite <- (Rinv_inv (10 ^ Z.abs_nat e)).
    apply Rinv_le; [apply bpow_gt_0|exact A].
Qed.
Lemma mid_steps : forall f e, mid_range f (powerRZ 10 e) -> (Z.of_nat (Z.abs_nat e) <= 16384)%Z.
Proof.
  intros f e [M|[A B]]; [exfalso; apply (powerRZ_NOR 10 e); [lra|exact M]|].
  assert (P : 0 < powerRZ 10 e) by (apply powerRZ_lt; lra). rewrite Rabs_right in A, B by lra.
  destruct (Z.leb_spec 0 e) as [H|H].
  - rewrite powerRZ_abs in * by lia. apply (small_steps f). eapply Rle_trans; [exact B|]. apply bpow_le. lia.
  - rewrite powerRZ_abs_neg in * by lia. pose proof (ten_ge_1 (Z.abs_nat e)) as T. apply (small_steps f).
    apply Rle_trans with (bpow radix2 (- (3 - femax f))); [|apply bpow_le; lia].
    rewrite bpow_opp. rewrite <- (Rinv_inv (10 ^ Z.abs_nat e)). apply Rinv_le; [apply bpow_gt_0|exact A].
Qed.

(** Exact as long as the power of five fits the significand. *)
Lemma four_five : forall n, (4 ^ Z.of_nat n <= 5 ^ Z.of_nat n)%Z.
Proof. intros. apply Z.pow_le_mono_l. lia. Qed.
Lemma fup_exact : forall f n, (5 ^ Z.of_nat n <= 2 ^ fprec f)%Z -> is_number f (fup f n) /\ fval (fup f n) = 10 ^ n.
Proof.
  intros f n. induction n as [|n IH]; intros H; [apply one_exact|].
  assert (Hn : (5 ^ Z.of_nat n <= 2 ^ fprec f)%Z).
  { eapply Z.le_trans; [|exact H]. apply Z.pow_le_mono_r; lia. }
  destruct (IH Hn) as [A B]. destruct (ten_exact f) as [C D].
  assert (V : 10 ^ n * 10 = IZR (5 ^ Z.of_nat (S n)) * bpow radix2 (Z.of_nat (S n))).
  { rewrite bpow_powerRZ. cbn [radix_val radix2]. rewrite <- pow_powerRZ, <- pow_IZR.
    rewrite <- Rpow_mult_distr. replace (5 * 2) with 10 by ring. cbn [pow]. ring. }
  assert (L : (Z.of_nat (S n) <= fprec f)%Z).
  { pose proof (four_five (S n)) as X. assert (Y : (2 ^ (2 * Z.of_nat (S n)) <= 2 ^ fprec f)%Z).
    { rewrite Z.pow_mul_r by lia. change (2 ^ 2)%Z with 4%Z. lia. }
    apply Z.pow_le_mono_r_iff in Y; [lia|lia|destruct f; discriminate]. }
  assert (F : in_format f (10 ^ n * 10)).
  { rewrite V. apply format_mul_pow2; [rewrite Z.abs_eq by (apply Z.pow_nonneg; lia); exact H|destruct f; cbn [fprec femax] in *; lia]. }
  destruct (mul_rounds f (fup f n) (float_of_int f 10)) as [E G]; auto.
  - rewrite B, D, frnd_id by exact F. rewrite V. rewrite Rabs_right.
    2: { apply Rle_ge, Rmult_le_pos; [apply IZR_le; apply Z.pow_nonneg; lia|apply bpow_ge_0]. }
    apply Rle_lt_trans with (bpow radix2 (fprec f) * bpow radix2 (fprec f)).
    + apply Rmult_le_compat; [apply IZR_le; apply Z.pow_nonneg; lia|apply bpow_ge_0| |now apply bpow_le].
      rewrite <- (IZR_Zpower radix2) by (destruct f; discriminate). apply IZR_le. exact H.
    + rewrite <- bpow_plus. apply bpow_lt. destruct f; reflexivity.
  - split; [exact E|]. change (fup f (S n)) with (SFmul (fprec f) (femax f) (fup f n) (float_of_int f 10)).
    rewrite G, B, D, frnd_id by exact F. cbn [pow]. ring.
Qed.
Lemma fpow10_exact : forall f e, (0 <= e)%Z -> (5 ^ e <= 2 ^ fprec f)%Z ->
  is_number f (fpow10 f e) /\ fval (fpow10 f e) = powerRZ 10 e.
Proof.
  intros f e H L. rewrite fpow10_iter, powerRZ_abs by lia. rewrite (proj2 (Z.leb_le 0 e)) by lia. apply fup_exact.
  now rewrite Zabs2Nat.id_abs, Z.abs_eq.
Qed.

(** Beyond the range. *)
Lemma iter_fixed : forall (A : Type) (g : A -> A) a (x : A) n, g x = x -> Nat.iter n g a = x -> forall m, (n <= m)%nat -> Nat.iter m g a = x.
Proof.
  intros A g a x n F E m L. induction L as [|m L IH]; auto. change (Nat.iter (S m) g a) with (g (Nat.iter m g a)). congruence.
Qed.
Lemma fup_inf : forall f n, fup f n = S754_infinity false -> forall m, (n <= m)%nat -> fup f m = S754_infinity false.
Proof. intros f n. apply iter_fixed. now destruct f. Qed.
Lemma fdown_zero : forall f n, fdown f n = S754_zero false -> forall m, (n <= m)%nat -> fdown f m = S754_zero false.
Proof. intros f n. apply iter_fixed. now destruct f. Qed.

(** ** Conversions between representations *)

Lemma B_of : forall f x, valid_binary (fprec f) (femax f) x = true ->
  exists b : binary_float (fprec f) (femax f), B2SF b = x.
Proof. intros f x V. exists (SF2B x V). apply B2SF_SF2B. Qed.
Lemma number_lt_emax : forall f x, is_number f x -> Rabs (fval x) < bpow radix2 (femax f).
Proof. intros f x H. destruct (number_B f x H) as (b & <- & <- & _). apply abs_B2R_lt_emax. Qed.

(** Two numbers with the same value and the same sign are the same. *)
Definition fsign (x : spec_float) : bool :=
  match x with S754_zero s | S754_infinity s | S754_finite s _ _ => s | S754_nan => false end.
Lemma number_inj : forall f x y, is_number f x -> is_number f y -> fval x = fval y -> fsign x = fsign y -> x = y.
Proof.
  intros f x y Hx Hy V S. destruct (number_B f x Hx) as (bx & Ex & Vx & Fx). destruct (number_B f y Hy) as (b_y & Ey & Vy & Fy).
  rewrite <- Ex, <- Ey in *. f_equal. apply B2R_Bsign_inj; auto; [congruence|]. clear - S. destruct bx, b_y; exact S.
Qed.
Lemma fval_sign : forall x, is_finite_SF x = true -> fval x <> 0 -> fsign x = Rlt_bool (fval x) 0.
Proof.
  intros [s|s| |s m e] F N; try discriminate; [now elim N|]. unfold fval. cbn [SF2R fsign]. destruct s; cbn [cond_Zopp].
  - rewrite Rlt_bool_true; auto. now apply F2R_lt_0.
  - rewrite Rlt_bool_false; auto. now apply F2R_ge_0.
Qed.
Lemma number_inj_nz : forall f x y, is_number f x -> is_number f y -> fval x = fval y -> fval x <> 0 -> x = y.
Proof.
  intros f x y Hx Hy V N. apply (number_inj f); auto. rewrite !fval_sign; try apply Hx; try apply Hy; congruence.
Qed.

Lemma conv_wider : forall f g x, is_number g x -> (fprec g <= fprec f)%Z -> (femax g <= femax f)%Z ->
  is_number f (float_conv f x) /\ fval (float_conv f x) = fval x.
Proof.
  intros f g x N P E. assert (F : in_format f (fval x)).
  { pose proof (number_format g x N) as G. apply FLT_format_generic in G; [|apply fprec_pos]. destruct G as [[m e] G1 G2 G3].
    rewrite G1. cbn [Fnum Fexp] in *. apply format_mul_pow2; cbn [Fnum Fexp]; [|lia].
    apply Z.lt_le_incl, Z.lt_le_trans with (radix2 ^ fprec g)%Z; auto. change (radix2 ^ fprec g)%Z with (2 ^ fprec g)%Z.
    apply Z.pow_le_mono_r; lia. }
  destruct (conv_rounds f x) as [A B]; [apply N| |split; auto; now rewrite B, frnd_id].
  rewrite frnd_id by exact F. eapply Rlt_le_trans; [now apply (number_lt_emax g)|]. now apply bpow_le.
Qed.
Lemma conv_same : forall f x, valid_binary (fprec f) (femax f) x = true -> float_conv f x = x.
Proof.
  intros f x V. destruct x as [s|s| |s m e]; try reflexivity.
  assert (N : is_number f (S754_finite s m e)) by (split; auto).
  destruct (conv_wider f f _ N) as [A B]; [lia..|]. apply (number_inj_nz f); auto. rewrite B.
  unfold fval. cbn [SF2R]. destruct s; cbn [cond_Zopp].
  - apply Rlt_not_eq. now apply F2R_lt_0.
  - apply Rgt_not_eq. now apply F2R_gt_0.
Qed.

Definition narrower (g f : fty) : Prop := fty_max g f = f.
Lemma narrower_parts : forall g f, narrower g f -> (fprec g <= fprec f)%Z /\ (femax g <= femax f)%Z.
Proof. intros [] [] H; try discriminate H; cbn; lia. Qed.

Lemma int_mid : forall f z, (- 2 ^ 64 <= z <= 2 ^ 64)%Z -> mid_range f (IZR z).
Proof.
  intros f z H. destruct (Z.eq_dec z 0) as [->|N]; [now left|right]. rewrite <- abs_IZR. split.
  - apply Rle_trans with (IZR 1); [|apply IZR_le; lia]. apply (bpow_le radix2 _ 0). apply emax_lt.
  - apply Rle_trans with (bpow radix2 64).
    + rewrite <- (IZR_Zpower radix2) by lia. apply IZR_le. change (radix2 ^ 64)%Z with (2 ^ 64)%Z. lia.
    + apply bpow_le. destruct f; cbn; lia.
Qed.
Lemma of_int_near : forall f z, (- 2 ^ 64 <= z <= 2 ^ 64)%Z ->
  is_number f (float_of_int f z) /\ near f 1 (fval (float_of_int f z)) (IZR z).
Proof.
  intros f z H. destruct (near_round_mid f 0 (IZR z) (IZR z)) as [L N]; [lia|now apply int_mid|apply near_refl|].
  destruct (of_int_rounds f z L) as [A ->]. auto.
Qed.
Lemma in_range_64 : forall t z, in_range t z = true -> (- 2 ^ 64 <= z <= 2 ^ 64)%Z.
Proof.
  intros t z H. apply in_range_spec in H. assert (A : (- 2 ^ 64 <= imin t)%Z) by (destruct t as [[] []]; discriminate).
  assert (B : (imax t <= 2 ^ 64)%Z) by (destruct t as [[] []]; discriminate). lia.
Qed.

(** ** The factor of a cast *)

Definition cast_factor (f : fty) (c : ratio) : spec_float :=
  SFdiv (fprec f) (femax f) (SFmul (fprec f) (femax f) (float_of_int f (rnum c)) (fpow10 f (rexp c))) (float_of_int f (rden c)).

Lemma Q2R_ten : forall e, Q2R ((10 # 1) ^ e) = powerRZ 10 e.
Proof.
  assert (T : Q2R (10 # 1) = 10) by (unfold Q2R; cbn; lra).
  assert (P : forall p, Q2R (Qpower_positive (10 # 1) p) = 10 ^ Pos.to_nat p).
  { intros p. induction p as [|p IH] using Pos.peano_ind.
    - change (Qpower_positive (10 # 1) 1) with (10 # 1)%Q. rewrite T. change (Pos.to_nat 1) with 1%nat. now rewrite pow_1.
    - rewrite Pos2Nat.inj_succ. cbn [pow]. rewrite <- IH, <- T, <- Q2R_mult. apply Qeq_eqR.
      rewrite <- Pos.add_1_l. rewrite Qpower_plus_positive. reflexivity. }
  intros [|p|p]; cbn [Qpower powerRZ].
  - unfold Q2R; cbn; lra.
  - apply P.
  - rewrite Q2R_inv; [now rewrite P|]. intros E. apply Qeq_eqR in E. rewrite P in E.
    pose proof (ten_ge_1 (Pos.to_nat p)). unfold Q2R in E. cbn in E. lra.
Qed.
Lemma Q2R_Z : forall z, Q2R (inject_Z z) = IZR z.
Proof. intros. unfold Q2R. cbn. field. Qed.
Lemma Q2R_rval : forall c, rden c <> 0%Z -> Q2R (rval c) = IZR (rnum c) * powerRZ 10 (rexp c) / IZR (rden c).
Proof.
  intros c N. unfold rval, frac. rewrite Q2R_mult, Q2R_div, !Q2R_Z, Q2R_ten; [field; now apply IZR_neq|].
  intros E. apply N. unfold Qeq in E. cbn in E. lia.
Qed.

Lemma storable_64 : forall c, storable c -> (- 2 ^ 64 <= rnum c <= 2 ^ 64)%Z /\ (- 2 ^ 64 <= rden c <= 2 ^ 64)%Z.
Proof.
  intros c (A & B & _). assert (L : (INTMAX_MAX <= 2 ^ 64)%Z) by discriminate. lia.
Qed.

Lemma factor_near : forall f c, ratio_good c -> factor_in_range f c ->
  is_number f (cast_factor f c) /\ near f (Z.abs_nat (rexp c) + 4) (fval (cast_factor f c)) (Q2R (rval c)).
Proof.
  intros f c ((D & _) & S & N) (M1 & M2 & M3). destruct (storable_64 c S) as [S1 S2].
  rewrite Q2R_rval by lia. pose proof (mid_steps f _ M1) as K.
  destruct (fpow10_near f _ M1) as [A B]. destruct (of_int_near f _ S1) as [A1 B1]. destruct (of_int_near f _ S2) as [A2 B2].
  destruct (mul_near f 1 (Z.abs_nat (rexp c)) (float_of_int f (rnum c)) (fpow10 f (rexp c)) _ _ A1 A B1 B) as [A3 B3]; [lia|auto|].
  destruct (div_near f _ 1 _ _ _ _ A3 A2 B3 B2) as [A4 B4]; [apply IZR_neq; lia|lia|auto|].
  split; auto. eapply near_weaken; [|exact B4]. lia.
Qed.

Lemma cast_rep_from : forall from to f, cast_rep from to = RFlt f ->
  match from with RInt _ => to = RFlt f | RFlt g => narrower g f end.
Proof.
  intros [s|g] [t|h] f H; unfold cast_rep, common_rep, arith_rep in H; try discriminate H; injection H as <-;
  unfold narrower; try reflexivity; destruct g; try destruct h; reflexivity.
Qed.
Lemma cast_rep_to : forall from to f, cast_rep from to = RFlt f ->
  match to with RInt _ => from = RFlt f | RFlt g => narrower g f end.
Proof.
  intros [s|g] [t|h] f H; unfold cast_rep, common_rep, arith_rep in H; try discriminate H; injection H as <-;
  unfold narrower; try reflexivity; destruct h; try destruct g; reflexivity.
Qed.
Lemma source_near : forall from to f n, cast_rep from to = RFlt f -> is_value from n ->
  exists x, n_convert (RFlt f) n = Ok (NFlt x) /\ is_number f x /\ near f (if floating from then 0 else 1) (fval x) (nval n).
Proof.
  intros from to f n H V. pose proof (cast_rep_from _ _ _ H) as C. destruct from as [t|g], n as [z|v]; try contradiction; cbn [n_convert floating nval].
  - exists (float_of_int f z). split; auto. apply of_int_near. now apply (in_range_64 t).
  - exists (float_conv f v). split; auto. destruct (narrower_parts _ _ C) as [P E].
    destruct (conv_wider f g v V P E) as [A ->]. split; auto. apply near_refl.
Qed.
Lemma cast_number_eq : forall c from to f n x, cast_rep from to = RFlt f -> n_convert (RFlt f) n = Ok (NFlt x) ->
  cast_number c from to n = n_convert to (NFlt (SFmul (fprec f) (femax f) x (cast_factor f c))).
Proof. intros c from to f n x H E. unfold cast_number. rewrite H, E. reflexivity. Qed.

Lemma cast_number_near : forall c from to f n, ratio_good c -> cast_rep from to = RFlt f -> is_value from n ->
  factor_in_range f c -> mid_range f (nval n * Q2R (rval c)) ->
  exists y, is_number f y /\ near f (roundings from c) (fval y) (nval n * Q2R (rval c)) /\
    cast_number c from to n = n_convert to (NFlt y).
Proof.
  intros c from to f n G H V F M. destruct (source_near _ _ _ _ H V) as (x & E & A & B).
  destruct (factor_near f c G F) as [C D]. pose proof (mid_steps f _ (proj1 F)) as K.
  destruct (mul_near f _ _ _ _ _ _ A C B D) as [P Q]; [destruct (floating from); lia|auto|].
  exists (SFmul (fprec f) (femax f) x (cast_factor f c)). split; auto. split.
  - eapply near_weaken; [|exact Q]. unfold roundings. destruct (floating from); lia.
  - now apply cast_number_eq.
Qed.

Lemma few_roundings : forall f from c, factor_in_range f c -> INR (roundings from c) * roundoff f < 1.
Proof.
  intros f from c (M & _). pose proof (mid_steps f _ M) as K.
  apply Rle_lt_trans with (IZR (2 ^ 23) * bpow radix2 (-24)).
  - apply Rmult_le_compat; [apply pos_INR|apply Rlt_le, roundoff_pos| |apply roundoff_small]. rewrite INR_IZR_INZ. apply IZR_le.
    unfold roundings. destruct (floating from); lia.
  - rewrite (IZR_Zpower radix2) by lia. rewrite <- bpow_plus. cbn. lra.
Qed.

(** ** quantity_cast *)

Lemma sized_parts : forall est t m, sized est t m -> qtype_good t /\ Forall (exact_root est) (exponents (q_dim t)) /\
  magnitude (q_dim t) (q_unit t) m.
Proof. intros est t m (A & _ & B & C). auto. Qed.

Lemma float_cast : forall est from to f m1 m2 c n, sized est from m1 -> sized est to m2 -> references_ok from to ->
  dim_equivalent (q_dim to) (q_dim from) = true -> cast_rep (q_rep from) (q_rep to) = RFlt f ->
  cast_ratio est (q_dim from) (q_unit from) (q_dim to) (q_unit to) = Ok c ->
  is_value (q_rep from) n -> factor_in_range f c -> mid_range f (nval n * Q2R (m1 / m2)) ->
  exists y, is_number f y /\ near f (roundings (q_rep from) c) (fval y) (nval n * Q2R (m1 / m2)) /\
    quantity_cast est from to n = n_convert (q_rep to) (NFlt y).
Proof.
  intros est from to f m1 m2 c n S1 S2 R De Cr Hc V F M.
  destruct (sized_parts _ _ _ S1) as (G1 & X1 & M1). destruct (sized_parts _ _ _ S2) as (G2 & X2 & M2).
  destruct (cast_ratio_magnitude _ _ _ _ _ _ G1 G2 X1 X2 R M1 M2 Hc) as [Q G]. rewrite <- (Qeq_eqR _ _ Q) in *.
  destruct (cast_number_near c _ _ f n G Cr V F M) as (y & A & B & C). exists y. split; auto. split; auto.
  unfold quantity_cast. rewrite De. cbn [constrained bind]. rewrite Hc. exact C.
Qed.

Lemma cast_accurate : forall est from to f m1 m2 c n, sized est from m1 -> sized est to m2 -> references_ok from to ->
  dim_equivalent (q_dim to) (q_dim from) = true -> cast_rep (q_rep from) (q_rep to) = RFlt f -> q_rep to = RFlt f ->
  cast_ratio est (q_dim from) (q_unit from) (q_dim to) (q_unit to) = Ok c ->
  is_value (q_rep from) n -> factor_in_range f c -> mid_range f (nval n * Q2R (m1 / m2)) ->
  exists y, quantity_cast est from to n = Ok (NFlt y) /\ is_number f y /\
    within f (roundings (q_rep from) c) (fval y) (nval n * Q2R (m1 / m2)).
Proof.
  intros est from to f m1 m2 c n S1 S2 R De Cr Rt Hc V F M.
  destruct (float_cast _ _ _ _ _ _ _ _ S1 S2 R De Cr Hc V F M) as (y & A & B & C). exists y. rewrite C, Rt. cbn [n_convert].
  rewrite conv_same by apply A. split; auto. split; auto. apply near_within; auto. now apply few_roundings.
Qed.

Lemma cast_narrowing : forall est from to f g m1 m2 c n, sized est from m1 -> sized est to m2 -> references_ok from to ->
  dim_equivalent (q_dim to) (q_dim from) = true -> cast_rep (q_rep from) (q_rep to) = RFlt f -> q_rep to = RFlt g ->
  cast_ratio est (q_dim from) (q_unit from) (q_dim to) (q_unit to) = Ok c ->
  is_value (q_rep from) n -> factor_in_range f c ->
  mid_range f (nval n * Q2R (m1 / m2)) -> mid_range g (nval n * Q2R (m1 / m2)) ->
  exists y z, quantity_cast est from to n = Ok (NFlt y) /\ is_number g y /\
    within f (roundings (q_rep from) c) z (nval n * Q2R (m1 / m2)) /\ within g 1 (fval y) z.
Proof.
  intros est from to f g m1 m2 c n S1 S2 R De Cr Rt Hc V F M Mg.
  destruct (float_cast _ _ _ _ _ _ _ _ S1 S2 R De Cr Hc V F M) as (y & A & B & C).
  exists (float_conv g y), (fval y). rewrite C, Rt. cbn [n_convert]. split; auto.
  assert (Bd : (fval y = 0 \/ bpow radix2 (2 - femax g) <= Rabs (fval y)) /\ Rabs (fval y) <= bpow radix2 (femax g - 1)).
  { destruct Mg as [Z|[Z1 Z2]].
    - rewrite Z in B. apply near_0 in B. rewrite B. split; auto. rewrite Rabs_R0. apply bpow_ge_0.
    - pose proof (mid_steps f _ (proj1 F)) as K. assert (K' : (Z.of_nat (roundings (q_rep from) c) <= 2 ^ 23)%Z) by (unfold roundings; destruct (floating (q_rep from)); lia).
      destruct (near_between f _ _ _ K' B) as [U W].
      assert (E1 : bpow radix2 (3 - femax g) = bpow radix2 (2 - femax g) * 2).
      { replace (3 - femax g)%Z with (2 - femax g + 1)%Z by lia. now rewrite bpow_plus. }
      assert (E2 : bpow radix2 (femax g - 1) = bpow radix2 (femax g - 2) * 2).
      { replace (femax g - 1)%Z with (femax g - 2 + 1)%Z by lia. now rewrite bpow_plus. }
      split; [right|]; lra. }
  destruct Bd as [Bd1 Bd2]. destruct (conv_rounds g y (proj2 A)) as [P Q].
  { apply frnd_lt_emax with (e := (femax g - 1)%Z); auto; [apply emin_small|lia]. }
  split; auto. split; [apply near_within; auto; now apply few_roundings|].
  rewrite Q. apply near_within; [|now apply near_round_0].
  change (INR 1) with 1. rewrite Rmult_1_l. eapply Rle_lt_trans; [apply roundoff_small|]. apply (bpow_lt radix2 _ 0). lia.
Qed.

Lemma cast_to_integer : forall est from to f t m1 m2 c n, sized est from m1 -> sized est to m2 -> references_ok from to ->
  dim_equivalent (q_dim to) (q_dim from) = true -> q_rep from = RFlt f -> q_rep to = RInt t ->
  cast_ratio est (q_dim from) (q_unit from) (q_dim to) (q_unit to) = Ok c ->
  is_value (q_rep from) n -> factor_in_range f c -> mid_range f (nval n * Q2R (m1 / m2)) ->
  exists z, within f (roundings (q_rep from) c) z (nval n * Q2R (m1 / m2)) /\
    quantity_cast est from to n = (if in_range t (Ztrunc z) then Ok (NInt (Ztrunc z)) else Undef).
Proof.
  intros est from to f t m1 m2 c n S1 S2 R De Rf Rt Hc V F M.
  assert (Cr : cast_rep (q_rep from) (q_rep to) = RFlt f) by now rewrite Rf, Rt.
  destruct (float_cast _ _ _ _ _ _ _ _ S1 S2 R De Cr Hc V F M) as (y & A & B & C). exists (fval y).
  split; [apply near_within; auto; now apply few_roundings|]. rewrite C, Rt. cbn [n_convert].
  now rewrite trunc_value by apply A.
Qed.

(** ** The same unit *)

Lemma mul_one : forall f x, valid_binary (fprec f) (femax f) x = true ->
  SFmul (fprec f) (femax f) x (float_of_int f 1) = x.
Proof.
  intros f x V. destruct x as [s|s| |s m e].
  - destruct f, s; reflexivity.
  - destruct f, s; reflexivity.
  - destruct f; reflexivity.
  - assert (N : is_number f (S754_finite s m e)) by (split; auto). destruct (one_exact f) as [A B].
    destruct (mul_rounds f _ _ N A) as [C D].
    + rewrite B, Rmult_1_r, frnd_id by now apply number_format. now apply number_lt_emax.
    + rewrite B, Rmult_1_r, frnd_id in D by now apply number_format. apply (number_inj_nz f); auto. rewrite D.
      unfold fval. cbn [SF2R]. destruct s; cbn [cond_Zopp].
      * apply Rlt_not_eq. now apply F2R_lt_0.
      * apply Rgt_not_eq. now apply F2R_gt_0.
Qed.
Lemma factor_one : forall f, cast_factor f (Ratio 1 1 0) = float_of_int f 1.
Proof. intros []; vm_compute; reflexivity. Qed.

Lemma cast_identity : forall est t f m x, sized est t m -> q_rep t = RFlt f -> rexp (u_ratio (q_unit t)) <> INTMAX_MIN ->
  valid_binary (fprec f) (femax f) x = true -> dim_equivalent (q_dim t) (q_dim t) = true ->
  quantity_cast est t t (NFlt x) = Ok (NFlt x).
Proof.
  intros est t f m x ((_ & (L & S & N)) & _) R E V De. unfold quantity_cast. rewrite De. cbn [constrained bind].
  unfold cast_ratio, same_unit_reference. rewrite String.eqb_refl. rewrite rdiv_same; auto; [|lia]. cbn [bind]. rewrite R.
  assert (Cr : cast_rep (RFlt f) (RFlt f) = RFlt f) by now destruct f.
  rewrite (cast_number_eq _ _ _ f (NFlt x) x Cr); [|cbn [n_convert]; now rewrite conv_same].
  unfold rone. rewrite factor_one, mul_one by auto. cbn [n_convert]. now rewrite conv_same.
Qed.

(** ** Monotonicity *)

Lemma mul_number_inv : forall f x y, is_number f x -> is_number f y -> is_number f (SFmul (fprec f) (femax f) x y) ->
  fval (SFmul (fprec f) (femax f) x y) = frnd f (fval x * fval y).
Proof.
  intros f x y Hx Hy [_ F]. destruct (number_B f x Hx) as (bx & <- & Vx & Fx). destruct (number_B f y Hy) as (b_y & <- & Vy & Fy).
  rewrite mul_equiv in *. pose proof (Bmult_correct (fprec f) (femax f) _ _ mode_NE bx b_y) as C.
  rewrite Vx, Vy in C. destruct (Rlt_bool _ _).
  - destruct C as (C1 & _). rewrite B_val. exact C1.
  - rewrite C in F. discriminate F.
Qed.
Lemma conv_number_inv : forall g x, is_finite_SF x = true -> is_number g (float_conv g x) -> fval (float_conv g x) = frnd g (fval x).
Proof.
  intros g x F [_ N]. destruct x as [s|s| |s m e]; try discriminate F.
  - unfold fval, frnd. cbn. now rewrite round_0 by typeclasses eauto.
  - cbn [float_conv] in *. rewrite (normalize_equiv g) in *. unfold fval at 2. cbn [SF2R].
    pose proof (binary_normalize_correct (fprec g) (femax g) (fprec_pos g) (fprec_lt_emax g) mode_NE (if s then Z.neg m else Z.pos m) e s) as C.
    cbv zeta in C. destruct (Rlt_bool _ _).
    + destruct C as (C1 & _). rewrite B_val. change (cond_Zopp s (Z.pos m)) with (if s then Z.neg m else Z.pos m). exact C1.
    + rewrite C in N. discriminate N.
Qed.
Lemma of_int_mono : forall f a b, (- 2 ^ 64 <= a <= 2 ^ 64)%Z -> (- 2 ^ 64 <= b <= 2 ^ 64)%Z -> (a <= b)%Z ->
  fval (float_of_int f a) <= fval (float_of_int f b).
Proof.
  intros f a b A B L.
  assert (Q : forall z, (- 2 ^ 64 <= z <= 2 ^ 64)%Z -> fval (float_of_int f z) = frnd f (IZR z)).
  { intros z H. destruct (near_round_mid f 0 (IZR z) (IZR z)) as [K N]; [lia|now apply int_mid|apply near_refl|].
    now destruct (of_int_rounds f z K). }
  rewrite !Q by auto. apply frnd_le. now apply IZR_le.
Qed.
Lemma source_mono : forall from to f a b x y, cast_rep from to = RFlt f -> is_value from a -> is_value from b ->
  n_convert (RFlt f) a = Ok (NFlt x) -> n_convert (RFlt f) b = Ok (NFlt y) -> nval a <= nval b -> fval x <= fval y.
Proof.
  intros from to f a b x y H Va Vb Ea Eb L. pose proof (cast_rep_from _ _ _ H) as C.
  destruct from as [t|g], a as [z|v], b as [z'|v']; try contradiction; cbn [n_convert nval] in *; injection Ea as <-; injection Eb as <-.
  - apply of_int_mono; try now apply (in_range_64 t). now apply le_IZR.
  - destruct (narrower_parts _ _ C) as [P E]. destruct (conv_wider f g v Va P E) as [_ ->].
    destruct (conv_wider f g v' Vb P E) as [_ ->]. exact L.
Qed.

Lemma cast_monotone : forall est from to f g c a b x y m1 m2, sized est from m1 -> sized est to m2 -> references_ok from to ->
  cast_rep (q_rep from) (q_rep to) = RFlt f -> q_rep to = RFlt g ->
  cast_ratio est (q_dim from) (q_unit from) (q_dim to) (q_unit to) = Ok c -> factor_in_range f c ->
  is_value (q_rep from) a -> is_value (q_rep from) b -> nval a <= nval b ->
  quantity_cast est from to a = Ok (NFlt x) -> quantity_cast est from to b = Ok (NFlt y) ->
  is_number g x -> is_number g y -> fval x <= fval y.
Proof.
  intros est from to f g c a b x y m1 m2 S1 S2 R Cr Rt Hc F Va Vb L Ha Hb Nx Ny.
  destruct (sized_parts _ _ _ S1) as (G1 & X1 & M1). destruct (sized_parts _ _ _ S2) as (G2 & X2 & M2).
  destruct (cast_ratio_magnitude _ _ _ _ _ _ G1 G2 X1 X2 R M1 M2 Hc) as [_ G].
  destruct (factor_near f c G F) as [K1 K2].
  assert (Kp : 0 < fval (cast_factor f c)).
  { apply (near_pos f _ _ _ K2). replace 0 with (Q2R 0) by (unfold Q2R; cbn; lra). apply Qlt_Rlt. now apply good_pos. }
  assert (Q : forall n r, is_value (q_rep from) n -> quantity_cast est from to n = Ok (NFlt r) -> is_number g r ->
    exists s, n_convert (RFlt f) n = Ok (NFlt s) /\ fval r = frnd g (frnd f (fval s * fval (cast_factor f c)))).
  { intros n r Vn H Nr. destruct (source_near _ _ _ _ Cr Vn) as (s & Es & Ns & _). exists s. split; auto.
    unfold quantity_cast in H. step H as u Eu. step H as c' Ec. assert (c' = c) by congruence. subst c'.
    rewrite (cast_number_eq _ _ _ f _ s Cr Es), Rt in H. cbn [n_convert] in H. injection H as <-.
    assert (Nm : is_finite_SF (SFmul (fprec f) (femax f) s (cast_factor f c)) = true).
    { destruct Nr as [_ Nr]. destruct (SFmul (fprec f) (femax f) s (cast_factor f c)); try discriminate Nr; auto. }
    rewrite (conv_number_inv g _ Nm Nr). f_equal. apply mul_number_inv; auto. split; auto.
    destruct (B_of f s (proj1 Ns)) as [bs <-]. destruct (B_of f _ (proj1 K1)) as [bk <-]. rewrite mul_equiv. apply valid_binary_B2SF. }
  destruct (Q a x Va Ha Nx) as (s & Es & ->). destruct (Q b y Vb Hb Ny) as (s' & Es' & ->).
  apply frnd_le, frnd_le. apply Rmult_le_compat_r; [lra|]. exact (source_mono (q_rep from) (q_rep to) f a b s s' Cr Va Vb Es Es' L).
Qed.

(** ** There and back *)

Lemma cast_round_trip : forall est from to f m1 m2 c c' n, sized est from m1 -> sized est to m2 -> references_ok from to ->
  references_ok to from -> dim_equivalent (q_dim to) (q_dim from) = true -> dim_equivalent (q_dim from) (q_dim to) = true ->
  q_rep from = RFlt f -> q_rep to = RFlt f ->
  cast_ratio est (q_dim from) (q_unit from) (q_dim to) (q_unit to) = Ok c ->
  cast_ratio est (q_dim to) (q_unit to) (q_dim from) (q_unit from) = Ok c' ->
  is_value (RFlt f) n -> factor_in_range f c -> factor_in_range f c' ->
  mid_range f (nval n) -> mid_range f (nval n * Q2R (m1 / m2)) ->
  exists y z, quantity_cast est from to n = Ok (NFlt y) /\ quantity_cast est to from (NFlt y) = Ok (NFlt z) /\
    within f (roundings (RFlt f) c + roundings (RFlt f) c') (fval z) (nval n).
Proof.
  intros est from to f m1 m2 c c' n S1 S2 R R' De De' Rf Rt Hc Hc' V F F' M0 M.
  assert (Cr : cast_rep (q_rep from) (q_rep to) = RFlt f) by (rewrite Rf, Rt; now destruct f).
  assert (Cr' : cast_rep (q_rep to) (q_rep from) = RFlt f) by (rewrite Rf, Rt; now destruct f).
  rewrite <- Rf in V. destruct (float_cast _ _ _ _ _ _ _ _ S1 S2 R De Cr Hc V F M) as (y & A & B & C).
  rewrite Rt in C. cbn [n_convert] in C. rewrite conv_same in C by apply A. exists y.
  destruct (sized_parts _ _ _ S1) as (G1 & X1 & M1). destruct (sized_parts _ _ _ S2) as (G2 & X2 & M2).
  destruct (cast_ratio_magnitude _ _ _ _ _ _ G2 G1 X2 X1 R' M2 M1 Hc') as [Q' G']. apply Qeq_eqR in Q'.
  assert (Vy : is_value (q_rep to) (NFlt y)) by now rewrite Rt.
  destruct (source_near _ _ _ _ Cr' Vy) as (s & Es & Ns & Bs). destruct (factor_near f c' G' F') as [K1 K2].
  cbn [n_convert] in Es. rewrite conv_same in Es by apply A. injection Es as <-.
  assert (P1 : (0 < m1)%Q). { destruct G1 as [[_ D] U]. eapply magnitude_pos; eauto. }
  assert (P2 : (0 < m2)%Q). { destruct G2 as [[_ D] U]. eapply magnitude_pos; eauto. }
  assert (E : nval n * Q2R (m1 / m2) * Q2R (rval c') = nval n).
  { rewrite Q', Rmult_assoc, <- Q2R_mult. rewrite (Qeq_eqR (m1 / m2 * (m2 / m1)) 1).
    - unfold Q2R. cbn. lra.
    - field. split; intros Z; rewrite Z in *; now apply Qlt_irrefl in P1 || now apply Qlt_irrefl in P2. }
  pose proof (mid_steps f _ (proj1 F)) as S3. pose proof (mid_steps f _ (proj1 F')) as S4.
  destruct (mul_near f _ _ _ _ _ _ A K1 B K2) as [P Q].
  { unfold roundings. destruct (floating (q_rep from)); lia. } { now rewrite E. }
  rewrite E in Q. exists (SFmul (fprec f) (femax f) y (cast_factor f c')). split; auto. split.
  - unfold quantity_cast. rewrite De'. cbn [constrained bind]. rewrite Hc'. cbn [bind].
    rewrite (cast_number_eq _ _ _ f (NFlt y) y Cr'); [|cbn [n_convert]; now rewrite conv_same by apply A].
    rewrite Rf. cbn [n_convert]. now rewrite conv_same by apply P.
  - apply near_within.
    + apply Rle_lt_trans with (IZR (2 ^ 23) * bpow radix2 (-24)).
      * apply Rmult_le_compat; [apply pos_INR|apply Rlt_le, roundoff_pos| |apply roundoff_small]. rewrite INR_IZR_INZ. apply IZR_le.
        unfold roundings. cbn [floating]. lia.
      * rewrite (IZR_Zpower radix2) by lia. rewrite <- bpow_plus. cbn. lra.
    + eapply near_weaken; [|exact Q]. rewrite Rf. unfold roundings. cbn [floating]. lia.
Qed.

(** ** Exact conversions *)

Lemma int_lt_emax : forall f z, (Z.abs z <= 2 ^ fprec f)%Z -> Rabs (IZR z) < bpow radix2 (femax f).
Proof.
  intros f z H. rewrite <- abs_IZR. apply Rle_lt_trans with (bpow radix2 (fprec f)).
  - rewrite <- (IZR_Zpower radix2) by (destruct f; discriminate). apply IZR_le. exact H.
  - apply bpow_lt. destruct f; reflexivity.
Qed.
Lemma mul_exact : forall f x y a b, is_number f x -> is_number f y -> fval x = IZR a -> fval y = IZR b ->
  (Z.abs (a * b) <= 2 ^ fprec f)%Z ->
  is_number f (SFmul (fprec f) (femax f) x y) /\ fval (SFmul (fprec f) (femax f) x y) = IZR (a * b).
Proof.
  intros f x y a b Nx Ny Ex Ey L. destruct (mul_rounds f x y Nx Ny) as [A B].
  - rewrite Ex, Ey, <- mult_IZR, frnd_id by now apply format_int. now apply int_lt_emax.
  - split; auto. now rewrite B, Ex, Ey, <- mult_IZR, frnd_id by now apply format_int.
Qed.
Lemma div_exact : forall f x y a b k, is_number f x -> is_number f y -> fval x = IZR a -> fval y = IZR b -> b <> 0%Z ->
  a = (k * b)%Z -> (Z.abs k <= 2 ^ fprec f)%Z ->
  is_number f (SFdiv (fprec f) (femax f) x y) /\ fval (SFdiv (fprec f) (femax f) x y) = IZR k.
Proof.
  intros f x y a b k Nx Ny Ex Ey Nb E L.
  assert (Q : fval x / fval y = IZR k) by (rewrite Ex, Ey, E, mult_IZR; field; now apply IZR_neq).
  destruct (div_rounds f x y Nx Ny) as [A B]; [rewrite Ey; now apply IZR_neq| |].
  - rewrite Q, frnd_id by now apply format_int. now apply int_lt_emax.
  - split; auto. now rewrite B, Q, frnd_id by now apply format_int.
Qed.
Lemma powerRZ_Z : forall e, (0 <= e)%Z -> powerRZ 10 e = IZR (10 ^ e).
Proof.
  intros e H. rewrite powerRZ_abs, pow_IZR by auto. f_equal. f_equal. lia.
Qed.
Lemma integral_parts : forall c k, ratio_good c -> (rval c == inject_Z k)%Q ->
  (0 <= rexp c)%Z /\ (rnum c * 10 ^ rexp c = k * rden c)%Z.
Proof.
  intros c k (Lo & St & Np) Q. destruct (is_integral_spec c Lo St Np) as (b & Eb & Ib).
  assert (b = true) by (apply Ib; exists k; exact Q). subst b.
  assert (H : (0 <= rexp c)%Z).
  { unfold is_integral in Eb. destruct (Z.ltb_spec (rexp c) 0); [discriminate Eb|auto]. }
  split; auto. pose proof (proj1 Lo) as D. unfold rval in Q.
  assert (X : (frac (rnum c * 10 ^ rexp c) (rden c) 0 == frac k 1 0)%Q).
  { rewrite frac_num10 by lia. cbn [Z.add]. rewrite Q. unfold frac. rewrite p10_0. change (inject_Z 1) with 1%Q. field. }
  apply frac_eq_iff in X; lia.
Qed.

Lemma cast_exact : forall est from to f m1 m2 c k x z, sized est from m1 -> sized est to m2 -> references_ok from to ->
  dim_equivalent (q_dim to) (q_dim from) = true -> q_rep from = RFlt f -> q_rep to = RFlt f ->
  cast_ratio est (q_dim from) (q_unit from) (q_dim to) (q_unit to) = Ok c ->
  (m1 == inject_Z k * m2)%Q -> (k * rden c <= 2 ^ fprec f)%Z ->
  is_number f x -> fval x = IZR z -> (Z.abs (z * k) <= 2 ^ fprec f)%Z ->
  exists y, quantity_cast est from to (NFlt x) = Ok (NFlt y) /\ is_number f y /\ fval y = IZR (z * k).
Proof.
  intros est from to f m1 m2 c k x z S1 S2 R De Rf Rt Hc K Ku Nx Vx L.
  destruct (sized_parts _ _ _ S1) as (G1 & X1 & M1). destruct (sized_parts _ _ _ S2) as (G2 & X2 & M2).
  destruct (cast_ratio_magnitude _ _ _ _ _ _ G1 G2 X1 X2 R M1 M2 Hc) as [Q G].
  assert (P2 : (0 < m2)%Q). { destruct G2 as [[_ D] U]. eapply magnitude_pos; eauto. }
  assert (Qk : (rval c == inject_Z k)%Q).
  { rewrite Q, K. field. intros Z. rewrite Z in P2. now apply Qlt_irrefl in P2. }
  destruct (integral_parts c k G Qk) as [He E]. destruct G as (Lo & St & Np). pose proof (proj1 Lo) as Dp.
  assert (Tp : (1 <= 10 ^ rexp c)%Z) by (apply (Z.pow_le_mono_r 10 0); lia).
  assert (T5 : (5 ^ rexp c <= 10 ^ rexp c)%Z) by (apply Z.pow_le_mono_l; lia).
  assert (Kp : (0 < k)%Z) by nia.
  destruct (of_int_exact f (rnum c)) as [A1 B1]; [nia|]. destruct (of_int_exact f (rden c)) as [A2 B2]; [nia|].
  destruct (fpow10_exact f (rexp c)) as [A3 B3]; [auto|nia|]. rewrite powerRZ_Z in B3 by auto.
  destruct (mul_exact f _ _ _ _ A1 A3 B1 B3) as [A4 B4]; [nia|].
  destruct (div_exact f _ _ _ _ k A4 A2 B4 B2) as [A5 B5]; [lia|lia|nia|].
  destruct (mul_exact f _ _ _ _ Nx A5 Vx B5 L) as [A6 B6].
  exists (SFmul (fprec f) (femax f) x (cast_factor f c)). split; [|split; auto].
  unfold quantity_cast. rewrite De. cbn [constrained bind]. rewrite Hc. cbn [bind].
  assert (Cr : cast_rep (q_rep from) (q_rep to) = RFlt f) by (rewrite Rf, Rt; now destruct f).
  rewrite (cast_number_eq _ _ _ f (NFlt x) x Cr); [|cbn [n_convert]; now rewrite conv_same by apply Nx].
  rewrite Rt. cbn [n_convert]. now rewrite conv_same by apply A6.
Qed.
