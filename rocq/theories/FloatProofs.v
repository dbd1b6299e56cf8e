(** Floating-point arithmetic of the model: the operations of [SpecFloat] are the correctly
    rounded ones (through Flocq). *)

From Coq Require Import ZArith Reals Lia Lra Psatz Bool SpecFloat.
From Flocq Require Import Core BinarySingleNaN Relative.
From Verif Require Import Outcome CInt Rep SpecReal.
Local Open Scope Z_scope.

Lemma fprec_pos : forall f, Prec_gt_0 (fprec f).
Proof. intros []; reflexivity. Qed.
Lemma fprec_lt_emax : forall f, Prec_lt_emax (fprec f) (femax f).
Proof. intros []; reflexivity. Qed.
#[global] Existing Instance fprec_pos.
#[global] Existing Instance fprec_lt_emax.

(** ** The operations of [SpecFloat] are those of Flocq *)

Section Equiv.
Variable f : fty.
Let prec := fprec f.
Let emax := femax f.
Let Hprec : Prec_gt_0 prec := fprec_pos f.
Let Hmax : Prec_lt_emax prec emax := fprec_lt_emax f.

Lemma nearest_even_equiv : forall s m l, SpecFloat.round_nearest_even m l = choice_mode mode_NE s m l.
Proof.
  intros s m l. destruct l as [|c]; [reflexivity|]. destruct c; [|reflexivity..].
  cbn. unfold Round.cond_incr. now case Z.even.
Qed.
Lemma round_aux_equiv : forall sx mx ex lx,
  SpecFloat.binary_round_aux prec emax sx mx ex lx = binary_round_aux prec emax mode_NE sx mx ex lx.
Proof.
  intros. unfold SpecFloat.binary_round_aux, binary_round_aux. set (m := shr_fexp _ _ _). case m; intros mrs' e'. cbn.
  now rewrite (nearest_even_equiv sx).
Qed.
Lemma round_equiv : forall s m e, SpecFloat.binary_round prec emax s m e = binary_round prec emax mode_NE s m e.
Proof.
  intros. unfold SpecFloat.binary_round, binary_round, shl_align_fexp. set (z := shl_align _ _ _). case z as [mz ez].
  apply round_aux_equiv.
Qed.
Lemma normalize_equiv : forall m e s,
  SpecFloat.binary_normalize prec emax m e s = B2SF (binary_normalize prec emax Hprec Hmax mode_NE m e s).
Proof.
  intros m e s. case m as [|p|p]; [reflexivity| |]; cbn; rewrite B2SF_SF2B; apply round_equiv.
Qed.
Lemma mul_equiv : forall x y, SFmul prec emax (B2SF x) (B2SF y) = B2SF (@Bmult prec emax Hprec Hmax mode_NE x y).
Proof.
  intros x y. case x as [sx|sx| |sx mx ex Bx]; case y as [sy|sy| |sy my ey By]; [reflexivity..|].
  cbn. rewrite B2SF_SF2B. apply round_aux_equiv.
Qed.
Lemma div_equiv : forall x y, SFdiv prec emax (B2SF x) (B2SF y) = B2SF (@Bdiv prec emax Hprec Hmax mode_NE x y).
Proof.
  intros x y. case x as [sx|sx| |sx mx ex Bx]; case y as [sy|sy| |sy my ey By]; [reflexivity..|].
  cbn. rewrite B2SF_SF2B. set (z := SFdiv_core_binary _ _ _ _ _ _). case z as [[mz ez] lz]. apply round_aux_equiv.
Qed.
Lemma sqrt_equiv : forall x, SFsqrt prec emax (B2SF x) = B2SF (@Bsqrt prec emax Hprec Hmax mode_NE x).
Proof.
  intros x. case x as [sx|sx| |sx mx ex Bx]; [reflexivity|case sx; reflexivity|reflexivity|].
  case sx; [reflexivity|]. cbn. rewrite B2SF_SF2B. set (z := SFsqrt_core_binary _ _ _ _). case z as [[mz ez] lz].
  apply round_aux_equiv.
Qed.
End Equiv.

(** ** Values and rounding *)

Local Open Scope R_scope.

(** Rounding to nearest, ties to even, without bound on the exponent range above. *)
Definition frnd (f : fty) (x : R) : R :=
  round radix2 (FLT_exp (3 - femax f - fprec f) (fprec f)) ZnearestE x.

Lemma number_B : forall f x, is_number f x -> exists b : binary_float (fprec f) (femax f),
  B2SF b = x /\ B2R b = fval x /\ is_finite b = true.
Proof.
  intros f x [V F]. exists (SF2B x V). rewrite B2SF_SF2B, B2R_SF2B, is_finite_SF2B. auto.
Qed.
Lemma B_number : forall f (b : binary_float (fprec f) (femax f)), is_finite b = true -> is_number f (B2SF b).
Proof. intros f b H. split; [apply valid_binary_B2SF|]. now destruct b. Qed.
Lemma B_val : forall f (b : binary_float (fprec f) (femax f)), fval (B2SF b) = B2R b.
Proof. intros. apply SF2R_B2SF. Qed.

Lemma mul_rounds : forall f x y, is_number f x -> is_number f y -> Rabs (frnd f (fval x * fval y)) < bpow radix2 (femax f) ->
  is_number f (SFmul (fprec f) (femax f) x y) /\ fval (SFmul (fprec f) (femax f) x y) = frnd f (fval x * fval y).
Proof.
  intros f x y Hx Hy L. destruct (number_B f x Hx) as (bx & <- & Vx & Fx). destruct (number_B f y Hy) as (b_y & <- & Vy & Fy).
  rewrite mul_equiv. pose proof (Bmult_correct (fprec f) (femax f) _ _ mode_NE bx b_y) as C.
  rewrite Vx, Vy in C. rewrite Rlt_bool_true in C by exact L. destruct C as (C1 & C2 & _).
  rewrite Fx, Fy in C2. split; [now apply B_number|]. rewrite B_val. exact C1.
Qed.
Lemma div_rounds : forall f x y, is_number f x -> is_number f y -> fval y <> 0 ->
  Rabs (frnd f (fval x / fval y)) < bpow radix2 (femax f) ->
  is_number f (SFdiv (fprec f) (femax f) x y) /\ fval (SFdiv (fprec f) (femax f) x y) = frnd f (fval x / fval y).
Proof.
  intros f x y Hx Hy N L. destruct (number_B f x Hx) as (bx & <- & Vx & Fx). destruct (number_B f y Hy) as (b_y & <- & Vy & Fy).
  rewrite div_equiv. rewrite <- Vy in N. pose proof (Bdiv_correct (fprec f) (femax f) _ _ mode_NE bx b_y N) as C.
  rewrite Vx, Vy in C. rewrite Rlt_bool_true in C by exact L. destruct C as (C1 & C2 & _).
  rewrite Fx in C2. split; [now apply B_number|]. rewrite B_val. exact C1.
Qed.
Lemma sqrt_rounds : forall f x, is_number f x -> 0 <= fval x ->
  is_number f (SFsqrt (fprec f) (femax f) x) /\ fval (SFsqrt (fprec f) (femax f) x) = frnd f (sqrt (fval x)).
Proof.
  intros f x Hx P. destruct (number_B f x Hx) as (bx & <- & Vx & Fx).
  rewrite sqrt_equiv. pose proof (Bsqrt_correct (fprec f) (femax f) _ _ mode_NE bx) as (C1 & C2 & _).
  rewrite Vx in C1. split; [|rewrite B_val; exact C1]. apply B_number. rewrite C2.
  destruct bx as [s|s| |s m e B]; try discriminate; auto. destruct s; auto. exfalso.
  rewrite B_val in P. cbn in P. pose proof (F2R_lt_0 radix2 (Float radix2 (Z.neg m) e) ltac:(reflexivity)) as L. cbn in L. lra.
Qed.
Lemma normalize_rounds : forall f m e s, Rabs (frnd f (F2R (Float radix2 m e))) < bpow radix2 (femax f) ->
  is_number f (SpecFloat.binary_normalize (fprec f) (femax f) m e s) /\
  fval (SpecFloat.binary_normalize (fprec f) (femax f) m e s) = frnd f (F2R (Float radix2 m e)).
Proof.
  intros f m e s L. rewrite (normalize_equiv f).
  pose proof (binary_normalize_correct (fprec f) (femax f) (fprec_pos f) (fprec_lt_emax f) mode_NE m e s) as C. cbv zeta in C.
  rewrite Rlt_bool_true in C by exact L. destruct C as (C1 & C2 & _). split; [now apply B_number|]. rewrite B_val. exact C1.
Qed.
Lemma of_int_rounds : forall f z, Rabs (frnd f (IZR z)) < bpow radix2 (femax f) ->
  is_number f (float_of_int f z) /\ fval (float_of_int f z) = frnd f (IZR z).
Proof.
  intros f z L. assert (E : IZR z = F2R (Float radix2 z 0)) by (unfold F2R; cbn; ring).
  rewrite E in *. now apply normalize_rounds.
Qed.
Lemma conv_rounds : forall f x, is_finite_SF x = true -> Rabs (frnd f (fval x)) < bpow radix2 (femax f) ->
  is_number f (float_conv f x) /\ fval (float_conv f x) = frnd f (fval x).
Proof.
  intros f x F L. destruct x as [s|s| |s m e]; try discriminate.
  - cbn. split; [split; reflexivity|]. unfold fval, frnd. cbn. now rewrite round_0 by typeclasses eauto.
  - cbn [float_conv]. assert (E : fval (S754_finite s m e) = F2R (Float radix2 (if s then Z.neg m else Z.pos m) e)).
    { unfold fval. cbn. now destruct s. }
    rewrite E in *. now apply normalize_rounds.
Qed.

(** ** Rounding *)

Lemma frnd_le : forall f x y, x <= y -> frnd f x <= frnd f y.
Proof.
  intros f x y H. unfold frnd. apply round_le; auto; [apply FLT_exp_valid; apply fprec_pos|typeclasses eauto].
Qed.
Definition in_format (f : fty) (x : R) : Prop := generic_format radix2 (FLT_exp (3 - femax f - fprec f) (fprec f)) x.
Lemma frnd_id : forall f x, in_format f x -> frnd f x = x.
Proof. intros f x H. unfold frnd. apply round_generic; auto. typeclasses eauto. Qed.
Lemma number_format : forall f x, is_number f x -> in_format f (fval x).
Proof.
  intros f x H. destruct (number_B f x H) as (b & <- & V & _). rewrite <- V. apply generic_format_B2R.
Qed.
Lemma frnd_format : forall f x, in_format f (frnd f x).
Proof. intros. apply generic_format_round; [apply FLT_exp_valid; apply fprec_pos|typeclasses eauto]. Qed.

(** [m * 2^e] with [|m| <= 2^prec]. *)
Lemma format_mul_pow2 : forall f m e, (Z.abs m <= 2 ^ fprec f)%Z -> (3 - femax f - fprec f <= e)%Z ->
  in_format f (IZR m * bpow radix2 e).
Proof.
  intros f m e M E. unfold in_format. destruct (Z.eq_dec (Z.abs m) (2 ^ fprec f)) as [Q|Q].
  - assert (H : (m = 2 ^ fprec f \/ m = - 2 ^ fprec f)%Z) by lia.
    assert (P : generic_format radix2 (FLT_exp (3 - femax f - fprec f) (fprec f)) (bpow radix2 (fprec f + e))).
    { apply generic_format_FLT_bpow; [apply fprec_pos|]. pose proof (fprec_pos f) as X. unfold Prec_gt_0 in X. clear - X E. lia. }
    assert (T : IZR (2 ^ fprec f) = bpow radix2 (fprec f)).
    { rewrite (IZR_Zpower radix2) by (destruct f; discriminate). reflexivity. }
    destruct H as [->| ->].
    + rewrite T, <- bpow_plus. exact P.
    + rewrite opp_IZR, T, <- Ropp_mult_distr_l, <- bpow_plus. now apply generic_format_opp.
  - apply generic_format_FLT. exists (Float radix2 m e); cbn; auto. lia.
Qed.
Lemma format_int : forall f z, (Z.abs z <= 2 ^ fprec f)%Z -> in_format f (IZR z).
Proof.
  intros f z H. replace (IZR z) with (IZR z * bpow radix2 0) by (cbn; ring). apply format_mul_pow2; auto.
  destruct f; cbn; (discriminate || reflexivity || lia).
Qed.
Lemma format_bpow : forall f e, (3 - femax f - fprec f <= e)%Z -> in_format f (bpow radix2 e).
Proof.
  intros f e H. replace (bpow radix2 e) with (IZR 1 * bpow radix2 e) by ring. apply format_mul_pow2; auto. destruct f; cbn; (discriminate || reflexivity || lia).
Qed.

(** Bounds by powers of two survive rounding. *)
Lemma frnd_abs_le : forall f x e, (3 - femax f - fprec f <= e)%Z -> Rabs x <= bpow radix2 e -> Rabs (frnd f x) <= bpow radix2 e.
Proof.
  intros f x e E H. apply Rabs_le_inv in H. apply Rabs_le. split.
  - rewrite <- (frnd_id f (- bpow radix2 e)) by (apply generic_format_opp; now apply format_bpow). apply frnd_le. lra.
  - rewrite <- (frnd_id f (bpow radix2 e)) by now apply format_bpow. apply frnd_le. lra.
Qed.
Lemma frnd_lt_emax : forall f x e, (3 - femax f - fprec f <= e)%Z -> (e < femax f)%Z -> Rabs x <= bpow radix2 e ->
  Rabs (frnd f x) < bpow radix2 (femax f).
Proof.
  intros f x e E L H. eapply Rle_lt_trans; [now apply frnd_abs_le with (e := e)|]. now apply bpow_lt.
Qed.

(** Exact small integers. *)
Lemma of_int_exact : forall f z, (Z.abs z <= 2 ^ fprec f)%Z ->
  is_number f (float_of_int f z) /\ fval (float_of_int f z) = IZR z.
Proof.
  intros f z H. pose proof (frnd_id f (IZR z) (format_int f z H)) as E.
  destruct (of_int_rounds f z) as [A B].
  - rewrite E, <- abs_IZR. apply Rle_lt_trans with (bpow radix2 (fprec f)).
    + rewrite <- IZR_Zpower by (destruct f; discriminate). apply IZR_le. exact H.
    + apply bpow_lt. destruct f; cbn; (discriminate || reflexivity || lia).
  - split; auto. now rewrite B.
Qed.

(** ** Discarding the fraction *)

Lemma trunc_value : forall x, is_finite_SF x = true -> float_trunc x = Some (Ztrunc (fval x)).
Proof.
  intros x F. destruct x as [s|s| |s m e]; try discriminate.
  - cbn. unfold fval. cbn. now rewrite Ztrunc_IZR.
  - cbn [float_trunc]. f_equal. unfold fval. cbn [SF2R].
    assert (P : Ztrunc (F2R (Float radix2 (Z.pos m) e)) = if (0 <=? e)%Z then (Z.pos m * 2 ^ e)%Z else (Z.pos m / 2 ^ (- e))%Z).
    { rewrite Ztrunc_floor by (apply F2R_ge_0; cbn; lia). destruct (Z.leb_spec 0 e) as [L|L].
      - unfold F2R. cbn [Fnum Fexp]. rewrite <- (IZR_Zpower radix2) by lia. rewrite <- mult_IZR. apply Zfloor_IZR.
      - unfold F2R. cbn [Fnum Fexp]. replace e with (- (- e))%Z at 1 by lia. rewrite bpow_opp, <- (IZR_Zpower radix2) by lia.
        change (IZR (Z.pos m) * / IZR (radix2 ^ (- e))) with (IZR (Z.pos m) / IZR (radix2 ^ (- e))). apply Zfloor_div.
        change (radix2 ^ (- e))%Z with (2 ^ (- e))%Z. lia. }
    destruct s; cbn [cond_Zopp].
    + change (- Z.pos m)%Z with (Z.opp (Z.pos m)). rewrite F2R_Zopp, Ztrunc_opp, P. reflexivity.
    + now rewrite P.
Qed.

(** ** Relative errors *)

(** [y] is [r] times a factor between [(1+u)^-k] and [(1+u)^k]. *)
Definition near (f : fty) (k : nat) (y r : R) : Prop :=
  exists t, y = r * t /\ / (1 + roundoff f) ^ k <= t <= (1 + roundoff f) ^ k.

Lemma roundoff_pos : forall f, 0 < roundoff f.
Proof. intros. apply bpow_gt_0. Qed.
Lemma roundoff_small : forall f, roundoff f <= bpow radix2 (- 24).
Proof. intros f. apply bpow_le. destruct f; cbn; lia. Qed.
Lemma grow_pos : forall f k, 0 < (1 + roundoff f) ^ k.
Proof. intros. apply pow_lt. pose proof (roundoff_pos f). lra. Qed.
Lemma grow_ge1 : forall f k, 1 <= (1 + roundoff f) ^ k.
Proof. intros. apply pow_R1_Rle. pose proof (roundoff_pos f). lra. Qed.

Lemma near_refl : forall f r, near f 0 r r.
Proof. intros f r. exists 1. cbn. lra. Qed.
Lemma near_weaken : forall f k l y r, (k <= l)%nat -> near f k y r -> near f l y r.
Proof.
  intros f k l y r L (t & E & A & B). exists t. split; auto. pose proof (roundoff_pos f) as U.
  assert (X : (1 + roundoff f) ^ k <= (1 + roundoff f) ^ l) by (apply Rle_pow; auto; lra).
  split; [|lra]. eapply Rle_trans; [|exact A]. apply Rinv_le; [apply grow_pos|exact X].
Qed.
Lemma near_mul : forall f k l x y r s, near f k x r -> near f l y s -> near f (k + l) (x * y) (r * s).
Proof.
  intros f k l x y r s (t & -> & A & B) (v & -> & C & D). exists (t * v). split; [ring|]. rewrite pow_add.
  pose proof (grow_pos f k) as P. pose proof (grow_pos f l) as Q.
  assert (IP : 0 < / (1 + roundoff f) ^ k) by now apply Rinv_0_lt_compat.
  assert (IQ : 0 < / (1 + roundoff f) ^ l) by now apply Rinv_0_lt_compat.
  split; [rewrite Rinv_mult|]; apply Rmult_le_compat; lra.
Qed.
Lemma near_inv : forall f k y r, r <> 0 -> near f k y r -> near f k (/ y) (/ r).
Proof.
  intros f k y r N (t & -> & A & B). pose proof (grow_pos f k) as P.
  assert (IP : 0 < / (1 + roundoff f) ^ k) by now apply Rinv_0_lt_compat.
  exists (/ t). split; [field; split; [lra|exact N]|]. split.
  - apply Rinv_le; lra.
  - rewrite <- (Rinv_inv ((1 + roundoff f) ^ k)). apply Rinv_le; lra.
Qed.
Lemma near_trans : forall f k l x y r, near f k x y -> near f l y r -> near f (k + l) x r.
Proof.
  intros f k l x y r (t & -> & A & B) H. replace r with (r * 1) by ring. rewrite Nat.add_comm.
  apply near_mul; auto. exists t. split; [ring|auto].
Qed.
Lemma near_neq0 : forall f k y r, near f k y r -> r <> 0 -> y <> 0.
Proof.
  intros f k y r (t & -> & A & _) N. pose proof (Rinv_0_lt_compat _ (grow_pos f k)). apply Rmult_integral_contrapositive. split; lra.
Qed.
Lemma near_0 : forall f k y, near f k y 0 -> y = 0.
Proof. intros f k y (t & -> & _). ring. Qed.
Lemma near_pos : forall f k y r, near f k y r -> 0 < r -> 0 < y.
Proof.
  intros f k y r (t & -> & A & _) N. pose proof (Rinv_0_lt_compat _ (grow_pos f k)). apply Rmult_lt_0_compat; lra.
Qed.
Lemma near_abs : forall f k y r, near f k y r -> Rabs r * / (1 + roundoff f) ^ k <= Rabs y <= Rabs r * (1 + roundoff f) ^ k.
Proof.
  intros f k y r (t & -> & A & B). rewrite Rabs_mult. pose proof (Rinv_0_lt_compat _ (grow_pos f k)) as P.
  rewrite (Rabs_right t) by lra. pose proof (Rabs_pos r). split; apply Rmult_le_compat_l; lra.
Qed.

(** One rounding. *)
Lemma near_round : forall f x, bpow radix2 (2 - femax f) <= Rabs x -> near f 1 (frnd f x) x.
Proof.
  intros f x H. unfold frnd.
  rewrite round_FLT_FLX by (replace (3 - femax f - fprec f + fprec f - 1)%Z with (2 - femax f)%Z by lia; exact H).
  destruct (relative_error_N_FLX'_ex radix2 (fprec f) (fprec_pos f) (fun n => negb (Z.even n)) x) as (eps & B & E).
  exists (1 + eps). split; [exact E|]. rewrite pow_1.
  assert (U : u_ro radix2 (fprec f) = roundoff f).
  { unfold u_ro, roundoff. rewrite bpow_plus. change (bpow radix2 1) with 2. field. }
  rewrite U in B. pose proof (roundoff_pos f) as P. apply Rabs_le_inv in B.
  assert (X : 1 - roundoff f / (1 + roundoff f) = / (1 + roundoff f)) by (field; lra).
  assert (Y : roundoff f / (1 + roundoff f) <= roundoff f).
  { apply Rmult_le_reg_r with (1 + roundoff f); [lra|]. unfold Rdiv. rewrite Rmult_assoc, Rinv_l by lra. nra. }
  lra.
Qed.
Lemma near_round_0 : forall f x, x = 0 \/ bpow radix2 (2 - femax f) <= Rabs x -> near f 1 (frnd f x) x.
Proof.
  intros f x [->|H]; [|now apply near_round]. unfold frnd. rewrite round_0 by typeclasses eauto.
  exists 1. pose proof (roundoff_pos f). rewrite pow_1. split; [ring|]. split; [|lra].
  rewrite <- Rinv_1 at 2. apply Rinv_le; lra.
Qed.

(** The factors are the classical [gamma]. *)
Lemma grow_bound : forall f k, INR k * roundoff f < 1 -> (1 + roundoff f) ^ k <= / (1 - INR k * roundoff f).
Proof.
  intros f k H. pose proof (roundoff_pos f) as U. pose proof (roundoff_small f) as S.
  assert (S1 : roundoff f < 1). { eapply Rle_lt_trans; [exact S|]. apply (bpow_lt radix2 (-24) 0). lia. }
  assert (B : 1 - INR k * roundoff f <= (1 - roundoff f) ^ k).
  { clear H. induction k as [|k IH]; [cbn; lra|]. rewrite S_INR. cbn [pow].
    pose proof (pos_INR k). pose proof (pow_le (1 - roundoff f) k ltac:(lra)).
    assert (Hb : (1 - roundoff f) ^ k <= 1). { apply Rle_trans with (1 ^ k); [apply pow_incr; lra|rewrite pow1; lra]. }
    nra. }
  assert (C : (1 + roundoff f) ^ k * (1 - roundoff f) ^ k <= 1).
  { rewrite <- Rpow_mult_distr. apply Rle_trans with (1 ^ k); [apply pow_incr; nra|rewrite pow1; lra]. }
  pose proof (grow_pos f k) as G.
  apply Rmult_le_reg_r with (1 - INR k * roundoff f); [lra|]. rewrite Rinv_l by lra. nra.
Qed.
Lemma near_within : forall f k y r, INR k * roundoff f < 1 -> near f k y r -> within f k y r.
Proof.
  intros f k y r H (t & -> & A & B). unfold within. replace (r * t - r) with ((t - 1) * r) by ring. rewrite Rabs_mult.
  apply Rmult_le_compat_r; [apply Rabs_pos|]. pose proof (grow_bound f k H) as G. pose proof (roundoff_pos f) as U.
  pose proof (pos_INR k) as K. set (a := INR k * roundoff f) in *. assert (A0 : 0 <= a) by (apply Rmult_le_pos; lra).
  unfold gamma. fold a. assert (E : a / (1 - a) = / (1 - a) - 1) by (field; lra). rewrite E.
  apply Rabs_le. split; [|lra].
  assert (L : / (1 + roundoff f) ^ k >= 1 - a).
  { apply Rle_ge. rewrite <- (Rinv_inv (1 - a)). apply Rinv_le; [apply grow_pos|exact G]. }
  assert (M : 1 <= / (1 - a) * / (1 - a) * 1 + 1). { pose proof (Rinv_0_lt_compat (1 - a) ltac:(lra)). nra. }
  assert (X : (1 - a) * / (1 - a) = 1) by (field; lra). pose proof (Rinv_0_lt_compat (1 - a) ltac:(lra)) as P. nra.
Qed.
Lemma grow_le_2 : forall f k, (Z.of_nat k <= 2 ^ 23)%Z -> (1 + roundoff f) ^ k <= 2.
Proof.
  intros f k H. pose proof (roundoff_pos f) as U.
  assert (A : INR k * roundoff f <= / 2).
  { apply Rle_trans with (IZR (2 ^ 23) * bpow radix2 (-24)).
    - apply Rmult_le_compat; [apply pos_INR|lra| |apply roundoff_small]. rewrite INR_IZR_INZ. now apply IZR_le.
    - rewrite (IZR_Zpower radix2) by lia. rewrite <- bpow_plus. cbn. lra. }
  eapply Rle_trans; [apply grow_bound; lra|]. rewrite <- (Rinv_inv 2). apply Rinv_le; lra.
Qed.
Lemma near_between : forall f k y r, (Z.of_nat k <= 2 ^ 23)%Z -> near f k y r -> Rabs r * / 2 <= Rabs y <= Rabs r * 2.
Proof.
  intros f k y r H N. pose proof (near_abs f k y r N) as [A B]. pose proof (grow_le_2 f k H) as G.
  pose proof (Rinv_le _ _ (grow_pos f k) G) as I. pose proof (Rabs_pos r). split; nra.
Qed.
