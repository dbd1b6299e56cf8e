(** Rounding errors of [double] operations; [to_decimal]. *)

From Coq Require Import ZArith Reals List Lia Lra Psatz Bool SpecFloat.
From Flocq Require Import Core BinarySingleNaN.
From Verif Require Import Outcome CInt Pow Root Rep SpecReal FloatProofs FloatCastProofs FloatAddProofs ConstexprMath.
Import ListNotations.
Local Open Scope R_scope.
Local Open Scope res_scope.

Definition num (x : spec_float) : Prop := is_number F64 x.

Lemma abs_error : forall x k, (-1021 <= k)%Z -> Rabs x <= bpow radix2 k -> Rabs (frnd F64 x - x) <= bpow radix2 (k - 54).
Proof.
  intros x k K H. destruct (Req_dec (Rabs x) (bpow radix2 k)) as [E|N].
  - assert (F : in_format F64 x).
    { apply generic_format_abs_inv. rewrite E. apply format_bpow. cbn. lia. }
    rewrite frnd_id by exact F. rewrite Rminus_diag_eq, Rabs_R0 by reflexivity. apply bpow_ge_0.
  - unfold frnd. eapply Rle_trans; [apply error_le_half_ulp; apply FLT_exp_valid; reflexivity|].
    replace (k - 54)%Z with (-1 + (k - 53))%Z by lia. rewrite bpow_plus. change (bpow radix2 (-1)) with (/ 2).
    apply Rmult_le_compat_l; [lra|]. destruct (Req_dec x 0) as [Z|Z].
    + rewrite Z, ulp_FLT_0 by reflexivity. apply bpow_le. cbn. lia.
    + rewrite ulp_neq_0 by exact Z. apply bpow_le. unfold cexp, FLT_exp.
      assert (M : (mag radix2 x <= k)%Z) by (apply mag_le_bpow; [exact Z|lra]). cbn [fprec femax]. lia.
Qed.

(** ** Operations with a bound [2^k] of the exact result *)

Section Ops.
Variables (x y : spec_float) (k : Z).
Hypotheses (X : num x) (Y : num y) (K : (-1000 <= k <= 1000)%Z).

Lemma rounded : forall r, Rabs r <= bpow radix2 k ->
  Rabs (frnd F64 r) < bpow radix2 (femax F64) /\ Rabs (frnd F64 r - r) <= bpow radix2 (k - 54).
Proof.
  intros r H. split; [|apply abs_error; auto; lia]. apply frnd_lt_emax with (e := k); auto; cbn; lia.
Qed.
Lemma dadd_error : Rabs (fval x + fval y) <= bpow radix2 k ->
  num (dadd x y) /\ Rabs (fval (dadd x y) - (fval x + fval y)) <= bpow radix2 (k - 54).
Proof.
  intros H. destruct (rounded _ H) as [L E]. destruct (add_rounds F64 x y X Y L) as [N V]. split; [exact N|].
  unfold dadd. rewrite V. exact E.
Qed.
Lemma dsub_error : Rabs (fval x - fval y) <= bpow radix2 k ->
  num (dsub x y) /\ Rabs (fval (dsub x y) - (fval x - fval y)) <= bpow radix2 (k - 54).
Proof.
  intros H. destruct (rounded _ H) as [L E]. destruct (sub_rounds F64 x y X Y L) as [N V]. split; [exact N|].
  unfold dsub. rewrite V. exact E.
Qed.
Lemma dmul_error : Rabs (fval x * fval y) <= bpow radix2 k ->
  num (dmul x y) /\ Rabs (fval (dmul x y) - fval x * fval y) <= bpow radix2 (k - 54).
Proof.
  intros H. destruct (rounded _ H) as [L E]. destruct (mul_rounds F64 x y X Y L) as [N V]. split; [exact N|].
  unfold dmul. rewrite V. exact E.
Qed.
Lemma ddiv_error : fval y <> 0 -> Rabs (fval x / fval y) <= bpow radix2 k ->
  num (ddiv x y) /\ Rabs (fval (ddiv x y) - fval x / fval y) <= bpow radix2 (k - 54).
Proof.
  intros NZ H. destruct (rounded _ H) as [L E]. destruct (div_rounds F64 x y X Y NZ L) as [N V]. split; [exact N|].
  unfold ddiv. rewrite V. exact E.
Qed.
End Ops.

Lemma dint_value : forall z, (Z.abs z <= 2 ^ 53)%Z -> num (dint z) /\ fval (dint z) = IZR z.
Proof. intros z H. now apply of_int_exact. Qed.

(** ** Comparisons *)

Lemma compare_value : forall x y, num x -> num y -> SFcompare x y = Some (Rcompare (fval x) (fval y)).
Proof.
  intros x y X Y. destruct (number_B F64 x X) as (a & <- & A & Fa). destruct (number_B F64 y Y) as (b & <- & B & Fb).
  rewrite <- A, <- B. exact (Bcompare_correct _ _ a b Fa Fb).
Qed.
Lemma ltb_value : forall x y, num x -> num y -> SFltb x y = true <-> fval x < fval y.
Proof.
  intros x y X Y. unfold SFltb. rewrite compare_value by auto. destruct (Rcompare_spec (fval x) (fval y)); split; intros; (discriminate || reflexivity || lra).
Qed.
Lemma leb_value : forall x y, num x -> num y -> SFleb x y = true <-> fval x <= fval y.
Proof.
  intros x y X Y. unfold SFleb. rewrite compare_value by auto. destruct (Rcompare_spec (fval x) (fval y)); split; intros; (discriminate || reflexivity || lra).
Qed.
Lemma eqb_value : forall x y, num x -> num y -> SFeqb x y = true <-> fval x = fval y.
Proof.
  intros x y X Y. unfold SFeqb. rewrite compare_value by auto. destruct (Rcompare_spec (fval x) (fval y)); split; intros; (discriminate || reflexivity || lra).
Qed.

(** ** [to_decimal] *)

(** A product by ten has a small relative error even among the subnormal numbers. *)
Lemma ten_near : forall s, in_format F64 s -> 0 < s -> near F64 1 (frnd F64 (s * 10)) (s * 10).
Proof.
  intros s F P. destruct (Rle_or_lt (bpow radix2 (2 - femax F64)) (Rabs (s * 10))) as [H|H]; [now apply near_round|].
  assert (F' : FIX_format radix2 (3 - femax F64 - fprec F64) s).
  { apply FIX_format_generic. apply (generic_format_FIX_FLT radix2 (3 - femax F64 - fprec F64) (fprec F64)). exact F. }
  destruct F' as [[m e] E1 E2]. cbn [Fexp] in E2. subst e. unfold F2R in E1. cbn [Fnum Fexp] in E1.
  assert (M : in_format F64 (s * 10)).
  { rewrite E1. replace (IZR m * bpow radix2 (3 - femax F64 - fprec F64) * 10) with (IZR (m * 10) * bpow radix2 (3 - femax F64 - fprec F64))
      by (rewrite mult_IZR; ring).
    apply format_mul_pow2; [|lia]. apply le_IZR. rewrite abs_IZR, mult_IZR.
    rewrite E1 in H. replace (IZR m * bpow radix2 (3 - femax F64 - fprec F64) * 10) with (IZR m * 10 * bpow radix2 (3 - femax F64 - fprec F64)) in H by ring.
    rewrite Rabs_mult, (Rabs_right (bpow _ _)) in H by (apply Rle_ge; apply bpow_ge_0).
    left. apply Rlt_trans with (bpow radix2 52).
    - apply Rmult_lt_reg_r with (bpow radix2 (3 - femax F64 - fprec F64)); [apply bpow_gt_0|].
      rewrite <- bpow_plus. cbn [fprec femax] in *. exact H.
    - change (bpow radix2 52) with (IZR (2 ^ 52)). apply IZR_lt. reflexivity. }
  rewrite (frnd_id _ _ M). apply near_weaken with 0%nat; [lia|apply near_refl].
Qed.

Lemma near_10 : forall k x y e, near F64 k x y -> near F64 k (x * powerRZ 10 e) (y * powerRZ 10 e).
Proof. intros k x y e (t & -> & B). exists t. split; [ring|exact B]. Qed.

Lemma powerRZ_10_add : forall a b, powerRZ 10 (a + b) = powerRZ 10 a * powerRZ 10 b.
Proof. intros. apply powerRZ_add. lra. Qed.

(** The first loop: at least a factor of eight in each round. *)
Lemma scale_up_spec : forall fuel s e, num s -> 0 < fval s -> bpow radix2 (- (3 * Z.of_nat fuel)) <= fval s -> (Z.abs e + Z.of_nat fuel <= 2000)%Z ->
  exists s' e' k, scale_up fuel s e = Ok (s', e') /\ num s' /\ (k <= fuel)%nat /\ e' = (e - Z.of_nat k)%Z /\
    (k = 0%nat -> s' = s) /\ ((0 < k)%nat -> fval s' <= 10) /\ 1 <= fval s' /\
    near F64 k (fval s' * powerRZ 10 e') (fval s * powerRZ 10 e).
Proof.
  destruct (dint_value 1) as [N1 V1]; [lia|]. destruct (dint_value 10) as [N10 V10]; [lia|].
  assert (Done : forall fuel s e, num s -> 1 <= fval s -> exists s' e' k, Ok (s, e) = Ok (s', e') /\ num s' /\ (k <= fuel)%nat /\ e' = (e - Z.of_nat k)%Z /\
    (k = 0%nat -> s' = s) /\ ((0 < k)%nat -> fval s' <= 10) /\ 1 <= fval s' /\
    near F64 k (fval s' * powerRZ 10 e') (fval s * powerRZ 10 e)).
  { intros fuel s e N L. exists s, e, 0%nat. repeat split; auto; try lia. apply N. apply N. apply near_refl. }
  induction fuel as [|n IH]; intros s e N P B E; cbn [scale_up].
  - destruct (SFltb s (dint 1)) eqn:C; [|apply Done; auto; now apply Rnot_lt_le; intros X; apply (ltb_value s (dint 1) N N1) in C; rewrite V1 in C].
    apply (ltb_value s (dint 1) N N1) in C. rewrite V1 in C. cbn in B. lra.
  - destruct (SFltb s (dint 1)) eqn:C.
    + apply (ltb_value s (dint 1) N N1) in C. rewrite V1 in C.
      unfold csub at 1. rewrite arith_in_range by (apply in_range_I64; unfold INTMAX_MIN, INTMAX_MAX; lia). cbn [bind].
      assert (A : Rabs (fval s * 10) <= bpow radix2 4) by (rewrite Rabs_right by lra; change (bpow radix2 4) with 16; lra).
      assert (L : Rabs (frnd F64 (fval s * fval (dint 10))) < bpow radix2 (femax F64)).
      { rewrite V10. apply frnd_lt_emax with (e := 4%Z); auto; cbn; lia. }
      destruct (mul_rounds F64 s (dint 10) N N10 L) as [Nm Vm]. fold (dmul s (dint 10)) in Nm, Vm. rewrite V10 in Vm.
      assert (G : fval s * 8 <= fval (dmul s (dint 10))).
      { rewrite Vm. rewrite <- (frnd_id F64 (fval s * 8)).
        - apply frnd_le. lra.
        - pose proof (number_format F64 s N) as F. unfold in_format in *. change 8 with (bpow radix2 3).
          apply FLT_format_generic in F; [|reflexivity]. destruct F as [[m x] F1 F2 F3]. apply generic_format_FLT.
          exists (Float radix2 m (x + 3)); cbn [Fnum Fexp] in *; auto; [|lia]. rewrite F1. unfold F2R. cbn [Fnum Fexp]. rewrite bpow_plus. ring. }
      assert (T : fval (dmul s (dint 10)) <= 10).
      { rewrite Vm. apply Rle_trans with (frnd F64 10); [apply frnd_le; lra|]. rewrite frnd_id by (apply (format_int F64 10); discriminate). lra. }
      destruct (IH (dmul s (dint 10)) (e - 1)%Z Nm) as (s' & e' & k & E1 & E2 & E3 & E4 & E5 & E6 & E7 & E8); [lra| |lia|].
      { replace (- (3 * Z.of_nat n))%Z with (- (3 * Z.of_nat (S n)) + 3)%Z by lia. rewrite bpow_plus. change (bpow radix2 3) with 8. nra. }
      exists s', e', (S k). split; [exact E1|]. split; [exact E2|]. split; [lia|]. split; [lia|]. split; [discriminate|].
      split. { intros _. destruct k; [rewrite (E5 eq_refl); exact T|]. apply E6. lia. }
      split; [exact E7|]. replace (S k) with (k + 1)%nat by lia. eapply near_trans; [exact E8|].
      replace (fval s * powerRZ 10 e) with (fval s * 10 * powerRZ 10 (e - 1)).
      * apply near_10. rewrite Vm. apply ten_near; auto. now apply number_format.
      * assert (Q : powerRZ 10 e = powerRZ 10 (e - 1) * powerRZ 10 1) by (rewrite <- powerRZ_10_add; f_equal; lia).
        change (powerRZ 10 1) with (10 * 1) in Q. rewrite Q. ring.
    + apply Done; auto. apply Rnot_lt_le. intros X. rewrite <- V1 in X. apply (ltb_value s (dint 1) N N1) in X. congruence.
Qed.

(** The second loop: at least a factor of eight out of each round. *)
Lemma scale_down_spec : forall fuel s e, num s -> 1 <= fval s -> fval s <= 8 * bpow radix2 (3 * Z.of_nat fuel) -> (Z.abs e + Z.of_nat fuel <= 2000)%Z ->
  exists s' e' k, scale_down fuel s e = Ok (s', e') /\ num s' /\ (k <= fuel)%nat /\ e' = (e + Z.of_nat k)%Z /\
    1 <= fval s' < 10 /\ near F64 k (fval s' * powerRZ 10 e') (fval s * powerRZ 10 e).
Proof.
  destruct (dint_value 10) as [N10 V10]; [lia|].
  assert (Done : forall fuel s e, num s -> 1 <= fval s < 10 -> exists s' e' k, Ok (s, e) = Ok (s', e') /\ num s' /\ (k <= fuel)%nat /\ e' = (e + Z.of_nat k)%Z /\
    1 <= fval s' < 10 /\ near F64 k (fval s' * powerRZ 10 e') (fval s * powerRZ 10 e)).
  { intros fuel s e N L. exists s, e, 0%nat. split; [reflexivity|]. split; [exact N|]. split; [lia|]. split; [lia|]. split; [exact L|apply near_refl]. }
  induction fuel as [|n IH]; intros s e N P B E; cbn [scale_down].
  - destruct (SFleb (dint 10) s) eqn:C.
    + apply (leb_value (dint 10) s N10 N) in C. rewrite V10 in C. cbn in B. lra.
    + apply Done; auto. split; [exact P|]. apply Rnot_le_lt. intros X. rewrite <- V10 in X. apply (leb_value (dint 10) s N10 N) in X. congruence.
  - destruct (SFleb (dint 10) s) eqn:C.
    + apply (leb_value (dint 10) s N10 N) in C. rewrite V10 in C.
      unfold cadd at 1. rewrite arith_in_range by (apply in_range_I64; unfold INTMAX_MIN, INTMAX_MAX; lia). cbn [bind].
      assert (F : in_format F64 (fval s * / 8)).
      { pose proof (number_format F64 s N) as F. unfold in_format in *. change (/ 8) with (bpow radix2 (-3)).
        apply FLT_format_generic in F; [|reflexivity]. destruct F as [[m x] F1 F2 F3]. cbn [Fnum Fexp] in *. apply generic_format_FLT.
        exists (Float radix2 m (x - 3)); cbn [Fnum Fexp]; auto.
        - rewrite F1. unfold F2R. cbn [Fnum Fexp]. replace (x - 3)%Z with (x + -3)%Z by lia. rewrite bpow_plus. ring.
        - destruct (Z.le_gt_cases (3 - femax F64 - fprec F64 + 3) x) as [Q|Q]; [lia|]. exfalso.
          assert (M : IZR m < IZR (2 ^ 53)). { apply IZR_lt. apply Z.le_lt_trans with (Z.abs m); [lia|]. exact F2. }
          assert (Bx : bpow radix2 x <= bpow radix2 (-1000)) by (apply bpow_le; cbn [fprec femax] in Q; lia).
          assert (B1 : IZR (2 ^ 53) * bpow radix2 (-1000) < 1).
          { change (IZR (2 ^ 53)) with (bpow radix2 53). rewrite <- bpow_plus. apply (bpow_lt radix2 _ 0). reflexivity. }
          pose proof (bpow_gt_0 radix2 x). unfold F2R in F1. cbn [Fnum Fexp] in F1.
          assert (IZR m * bpow radix2 x <= IZR (2 ^ 53) * bpow radix2 (-1000)); [|lra].
          apply Rle_trans with (IZR (2 ^ 53) * bpow radix2 x); [apply Rmult_le_compat_r; lra|]. apply Rmult_le_compat_l; [|exact Bx]. apply IZR_le. discriminate. }
      pose proof (number_format F64 s N) as Fs.
      assert (U : frnd F64 (fval s / 10) <= fval s * / 8).
      { apply Rle_trans with (frnd F64 (fval s * / 8)); [apply frnd_le; lra|]. rewrite frnd_id by exact F. lra. }
      assert (G : 1 <= frnd F64 (fval s / 10)).
      { apply Rle_trans with (frnd F64 1); [|apply frnd_le; lra]. rewrite frnd_id by (apply (format_int F64 1); discriminate). lra. }
      assert (L : Rabs (frnd F64 (fval s / fval (dint 10))) < bpow radix2 (femax F64)).
      { rewrite V10, Rabs_right by lra. destruct (number_B F64 s N) as (b & E1 & E2 & _). pose proof (abs_B2R_lt_emax _ _ b) as A.
        rewrite E2, Rabs_right in A by lra. lra. }
      destruct (div_rounds F64 s (dint 10) N N10) as [Nd Vd]; [rewrite V10; lra|exact L|]. fold (ddiv s (dint 10)) in Nd, Vd. rewrite V10 in Vd.
      destruct (IH (ddiv s (dint 10)) (e + 1)%Z Nd) as (s' & e' & k & E1 & E2 & E3 & E4 & E5 & E6); [rewrite Vd; exact G| |lia|].
      { rewrite Vd. eapply Rle_trans; [exact U|]. replace (3 * Z.of_nat (S n))%Z with (3 * Z.of_nat n + 3)%Z in B by lia.
        rewrite bpow_plus in B. change (bpow radix2 3) with 8 in B. lra. }
      exists s', e', (S k). split; [exact E1|]. split; [exact E2|]. split; [lia|]. split; [lia|]. split; [exact E5|].
      replace (S k) with (k + 1)%nat by lia. eapply near_trans; [exact E6|].
      replace (fval s * powerRZ 10 e) with (fval s / 10 * powerRZ 10 (e + 1)).
      * apply near_10. rewrite Vd. apply near_round. rewrite Rabs_right by lra. apply Rle_trans with 1; [|lra]. apply (bpow_le radix2 _ 0). discriminate.
      * rewrite powerRZ_10_add. change (powerRZ 10 1) with (10 * 1). field.
    + apply Done; auto. split; [exact P|]. apply Rnot_le_lt. intros X. rewrite <- V10 in X. apply (leb_value (dint 10) s N10 N) in X. congruence.
Qed.

(** Every positive number is taken apart. *)
Lemma to_decimal_spec : forall v, num v -> 0 < fval v ->
  exists s e k, to_decimal v = Ok (s, e) /\ num s /\ (k <= 800)%nat /\ (Z.abs e <= 400)%Z /\ 1 <= fval s < 10 /\
    near F64 k (fval s * powerRZ 10 e) (fval v).
Proof.
  intros v N P. destruct (dint_value 0) as [N0 V0]; [lia|]. unfold to_decimal.
  destruct (SFeqb v (dint 0)) eqn:Z. { apply (eqb_value v (dint 0) N N0) in Z. lra. }
  assert (Ab : SFabs v = v).
  { destruct v as [s|s| |s m e]; try reflexivity; cbn in P; [unfold fval in P; cbn in P; lra| |]; destruct s; try reflexivity.
    - destruct N as [_ N]. discriminate.
    - exfalso. unfold fval, SF2R in P. cbn [cond_Zopp] in P. pose proof (F2R_lt_0 radix2 (Float radix2 (Z.neg m) e) eq_refl). cbn in P. lra. }
  rewrite Ab.
  assert (Lo : bpow radix2 (- (3 * Z.of_nat decimal_fuel)) <= fval v).
  { pose proof (number_format F64 v N) as F.
    apply Rle_trans with (bpow radix2 (3 - femax F64 - fprec F64)); [apply bpow_le; vm_compute; discriminate|].
    apply (generic_format_ge_bpow radix2 (FLT_exp (3 - femax F64 - fprec F64) (fprec F64))); auto. intros e. unfold FLT_exp. lia. }
  assert (Hi : fval v <= 8 * bpow radix2 (3 * Z.of_nat decimal_fuel)).
  { destruct (number_B F64 v N) as (b & E1 & E2 & _). pose proof (abs_B2R_lt_emax _ _ b) as A. rewrite E2, Rabs_right in A by lra.
    assert (bpow radix2 (femax F64) <= bpow radix2 (3 * Z.of_nat decimal_fuel)) by (apply bpow_le; vm_compute; discriminate).
    pose proof (bpow_gt_0 radix2 (3 * Z.of_nat decimal_fuel)). lra. }
  destruct (scale_up_spec decimal_fuel v 0 N P Lo) as (s & e & k & E1 & E2 & E3 & E4 & E5 & E6 & E7 & E8); [vm_compute; discriminate|].
  rewrite E1. cbn [bind fst snd].
  assert (Hs : fval s <= 8 * bpow radix2 (3 * Z.of_nat decimal_fuel)).
  { destruct k; [rewrite (E5 eq_refl); exact Hi|]. specialize (E6 ltac:(lia)).
    assert (bpow radix2 3 <= bpow radix2 (3 * Z.of_nat decimal_fuel)) by (apply bpow_le; vm_compute; discriminate). change (bpow radix2 3) with 8 in *. lra. }
  destruct (scale_down_spec decimal_fuel s e E2 E7 Hs) as (s' & e' & k' & F1 & F2 & F3 & F4 & F5 & F6); [unfold decimal_fuel in *; lia|].
  rewrite F1. cbn [bind fst snd].
  destruct (SFltb v (dint 0)) eqn:L. { apply (ltb_value v (dint 0) N N0) in L. lra. }
  exists s', e', (k' + k)%nat. split; [reflexivity|]. split; [exact F2|]. unfold decimal_fuel in *. split; [lia|]. split; [lia|]. split; [exact F5|].
  eapply near_trans; [exact F6|]. replace (fval v) with (fval v * powerRZ 10 0) by (cbn; ring). exact E8.
Qed.
