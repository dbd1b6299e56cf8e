(** The numbers of the Kalman filters: roundings of sums, products and quotients of doubles. *)

From Coq Require Import ZArith Reals Bool Lia Lra SpecFloat List.
From Flocq Require Import Core.
From Verif Require Import Outcome CInt Rep SpecReal FloatProofs FloatCastProofs SpecOrder FloatOrderProofs SpecKalman KalmanProofs.
Import ListNotations.
Local Open Scope R_scope.

Notation fmt := (in_format F64).
Notation pw := (bpow radix2).

Lemma pw_pos : forall e, 0 < pw e.
Proof. intros. apply bpow_gt_0. Qed.
Lemma pw_step : forall e, pw (e + 1) = 2 * pw e.
Proof. intros. rewrite bpow_plus. change (pw 1) with 2. ring. Qed.
Lemma pw_half : forall e, pw (e - 1) = pw e / 2.
Proof. intros. replace e with (e - 1 + 1)%Z at 2 by lia. rewrite pw_step. lra. Qed.
Lemma fmt_pw : forall e, (-1074 <= e)%Z -> fmt (pw e).
Proof. intros e H. apply format_bpow. cbn. lia. Qed.
Lemma fmt_0 : fmt 0.
Proof. apply generic_format_0. Qed.
Lemma fmt_1 : fmt 1.
Proof. change 1 with (pw 0). apply fmt_pw. lia. Qed.
Lemma fmt_half : fmt (1 / 2).
Proof. replace (1 / 2) with (pw (-1)) by (change (pw (-1)) with (/ 2); lra). apply fmt_pw. lia. Qed.
Lemma fmt_double : forall x, fmt x -> fmt (2 * x).
Proof.
  intros x F. apply FLT_format_generic in F; [|reflexivity]. destruct F as [[m e] E M L]. apply generic_format_FLT.
  apply (FLT_spec _ _ _ _ (Float radix2 m (e + 1))); cbn [Fnum Fexp] in *; [|exact M|lia].
  rewrite E. unfold F2R. cbn [Fnum Fexp]. rewrite pw_step. ring.
Qed.
Lemma held_fmt : forall t q r, is_held t q r -> fmt r /\ Rabs r < top.
Proof. intros t q r (x & _ & N & <-). split; [now apply number_format|now apply (number_lt_emax F64)]. Qed.
Lemma reads_fmt : forall t q r, reads t q r -> fmt r.
Proof. intros t q r []; [now apply number_format|now apply format_int]. Qed.

Lemma rnd_ge : forall a r, fmt a -> a <= r -> a <= rnd r.
Proof. intros a r F H. rewrite <- (frnd_id F64 a F). now apply frnd_le. Qed.
Lemma rnd_le : forall b r, fmt b -> r <= b -> rnd r <= b.
Proof. intros b r F H. rewrite <- (frnd_id F64 b F). now apply frnd_le. Qed.
Lemma small_1023 : forall r, Rabs r <= pw 1023 -> small_enough r.
Proof. intros r H. unfold small_enough, top. apply (frnd_lt_emax F64 r 1023); [cbn; lia|cbn; lia|exact H]. Qed.
Lemma small_by : forall r e, (e <= 1023)%Z -> Rabs r <= pw e -> small_enough r.
Proof. intros r e E H. apply small_1023. eapply Rle_trans; [exact H|]. now apply bpow_le. Qed.

Lemma half_ulp : forall r e, (-1021 <= e)%Z -> Rabs r <= pw e -> Rabs (rnd r - r) <= pw (e - 54).
Proof.
  intros r e E H. destruct (Req_dec r 0) as [->|Z].
  - rewrite (frnd_id F64 0 fmt_0), Rminus_0_r, Rabs_R0. apply Rlt_le, pw_pos.
  - destruct (Rle_lt_or_eq_dec _ _ H) as [L|Q].
    + eapply Rle_trans; [apply error_le_half_ulp; typeclasses eauto|]. rewrite ulp_neq_0 by exact Z. unfold cexp.
      assert (M : (mag radix2 r <= e)%Z) by now apply mag_le_bpow.
      assert (X : (FLT_exp (3 - femax F64 - fprec F64) (fprec F64) (mag radix2 r) <= e - 53)%Z) by (unfold FLT_exp; cbn; lia).
      apply bpow_le with (r := radix2) in X. replace (e - 54)%Z with (e - 53 - 1)%Z by lia. rewrite pw_half. lra.
    + assert (F : fmt r).
      { destruct (Rcase_abs r) as [N|P]; [rewrite (Rabs_left _ N) in Q; replace r with (- pw e) by lra; apply generic_format_opp|rewrite (Rabs_right _ P) in Q; rewrite Q];
          apply fmt_pw; lia. }
      rewrite (frnd_id F64 r F), Rminus_eq_0, Rabs_R0. apply Rlt_le, pw_pos.
Qed.

(** A half unit beyond a power of two is rounded to the power. *)
Lemma tie : forall j, (-1021 <= j)%Z -> rnd (pw j + pw (j - 53)) = pw j.
Proof.
  intros j J. unfold frnd, round, scaled_mantissa, cexp.
  assert (M : mag radix2 (pw j + pw (j - 53)) = (j + 1)%Z :> Z).
  { apply mag_unique. replace (j + 1 - 1)%Z with j by lia. pose proof (pw_pos (j - 53)) as P. rewrite Rabs_right by (pose proof (pw_pos j); lra).
    split; [lra|]. rewrite pw_step. pose proof (bpow_lt radix2 (j - 53) j). lia || (assert (pw (j - 53) < pw j) by (apply bpow_lt; lia); lra). }
  rewrite M. assert (X : FLT_exp (3 - femax F64 - fprec F64) (fprec F64) (j + 1) = (j - 52)%Z) by (unfold FLT_exp; cbn; lia). rewrite X.
  assert (S : (pw j + pw (j - 53)) * pw (- (j - 52)) = IZR (2 ^ 52) + / 2).
  { rewrite Rmult_plus_distr_r, <- !bpow_plus. replace (j + - (j - 52))%Z with 52%Z by lia. replace (j - 53 + - (j - 52))%Z with (-1)%Z by lia.
    rewrite <- (IZR_Zpower radix2 52) by lia. reflexivity. }
  rewrite S. assert (Fl : Zfloor (IZR (2 ^ 52) + / 2) = (2 ^ 52)%Z) by (apply Zfloor_imp; rewrite plus_IZR; lra).
  unfold Znearest. rewrite Fl. replace (IZR (2 ^ 52) + / 2 - IZR (2 ^ 52)) with (/ 2) by ring. rewrite Rcompare_Eq by reflexivity.
  change (negb (Z.even (2 ^ 52))) with false. cbv iota. unfold F2R. cbn [Fnum Fexp]. change (IZR (2 ^ 52)) with (IZR (Zpower radix2 52)). rewrite IZR_Zpower by lia.
  rewrite <- bpow_plus. f_equal. lia.
Qed.

(** ** The gain *)

Lemma gain_sum : forall x y, fmt x -> fmt y -> 0 <= x -> 0 <= y -> 0 < x + y -> x <= rnd (x + y) /\ y <= rnd (x + y) /\ 0 < rnd (x + y).
Proof.
  intros x y Fx Fy Px Py P. assert (A : x <= rnd (x + y)) by (apply rnd_ge; auto; lra). assert (B : y <= rnd (x + y)) by (apply rnd_ge; auto; lra).
  split; [exact A|]. split; [exact B|]. destruct (Rle_lt_or_eq_dec _ _ Px) as [L|E]; lra.
Qed.
Lemma div_mono : forall x s c, 0 < s -> x <= c * s -> x / s <= c.
Proof. intros x s c P H. apply Rmult_le_reg_r with s; [exact P|]. replace (x / s * s) with x by (field; lra). exact H. Qed.
Lemma div_mono' : forall x s c, 0 < s -> c * s <= x -> c <= x / s.
Proof. intros x s c P H. apply Rmult_le_reg_r with s; [exact P|]. replace (x / s * s) with x by (field; lra). exact H. Qed.
Lemma gain_bounds : forall x y, fmt x -> fmt y -> 0 <= x -> 0 <= y -> 0 < x + y ->
  0 <= gain_of x y <= 1 /\ (y <= x -> 1 / 2 <= gain_of x y) /\ (x <= y -> gain_of x y <= 1 / 2).
Proof.
  intros x y Fx Fy Px Py P. destruct (gain_sum x y Fx Fy Px Py P) as (A & B & C). unfold gain_of. split; [split|split].
  - apply rnd_ge; [apply fmt_0|]. apply div_mono'; [exact C|]. lra.
  - apply rnd_le; [apply fmt_1|]. apply div_mono; [exact C|]. lra.
  - intros H. apply rnd_ge; [apply fmt_half|]. apply div_mono'; [exact C|]. assert (rnd (x + y) <= 2 * x) by (apply rnd_le; [now apply fmt_double|lra]). lra.
  - intros H. apply rnd_le; [apply fmt_half|]. apply div_mono; [exact C|]. assert (2 * x <= rnd (x + y)) by (apply rnd_ge; [now apply fmt_double|lra]). lra.
Qed.
Lemma gain_small : forall x y, fmt x -> fmt y -> 0 <= x -> 0 <= y -> 0 < x + y -> small_enough (x / rnd (x + y)).
Proof.
  intros x y Fx Fy Px Py P. destruct (gain_sum x y Fx Fy Px Py P) as (A & B & C). apply (small_by _ 0); [lia|]. change (pw 0) with 1. rewrite Rabs_right.
  - apply div_mono; [exact C|lra].
  - apply Rle_ge. apply div_mono'; [exact C|lra].
Qed.

(** ** The uncertainty *)

Lemma complement_bounds : forall k, 0 <= k <= 1 -> 0 <= rnd (1 - k) <= 1 /\ (1 / 2 <= k -> rnd (1 - k) <= 1 / 2) /\ small_enough (1 - k).
Proof.
  intros k [A B]. split; [split|split].
  - apply rnd_ge; [apply fmt_0|lra].
  - apply rnd_le; [apply fmt_1|lra].
  - intros H. apply rnd_le; [apply fmt_half|lra].
  - apply (small_by _ 0); [lia|]. change (pw 0) with 1. rewrite Rabs_right; lra.
Qed.
Lemma covariance_bounds : forall u k, fmt u -> 0 <= u -> 0 <= k <= 1 ->
  0 <= covariance_of u k <= u /\ (forall e, (-1074 <= e)%Z -> 1 / 2 <= k -> u <= 2 * pw e -> covariance_of u k <= pw e).
Proof.
  intros u k F P K. destruct (complement_bounds k K) as ((A & B) & C & _). unfold covariance_of. split; [split|].
  - apply rnd_ge; [apply fmt_0|]. now apply Rmult_le_pos.
  - apply rnd_le; [exact F|]. nra.
  - intros e E H U. specialize (C H). apply rnd_le; [now apply fmt_pw|]. nra.
Qed.
Lemma covariance_small : forall u k, fmt u -> 0 <= u -> 0 <= k <= 1 -> Rabs u < top -> small_enough (rnd (1 - k) * u).
Proof.
  intros u k F P K L. destruct (covariance_bounds u k F P K) as ((A & B) & _). unfold small_enough. fold (covariance_of u k). rewrite Rabs_right in * by lra. lra.
Qed.

(** ** The state *)

Lemma step_bounds : forall x r k, fmt x -> fmt r -> 0 <= k <= 1 ->
  (x <= r -> 0 <= step_of x r k <= rnd (r - x)) /\ (r <= x -> rnd (r - x) <= step_of x r k <= 0).
Proof.
  intros x r k Fx Fr [A B]. unfold step_of. split; intros H.
  - assert (0 <= rnd (r - x)) by (apply rnd_ge; [apply fmt_0|lra]). split.
    + apply rnd_ge; [apply fmt_0|]. now apply Rmult_le_pos.
    + apply rnd_le; [apply frnd_format|]. nra.
  - assert (rnd (r - x) <= 0) by (apply rnd_le; [apply fmt_0|lra]). split.
    + apply rnd_ge; [apply frnd_format|]. nra.
    + apply rnd_le; [apply fmt_0|]. nra.
Qed.
Lemma towards : forall x r k, fmt x -> fmt r -> 0 <= k <= 1 ->
  (x <= r -> x <= update_of x r k <= rnd (x + rnd (r - x))) /\ (r <= x -> rnd (x + rnd (r - x)) <= update_of x r k <= x).
Proof.
  intros x r k Fx Fr K. destruct (step_bounds x r k Fx Fr K) as [U D]. unfold update_of. split; intros H.
  - specialize (U H). split; [apply rnd_ge; [exact Fx|lra]|apply frnd_le; lra].
  - specialize (D H). split; [apply frnd_le; lra|apply rnd_le; [exact Fx|lra]].
Qed.

Section Update.
Variables (x r k : R) (j : Z).
Hypotheses (Fx : fmt x) (Fr : fmt r) (K : 0 <= k <= 1) (J : (-1000 <= j <= 1022)%Z) (Bx : Rabs x <= pw j) (Br : Rabs r <= pw j).

Lemma diff_le : Rabs (r - x) <= pw (j + 1).
Proof. rewrite pw_step. eapply Rle_trans; [apply Rabs_triang|]. rewrite Rabs_Ropp. lra. Qed.
Lemma diff_err : Rabs (rnd (r - x) - (r - x)) <= pw (j - 53).
Proof. replace (j - 53)%Z with (j + 1 - 54)%Z by lia. apply half_ulp; [lia|]. apply diff_le. Qed.
Lemma diff_rnd : Rabs (rnd (r - x)) <= pw (j + 1).
Proof. apply (frnd_abs_le F64); [cbn; lia|]. apply diff_le. Qed.
Lemma ends : Rabs (x + rnd (r - x)) <= pw j + pw (j - 53).
Proof. pose proof diff_err as E. replace (x + rnd (r - x)) with (r + (rnd (r - x) - (r - x))) by ring. eapply Rle_trans; [apply Rabs_triang|]. lra. Qed.
Lemma end_rnd : Rabs (rnd (x + rnd (r - x))) <= pw j.
Proof.
  pose proof ends as E. apply Rabs_le_inv in E. pose proof (tie j ltac:(lia)) as T. apply Rabs_le. split.
  - assert (O : rnd (- (pw j + pw (j - 53))) = - rnd (pw j + pw (j - 53))) by (unfold frnd; apply round_NE_opp).
    rewrite T in O. rewrite <- O. apply frnd_le. lra.
  - eapply Rle_trans; [apply frnd_le, (proj2 E)|lra].
Qed.
Lemma update_in : Rabs (update_of x r k) <= pw j.
Proof.
  destruct (towards x r k Fx Fr K) as [U D]. pose proof end_rnd as E. apply Rabs_le_inv in E. apply Rabs_le_inv in Bx. apply Rabs_le.
  destruct (Rle_dec x r) as [H|H]; [specialize (U H)|specialize (D (Rlt_le _ _ (Rnot_le_lt _ _ H)))]; lra.
Qed.
Lemma scaled_le : Rabs (k * rnd (r - x)) <= pw (j + 1).
Proof. rewrite Rabs_mult, (Rabs_right k) by lra. pose proof diff_rnd. pose proof (Rabs_pos (rnd (r - x))). nra. Qed.
Lemma step_in : Rabs (x + step_of x r k) <= pw (j + 1).
Proof.
  destruct (step_bounds x r k Fx Fr K) as [U D]. pose proof ends as E. apply Rabs_le_inv in E. apply Rabs_le_inv in Bx.
  assert (S : pw (j - 53) <= pw j) by (apply bpow_le; lia). rewrite pw_step. pose proof (pw_pos j). apply Rabs_le.
  destruct (Rle_dec x r) as [H'|H']; [specialize (U H')|specialize (D (Rlt_le _ _ (Rnot_le_lt _ _ H')))]; lra.
Qed.
Lemma update_is_small : update_small x r k.
Proof.
  split; [|split].
  - apply (small_by _ (j + 1)); [lia|apply diff_le].
  - apply (small_by _ (j + 1)); [lia|apply scaled_le].
  - apply (small_by _ (j + 1)); [lia|apply step_in].
Qed.
(** Three roundings. *)
Lemma update_err : Rabs (update_of x r k - (x + k * (r - x))) <= 3 * pw (j - 53).
Proof.
  pose proof diff_err as E1. assert (E2 : Rabs (step_of x r k - k * rnd (r - x)) <= pw (j - 53)).
  { replace (j - 53)%Z with (j + 1 - 54)%Z by lia. apply half_ulp; [lia|apply scaled_le]. }
  assert (E3 : Rabs (update_of x r k - (x + step_of x r k)) <= pw (j - 53)).
  { replace (j - 53)%Z with (j + 1 - 54)%Z by lia. apply half_ulp; [lia|apply step_in]. }
  apply Rabs_le_inv in E1, E2, E3. apply Rabs_le. pose proof (pw_pos (j - 53)).
  replace (update_of x r k - (x + k * (r - x))) with
    ((update_of x r k - (x + step_of x r k)) + (step_of x r k - k * rnd (r - x)) + k * (rnd (r - x) - (r - x))) by ring.
  nra.
Qed.
End Update.
