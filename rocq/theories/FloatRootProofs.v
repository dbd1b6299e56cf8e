(** [iroot_runtime<2>]: the square root of a double is an estimate good enough for the
    integer root. *)

From Coq Require Import ZArith Reals Lia Lra Psatz Bool SpecFloat.
From Flocq Require Import Core BinarySingleNaN.
From Verif Require Import Outcome CInt Root Rep RootFloat SpecRatio RatioPowProofs SpecReal FloatProofs FloatCastProofs.
Local Open Scope R_scope.

Lemma sqrt_estimate_value : forall v, (0 < v <= 2 ^ 63)%Z ->
  let r := frnd F64 (sqrt (frnd F64 (IZR v))) in 0 <= r ->
  (Ztrunc r <= INTMAX_MAX)%Z -> sqrt_estimate v = Ok (Ztrunc r).
Proof.
  intros v H r P L. unfold sqrt_estimate.
  destruct (near_round_mid F64 0 (IZR v) (IZR v)) as [K N]; [lia|apply int_mid; lia|apply near_refl|].
  destruct (of_int_rounds F64 v K) as [A B].
  assert (V : 0 < IZR v) by (apply IZR_lt; lia). pose proof (near_pos _ _ _ _ N V) as D.
  destruct (sqrt_rounds F64 _ A) as [A1 B1]; [rewrite B; lra|].
  cbn [n_convert]. rewrite trunc_value by apply A1. rewrite B1, B. fold r.
  assert (R : in_range I64 (Ztrunc r) = true).
  { apply in_range_I64. split; auto. apply Z.le_trans with 0%Z; [discriminate|]. rewrite Ztrunc_floor by exact P.
    apply Zfloor_lub. exact P. }
  rewrite R. reflexivity.
Qed.

(** No root is lost: the estimate is not below the root. *)
Lemma sqrt_of_square : forall x, (0 < x)%Z -> (x <= 2 ^ 32)%Z ->
  IZR x <= frnd F64 (sqrt (frnd F64 (IZR x * IZR x))).
Proof.
  intros x P B. assert (Px : 1 <= IZR x) by (apply IZR_le; lia).
  assert (Fx : in_format F64 (IZR x)) by (apply format_int; cbn [fprec]; lia).
  destruct (mag radix2 (IZR x)) as [k K] eqn:Ek. destruct (K ltac:(lra)) as [K1 K2]. rewrite Rabs_right in K1, K2 by lra.
  assert (Kp : (0 <= k - 1)%Z).
  { destruct (Z.le_gt_cases 0 (k - 1)) as [H|H]; auto. exfalso. assert (bpow radix2 k <= bpow radix2 0) by (apply bpow_le; lia).
    change (bpow radix2 0) with 1 in *. lra. }
  assert (Ku : (k <= 33)%Z).
  { destruct (Z.le_gt_cases k 33) as [H|H]; auto. exfalso.
    assert (bpow radix2 33 <= bpow radix2 (k - 1)) by (apply bpow_le; lia).
    assert (IZR x <= bpow radix2 32). { rewrite <- (IZR_Zpower radix2) by lia. apply IZR_le. exact B. }
    assert (bpow radix2 32 < bpow radix2 33) by (apply bpow_lt; lia). lra. }
  destruct (Req_dec (IZR x) (bpow radix2 (k - 1))) as [E|E].
  - assert (F2 : in_format F64 (IZR x * IZR x)).
    { rewrite E, <- bpow_plus. apply format_bpow. cbn [fprec femax]. lia. }
    rewrite (frnd_id _ _ F2), sqrt_square by lra. rewrite frnd_id by exact Fx. lra.
  - set (s := IZR x) in *. set (u := roundoff F64). set (h := bpow radix2 (k - 54)).
    assert (Ib : s <= bpow radix2 k - 1).
    { unfold s in *. rewrite <- (IZR_Zpower radix2) in * by lia. rewrite <- minus_IZR. apply IZR_le. apply lt_IZR in K2. lia. }
    assert (Pred : (s + pred radix2 (FLT_exp (3 - femax F64 - fprec F64) (fprec F64)) s) / 2 = s - h).
    { rewrite pred_eq_pos by lra. unfold pred_pos. rewrite Ek. cbn [mag_val]. rewrite Req_bool_false by exact E.
      unfold ulp. rewrite Req_bool_false by lra. unfold cexp. rewrite Ek. cbn [mag_val]. unfold FLT_exp. cbn [fprec femax].
      replace (Z.max (k - 53) (3 - 1024 - 53)) with (k - 54 + 1)%Z by lia. rewrite bpow_plus. fold h.
      change (bpow radix2 1) with 2. field. }
    assert (U : u = bpow radix2 (-53)) by reflexivity.
    assert (Hh : h = bpow radix2 k * u / 2).
    { unfold h. rewrite U. replace (k - 54)%Z with (k + (-53) + (-1))%Z by lia. rewrite !bpow_plus.
      change (bpow radix2 (-1)) with (/ 2). field. }
    assert (Up : 0 < u) by apply roundoff_pos.
    assert (Hb : bpow radix2 k * u <= bpow radix2 (-20)).
    { rewrite U, <- bpow_plus. apply bpow_le. lia. }
    assert (S20 : bpow radix2 (-20) < 1) by (apply (bpow_lt radix2 (-20) 0); lia).
    assert (Half : bpow radix2 (k - 1) * 2 = bpow radix2 k).
    { replace k with (k - 1 + 1)%Z at 2 by lia. rewrite bpow_plus. reflexivity. }
    pose proof (bpow_gt_0 radix2 k) as Bk.
    assert (N : near F64 1 (frnd F64 (s * s)) (s * s)).
    { apply near_round. rewrite Rabs_right by nra. apply Rle_trans with 1; [|nra]. apply (bpow_le radix2 _ 0). discriminate. }
    destruct N as (t & Et & T1 & _). rewrite pow_1 in T1. fold u in T1.
    assert (T2 : 1 - u <= t).
    { eapply Rle_trans; [|exact T1]. apply Rmult_le_reg_r with (1 + u); [lra|]. rewrite Rinv_l by lra. nra. }
    unfold frnd at 1. apply round_N_ge_midp.
    + apply FLT_exp_valid. apply fprec_pos.
    + exact Fx.
    + rewrite Pred. rewrite Et.
      assert (Hs : 0 <= s - h) by (rewrite Hh; nra).
      rewrite <- (sqrt_square (s - h)) by exact Hs. apply sqrt_lt_1_alt. split; [nra|].
      apply Rlt_le_trans with (s * s * (1 - u)); [|nra].
      set (w := bpow radix2 k) in *. rewrite Hh.
      assert (X : (w * u / 2) * (w * u / 2) < s * (w - s) * u).
      { apply Rlt_le_trans with (w / 2 * u); [|].
        - assert (0 < w * u) by nra. assert (w * u / 2 < 1) by lra. nra.
        - assert (w / 2 <= s) by lra. assert (1 <= w - s) by lra. assert (w / 2 <= s * (w - s)) by nra. nra. }
      nra.
Qed.
Lemma sqrt_not_below : forall v x, (0 < x)%Z -> (x * x <= v)%Z -> (x <= 2 ^ 32)%Z ->
  IZR x <= frnd F64 (sqrt (frnd F64 (IZR v))).
Proof.
  intros v x P L B. apply Rle_trans with (frnd F64 (sqrt (frnd F64 (IZR x * IZR x)))); [now apply sqrt_of_square|].
  apply frnd_le, sqrt_le_1_alt, frnd_le. rewrite <- mult_IZR. now apply IZR_le.
Qed.
Lemma sqrt_not_above : forall v w, (0 < v)%Z -> (v <= w * w)%Z -> (0 < w <= 2 ^ 32)%Z ->
  frnd F64 (sqrt (frnd F64 (IZR v))) < IZR w + 1.
Proof.
  intros v w P L B. assert (Pw : 1 <= IZR w) by (apply IZR_le; lia).
  apply Rle_lt_trans with (frnd F64 (sqrt (frnd F64 (IZR w * IZR w)))).
  { apply frnd_le, sqrt_le_1_alt, frnd_le. rewrite <- mult_IZR. now apply IZR_le. }
  set (s := IZR w) in *. assert (Bs : s <= bpow radix2 32).
  { unfold s. rewrite <- (IZR_Zpower radix2) by lia. apply IZR_le. apply B. }
  assert (Small : bpow radix2 (2 - femax F64) <= 1) by (apply (bpow_le radix2 _ 0); discriminate).
  assert (N : near F64 1 (frnd F64 (s * s)) (s * s)) by (apply near_round; rewrite Rabs_right by nra; nra).
  destruct N as (t & Et & T1 & T2). rewrite pow_1 in T1, T2. set (u := roundoff F64) in *.
  assert (U : u = bpow radix2 (-53)) by reflexivity. assert (Up : 0 < u) by apply roundoff_pos.
  assert (T0 : 0 < t) by (pose proof (Rinv_0_lt_compat (1 + u) ltac:(lra)); lra).
  assert (Q : s * / 2 <= sqrt (frnd F64 (s * s)) <= s * (1 + u)).
  { rewrite Et. assert (I : / 2 <= / (1 + u)).
    { apply Rinv_le; [lra|]. assert (u < 1). { rewrite U. apply (bpow_lt radix2 _ 0). lia. } lra. }
    split.
    - rewrite <- (sqrt_square (s * / 2)) by nra. apply sqrt_le_1_alt. nra.
    - rewrite <- (sqrt_square (s * (1 + u))) by nra. apply sqrt_le_1_alt. nra. }
  assert (Md : mid_range F64 (sqrt (frnd F64 (s * s)))).
  { right. rewrite Rabs_right by nra. split.
    - apply Rle_trans with (bpow radix2 (-1)); [apply bpow_le; discriminate|]. change (bpow radix2 (-1)) with (/ 2). lra.
    - apply Rle_trans with (bpow radix2 33); [|apply bpow_le; discriminate]. change 33%Z with (32 + 1)%Z. rewrite bpow_plus. change (bpow radix2 1) with 2.
      assert (u <= 1). { rewrite U. apply (bpow_le radix2 _ 0). lia. } nra. }
  destruct (near_round_mid F64 0 _ _ ltac:(lia) Md (near_refl _ _)) as [_ (t' & Et' & _ & T3)]. rewrite Et'.
  cbn [plus] in T3. rewrite pow_1 in T3. fold u in T3.
  assert (Su : s * u <= bpow radix2 (-21)).
  { apply Rle_trans with (bpow radix2 32 * u); [nra|]. rewrite U, <- bpow_plus. apply bpow_le. lia. }
  assert (S21 : bpow radix2 (-21) <= / 8) by (apply (bpow_le radix2 (-21) (-3)); lia).
  assert (u <= 1). { rewrite U. apply (bpow_le radix2 _ 0). lia. }
  apply Rle_lt_trans with (s * (1 + u) * (1 + u)); [|nra].
  apply Rle_trans with (sqrt (frnd F64 (s * s)) * (1 + u)); [|nra].
  apply Rmult_le_compat_l; [apply sqrt_pos|exact T3].
Qed.

Lemma runtime_sqrt : forall other v x, (0 <= v < 3037000498 ^ 2)%Z -> floor_root 2 v x ->
  iroot (runtime_estimate other) 2 v = Ok x.
Proof.
  intros other v x H (X0 & X1 & X2). change (x ^ 2 <= v)%Z in X1. change (v < (x + 1) ^ 2)%Z in X2.
  destruct (Z.eq_dec v 0) as [->|Nz].
  { assert (x = 0)%Z by nia. subst. reflexivity. }
  assert (Xp : (0 < x)%Z) by nia. assert (Xu : (x <= 3037000497)%Z) by nia.
  pose proof (sqrt_not_below v x Xp ltac:(nia) ltac:(lia)) as Lo.
  pose proof (sqrt_not_above v (x + 1) ltac:(lia) ltac:(nia) ltac:(lia)) as Hi.
  set (r := frnd F64 (sqrt (frnd F64 (IZR v)))) in *.
  assert (Rp : 0 <= r) by (apply Rle_trans with (IZR x); auto; apply IZR_le; lia).
  assert (Tr : (x <= Ztrunc r <= x + 1)%Z).
  { rewrite Ztrunc_floor by exact Rp. split; [now apply Zfloor_lub|].
    assert (Zfloor r < x + 1 + 1)%Z; [|lia]. apply lt_IZR. rewrite !plus_IZR in *. eapply Rle_lt_trans; [apply Zfloor_lb|exact Hi]. }
  assert (Est : runtime_estimate other 2%positive v = Ok (Ztrunc r)).
  { unfold runtime_estimate. cbn [Pos.eqb]. apply sqrt_estimate_value; auto; [nia|]. fold r. change INTMAX_MAX with 9223372036854775807%Z. lia. }
  assert (Sq : ((Ztrunc r + 1) ^ 2 <= INTMAX_MAX)%Z).
  { apply Z.le_trans with (3037000499 ^ 2)%Z; [apply Z.pow_le_mono_l; lia|discriminate]. }
  rewrite (iroot_near _ 2%positive v x (Ztrunc r)); auto; try lia.
  - replace (Ztrunc r =? x - 1)%Z with false by (symmetry; apply Z.eqb_neq; lia). reflexivity.
  - split; auto.
  - change INTMAX_MAX with 9223372036854775807%Z. lia.
Qed.
