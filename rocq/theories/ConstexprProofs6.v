(** [constexpr_pow] and the roots computed with it. *)

From Coq Require Import ZArith Reals List Lia Lra Psatz Bool SpecFloat.
From Flocq Require Import Core BinarySingleNaN.
From Verif Require Import Outcome CInt Pow Root Rep SpecReal SpecRatio FloatProofs FloatCastProofs ConstexprMath ConstexprProofs ConstexprProofs2
  ConstexprProofs3 ConstexprProofs4 ConstexprProofs5.
Import ListNotations.
Local Open Scope R_scope.
Local Open Scope res_scope.

Lemma INR_fact : forall n f, INR (fact n) = f -> INR (fact (S n)) = IZR (Z.of_nat (S n)) * f.
Proof. intros n f H. rewrite fact_simpl, mult_INR, H, <- INR_IZR_INZ. reflexivity. Qed.
Lemma fact_11 : INR (fact 11) = 39916800.
Proof. replace 39916800 with (11 * (10 * (9 * (8 * (7 * (6 * (5 * (4 * (3 * (2 * (1 * 1))))))))))) by ring. do 11 apply INR_fact. reflexivity. Qed.
Lemma fact_13 : INR (fact 13) = 6227020800.
Proof. replace 6227020800 with (13 * (12 * 39916800)) by ring. do 2 apply INR_fact. exact fact_11. Qed.

(** The orders and factors in use: those of [iroot_compile] and the default ones of [constexpr_pow]. *)
Definition in_use (n : nat) (factor : positive) : Prop := (n, factor) = (12%nat, 64%positive) \/ (n, factor) = (10%nat, 128%positive).

Lemma exp_logs : forall n factor x, in_use n factor -> num x -> Rabs (fval x) <= 23 ->
  exists p, constexpr_exp n factor x = Ok p /\ logs p (fval x) (192 / 1000000000000000).
Proof.
  intros n factor x [U|U] N B; injection U as -> ->.
  - destruct (constexpr_exp_logs 12 6 x (28 / 100000000000000000) N) as (p & E & P1 & P2 & P3); auto; try lia.
    + cbn; lia.
    + cbn [pow]. lra.
    + lra.
    + intros z Z _. rewrite fact_13. assert (Q : z ^ 13 <= (23 / 64) ^ 13) by (apply pow_incr; lra).
      apply Rle_trans with ((23 / 64) ^ 13 / 6227020800); [|cbn [pow]; lra]. apply Rmult_le_compat_r; lra.
    + exists p. split; [exact E|]. split; [exact P1|]. split; [exact P2|]. cbn [pow] in P3. lra.
  - destruct (constexpr_exp_logs 10 7 x (28 / 100000000000000000) N) as (p & E & P1 & P2 & P3); auto; try lia.
    + cbn; lia.
    + cbn [pow]. lra.
    + lra.
    + intros z Z M. assert (Z' : z <= 23 / 128) by (cbn [pow] in M; lra).
      rewrite fact_11. assert (Q : z ^ 11 <= (23 / 128) ^ 11) by (apply pow_incr; lra).
      apply Rle_trans with ((23 / 128) ^ 11 / 39916800); [|cbn [pow]; lra]. apply Rmult_le_compat_r; lra.
    + exists p. split; [exact E|]. split; [exact P1|]. split; [exact P2|]. cbn [pow] in P3. lra.
Qed.

Lemma pow_logs : forall n factor v e, in_use n factor -> num v -> 0 < fval v -> num e -> Rabs (fval e) <= 1000000000 ->
  Rabs (fval e * ln (fval v)) <= 22 ->
  exists p, constexpr_pow n factor v e = Ok p /\ logs p (fval e * ln (fval v)) (Rabs (fval e) / 1000000000000 + 194 / 1000000000000000).
Proof.
  intros n factor v e U N P Ne Be Bx. destruct (constexpr_log_spec v N P) as (l & L1 & L2 & L3).
  unfold constexpr_pow. rewrite L1. cbn [bind].
  assert (D : Rabs (fval e * fval l - fval e * ln (fval v)) <= Rabs (fval e) / 1000000000000).
  { rewrite <- Rmult_minus_distr_l, Rabs_mult. unfold Rdiv. apply Rmult_le_compat_l; [apply Rabs_pos|exact L3]. }
  assert (B : Rabs (fval e * fval l) <= 23).
  { apply Rabs_le_inv in D, Bx. apply Rabs_le. lra. }
  destruct (dmul_error e l 5 Ne L2 ltac:(lia)) as [M1 M2]; [bp; lra|]. revert M2. bp. intros M2.
  destruct (exp_logs n factor (dmul e l) U M1) as (p & E & P1 & P2 & P3).
  - apply Rabs_le_inv in D, Bx, M2. apply Rabs_le. lra.
  - exists p. split; [exact E|]. split; [exact P1|]. split; [exact P2|].
    apply Rabs_le_inv in D, M2, P3. apply Rabs_le. lra.
Qed.

(** From a difference of logarithms to a relative error. *)
Lemma logs_relative : forall x L d, logs x L d -> d <= / 100 -> Rabs (fval x - exp L) <= 102 / 100 * d * exp L.
Proof.
  intros x L d (N & P & H) D. pose proof (Rabs_pos (ln (fval x) - L)) as D0. set (t := ln (fval x) - L) in *.
  assert (E : fval x = exp L * exp t) by (rewrite <- exp_plus; unfold t; replace (L + (ln (fval x) - L)) with (ln (fval x)) by ring; now rewrite exp_ln).
  pose proof (exp_pos L) as EL. rewrite E. replace (exp L * exp t - exp L) with ((exp t - 1) * exp L) by ring.
  rewrite Rabs_mult, (Rabs_right (exp L)) by lra. apply Rmult_le_compat_r; [lra|].
  apply Rabs_le_inv in H. 
  assert (G : forall u, 1 + u <= exp u) by (intros u; destruct (Req_dec u 0) as [->|Ne]; [rewrite exp_0; lra|left; now apply exp_ineq1]).
  pose proof (G t) as G1. pose proof (G (- t)) as G2. rewrite exp_Ropp in G2.
  assert (G3 : exp t * (1 - t) <= 1).
  { apply Rmult_le_reg_l with (/ exp t); [apply Rinv_0_lt_compat, exp_pos|]. rewrite <- Rmult_assoc, Rinv_l by (pose proof (exp_pos t); lra). lra. }
  apply Rabs_le. split; [lra|]. pose proof (exp_pos t). nra.
Qed.

(** ** The estimate of a root *)

Lemma ln_2 : ln 2 <= 694 / 1000.
Proof.
  pose proof (atanh_remainder 4 (/ 3) ltac:(lra)) as A. replace ((1 + / 3) / (1 - / 3)) with 2 in A by field.
  cbn [atanh_sum Nat.mul Nat.add pow INR] in A. lra.
Qed.
Lemma ln_int : forall v, (1 <= v <= INTMAX_MAX)%Z -> 0 <= ln (IZR v) <= 4375 / 100.
Proof.
  intros v V. assert (1 <= IZR v) by (apply IZR_le; lia). split; [rewrite <- ln_1; apply ln_mono; lra|].
  apply Rle_trans with (ln (2 ^ 63)).
  - apply ln_mono; [lra|]. change 2 with (IZR 2). rewrite pow_IZR. apply IZR_le. change (2 ^ Z.of_nat 63)%Z with (INTMAX_MAX + 1)%Z. lia.
  - rewrite ln_pow by lra. rewrite INR_IZR_INZ. change (Z.of_nat 63) with 63%Z. pose proof ln_2. lra.
Qed.

Lemma estimate_logs : forall n v, (2 <= Zpos n <= 2 ^ 53)%Z -> (1 <= v <= INTMAX_MAX)%Z ->
  exists p, constexpr_pow 12 64 (dint v) (ddiv (dint 1) (dint (Zpos n))) = Ok p /\ logs p (ln (IZR v) / IZR (Zpos n)) (7 / 10000000000000).
Proof.
  intros n v Hn Hv. assert (Rn : 2 <= IZR (Zpos n)) by (apply IZR_le; lia). assert (Rv : 1 <= IZR v) by (apply IZR_le; lia).
  pose proof (ln_int v Hv) as Lv.
  (* the operand *)
  assert (Bv : IZR v <= bpow radix2 63) by (change (bpow radix2 63) with (IZR (2 ^ 63)); apply IZR_le; change (2 ^ 63)%Z with (INTMAX_MAX + 1)%Z; lia).
  assert (Ov : Rabs (frnd F64 (IZR v)) < bpow radix2 (femax F64)).
  { apply frnd_lt_emax with (e := 63%Z); [discriminate|reflexivity|]. rewrite Rabs_right by lra. exact Bv. }
  destruct (of_int_rounds F64 v Ov) as [Nv Vv]. fold (dint v) in Nv, Vv.
  assert (Kv : near F64 1 (fval (dint v)) (IZR v)).
  { rewrite Vv. apply near_round. rewrite Rabs_right by lra. apply Rle_trans with 1; [|lra]. apply (bpow_le radix2 _ 0). discriminate. }
  assert (Pv : 0 < fval (dint v)).
  { destruct Kv as (t & -> & A & _). apply Rmult_lt_0_compat; [lra|]. eapply Rlt_le_trans; [|exact A]. apply Rinv_0_lt_compat, grow_pos. }
  pose proof (near_ln 1 _ _ Kv ltac:(lra)) as Dv. change (INR 1) with 1 in Dv.
  (* the exponent *)
  destruct (dint_value (Zpos n)) as [Nn Vn]; [lia|].
  assert (Q : 0 <= 1 / IZR (Zpos n) <= / 2).
  { unfold Rdiv. rewrite Rmult_1_l. split; [left; apply Rinv_0_lt_compat; lra|]. apply Rinv_le_contravar; lra. }
  destruct (dint_value 1) as [N1 V1]; [lia|].
  destruct (ddiv_error (dint 1) (dint (Zpos n)) (-1) N1 Nn ltac:(lia)) as [E1 E2]; [rewrite Vn; lra|rewrite Vn, V1, Rabs_right by lra; bp; lra|].
  rewrite Vn, V1 in E2. revert E2. bp. intros E2. set (e := ddiv (dint 1) (dint (Zpos n))) in *. set (q := 1 / IZR (Zpos n)) in *.
  assert (Be : Rabs (fval e) <= 501 / 1000) by (apply Rabs_le_inv in E2; apply Rabs_le; lra).
  set (LV := ln (fval (dint v))) in *. set (lv := ln (IZR v)) in *.
  assert (BLV : Rabs LV <= 44) by (apply Rabs_le_inv in Dv; apply Rabs_le; lra).
  assert (Diff : Rabs (fval e * LV - q * lv) <= 14 / 10000000000000000).
  { replace (fval e * LV - q * lv) with ((fval e - q) * LV + q * (LV - lv)) by ring. eapply Rle_trans; [apply Rabs_triang|].
    rewrite !Rabs_mult. rewrite (Rabs_right q) by lra.
    assert (A1 : Rabs (fval e - q) * Rabs LV <= / 36028797018963968 * 44) by (apply Rmult_le_compat; auto using Rabs_pos).
    assert (A2 : q * Rabs (LV - lv) <= / 2 * (1 * / 9007199254740992)) by (apply Rmult_le_compat; auto using Rabs_pos; lra).
    lra. }
  assert (Bq : 0 <= q * lv <= 21875 / 1000) by (split; [apply Rmult_le_pos; lra|nra]).
  destruct (pow_logs 12 64 (dint v) e) as (p & P0 & P1 & P2 & P3); auto.
  - now left.
  - lra.
  - fold LV. apply Rabs_le_inv in Diff. apply Rabs_le. lra.
  - exists p. split; [exact P0|]. split; [exact P1|]. split; [exact P2|]. fold LV in P3.
    replace (lv / IZR (Zpos n)) with (q * lv) by (unfold q; field; lra).
    apply Rabs_le_inv in P3, Diff. apply Rabs_le. lra.
Qed.

Lemma ln_IZR_pow : forall x n, (0 < x)%Z -> ln (IZR (x ^ Zpos n)) = IZR (Zpos n) * ln (IZR x).
Proof.
  intros x n P. rewrite <- positive_nat_Z, <- pow_IZR, ln_pow, INR_IZR_INZ by (apply (IZR_lt 0); lia). reflexivity.
Qed.

(** The estimate itself, between the root's neighbours when the root is not nearer to a whole number than the error. *)
Lemma estimate_between : forall n v a b, (2 <= Zpos n <= 2 ^ 53)%Z -> (1 <= v <= INTMAX_MAX)%Z -> (0 <= a)%Z -> (a < b)%Z -> (b <= 2 ^ 62)%Z ->
  (a = 0%Z \/ IZR (Zpos n) * ln (IZR a) + IZR (Zpos n) * (7 / 10000000000000) <= ln (IZR v)) ->
  ln (IZR v) + IZR (Zpos n) * (7 / 10000000000000) < IZR (Zpos n) * ln (IZR b) ->
  exists e, compile_estimate n v = Ok e /\ (a <= e < b)%Z.
Proof.
  intros n v a b Hn Hv Ha Hab Hb L U. destruct (estimate_logs n v Hn Hv) as (p & E & P1 & P2 & P3).
  assert (Rn : 2 <= IZR (Zpos n)) by (apply IZR_le; lia).
  assert (P4 : Rabs (IZR (Zpos n) * ln (fval p) - ln (IZR v)) <= IZR (Zpos n) * (7 / 10000000000000)).
  { replace (IZR (Zpos n) * ln (fval p) - ln (IZR v)) with (IZR (Zpos n) * (ln (fval p) - ln (IZR v) / IZR (Zpos n))) by (field; lra).
    rewrite Rabs_mult, (Rabs_right (IZR (Zpos n))) by lra. apply Rmult_le_compat_l; lra. }
  apply Rabs_le_inv in P4.
  assert (Pb : fval p < IZR b).
  { apply ln_lt_inv; [exact P2|apply (IZR_lt 0); lia|]. nra. }
  assert (Pa : IZR a <= fval p).
  { destruct L as [->|L]; [lra|]. destruct (Z.eq_dec a 0) as [->|Na]; [lra|]. assert (0 < IZR a) by (apply (IZR_lt 0); lia).
    apply Rnot_lt_le. intros W. apply ln_increasing in W; [|exact P2]. nra. }
  unfold compile_estimate. rewrite E. cbn [bind]. unfold dtrunc. cbn [n_convert]. rewrite trunc_value by apply P1.
  set (e := Ztrunc (fval p)).
  assert (B : (a <= e < b)%Z).
  { unfold e. rewrite Ztrunc_floor by lra. split; [now apply Zfloor_lub|]. apply lt_IZR. eapply Rle_lt_trans; [apply Zfloor_lb|exact Pb]. }
  assert (R : in_range I64 e = true) by (apply in_range_I64; unfold INTMAX_MIN, INTMAX_MAX; lia).
  rewrite R. exists e. split; [reflexivity|exact B].
Qed.

Lemma ln_gap : forall a b, 0 < a -> a < b -> (b - a) / b <= ln b - ln a.
Proof.
  intros a b P Q. rewrite <- ln_quot by lra.
  assert (U : ln (a / b) <= a / b - 1).
  { assert (0 < a / b) by (apply Rdiv_lt_0_compat; lra). rewrite <- (ln_exp (a / b - 1)). apply ln_mono; [assumption|].
    assert (a / b < 1) by (apply Rmult_lt_reg_r with b; [lra|]; unfold Rdiv; rewrite Rmult_assoc, Rinv_l; lra).
    left. replace (a / b) with (1 + (a / b - 1)) at 1 by ring. apply exp_ineq1. lra. }
  replace (b / a) with (/ (a / b)) by (field; lra). rewrite ln_Rinv by (apply Rdiv_lt_0_compat; lra).
  replace ((b - a) / b) with (1 - a / b) by (field; lra). lra.
Qed.

Lemma floor_root_small : forall n v r, (2 <= Zpos n)%Z -> (1 <= v <= INTMAX_MAX)%Z -> floor_root n v r -> (1 <= r <= 3037000499)%Z.
Proof.
  intros n v r Hn Hv (R0 & R1 & R2). split.
  - destruct (Z.eq_dec r 0) as [->|]; [|lia]. rewrite Z.pow_1_l in R2 by lia. lia.
  - destruct (Z_le_gt_dec r 3037000499) as [|G]; [assumption|exfalso].
    assert (3037000500 ^ 2 <= r ^ Zpos n)%Z.
    { transitivity (r ^ 2)%Z; [apply Z.pow_le_mono_l; lia|apply Z.pow_le_mono_r; lia]. }
    unfold INTMAX_MAX in Hv. change (3037000500 ^ 2)%Z with 9223372037000250000%Z in *. lia.
Qed.

Section Roots.
Variables (n : positive) (v r : Z).
Hypothesis Hn : (2 <= Zpos n <= 2 ^ 53)%Z.
Hypothesis Hv : (1 <= v <= INTMAX_MAX)%Z.
Hypothesis Hr : floor_root n v r.

Let N := IZR (Zpos n).
Let N2 : 2 <= N.
Proof. apply IZR_le; lia. Qed.
Let Rr : (1 <= r <= 3037000499)%Z.
Proof. eapply floor_root_small; eauto. lia. Qed.

Let below : N * ln (IZR r) <= ln (IZR v).
Proof.
  unfold N. rewrite <- ln_IZR_pow by lia. destruct Hr as (_ & A & _). apply ln_mono; [apply (IZR_lt 0)|apply IZR_le; exact A].
  apply Z.pow_pos_nonneg; lia.
Qed.
Let above : ln (IZR v) + / (IZR v + 1) <= N * ln (IZR (r + 1)).
Proof.
  unfold N. rewrite <- ln_IZR_pow by lia. destruct Hr as (_ & _ & A). assert (V : 1 <= IZR v) by (apply IZR_le; lia).
  assert (W : IZR v + 1 <= IZR ((r + 1) ^ Zpos n)) by (rewrite <- (plus_IZR v 1); apply IZR_le; lia).
  pose proof (ln_gap (IZR v) (IZR v + 1) ltac:(lra) ltac:(lra)) as G. replace (IZR v + 1 - IZR v) with 1 in G by ring. unfold Rdiv in G. rewrite Rmult_1_l in G.
  pose proof (ln_mono (IZR v + 1) _ ltac:(lra) W). lra.
Qed.

Let step : forall a, (1 <= a <= 3037000500)%Z -> ln (IZR a) + / 4000000000 <= ln (IZR (a + 1)).
Proof.
  intros a A. assert (P : 1 <= IZR a <= 3037000500) by (split; apply IZR_le; lia). rewrite plus_IZR.
  pose proof (ln_gap (IZR a) (IZR a + 1) ltac:(lra) ltac:(lra)) as G. replace (IZR a + 1 - IZR a) with 1 in G by ring. unfold Rdiv in G. rewrite Rmult_1_l in G.
  assert (/ 4000000000 <= / (IZR a + 1)) by (apply Rinv_le_contravar; lra). lra.
Qed.

Let v1 : 0 < / (IZR v + 1).
Proof. apply Rinv_0_lt_compat. assert (1 <= IZR v) by (apply IZR_le; lia). lra. Qed.

Let lower : (r - 1 = 0)%Z \/ N * ln (IZR (r - 1)) + N * (7 / 10000000000000) <= ln (IZR v).
Proof.
  destruct (Z.eq_dec r 1) as [->|Nr]; [now left|right]. pose proof (step (r - 1) ltac:(lia)) as S.
  replace (r - 1 + 1)%Z with r in S by lia. nra.
Qed.

Lemma estimate_near : exists e, compile_estimate n v = Ok e /\ (Z.abs (e - r) <= 1)%Z.
Proof.
  destruct (estimate_between n v (r - 1) (r + 2) Hn Hv) as (e & E & B); try lia.
  - exact lower.
  - fold N. pose proof (step (r + 1) ltac:(lia)) as S. replace (r + 1 + 1)%Z with (r + 2)%Z in S by lia. nra.
  - exists e. split; [exact E|lia].
Qed.

Lemma estimate_exact : v = (r ^ Zpos n)%Z -> exists e, compile_estimate n v = Ok e /\ (r - 1 <= e <= r)%Z.
Proof.
  intros X. destruct (estimate_between n v (r - 1) (r + 1) Hn Hv) as (e & E & B); try lia.
  - exact lower.
  - fold N. pose proof (step r ltac:(lia)) as S.
    assert (Q : ln (IZR v) = N * ln (IZR r)) by (rewrite X; apply ln_IZR_pow; lia). nra.
  - exists e. split; [exact E|lia].
Qed.

Lemma estimate_floor : v <> (r ^ Zpos n)%Z -> (Zpos n * (v + 1) <= 10 ^ 12)%Z -> compile_estimate n v = Ok r.
Proof.
  intros X B. assert (V : 1 <= IZR v) by (apply IZR_le; lia).
  assert (M : N * (IZR v + 1) <= 1000000000000).
  { unfold N. rewrite <- (plus_IZR v 1), <- mult_IZR. apply IZR_le. exact B. }
  assert (I : N * (7 / 10000000000000) < / (IZR v + 1)).
  { apply Rmult_lt_reg_r with (IZR v + 1); [lra|]. rewrite Rinv_l by lra. nra. }
  destruct (estimate_between n v r (r + 1) Hn Hv) as (e & E & D); try lia.
  - right. fold N. unfold N in *. rewrite <- ln_IZR_pow by lia. destruct Hr as (_ & A & _).
    assert (P : 1 <= IZR (r ^ Zpos n)) by (apply IZR_le; pose proof (Z.pow_pos_nonneg r (Zpos n)); lia).
    assert (W : IZR (r ^ Zpos n) < IZR v) by (apply IZR_lt; lia).
    assert (W1 : IZR (r ^ Zpos n) + 1 <= IZR v) by (rewrite <- (plus_IZR _ 1); apply IZR_le; lia).
    pose proof (ln_gap (IZR (r ^ Zpos n)) (IZR v) ltac:(lra) W) as G.
    assert (H : / (IZR v + 1) <= (IZR v - IZR (r ^ Zpos n)) / IZR v).
    { apply Rle_trans with (1 / IZR v).
      - unfold Rdiv. rewrite Rmult_1_l. apply Rinv_le_contravar; lra.
      - unfold Rdiv. apply Rmult_le_compat_r; [left; apply Rinv_0_lt_compat; lra|lra]. }
    lra.
  - fold N. lra.
  - rewrite E. f_equal. lia.
Qed.
End Roots.
