(** The error of [constexpr_exp] and [constexpr_pow]. *)

From Coq Require Import ZArith Reals List Lia Lra Psatz Bool SpecFloat.
From Flocq Require Import Core BinarySingleNaN.
From Verif Require Import Outcome CInt Pow Root Rep SpecReal FloatProofs FloatCastProofs ConstexprMath ConstexprProofs ConstexprProofs2 ConstexprProofs3 ConstexprProofs4.
Import ListNotations.
Local Open Scope R_scope.
Local Open Scope res_scope.

(** ** The polynomial *)

Fixpoint hsum (n : nat) (i f : Z) (x : R) : R :=
  match n with O => 0 | S n' => x * (/ IZR (f * (i + 1)) + hsum n' (i + 1) (f * (i + 1)) x) end.
Fixpoint small_factorials (n : nat) (i f : Z) : Prop :=
  match n with O => True | S n' => (1 <= f * (i + 1) <= 2 ^ 53)%Z /\ small_factorials n' (i + 1) (f * (i + 1)) end.

Lemma exp_sum_S : forall n x, exp_sum (S n) x = exp_sum n x + x ^ S n / INR (fact (S n)).
Proof. reflexivity. Qed.

Lemma hsum_value : forall n i x, exp_sum (i + n) x = exp_sum i x + x ^ i * hsum n (Z.of_nat i) (Z.of_nat (fact i)) x.
Proof.
  induction n as [|n IH]; intros i x.
  - rewrite Nat.add_0_r. cbn [hsum]. ring.
  - rewrite <- plus_n_Sm. change (S (i + n)) with (S i + n)%nat. rewrite IH, exp_sum_S. cbn [hsum].
    assert (F : (Z.of_nat (fact i) * (Z.of_nat i + 1))%Z = Z.of_nat (fact (S i))) by (rewrite fact_simpl, Nat2Z.inj_mul; lia).
    assert (G : (Z.of_nat i + 1)%Z = Z.of_nat (S i)) by lia.
    rewrite F, G, <- INR_IZR_INZ. change (x ^ S i) with (x * x ^ i). unfold Rdiv. ring.
Qed.

Lemma coefficient_app : forall f, (1 <= f <= 2 ^ 53)%Z -> app (ddiv (dint 1) (dint f)) (/ IZR f) (/ 18014398509481984) 1.
Proof.
  intros f F. destruct (dint_value f) as [N V]; [lia|]. assert (P : 1 <= IZR f) by (apply IZR_le; lia).
  eapply app_eq; [|apply Rmult_1_l].
  eapply app_weaken; [apply (app_div 0 (dint 1) (dint f) 1 (IZR f) 0 0 1 1)|..]; auto; try lra; try lia.
  - apply app_int; [lia|]. rewrite Rabs_R1. lra.
  - rewrite V, Rminus_diag_eq, Rabs_R0 by reflexivity. lra.
  - rewrite Rabs_right; lra.
  - rewrite V, Rabs_right; lra.
  - bp. lra.
  - bp. lra.
Qed.

Lemma horner_app : forall z Z, app z Z (/ 36028797018963968) (23 / 64) ->
  forall n i f, (0 <= i)%Z -> (1 <= f)%Z -> small_factorials n i f ->
  app (horner z (coefficients n i f)) (hsum n i f Z) (5 / 18014398509481984) (3 / 5).
Proof.
  intros z Z A n. induction n as [|n IH]; intros i f I F H.
  - cbn [coefficients horner hsum]. eapply app_weaken; [apply (app_int 0 (3 / 5))|..]; try lia; try lra. rewrite Rabs_R0. lra.
  - destruct H as [B H]. cbn [coefficients horner hsum].
    assert (W : wrap U64 (f * (i + 1)) = (f * (i + 1))%Z) by (apply wrap_id, in_range_spec; unfold imin, imax; cbn; lia).
    rewrite W. set (g := (f * (i + 1))%Z) in *.
    assert (C := coefficient_app g B). assert (H' : app (horner z (coefficients n (i + 1) g)) (hsum n (i + 1) g Z) (5 / 18014398509481984) (3 / 5)) by (apply IH; [lia|lia|exact H]).
    assert (S : app (dadd (ddiv (dint 1) (dint g)) (horner z (coefficients n (i + 1) g))) (/ IZR g + hsum n (i + 1) g Z) (8 / 18014398509481984) (8 / 5)).
    { eapply app_weaken; [apply (app_add 1 _ _ _ _ _ _ _ _ C H')|..]; try lia; bp; lra. }
    eapply app_weaken; [apply (app_mul 0 _ _ _ _ _ _ _ _ A S)|..]; try lia; bp; lra.
Qed.

(** ** Errors as differences of logarithms *)

Definition logs (x : spec_float) (L d : R) : Prop := num x /\ 0 < fval x /\ Rabs (ln (fval x) - L) <= d.

Lemma ln_near_exp : forall w Z d, Rabs (w - exp Z) <= d * exp Z -> 0 <= d <= / 1000 -> 0 < w /\ Rabs (ln w - Z) <= 1001 / 1000 * (d * (1 + 2 / 1000)).
Proof.
  intros w Z d H D. pose proof (exp_pos Z) as E. set (t := w / exp Z - 1).
  assert (W : w = exp Z * (1 + t)) by (unfold t; field; lra).
  assert (T : - d <= t <= d).
  { apply Rabs_le_inv in H. rewrite W in H. split; apply Rmult_le_reg_r with (exp Z); lra. }
  assert (P : 0 < 1 + t) by lra. split; [rewrite W; now apply Rmult_lt_0_compat|].
  rewrite W, ln_mult, ln_exp by lra. replace (Z + ln (1 + t) - Z) with (ln (1 + t)) by ring.
  assert (U : forall s, 0 < s -> ln s <= s - 1).
  { intros s S. rewrite <- (ln_exp (s - 1)). apply ln_mono; [exact S|]. destruct (Req_dec s 1) as [->|Ne].
    - replace (1 - 1) with 0 by ring. rewrite exp_0. lra.
    - left. replace s with (1 + (s - 1)) at 1 by ring. apply exp_ineq1. lra. }
  pose proof (U (1 + t) P) as U1. pose proof (U (/ (1 + t)) (Rinv_0_lt_compat _ P)) as U2. rewrite ln_Rinv in U2 by exact P.
  assert (I : / (1 + t) - 1 <= 1001 / 1000 * (d * (1 + 2 / 1000))).
  { apply Rmult_le_reg_r with (1 + t); [exact P|]. rewrite Rmult_minus_distr_r, Rinv_l by lra. nra. }
  apply Rabs_le. split; [lra|]. nra.
Qed.

Lemma exp_times : forall n x, exp (INR n * x) = exp x ^ n.
Proof.
  induction n as [|n IH]; intros x; [cbn [INR pow]; rewrite Rmult_0_l; apply exp_0|].
  rewrite S_INR. replace ((INR n + 1) * x) with (x + INR n * x) by ring. rewrite exp_plus, IH. reflexivity.
Qed.
Lemma exp_bounds : forall L, Rabs L <= 25 -> bpow radix2 (- 40) <= exp L <= bpow radix2 40.
Proof.
  intros L H. apply Rabs_le_inv in H. assert (E : exp 25 <= bpow radix2 40).
  { replace 25 with (INR 25 * 1) by (rewrite INR_IZR_INZ; cbn; ring). rewrite exp_times. 
    apply Rle_trans with (3 ^ 25); [apply pow_incr; split; [left; apply exp_pos|apply exp_le_3]|]. bp. cbn [pow]. lra. }
  assert (M : forall a b, a <= b -> exp a <= exp b) by (intros a b [U | ->]; [left; now apply exp_increasing|lra]).
  split; [|eapply Rle_trans; [apply M|exact E]; lra].
  apply Rle_trans with (exp (- (25))); [|apply M; lra]. rewrite exp_Ropp. change (bpow radix2 (-40)) with (/ bpow radix2 40). apply Rinv_le_contravar; [apply exp_pos|exact E].
Qed.

Lemma logs_square : forall w L d, logs w L d -> Rabs (2 * L) + 2 * d <= 25 -> logs (dmul w w) (2 * L) (2 * d + / 9007199254740992).
Proof.
  intros w L d (N & P & H) B. 
  assert (Bw : Rabs (2 * ln (fval w)) <= 25).
  { replace (2 * ln (fval w)) with (2 * L + 2 * (ln (fval w) - L)) by ring. eapply Rle_trans; [apply Rabs_triang|].
    rewrite (Rabs_mult 2 (ln (fval w) - L)), (Rabs_right 2) by lra. lra. }
  pose proof (exp_bounds _ Bw) as E. replace (2 * ln (fval w)) with (ln (fval w) + ln (fval w)) in E by ring. rewrite exp_plus, exp_ln in E by exact P.
  assert (Pp : 0 < fval w * fval w) by (now apply Rmult_lt_0_compat).
  assert (Lm : Rabs (frnd F64 (fval w * fval w)) < bpow radix2 (femax F64)).
  { apply frnd_lt_emax with (e := 41%Z); [discriminate|reflexivity|]. rewrite Rabs_right by lra. eapply Rle_trans; [apply E|]. now apply bpow_le. }
  destruct (mul_rounds F64 w w N N Lm) as [M1 M2]. fold (dmul w w) in M1, M2.
  assert (R : near F64 1 (fval (dmul w w)) (fval w * fval w)).
  { rewrite M2. apply near_round. rewrite Rabs_right by lra. eapply Rle_trans; [|apply E]. apply bpow_le. discriminate. }
  pose proof (near_ln 1 _ _ R Pp) as K. rewrite ln_mult in K by exact P. change (INR 1) with 1 in K.
  split; [exact M1|]. split.
  - destruct R as (t & -> & A & _). apply Rmult_lt_0_compat; [exact Pp|]. eapply Rlt_le_trans; [|exact A].
    apply Rinv_0_lt_compat, grow_pos.
  - apply Rabs_le_inv in K, H. apply Rabs_le. lra.
Qed.

Fixpoint p2 (j : nat) : positive := match j with O => xH | S j' => xO (p2 j') end.

Lemma logs_pow : forall j w L d, logs w L d -> Rabs L * 2 ^ j + 2 ^ j * (d + / 9007199254740992) <= 25 -> 
  exists p, pow_impl_pos (fun a b => Ok (dmul a b)) (p2 j) w = Ok p /\ logs p (2 ^ j * L) (2 ^ j * (d + / 9007199254740992)).
Proof.
  induction j as [|j IH]; intros w L d H B.
  - exists w. split; [reflexivity|]. cbn [pow] in *. destruct H as (N & P & H). split; [exact N|]. split; [exact P|]. rewrite Rmult_1_l. lra.
  - cbn [p2 pow_impl_pos bind]. assert (G : 1 <= 2 ^ j) by (apply pow_R1_Rle; lra). cbn [pow] in B.
    pose proof H as (_ & _ & H'). pose proof (Rabs_pos (ln (fval w) - L)). pose proof (Rabs_pos L).
    assert (D : 0 <= d) by lra.
    destruct (IH (dmul w w) (2 * L) (2 * d + / 9007199254740992)) as (p & E & Q).
    + apply logs_square; [exact H|]. rewrite Rabs_mult, (Rabs_right 2) by lra. nra.
    + rewrite Rabs_mult, (Rabs_right 2) by lra. nra.
    + exists p. split; [exact E|]. cbn [pow]. destruct Q as (Q1 & Q2 & Q3). split; [exact Q1|]. split; [exact Q2|].
      replace (2 * 2 ^ j * L) with (2 ^ j * (2 * L)) by ring. eapply Rle_trans; [exact Q3|]. nra.
Qed.

(** ** The exponential *)

Lemma constexpr_exp_logs : forall n j x T, num x -> (0 < n)%nat -> small_factorials n 0 1 -> (j <= 9)%nat ->
  Rabs (fval x) <= 23 -> Rabs (fval x) <= 23 / 64 * 2 ^ j ->
  T * (64 / 41) <= 44 / 100000000000000000 ->
  (forall z, 0 <= z <= 23 / 64 -> z * 2 ^ j <= 23 -> z ^ S n / INR (fact (S n)) <= T) ->
  exists p, constexpr_exp n (p2 j) x = Ok p /\ logs p (fval x) (2 ^ j * (15 / 10000000000000000)).
Proof.
  intros n j x T N Hn F J B1 B2 HT TR. set (X := fval x) in *. set (Z := X / 2 ^ j).
  assert (G : 1 <= 2 ^ j) by (apply pow_R1_Rle; lra).
  assert (GZ : IZR (Zpos (p2 j)) = 2 ^ j).
  { clear. induction j as [|j IH]; [reflexivity|]. cbn [p2 pow]. rewrite <- IH, Pos2Z.inj_xO, mult_IZR. reflexivity. }
  assert (Gj : 2 ^ j <= 512).
  { apply Rle_trans with (2 ^ 9); [apply Rle_pow; [lra|exact J]|cbn; lra]. }
  assert (Gz : (Z.abs (Zpos (p2 j)) <= 2 ^ 53)%Z).
  { cbn [Z.abs]. apply le_IZR. rewrite GZ. cbn. lra. }
  assert (AZ : Rabs Z <= 23 / 64 /\ Rabs Z * 2 ^ j <= 23).
  { unfold Z, Rdiv. rewrite Rabs_mult, (Rabs_right (/ 2 ^ j)) by (left; apply Rinv_0_lt_compat; lra). split.
    - apply Rmult_le_reg_r with (2 ^ j); [lra|]. rewrite Rmult_assoc, Rinv_l by lra. lra.
    - rewrite Rmult_assoc, Rinv_l by lra. lra. }
  destruct (dint_value (Zpos (p2 j)) Gz) as [Nj Vj]. rewrite GZ in Vj.
  unfold constexpr_exp. destruct n as [|n']; [lia|]. set (n := S n') in *.
  set (z := ddiv x (dint (Zpos (p2 j)))).
  assert (Hz : app z Z (/ 36028797018963968) (23 / 64)).
  { assert (Q : Rabs (fval x / fval (dint (Zpos (p2 j)))) <= bpow radix2 (-1)) by (rewrite Vj; fold X; fold Z; bp; lra).
    destruct (ddiv_error x (dint (Zpos (p2 j))) (-1) N Nj ltac:(lia)) as [C0 C1]; [lra|exact Q|].
    rewrite Vj in C1. fold X in C1. fold Z in C1. fold z in C0, C1. split; [exact C0|]. split; [|apply AZ]. exact C1. }
  assert (Hh := horner_app z Z Hz n 0 1 ltac:(lia) ltac:(lia) F).
  assert (H1 : app (dint 1) 1 0 1) by (apply app_int; [lia|]; rewrite Rabs_R1; lra).
  assert (Hw := app_add 1 _ _ _ _ _ _ _ _ H1 Hh ltac:(lia) ltac:(bp; lra)).
  set (w := dadd (dint 1) (horner z (coefficients n 0 1))) in *.
  assert (V : 1 + hsum n 0 1 Z = exp_sum n Z).
  { pose proof (hsum_value n 0 Z) as V. cbn [Nat.add] in V. rewrite V. cbn [pow fact]. change (Z.of_nat 0) with 0%Z. change (Z.of_nat 1) with 1%Z.
    unfold exp_sum. cbn [sum_f_R0 pow fact INR]. field. }
  rewrite V in Hw. destruct Hw as (W0 & W1 & _).
  assert (EZ : 41 / 64 <= exp Z).
  { destruct (Req_dec Z 0) as [->|Ne]; [rewrite exp_0; lra|]. pose proof (exp_ineq1 Z Ne). destruct AZ as [AZ _]. apply Rabs_le_inv in AZ. lra. }
  assert (R : Rabs (exp Z - exp_sum n Z) <= 44 / 100000000000000000).
  { eapply Rle_trans; [apply exp_remainder|]. eapply Rle_trans; [|exact HT]. 
    assert (Pf : 0 <= Rabs Z ^ S n / INR (fact (S n))).
    { apply Rmult_le_pos; [apply pow_le, Rabs_pos|]. left. apply Rinv_0_lt_compat, lt_0_INR, lt_O_fact. }
    apply Rmult_le_compat; [exact Pf|left; apply exp_pos|apply TR; [split; [apply Rabs_pos|apply AZ]|apply AZ]|].
    replace (Rabs Z) with (- - Rabs Z) by ring. rewrite exp_Ropp. replace (64 / 41) with (/ (41 / 64)) by field.
    apply Rinv_le_contravar; [lra|]. destruct (Req_dec (Rabs Z) 0) as [E|Ne]; [rewrite E, Ropp_0, exp_0; lra|].
    pose proof (exp_ineq1 (- Rabs Z) ltac:(lra)). lra. }
  assert (D : Rabs (fval w - exp Z) <= (134 / 100000000000000000) * exp Z).
  { replace (fval w - exp Z) with ((fval w - exp_sum n Z) - (exp Z - exp_sum n Z)) by ring.
    eapply Rle_trans; [apply Rabs_triang|]. rewrite Rabs_Ropp. revert W1. bp. intros W1. nra. }
  destruct (ln_near_exp _ _ _ D ltac:(lra)) as [Pw Lw].
  destruct (logs_pow j w Z (136 / 100000000000000000)) as (p & E & Q).
  - split; [exact W0|]. split; [exact Pw|]. lra.
  - destruct AZ as [_ AZ]. nra.
  - exists p. split; [exact E|]. destruct Q as (Q1 & Q2 & Q3). split; [exact Q1|]. split; [exact Q2|].
    replace (2 ^ j * Z) with X in Q3 by (unfold Z; field; lra). nra.
Qed.
