(** Series of the logarithm and of the exponential with bounds of their remainders. *)

From Coq Require Import ZArith Reals Lia Lra Psatz.
From Coquelicot Require Import Coquelicot.
Local Open Scope R_scope.

Lemma ln_quot : forall x y, 0 < x -> 0 < y -> ln (x / y) = ln x - ln y.
Proof. intros. now apply ln_div. Qed.

Lemma ln_mono : forall x y, 0 < x -> x <= y -> ln x <= ln y.
Proof. intros. now apply ln_le. Qed.

(** The first [n] terms of the series of (1/2) ln ((1 + y) / (1 - y)). *)
Fixpoint atanh_sum (n : nat) (y : R) : R :=
  match n with O => 0 | S k => atanh_sum k y + y ^ (2 * k + 1) / INR (2 * k + 1) end.
Fixpoint even_sum (n : nat) (y : R) : R :=
  match n with O => 0 | S k => even_sum k y + y ^ (2 * k) end.

Lemma even_sum_value : forall n y, (1 - y * y) * even_sum n y = 1 - y ^ (2 * n).
Proof.
  induction n as [|k IH]; intros y; [cbn; ring|]. cbn [even_sum]. rewrite Rmult_plus_distr_l, IH.
  replace (2 * S k)%nat with (2 * k + 2)%nat by lia. rewrite pow_add. cbn [pow]. ring.
Qed.

Lemma atanh_sum_derive : forall n y, is_derive (atanh_sum n) y (even_sum n y).
Proof.
  induction n as [|k IH]; intros y.
  - apply (is_derive_const 0).
  - cbn [even_sum]. apply (is_derive_plus (atanh_sum k) (fun y => y ^ (2 * k + 1) / INR (2 * k + 1))); [apply IH|].
    assert (N : INR (2 * k + 1) <> 0) by (apply not_0_INR; lia).
    auto_derive; [trivial|]. replace (Init.Nat.pred (k + (k + 0) + 1)) with (2 * k)%nat by lia.
    replace (k + (k + 0) + 1)%nat with (2 * k + 1)%nat by lia. field. exact N.
Qed.

Lemma atanh_remainder : forall n y, 0 <= y < 1 ->
  0 <= ln ((1 + y) / (1 - y)) - 2 * atanh_sum n y <= 2 * y ^ (2 * n + 1) / (1 - y * y).
Proof.
  intros n y [P L]. destruct (Req_dec y 0) as [->|N].
  - replace ((1 + 0) / (1 - 0)) with 1 by field. rewrite ln_1.
    assert (Z : atanh_sum n 0 = 0).
    { induction n as [|k IH]; [reflexivity|]. cbn [atanh_sum]. rewrite IH, pow_i by lia. unfold Rdiv. ring. }
    rewrite Z, pow_i by lia. unfold Rdiv. lra.
  - assert (P1 : 0 < y) by lra.
    destruct (MVT_cor2 (fun t => ln (1 + t) - ln (1 - t) - 2 * atanh_sum n t)
      (fun t => / (1 + t) + / (1 - t) - 2 * even_sum n t) 0 y P1) as (c & E & C).
    { intros t [T1 T2]. apply is_derive_Reals.
      apply (is_derive_minus (fun t => ln (1 + t) - ln (1 - t)) (fun t => 2 * atanh_sum n t)).
      - auto_derive; [lra|]. field. lra.
      - apply (is_derive_scal (atanh_sum n)). apply atanh_sum_derive. }
    assert (Z : atanh_sum n 0 = 0).
    { clear. induction n as [|k IH]; [reflexivity|]. cbn [atanh_sum]. rewrite IH, pow_i by lia. unfold Rdiv. ring. }
    rewrite Z, Rplus_0_r, Rminus_0_r, ln_1, !Rminus_0_r in E.
    rewrite ln_div by lra.
    assert (D : / (1 + c) + / (1 - c) - 2 * even_sum n c = 2 * c ^ (2 * n) / (1 - c * c)).
    { pose proof (even_sum_value n c) as S. apply Rmult_eq_reg_l with (1 - c * c); [|nra].
      transitivity (2 - 2 * ((1 - c * c) * even_sum n c)); [field; lra|]. rewrite S. field. nra. }
    rewrite D in E. replace (2 * 0) with 0 in E by ring. rewrite !Rminus_0_r in E. rewrite E.
    assert (C0 : 0 <= c ^ (2 * n)) by (apply pow_le; lra).
    assert (C1 : c ^ (2 * n) <= y ^ (2 * n)) by (apply pow_incr; lra).
    assert (Q : / (1 - c * c) <= / (1 - y * y)) by (apply Rinv_le_contravar; nra).
    assert (Q0 : 0 < / (1 - c * c)) by (apply Rinv_0_lt_compat; nra).
    rewrite pow_add, pow_1. split.
    + unfold Rdiv. apply Rmult_le_pos; [|lra]. apply Rmult_le_pos; lra.
    + unfold Rdiv. replace (2 * (y ^ (2 * n) * y) * / (1 - y * y)) with (2 * y ^ (2 * n) * / (1 - y * y) * y) by ring.
      apply Rmult_le_compat_r; [lra|]. apply Rmult_le_compat; try lra.
Qed.

(** The first [n + 1] terms of the series of the exponential. *)
Definition exp_sum (n : nat) (x : R) : R := sum_f_R0 (fun m => x ^ m / INR (fact m)) n.

Lemma derive_n_exp : forall n x, Derive_n exp n x = exp x.
Proof. intros n x. apply is_derive_n_unique. apply is_derive_n_exp. Qed.

Lemma exp_remainder_pos : forall n x, 0 < x ->
  0 <= exp x - exp_sum n x <= x ^ S n / INR (fact (S n)) * exp x.
Proof.
  intros n x P.
  destruct (Taylor_Lagrange exp n 0 x P) as (z & Z & E).
  { intros t _ [|k] _; [exact I|]. exists (exp t). apply (is_derive_n_exp (Datatypes.S k) t). }
  assert (S : sum_f_R0 (fun m => (x - 0) ^ m / INR (fact m) * Derive_n exp m 0) n = exp_sum n x).
  { apply sum_eq. intros i _. rewrite derive_n_exp, exp_0, Rminus_0_r. ring. }
  rewrite S, derive_n_exp, Rminus_0_r in E. rewrite E at 1 2.
  replace (exp_sum n x + x ^ Datatypes.S n / INR (fact (Datatypes.S n)) * exp z - exp_sum n x)
    with (x ^ Datatypes.S n / INR (fact (Datatypes.S n)) * exp z) by ring.
  assert (A : 0 <= x ^ Datatypes.S n / INR (fact (Datatypes.S n))).
  { apply Rmult_le_pos; [apply pow_le; lra|]. left. apply Rinv_0_lt_compat. apply lt_0_INR. apply lt_O_fact. }
  pose proof (exp_pos z). assert (exp z < exp x) by (apply exp_increasing; lra).
  split; [apply Rmult_le_pos; lra|]. apply Rmult_le_compat_l; lra.
Qed.

Lemma derive_n_exp_opp : forall n x, is_derive_n (fun t => exp (- t)) n x ((-1) ^ n * exp (- x)).
Proof.
  induction n as [|n IH]; intros x; [cbn; ring|].
  cbn [is_derive_n]. apply (is_derive_ext (fun t => (-1) ^ n * exp (- t))).
  - intros t. symmetry. apply is_derive_n_unique. apply IH.
  - cbn [pow]. replace (-1 * (-1) ^ n * exp (- x)) with ((-1) ^ n * (- exp (- x))) by ring.
    apply (is_derive_scal (fun t => exp (- t))). auto_derive; [trivial|ring].
Qed.

Lemma exp_remainder : forall n x, Rabs (exp x - exp_sum n x) <= Rabs x ^ S n / INR (fact (S n)) * exp (Rabs x).
Proof.
  intros n x. destruct (Rtotal_order x 0) as [N|[->|P]].
  - assert (U : 0 < - x) by lra.
    destruct (Taylor_Lagrange (fun t => exp (- t)) n 0 (- x) U) as (z & Z & E).
    { intros t _ [|k] _; [exact I|]. exists ((-1) ^ Datatypes.S k * exp (- t)). apply (derive_n_exp_opp (Datatypes.S k) t). }
    assert (S : sum_f_R0 (fun m => (- x - 0) ^ m / INR (fact m) * Derive_n (fun t => exp (- t)) m 0) n = exp_sum n x).
    { apply sum_eq. intros i _. rewrite (is_derive_n_unique _ _ _ _ (derive_n_exp_opp i 0)). rewrite Ropp_0, exp_0, Rminus_0_r, Rmult_1_r.
      replace (x ^ i) with ((- x) ^ i * (-1) ^ i) by (rewrite <- Rpow_mult_distr; f_equal; ring). unfold Rdiv. ring. }
    rewrite S, (is_derive_n_unique _ _ _ _ (derive_n_exp_opp (Datatypes.S n) z)), Rminus_0_r, Ropp_involutive in E. rewrite E.
    match goal with |- Rabs (?a + ?b - ?a) <= _ => replace (a + b - a) with b by ring end.
    rewrite (Rabs_left x) by lra. rewrite !Rabs_mult, <- (RPow_abs (-1)), Rabs_m1, pow1, Rmult_1_l.
    assert (A : 0 <= (- x) ^ Datatypes.S n / INR (fact (Datatypes.S n))).
    { apply Rmult_le_pos; [apply pow_le; lra|]. left. apply Rinv_0_lt_compat. apply lt_0_INR. apply lt_O_fact. }
    rewrite (Rabs_right (_ / _)) by lra. rewrite Rabs_right by (left; apply exp_pos).
    apply Rmult_le_compat_l; [exact A|]. left. apply exp_increasing. lra.
  - assert (S : exp_sum n 0 = 1).
    { unfold exp_sum. induction n as [|k IH]; [cbn; field|]. cbn [sum_f_R0]. rewrite IH, pow_i by lia. unfold Rdiv. ring. }
    rewrite S, exp_0, Rminus_diag_eq, Rabs_R0 by reflexivity. rewrite pow_i by lia. unfold Rdiv. rewrite !Rmult_0_l. lra.
  - pose proof (exp_remainder_pos n x P). rewrite !Rabs_right by lra. lra.
Qed.
