(** The table of logarithms in [constexpr_log] is right. *)

From Coq Require Import ZArith Reals List Lia Lra Psatz Bool SpecFloat.
From Flocq Require Import Core BinarySingleNaN.
From Verif Require Import Outcome CInt Rep SpecReal FloatProofs ConstexprMath ConstexprProofs ConstexprProofs2.
Import ListNotations.
Local Open Scope Z_scope.

(** ** Logarithms in units of 2^-80 *)

(** [n] terms of (1/2) ln ((1 + 1/c) / (1 - 1/c)), each rounded down. *)
Fixpoint ln_terms (n : nat) (c : Z) : Z :=
  match n with O => 0 | S k => ln_terms k c + 2 ^ 80 / ((2 * Z.of_nat k + 1) * c ^ (2 * Z.of_nat k + 1)) end.
Definition ln_step (i : Z) : Z := 2 * ln_terms 26 (2 * i + 1).

Definition scaled (x : spec_float) : option Z :=
  match x with
  | S754_zero _ => Some 0
  | S754_finite s m e => if -80 <=? e then Some ((if s then Zneg m else Zpos m) * 2 ^ (80 + e)) else None
  | _ => None
  end.
(** [l] are close to the logarithms of [i], [i + 1], ..., the first one about [L]. *)
Fixpoint check_table (i L : Z) (l : list spec_float) {struct l} : bool :=
  match l with
  | [] => true
  | t :: r => valid_binary 53 1024 t && match scaled t with Some z => Z.abs (z - L) <=? 600000000 | None => false end &&
              check_table (i + 1) (L + ln_step i) r
  end.

Local Open Scope R_scope.

Definition W : R := 1208925819614629174706176.
Lemma W_pos : 0 < W.
Proof. unfold W. lra. Qed.
Lemma W_Z : W = IZR (2 ^ 80).
Proof. reflexivity. Qed.
Lemma W_bpow : W = bpow radix2 80.
Proof. reflexivity. Qed.

Lemma scaled_value : forall x z, scaled x = Some z -> is_finite_SF x = true /\ fval x = IZR z / W.
Proof.
  intros [s|s| |s m e] z H; try discriminate.
  - cbn in H. inversion H; subst. split; [reflexivity|]. unfold fval. cbn. lra.
  - unfold scaled in H. destruct (Z.leb_spec (-80) e) as [L|L]; [|discriminate].
    assert (H' : ((if s then Zneg m else Zpos m) * 2 ^ (80 + e))%Z = z) by congruence. rewrite <- H'. clear H H'. split; [reflexivity|].
    unfold fval, SF2R, F2R. cbn [Fnum Fexp]. rewrite mult_IZR.
    assert (P : IZR (2 ^ (80 + e)) = bpow radix2 e * W).
    { change (2 ^ (80 + e))%Z with (radix2 ^ (80 + e))%Z. rewrite (IZR_Zpower radix2 (80 + e)) by lia. rewrite Z.add_comm, bpow_plus. rewrite W_bpow. reflexivity. }
    rewrite P. assert (X : cond_Zopp s (Zpos m) = if s then Zneg m else Zpos m) by (destruct s; reflexivity). rewrite X. field.
    pose proof W_pos. lra.
Qed.

Lemma ln_terms_value : forall n c, (1 < c)%Z -> Rabs (IZR (ln_terms n c) / W - atanh_sum n (/ IZR c)) <= INR n / W.
Proof.
  intros n c C. pose proof W_pos as P80. assert (Ci : 0 < IZR c) by (apply IZR_lt; lia).
  induction n as [|k IH].
  - cbn [ln_terms atanh_sum INR]. unfold Rdiv. rewrite !Rmult_0_l, Rminus_0_r, Rabs_R0. lra.
  - cbn [ln_terms atanh_sum]. set (d := ((2 * Z.of_nat k + 1) * c ^ (2 * Z.of_nat k + 1))%Z).
    assert (D : (0 < d)%Z). { unfold d. apply Z.mul_pos_pos; [lia|]. apply Z.pow_pos_nonneg; lia. }
    assert (Dv : IZR d = INR (2 * k + 1) * IZR c ^ (2 * k + 1)).
    { unfold d. rewrite mult_IZR. f_equal.
      - rewrite INR_IZR_INZ. f_equal. lia.
      - rewrite pow_IZR. f_equal. f_equal. lia. }
    assert (E : / IZR c ^ (2 * k + 1) = (/ IZR c) ^ (2 * k + 1)) by (symmetry; apply pow_inv; lra).
    assert (N : INR (2 * k + 1) <> 0) by (apply not_0_INR; lia).
    assert (Pc : IZR c ^ (2 * k + 1) <> 0) by (apply pow_nonzero; lra).
    assert (T : (/ IZR c) ^ (2 * k + 1) / INR (2 * k + 1) = / IZR d).
    { rewrite Dv, <- E. field. auto. }
    rewrite T, plus_IZR, S_INR.
    pose proof (Z.div_mod (2 ^ 80) d ltac:(lia)) as M. pose proof (Z.mod_pos_bound (2 ^ 80) d D) as B.
    assert (Dp : 0 < IZR d) by now apply IZR_lt.
    assert (Q1 : IZR (2 ^ 80 / d) * IZR d <= W < IZR (2 ^ 80 / d) * IZR d + IZR d).
    { rewrite W_Z, <- mult_IZR, <- plus_IZR. split; [apply IZR_le|apply IZR_lt]; lia. }
    assert (Q : 0 <= / IZR d - IZR (2 ^ 80 / d) / W <= / W).
    { set (q := IZR (2 ^ 80 / d)) in *. set (w := W) in *. set (x := IZR d) in *. assert (0 < / x) by now apply Rinv_0_lt_compat. assert (0 < / w) by now apply Rinv_0_lt_compat.
      replace (/ x - q / w) with ((w - q * x) * (/ x * / w)) by (field; lra).
      assert (0 < / x * / w) by now apply Rmult_lt_0_compat.
      split; [apply Rmult_le_pos; lra|]. apply Rle_trans with (x * (/ x * / w)); [apply Rmult_le_compat_r; lra|]. apply Req_le. field. lra. }
    apply Rabs_le_inv in IH. apply Rabs_le. unfold Rdiv in *. lra.
Qed.

Lemma ln_step_value : forall i, (0 < i)%Z -> Rabs (IZR (ln_step i) / W - (ln (IZR (i + 1)) - ln (IZR i))) <= 54 / W.
Proof.
  intros i I. pose proof W_pos as P80. assert (Ii : 1 <= IZR i) by (apply IZR_le; lia).
  set (y := / IZR (2 * i + 1)).
  assert (Yd : IZR (2 * i + 1) = 2 * IZR i + 1) by (rewrite plus_IZR, mult_IZR; reflexivity).
  assert (Y : 0 < y <= / 3).
  { unfold y. rewrite Yd. split; [apply Rinv_0_lt_compat; lra|]. apply Rinv_le_contravar; lra. }
  pose proof (atanh_remainder 26 y ltac:(lra)) as R.
  assert (F : (1 + y) / (1 - y) = IZR (i + 1) / IZR i).
  { unfold y. rewrite Yd, plus_IZR. field. split; [lra|]. split; [lra|]. lra. }
  rewrite F, ln_quot in R by (try (apply IZR_lt; lia)).
  pose proof (ln_terms_value 26 (2 * i + 1) ltac:(lia)) as T. fold y in T.
  assert (B : 2 * y ^ (2 * 26 + 1) / (1 - y * y) <= / W).
  { assert (y ^ (2 * 26 + 1) <= (/ 3) ^ (2 * 26 + 1)) by (apply pow_incr; lra).
    assert (/ (1 - y * y) <= 9 / 8). { replace (9 / 8) with (/ (8 / 9)) by field. apply Rinv_le_contravar; [lra|]. nra. }
    assert (0 <= y ^ (2 * 26 + 1)) by (apply pow_le; lra). assert (0 < / (1 - y * y)) by (apply Rinv_0_lt_compat; nra).
    apply Rle_trans with (2 * (/ 3) ^ (2 * 26 + 1) * (9 / 8)); [unfold Rdiv; apply Rmult_le_compat; try lra; nra|].
    unfold W. cbn [Nat.mul Nat.add pow]. lra. }
  unfold ln_step. rewrite mult_IZR. change (INR 26) with 26 in T || (replace (INR 26) with 26 in T by (cbn; ring)).
  apply Rabs_le_inv in T. apply Rabs_le. unfold Rdiv in *. lra.
Qed.

Lemma check_table_sound : forall l i L, check_table i L l = true -> (0 < i)%Z ->
  Rabs (IZR L / W - ln (IZR i)) <= IZR i * 54 / W ->
  forall k t, nth_error l k = Some t -> num t /\ Rabs (fval t - ln (IZR (i + Z.of_nat k))) <= 600000000 / W + IZR (i + Z.of_nat k) * 54 / W.
Proof.
  pose proof W_pos as P80.
  induction l as [|t0 r IH]; intros i L H I B k t N; [destruct k; discriminate|]. cbn [check_table] in H.
  apply andb_prop in H. destruct H as [H H2]. apply andb_prop in H. destruct H as [V H1].
  destruct k as [|k].
  - cbn in N. inversion N; subst t. destruct (scaled t0) as [z|] eqn:Z; [|discriminate]. apply Z.leb_le in H1.
    destruct (scaled_value _ _ Z) as [F E]. split; [split; auto|]. rewrite E, Z.add_0_r.
    assert (D : Rabs (IZR z - IZR L) <= 600000000). { rewrite <- minus_IZR, <- abs_IZR. now apply IZR_le. }
    apply Rabs_le_inv in D, B. apply Rabs_le. 
    assert (D1 : (IZR z - IZR L) / W <= 600000000 / W) by (apply Rmult_le_compat_r; [left; now apply Rinv_0_lt_compat|lra]).
    assert (D2 : - (600000000) / W <= (IZR z - IZR L) / W) by (apply Rmult_le_compat_r; [left; now apply Rinv_0_lt_compat|lra]).
    unfold Rdiv in *. lra.
  - cbn in N. replace (i + Z.of_nat (S k))%Z with (i + 1 + Z.of_nat k)%Z by lia.
    apply (IH (i + 1)%Z (L + ln_step i)%Z H2); auto; [lia|].
    pose proof (ln_step_value i I) as S. rewrite !plus_IZR in *. apply Rabs_le_inv in S, B. apply Rabs_le. unfold Rdiv in *. lra.
Qed.

Lemma table_checked : check_table 1 0 log_table = true.
Proof. vm_compute. reflexivity. Qed.
Lemma table_length : length log_table = 99%nat.
Proof. reflexivity. Qed.

(** The [i]-th entry is the logarithm of [i + 1]. *)
Lemma log_entry_value : forall i, (1 <= i <= 99)%Z ->
  exists t, log_entry (i - 1) = Ok t /\ num t /\ Rabs (fval t - ln (IZR i)) <= 5 / 10 ^ 16.
Proof.
  intros i I. unfold log_entry. destruct (Z.ltb_spec (i - 1) 0) as [L|_]; [lia|].
  destruct (nth_error log_table (Z.to_nat (i - 1))) as [t|] eqn:E.
  - exists t. split; [reflexivity|].
    destruct (check_table_sound log_table 1 0 table_checked ltac:(lia)) with (k := Z.to_nat (i - 1)) (t := t) as [A B]; auto.
    { rewrite ln_1. unfold Rdiv. rewrite Rmult_0_l, Rminus_0_r, Rabs_R0. apply Rmult_le_pos; [lra|]. left. apply Rinv_0_lt_compat. exact W_pos. }
    split; [exact A|]. replace (1 + Z.of_nat (Z.to_nat (i - 1)))%Z with i in B by lia. eapply Rle_trans; [exact B|].
    assert (IZR i <= 99) by (apply IZR_le; lia).
    apply Rle_trans with (600000000 / W + 99 * 54 / W).
    + apply Rplus_le_compat_l. unfold Rdiv. apply Rmult_le_compat_r; [left; apply Rinv_0_lt_compat; exact W_pos|lra].
    + unfold W. cbn [pow]. lra.
  - exfalso. apply nth_error_None in E. rewrite table_length in E. lia.
Qed.
