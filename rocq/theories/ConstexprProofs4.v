(** The error of [constexpr_log]. *)

From Coq Require Import ZArith Reals List Lia Lra Psatz Bool SpecFloat.
From Flocq Require Import Core BinarySingleNaN.
From Verif Require Import Outcome CInt Rep SpecReal FloatProofs FloatCastProofs ConstexprMath ConstexprProofs ConstexprProofs2 ConstexprProofs3.
Import ListNotations.
Local Open Scope R_scope.
Local Open Scope res_scope.

(** Powers of two as numerals. *)
Ltac bp := repeat match goal with |- context [bpow radix2 ?k] =>
  let k' := eval vm_compute in k in
  match k' with
  | Zneg ?p => let v := eval vm_compute in (Z.pow 2 (Zpos p)) in change (bpow radix2 k) with (/ IZR v)
  | Zpos ?p => let v := eval vm_compute in (Z.pow 2 (Zpos p)) in change (bpow radix2 k) with (IZR v)
  | Z0 => change (bpow radix2 k) with 1
  end end.

(** ** Approximations: [x] is [X] up to [e], and [X] is at most [M]. *)

Definition app (x : spec_float) (X e M : R) : Prop := num x /\ Rabs (fval x - X) <= e /\ Rabs X <= M.

Lemma app_weaken : forall x X e M e' M', app x X e M -> e <= e' -> M <= M' -> app x X e' M'.
Proof. intros x X e M e' M' (A & B & C) E F. split; [exact A|]. lra. Qed.
Lemma app_eq : forall x X Y e M, app x X e M -> X = Y -> app x Y e M.
Proof. intros. now subst. Qed.
Lemma app_int : forall z M, (Z.abs z <= 2 ^ 53)%Z -> Rabs (IZR z) <= M -> app (dint z) (IZR z) 0 M.
Proof.
  intros z M Z B. destruct (dint_value z Z) as [N V]. split; [exact N|]. rewrite V, Rminus_diag_eq, Rabs_R0 by reflexivity. lra.
Qed.

Lemma app_bound : forall x X e M, app x X e M -> Rabs (fval x) <= M + e.
Proof.
  intros x X e M (_ & A & B). replace (fval x) with (X + (fval x - X)) by ring. eapply Rle_trans; [apply Rabs_triang|]. lra.
Qed.
Lemma app_pos : forall x X e M, app x X e M -> 0 <= e /\ 0 <= M.
Proof. intros x X e M (_ & A & B). split; eapply Rle_trans; [apply Rabs_pos|exact A|apply Rabs_pos|exact B]. Qed.

Lemma app_mul : forall k x y X Y e d M N, app x X e M -> app y Y d N -> (-1000 <= k <= 1000)%Z ->
  (M + e) * (N + d) <= bpow radix2 k -> app (dmul x y) (X * Y) (e * (N + d) + M * d + bpow radix2 (k - 54)) (M * N).
Proof.
  intros k x y X Y e d M N A B K H. pose proof (app_bound _ _ _ _ A) as Ba. pose proof (app_bound _ _ _ _ B) as Bb.
  pose proof (app_pos _ _ _ _ A) as [P1 P2]. pose proof (app_pos _ _ _ _ B) as [P3 P4].
  destruct A as (A0 & A1 & A2), B as (B0 & B1 & B2).
  assert (Q : Rabs (fval x * fval y) <= bpow radix2 k).
  { rewrite Rabs_mult. eapply Rle_trans; [|exact H]. apply Rmult_le_compat; auto using Rabs_pos. }
  destruct (dmul_error x y k A0 B0 K Q) as [C0 C1]. split; [exact C0|]. split.
  - replace (fval (dmul x y) - X * Y) with ((fval x - X) * fval y + X * (fval y - Y) + (fval (dmul x y) - fval x * fval y)) by ring.
    eapply Rle_trans; [apply Rabs_triang|]. apply Rplus_le_compat; [|exact C1].
    eapply Rle_trans; [apply Rabs_triang|]. rewrite !Rabs_mult. apply Rplus_le_compat; apply Rmult_le_compat; auto using Rabs_pos.
  - rewrite Rabs_mult. apply Rmult_le_compat; auto using Rabs_pos.
Qed.
Lemma app_add : forall k x y X Y e d M N, app x X e M -> app y Y d N -> (-1000 <= k <= 1000)%Z ->
  M + N + e + d <= bpow radix2 k -> app (dadd x y) (X + Y) (e + d + bpow radix2 (k - 54)) (M + N).
Proof.
  intros k x y X Y e d M N A B K H. pose proof (app_bound _ _ _ _ A) as Ba. pose proof (app_bound _ _ _ _ B) as Bb.
  destruct A as (A0 & A1 & A2), B as (B0 & B1 & B2).
  assert (Q : Rabs (fval x + fval y) <= bpow radix2 k) by (eapply Rle_trans; [apply Rabs_triang|lra]).
  destruct (dadd_error x y k A0 B0 K Q) as [C0 C1]. split; [exact C0|]. split.
  - replace (fval (dadd x y) - (X + Y)) with ((fval x - X) + (fval y - Y) + (fval (dadd x y) - (fval x + fval y))) by ring.
    eapply Rle_trans; [apply Rabs_triang|]. apply Rplus_le_compat; [|exact C1]. eapply Rle_trans; [apply Rabs_triang|]. lra.
  - eapply Rle_trans; [apply Rabs_triang|]. lra.
Qed.
Lemma app_div : forall k x y X Y e d M m, app x X e M -> num y -> Rabs (fval y - Y) <= d -> 0 < m -> m <= Rabs Y -> m <= Rabs (fval y) ->
  (-1000 <= k <= 1000)%Z -> (M + e) / m <= bpow radix2 k ->
  app (ddiv x y) (X / Y) (e / m + M * d / (m * m) + bpow radix2 (k - 54)) (M / m).
Proof.
  intros k x y X Y e d M m A Ny D P Y1 Y2 K H. pose proof (app_bound _ _ _ _ A) as Ba. pose proof (app_pos _ _ _ _ A) as [P1 P2].
  destruct A as (A0 & A1 & A2).
  assert (Y0 : Y <> 0) by (intros ->; rewrite Rabs_R0 in Y1; lra). assert (Z0 : fval y <> 0) by (intros E; rewrite E, Rabs_R0 in Y2; lra).
  assert (I1 : Rabs (/ Y) <= / m) by (rewrite Rabs_inv; now apply Rinv_le_contravar).
  assert (I2 : Rabs (/ fval y) <= / m) by (rewrite Rabs_inv; now apply Rinv_le_contravar).
  assert (Q : Rabs (fval x / fval y) <= bpow radix2 k).
  { eapply Rle_trans; [|exact H]. unfold Rdiv. rewrite Rabs_mult. apply Rmult_le_compat; auto using Rabs_pos. }
  destruct (ddiv_error x y k A0 Ny K Z0 Q) as [C0 C1]. split; [exact C0|]. split.
  - replace (fval (ddiv x y) - X / Y) with ((fval x - X) * / fval y + X * (- (fval y - Y) * (/ Y * / fval y)) + (fval (ddiv x y) - fval x / fval y))
      by (field; auto).
    eapply Rle_trans; [apply Rabs_triang|]. apply Rplus_le_compat; [|exact C1].
    eapply Rle_trans; [apply Rabs_triang|]. rewrite !Rabs_mult, Rabs_Ropp. apply Rplus_le_compat.
    + unfold Rdiv. apply Rmult_le_compat; auto using Rabs_pos.
    + unfold Rdiv. rewrite Rinv_mult, Rmult_assoc by lra. apply Rmult_le_compat; auto using Rabs_pos.
      * apply Rmult_le_pos; [apply Rabs_pos|]. apply Rmult_le_pos; apply Rabs_pos.
      * apply Rmult_le_compat; auto using Rabs_pos.
        -- apply Rmult_le_pos; apply Rabs_pos.
        -- apply Rmult_le_compat; auto using Rabs_pos.
  - unfold Rdiv. rewrite Rabs_mult. apply Rmult_le_compat; auto using Rabs_pos.
Qed.
Lemma app_sub_int : forall k x z X e M N, app x X e M -> (Z.abs z <= 2 ^ 53)%Z -> Rabs (X - IZR z) <= N -> (-1000 <= k <= 1000)%Z ->
  N + e <= bpow radix2 k -> app (dsub x (dint z)) (X - IZR z) (e + bpow radix2 (k - 54)) N.
Proof.
  intros k x z X e M N (A0 & A1 & A2) Z B K H. destruct (dint_value z Z) as [Nz V].
  assert (Q : Rabs (fval x - fval (dint z)) <= bpow radix2 k).
  { rewrite V. replace (fval x - IZR z) with ((X - IZR z) + (fval x - X)) by ring. eapply Rle_trans; [apply Rabs_triang|]. lra. }
  destruct (dsub_error x (dint z) k A0 Nz K Q) as [C0 C1]. rewrite V in C1. split; [exact C0|]. split; [|exact B].
  replace (fval (dsub x (dint z)) - (X - IZR z)) with ((fval x - X) + (fval (dsub x (dint z)) - (fval x - IZR z))) by ring.
  eapply Rle_trans; [apply Rabs_triang|]. lra.
Qed.

(** ** The series *)

Lemma odd_inverse : forall z, (3 <= z <= 9)%Z -> app (ddiv (dint 1) (dint z)) (/ IZR z) (/ 36028797018963968) (/ 3).
Proof.
  intros z Z. destruct (dint_value z) as [N V]; [lia|]. assert (P : 3 <= IZR z) by (apply IZR_le; lia).
  eapply app_eq; [|apply Rmult_1_l].
  eapply app_weaken; [apply (app_div (-1) (dint 1) (dint z) 1 (IZR z) 0 0 1 3)|..]; auto; try lra; try lia.
  - apply app_int; [lia|]. rewrite Rabs_R1. lra.
  - rewrite V, Rminus_diag_eq, Rabs_R0 by reflexivity. lra.
  - rewrite Rabs_right; lra.
  - rewrite V, Rabs_right; lra.
  - bp. lra.
  - bp. lra.
Qed.

Lemma series_value : forall y, 2 * y * (1 + y * y * (/ 3 + y * y * (/ 5 + y * y * (/ 7 + y * y * (/ 9 + 0))))) = 2 * atanh_sum 5 y.
Proof. intros y. cbn [atanh_sum Nat.mul Nat.add pow INR]. field. Qed.

(** One round of the loop. *)
Lemma series_step : forall y2 Y c z sum Sm e d, app y2 Y e (/ 256) -> app c (/ IZR z) (/ 36028797018963968) (/ 3) -> app sum Sm d (/ 100) ->
  e <= / 36028797018963968 -> d <= / 36028797018963968 ->
  app (dmul y2 (dadd c sum)) (Y * (/ IZR z + Sm)) (/ 36028797018963968) (/ 100).
Proof.
  intros y2 Y c z sum Sm e d A C S E D. pose proof (app_pos _ _ _ _ A) as [P _]. pose proof (app_pos _ _ _ _ S) as [P' _].
  assert (B : app (dadd c sum) (/ IZR z + Sm) (/ 9007199254740992) (/ 2)).
  { eapply app_weaken; [apply (app_add (-1) _ _ _ _ _ _ _ _ C S)|..]; try lia; bp; lra. }
  eapply app_weaken; [apply (app_mul (-8) _ _ _ _ _ _ _ _ A B)|..]; try lia; bp; nra.
Qed.

Lemma log_series_app : forall s, num s -> 1 <= fval s <= 111 / 100 ->
  let y := ddiv (dsub s (dint 1)) (dadd s (dint 1)) in
  let sum := dmul (dmul (dint 2) y) (dadd (dint 1) (log_series 4 (dmul y y) (dint 0))) in
  app sum (ln (fval s)) (/ 20000000000000) (/ 4).
Proof.
  intros s N B y sum. set (S := fval s) in *. set (Y := (S - 1) / (S + 1)).
  assert (Hs : app s S 0 (111 / 100)) by (split; [exact N|]; rewrite Rminus_diag_eq, Rabs_R0 by reflexivity; rewrite Rabs_right; lra).
  assert (H1 : app (dint 1) 1 0 1) by (apply app_int; [lia|]; rewrite Rabs_R1; lra).
  assert (Ha : app (dsub s (dint 1)) (S - 1) (/ 100000000000000000) (111 / 1000)).
  { eapply app_weaken; [apply (app_sub_int (-3) s 1 S 0 _ (111 / 1000) Hs)|..]; try lia; try (bp; lra). rewrite Rabs_right; lra. }
  assert (Hb : app (dadd s (dint 1)) (S + 1) (/ 4000000000000000) 3).
  { eapply app_weaken; [apply (app_add 2 _ _ _ _ _ _ _ _ Hs H1)|..]; try lia; try (bp; lra). }
  assert (BY : 0 <= Y <= / 18).
  { unfold Y. split; [apply Rmult_le_pos; [lra|]; left; apply Rinv_0_lt_compat; lra|].
    apply Rmult_le_reg_r with (S + 1); [lra|]. unfold Rdiv. rewrite Rmult_assoc, Rinv_l by lra. lra. }
  assert (Hy : app y Y (/ 50000000000000000) (/ 17)).
  { destruct Hb as (b0 & b1 & b2). pose proof (Rabs_le_inv _ _ b1) as b3.
    assert (Q : app y Y (/ 100000000000000000 / (199 / 100) + 111 / 1000 * / 4000000000000000 / (199 / 100 * (199 / 100)) + bpow radix2 (-4 - 54)) (111 / 1000 / (199 / 100))).
    { apply (app_div (-4) (dsub s (dint 1)) (dadd s (dint 1)) (S - 1) (S + 1) _ (/ 4000000000000000) _ (199 / 100) Ha b0 b1); try lra; try lia.
      - rewrite Rabs_right; lra.
      - rewrite Rabs_right; lra.
      - bp. lra. }
    eapply app_weaken; [exact Q|bp; lra|lra]. }
  assert (Hy' : app y Y (/ 50000000000000000) (/ 18)).
  { destruct Hy as (a & b & _). split; [exact a|]. split; [exact b|]. rewrite Rabs_right; lra. }
  assert (Hq : app (dmul y y) (Y * Y) (/ 100000000000000000) (/ 256)).
  { eapply app_weaken; [apply (app_mul (-8) _ _ _ _ _ _ _ _ Hy' Hy')|..]; try lia; bp; lra. }
  assert (H0 : app (dint 0) 0 0 (/ 100)) by (apply app_int; [lia|]; rewrite Rabs_R0; lra).
  assert (E9 : dadd (dmul (dint 2) (dint (Z.of_nat 4))) (dint 1) = dint 9) by (vm_compute; reflexivity).
  assert (E7 : dadd (dmul (dint 2) (dint (Z.of_nat 3))) (dint 1) = dint 7) by (vm_compute; reflexivity).
  assert (E5 : dadd (dmul (dint 2) (dint (Z.of_nat 2))) (dint 1) = dint 5) by (vm_compute; reflexivity).
  assert (E3 : dadd (dmul (dint 2) (dint (Z.of_nat 1))) (dint 1) = dint 3) by (vm_compute; reflexivity).
  assert (HS : app (log_series 4 (dmul y y) (dint 0)) (Y * Y * (/ 3 + Y * Y * (/ 5 + Y * Y * (/ 7 + Y * Y * (/ 9 + 0))))) (/ 36028797018963968) (/ 100)).
  { cbn [log_series]. rewrite E9, E7, E5, E3.
    eapply series_step; [exact Hq|apply (odd_inverse 3); lia| |lra|apply Rle_refl].
    eapply series_step; [exact Hq|apply (odd_inverse 5); lia| |lra|apply Rle_refl].
    eapply series_step; [exact Hq|apply (odd_inverse 7); lia| |lra|apply Rle_refl].
    eapply series_step; [exact Hq|apply (odd_inverse 9); lia|exact H0|lra|lra]. }
  assert (H2 : app (dint 2) 2 0 2) by (apply app_int; [lia|]; rewrite Rabs_right; lra).
  assert (H2y : app (dmul (dint 2) y) (2 * Y) (/ 20000000000000000) (/ 9)).
  { eapply app_weaken; [apply (app_mul (-3) _ _ _ _ _ _ _ _ H2 Hy')|..]; try lia; bp; lra. }
  assert (H1s : app (dadd (dint 1) (log_series 4 (dmul y y) (dint 0))) (1 + Y * Y * (/ 3 + Y * Y * (/ 5 + Y * Y * (/ 7 + Y * Y * (/ 9 + 0))))) (/ 2000000000000000) 2).
  { eapply app_weaken; [apply (app_add 1 _ _ _ _ _ _ _ _ H1 HS)|..]; try lia; bp; lra. }
  assert (HF : app sum (2 * atanh_sum 5 Y) (/ 5000000000000000) (2 / 9)).
  { eapply app_eq; [|apply series_value].
    eapply app_weaken; [apply (app_mul (-2) _ _ _ _ _ _ _ _ H2y H1s)|..]; try lia; bp; lra. }
  pose proof (atanh_remainder 5 Y ltac:(lra)) as R.
  assert (EY : (1 + Y) / (1 - Y) = S) by (unfold Y; field; lra). rewrite EY in R.
  assert (RB : 2 * Y ^ (2 * 5 + 1) / (1 - Y * Y) <= / 25000000000000).
  { assert (Y ^ (2 * 5 + 1) <= (/ 18) ^ (2 * 5 + 1)) by (apply pow_incr; lra).
    assert (/ (1 - Y * Y) <= 18 / 17). { replace (18 / 17) with (/ (17 / 18)) by field. apply Rinv_le_contravar; [lra|]. nra. }
    assert (0 <= Y ^ (2 * 5 + 1)) by (apply pow_le; lra). assert (0 < / (1 - Y * Y)) by (apply Rinv_0_lt_compat; nra).
    apply Rle_trans with (2 * (/ 18) ^ (2 * 5 + 1) * (18 / 17)); [unfold Rdiv; apply Rmult_le_compat; try lra; nra|].
    cbn [Nat.mul Nat.add pow]. lra. }
  destruct HF as (F0 & F1 & F2). apply Rabs_le_inv in F1, F2. split; [exact F0|]. split; apply Rabs_le; lra.
Qed.

(** ** The whole logarithm *)

Lemma near_ln : forall k x r, near F64 k x r -> 0 < r -> Rabs (ln x - ln r) <= INR k * / 9007199254740992.
Proof.
  intros k x r (t & -> & A & B) P. pose proof (grow_pos F64 k) as G. assert (IG : 0 < / (1 + roundoff F64) ^ k) by now apply Rinv_0_lt_compat.
  assert (T : 0 < t) by lra. rewrite ln_mult by lra. replace (ln r + ln t - ln r) with (ln t) by ring.
  assert (U : roundoff F64 = / 9007199254740992) by reflexivity. rewrite U in *.
  assert (L : ln ((1 + / 9007199254740992) ^ k) <= INR k * / 9007199254740992).
  { rewrite ln_pow by lra. apply Rmult_le_compat_l; [apply pos_INR|]. 
    rewrite <- (ln_exp (/ 9007199254740992)) at 2. apply ln_mono; [lra|]. left. apply exp_ineq1. lra. }
  apply Rabs_le. split.
  - assert (Q : ln (/ (1 + / 9007199254740992) ^ k) <= ln t) by (apply ln_mono; lra). rewrite ln_Rinv in Q by lra. lra.
  - assert (Q : ln t <= ln ((1 + / 9007199254740992) ^ k)) by (apply ln_mono; lra). lra.
Qed.

Lemma ln_bound : forall z, (1 <= z <= 99)%Z -> Rabs (ln (IZR z)) <= 7.
Proof.
  intros z Z. assert (1 <= IZR z <= 99) by (split; apply IZR_le; lia).
  assert (0 <= ln (IZR z)) by (rewrite <- ln_1; apply ln_mono; lra).
  assert (E : ln (IZR z) <= ln (2 ^ 7)) by (apply ln_mono; cbn; lra). rewrite ln_pow in E by lra.
  assert (L : ln 2 <= 1). { rewrite <- (ln_exp 1). apply ln_mono; [lra|]. pose proof (exp_ineq1 1 ltac:(lra)). lra. }
  cbn [INR] in E. rewrite Rabs_right by lra. lra.
Qed.
Lemma ln_10_bound : Rabs (ln 10) <= 4.
Proof.
  assert (0 <= ln 10) by (rewrite <- ln_1; apply ln_mono; lra).
  assert (E : ln 10 <= ln (2 ^ 4)) by (apply ln_mono; cbn; lra). rewrite ln_pow in E by lra.
  assert (L : ln 2 <= 1). { rewrite <- (ln_exp 1). apply ln_mono; [lra|]. pose proof (exp_ineq1 1 ltac:(lra)). lra. }
  cbn [INR] in E. rewrite Rabs_right by lra. lra.
Qed.
Lemma ln_powerRZ : forall z, ln (powerRZ 10 z) = IZR z * ln 10.
Proof.
  intros [|p|p]; cbn [powerRZ].
  - rewrite ln_1. ring.
  - rewrite ln_pow by lra. rewrite INR_IPR. reflexivity.
  - rewrite ln_Rinv by (apply pow_lt; lra). rewrite ln_pow by lra. rewrite INR_IPR. change (IZR (Zneg p)) with (- IPR p). ring.
Qed.

(** A number below ten is below it by a unit in the last place. *)
Lemma below_ten : forall s, in_format F64 s -> 1 <= s < 10 -> s <= 10 - / 562949953421312.
Proof.
  intros s F [A B]. destruct (Rle_or_lt s 9) as [L|L]; [lra|].
  assert (M : mag radix2 s = 4%Z :> Z) by (apply mag_unique_pos; bp; lra).
  unfold in_format, generic_format in F. unfold F2R, cexp, FLT_exp in F. rewrite M in F. cbn [Fnum Fexp fprec femax] in F.
  change (Z.max (4 - 53) (3 - 1024 - 53)) with (-49)%Z in F. set (m := Ztrunc _) in F.
  change (bpow radix2 (-49)) with (/ 562949953421312) in F.
  assert (Mm : (m < 10 * 562949953421312)%Z) by (apply lt_IZR; rewrite mult_IZR; lra).
  assert (IZR m <= IZR (10 * 562949953421312 - 1)) by (apply IZR_le; lia). rewrite minus_IZR, mult_IZR in *. lra.
Qed.

Lemma constexpr_log_spec : forall v, num v -> 0 < fval v ->
  exists l, constexpr_log v = Ok l /\ num l /\ Rabs (fval l - ln (fval v)) <= / 1000000000000.
Proof.
  intros v N P. destruct (dint_value 0) as [N0 V0]; [lia|]. destruct (dint_value 10) as [N10 V10]; [lia|].
  unfold constexpr_log.
  assert (X : SFltb (dint 0) v = true) by (apply (ltb_value (dint 0) v N0 N); lra). rewrite X. cbn [expects bind].
  destruct (to_decimal_spec v N P) as (s & e & k & D1 & D2 & D3 & D4 & D5 & D6). rewrite D1. cbn [bind fst snd].
  set (s10 := dmul s (dint 10)).
  (* ten times the significant, between 10 and 100 *)
  assert (L : Rabs (frnd F64 (fval s * fval (dint 10))) < bpow radix2 (femax F64)).
  { rewrite V10. apply frnd_lt_emax with (e := 7%Z); [discriminate|reflexivity|]. rewrite Rabs_right by lra. bp. lra. }
  destruct (mul_rounds F64 s (dint 10) D2 N10 L) as [M1 M2]. fold (dmul s (dint 10)) in M1, M2. fold s10 in M1, M2. rewrite V10 in M2.
  pose proof (below_ten (fval s) (number_format F64 s D2) D5) as D7.
  assert (T1 : 10 <= fval s10).
  { rewrite M2. apply Rle_trans with (frnd F64 10); [|apply frnd_le; lra]. rewrite frnd_id by (apply (format_int F64 10); discriminate). lra. }
  assert (T2 : fval s10 < 100).
  { rewrite M2. apply Rle_lt_trans with (frnd F64 (100 - / 70368744177664)); [apply frnd_le; lra|]. rewrite frnd_id; [lra|].
    replace (100 - / 70368744177664) with (IZR (100 * 70368744177664 - 1) * bpow radix2 (-46)).
    - apply format_mul_pow2; discriminate.
    - rewrite minus_IZR, mult_IZR. bp. field. }
  (* the index *)
  set (i := Ztrunc (fval s10)).
  assert (I : (10 <= i <= 99)%Z).
  { unfold i. rewrite Ztrunc_floor by lra. split; [apply Zfloor_lub; lra|]. apply Zlt_succ_le. apply lt_IZR.
    eapply Rle_lt_trans; [apply Zfloor_lb|]. cbn. lra. }
  assert (Ib : IZR i <= fval s10 < IZR i + 1).
  { unfold i. rewrite Ztrunc_floor by lra. split; [apply Zfloor_lb|apply Zfloor_ub]. }
  assert (Di : dtrunc U64 s10 = Ok i).
  { unfold dtrunc. cbn [n_convert]. rewrite trunc_value by apply M1. fold i.
    assert (R : in_range U64 i = true) by (apply in_range_spec; unfold imin, imax; cbn; lia). rewrite R. reflexivity. }
  rewrite Di. cbn [bind].
  destruct (dint_value i) as [Ni Vi]; [lia|]. assert (Ii : 10 <= IZR i <= 99) by (split; apply IZR_le; lia).
  set (s2 := ddiv s10 (dint i)).
  assert (Q : 1 <= fval s10 / IZR i <= 11 / 10).
  { split.
    - apply Rmult_le_reg_r with (IZR i); [lra|]. unfold Rdiv. rewrite Rmult_assoc, Rinv_l by lra. lra.
    - apply Rmult_le_reg_r with (IZR i); [lra|]. unfold Rdiv at 1. rewrite Rmult_assoc, Rinv_l by lra. lra. }
  assert (L2 : Rabs (frnd F64 (fval s10 / fval (dint i))) < bpow radix2 (femax F64)).
  { rewrite Vi. apply frnd_lt_emax with (e := 1%Z); [discriminate|reflexivity|]. rewrite Rabs_right by lra. bp. lra. }
  destruct (div_rounds F64 s10 (dint i) M1 Ni) as [S1 S2]; [rewrite Vi; lra|exact L2|]. fold (ddiv s10 (dint i)) in S1, S2. fold s2 in S1, S2. rewrite Vi in S2.
  assert (S3 : 1 <= fval s2).
  { rewrite S2. apply Rle_trans with (frnd F64 1); [|apply frnd_le; lra]. rewrite frnd_id by (apply (format_int F64 1); discriminate). lra. }
  assert (S4 : fval s2 <= 111 / 100).
  { rewrite S2. pose proof (abs_error (fval s10 / IZR i) 1 ltac:(lia)) as A. rewrite Rabs_right in A by lra.
    assert (A' : fval s10 / IZR i <= bpow radix2 1) by (bp; lra). specialize (A A'). apply Rabs_le_inv in A. revert A. bp. lra. }
  (* the exponent and the table *)
  unfold csub at 1. rewrite arith_in_range by (apply in_range_I64; unfold INTMAX_MIN, INTMAX_MAX; lia). cbn [bind].
  destruct (log_entry_value 10) as (ten & E1 & E2 & E3); [lia|]. change (10 - 1)%Z with 9%Z in E1. rewrite E1. cbn [bind].
  destruct (log_entry_value i) as (t & F1 & F2 & F3); [lia|]. rewrite F1. cbn [bind].
  pose proof (log_series_app s2 S1 (conj S3 S4)) as HS. cbv zeta in HS.
  match type of HS with app ?x _ _ _ => set (sum := x) in * end.
  assert (Ez : Rabs (IZR (e - 1)) <= 401) by (rewrite <- abs_IZR; apply IZR_le; lia).
  assert (H1 : app (dint (e - 1)) (IZR (e - 1)) 0 401) by (apply app_int; [lia|exact Ez]).
  assert (H2 : app ten (ln 10) (5 / 10 ^ 16) 4) by (split; [exact E2|split; [exact E3|exact ln_10_bound]]).
  assert (H3 : app t (ln (IZR i)) (5 / 10 ^ 16) 7) by (split; [exact F2|split; [exact F3|apply ln_bound; lia]]).
  assert (C16 : 10 ^ 16 = 10000000000000000) by (cbn [pow]; ring). rewrite C16 in H2, H3.
  assert (H4 : app (dmul (dint (e - 1)) ten) (IZR (e - 1) * ln 10) (32 / 100000000000000) 1604).
  { eapply app_weaken; [apply (app_mul 11 _ _ _ _ _ _ _ _ H1 H2)|..]; try lia; bp; lra. }
  assert (H5 : app (dadd (dmul (dint (e - 1)) ten) t) (IZR (e - 1) * ln 10 + ln (IZR i)) (44 / 100000000000000) 1611).
  { eapply app_weaken; [apply (app_add 11 _ _ _ _ _ _ _ _ H4 H3)|..]; try lia; bp; lra. }
  assert (H6 : app (dadd (dadd (dmul (dint (e - 1)) ten) t) sum) (IZR (e - 1) * ln 10 + ln (IZR i) + ln (fval s2)) (61 / 100000000000000) 1612).
  { eapply app_weaken; [apply (app_add 11 _ _ _ _ _ _ _ _ H5 HS)|..]; try lia; bp; lra. }
  eexists. split; [reflexivity|]. destruct H6 as (R0 & R1 & _). split; [exact R0|].
  (* the exact logarithm *)
  pose proof (near_ln k _ _ D6 P) as K1. rewrite ln_mult, ln_powerRZ in K1 by (try lra; apply powerRZ_lt; lra).
  assert (K2 : Rabs (ln (fval s10) - ln (fval s * 10)) <= INR 1 * / 9007199254740992).
  { apply near_ln; [|lra]. rewrite M2. apply near_round. rewrite Rabs_right by lra. apply Rle_trans with 1; [|lra]. apply (bpow_le radix2 _ 0). discriminate. }
  assert (K3 : Rabs (ln (fval s2) - ln (fval s10 / IZR i)) <= INR 1 * / 9007199254740992).
  { apply near_ln; [|lra]. rewrite S2. apply near_round. rewrite Rabs_right by lra. apply Rle_trans with 1; [|lra]. apply (bpow_le radix2 _ 0). discriminate. }
  rewrite ln_mult in K2 by lra. rewrite ln_quot in K3 by lra. change (INR 1) with 1 in K2, K3. rewrite minus_IZR in R1.
  assert (Kk : INR k <= 800) by (apply (le_INR k 800) in D3; rewrite (INR_IZR_INZ 800) in D3; exact D3).
  assert (Kb : INR k * / 9007199254740992 <= 800 * / 9007199254740992) by (apply Rmult_le_compat_r; lra).
  apply Rabs_le_inv in K1, K2, K3, R1. apply Rabs_le. clear - K1 K2 K3 R1 Kb. lra.
Qed.
