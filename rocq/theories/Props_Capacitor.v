(** C105: the capacitor of the examples. *)

From Coq Require Import ZArith String List Bool Lia Reals Lra SpecFloat.
From Flocq Require Import Core IEEE754.BinarySingleNaN.
From Verif Require Import Props_Rounding Outcome CInt Root Unit Rep Reference QuantityCast Quantity Names Math Capacitor SpecReal SpecGlide SpecCapacitor
  FloatProofs FloatCastProofs FloatOrderProofs RoundingProofs CancelProofs GlideProofs BoxProofs CapacitorProofs.
Import ListNotations.
Local Open Scope list_scope.
Local Open Scope R_scope.
Local Open Scope res_scope.

(** The headers and the references compile. *)
Theorem C105_setup : forall est l, exists e, capacitor_setup est l = Ok e.
Proof. intros est l. eexists. apply capacitor_setup_env. Qed.
Print Assumptions C105_setup.

(** The loop ends after the last time; in each turn it prints the time and the plain double of the
    discharge curve: microfarads times kiloohms are milliseconds and cancel with them, so that no
    unit adds a factor.  The unit printed and the factor are those of [plain_step]. *)
Theorem C105_curve : forall est l e c v r last turns, capacitor_setup est l = Ok e -> (forall x, is_double (m_exp l F64 x)) ->
  is_double c -> is_double v -> is_double r -> (-1 <= last < 2147483647)%Z -> (last + 1 < Z.of_nat turns)%Z ->
  exists ps, capacitor_main turns e (NFlt c) (NFlt v) (NFlt r) last = Ok ps /\
    Forall2 (fun t p => let x := plain_voltage (m_exp l F64) c v r t in
      fst p = Quantity (QType (ref_dim (r_ms e)) (ref_unit (r_ms e)) (RInt I32)) (NInt t) /\
      q_dim (q_type (snd p)) = ref_dim (r_V e) /\ u_name (q_unit (q_type (snd p))) = step_name (plain_step x) /\
      q_rep (q_type (snd p)) = RFlt F64 /\ q_num (snd p) = NFlt (plain_shown x)) (times_from 0 (Z.to_nat (last + 1))) ps.
Proof.
  intros est l e c v r last turns S X C V R L T. rewrite capacitor_setup_env in S. assert (e = capacitor_env_of est l) as -> by congruence.
  unfold capacitor_main. rewrite (make_int _ 0 eq_refl). cbn [bind].
  destruct (curve_plain est l X c v r C V R turns last 0) as (ps & E & F); [lia..|]. exists ps. split; [exact E|].
  rewrite Z.sub_0_r in F. exact F.
Qed.
Print Assumptions C105_curve.

(** If the last time is the greatest [int], the increment overflows: however many turns are
    followed, the loop never ends. *)
Theorem C105_overflow : forall est l e c v r turns ps, capacitor_setup est l = Ok e -> (forall x, is_double (m_exp l F64 x)) ->
  is_double c -> is_double v -> is_double r -> capacitor_main turns e (NFlt c) (NFlt v) (NFlt r) 2147483647 <> Ok ps.
Proof.
  intros est l e c v r turns ps S X C V R. rewrite capacitor_setup_env in S. assert (e = capacitor_env_of est l) as -> by congruence.
  unfold capacitor_main. rewrite (make_int _ 0 eq_refl). cbn [bind]. apply (curve_overflows est l X c v r C V R turns 0). lia.
Qed.
Print Assumptions C105_overflow.

(** ** The number printed *)

Lemma one_dbl : is_number F64 (int 1) /\ fval (int 1) = 1.
Proof. exact (one_exact F64). Qed.
Lemma reaches_iff : forall x, is_number F64 x -> reaches_one x = true <-> 1 <= fval x.
Proof.
  intros x X. destruct one_dbl as [N E]. unfold reaches_one. rewrite (compare_numbers F64 x (int 1) X N), E.
  destruct (Rcompare_spec (fval x) 1); split; intros; try discriminate; try reflexivity; lra.
Qed.
Lemma frnd_one : frnd F64 1 = 1.
Proof. rewrite <- (proj2 one_dbl). apply frnd_id. apply number_format. apply one_dbl. Qed.
Lemma power_number : forall k, (0 <= k <= 4)%Z -> is_number F64 (int (1000 ^ k)) /\ fval (int (1000 ^ k)) = IZR (1000 ^ k).
Proof.
  intros k K. apply (of_int_exact F64). assert (H : (1000 ^ k <= 1000 ^ 4)%Z) by (apply Z.pow_le_mono_r; lia). assert (0 <= 1000 ^ k)%Z by (apply Z.pow_nonneg; lia).
  rewrite Z.abs_eq by assumption. eapply Z.le_trans; [exact H|]. vm_compute. discriminate.
Qed.
(** In steps of a thousand, below one volt. *)
Lemma step_rounds : forall v k, is_number F64 v -> 0 <= fval v <= 1 -> (0 <= k <= 4)%Z ->
  is_number F64 (in_step v k) /\ fval (in_step v k) = frnd F64 (fval v * IZR (1000 ^ k)).
Proof.
  intros v k V B K. unfold in_step. destruct (Z.eqb_spec k 0) as [->|N].
  - split; [exact V|]. change (1000 ^ 0)%Z with 1%Z. rewrite Rmult_1_r. symmetry. apply frnd_id. now apply number_format.
  - destruct (power_number k K) as [P E]. rewrite <- E. apply (mul_rounds F64 v (int (1000 ^ k)) V P). rewrite E.
    assert (H : IZR (1000 ^ k) <= bpow radix2 60).
    { change (bpow radix2 60) with (IZR (2 ^ 60)). apply IZR_le. apply Z.le_trans with (1000 ^ 4)%Z; [apply Z.pow_le_mono_r; lia|vm_compute; discriminate]. }
    assert (0 <= IZR (1000 ^ k)) by (apply IZR_le, Z.pow_nonneg; lia).
    apply frnd_lt_emax with (e := 60%Z); [vm_compute; discriminate|reflexivity|]. rewrite Rabs_right by (apply Rle_ge, Rmult_le_pos; lra). nra.
Qed.
Lemma below : forall x, frnd F64 x < 1 -> x < 1.
Proof. intros x H. destruct (Rlt_le_dec x 1) as [L|L]; [exact L|]. apply (frnd_le F64) in L. rewrite frnd_one in L. lra. Qed.
Lemma thousand : frnd F64 1000 = 1000.
Proof. destruct (of_int_exact F64 1000) as [N E]; [vm_compute; discriminate|]. rewrite <- E. apply frnd_id. now apply number_format. Qed.
Lemma to_thousand : forall x, x <= 1000 -> frnd F64 x <= 1000.
Proof. intros x H. apply (frnd_le F64) in H. now rewrite thousand in H. Qed.
Lemma frnd_0 : frnd F64 0 = 0.
Proof. apply frnd_id. apply generic_format_0. Qed.

(** For every voltage from 0 on: volts are printed from one volt on; below it the number printed is
    the voltage times a power of a thousand, rounded once, it is at least 1 unless picovolts are
    printed, and never more than 1000. *)
Theorem C105_shown : forall v, is_number F64 v -> 0 <= fval v ->
  let k := plain_step v in (0 <= k <= 4)%Z /\ (k = 0%Z <-> 1 <= fval v) /\
  fval (plain_shown v) = frnd F64 (fval v * IZR (1000 ^ k)) /\ ((k < 4)%Z -> 1 <= fval (plain_shown v)) /\ ((0 < k)%Z -> fval (plain_shown v) <= 1000).
Proof.
  intros v V P. cbv zeta. pose proof (reaches_iff v V) as I0. unfold plain_shown, plain_step.
  destruct (reaches_one v) eqn:R0.
  { assert (1 <= fval v) by now apply I0. unfold in_step. cbn [Z.eqb]. split; [lia|]. split; [tauto|]. change (1000 ^ 0)%Z with 1%Z. rewrite Rmult_1_r. split; [|split].
    - symmetry. apply frnd_id. now apply number_format.
    - now intros _.
    - lia. }
  assert (L0 : fval v < 1) by (destruct (Rlt_le_dec (fval v) 1) as [L|L]; [exact L|]; apply I0 in L; discriminate).
  assert (B : 0 <= fval v <= 1) by lra.
  destruct (step_rounds v 1 V B ltac:(lia)) as [N1 E1]. destruct (step_rounds v 2 V B ltac:(lia)) as [N2 E2].
  destruct (step_rounds v 3 V B ltac:(lia)) as [N3 E3]. destruct (step_rounds v 4 V B ltac:(lia)) as [N4 E4].
  pose proof (reaches_iff _ N1) as I1. pose proof (reaches_iff _ N2) as I2. pose proof (reaches_iff _ N3) as I3.
  change (1000 ^ 1)%Z with 1000%Z in E1. change (1000 ^ 2)%Z with 1000000%Z in E2. change (1000 ^ 3)%Z with 1000000000%Z in E3. change (1000 ^ 4)%Z with 1000000000000%Z in E4.
  destruct (reaches_one (in_step v 1)) eqn:R1.
  { split; [lia|]. split; [split; [lia|lra]|]. split; [exact E1|]. split; [intros _; now apply I1|]. intros _. rewrite E1. apply to_thousand. lra. }
  assert (L1 : fval v * 1000 < 1).
  { apply below. rewrite <- E1. destruct (Rlt_le_dec (fval (in_step v 1)) 1) as [L|L]; [exact L|]; apply I1 in L; discriminate. }
  destruct (reaches_one (in_step v 2)) eqn:R2.
  { split; [lia|]. split; [split; [lia|lra]|]. split; [exact E2|]. split; [intros _; now apply I2|]. intros _. rewrite E2. apply to_thousand. lra. }
  assert (L2 : fval v * 1000000 < 1).
  { apply below. rewrite <- E2. destruct (Rlt_le_dec (fval (in_step v 2)) 1) as [L|L]; [exact L|]; apply I2 in L; discriminate. }
  destruct (reaches_one (in_step v 3)) eqn:R3.
  { split; [lia|]. split; [split; [lia|lra]|]. split; [exact E3|]. split; [intros _; now apply I3|]. intros _. rewrite E3. apply to_thousand. lra. }
  assert (L3 : fval v * 1000000000 < 1).
  { apply below. rewrite <- E3. destruct (Rlt_le_dec (fval (in_step v 3)) 1) as [L|L]; [exact L|]; apply I3 in L; discriminate. }
  split; [lia|]. split; [split; [lia|lra]|]. split; [exact E4|]. split; [lia|]. intros _. rewrite E4. apply to_thousand. lra.
Qed.
Print Assumptions C105_shown.

(** ** The discharge *)

Lemma usual_medium : forall x, usual_size x -> is_number F64 x /\ medium 60 (fval x).
Proof. intros x [N B]. split; [exact N|]. exact B. Qed.
Lemma time_number : forall t, (0 <= t <= 2147483647)%Z -> is_number F64 (int (- t)) /\ fval (int (- t)) = - IZR t.
Proof. intros t T. destruct (of_int_exact F64 (- t)) as [N E]; [change (2 ^ fprec F64)%Z with 9007199254740992%Z; lia|]. split; [exact N|]. rewrite <- opp_IZR. exact E. Qed.
(** The argument of the exponential. *)
Lemma argument_near : forall c r t, usual_size c -> usual_size r -> (0 <= t <= 2147483647)%Z ->
  is_number F64 (int (- t) / (r * c))%D /\ near F64 2 (fval (int (- t) / (r * c))%D) (- (IZR t / (fval r * fval c))).
Proof.
  intros c r t C R T. destruct (usual_medium c C) as [Nc Mc]. destruct (usual_medium r R) as [Nr Mr]. destruct (time_number t T) as [Nt Et].
  pose proof (medium_mul _ _ _ _ Mr Mc) as Mp. pose proof (medium_pos _ _ Mp) as Pp.
  destruct (mul_near F64 0 0 r c (fval r) (fval c) Nr Nc (near_refl _ _) (near_refl _ _)) as [N1 A1]; [vm_compute; discriminate|now apply (medium_mid (60 + 60))|].
  destruct (div_near F64 0 1 (int (- t)) (r * c)%D (- IZR t) (fval r * fval c) Nt N1) as [N2 A2]; [rewrite Et; apply near_refl|exact A1|lra|vm_compute; discriminate| |].
  - destruct (Z.eq_dec t 0) as [->|N]; [left; unfold Rdiv; rewrite Ropp_0; ring|]. right.
    assert (Mt : medium 31 (IZR t)).
    { split; [apply Rle_trans with 1; [change 1 with (bpow radix2 0); apply bpow_le; lia|apply IZR_le; lia]|]. change (bpow radix2 31) with (IZR (2 ^ 31)). apply IZR_le. lia. }
    pose proof (medium_div _ _ _ _ Mt Mp) as Mq. replace (- IZR t / (fval r * fval c)) with (- (IZR t / (fval r * fval c))) by (unfold Rdiv; ring). rewrite Rabs_Ropp.
    destruct (medium_mid (31 + (60 + 60)) _ ltac:(lia) Mq) as [Z|Z]; [|exact Z]. pose proof (medium_pos _ _ Mq). lra.
  - split; [exact N2|]. apply (near_eq F64 _ _ _ _ _ eq_refl) with (2 := A2). unfold Rdiv. ring.
Qed.

Lemma ln_factor : forall k s, / (1 + roundoff F64) ^ k <= s <= (1 + roundoff F64) ^ k -> exists d, s = exp d /\ Rabs d <= INR k * roundoff F64.
Proof.
  intros k s [A B]. pose proof (roundoff_pos F64) as U. assert (G : 0 < (1 + roundoff F64) ^ k) by (apply pow_lt; lra).
  assert (S : 0 < s) by (apply Rlt_le_trans with (2 := A); now apply Rinv_0_lt_compat). exists (ln s). split; [symmetry; now apply exp_ln|].
  assert (L : ln (1 + roundoff F64) <= roundoff F64).
  { rewrite <- (ln_exp (roundoff F64)) at 2. apply Rlt_le. apply ln_increasing; [lra|]. apply exp_ineq1. lra. }
  assert (P : ln ((1 + roundoff F64) ^ k) <= INR k * roundoff F64).
  { rewrite <- Rpower_pow by lra. unfold Rpower. rewrite ln_exp. apply Rmult_le_compat_l; [apply pos_INR|exact L]. }
  assert (M : forall x y, 0 < x -> x <= y -> ln x <= ln y). { intros x y X [Y|Y]; [apply Rlt_le; now apply ln_increasing|subst; lra]. }
  apply Rabs_le. split.
  - apply (M _ _ (Rinv_0_lt_compat _ G)) in A. rewrite ln_Rinv in A by exact G. lra.
  - apply (M _ _ S) in B. lra.
Qed.
Lemma exp_medium : forall x, -128 <= x <= 0 -> medium 256 (exp x).
Proof.
  intros x [A B]. assert (D : forall n, exp (INR n) <= 4 ^ n).
  { induction n as [|n IH]; [cbn [INR pow]; rewrite exp_0; lra|]. rewrite S_INR, exp_plus. cbn [pow]. pose proof exp_le_3. pose proof (exp_pos 1). pose proof (exp_pos (INR n)). nra. }
  assert (E : exp 128 <= bpow radix2 256).
  { specialize (D 128%nat). rewrite INR_IZR_INZ in D. change (Z.of_nat 128) with 128%Z in D. eapply Rle_trans; [exact D|].
    replace 4 with (IZR (2 ^ 2)) by (cbn; lra). rewrite pow_IZR. change (bpow radix2 256) with (IZR (2 ^ 256)). apply IZR_le. vm_compute. discriminate. }
  assert (M : forall a b, a <= b -> exp a <= exp b). { intros a b [H|H]; [apply Rlt_le; now apply exp_increasing|subst; lra]. }
  split.
  - apply Rle_trans with (exp (-128)); [|now apply M]. rewrite bpow_opp. replace (-128) with (- (128)) by lra. rewrite exp_Ropp. apply Rinv_le; [apply exp_pos|exact E].
  - apply Rle_trans with (exp 0); [now apply M|]. rewrite exp_0. change 1 with (bpow radix2 0). apply bpow_le. lia.
Qed.

(** The voltage follows the law V exp(-t / RC): the logarithm of their ratio is at most one rounding
    for the product, the roundings of [std::exp], and the error of its argument, two roundings of
    t / RC. *)
Theorem C105_discharge : forall l c v r t k, exp_rounds (m_exp l F64) k -> (k <= 1000)%nat ->
  usual_size c -> usual_size v -> usual_size r -> (0 <= t <= 2147483647)%Z -> IZR t / (fval r * fval c) <= 100 ->
  let y := plain_voltage (m_exp l F64) c v r t in
  is_number F64 y /\ exists d, fval y = fval v * exp (- (IZR t / (fval r * fval c))) * exp d /\
    Rabs d <= INR (k + 1) * roundoff F64 + gamma F64 2 * (IZR t / (fval r * fval c)).
Proof.
  intros l c v r t k H K C V R T Small. cbv zeta. destruct (argument_near c r t C R T) as [Na Aa]. set (a := (int (- t) / (r * c))%D) in *.
  destruct (usual_medium c C) as [_ Mc]. destruct (usual_medium r R) as [_ Mr]. destruct (usual_medium v V) as [Nv Mv].
  pose proof (medium_pos _ _ (medium_mul _ _ _ _ Mr Mc)) as Pp. set (q := IZR t / (fval r * fval c)) in *.
  assert (Q : 0 <= q) by (apply Rmult_le_pos; [apply IZR_le; lia|apply Rlt_le; now apply Rinv_0_lt_compat]).
  assert (W : within F64 2 (fval a) (- q)) by (apply near_within; [apply few; vm_compute; discriminate|exact Aa]).
  assert (Sm : INR 2 * roundoff F64 <= 1 / 100).
  { cbn [INR]. pose proof (roundoff_small F64) as U. apply Rle_trans with (2 * bpow radix2 (- 24)); [lra|]. change (bpow radix2 (- 24)) with (/ IZR (2 ^ 24)).
    apply Rmult_le_reg_r with (IZR (2 ^ 24)); [apply IZR_lt; reflexivity|]. rewrite Rmult_assoc, Rinv_l by (apply IZR_neq; discriminate). change (2 ^ 24)%Z with 16777216%Z. lra. }
  pose proof (roundoff_pos F64) as U.
  assert (G : 0 <= gamma F64 2 <= 1 / 50).
  { unfold gamma. assert (0 <= INR 2 * roundoff F64) by (cbn [INR]; lra). split.
    - apply Rmult_le_pos; [assumption|apply Rlt_le, Rinv_0_lt_compat; lra].
    - apply Rmult_le_reg_r with (1 - INR 2 * roundoff F64); [lra|]. unfold Rdiv at 1. rewrite Rmult_assoc, Rinv_l by lra. lra. }
  unfold within in W. rewrite Rabs_Ropp, (Rabs_right q) in W by lra. pose proof (Rabs_le_inv _ _ W) as Wi.
  assert (Gq : gamma F64 2 * q <= 1 / 50 * q) by (apply Rmult_le_compat_r; lra).
  assert (Ba : -128 <= fval a <= 0).
  { split; [lra|]. destruct Aa as (s & -> & S1 & S2). assert (0 < s) by (apply Rlt_le_trans with (2 := S1); apply Rinv_0_lt_compat, pow_lt; lra).
    replace (- q * s) with (- (q * s)) by ring. assert (0 <= q * s) by (apply Rmult_le_pos; lra). lra. }
  destruct (H a Na Ba) as (Ne & s & Es & Bs). pose proof (exp_medium _ Ba) as Me.
  destruct (mul_near F64 0 k v (m_exp l F64 a) (fval v) (exp (fval a)) Nv Ne (near_refl _ _)) as [Ny Ay].
  { exists s. split; [exact Es|exact Bs]. }
  { apply Z.le_trans with 1000%Z; [lia|vm_compute; discriminate]. }
  { apply (medium_mid (60 + 256)); [lia|]. now apply medium_mul. }
  unfold plain_voltage. fold a. split; [exact Ny|]. destruct Ay as (p & Ep & Bp). destruct (ln_factor _ _ Bp) as (d & Ed & Bd).
  exists (fval a + q + d). split.
  - change (fval (v * m_exp l F64 a)%D = fval v * exp (- q) * exp (fval a + q + d)). rewrite Rmult_assoc, <- exp_plus. replace (- q + (fval a + q + d)) with (fval a + d) by ring.
    rewrite exp_plus, <- Ed, <- Rmult_assoc. exact Ep.
  - cbn [Nat.add] in Bd. eapply Rle_trans; [apply Rabs_triang|]. replace (fval a + q) with (fval a - - q) by ring. lra.
Qed.
Print Assumptions C105_discharge.

(** The voltage never grows with the time, if [std::exp] is monotone. *)
Theorem C105_monotone : forall l c v r t1 t2, exp_monotone (m_exp l F64) -> usual_size c -> usual_size v -> usual_size r ->
  (0 <= t1 <= t2)%Z -> (t2 <= 2147483647)%Z ->
  is_number F64 (plain_voltage (m_exp l F64) c v r t1) -> is_number F64 (plain_voltage (m_exp l F64) c v r t2) ->
  0 <= fval (plain_voltage (m_exp l F64) c v r t2) <= fval (plain_voltage (m_exp l F64) c v r t1).
Proof.
  intros l c v r t1 t2 H C V R [T0 T1] T2 N1 N2.
  assert (Ar : forall t, (0 <= t <= 2147483647)%Z -> is_number F64 (int (- t) / (r * c))%D /\ fval (int (- t) / (r * c))%D = frnd F64 (- IZR t / fval (r * c)%D) /\ 0 < fval (r * c)%D).
  { intros t T. destruct (argument_near c r t C R T) as [N _]. destruct (usual_medium c C) as [Nc Mc]. destruct (usual_medium r R) as [Nr Mr].
    pose proof (medium_mul _ _ _ _ Mr Mc) as Mp. destruct (time_number t T) as [Nt Et].
    destruct (mul_near F64 0 0 r c (fval r) (fval c) Nr Nc (near_refl _ _) (near_refl _ _)) as [Np Ap]; [vm_compute; discriminate|now apply (medium_mid (60 + 60))|].
    assert (P : 0 < fval (r * c)%D).
    { destruct Ap as (s & E & S1 & S2). change (0 < fval (SFmul (fprec F64) (femax F64) r c)). rewrite E. apply Rmult_lt_0_compat; [exact (medium_pos _ _ Mp)|].
      apply Rlt_le_trans with (2 := S1). apply Rinv_0_lt_compat, pow_lt. pose proof (roundoff_pos F64). lra. }
    split; [exact N|]. split; [|exact P]. rewrite <- Et. apply (div_number_inv F64 _ _ Nt Np); [|exact N]. apply Rgt_not_eq. exact P. }
  destruct (Ar t1) as (A1 & E1 & P); [lia|]. destruct (Ar t2) as (A2 & E2 & _); [lia|].
  assert (Le : fval (int (- t2) / (r * c))%D <= fval (int (- t1) / (r * c))%D <= 0).
  { rewrite E1, E2. assert (I : 0 < / fval (r * c)%D) by now apply Rinv_0_lt_compat. assert (IZR t1 <= IZR t2) by now apply IZR_le. assert (0 <= IZR t1) by now apply IZR_le.
    split; [apply frnd_le; apply Rmult_le_compat_r; lra|]. rewrite <- frnd_0. apply frnd_le. unfold Rdiv. nra. }
  destruct (H _ _ A2 A1 Le) as (X2 & X1 & X0 & X). destruct (usual_medium v V) as [Nv Mv]. pose proof (medium_pos _ _ Mv) as Pv.
  unfold plain_voltage in *. set (e1 := m_exp l F64 (int (- t1) / (r * c))%D) in *. set (e2 := m_exp l F64 (int (- t2) / (r * c))%D) in *.
  assert (F1 : fval (v * e1)%D = frnd F64 (fval v * fval e1)) by exact (mul_number_inv F64 _ _ Nv X1 N1).
  assert (F2 : fval (v * e2)%D = frnd F64 (fval v * fval e2)) by exact (mul_number_inv F64 _ _ Nv X2 N2).
  rewrite F1, F2. split; [rewrite <- frnd_0|]; apply frnd_le; [apply Rmult_le_pos; lra|apply Rmult_le_compat_l; lra].
Qed.
Print Assumptions C105_monotone.

(** ** Cases *)

(** A [std::exp] as the theorems assume it exists: the correctly rounded one. *)
Definition nearest_double (r : R) : spec_float :=
  let f := FLT_exp (3 - femax F64 - fprec F64) (fprec F64) in
  SpecFloat.binary_normalize (fprec F64) (femax F64) (ZnearestE (scaled_mantissa radix2 f r)) (cexp radix2 f r) false.
Lemma nearest_double_spec : forall r, Rabs r <= bpow radix2 1000 -> is_number F64 (nearest_double r) /\ fval (nearest_double r) = frnd F64 r.
Proof.
  intros r B. assert (E : F2R (Float radix2 (ZnearestE (scaled_mantissa radix2 (FLT_exp (3 - femax F64 - fprec F64) (fprec F64)) r)) (cexp radix2 (FLT_exp (3 - femax F64 - fprec F64) (fprec F64)) r)) = frnd F64 r) by reflexivity.
  assert (I : frnd F64 (frnd F64 r) = frnd F64 r) by (apply frnd_id, frnd_format).
  assert (L : Rabs (frnd F64 r) < bpow radix2 (femax F64)) by (apply frnd_lt_emax with (e := 1000%Z); [vm_compute; discriminate|reflexivity|exact B]).
  destruct (normalize_rounds F64 (ZnearestE (scaled_mantissa radix2 (FLT_exp (3 - femax F64 - fprec F64) (fprec F64)) r)) (cexp radix2 (FLT_exp (3 - femax F64 - fprec F64) (fprec F64)) r) false) as [N V]; rewrite E in *.
  - now rewrite I.
  - split; [exact N|]. rewrite I in V. exact V.
Qed.
Definition rounded_exp (x : spec_float) : spec_float := nearest_double (exp (Rmin (fval x) 0)).
Lemma exp_bounded : forall y, y <= 0 -> 0 < exp y <= 1.
Proof. intros y [H|H]; (split; [apply exp_pos|]); rewrite <- exp_0; [apply Rlt_le; now apply exp_increasing|subst; lra]. Qed.
Lemma exp_number : forall x, is_number F64 (rounded_exp x) /\ fval (rounded_exp x) = frnd F64 (exp (Rmin (fval x) 0)).
Proof.
  intros x. apply nearest_double_spec. destruct (exp_bounded (Rmin (fval x) 0) (Rmin_r _ _)) as [A B]. rewrite Rabs_right by lra.
  apply Rle_trans with 1; [exact B|]. change 1 with (bpow radix2 0). apply bpow_le. lia.
Qed.
Example C105_ex_exp : (forall x, is_double (rounded_exp x)) /\ exp_rounds rounded_exp 1 /\ exp_monotone rounded_exp.
Proof.
  split; [|split].
  - intros x. apply (exp_number x).
  - intros x N B. destruct (exp_number x) as [Ne E]. split; [exact Ne|]. rewrite E, Rmin_left by lra.
    destruct (near_round_mid F64 0 (exp (fval x)) (exp (fval x))) as [_ M]; [vm_compute; discriminate| |apply near_refl|exact M].
    apply (medium_mid 256); [lia|]. now apply exp_medium.
  - intros x y X Y [A B]. destruct (exp_number x) as [Nx Ex]. destruct (exp_number y) as [Ny Ey]. split; [exact Nx|]. split; [exact Ny|].
    rewrite Ex, Ey, !Rmin_left by lra. split.
    + rewrite <- frnd_0. apply frnd_le. apply Rlt_le, exp_pos.
    + apply frnd_le. destruct A as [A|A]; [apply Rlt_le; now apply exp_increasing|rewrite A; lra].
Qed.

(** The capacitor of the example, 4.7 kiloohms and 0.47 microfarads at 5 volts, with that function:
    the law holds at every time of its loop up to a few roundings. *)
Lemma usual_quotient : forall a b, (1 <= a <= 1000)%Z -> (1 <= b <= 1000)%Z -> usual_size (int a / int b)%D /\ near F64 1 (fval (int a / int b)%D) (IZR a / IZR b).
Proof.
  intros a b A B. destruct (of_int_exact F64 a) as [Na Ea]; [change (2 ^ fprec F64)%Z with 9007199254740992%Z; lia|].
  destruct (of_int_exact F64 b) as [Nb Eb]; [change (2 ^ fprec F64)%Z with 9007199254740992%Z; lia|].
  assert (Ra : 1 <= IZR a <= 1000) by (split; apply IZR_le; lia). assert (Rb : 1 <= IZR b <= 1000) by (split; apply IZR_le; lia).
  assert (I : / 1000 <= / IZR b <= 1) by (split; [|rewrite <- Rinv_1]; apply Rinv_le; lra).
  assert (Q : / 1000 <= IZR a / IZR b <= 1000) by (unfold Rdiv; split; nra).
  destruct (div_near F64 0 0 (int a) (int b) (IZR a) (IZR b) Na Nb) as [N M]; [unfold int in *; rewrite <- Ea; apply near_refl|unfold int in *; rewrite <- Eb; apply near_refl|lra|vm_compute; discriminate|apply mid_between; lra|].
  split; [|exact M]. split; [exact N|]. assert (W : within F64 1 (fval (int a / int b)%D) (IZR a / IZR b)) by (apply near_within; [apply few; vm_compute; discriminate|exact M]).
  assert (G : 0 <= gamma F64 1 <= 1 / 2).
  { unfold gamma. cbn [INR]. rewrite Rmult_1_l. pose proof (roundoff_pos F64). assert (S : roundoff F64 <= 1 / 10).
    { eapply Rle_trans; [apply roundoff_small|]. change (bpow radix2 (- 24)) with (/ IZR (2 ^ 24)). replace (1 / 10) with (/ 10) by lra. apply Rinv_le; [lra|]. apply IZR_le. vm_compute. discriminate. }
    split; [apply Rmult_le_pos; [lra|apply Rlt_le, Rinv_0_lt_compat; lra]|]. apply Rmult_le_reg_r with (1 - roundoff F64); [lra|]. unfold Rdiv at 1. rewrite Rmult_assoc, Rinv_l by lra. lra. }
  unfold within in W. rewrite (Rabs_right (IZR a / IZR b)) in W by lra. apply Rabs_le_inv in W.
  assert (gamma F64 1 * (IZR a / IZR b) <= 1 / 2 * (IZR a / IZR b)) by (apply Rmult_le_compat_r; lra).
  assert (B1 : bpow radix2 (-60) <= / 2000) by (change (bpow radix2 (-60)) with (/ IZR (2 ^ 60)); apply Rinv_le; [lra|]; apply IZR_le; vm_compute; discriminate).
  assert (B2 : 2000 <= bpow radix2 60) by (change (bpow radix2 60) with (IZR (2 ^ 60)); apply IZR_le; vm_compute; discriminate).
  lra.
Qed.
Example C105_ex_discharge : forall t, (0 <= t <= 50)%Z -> let c := (int 47 / int 100)%D in let r := (int 47 / int 10)%D in let v := (int 5 / int 1)%D in
  let y := plain_voltage rounded_exp c v r t in
  is_number F64 y /\ exists d, fval y = fval v * exp (- (IZR t / (fval r * fval c))) * exp d /\ Rabs d <= INR 2 * roundoff F64 + gamma F64 2 * (IZR t / (fval r * fval c)).
Proof.
  intros t T. cbv zeta. destruct (usual_quotient 47 100) as [Uc Nc]; [lia..|]. destruct (usual_quotient 47 10) as [Ur Nr]; [lia..|]. destruct (usual_quotient 5 1) as [Uv _]; [lia..|].
  set (l := Libm (fun _ _ _ => S754_nan) (fun _ x => x) (fun _ => rounded_exp)). destruct C105_ex_exp as (_ & E & _).
  apply (C105_discharge l _ _ _ t 1); auto; [lia|lia|].
  assert (S : 1 + roundoff F64 <= 11 / 10).
  { pose proof (roundoff_small F64) as S. change (bpow radix2 (- 24)) with (/ IZR (2 ^ 24)) in S. assert (/ IZR (2 ^ 24) <= / 10) by (apply Rinv_le; [lra|]; apply IZR_le; vm_compute; discriminate). lra. }
  pose proof (roundoff_pos F64) as U. assert (J : 10 / 11 <= / (1 + roundoff F64)) by (replace (10 / 11) with (/ (11 / 10)) by lra; apply Rinv_le; lra).
  destruct Nc as (a & -> & A & _). destruct Nr as (b & -> & B & _). rewrite pow_1 in A, B. assert (0 <= IZR t <= 50) by (split; apply IZR_le; lia).
  apply Rmult_le_reg_r with (47 / 10 * b * (47 / 100 * a)); [nra|]. unfold Rdiv at 1. rewrite Rmult_assoc, Rinv_l by nra. nra.
Qed.

(** A loop of two turns with a function that drops to 1 / 2000: 5 volts, then 2.5 millivolts. *)
Definition steep : libm := Libm (fun _ _ _ => S754_nan) (fun _ x => x) (fun _ x => if SFeqb x (S754_zero false) then int 1 else (int 1 / int 2000)%D).
Example C105_ex_loop : exists e ps, capacitor_setup (fun _ v => Ok v) steep = Ok e /\ (forall x, is_double (m_exp steep F64 x)) /\
  capacitor_main 5 e (NFlt (int 47 / int 100)%D) (NFlt (int 5)) (NFlt (int 47 / int 10)%D) 1 = Ok ps /\
  map (fun p => (u_name (q_unit (q_type (snd p))), match q_num (snd p) with NFlt x => SFeqb x (int 5) || SFeqb x (int 5 / int 2)%D | _ => false end)) ps =
    [(Some "si::volt", true); (Some "si::millivolt", true)]%string.
Proof.
  eexists. eexists. split; [vm_compute; reflexivity|]. split; [intros x; cbn [m_exp steep]; destruct (SFeqb x _); vm_compute; reflexivity|].
  split; [vm_compute; reflexivity|]. vm_compute. reflexivity.
Qed.
