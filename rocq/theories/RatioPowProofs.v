(** Proofs about powers of ten, powers and roots. *)

From Coq Require Import ZArith QArith Qpower Qfield Lia Bool Znumtheory Zpow_facts.
From Verif Require Import Outcome CInt RatioMaths Pow Root Ratio SpecRatio QTen RatioMathsProofs
  RatioProofs RatioProofs2.
From Coq Require Qcanon.
Local Open Scope Z_scope.
Local Open Scope res_scope.

(** ** ipow10 *)

Lemma ipow10_loop_spec : forall n r, 1 <= r -> r * 10 ^ Z.of_nat n <= INTMAX_MAX ->
  ipow10_loop n r = Ok (r * 10 ^ Z.of_nat n).
Proof.
  induction n as [|n IH]; intros r Hr Hb.
  - cbn. f_equal; lia.
  - cbn [ipow10_loop]. rewrite Nat2Z.inj_succ, Z.pow_succ_r in * by lia.
    assert (1 <= 10 ^ Z.of_nat n) by (pose proof (Z.pow_pos_nonneg 10 (Z.of_nat n)); lia).
    unfold cmul. rewrite arith_in_range.
    + cbn [bind]. rewrite IH; [f_equal; ring|lia|]. nia.
    + apply in_range_I64. unfold INTMAX_MIN, INTMAX_MAX in *. nia.
Qed.

Lemma ipow10_loop_undef : forall n r, 1 <= r <= INTMAX_MAX -> INTMAX_MAX < r * 10 ^ Z.of_nat n ->
  ipow10_loop n r = Undef.
Proof.
  induction n as [|n IH]; intros r Hr Hb.
  - change (Z.of_nat 0) with 0 in Hb. rewrite Z.pow_0_r in Hb. lia.
  - cbn [ipow10_loop]. rewrite Nat2Z.inj_succ, Z.pow_succ_r in * by lia.
    unfold cmul, arith. cbn [isigned I64].
    destruct (in_range I64 (r * 10)) eqn:R; [|reflexivity].
    cbn [bind]. apply in_range_I64 in R. apply IH; [lia|]. lia.
Qed.

Lemma ipow10_spec : forall e,
  (0 <= e <= 18 -> ipow10 e = Ok (10 ^ e)) /\
  (18 < e -> ipow10 e = Undef) /\
  (e < 0 -> ipow10 e = Contract).
Proof.
  intros e. unfold ipow10. split; [|split]; intros H.
  - replace (0 <=? e) with true by (symmetry; apply Z.leb_le; lia). cbn [expects bind].
    rewrite ipow10_loop_spec; rewrite ?Z2Nat.id by lia; [f_equal; lia|lia|].
    assert (10 ^ e <= 10 ^ 18) by (apply Z.pow_le_mono_r; lia). unfold INTMAX_MAX. lia.
  - replace (0 <=? e) with true by (symmetry; apply Z.leb_le; lia). cbn [expects bind].
    apply ipow10_loop_undef; [unfold INTMAX_MAX; lia|]. rewrite Z2Nat.id by lia.
    assert (10 ^ 19 <= 10 ^ e) by (apply Z.pow_le_mono_r; lia). unfold INTMAX_MAX. lia.
  - replace (0 <=? e) with false by (symmetry; apply Z.leb_gt; lia). reflexivity.
Qed.

(** ** Integer powers of integers *)

Lemma sq_pow : forall v p, 0 <= p -> (v * v) ^ p = v ^ (2 * p).
Proof. intros. rewrite Z.pow_mul_r by lia. f_equal. ring. Qed.

Lemma ipow_sound : forall n v p, ipow n v = Ok p -> p = v ^ Zpos n.
Proof.
  unfold ipow. induction n as [n IH|n IH|]; intros v p H; cbn [pow_impl_pos] in H.
  - unbind. apply cmul_ok in E, H. destruct E as [-> _], H as [-> _].
    apply IH in E0. subst. rewrite sq_pow by lia.
    rewrite (Pos2Z.inj_xI n), Z.pow_add_r by lia. rewrite Z.pow_1_r. ring.
  - unbind. apply cmul_ok in E. destruct E as [-> _]. apply IH in H. subst.
    rewrite sq_pow by lia. reflexivity.
  - unbind. now rewrite Z.pow_1_r.
Qed.

Lemma pow_ge : forall a x y, 0 <= a -> 1 <= x <= y -> a ^ x <= a ^ y.
Proof.
  intros a x y Ha H. destruct (Z.eq_dec a 0) as [->|].
  - rewrite !Z.pow_0_l by lia. lia.
  - apply Z.pow_le_mono_r; lia.
Qed.

Lemma cmul_fit : forall a b, 0 <= a * b <= INTMAX_MAX -> cmul I64 a b = Ok (a * b).
Proof. intros. apply arith_in_range, in_range_I64. unfold INTMAX_MIN; lia. Qed.

Lemma ipow_complete : forall n v, 0 <= v -> v ^ Zpos n <= INTMAX_MAX -> ipow n v = Ok (v ^ Zpos n).
Proof.
  unfold ipow. induction n as [n IH|n IH|]; intros v Hv Hb; cbn [pow_impl_pos].
  - assert (B2 : v ^ 2 <= v ^ Zpos n~1) by (apply pow_ge; lia).
    assert (B3 : v ^ (2 * Zpos n) <= v ^ Zpos n~1) by (apply pow_ge; lia).
    rewrite Z.pow_2_r in B2.
    rewrite (cmul_fit v v) by nia. cbn [bind].
    rewrite IH; [|nia|rewrite sq_pow; lia]. cbn [bind]. rewrite sq_pow by lia.
    replace (v ^ Zpos n~1) with (v * v ^ (2 * Zpos n)) in *
      by (rewrite (Pos2Z.inj_xI n), Z.pow_add_r, Z.pow_1_r by lia; ring).
    assert (0 <= v ^ (2 * Zpos n)) by (apply Z.pow_nonneg; lia).
    apply cmul_fit; nia.
  - assert (B2 : v ^ 2 <= v ^ Zpos n~0) by (apply pow_ge; lia).
    rewrite Z.pow_2_r in B2.
    rewrite (cmul_fit v v) by nia. cbn [bind].
    rewrite IH; rewrite ?sq_pow by lia; auto. nia.
  - now rewrite Z.pow_1_r.
Qed.

(** ** Powers of ratios *)

Lemma Qsq_pow : forall q n, ((q * q) ^ Zpos n == q ^ Zpos n~0)%Q.
Proof.
  intros. rewrite Qmult_power. change (q ^ Zpos n~0)%Q with (Qpower_positive q (n~0)).
  rewrite <- Pos.add_diag, Qpower_plus_positive. reflexivity.
Qed.

Lemma Qpow_xI : forall q n, (q ^ Zpos n~1 == q * q ^ Zpos n~0)%Q.
Proof.
  intros. change (q ^ Zpos n~1)%Q with (Qpower_positive q (1 + n~0)).
  rewrite Qpower_plus_positive. reflexivity.
Qed.

Lemma rpow_pos_sound : forall n r p, lowest r -> rpow_pos n r = Ok p ->
  (rval p == rval r ^ Zpos n)%Q /\ lowest p /\ (storable r -> storable p).
Proof.
  unfold rpow_pos. induction n as [n IH|n IH|]; intros r p L H; cbn [pow_impl_pos] in H.
  - unbind. apply rmul_sound in E; auto. destruct E as (V & Lv & Sv).
    apply IH in E0; auto. destruct E0 as (V0 & L0 & _).
    apply rmul_sound in H; auto. destruct H as (Vp & Lp & Sp).
    split; [|auto]. rewrite Vp, V0, V, Qpow_xI, Qsq_pow. reflexivity.
  - unbind. apply rmul_sound in E; auto. destruct E as (V & Lv & Sv).
    apply IH in H; auto. destruct H as (V0 & L0 & S0).
    split; [|auto]. rewrite V0, V. apply Qsq_pow.
  - unbind. split; [|auto]. simpl. reflexivity.
Qed.

Lemma not10_pow : forall n k, n mod 10 <> 0 -> 0 <= k -> n ^ k mod 10 <> 0.
Proof.
  intros n k Hn Hk C. apply Hn. rewrite Z.mod_divide in * by lia.
  assert (D : forall p, prime p -> (p | n ^ k) -> (p | n)).
  { intros p Pp. revert k Hk C. intros k Hk _. revert k Hk.
    apply (natlike_ind (fun k => (p | n ^ k) -> (p | n))).
    - intros D. rewrite Z.pow_0_r in D. apply Z.divide_1_r in D. destruct Pp; lia.
    - intros k Hk IH D. rewrite Z.pow_succ_r in D by auto.
      apply prime_mult in D; auto. destruct D; auto. }
  assert (P5 : prime 5).
  { constructor; [lia|]. intros m Hm. apply Zgcd_1_rel_prime.
    assert (m = 1 \/ m = 2 \/ m = 3 \/ m = 4) as [->|[->|[->| ->]]] by lia; reflexivity. }
  assert (D2 : (2 | n)).
  { apply D; [apply prime_2|]. eapply Z.divide_trans; [|exact C]. exists 5; reflexivity. }
  assert (D5 : (5 | n)).
  { apply D; auto. eapply Z.divide_trans; [|exact C]. exists 2; reflexivity. }
  destruct D2 as [a Ha], D5 as [b Hb]. exists (a - 2 * b).
  lia.
Qed.

Lemma pow_lowest : forall n d e k, lowest (Ratio n d e) -> n <> 0 -> 0 < k ->
  lowest (Ratio (n ^ k) (d ^ k) (k * e)).
Proof.
  intros n d e k (P & G & Md & Z0 & Zn) Hn Hk. unfold lowest; cbn [rnum rden rexp] in *.
  repeat split.
  - apply Z.pow_pos_nonneg; lia.
  - apply Zgcd_1_rel_prime, rel_prime_Zpower; try lia. now apply Zgcd_1_rel_prime.
  - apply not10_pow; auto; lia.
  - intros C. apply Z.pow_eq_0 in C; lia.
  - intros _. apply not10_pow; auto; lia.
Qed.

Lemma abs_pow_mono : forall a x y, 1 <= x <= y -> Z.abs (a ^ x) <= Z.abs (a ^ y).
Proof. intros. rewrite !Z.abs_pow. apply pow_ge; lia. Qed.

Lemma abs_mul_mono : forall e x y, 0 <= x <= y -> Z.abs (x * e) <= Z.abs (y * e).
Proof. intros. rewrite !Z.abs_mul. nia. Qed.

(** The product of two powers of the same ratio, explicitly. *)
Lemma rmul_powers : forall n d e a b, lowest (Ratio n d e) -> n <> 0 -> 0 < a -> 0 < b ->
  Z.abs (n ^ (a + b)) <= INTMAX_MAX -> Z.abs (d ^ (a + b)) <= INTMAX_MAX ->
  Z.abs ((a + b) * e) <= INTMAX_MAX ->
  rmul (Ratio (n ^ a) (d ^ a) (a * e)) (Ratio (n ^ b) (d ^ b) (b * e))
    = Ok (Ratio (n ^ (a + b)) (d ^ (a + b)) ((a + b) * e)).
Proof.
  intros n d e a b L Hn Ha Hb Bn Bd Be.
  assert (Ra : 1 <= a <= a + b) by (clear - Ha Hb; lia).
  assert (Rb : 1 <= b <= a + b) by (clear - Ha Hb; lia).
  assert (Ra0 : 0 <= a <= a + b) by (clear - Ha Hb; lia).
  assert (Rb0 : 0 <= b <= a + b) by (clear - Ha Hb; lia).
  assert (Pab : 0 < a + b) by (clear - Ha Hb; lia).
  assert (Na0 : 0 <= a) by (clear - Ha; lia). assert (Nb0 : 0 <= b) by (clear - Hb; lia).
  pose proof (pow_lowest n d e a L Hn Ha) as La. pose proof (pow_lowest n d e b L Hn Hb) as Lb.
  pose proof (pow_lowest n d e (a + b) L Hn Pab) as Lab.
  assert (St : forall x, 1 <= x <= a + b -> storable (Ratio (n ^ x) (d ^ x) (x * e))).
  { intros x Hx. unfold storable; cbn [rnum rden rexp].
    split; [eapply Z.le_trans; [apply abs_pow_mono; exact Hx|exact Bn]|].
    split; [eapply Z.le_trans; [apply abs_pow_mono; exact Hx|exact Bd]|].
    assert (B : Z.abs (x * e) <= INTMAX_MAX).
    { eapply Z.le_trans; [apply abs_mul_mono|exact Be]. clear - Hx; lia. }
    clear - B. unfold INTMAX_MIN, INTMAX_MAX in *. lia. }
  assert (Sab : storable (Ratio (n ^ (a + b)) (d ^ (a + b)) ((a + b) * e))).
  { apply St. clear - Pab; lia. }
  rewrite rmul_unfold; auto.
  2: cbn [rden]; intros C; destruct La as (Q & _); cbn [rden] in Q; rewrite C in Q; discriminate.
  2: cbn [rden]; intros C; destruct Lb as (Q & _); cbn [rden] in Q; rewrite C in Q; discriminate.
  cbn [rnum rden rexp]. cbv zeta.
  destruct L as (P & G & _); cbn [rnum rden] in *.
  assert (Gc : forall x y, 0 < x -> 0 < y -> Z.gcd (n ^ x) (d ^ y) = 1).
  { clear - G. intros x y Hx Hy. apply Zgcd_1_rel_prime, rel_prime_Zpower; try lia. now apply Zgcd_1_rel_prime. }
  rewrite !Gc by auto. rewrite !Z.quot_1_r.
  destruct (St a Ra) as (A1 & A2 & _), (St b Rb) as (B1 & B2 & _). cbn [rnum rden] in *.
  rewrite (safe_multiply_complete (n ^ a) (n ^ b)); auto; [|rewrite <- Z.pow_add_r; auto].
  rewrite (safe_multiply_complete (d ^ a) (d ^ b)); auto; [|rewrite <- Z.pow_add_r; auto].
  cbn [bind]. rewrite <- !Z.pow_add_r by auto.
  unfold cadd. replace (a * e + b * e) with ((a + b) * e) by ring.
  rewrite arith_in_range by (apply in_range_I64; clear - Be; unfold INTMAX_MIN, INTMAX_MAX in *; lia).
  cbn [bind].
  exact (mk_ratio_lowest _ Lab Sab).
Qed.

Lemma rpow_pos_powers : forall n d e k a, lowest (Ratio n d e) -> n <> 0 -> 0 < a ->
  Z.abs (n ^ (Zpos k * a)) <= INTMAX_MAX -> Z.abs (d ^ (Zpos k * a)) <= INTMAX_MAX ->
  Z.abs (Zpos k * a * e) <= INTMAX_MAX ->
  rpow_pos k (Ratio (n ^ a) (d ^ a) (a * e))
    = Ok (Ratio (n ^ (Zpos k * a)) (d ^ (Zpos k * a)) (Zpos k * a * e)).
Proof.
  intros n d e k. unfold rpow_pos.
  induction k as [k IH|k IH|]; intros a L Hn Ha Bn Bd Be; cbn [pow_impl_pos].
  - assert (A2 : 2 * a <= Zpos k~1 * a) by (clear - Ha; nia).
    assert (A3 : Zpos k * (a + a) <= Zpos k~1 * a) by (clear - Ha; nia).
    assert (M : Zpos k~1 * a = a + Zpos k * (a + a)) by (clear; nia).
    rewrite rmul_powers; auto.
    2,3: eapply Z.le_trans; [apply abs_pow_mono|eassumption]; clear - Ha; nia.
    2: eapply Z.le_trans; [apply abs_mul_mono|eassumption]; clear - Ha; nia.
    cbn [bind]. rewrite IH; auto; [|clear - Ha; lia| | |].
    2,3: eapply Z.le_trans; [apply abs_pow_mono|eassumption]; clear - Ha; nia.
    2: eapply Z.le_trans; [apply abs_mul_mono|eassumption]; clear - Ha; nia.
    cbn [bind]. rewrite M in *. rewrite rmul_powers; auto. clear - Ha; lia.
  - assert (M : Zpos k~0 * a = Zpos k * (a + a)) by (clear; nia).
    rewrite rmul_powers; auto.
    2,3: eapply Z.le_trans; [apply abs_pow_mono|eassumption]; clear - Ha; nia.
    2: eapply Z.le_trans; [apply abs_mul_mono|eassumption]; clear - Ha; nia.
    cbn [bind]. rewrite M in *. apply IH; auto. clear - Ha; lia.
  - now rewrite Z.mul_1_l.
Qed.

Lemma rpow_pos_complete : forall n d e k, lowest (Ratio n d e) -> n <> 0 ->
  Z.abs (n ^ Zpos k) <= INTMAX_MAX -> Z.abs (d ^ Zpos k) <= INTMAX_MAX ->
  Z.abs (Zpos k * e) <= INTMAX_MAX ->
  rpow_pos k (Ratio n d e) = Ok (Ratio (n ^ Zpos k) (d ^ Zpos k) (Zpos k * e)).
Proof.
  intros n d e k L Hn Bn Bd Be.
  pose proof (rpow_pos_powers n d e k 1 L Hn ltac:(lia)) as H.
  rewrite !Z.mul_1_r, !Z.pow_1_r, Z.mul_1_l in H. auto.
Qed.

Lemma rroot_1 : forall est r, rroot est 1 r = Ok r.
Proof. reflexivity. Qed.

(** Exponents that reduce to an integer. *)
Lemma rpow_sound : forall est k Den r p, Den <> 0 -> lowest r ->
  rpow est (k * Den) Den r = Ok p ->
  (rval p == rval r ^ k)%Q /\ lowest p /\ (storable r -> storable p) /\ (k < 0 -> rnum r <> 0).
Proof.
  intros est k Den r p HD L H. unfold rpow in H. unbind. clear E.
  destruct (Z.eqb_spec (k * Den) 0) as [Z0|Z0].
  { assert (k = 0) by nia. subst. injection H as <-.
    split; [reflexivity|]. split; [apply rone_lowest|]. split; [intros; apply rone_storable|lia]. }
  destruct (Z.eqb_spec (k * Den) Den) as [Z1|Z1].
  { assert (k = 1) by nia. subst. injection H as <-. split; [simpl; reflexivity|]. split; [exact L|]. split; [auto|]. intros; lia. }
  unbind.
  repeat match goal with
         | H : cgcd _ _ = Ok _ |- _ => apply cgcd_ok in H; destruct H as (-> & _ & _)
         | H : cdiv I64 _ _ = Ok _ |- _ => apply cdiv_ok in H; destruct H as (_ & -> & _)
         | H : iabs _ = Ok _ |- _ => apply iabs_ok in H; subst
         end.
  assert (G : Z.gcd (k * Den) Den = Z.abs Den).
  { rewrite Z.gcd_comm, <- Z.gcd_abs_l. apply Z.divide_gcd_iff; [lia|].
    apply Z.divide_abs_l. exists k; reflexivity. }
  rewrite G in *.
  assert (Q1 : Z.abs (Z.quot (k * Den) (Z.abs Den)) = Z.abs k).
  { rewrite <- Z.quot_abs by lia. rewrite Z.abs_involutive, Z.abs_mul. apply Z.quot_mul; lia. }
  assert (Q2 : Z.abs (Z.quot Den (Z.abs Den)) = 1).
  { rewrite quot_same_abs by auto. destruct Den; simpl; lia. }
  rewrite Q1, Q2 in H. assert (Hk : k <> 0) by (intros ->; lia).
  destruct (Z.abs k) as [|kp|kp] eqn:Ek; try lia.
  unbind. rewrite rroot_1 in *. unbind.
  match goal with H : cmul I64 _ _ = Ok _ |- _ => apply cmul_ok in H; destruct H as [-> _] end.
  match goal with H : rpow_pos _ _ = Ok _ |- _ => apply rpow_pos_sound in H; auto; destruct H as (V & Lv & Sv) end.
  assert (Sg : k * Den * Den = k * (Den * Den)) by ring.
  assert (PD : 0 < Den * Den) by nia.
  destruct (Z.ltb_spec (k * Den * Den) 0) as [N|N].
  - assert (k < 0) by nia.
    apply rinv_sound in H; auto. destruct H as (Hn & Vi & Li & Si).
    split; [|split; [auto|split; [auto|]]].
    + rewrite Vi, V. replace k with (- Zpos kp) by lia. rewrite Qpower_opp. reflexivity.
    + intros _ Z0'. apply Hn.
      assert (Zr : (rval r == 0)%Q) by (unfold rval, frac; rewrite Z0'; unfold Qdiv; ring).
      assert (Zv : (rval v1 == 0)%Q) by (rewrite V, Zr; apply Qpower_0; lia).
      unfold rval in Zv. destruct (Z.eq_dec (rnum v1) 0); auto. exfalso.
      revert Zv. apply frac_nz; auto. destruct Lv; lia.
  - assert (0 < k) by nia. injection H as <-.
    split; [|split; [auto|split; [auto|intros; lia]]].
    rewrite V. replace k with (Zpos kp) by lia. reflexivity.
Qed.

Lemma rpow_complete : forall est k r, lowest r -> storable r -> rnum r <> 0 ->
  Z.abs k <= INTMAX_MAX ->
  Z.abs (rnum r ^ Z.abs k) <= INTMAX_MAX -> Z.abs (rden r ^ Z.abs k) <= INTMAX_MAX ->
  Z.abs (Z.abs k * rexp r) <= INTMAX_MAX ->
  exists p, rpow est k 1 r = Ok p.
Proof.
  intros est k [n d e] L St Hn Bk Bn Bd Be. cbn [rnum rden rexp] in *.
  unfold rpow. cbn [Z.eqb negb constrained bind].
  destruct (Z.eqb_spec k 0) as [|Hk]; [eexists; reflexivity|].
  destruct (Z.eqb_spec k 1) as [|Hk1]; [eexists; reflexivity|].
  rewrite cgcd_total by (auto; unfold INTMAX_MAX; lia). cbn [bind].
  rewrite Z.gcd_1_r. rewrite !cdiv_total by (auto; unfold INTMAX_MAX; lia). cbn [bind].
  rewrite !Z.quot_1_r. rewrite !iabs_total by (auto; unfold INTMAX_MAX; lia). cbn [bind].
  change (Z.abs 1) with 1.
  destruct (Z.abs k) as [|kp|kp] eqn:Ek; try lia.
  rewrite rpow_pos_complete by auto. cbn [bind]. rewrite rroot_1. cbn [bind].
  unfold cmul. rewrite Z.mul_1_r.
  rewrite arith_in_range by (apply in_range_I64; clear - Bk Ek; unfold INTMAX_MAX, INTMAX_MIN in *; lia).
  cbn [bind]. destruct (k <? 0); [|eexists; reflexivity].
  assert (L' : lowest (Ratio (n ^ Zpos kp) (d ^ Zpos kp) (Zpos kp * e))) by (apply pow_lowest; auto; lia).
  eexists. apply rinv_explicit.
  - exact L'.
  - unfold storable; cbn [rnum rden rexp]. clear - Bn Bd Be. unfold INTMAX_MAX, INTMAX_MIN in *; lia.
  - apply Z.pow_nonzero; lia.
  - clear - Be. unfold INTMAX_MAX, INTMAX_MIN in *; lia.
Qed.

(** ** Integer roots *)

Lemma floor_root_unique : forall n v x y, floor_root n v x -> floor_root n v y -> x = y.
Proof.
  intros n v x y (Hx & Lx & Ux) (Hy & Ly & Uy).
  assert (x < y + 1) by (apply (Z.pow_lt_mono_l_iff x (y + 1) (Zpos n)); lia).
  assert (y < x + 1) by (apply (Z.pow_lt_mono_l_iff y (x + 1) (Zpos n)); lia).
  lia.
Qed.

Lemma iroot_near : forall est n v x e,
  (1 < n)%positive -> 0 < v -> floor_root n v x ->
  est n v = Ok e -> Z.abs (e - x) <= 1 -> (e + 1) ^ Zpos n <= INTMAX_MAX -> e < INTMAX_MAX ->
  iroot est n v = Ok (if (e =? x - 1) && negb (x ^ Zpos n =? v) then x - 1 else x).
Proof.
  intros est n v x e Hn Hv (Hx & Lx & Ux) He Hd Hb Hm. unfold iroot.
  destruct (Pos.eqb_spec n 1); [lia|].
  replace (0 <=? v) with true by (symmetry; apply Z.leb_le; lia). cbn [expects bind].
  destruct (Z.eqb_spec v 0); [lia|]. rewrite He. cbn [bind].
  assert (X1 : 1 <= x).
  { destruct (Z.eq_dec x 0) as [->|]; [|lia]. rewrite Z.add_0_l, Z.pow_1_l in Ux; lia. }
  unfold cadd. rewrite arith_in_range by (apply in_range_I64; clear - Hm Hd X1; unfold INTMAX_MIN, INTMAX_MAX in *; lia).
  cbn [bind]. rewrite ipow_complete by lia. cbn [bind].
  assert (M : forall a b, 0 <= a -> a < b -> a ^ Zpos n < b ^ Zpos n)
    by (intros; apply Z.pow_lt_mono_l; lia).
  assert (e = x - 1 \/ e = x \/ e = x + 1) as [->|[->| ->]] by lia.
  - rewrite Z.eqb_refl. cbn [andb]. replace (x - 1 + 1) with x in * by lia.
    rewrite (Z.eqb_sym (x ^ Zpos n)). destruct (Z.eqb_spec v (x ^ Zpos n)); cbn [negb]; [reflexivity|].
    pose proof (M (x - 1) x ltac:(lia) ltac:(lia)).
    rewrite ipow_complete by lia. cbn [bind].
    destruct (Z.ltb_spec v ((x - 1) ^ Zpos n)); [lia|reflexivity].
  - destruct (Z.eqb_spec x (x - 1)); [lia|]. cbn [andb].
    destruct (Z.eqb_spec v ((x + 1) ^ Zpos n)); [lia|].
    rewrite ipow_complete by lia. cbn [bind].
    destruct (Z.ltb_spec v (x ^ Zpos n)); [lia|reflexivity].
  - destruct (Z.eqb_spec (x + 1) (x - 1)); [lia|]. cbn [andb].
    pose proof (M (x + 1) (x + 1 + 1) ltac:(lia) ltac:(lia)).
    destruct (Z.eqb_spec v ((x + 1 + 1) ^ Zpos n)); [lia|].
    rewrite ipow_complete by lia. cbn [bind].
    destruct (Z.ltb_spec v ((x + 1) ^ Zpos n)); [|lia].
    unfold csub. rewrite arith_in_range by (apply in_range_I64; clear - Hm X1; unfold INTMAX_MIN, INTMAX_MAX in *; lia).
    f_equal; lia.
Qed.

(** Perfect powers: any estimate within one gives the exact root. *)
Lemma iroot_exact : forall est n x e,
  (1 < n)%positive -> 0 <= x -> (0 < x -> est n (x ^ Zpos n) = Ok e /\
    Z.abs (e - x) <= 1 /\ (e + 1) ^ Zpos n <= INTMAX_MAX /\ e < INTMAX_MAX) ->
  iroot est n (x ^ Zpos n) = Ok x.
Proof.
  intros est n x e Hn Hx H. destruct (Z.eq_dec x 0) as [->|X0].
  - unfold iroot. destruct (Pos.eqb_spec n 1); [lia|]. rewrite Z.pow_0_l by lia. reflexivity.
  - destruct H as (He & Hd & Hb & Hm); [lia|].
    rewrite (iroot_near est n (x ^ Zpos n) x e); auto.
    + rewrite Z.eqb_refl. cbn [negb]. now rewrite andb_false_r.
    + apply Z.pow_pos_nonneg; lia.
    + repeat split; try lia. apply Z.pow_lt_mono_l; lia.
Qed.

(** The estimate for [v] is usable: within one of the true root and small enough. *)
Definition usable (est : estimate) (n : positive) (v : Z) : Prop :=
  exists x e, floor_root n v x /\ est n v = Ok e /\ Z.abs (e - x) <= 1 /\
    (e + 1) ^ Zpos n <= INTMAX_MAX /\ e < INTMAX_MAX.

Lemma usable_exact : forall est n x, (1 < n)%positive -> 0 < x -> usable est n (x ^ Zpos n) ->
  iroot est n (x ^ Zpos n) = Ok x.
Proof.
  intros est n x Hn Hx (y & e & F & E & D & B & M).
  assert (y = x).
  { eapply floor_root_unique; [exact F|]. repeat split; try lia. apply Z.pow_lt_mono_l; lia. }
  subst. apply (iroot_exact est n x e); auto; lia.
Qed.

(** ** Roots of ratios *)

(** A positive rational in lowest terms that is an n-th power has an n-th power as
    numerator and as denominator. *)
Lemma perfect_power_parts : forall n d q (k : positive), 0 < n -> 0 < d -> Z.gcd n d = 1 ->
  (0 < q)%Q -> (inject_Z n / inject_Z d == q ^ Zpos k)%Q ->
  exists a b, 0 < a /\ 0 < b /\ Z.gcd a b = 1 /\ n = a ^ Zpos k /\ d = b ^ Zpos k /\
    (q == inject_Z a / inject_Z b)%Q.
Proof.
  intros n d q k Hn Hd G Hq E.
  pose proof (Qred_correct q) as Rq. destruct (Qred q) as [a b] eqn:Eq.
  assert (Gab : Z.gcd a (Zpos b) = 1).
  { apply (proj1 (Qcanon.Qred_iff (a # b))). rewrite <- Eq. apply Qcanon.Qred_involutive. }
  assert (Qab : (q == inject_Z a / inject_Z (Zpos b))%Q) by (rewrite <- Rq; apply Qmake_Qdiv).
  assert (Pa : 0 < a).
  { rewrite <- Rq in Hq. unfold Qlt in Hq. cbn [Qnum Qden] in Hq. lia. }
  exists a, (Zpos b). split; [auto|]. split; [lia|]. split; [auto|].
  assert (X : (inject_Z n / inject_Z d == inject_Z (a ^ Zpos k) / inject_Z (Zpos b ^ Zpos k))%Q).
  { rewrite E, Qab. unfold Qdiv. rewrite Qmult_power.
    rewrite Qinv_power. rewrite !Zpower_Qpower by lia. reflexivity. }
  assert (C : n * Zpos b ^ Zpos k = a ^ Zpos k * d).
  { pose proof (Z.pow_pos_nonneg (Zpos b) (Zpos k) ltac:(lia) ltac:(lia)) as Pb.
    apply (proj1 (inject_Z_injective _ _)). rewrite !inject_Z_mult.
    assert (N1 : ~ (inject_Z d == 0)%Q) by (apply injZ_nz; lia).
    assert (N2 : ~ (inject_Z (Zpos b ^ Zpos k) == 0)%Q) by (apply injZ_nz; lia).
    transitivity (inject_Z n / inject_Z d * inject_Z d * inject_Z (Zpos b ^ Zpos k))%Q; [field; auto|].
    rewrite X. field; auto. }
  destruct (lowest_unique n d (a ^ Zpos k) (Zpos b ^ Zpos k)); auto.
  - apply Z.pow_pos_nonneg; lia.
  - apply Zgcd_1_rel_prime, rel_prime_Zpower; try lia. now apply Zgcd_1_rel_prime.
Qed.

Lemma rroot_exact : forall est (k : positive) r q, (1 < k)%positive ->
  lowest r -> storable r -> 0 < rnum r -> (Zpos k | rexp r) ->
  (0 < q)%Q -> (rval r == q ^ Zpos k)%Q ->
  usable est k (rnum r) -> usable est k (rden r) ->
  exists p, rroot est k r = Ok p /\ (rval p == q)%Q /\ lowest p /\ storable p.
Proof.
  intros est k [n d e] q Hk L St Hn [j He] Hq V Un Ud. cbn [rnum rden rexp] in *.
  pose proof L as (P & G & _); cbn [rnum rden] in *.
  set (q' := (q / (10 # 1) ^ j)%Q).
  assert (Hq' : (0 < q')%Q).
  { unfold q'. apply Qlt_shift_div_l; [apply p10_pos|]. now rewrite Qmult_0_l. }
  assert (V' : (inject_Z n / inject_Z d == q' ^ Zpos k)%Q).
  { unfold q'. rewrite Qdiv_power, <- V, <- Qpower_mult, <- He. unfold rval, frac; cbn [rnum rden rexp].
    field. split; [apply injZ_nz; lia|apply p10_nz]. }
  destruct (perfect_power_parts n d q' k Hn P G Hq' V') as (a & b & Pa & Pb & Gab & En & Ed & Q).
  subst n d.
  unfold rroot; cbn [rnum rden rexp]. destruct (Pos.eqb_spec k 1); [lia|].
  destruct (Z.eqb_spec (a ^ Zpos k) 0); [lia|].
  unfold make_exp_align; cbn [rnum rden rexp]. cbn [Z.ltb Z.compare expects bind].
  destruct St as (An & Ad & Ae); cbn [rnum rden rexp] in *.
  assert (Dj : Z.abs j <= INTMAX_MAX - 18).
  { clear - He Ae Hk. unfold INTMAX_MAX, INTMAX_MIN in *. nia. }
  assert (Ij : in_range I64 j = true)
    by (apply in_range_I64; clear - Dj; unfold INTMAX_MAX, INTMAX_MIN in *; lia).
  assert (R : crem I64 e (Zpos k) = Ok 0).
  { unfold crem. cbn [Z.eqb]. rewrite He, Z.quot_mul, Ij, Z.rem_mul by lia. reflexivity. }
  rewrite R. cbn [bind Z.eqb].
  rewrite !usable_exact by auto. cbn [bind].
  assert (D : cdiv I64 e (Zpos k) = Ok j).
  { unfold cdiv. cbn [Z.eqb]. rewrite He, Z.quot_mul by lia. apply arith_in_range, Ij. }
  rewrite D. cbn [bind].
  assert (Ba : Z.abs a <= INTMAX_MAX).
  { pose proof (abs_pow_mono a 1 (Zpos k) ltac:(lia)) as M. rewrite Z.pow_1_r in M. lia. }
  assert (Bb : Z.abs b <= INTMAX_MAX).
  { pose proof (abs_pow_mono b 1 (Zpos k) ltac:(lia)) as M. rewrite Z.pow_1_r in M. lia. }
  destruct (mk_ratio_total a b j) as [p Hp]; auto; [lia|clear - Dj; unfold INTMAX_MAX, INTMAX_MIN in *; lia|].
  exists p. split; [exact Hp|].
  pose proof (mk_ratio_sound _ _ _ _ Hp) as (_ & Vp & Lp).
  split; [|split; [exact Lp|]].
  - rewrite Vp. unfold frac. rewrite <- Q. unfold q'. field. apply p10_nz.
  - eapply mk_ratio_storable; [|exact Hp]. clear - Dj; unfold INTMAX_MAX, INTMAX_MIN in *; lia.
Qed.

Lemma rroot_sound_shape : forall est k r p, lowest r -> storable r -> rroot est k r = Ok p -> lowest p.
Proof.
  intros est k r p L St H. unfold rroot in H.
  destruct (Pos.eqb_spec k 1); [injection H as <-; auto|].
  destruct (Z.eqb_spec (rnum r) 0); [apply mk_ratio_sound in H; tauto|].
  apply bind_ok in H. destruct H as ([[a0 a1] a2] & _ & H). unbind.
  apply mk_ratio_sound in H. tauto.
Qed.

Lemma rpow_lowest : forall est Num Den r p, lowest r -> storable r ->
  rpow est Num Den r = Ok p -> lowest p.
Proof.
  intros est Num Den r p L St H. unfold rpow in H. unbind.
  destruct (Num =? 0); [apply mk_ratio_sound in H; tauto|].
  destruct (Num =? Den); [injection H as <-; auto|]. unbind.
  repeat match goal with H : context [match ?z with Z0 => _ | _ => _ end] |- _ =>
    destruct z; try discriminate end.
  unbind.
  match goal with H : rpow_pos _ _ = Ok _ |- _ =>
    apply rpow_pos_sound in H; auto; destruct H as (_ & L6 & S6) end.
  match goal with H : rroot _ _ _ = Ok _ |- _ => apply rroot_sound_shape in H; auto end.
  destruct (_ <? 0).
  - apply rinv_sound in H; tauto.
  - injection H as <-; auto.
Qed.

(** ** Everything reachable is in lowest terms *)

Lemma mk_ratio_good : forall n d e r, INTMAX_MIN <= e <= INTMAX_MAX -> mk_ratio n d e = Ok r ->
  lowest r /\ storable r.
Proof.
  intros n d e r He H. split; [apply mk_ratio_sound in H; tauto|eapply mk_ratio_storable; eauto].
Qed.

Lemma rroot_good : forall est k r p, lowest r -> storable r -> rroot est k r = Ok p ->
  lowest p /\ storable p.
Proof.
  intros est k r p L St H. unfold rroot in H.
  destruct (Pos.eqb_spec k 1); [injection H as <-; auto|].
  destruct (Z.eqb_spec (rnum r) 0).
  { eapply mk_ratio_good; [|exact H]. unfold INTMAX_MIN, INTMAX_MAX; lia. }
  apply bind_ok in H. destruct H as ([[a0 a1] a2] & _ & H). unbind.
  eapply mk_ratio_good; [|exact H].
  match goal with H : cdiv I64 _ _ = Ok _ |- _ => apply cdiv_ok in H; destruct H as (_ & -> & R) end.
  now apply in_range_I64.
Qed.

Lemma rpow_good : forall est Num Den r p, lowest r -> storable r -> rpow est Num Den r = Ok p ->
  lowest p /\ storable p.
Proof.
  intros est Num Den r p L St H. unfold rpow in H. unbind.
  destruct (Num =? 0).
  { eapply mk_ratio_good; [|exact H]. unfold INTMAX_MIN, INTMAX_MAX; lia. }
  destruct (Num =? Den); [injection H as <-; auto|]. unbind.
  repeat match goal with H : context [match ?z with Z0 => _ | _ => _ end] |- _ =>
    destruct z; try discriminate end.
  unbind.
  match goal with H : rpow_pos _ _ = Ok _ |- _ =>
    apply rpow_pos_sound in H; auto; destruct H as (_ & L6 & S6) end.
  match goal with H : rroot _ _ _ = Ok _ |- _ => apply rroot_good in H; auto; destruct H as [L7 S7] end.
  destruct (_ <? 0).
  - apply rinv_sound in H; tauto.
  - injection H as <-; auto.
Qed.

Lemma gcd_frac_exp : forall n1 d1 e1 n2 d2 e2 n d e,
  gcd_frac n1 d1 e1 n2 d2 e2 = Ok (n, d, e) -> e = e1 \/ e = e2.
Proof.
  intros n1 d1 e1 n2 d2 e2 n d e H. unfold gcd_frac in H.
  destruct (_ && _ && _); [injection H; intros; subst; auto|].
  destruct (e1 <? e2); unfold gcd_frac_ordered in H; unbind; auto.
Qed.

Lemma common_ratio_good : forall r1 r2 g, storable r1 -> storable r2 -> common_ratio r1 r2 = Ok g ->
  lowest g /\ storable g.
Proof.
  intros r1 r2 g (_ & _ & E1) (_ & _ & E2) H. unfold common_ratio in H.
  apply bind_ok in H. destruct H as ([[n d] e] & E & H).
  apply gcd_frac_exp in E. eapply mk_ratio_good; [|exact H]. destruct E; subst; auto.
Qed.

(** Ratios obtainable through the interface. *)
Inductive obtainable (est : estimate) : ratio -> Prop :=
| ob_ctor : forall n d e r, INTMAX_MIN <= e <= INTMAX_MAX -> mk_ratio n d e = Ok r -> obtainable est r
| ob_mul : forall l r p, obtainable est l -> obtainable est r -> rmul l r = Ok p -> obtainable est p
| ob_div : forall l r p, obtainable est l -> obtainable est r -> rdiv l r = Ok p -> obtainable est p
| ob_inv : forall r p, obtainable est r -> rinv r = Ok p -> obtainable est p
| ob_pow : forall n d r p, obtainable est r -> rpow est n d r = Ok p -> obtainable est p
| ob_common : forall l r p, obtainable est l -> obtainable est r -> common_ratio l r = Ok p -> obtainable est p.

Lemma obtainable_good : forall est r, obtainable est r -> lowest r /\ storable r.
Proof.
  intros est r H; induction H.
  - eapply mk_ratio_good; eauto.
  - destruct IHobtainable1, IHobtainable2. apply rmul_sound in H1; tauto.
  - destruct IHobtainable1, IHobtainable2. apply rdiv_sound in H1; tauto.
  - destruct IHobtainable. apply rinv_sound in H0; tauto.
  - destruct IHobtainable. eapply rpow_good; eauto.
  - destruct IHobtainable1, IHobtainable2. eapply common_ratio_good; [| |exact H1]; auto.
Qed.

(** ** Associativity by value *)

Lemma rmul_assoc_value : forall a b c ab bc x y, lowest a -> lowest b -> lowest c ->
  rmul a b = Ok ab -> rmul ab c = Ok x -> rmul b c = Ok bc -> rmul a bc = Ok y ->
  (rval x == rval y)%Q.
Proof.
  intros a b c ab bc x y La Lb Lc H1 H2 H3 H4.
  apply rmul_sound in H1; auto. destruct H1 as (V1 & L1 & _).
  apply rmul_sound in H3; auto. destruct H3 as (V3 & L3 & _).
  apply rmul_sound in H2; auto. destruct H2 as (V2 & _).
  apply rmul_sound in H4; auto. destruct H4 as (V4 & _).
  rewrite V2, V4, V1, V3. ring.
Qed.

Lemma multiple_trans : forall a b c, multiple_of a b -> multiple_of b c -> multiple_of a c.
Proof.
  intros a b c [x Hx] [y Hy]. exists (x * y). rewrite Hx, Hy, inject_Z_mult. ring.
Qed.

Lemma common_ratio_assoc_value : forall a b c ab bc x y,
  lowest a -> lowest b -> lowest c -> storable a -> storable b -> storable c ->
  0 < rnum a -> 0 < rnum b -> 0 < rnum c ->
  common_ratio a b = Ok ab -> common_ratio ab c = Ok x ->
  common_ratio b c = Ok bc -> common_ratio a bc = Ok y ->
  (rval x == rval y)%Q.
Proof.
  intros a b c ab bc x y La Lb Lc Sa Sb Sc Pa Pb Pc H1 H2 H3 H4.
  assert (Pos : forall r, lowest r -> (0 < rval r)%Q -> 0 < rnum r).
  { intros r (P & _) V. unfold rval in V. destruct (Z_lt_le_dec 0 (rnum r)) as [|N]; auto. exfalso.
    apply (Qlt_not_le _ _ V). unfold frac.
    rewrite <- (Qmult_0_l ((10 # 1) ^ rexp r)). apply Qmult_le_compat_r; [|apply Qlt_le_weak, p10_pos].
    apply Qle_shift_div_r; [change 0%Q with (inject_Z 0); now rewrite <- Zlt_Qlt|].
    rewrite Qmult_0_l. change 0%Q with (inject_Z 0). now rewrite <- Zle_Qle. }
  apply common_ratio_sound in H1; auto. destruct H1 as (Lab & Sab & Pab & Gab).
  apply common_ratio_sound in H3; auto. destruct H3 as (Lbc & Sbc & Pbc & Gbc).
  apply common_ratio_sound in H2; auto. destruct H2 as (Lx & Sx & Px & Gx).
  apply common_ratio_sound in H4; auto. destruct H4 as (Ly & Sy & Py & Gy).
  destruct Gab as (A1 & A2 & A3), Gbc as (B1 & B2 & B3), Gx as (X1 & X2 & X3), Gy as (Y1 & Y2 & Y3).
  apply (rational_gcd_unique (rval ab) (rval c)); auto; [repeat split; auto|].
  split; [|split].
  - apply A3; auto. exact (multiple_trans _ _ _ B1 Y2).
  - exact (multiple_trans _ _ _ B2 Y2).
  - intros q Q1 Q2. apply Y3.
    + exact (multiple_trans _ _ _ A1 Q1).
    + apply B3; auto. exact (multiple_trans _ _ _ A2 Q1).
Qed.

(** ** Outcomes of the guarded product *)

Lemma safe_multiply_refuses : forall a b, Z.abs a <= INTMAX_MAX -> Z.abs b <= INTMAX_MAX ->
  INTMAX_MAX < Z.abs (a * b) -> safe_multiply a b = Contract \/ safe_multiply a b = Undef.
Proof.
  intros a b Ha Hb H. destruct (safe_multiply a b) eqn:E; auto; exfalso.
  1: apply safe_multiply_sound in E; lia.
  all: revert E; unfold safe_multiply; rewrite !iabs_total by auto; cbn [bind];
    unfold cmul, cadd, csub, arith; cbn [isigned I64];
    repeat (match goal with
            | |- context [expects ?b] => destruct b
            | |- context [if ?b then _ else _] => destruct b
            end; cbn [expects bind]); discriminate.
Qed.

(** ** The root of any positive ratio, when the estimate is the floor or one more *)

Lemma iroot_floor : forall est n v x e p, (1 < n)%positive -> 0 < v -> floor_root n v x ->
  est n v = Ok e -> x <= e <= x + 1 -> iroot est n v = Ok p -> p = x.
Proof.
  intros est n v x e p Hn Hv (Hx & Lx & Ux) He Hd H. unfold iroot in H.
  destruct (Pos.eqb_spec n 1); [lia|]. step H as u0 E0. destruct (Z.eqb_spec v 0); [lia|].
  rewrite He in H. cbn [bind] in H. step H as u1 E1. step H as u2 E2.
  apply cadd_ok in E1 as [-> _]. apply ipow_sound in E2. subst u2.
  assert (M : (x + 1) ^ Zpos n <= (e + 1) ^ Zpos n) by (apply Z.pow_le_mono_l; lia).
  destruct (Z.eqb_spec v ((e + 1) ^ Zpos n)); [lia|]. step H as u3 E3.
  apply ipow_sound in E3. subst u3.
  destruct (Z.eq_dec e x) as [->|N].
  - destruct (Z.ltb_spec v (x ^ Zpos n)); [lia|]. now inversion H.
  - assert (e = x + 1) by lia. subst e. destruct (Z.ltb_spec v ((x + 1) ^ Zpos n)); [|lia].
    apply csub_ok in H as [-> _]. lia.
Qed.

Lemma make_exp_align_spec : forall r k n d e, (0 < k) -> make_exp_align r k = Ok (n, d, e) ->
  exists a b, 0 <= a < k /\ 0 <= b < k /\ (a = 0 \/ b = 0) /\ n = rnum r * 10 ^ a /\ d = rden r * 10 ^ b /\
    e = k * Z.quot (rexp r) k /\ rexp r = e + a - b.
Proof.
  intros r k n d e Hk H. unfold make_exp_align in H. unbind.
  apply crem_ok in E0 as [_ ->]. pose proof (Z.quot_rem' (rexp r) k) as QR.
  destruct (Z.eqb_spec (Z.rem (rexp r) k) 0) as [R|R].
  - inversion H; subst. exists 0, 0. rewrite !Z.pow_0_r, !Z.mul_1_r. lia.
  - destruct (Z.ltb_spec 0 (rexp r)) as [P|P].
    + step H as v0 E0. step H as v1 E1. step H as v2 E2. inversion H; subst n d e. apply cmul_ok in E1 as [-> _]. apply csub_ok in E2 as [-> _].
      pose proof (Z.rem_bound_pos (rexp r) k ltac:(lia) ltac:(lia)) as B.
      exists (Z.rem (rexp r) k), 0. destruct (ipow10_spec (Z.rem (rexp r) k)) as (A1 & A2 & A3).
      assert (v0 = 10 ^ Z.rem (rexp r) k).
      { destruct (Z_le_gt_dec (Z.rem (rexp r) k) 18); [|rewrite A2 in E0 by lia; discriminate].
        rewrite A1 in E0 by lia. now inversion E0. }
      subst v0. rewrite Z.pow_0_r, Z.mul_1_r. lia.
    + step H as v0 E0. step H as v1 E1. step H as v2 E2. step H as v3 E3. inversion H; subst n d e. apply cneg_ok in E0 as [-> _]. apply cmul_ok in E2 as [-> _].
      apply csub_ok in E3 as [-> _].
      assert (B : 0 <= - Z.rem (rexp r) k < k).
      { rewrite <- Z.rem_opp_l by lia. apply Z.rem_bound_pos; lia. }
      exists 0, (- Z.rem (rexp r) k). destruct (ipow10_spec (- Z.rem (rexp r) k)) as (A1 & A2 & A3).
      assert (v1 = 10 ^ (- Z.rem (rexp r) k)).
      { destruct (Z_le_gt_dec (- Z.rem (rexp r) k) 18); [|rewrite A2 in E1 by lia; discriminate].
        rewrite A1 in E1 by lia. now inversion E1. }
      subst v1. rewrite Z.pow_0_r, Z.mul_1_r. lia.
Qed.

Lemma rroot_rounds : forall est (k : positive) r p, (1 < k)%positive -> lowest r -> 0 < rnum r ->
  (forall v, 0 < v -> exists x e, floor_root k v x /\ est k v = Ok e /\ x <= e <= x + 1) ->
  rroot est k r = Ok p ->
  exists a b x y, 0 <= a < Zpos k /\ 0 <= b < Zpos k /\ (a = 0 \/ b = 0) /\
    rexp r = Zpos k * Z.quot (rexp r) (Zpos k) + a - b /\
    floor_root k (rnum r * 10 ^ a) x /\ floor_root k (rden r * 10 ^ b) y /\
    (rval p == frac x y (Z.quot (rexp r) (Zpos k)))%Q.
Proof.
  intros est k r p Hk (D & _) N Hest H. unfold rroot in H.
  destruct (Pos.eqb_spec k 1); [lia|]. destruct (Z.eqb_spec (rnum r) 0); [lia|].
  apply bind_ok in H. destruct H as ([[a0 a1] a2] & Al & H). unbind.
  destruct (make_exp_align_spec _ _ _ _ _ (Pos2Z.is_pos k) Al) as (a & b & Ba & Bb & AB & -> & -> & -> & Ex).
  assert (Pa : 0 < rnum r * 10 ^ a) by (apply Z.mul_pos_pos; [lia|apply Z.pow_pos_nonneg; lia]).
  assert (Pb : 0 < rden r * 10 ^ b) by (apply Z.mul_pos_pos; [lia|apply Z.pow_pos_nonneg; lia]).
  destruct (Hest _ Pa) as (x & e1 & F1 & E1' & B1). destruct (Hest _ Pb) as (y & e2 & F2 & E2' & B2).
  apply (iroot_floor _ _ _ _ _ _ Hk Pa F1 E1' B1) in E. apply (iroot_floor _ _ _ _ _ _ Hk Pb F2 E2' B2) in E0.
  subst v v0. apply cdiv_ok in E1 as (_ & -> & _).
  exists a, b, x, y. repeat (split; [assumption|]). apply mk_ratio_sound in H as (_ & V & _).
  rewrite V. rewrite Z.mul_comm, Z.quot_mul by lia. reflexivity.
Qed.
