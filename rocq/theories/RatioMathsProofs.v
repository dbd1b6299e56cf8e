(** Proofs about [RatioMaths]: modular arithmetic, gcd, normalisation, guarded
    multiplication. *)

From Coq Require Import ZArith Lia Bool Znumtheory Zpow_facts.
From Verif Require Import Outcome CInt RatioMaths.
Local Open Scope Z_scope.
Local Open Scope res_scope.

Ltac Zify.zify_post_hook ::= idtac.

(** ** Modular multiplication *)

Lemma u64_small : forall z, 0 <= z < 2 ^ 64 -> u64 z = z.
Proof. intros; unfold u64; apply Z.mod_small; auto. Qed.

Lemma u64_eq : forall z k, 0 <= k < 2 ^ 64 -> (exists q, z = k + q * 2 ^ 64) -> u64 z = k.
Proof. intros z k Hk [q ->]; unfold u64. rewrite Z_mod_plus_full, Z.mod_small; auto. Qed.

Lemma mulmod_acc_spec : forall acc b m, 0 < m < 2 ^ 64 -> 0 <= acc < m -> 0 <= b < m ->
  mulmod_acc acc b m = (acc + b) mod m.
Proof.
  intros acc b m Hm Ha Hb. unfold mulmod_acc.
  rewrite (u64_small (m - acc)) by lia.
  destruct (Z.leb_spec (m - acc) b).
  - replace ((acc + b) mod m) with (acc + b - m)
      by (apply (Z.mod_unique_pos _ _ 1); lia).
    assert (0 <= acc + b - m < m) by lia.
    rewrite (u64_eq (acc - m) (acc - m + 2 ^ 64)); [|lia|exists (-1); lia].
    apply u64_eq; [lia|]. exists 1; lia.
  - rewrite Z.mod_small by lia. apply u64_small; lia.
Qed.

Lemma mulmod_dbl_spec : forall b m, 0 < m < 2 ^ 64 -> 0 <= b < m ->
  mulmod_dbl b m = (2 * b) mod m.
Proof.
  intros b m Hm Hb. unfold mulmod_dbl.
  rewrite (u64_small (m - b)) by lia.
  destruct (Z.leb_spec (m - b) b).
  - replace ((2 * b) mod m) with (2 * b - m)
      by (apply (Z.mod_unique_pos _ _ 1); lia).
    rewrite (u64_eq (b - m) (b - m + 2 ^ 64)); [|lia|exists (-1); lia].
    apply u64_eq; [lia|]. exists 1; lia.
  - rewrite Z.mod_small by lia. rewrite u64_small; lia.
Qed.

Lemma mulmod_loop_spec : forall a b acc m, 0 < m < 2 ^ 64 -> 0 <= acc < m -> 0 <= b < m ->
  mulmod_loop a b acc m = (acc + Zpos a * b) mod m.
Proof.
  induction a as [a IH|a IH|]; intros b acc m Hm Ha Hb; cbn [mulmod_loop].
  - rewrite mulmod_dbl_spec, mulmod_acc_spec by auto.
    rewrite IH by (auto; apply Z.mod_pos_bound; lia).
    rewrite Z.add_mod_idemp_l by lia.
    rewrite <- Z.add_mod_idemp_r, Z.mul_mod_idemp_r, Z.add_mod_idemp_r by lia.
    f_equal. lia.
  - rewrite mulmod_dbl_spec by auto.
    rewrite IH by (auto; apply Z.mod_pos_bound; lia).
    rewrite <- Z.add_mod_idemp_r, Z.mul_mod_idemp_r, Z.add_mod_idemp_r by lia. f_equal. lia.
  - rewrite mulmod_acc_spec by auto. f_equal; lia.
Qed.

(** [mulmod] is multiplication modulo [m] for all uint64 arguments, m > 0. *)
Lemma mulmod_spec : forall a b m, 0 <= a < 2 ^ 64 -> 0 <= b < 2 ^ 64 -> 0 < m < 2 ^ 64 ->
  mulmod a b m = Ok ((a * b) mod m).
Proof.
  intros a b m Ha Hb Hm. unfold mulmod.
  assert (Hb' : exists b', (if m <=? b then
           (if (2 ^ 64 - 1) / 2 <? m then Ok (u64 (b - m))
            else if m =? 0 then Undef else Ok (b mod m))
         else Ok b) = Ok b' /\ b' = b mod m).
  { destruct (Z.leb_spec m b).
    - destruct (Z.ltb_spec ((2 ^ 64 - 1) / 2) m) as [L|L].
      + change ((2 ^ 64 - 1) / 2) with 9223372036854775807 in L.
        eexists; split; [reflexivity|].
        rewrite u64_small by lia.
        apply (Z.mod_unique_pos _ _ 1); lia.
      + destruct (Z.eqb_spec m 0); [lia|]. eauto.
    - eexists; split; [reflexivity|]. symmetry; apply Z.mod_small; lia. }
  destruct Hb' as (b' & -> & ->). cbn [bind].
  pose proof (Z.mod_pos_bound b m (proj1 Hm)).
  destruct a as [|p|p]; [|..]; try lia.
  - rewrite Z.mul_0_l, Z.mod_0_l by lia; reflexivity.
  - rewrite mulmod_loop_spec by lia.
    rewrite Z.add_0_l, Z.mul_mod_idemp_r by lia. reflexivity.
Qed.

Lemma mulmod_zero_modulus : forall a b, 0 <= b < 2 ^ 64 -> mulmod a b 0 = Undef.
Proof.
  intros a b Hb. unfold mulmod.
  destruct (Z.leb_spec 0 b); [|lia].
  replace ((2 ^ 64 - 1) / 2 <? 0) with false by (symmetry; reflexivity).
  reflexivity.
Qed.

(** ** Modular power *)

Lemma modpow_loop_spec : forall e a r m, 0 < m < 2 ^ 64 -> 0 <= a < 2 ^ 64 -> 0 <= r < 2 ^ 64 ->
  modpow_loop e a r m = Ok ((r * a ^ Zpos e) mod m).
Proof.
  induction e as [e IH|e IH|]; intros a r m Hm Ha Hr; cbn [modpow_loop].
  - rewrite !mulmod_spec by lia. cbn [bind].
    pose proof (Z.mod_pos_bound (r * a) m (proj1 Hm)).
    pose proof (Z.mod_pos_bound (a * a) m (proj1 Hm)).
    rewrite IH by lia. f_equal.
    replace (Zpos e~1) with (1 + (Zpos e + Zpos e)) by lia.
    rewrite !Z.pow_add_r by lia. rewrite Z.pow_1_r.
    rewrite <- Z.mul_mod_idemp_r by lia.
    rewrite <- (Zpower_mod (a * a)) by lia.
    rewrite Z.pow_mul_l. rewrite Z.mul_mod_idemp_r by lia.
    rewrite Z.mul_mod_idemp_l by lia. f_equal. ring.
  - rewrite !mulmod_spec by lia. cbn [bind].
    pose proof (Z.mod_pos_bound (a * a) m (proj1 Hm)).
    rewrite IH by lia. f_equal.
    replace (Zpos e~0) with (Zpos e + Zpos e) by lia.
    rewrite !Z.pow_add_r by lia.
    rewrite <- Z.mul_mod_idemp_r by lia.
    rewrite <- (Zpower_mod (a * a)) by lia.
    rewrite Z.pow_mul_l. rewrite Z.mul_mod_idemp_r by lia. reflexivity.
  - rewrite !mulmod_spec by lia. cbn [bind]. rewrite Z.pow_1_r. reflexivity.
Qed.

(** [modpow] is the power modulo [m]; for e = 0 it returns 1 even if m = 1. *)
Lemma modpow_spec : forall a e m, 0 <= a < 2 ^ 64 -> 0 <= e < 2 ^ 64 -> 0 < m < 2 ^ 64 ->
  modpow a e m = Ok (if e =? 0 then 1 else (a ^ e) mod m).
Proof.
  intros a e m Ha He Hm. unfold modpow.
  destruct (Z.eqb_spec m 0); [lia|].
  pose proof (Z.mod_pos_bound a m (proj1 Hm)).
  destruct e as [|e|e]; try lia.
  - reflexivity.
  - rewrite modpow_loop_spec by lia. cbn [Z.eqb]. f_equal.
    rewrite Z.mul_1_l. rewrite <- Zpower_mod by lia. reflexivity.
Qed.

Lemma modpow_cong : forall a e m, 0 <= a < 2 ^ 64 -> 0 <= e < 2 ^ 64 -> 0 < m < 2 ^ 64 ->
  exists p, modpow a e m = Ok p /\ 0 <= p < 2 ^ 64 /\ p mod m = (a ^ e) mod m.
Proof.
  intros a e m Ha He Hm. rewrite modpow_spec by auto.
  destruct (Z.eqb_spec e 0).
  - subst. eexists; split; [reflexivity|]. split; [lia|]. reflexivity.
  - eexists; split; [reflexivity|].
    pose proof (Z.mod_pos_bound (a ^ e) m (proj1 Hm)).
    split; [lia|]. apply Z.mod_mod; lia.
Qed.

(** ** gcdpow *)

Lemma gcdpow_spec : forall a e b, 0 < a <= INTMAX_MAX -> 0 <= e <= INTMAX_MAX ->
  0 < b <= INTMAX_MAX -> gcdpow a e b = Ok (Z.gcd (a * 10 ^ e) b).
Proof.
  unfold INTMAX_MAX. intros a e b Ha He Hb. unfold gcdpow.
  replace (0 <? a) with true by (symmetry; apply Z.ltb_lt; lia).
  replace (0 <=? e) with true by (symmetry; apply Z.leb_le; lia).
  replace (0 <? b) with true by (symmetry; apply Z.ltb_lt; lia).
  cbn [expects bind].
  unfold crem. destruct (Z.eqb_spec b 0); [lia|].
  assert (Hq : 0 <= Z.quot a b <= a).
  { rewrite Z.quot_div_nonneg by lia. split; [apply Z.div_pos; lia|].
    apply Z.div_le_upper_bound; nia. }
  replace (in_range I64 (Z.quot a b)) with true
    by (symmetry; apply in_range_I64; unfold INTMAX_MIN, INTMAX_MAX; lia).
  cbn [negb andb isigned I64 bind].
  rewrite Z.rem_mod_nonneg by lia.
  pose proof (Z.mod_pos_bound a b (proj1 Hb)).
  assert (WU : forall z, 0 <= z < 2 ^ 63 -> wrap U64 z = z).
  { intros z Hz; apply wrap_id, in_range_spec. change (imin U64) with 0.
    change (imax U64) with (2 ^ 64 - 1). lia. }
  rewrite !WU by lia.
  destruct (modpow_cong 10 e b) as (p & -> & Hp & Ep); [lia|lia|lia|].
  cbn [bind]. rewrite mulmod_spec by lia. cbn [bind].
  assert (Hx : (a mod b * p) mod b = (a * 10 ^ e) mod b).
  { rewrite Z.mul_mod_idemp_l by lia. rewrite <- Z.mul_mod_idemp_r by lia.
    rewrite Ep. rewrite Z.mul_mod_idemp_r by lia. reflexivity. }
  rewrite Hx.
  pose proof (Z.mod_pos_bound (a * 10 ^ e) b (proj1 Hb)).
  rewrite wrap_id by (apply in_range_I64; unfold INTMAX_MIN, INTMAX_MAX; lia).
  unfold cgcd. rewrite !Z.abs_eq by lia.
  replace (in_range I64 b) with true
    by (symmetry; apply in_range_I64; unfold INTMAX_MIN, INTMAX_MAX; lia).
  replace (in_range I64 ((a * 10 ^ e) mod b)) with true
    by (symmetry; apply in_range_I64; unfold INTMAX_MIN, INTMAX_MAX; lia).
  cbn [andb]. f_equal.
  rewrite Z.gcd_comm. rewrite Z.gcd_mod by lia. apply Z.gcd_comm.
Qed.

Lemma gcdpow_ok : forall a e b g, gcdpow a e b = Ok g -> 0 < a /\ 0 <= e /\ 0 < b.
Proof.
  intros a e b g H. unfold gcdpow in H. inv_ok.
  repeat match goal with
         | H : (_ <? _) = true |- _ => apply Z.ltb_lt in H
         | H : (_ <=? _) = true |- _ => apply Z.leb_le in H end. lia.
Qed.

(** ** Stripping factors of ten *)

Lemma rem10_mod : forall z, (Z.rem z 10 = 0) <-> (z mod 10 = 0).
Proof.
  intros z. rewrite Z.rem_divide, Z.mod_divide by lia. tauto.
Qed.

Lemma quot_exact : forall a b, b <> 0 -> (b | a) -> Z.quot a b * b = a.
Proof.
  intros a b Hb [k ->]. rewrite Z.quot_mul by auto. reflexivity.
Qed.

(** [n] is [n'] followed by [k] decimal zeros. *)
Definition zeros (n n' k : Z) : Prop := 0 <= k /\ n = n' * 10 ^ k.

Lemma strip_num_sound : forall fuel n e n' e',
  strip_num fuel n e = Ok (n', e') ->
  zeros n n' (e' - e) /\ n' mod 10 <> 0 /\
  (e' = e \/ (in_range I64 e' = true)).
Proof.
  induction fuel as [|f IH]; intros n e n' e' H; cbn [strip_num] in H; [discriminate|].
  destruct (Z.eqb_spec (Z.rem n 10) 0) as [E|E].
  - inv_ok. apply cadd_ok in E0. destruct E0 as [-> R].
    apply IH in K. destruct K as ((Hk & Hn) & Hm & Hr).
    apply rem10_mod in E. rewrite Z.mod_divide in E by lia.
    repeat split; [lia| |auto|].
    + rewrite <- (quot_exact n 10) by (auto; lia). rewrite Hn.
      replace (e' - e) with (e' - (e + 1) + 1) by lia.
      rewrite Z.pow_add_r, Z.pow_1_r by lia. ring.
    + destruct Hr as [->|Hr]; auto.
  - inv_ok. repeat split; [lia| | |auto].
    + rewrite Z.sub_diag. ring.
    + intros C; apply E, rem10_mod, C.
Qed.

Lemma strip_den_sound : forall fuel n e n' e',
  strip_den fuel n e = Ok (n', e') ->
  zeros n n' (e - e') /\ n' mod 10 <> 0 /\
  (e' = e \/ (in_range I64 e' = true)).
Proof.
  induction fuel as [|f IH]; intros n e n' e' H; cbn [strip_den] in H; [discriminate|].
  destruct (Z.eqb_spec (Z.rem n 10) 0) as [E|E].
  - inv_ok. apply csub_ok in E0. destruct E0 as [-> R].
    apply IH in K. destruct K as ((Hk & Hn) & Hm & Hr).
    apply rem10_mod in E. rewrite Z.mod_divide in E by lia.
    repeat split; [lia| |auto|].
    + rewrite <- (quot_exact n 10) by (auto; lia). rewrite Hn.
      replace (e - e') with (e - 1 - e' + 1) by lia.
      rewrite Z.pow_add_r, Z.pow_1_r by lia. ring.
    + destruct Hr as [->|Hr]; auto.
  - inv_ok. repeat split; [lia| | |auto].
    + rewrite Z.sub_diag. ring.
    + intros C; apply E, rem10_mod, C.
Qed.

(** Enough fuel: a number with |n| < 10^k has fewer than k zeros. *)
Lemma strip_num_total : forall fuel n e, n <> 0 -> Z.abs n < 10 ^ Z.of_nat fuel ->
  INTMAX_MIN <= e -> e + Z.of_nat fuel <= INTMAX_MAX + 1 ->
  exists n' e', strip_num fuel n e = Ok (n', e').
Proof.
  induction fuel as [|f IH]; intros n e Hn Hb He1 He2.
  - cbn in Hb. lia.
  - cbn [strip_num]. destruct (Z.eqb_spec (Z.rem n 10) 0) as [E|E]; [|eauto].
    apply rem10_mod in E. rewrite Z.mod_divide in E by lia.
    pose proof (quot_exact n 10 ltac:(lia) E) as Q.
    set (q := Z.quot n 10) in *.
    assert (q <> 0) by lia.
    assert (Z.abs q < 10 ^ Z.of_nat f).
    { rewrite Nat2Z.inj_succ, Z.pow_succ_r in Hb by lia. lia. }
    assert (f <> 0)%nat.
    { intros ->. cbn in H0. lia. }
    unfold cadd. rewrite arith_in_range by (apply in_range_I64; lia).
    cbn [bind]. apply IH; lia.
Qed.

Lemma strip_den_total : forall fuel n e, n <> 0 -> Z.abs n < 10 ^ Z.of_nat fuel ->
  e <= INTMAX_MAX -> INTMAX_MIN <= e - Z.of_nat fuel + 1 ->
  exists n' e', strip_den fuel n e = Ok (n', e').
Proof.
  induction fuel as [|f IH]; intros n e Hn Hb He1 He2.
  - cbn in Hb. lia.
  - cbn [strip_den]. destruct (Z.eqb_spec (Z.rem n 10) 0) as [E|E]; [|eauto].
    apply rem10_mod in E. rewrite Z.mod_divide in E by lia.
    pose proof (quot_exact n 10 ltac:(lia) E) as Q.
    set (q := Z.quot n 10) in *.
    assert (q <> 0) by lia.
    assert (Z.abs q < 10 ^ Z.of_nat f).
    { rewrite Nat2Z.inj_succ, Z.pow_succ_r in Hb by lia. lia. }
    assert (f <> 0)%nat.
    { intros ->. cbn in H0. lia. }
    unfold csub. rewrite arith_in_range by (apply in_range_I64; lia).
    cbn [bind]. apply IH; lia.
Qed.

(** More fuel gives the same answer, so the fuel of the model is immaterial. *)
Lemma strip_num_mono : forall fuel fuel' n e v, strip_num fuel n e = Ok v ->
  (fuel <= fuel')%nat -> strip_num fuel' n e = Ok v.
Proof.
  induction fuel as [|f IH]; intros fuel' n e v H L; cbn [strip_num] in H; [discriminate|].
  destruct fuel' as [|f']; [lia|]. cbn [strip_num].
  destruct (Z.rem n 10 =? 0); [|auto].
  destruct (cadd I64 e 1); cbn [bind] in *; try discriminate.
  eapply IH; eauto; lia.
Qed.

Lemma strip_den_mono : forall fuel fuel' n e v, strip_den fuel n e = Ok v ->
  (fuel <= fuel')%nat -> strip_den fuel' n e = Ok v.
Proof.
  induction fuel as [|f IH]; intros fuel' n e v H L; cbn [strip_den] in H; [discriminate|].
  destruct fuel' as [|f']; [lia|]. cbn [strip_den].
  destruct (Z.rem n 10 =? 0); [|auto].
  destruct (csub I64 e 1); cbn [bind] in *; try discriminate.
  eapply IH; eauto; lia.
Qed.

(** Never [Stuck], whatever happens to the exponent. *)
Lemma strip_num_not_stuck : forall fuel n e, n <> 0 -> Z.abs n < 10 ^ Z.of_nat fuel ->
  strip_num fuel n e <> Stuck.
Proof.
  induction fuel as [|f IH]; intros n e Hn Hb.
  - cbn in Hb. lia.
  - cbn [strip_num]. destruct (Z.eqb_spec (Z.rem n 10) 0) as [E|E]; [|discriminate].
    apply rem10_mod in E. rewrite Z.mod_divide in E by lia.
    pose proof (quot_exact n 10 ltac:(lia) E) as Q.
    set (q := Z.quot n 10) in *.
    assert (Z.abs q < 10 ^ Z.of_nat f).
    { rewrite Nat2Z.inj_succ, Z.pow_succ_r in Hb by lia. lia. }
    unfold cadd, arith; cbn [isigned I64].
    destruct (in_range I64 (e + 1)); cbn [bind]; [|discriminate].
    apply IH; lia.
Qed.

Lemma strip_den_not_stuck : forall fuel n e, n <> 0 -> Z.abs n < 10 ^ Z.of_nat fuel ->
  strip_den fuel n e <> Stuck.
Proof.
  induction fuel as [|f IH]; intros n e Hn Hb.
  - cbn in Hb. lia.
  - cbn [strip_den]. destruct (Z.eqb_spec (Z.rem n 10) 0) as [E|E]; [|discriminate].
    apply rem10_mod in E. rewrite Z.mod_divide in E by lia.
    pose proof (quot_exact n 10 ltac:(lia) E) as Q.
    set (q := Z.quot n 10) in *.
    assert (Z.abs q < 10 ^ Z.of_nat f).
    { rewrite Nat2Z.inj_succ, Z.pow_succ_r in Hb by lia. lia. }
    unfold csub, arith; cbn [isigned I64].
    destruct (in_range I64 (e - 1)); cbn [bind]; [|discriminate].
    apply IH; lia.
Qed.

(** ** iabs *)

Lemma iabs_ok : forall v a, iabs v = Ok a -> a = Z.abs v.
Proof.
  intros v a; unfold iabs. destruct (Z.ltb_spec v 0); intros H0.
  - apply cneg_ok in H0. lia.
  - inv_ok. lia.
Qed.

Lemma iabs_total : forall v, Z.abs v <= INTMAX_MAX -> iabs v = Ok (Z.abs v).
Proof.
  intros v H; unfold iabs. destruct (Z.ltb_spec v 0).
  - unfold cneg. rewrite arith_in_range. f_equal; lia.
    apply in_range_I64. unfold INTMAX_MIN, INTMAX_MAX in *; lia.
  - f_equal; lia.
Qed.

(** ** safe_multiply *)

Lemma safe_multiply_sound : forall a b p, safe_multiply a b = Ok p -> p = a * b /\ Z.abs p <= INTMAX_MAX.
Proof.
  intros a b p H. unfold safe_multiply in H. inv_ok.
  apply iabs_ok in E, E0.
  match goal with K : cmul I64 a b = Ok p |- _ => apply cmul_ok in K; destruct K as [-> R] end.
  split; auto.
  apply in_range_I64 in R. unfold INTMAX_MIN, INTMAX_MAX in *.
  (* the only excluded value is INTMAX_MIN itself *)
  destruct (Z.eq_dec (a * b) (- 2 ^ 63)) as [C|C]; [|lia].
  exfalso.
  repeat match goal with
         | H : cmul I64 _ _ = Ok _ |- _ => apply cmul_ok in H; destruct H as [? ?]
         | H : cadd I64 _ _ = Ok _ |- _ => apply cadd_ok in H; destruct H as [? ?]
         | H : csub I64 _ _ = Ok _ |- _ => apply csub_ok in H; destruct H as [? ?]
         end. subst.
  set (c := 2 ^ 32) in *.
  pose proof (Z.quot_rem' (Z.abs a) c). pose proof (Z.quot_rem' (Z.abs b) c).
  rewrite !Z.leb_le in *.
  assert (Z.abs a * Z.abs b = 2 ^ 63) by (rewrite <- Z.abs_mul, C; reflexivity).
  assert (Z.quot (Z.abs a) c = 0 \/ Z.quot (Z.abs b) c = 0).
  { match goal with H : (_ =? 0) || (_ =? 0) = true |- _ =>
      apply orb_true_iff in H; rewrite !Z.eqb_eq in H; exact H end. }
  nia.
Qed.

(** Acceptance: if both operands are representable with their opposites, the
    product too, and the low words do not overflow, the product is returned. *)
Lemma safe_multiply_complete : forall a b,
  Z.abs a <= INTMAX_MAX -> Z.abs b <= INTMAX_MAX -> Z.abs (a * b) <= INTMAX_MAX ->
  safe_multiply a b = Ok (a * b).
Proof.
  intros a b Ha Hb Hp. unfold safe_multiply.
  rewrite !iabs_total by auto. unfold INTMAX_MAX in *. cbn [bind].
  rewrite Z.abs_mul in Hp.
  set (c := 2 ^ 32) in *. assert (Hc : c = 4294967296) by reflexivity.
  set (A := Z.abs a) in *. set (B := Z.abs b) in *.
  assert (0 <= A) by (unfold A; lia). assert (0 <= B) by (unfold B; lia).
  rewrite (Z.rem_mod_nonneg A c), (Z.rem_mod_nonneg B c) by lia.
  rewrite (Z.quot_div_nonneg A c), (Z.quot_div_nonneg B c) by lia.
  pose proof (Z.div_mod A c ltac:(lia)) as DA. pose proof (Z.div_mod B c ltac:(lia)) as DB.
  pose proof (Z.mod_pos_bound A c ltac:(lia)). pose proof (Z.mod_pos_bound B c ltac:(lia)).
  pose proof (Z.div_pos A c ltac:(lia) ltac:(lia)). pose proof (Z.div_pos B c ltac:(lia) ltac:(lia)).
  set (a1 := A / c) in *. set (a0 := A mod c) in *.
  set (b1 := B / c) in *. set (b0 := B mod c) in *.
  assert (A * B = c * c * (a1 * b1) + c * (a0 * b1 + b0 * a1) + b0 * a0) by (rewrite DA, DB; ring).
  assert (P11 : 0 <= a1 * b1) by nia. assert (P01 : 0 <= a0 * b1) by nia.
  assert (P10 : 0 <= b0 * a1) by nia. assert (P00 : 0 <= b0 * a0) by nia.
  assert (a1 * b1 = 0) by nia.
  assert (Z01 : a1 = 0 \/ b1 = 0) by nia.
  replace ((a1 =? 0) || (b1 =? 0)) with true
    by (symmetry; apply orb_true_iff; rewrite !Z.eqb_eq; auto).
  cbn [expects bind].
  assert (S1 : c * (a0 * b1 + b0 * a1) + b0 * a0 <= 2 ^ 63 - 1) by nia.
  assert (S2 : a0 * b1 + b0 * a1 < 2 ^ 31) by nia.
  assert (R : forall z, 0 <= z <= 2 ^ 63 - 1 -> arith I64 z = Ok z).
  { intros z Hz; apply arith_in_range, in_range_I64. unfold INTMAX_MIN, INTMAX_MAX; lia. }
  unfold cmul, cadd, csub.
  rewrite (R (a0 * b1)) by lia. cbn [bind].
  rewrite (R (b0 * a1)) by lia. cbn [bind].
  rewrite (R (a0 * b1 + b0 * a1)) by lia. cbn [bind].
  replace (a0 * b1 + b0 * a1 <? 2 ^ 31) with true by (symmetry; apply Z.ltb_lt; lia).
  cbn [expects bind].
  rewrite (R (b0 * a0)) by lia. cbn [bind].
  replace (b0 * a0 <=? 2 ^ 63 - 1) with true by (symmetry; apply Z.leb_le; lia).
  cbn [expects bind].
  rewrite (R ((a0 * b1 + b0 * a1) * c)) by lia. cbn [bind].
  rewrite (R (2 ^ 63 - 1 - b0 * a0)) by lia. cbn [bind].
  replace ((a0 * b1 + b0 * a1) * c <=? 2 ^ 63 - 1 - b0 * a0) with true
    by (symmetry; apply Z.leb_le; lia).
  cbn [expects bind].
  apply arith_in_range, in_range_I64. unfold INTMAX_MIN, INTMAX_MAX.
  assert (Z.abs (a * b) = A * B) by apply Z.abs_mul. lia.
Qed.

(** When the product does not fit, the call never returns a number. *)
Lemma safe_multiply_iff : forall a b, Z.abs a <= INTMAX_MAX -> Z.abs b <= INTMAX_MAX ->
  ((exists p, safe_multiply a b = Ok p) <-> Z.abs (a * b) <= INTMAX_MAX).
Proof.
  intros a b Ha Hb; split.
  - intros [p H]. apply safe_multiply_sound in H. destruct H; subst; auto.
  - intros H; eexists; apply safe_multiply_complete; auto.
Qed.

(** Exactly when the refusal is undefined behaviour rather than a contract
    violation: the product of the low 32-bit halves is formed before it is known to fit. *)
Lemma safe_multiply_undef : forall a b, Z.abs a <= INTMAX_MAX -> Z.abs b <= INTMAX_MAX ->
  (safe_multiply a b = Undef <->
   (Z.abs a < 2 ^ 32 \/ Z.abs b < 2 ^ 32) /\
   (Z.abs a mod 2 ^ 32) * (Z.abs b / 2 ^ 32) + (Z.abs b mod 2 ^ 32) * (Z.abs a / 2 ^ 32) < 2 ^ 31 /\
   INTMAX_MAX < (Z.abs b mod 2 ^ 32) * (Z.abs a mod 2 ^ 32)).
Proof.
  intros a b Ha Hb. unfold safe_multiply.
  rewrite !iabs_total by auto. unfold INTMAX_MAX in *. cbn [bind].
  destruct (Z_le_gt_dec (Z.abs (a * b)) (2 ^ 63 - 1)) as [Hp|Hp].
  { pose proof (safe_multiply_complete a b Ha Hb Hp) as X. unfold safe_multiply in X.
    rewrite !iabs_total in X by auto. cbn [bind] in X. unfold INTMAX_MAX in X. rewrite X.
    split; [discriminate|]. intros (_ & _ & K). exfalso. rewrite Z.abs_mul in Hp.
    pose proof (Z.mod_pos_bound (Z.abs a) (2 ^ 32) ltac:(lia)).
    pose proof (Z.mod_pos_bound (Z.abs b) (2 ^ 32) ltac:(lia)).
    pose proof (Z.mod_le (Z.abs a) (2 ^ 32) ltac:(lia) ltac:(lia)).
    pose proof (Z.mod_le (Z.abs b) (2 ^ 32) ltac:(lia) ltac:(lia)).
    assert (Z.abs b mod 2 ^ 32 * (Z.abs a mod 2 ^ 32) <= Z.abs b * Z.abs a) by (apply Z.mul_le_mono_nonneg; lia).
    lia. }
  rewrite Z.abs_mul in Hp.
  set (c := 2 ^ 32) in *. assert (Hc : c = 4294967296) by reflexivity.
  set (A := Z.abs a) in *. set (B := Z.abs b) in *.
  assert (0 <= A) by (unfold A; lia). assert (0 <= B) by (unfold B; lia).
  rewrite (Z.rem_mod_nonneg A c), (Z.rem_mod_nonneg B c) by lia.
  rewrite (Z.quot_div_nonneg A c), (Z.quot_div_nonneg B c) by lia.
  pose proof (Z.div_mod A c ltac:(lia)) as DA. pose proof (Z.div_mod B c ltac:(lia)) as DB.
  pose proof (Z.mod_pos_bound A c ltac:(lia)). pose proof (Z.mod_pos_bound B c ltac:(lia)).
  pose proof (Z.div_pos A c ltac:(lia) ltac:(lia)). pose proof (Z.div_pos B c ltac:(lia) ltac:(lia)).
  set (a1 := A / c) in *. set (a0 := A mod c) in *.
  set (b1 := B / c) in *. set (b0 := B mod c) in *.
  assert (ZA : a1 = 0 <-> A < c) by (split; intros; nia).
  assert (ZB : b1 = 0 <-> B < c) by (split; intros; nia).
  assert (A1 : a1 < 2 ^ 31) by nia. assert (B1 : b1 < 2 ^ 31) by nia.
  assert (R : forall z, 0 <= z <= 2 ^ 63 - 1 -> arith I64 z = Ok z).
  { intros z Hz; apply arith_in_range, in_range_I64. unfold INTMAX_MIN, INTMAX_MAX; lia. }
  assert (N : forall z, 2 ^ 63 - 1 < z -> arith I64 z = Undef).
  { intros z Hz. unfold arith. cbn [isigned I64]. destruct (in_range I64 z) eqn:E; auto.
    apply in_range_I64 in E. unfold INTMAX_MIN, INTMAX_MAX in E; lia. }
  destruct ((a1 =? 0) || (b1 =? 0)) eqn:G; cbn [expects bind].
  2:{ apply orb_false_iff in G. rewrite !Z.eqb_neq in G. split; [discriminate|]. intros ([X|X] & _); tauto. }
  apply orb_true_iff in G. rewrite !Z.eqb_eq in G.
  unfold cmul, cadd, csub.
  assert (P1 : 0 <= a0 * b1 <= 2 ^ 63 - 1) by nia. assert (P2 : 0 <= b0 * a1 <= 2 ^ 63 - 1) by nia.
  assert (S : 0 <= a0 * b1 + b0 * a1 <= 2 ^ 63 - 1) by (destruct G as [-> | ->]; lia).
  rewrite (R (a0 * b1)), (R (b0 * a1)) by lia. cbn [bind]. rewrite (R (a0 * b1 + b0 * a1)) by lia. cbn [bind].
  assert (P00 : 0 <= b0 * a0) by nia.
  destruct (Z.ltb_spec (a0 * b1 + b0 * a1) (2 ^ 31)) as [L|L]; cbn [expects bind].
  2:{ split; [discriminate|]. intros (_ & X & _). lia. }
  destruct (Z_le_gt_dec (b0 * a0) (2 ^ 63 - 1)) as [L0|L0].
  2:{ rewrite N by lia. cbn [bind]. split; auto. intros _. split; [tauto|]. split; lia. }
  rewrite (R (b0 * a0)) by lia. cbn [bind].
  replace (b0 * a0 <=? 2 ^ 63 - 1) with true by (symmetry; apply Z.leb_le; lia). cbn [expects bind].
  rewrite (R ((a0 * b1 + b0 * a1) * c)) by nia. cbn [bind].
  rewrite (R (2 ^ 63 - 1 - b0 * a0)) by lia. cbn [bind].
  assert (M : A * B = c * (a0 * b1 + b0 * a1) + b0 * a0).
  { rewrite DA at 1. rewrite DB at 1. destruct G as [-> | ->]; ring. }
  replace ((a0 * b1 + b0 * a1) * c <=? 2 ^ 63 - 1 - b0 * a0) with false by (symmetry; apply Z.leb_gt; lia).
  cbn [expects bind]. split; [discriminate|]. intros (_ & _ & X). lia.
Qed.

(** ** normalize *)

Lemma normalize_zero : forall d e, normalize 0 d e = Ok (0, 1, 0).
Proof. reflexivity. Qed.

Lemma gcd_pos_ne : forall a b, b <> 0 -> 0 < Z.gcd a b.
Proof.
  intros a b H. pose proof (Z.gcd_nonneg a b).
  destruct (Z.eq_dec (Z.gcd a b) 0) as [E|E]; [|lia].
  apply Z.gcd_eq_0_r in E. contradiction.
Qed.

(** What the normalisation of a non-zero numerator computes. *)
Lemma normalize_sound : forall n d e n' d' e', n <> 0 -> d <> 0 ->
  normalize n d e = Ok (n', d', e') ->
  exists kn kd, 0 <= kn /\ 0 <= kd /\ e' = e + kn - kd /\
    n = Z.sgn d * (n' * 10 ^ kn) * Z.gcd n d /\
    Z.abs d = d' * 10 ^ kd * Z.gcd n d /\
    n' mod 10 <> 0 /\ d' mod 10 <> 0 /\
    (kn = 0 \/ kd = 0) /\
    Z.abs n <= INTMAX_MAX /\ Z.abs d <= INTMAX_MAX /\
    (e' = e \/ in_range I64 e' = true).
Proof.
  intros n d e n' d' e' Hn Hd H. unfold normalize in H.
  destruct (Z.eqb_spec n 0); [contradiction|]. inv_ok.
  apply cgcd_ok in E. destruct E as (-> & Rn & Rd).
  apply cmul_ok in E0. destruct E0 as [-> R0].
  apply cdiv_ok in E1. destruct E1 as (Hg & -> & _).
  apply iabs_ok in E2. subst.
  apply cdiv_ok in E3. destruct E3 as (_ & -> & _).
  destruct v4 as [n2 e2], v5 as [d2 e3]. cbn [fst snd] in *.
  apply strip_num_sound in E4. apply strip_den_sound in E5.
  destruct E4 as ((Kn & Zn) & Mn & Rn'). destruct E5 as ((Kd & Zd) & Md & Rd').
  assert (G1 : (Z.gcd n d | n * (if d <? 0 then -1 else 1)))
    by (apply Z.divide_mul_l, Z.gcd_divide_l).
  assert (G2 : (Z.gcd n d | Z.abs d)) by (apply Z.divide_abs_r, Z.gcd_divide_r).
  pose proof (quot_exact _ _ Hg G1) as Q1. pose proof (quot_exact _ _ Hg G2) as Q2.
  rewrite Zn in Q1. rewrite Zd in Q2.
  exists (e2 - e), (e2 - e3).
  assert (Hs : (if d <? 0 then -1 else 1) = Z.sgn d).
  { destruct (Z.ltb_spec d 0); destruct d; simpl in *; lia. }
  rewrite Hs in Q1.
  split; [lia|]. split; [lia|]. split; [lia|].
  split.
  { assert (Z.sgn d * Z.sgn d = 1) by (destruct d; simpl; lia).
    rewrite <- Z.mul_assoc. rewrite Q1. transitivity (n * (Z.sgn d * Z.sgn d)); [rewrite H; ring|ring]. }
  split; [rewrite <- Q2; ring|].
  split; [exact Mn|]. split; [exact Md|].
  split.
  { (* coprime: not both divisible by ten *)
    destruct (Z.eq_dec (e2 - e) 0) as [A|A]; [auto|].
    destruct (Z.eq_dec (e2 - e3) 0) as [B|B]; [auto|]. exfalso.
    assert (C : Z.gcd (Z.quot (n * (if d <? 0 then -1 else 1)) (Z.gcd n d))
                      (Z.quot (Z.abs d) (Z.gcd n d)) = 1).
    { set (g := Z.gcd n d) in *.
      assert (X1 : n * (if d <? 0 then -1 else 1) = Z.quot (n * (if d <? 0 then -1 else 1)) g * g)
        by (symmetry; apply quot_exact; auto).
      assert (X2 : Z.abs d = Z.quot (Z.abs d) g * g) by (symmetry; apply quot_exact; auto).
      assert (X3 : Z.gcd (n * (if d <? 0 then -1 else 1)) (Z.abs d) = g).
      { rewrite Z.gcd_abs_r. unfold g. destruct (d <? 0).
        - replace (n * -1) with (- n) by ring. apply Z.gcd_opp_l.
        - now rewrite Z.mul_1_r. }
      rewrite X1, X2 in X3. rewrite Z.gcd_mul_mono_r in X3.
      assert (Hg0 : 0 < g) by (apply gcd_pos_ne; auto).
      rewrite (Z.abs_eq g) in X3 by lia. apply (Z.mul_reg_r _ _ g); [lia|]. rewrite X3; ring. }
    rewrite Zn, Zd in C.
    assert (D : (10 | 1)).
    { rewrite <- C. apply Z.gcd_greatest.
      - apply Z.divide_mul_r. replace (e2 - e) with (1 + (e2 - e - 1)) by lia.
        rewrite Z.pow_add_r by lia. apply Z.divide_mul_l. apply Z.divide_refl.
      - apply Z.divide_mul_r. replace (e2 - e3) with (1 + (e2 - e3 - 1)) by lia.
        rewrite Z.pow_add_r by lia. apply Z.divide_mul_l. apply Z.divide_refl. }
    apply Z.divide_1_r in D. lia. }
  split; [exact Rn|]. split; [exact Rd|].
  destruct Rd' as [->|]; auto.
Qed.
