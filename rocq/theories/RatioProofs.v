(** Proofs about ratio construction, multiplication, division. *)

From Coq Require Import ZArith QArith Qpower Qfield Lia Bool Znumtheory.
From Verif Require Import Outcome CInt RatioMaths Pow Root Ratio SpecRatio QTen RatioMathsProofs.
Local Open Scope Z_scope.
Local Open Scope res_scope.

(** ** Number theory helpers *)

Lemma gcd_div_1 : forall a b a' b', Z.gcd a b = 1 -> (a' | a) -> (b' | b) -> Z.gcd a' b' = 1.
Proof.
  intros a b a' b' H Ha Hb.
  assert (D : (Z.gcd a' b' | 1)).
  { rewrite <- H. apply Z.gcd_greatest.
    - eapply Z.divide_trans; [apply Z.gcd_divide_l|exact Ha].
    - eapply Z.divide_trans; [apply Z.gcd_divide_r|exact Hb]. }
  apply Z.divide_1_r_nonneg; [apply Z.gcd_nonneg|exact D].
Qed.

Lemma gcd_cofactors : forall a b g x y, g <> 0 -> Z.gcd a b = Z.abs g -> a = x * g -> b = y * g ->
  Z.gcd x y = 1.
Proof.
  intros a b g x y Hg H -> ->. rewrite Z.gcd_mul_mono_r in H.
  apply (Z.mul_reg_r _ _ (Z.abs g)); lia.
Qed.

Lemma coprime_divides : forall a b c, Z.gcd a b = 1 -> (a | b * c) -> (a | c).
Proof. intros a b c H D. apply (Z.gauss a b c); auto. Qed.

Lemma abs_le_mul : forall k x, k <> 0 -> Z.abs x <= Z.abs (k * x).
Proof. intros k x H. rewrite Z.abs_mul. assert (1 <= Z.abs k) by lia. nia. Qed.

(** Two fractions in lowest terms that are equal are identical. *)
Lemma lowest_unique : forall n1 d1 n2 d2, 0 < d1 -> 0 < d2 -> Z.gcd n1 d1 = 1 -> Z.gcd n2 d2 = 1 ->
  n1 * d2 = n2 * d1 -> n1 = n2 /\ d1 = d2.
Proof.
  intros n1 d1 n2 d2 P1 P2 G1 G2 E.
  assert (D1 : (d1 | d2)).
  { apply (coprime_divides d1 n1 d2); [now rewrite Z.gcd_comm|]. exists n2; auto. }
  assert (D2 : (d2 | d1)).
  { apply (coprime_divides d2 n2 d1); [now rewrite Z.gcd_comm|]. exists n1; auto. }
  assert (d1 = d2) by (apply Z.divide_antisym_nonneg; auto; lia).
  subst. split; auto. apply (Z.mul_reg_r _ _ d2); lia.
Qed.

(** ** Construction *)

Lemma strip_fuel_S : strip_fuel = S 63.
Proof. reflexivity. Qed.


Lemma mk_ratio_sound : forall n d e r, mk_ratio n d e = Ok r ->
  d <> 0 /\ (rval r == frac n d e)%Q /\ lowest r.
Proof.
  intros n d e r H. unfold mk_ratio in H. inv_ok.
  destruct v0 as [[n' d'] e']. inv_ok.
  apply negb_true_iff, Z.eqb_neq in E. split; [exact E|].
  destruct (Z.eq_dec n 0) as [->|Hn].
  { rewrite normalize_zero in E0. inv_ok. split.
    - unfold rval; cbn [rnum rden rexp]. now rewrite !frac_zero.
    - unfold lowest; cbn [rnum rden rexp]. repeat split; try lia; discriminate. }
  apply normalize_sound in E0; auto.
  destruct E0 as (kn & kd & Hkn & Hkd & -> & Nn & Nd & Mn & Md & _ & _ & _ & _).
  set (g := Z.gcd n d) in *.
  assert (Hg : 0 < g) by (apply gcd_pos_ne; auto).
  assert (Pd : 0 < d') by (assert (0 < Z.abs d) by lia; nia).
  assert (S2 : Z.sgn d * Z.sgn d = 1) by (destruct d; simpl; lia).
  assert (Nd' : d = d' * 10 ^ kd * (Z.sgn d * g)).
  { transitivity (Z.sgn d * Z.abs d); [symmetry; rewrite Z.mul_comm; apply Z.abs_sgn|].
    rewrite Nd. ring. }
  assert (Nn' : n = n' * 10 ^ kn * (Z.sgn d * g)) by (rewrite Nn at 1; ring).
  assert (HS : Z.sgn d * g <> 0) by (apply Z.neq_mul_0; split; lia).
  split.
  - unfold rval; cbn [rnum rden rexp].
    rewrite Nd', Nn'. rewrite frac_scale.
    + rewrite frac_den10, frac_num10 by lia.
      replace (e - kd + kn) with (e + kn - kd) by lia. reflexivity.
    + exact HS.
    + apply Z.neq_mul_0; split; [lia|]. apply Z.pow_nonzero; lia.
  - assert (G : Z.gcd (n' * 10 ^ kn) (d' * 10 ^ kd) = 1).
    { eapply (gcd_cofactors n d (Z.sgn d * g)); eauto.
      rewrite Z.abs_mul. assert (Z.abs (Z.sgn d) = 1) by (destruct d; simpl; lia).
      rewrite H, Z.mul_1_l, Z.abs_eq by lia. reflexivity. }
    unfold lowest; cbn [rnum rden rexp]. repeat split; auto.
    + apply (gcd_div_1 _ _ _ _ G); [exists (10 ^ kn)|exists (10 ^ kd)]; ring.
    + intros ->. contradiction.
Qed.

Lemma mk_ratio_storable : forall n d e r, INTMAX_MIN <= e <= INTMAX_MAX ->
  mk_ratio n d e = Ok r -> storable r.
Proof.
  intros n d e r He H. unfold mk_ratio in H. inv_ok.
  destruct v0 as [[n' d'] e']. inv_ok.
  apply negb_true_iff, Z.eqb_neq in E.
  destruct (Z.eq_dec n 0) as [->|Hn].
  { rewrite normalize_zero in E0. inv_ok. unfold storable, INTMAX_MIN, INTMAX_MAX; cbn [rnum rden rexp]. lia. }
  apply normalize_sound in E0; auto.
  destruct E0 as (kn & kd & Hkn & Hkd & He' & Nn & Nd & Mn & Md & _ & Rn & Rd & Re).
  set (g := Z.gcd n d) in *.
  assert (Hg : 0 < g) by (apply gcd_pos_ne; auto).
  assert (P1 : 0 < 10 ^ kn) by (apply Z.pow_pos_nonneg; lia).
  assert (P2 : 0 < 10 ^ kd) by (apply Z.pow_pos_nonneg; lia).
  unfold storable; cbn [rnum rden rexp]. repeat split.
  - assert (An : Z.abs n = Z.abs n' * (10 ^ kn * g)).
    { rewrite Nn at 1. rewrite !Z.abs_mul. rewrite (Z.abs_eq g), (Z.abs_eq (10 ^ kn)) by lia.
      replace (Z.abs (Z.sgn d)) with 1 by (destruct d; simpl; lia). ring. }
    assert (1 <= 10 ^ kn * g) by nia. nia.
  - assert (An : Z.abs d = Z.abs d' * (10 ^ kd * g)).
    { rewrite <- (Z.abs_involutive d), Nd. rewrite !Z.abs_mul.
      rewrite (Z.abs_eq g), (Z.abs_eq (10 ^ kd)) by lia. ring. }
    assert (1 <= 10 ^ kd * g) by nia. nia.
  - destruct Re as [->|Re]; [lia|]. apply in_range_I64 in Re. lia.
  - destruct Re as [->|Re]; [lia|]. apply in_range_I64 in Re. lia.
Qed.

Lemma max_lt_1e19 : INTMAX_MAX < 10 ^ 19.
Proof. reflexivity. Qed.

Lemma quot_abs_le : forall a g, 0 < g -> Z.abs (Z.quot a g) <= Z.abs a.
Proof.
  intros a g Hg. rewrite <- Z.quot_abs by lia.
  rewrite Z.quot_div_nonneg by lia. apply Z.div_le_upper_bound; [lia|]. nia.
Qed.

Lemma cgcd_total : forall a b, Z.abs a <= INTMAX_MAX -> Z.abs b <= INTMAX_MAX ->
  cgcd a b = Ok (Z.gcd a b).
Proof.
  intros a b Ha Hb. unfold cgcd.
  replace (in_range I64 (Z.abs a)) with true
    by (symmetry; apply in_range_I64; unfold INTMAX_MIN, INTMAX_MAX in *; lia).
  replace (in_range I64 (Z.abs b)) with true
    by (symmetry; apply in_range_I64; unfold INTMAX_MIN, INTMAX_MAX in *; lia).
  reflexivity.
Qed.

Lemma cdiv_total : forall a b, Z.abs a <= INTMAX_MAX -> 0 < b -> cdiv I64 a b = Ok (Z.quot a b).
Proof.
  intros a b Ha Hb. unfold cdiv. destruct (Z.eqb_spec b 0); [lia|].
  apply arith_in_range, in_range_I64. pose proof (quot_abs_le a b Hb).
  unfold INTMAX_MIN, INTMAX_MAX in *; lia.
Qed.

(** Shape of [normalize] on representable input: everything before the
    stripping loops succeeds. *)
Lemma normalize_shape : forall n d e, n <> 0 -> d <> 0 ->
  Z.abs n <= INTMAX_MAX -> Z.abs d <= INTMAX_MAX ->
  normalize n d e =
    (ne <- strip_num strip_fuel (Z.quot (n * (if d <? 0 then -1 else 1)) (Z.gcd n d)) e;
     de <- strip_den strip_fuel (Z.quot (Z.abs d) (Z.gcd n d)) (snd ne);
     Ok (fst ne, fst de, snd de)).
Proof.
  intros n d e Hn Hd An Ad. unfold normalize.
  destruct (Z.eqb_spec n 0); [contradiction|].
  rewrite cgcd_total by auto. cbn [bind].
  assert (Hg : 0 < Z.gcd n d) by (apply gcd_pos_ne; auto).
  assert (As : Z.abs (n * (if d <? 0 then -1 else 1)) <= INTMAX_MAX) by (destruct (d <? 0); lia).
  unfold cmul. rewrite arith_in_range
    by (apply in_range_I64; unfold INTMAX_MIN, INTMAX_MAX in *; lia).
  cbn [bind]. rewrite cdiv_total by auto. cbn [bind].
  rewrite iabs_total by auto. cbn [bind].
  rewrite cdiv_total by (auto; lia). reflexivity.
Qed.

Lemma quot_nz : forall a g, g <> 0 -> a <> 0 -> (g | a) -> Z.quot a g <> 0.
Proof.
  intros a g Hg Ha D C. pose proof (quot_exact a g Hg D). rewrite C in H. lia.
Qed.

Lemma strip_num_le : forall fuel n e n' e', strip_num fuel n e = Ok (n', e') -> n <> 0 ->
  Z.abs n < 10 ^ 19 -> e <= e' <= e + 18.
Proof.
  intros fuel n e n' e' H Hn Hb.
  apply strip_num_sound in H. destruct H as ((Hk & Hz) & _ & _).
  split; [lia|].
  destruct (Z.le_gt_cases e' (e + 18)); auto. exfalso.
  assert (10 ^ 19 <= 10 ^ (e' - e)) by (apply Z.pow_le_mono_r; lia).
  assert (n' <> 0) by (intros ->; lia).
  rewrite Hz, Z.abs_mul, (Z.abs_eq (10 ^ (e' - e))) in Hb by (apply Z.pow_nonneg; lia).
  assert (1 <= Z.abs n') by lia. nia.
Qed.

(** The constructor succeeds on every representable fraction whose exponent is
    at least 18 away from the limits. *)
Lemma mk_ratio_total : forall n d e, d <> 0 -> Z.abs n <= INTMAX_MAX -> Z.abs d <= INTMAX_MAX ->
  INTMAX_MIN + 18 <= e <= INTMAX_MAX - 18 -> exists r, mk_ratio n d e = Ok r.
Proof.
  intros n d e Hd An Ad He. unfold mk_ratio.
  destruct (Z.eqb_spec d 0); [contradiction|]. cbn [negb expects bind].
  destruct (Z.eq_dec n 0) as [->|Hn]; [rewrite normalize_zero; cbn [bind]; eauto|].
  rewrite normalize_shape by auto.
  assert (Hg : 0 < Z.gcd n d) by (apply gcd_pos_ne; auto).
  set (s := if d <? 0 then -1 else 1).
  assert (Hs : s <> 0 /\ Z.abs (n * s) <= INTMAX_MAX) by (unfold s; destruct (d <? 0); lia).
  set (x := Z.quot (n * s) (Z.gcd n d)).
  assert (Hx : x <> 0).
  { apply quot_nz; [lia| |apply Z.divide_mul_l, Z.gcd_divide_l].
    apply Z.neq_mul_0; tauto. }
  assert (Ax : Z.abs x <= INTMAX_MAX) by (pose proof (quot_abs_le (n * s) _ Hg); fold x in H; lia).
  set (y := Z.quot (Z.abs d) (Z.gcd n d)).
  assert (Hy : y <> 0).
  { apply quot_nz; [lia|lia|]. apply Z.divide_abs_r, Z.gcd_divide_r. }
  assert (Ay : Z.abs y <= INTMAX_MAX) by (pose proof (quot_abs_le (Z.abs d) _ Hg); fold y in H; lia).
  pose proof max_lt_1e19 as M.
  destruct (strip_num_total 19 x e) as (n' & e' & Sx);
    [auto|change (Z.of_nat 19) with 19; lia|lia|change (Z.of_nat 19) with 19; lia|].
  pose proof (strip_num_le _ _ _ _ _ Sx Hx ltac:(lia)) as Le.
  apply (strip_num_mono 19 strip_fuel) in Sx; [|unfold strip_fuel; lia]. rewrite Sx. cbn [bind snd fst].
  (* either the numerator or the denominator has zeros, not both *)
  destruct (Z.eq_dec e' e) as [->|Ne].
  - destruct (strip_den_total 19 y e) as (d' & e'' & Sy);
      [auto|change (Z.of_nat 19) with 19; lia|lia|change (Z.of_nat 19) with 19; lia|].
    apply (strip_den_mono 19 strip_fuel) in Sy; [|unfold strip_fuel; lia]. rewrite Sy. cbn [bind]. eauto.
  - destruct (strip_den_total 19 y e') as (d' & e'' & Sy);
      [auto|change (Z.of_nat 19) with 19; lia|lia|change (Z.of_nat 19) with 19; lia|].
    apply (strip_den_mono 19 strip_fuel) in Sy; [|unfold strip_fuel; lia]. rewrite Sy. cbn [bind]. eauto.
Qed.

(** Outcomes of the constructor on arbitrary input. *)
Definition ok_or_undef {A : Type} (x : res A) : Prop := (exists v, x = Ok v) \/ x = Undef.

Lemma oou_bind : forall (A B : Type) (x : res A) (f : A -> res B),
  ok_or_undef x -> (forall a, x = Ok a -> ok_or_undef (f a)) -> ok_or_undef (bind x f).
Proof.
  intros A B x f [[v ->]| ->] H; cbn [bind]; [apply H; reflexivity|right; reflexivity].
Qed.

Lemma oou_ok : forall (A : Type) (v : A), ok_or_undef (Ok v).
Proof. left; eauto. Qed.
Lemma oou_arith : forall z, ok_or_undef (arith I64 z).
Proof.
  intros z; unfold arith; cbn [isigned I64]. destruct (in_range I64 z); [left; eauto|right; auto].
Qed.
Lemma oou_cdiv : forall a b, ok_or_undef (cdiv I64 a b).
Proof. intros; unfold cdiv. destruct (b =? 0); [right; auto|apply oou_arith]. Qed.
Lemma oou_crem : forall a b, ok_or_undef (crem I64 a b).
Proof. intros; unfold crem. destruct (b =? 0); [right; auto|]. destruct (_ && _); [right; auto|left; eauto]. Qed.
Lemma oou_cgcd : forall a b, ok_or_undef (cgcd a b).
Proof. intros; unfold cgcd. destruct (_ && _); [left; eauto|right; auto]. Qed.
Lemma oou_iabs : forall a, ok_or_undef (iabs a).
Proof. intros; unfold iabs. destruct (a <? 0); [apply oou_arith|left; eauto]. Qed.

Lemma oou_strip_num : forall fuel n e, n <> 0 -> Z.abs n < 10 ^ Z.of_nat fuel ->
  ok_or_undef (strip_num fuel n e).
Proof.
  induction fuel as [|f IH]; intros n e Hn Hb.
  - cbn in Hb. lia.
  - cbn [strip_num]. destruct (Z.eqb_spec (Z.rem n 10) 0) as [E|E]; [|apply oou_ok].
    apply rem10_mod in E. rewrite Z.mod_divide in E by lia.
    pose proof (quot_exact n 10 ltac:(lia) E) as Q.
    apply oou_bind; [apply oou_arith|]. intros e1 _. apply IH; [lia|].
    rewrite Nat2Z.inj_succ, Z.pow_succ_r in Hb by lia. lia.
Qed.

Lemma oou_strip_den : forall fuel n e, n <> 0 -> Z.abs n < 10 ^ Z.of_nat fuel ->
  ok_or_undef (strip_den fuel n e).
Proof.
  induction fuel as [|f IH]; intros n e Hn Hb.
  - cbn in Hb. lia.
  - cbn [strip_den]. destruct (Z.eqb_spec (Z.rem n 10) 0) as [E|E]; [|apply oou_ok].
    apply rem10_mod in E. rewrite Z.mod_divide in E by lia.
    pose proof (quot_exact n 10 ltac:(lia) E) as Q.
    apply oou_bind; [apply oou_arith|]. intros e1 _. apply IH; [lia|].
    rewrite Nat2Z.inj_succ, Z.pow_succ_r in Hb by lia. lia.
Qed.

Lemma oou_normalize : forall n d e, d <> 0 -> ok_or_undef (normalize n d e).
Proof.
  intros n d e Hd. unfold normalize. destruct (Z.eqb_spec n 0) as [|Hn]; [apply oou_ok|].
  apply oou_bind; [apply oou_cgcd|]. intros g Eg. apply cgcd_ok in Eg. destruct Eg as (-> & An & Ad).
  assert (Hg : 0 < Z.gcd n d) by (apply gcd_pos_ne; auto).
  apply oou_bind; [apply oou_arith|]. intros n1 E1. apply cmul_ok in E1. destruct E1 as [-> _].
  apply oou_bind; [apply oou_cdiv|]. intros n2 E2. apply cdiv_ok in E2. destruct E2 as (_ & -> & _).
  apply oou_bind; [apply oou_iabs|]. intros d1 E3. apply iabs_ok in E3. subst d1.
  apply oou_bind; [apply oou_cdiv|]. intros d2 E4. apply cdiv_ok in E4. destruct E4 as (_ & -> & _).
  assert (M2 : INTMAX_MAX < 10 ^ Z.of_nat strip_fuel) by reflexivity.
  assert (Hs : Z.abs (n * (if d <? 0 then -1 else 1)) <= INTMAX_MAX) by (destruct (d <? 0); lia).
  assert (Hs2 : n * (if d <? 0 then -1 else 1) <> 0) by (destruct (d <? 0); lia).
  apply oou_bind.
  { apply oou_strip_num.
    - apply quot_nz; [lia|exact Hs2|apply Z.divide_mul_l, Z.gcd_divide_l].
    - pose proof (quot_abs_le (n * (if d <? 0 then -1 else 1)) _ Hg). lia. }
  intros ne _. apply oou_bind.
  { apply oou_strip_den.
    - apply quot_nz; [lia|lia|apply Z.divide_abs_r, Z.gcd_divide_r].
    - pose proof (quot_abs_le (Z.abs d) _ Hg). lia. }
  intros de _. apply oou_ok.
Qed.

Lemma mk_ratio_outcome : forall n d e,
  (d = 0 /\ mk_ratio n d e = Contract) \/
  (d <> 0 /\ ((exists r, mk_ratio n d e = Ok r) \/ mk_ratio n d e = Undef)).
Proof.
  intros n d e. destruct (Z.eq_dec d 0) as [->|Hd]; [left; split; reflexivity|right].
  split; auto. unfold mk_ratio. destruct (Z.eqb_spec d 0); [contradiction|]. cbn [negb expects bind].
  apply oou_bind; [apply oou_normalize; auto|]. intros [[n' d'] e'] _. apply oou_ok.
Qed.

(** A ratio in lowest terms is a fixed point of the constructor. *)
Lemma mk_ratio_lowest : forall r, lowest r -> storable r ->
  mk_ratio (rnum r) (rden r) (rexp r) = Ok r.
Proof.
  intros [n d e] (Pd & G & Md & Z0 & Zn) (An & Ad & Re). cbn [rnum rden rexp] in *.
  unfold mk_ratio. destruct (Z.eqb_spec d 0); [lia|]. cbn [negb expects bind].
  destruct (Z.eq_dec n 0) as [->|Hn].
  { rewrite normalize_zero. cbn [bind].
    assert (d = 1) by (rewrite Z.gcd_0_l in G; lia).
    subst. now rewrite Z0. }
  rewrite normalize_shape by (auto; lia).
  rewrite G. rewrite !Z.quot_1_r.
  destruct (Z.ltb_spec d 0); [lia|]. rewrite Z.mul_1_r, Z.abs_eq by lia.
  assert (S1 : strip_num strip_fuel n e = Ok (n, e)).
  { rewrite strip_fuel_S. cbn [strip_num]. destruct (Z.eqb_spec (Z.rem n 10) 0) as [C|C]; auto.
    apply rem10_mod in C. now apply Zn in Hn. }
  rewrite S1. cbn [bind snd fst].
  assert (S2 : strip_den strip_fuel d e = Ok (d, e)).
  { rewrite strip_fuel_S. cbn [strip_den]. destruct (Z.eqb_spec (Z.rem d 10) 0) as [C|C]; auto.
    apply rem10_mod in C. contradiction. }
  rewrite S2. reflexivity.
Qed.

(** ** Equality *)

Lemma ratio_eqb_eq : forall l r, ratio_eqb l r = true <-> l = r.
Proof.
  intros [n1 d1 e1] [n2 d2 e2]; unfold ratio_eqb; cbn [rnum rden rexp].
  rewrite !andb_true_iff, !Z.eqb_eq. split.
  - intros [[-> ->] ->]; reflexivity.
  - intros H; inversion H; auto.
Qed.

Lemma ratio_eqb_value : forall l r, lowest l -> lowest r ->
  (ratio_eqb l r = true <-> ((rval l == rval r)%Q /\ rexp l = rexp r)).
Proof.
  intros l r Hl Hr. rewrite ratio_eqb_eq. split.
  - intros ->. split; reflexivity.
  - intros [V E]. destruct l as [n1 d1 e1], r as [n2 d2 e2].
    unfold rval in V; cbn [rnum rden rexp] in *. subst.
    destruct Hl as (P1 & G1 & _), Hr as (P2 & G2 & _). cbn [rnum rden rexp] in *.
    apply frac_eq_iff in V; [|lia|lia].
    destruct (lowest_unique n1 d1 n2 d2) as [-> ->]; auto.
Qed.

(** ** Multiplication *)

Lemma rmul_sound : forall l r p, lowest l -> lowest r -> rmul l r = Ok p ->
  (rval p == rval l * rval r)%Q /\ lowest p /\ storable p.
Proof.
  intros l r p Hl Hr H. unfold rmul in H. inv_ok.
  apply cgcd_ok in E, E0. destruct E as (-> & _ & _), E0 as (-> & _ & _).
  apply cdiv_ok in E1, E2, E4, E5.
  destruct E1 as (G1 & -> & _), E2 as (G2 & -> & _), E4 as (_ & -> & _), E5 as (_ & -> & _).
  apply safe_multiply_sound in E3, E6. destruct E3 as [-> _], E6 as [-> _].
  apply cadd_ok in E7. destruct E7 as [-> Re].
  pose proof (mk_ratio_storable _ _ _ _ ltac:(apply in_range_I64; exact Re) K) as St.
  apply mk_ratio_sound in K. destruct K as (Hd & V & L).
  split; [|split; auto].
  rewrite V.
  set (g1 := Z.gcd (rnum l) (rden r)) in *. set (g2 := Z.gcd (rnum r) (rden l)) in *.
  assert (Q1 : Z.quot (rnum l) g1 * g1 = rnum l) by (apply quot_exact; auto; apply Z.gcd_divide_l).
  assert (Q2 : Z.quot (rden r) g1 * g1 = rden r) by (apply quot_exact; auto; apply Z.gcd_divide_r).
  assert (Q3 : Z.quot (rnum r) g2 * g2 = rnum r) by (apply quot_exact; auto; apply Z.gcd_divide_l).
  assert (Q4 : Z.quot (rden l) g2 * g2 = rden l) by (apply quot_exact; auto; apply Z.gcd_divide_r).
  set (a := Z.quot (rnum l) g1) in *. set (b := Z.quot (rnum r) g2) in *.
  set (c := Z.quot (rden l) g2) in *. set (d := Z.quot (rden r) g1) in *.
  rewrite <- (frac_scale (a * b) (c * d) _ (g1 * g2)); auto.
  - replace (a * b * (g1 * g2)) with (rnum l * rnum r) by (rewrite <- Q1, <- Q3; ring).
    replace (c * d * (g1 * g2)) with (rden l * rden r) by (rewrite <- Q2, <- Q4; ring).
    apply frac_mult; destruct Hl, Hr; lia.
  - apply Z.neq_mul_0; auto.
Qed.

Lemma rmul_complete : forall l r n m, lowest l -> lowest r -> storable l -> storable r ->
  Z.abs n <= INTMAX_MAX -> Z.abs m <= INTMAX_MAX -> m <> 0 ->
  rnum l * rnum r * m = n * (rden l * rden r) ->
  INTMAX_MIN + 18 <= rexp l + rexp r <= INTMAX_MAX - 18 ->
  exists p, rmul l r = Ok p.
Proof.
  intros l r n m (Pl & Gl & _ & Zl & _) (Pr & Gr & _ & Zr & _) (Al & Bl & El) (Ar & Br & Er) An Am Hm Eq Ee.
  unfold rmul.
  set (g1 := Z.gcd (rnum l) (rden r)). set (g2 := Z.gcd (rnum r) (rden l)).
  rewrite !cgcd_total by (auto; lia). cbn [bind]. fold g1 g2.
  assert (G1 : 0 < g1) by (apply gcd_pos_ne; lia).
  assert (G2 : 0 < g2) by (apply gcd_pos_ne; lia).
  rewrite !cdiv_total by (auto; lia). cbn [bind].
  assert (Q1 : Z.quot (rnum l) g1 * g1 = rnum l) by (apply quot_exact; [lia|]; apply Z.gcd_divide_l).
  assert (Q2 : Z.quot (rden r) g1 * g1 = rden r) by (apply quot_exact; [lia|]; apply Z.gcd_divide_r).
  assert (Q3 : Z.quot (rnum r) g2 * g2 = rnum r) by (apply quot_exact; [lia|]; apply Z.gcd_divide_l).
  assert (Q4 : Z.quot (rden l) g2 * g2 = rden l) by (apply quot_exact; [lia|]; apply Z.gcd_divide_r).
  pose proof (quot_abs_le (rnum l) g1 G1) as A1. pose proof (quot_abs_le (rnum r) g2 G2) as A2.
  pose proof (quot_abs_le (rden l) g2 G2) as A3. pose proof (quot_abs_le (rden r) g1 G1) as A4.
  set (a := Z.quot (rnum l) g1) in *. set (b := Z.quot (rnum r) g2) in *.
  set (c := Z.quot (rden l) g2) in *. set (d := Z.quot (rden r) g1) in *.
  assert (Pc : 0 < c) by (clear - Q4 Pl G2; nia). assert (Pd : 0 < d) by (clear - Q2 Pr G1; nia).
  (* a b / (c d) is in lowest terms *)
  assert (Cac : Z.gcd a c = 1).
  { apply (gcd_div_1 (rnum l) (rden l)); auto; [exists g1; clear - Q1|exists g2; clear - Q4]; lia. }
  assert (Cbd : Z.gcd b d = 1).
  { apply (gcd_div_1 (rnum r) (rden r)); auto; [exists g2; clear - Q3|exists g1; clear - Q2]; lia. }
  assert (Cad : Z.gcd a d = 1).
  { apply (gcd_cofactors (rnum l) (rden r) g1); auto; clear - G1; lia. }
  assert (Cbc : Z.gcd b c = 1).
  { apply (gcd_cofactors (rnum r) (rden l) g2); auto; clear - G2; lia. }
  assert (C : Z.gcd (a * b) (c * d) = 1).
  { apply Zgcd_1_rel_prime. apply rel_prime_mult; apply rel_prime_sym; apply rel_prime_mult;
      apply rel_prime_sym; apply Zgcd_1_rel_prime; auto. }
  assert (Eq2 : a * b * m = n * (c * d)).
  { apply (Z.mul_reg_r _ _ (g1 * g2)); [clear - G1 G2; nia|].
    transitivity (rnum l * rnum r * m); [rewrite <- Q1, <- Q3; ring|].
    rewrite Eq. rewrite <- Q2, <- Q4. ring. }
  assert (Dm : (c * d | m)).
  { apply (coprime_divides _ (a * b)); [now rewrite Z.gcd_comm|]. exists n. exact Eq2. }
  destruct Dm as [k Hk].
  assert (k <> 0) by (intros ->; apply Hm; exact Hk).
  assert (n = k * (a * b)).
  { apply (Z.mul_reg_r _ _ (c * d)); [clear - Pc Pd; nia|]. rewrite <- Eq2, Hk. ring. }
  assert (Rn : Z.abs (a * b) <= INTMAX_MAX).
  { subst n. eapply Z.le_trans; [apply (abs_le_mul k)|exact An]; auto. }
  assert (Rd : Z.abs (c * d) <= INTMAX_MAX).
  { subst m. eapply Z.le_trans; [apply (abs_le_mul k)|exact Am]; auto. }
  rewrite (safe_multiply_complete a b) by (try assumption; eapply Z.le_trans; eassumption). cbn [bind].
  rewrite (safe_multiply_complete c d) by (try assumption; eapply Z.le_trans; eassumption). cbn [bind].
  unfold cadd. rewrite arith_in_range by (apply in_range_I64; clear - Ee; lia). cbn [bind].
  apply mk_ratio_total; auto. apply Z.neq_mul_0; split; lia.
Qed.

Lemma gcd_comm_cgcd : forall a b, cgcd a b = cgcd b a.
Proof.
  intros; unfold cgcd. rewrite andb_comm, Z.gcd_comm. reflexivity.
Qed.

(** The pieces of a product of storable ratios: whether it is defined depends
    only on the size of the cross-reduced products. *)
Lemma rmul_unfold : forall l r, storable l -> storable r -> rden l <> 0 -> rden r <> 0 ->
  rmul l r =
    (let g1 := Z.gcd (rnum l) (rden r) in let g2 := Z.gcd (rnum r) (rden l) in
     n <- safe_multiply (Z.quot (rnum l) g1) (Z.quot (rnum r) g2);
     m <- safe_multiply (Z.quot (rden l) g2) (Z.quot (rden r) g1);
     e <- cadd I64 (rexp l) (rexp r);
     mk_ratio n m e).
Proof.
  intros l r (Al & Bl & _) (Ar & Br & _) Hl Hr. unfold rmul.
  rewrite !cgcd_total by auto. cbn [bind]. cbv zeta.
  assert (0 < Z.gcd (rnum l) (rden r)) by (apply gcd_pos_ne; auto).
  assert (0 < Z.gcd (rnum r) (rden l)) by (apply gcd_pos_ne; auto).
  rewrite !cdiv_total by auto. reflexivity.
Qed.

(** Commutativity on defined results. *)
Lemma rmul_comm_ok : forall l r p, storable l -> storable r -> rden l <> 0 -> rden r <> 0 ->
  rmul l r = Ok p -> rmul r l = Ok p.
Proof.
  intros l r p Sl Sr Hl Hr H. pose proof Sl as (Al & Bl & _). pose proof Sr as (Ar & Br & _).
  rewrite rmul_unfold in H by auto. rewrite rmul_unfold by auto. cbv zeta in *.
  set (g1 := Z.gcd (rnum l) (rden r)) in *. set (g2 := Z.gcd (rnum r) (rden l)) in *.
  assert (G1 : 0 < g1) by (apply gcd_pos_ne; auto).
  assert (G2 : 0 < g2) by (apply gcd_pos_ne; auto).
  inv_ok. apply safe_multiply_sound in E, E0. destruct E as [-> R1], E0 as [-> R2].
  pose proof (quot_abs_le (rnum l) g1 G1). pose proof (quot_abs_le (rnum r) g2 G2).
  pose proof (quot_abs_le (rden l) g2 G2). pose proof (quot_abs_le (rden r) g1 G1).
  rewrite safe_multiply_complete by (try (rewrite Z.mul_comm; exact R1); lia). cbn [bind].
  rewrite safe_multiply_complete by (try (rewrite Z.mul_comm; exact R2); lia). cbn [bind].
  rewrite (Z.mul_comm (Z.quot (rnum r) g2)), (Z.mul_comm (Z.quot (rden r) g1)).
  unfold cadd in *. rewrite (Z.add_comm (rexp r)), E1. exact K.
Qed.
