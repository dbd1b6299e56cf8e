(** Theorems about the functions of [example/kalman_filter/kalman.h] and the filters built from
    them (C95). *)

From Coq Require Import ZArith Reals Bool Lia Lra SpecFloat String List.
From Flocq Require Import Core.
From Verif Require Import Outcome CInt Root Ratio Unit Dim DimOp Equivalent Rep Reference QuantityCast CommonQuantity Quantity Point Math
  SpecReal FloatProofs FloatCastProofs SpecOrder SpecQuantity FloatOrderProofs Kalman SpecKalman KalmanProofs KalmanReals KalmanFilterProofs KalmanMotionProofs
  SpecExpr ExprProofs Samples Props_Dim Props_Quantity Props_Float.
Import ListNotations.
Local Open Scope R_scope.
Local Open Scope list_scope.
Local Open Scope res_scope.

(** * C95: the Kalman filters *)

(** ** The functions of one variable *)

(** The gain of two uncertainties of which one may be zero: between 0 and 1, on the side of a half
    of the more certain one, and within 2^-52 of [a / (a + b)]. *)
Theorem C95_gain : forall est w t a b x y, in_doubles t -> gain_fits est w t -> is_held t a x -> is_held t b y ->
  0 <= x -> 0 <= y -> 0 < x + y <= bpow radix2 1023 ->
  exists q g, kalman_gain est w a b = Ok q /\ is_held pure_number q g /\ 0 <= g <= 1 /\
    (y <= x -> 1 / 2 <= g) /\ (x <= y -> g <= 1 / 2) /\ Rabs (g - ideal x y) <= bpow radix2 (-52).
Proof.
  intros est w t a b x y R F A B Px Py [P L]. destruct (held_fmt _ _ _ A) as [Fx _]. destruct (held_fmt _ _ _ B) as [Fy _].
  destruct (gain_sum x y Fx Fy Px Py P) as (_ & _ & C). destruct (gain_bounds x y Fx Fy Px Py P) as (D & E & G).
  destruct (gain_held est w t a b x y R F A B) as (q & Q & H).
  - apply small_1023. rewrite Rabs_right; lra.
  - lra.
  - now apply gain_small.
  - exists q, (gain_of x y). split; [exact Q|]. split; [exact H|]. split; [exact D|]. split; [exact E|]. split; [exact G|]. exact (gain_near _ _ _ _ _ _ A B Px Py P).
Qed.
Print Assumptions C95_gain.

(** The update of a state by a measurement, both within [2^j], with any gain from 0 to 1: it moves
    towards the measurement or not at all, stays within [2^j], and is within three half units of
    [2^j] of [x + g (r - x)]. *)
Theorem C95_update : forall est w t x m q rx r g j, in_doubles t -> update_fits est w t -> is_held t x rx -> reads t m r -> is_held pure_number q g ->
  0 <= g <= 1 -> (-1000 <= j <= 1022)%Z -> Rabs rx <= bpow radix2 j -> Rabs r <= bpow radix2 j ->
  exists x' rx', state_update est w x m q = Ok x' /\ is_held t x' rx' /\ Rabs rx' <= bpow radix2 j /\
    (rx <= r -> rx <= rx') /\ (r <= rx -> rx' <= rx) /\ (g = 0 \/ r = rx -> rx' = rx) /\
    Rabs (rx' - (rx + g * (r - rx))) <= 3 * bpow radix2 (j - 53).
Proof.
  intros est w t x m q rx r g j R F X M G K J Bx Br. destruct (held_fmt _ _ _ X) as [Fx _]. pose proof (reads_fmt _ _ _ M) as Fr.
  destruct (update_held est w t x m q rx r g R F X M G (update_is_small rx r g j Fx Fr K J Bx Br)) as (x' & E & H). exists x', (update_of rx r g).
  destruct (towards rx r g Fx Fr K) as [U D]. split; [exact E|]. split; [exact H|]. split; [now apply update_in|]. split; [intros L; apply U, L|]. split; [intros L; apply D, L|].
  split; [|now apply update_err]. intros [->| ->]; [|now apply same_update].
  unfold update_of, step_of. rewrite Rmult_0_l, (frnd_id F64 0 fmt_0), Rplus_0_r. now apply frnd_id.
Qed.
Print Assumptions C95_update.

(** The updated uncertainty is neither negative nor larger than before; the extrapolated one is
    not smaller. *)
Theorem C95_covariance : forall est w t u q r g k, in_doubles t -> covariance_fits est w t -> is_held t u r -> is_held pure_number q g ->
  0 <= g <= 1 -> (-1000 <= k)%Z -> 0 <= r <= bpow radix2 k ->
  exists u' r', covariance_update est w u q = Ok u' /\ is_held t u' r' /\ 0 <= r' <= r /\ Rabs (r' - (1 - g) * r) <= bpow radix2 (k - 53).
Proof.
  intros est w t u q r g k R F U G K Hk B. destruct (held_fmt _ _ _ U) as [Fu Lu]. destruct (complement_bounds g K) as (_ & _ & S).
  destruct (covariance_held est w t u q r g R F U G S (covariance_small r g Fu (proj1 B) K Lu)) as (u' & E & H). exists u', (covariance_of r g).
  split; [exact E|]. split; [exact H|]. split; [now apply covariance_bounds|]. apply covariance_near; auto.
Qed.
Print Assumptions C95_covariance.
Theorem C95_noise : forall est w t u n r s, in_doubles t -> covariance_fits est w t -> is_held t u r -> is_held t n s -> 0 <= s -> Rabs (r + s) <= bpow radix2 1023 ->
  exists u' r', covariance_extrapolation est w u n = Ok u' /\ is_held t u' r' /\ r <= r' /\ r' = nearest F64 (r + s).
Proof.
  intros est w t u n r s R F U N P B. destruct (held_fmt _ _ _ U) as [Fu _]. destruct (extrapolation_held est w t u n r s R F U N (small_1023 _ B)) as (u' & E & H).
  exists u', (rnd (r + s)). split; [exact E|]. split; [exact H|]. split; [apply rnd_ge; [exact Fu|lra]|]. symmetry. apply nearest_frnd.
Qed.
Print Assumptions C95_noise.

(** ** The filters *)

(** Whatever the measurements within [2^j] and however many: the filter with or without process
    noise has a turn for each, nothing overflows and nothing is undefined, and every turn does what
    it should ([runs]). *)
Theorem C95_filter : forall est w t tu j k v n vq noise ms rs x u rx ru,
  in_doubles t -> in_doubles tu -> update_fits est w t -> gain_fits est w tu -> covariance_fits est w tu ->
  (-1000 <= j <= 1022)%Z -> (-1000 <= k <= 1022)%Z ->
  is_held tu vq v -> 0 < v -> 4 * v <= bpow radix2 k ->
  match noise with None => n = 0 | Some q => is_held tu q n end -> 0 <= n -> 4 * n <= bpow radix2 k ->
  Forall2 (reads t) ms rs -> Forall (fun r => Rabs r <= bpow radix2 j) rs ->
  is_held t x rx -> Rabs rx <= bpow radix2 j -> is_held tu u ru -> 0 <= ru -> ru + n <= bpow radix2 k ->
  exists ts ru', quantity_filter est w noise vq x u ms = Ok ts /\
    ru <= ru' <= bpow radix2 k /\ Rabs (ru' - (ru + n)) <= bpow radix2 (k - 54) /\ runs t tu j k v n rx ru' rs ts.
Proof. intros. eapply filter_runs; eauto. Qed.
Print Assumptions C95_filter.

(** The updates accept a gain only if it is a pure number, and a measurement only if it has the
    dimension of the state. *)
Theorem C95_dimensions : forall rb est w,
  (forall x m g x', state_update est w x m g = Ok x' ->
     same_exps (dim_exps (q_dim (q_type g))) no_exps /\ same_exps (dim_exps (q_dim (q_type x))) (dim_exps (q_dim (q_type m)))) /\
  (forall p m g p', state_update_point rb est w p m g = Ok p' ->
     same_exps (dim_exps (q_dim (q_type g))) no_exps /\ same_exps (dim_exps (o_dim (p_origin (pt_type p)))) (dim_exps (o_dim (p_origin (pt_type m))))) /\
  (forall u g u', covariance_update est w u g = Ok u' -> same_exps (dim_exps (q_dim (q_type g))) no_exps).
Proof.
  intros rb est w. split; [|split].
  - intros x m g x' H. unfold state_update, innovation in H. step H as i I. step I as c C. step I as k K. apply constrained_ok in C. apply constrained_ok in K.
    exact (conj (equivalent_exps _ _ K) (equivalent_exps _ _ C)).
  - intros p m g p' H. unfold state_update_point in H. step H as c C. step H as k K. apply constrained_ok in C. apply constrained_ok in K.
    exact (conj (equivalent_exps _ _ K) (equivalent_exps _ _ C)).
  - intros u g u' H. unfold covariance_update in H. step H as k K. apply constrained_ok in K. exact (equivalent_exps _ _ K).
Qed.
Print Assumptions C95_dimensions.

(** A run has as many turns as there are measurements, and without noise no uncertainty is larger
    than the one at the start. *)
Theorem C95_turns : forall t tu j k v n x u rs ts, runs t tu j k v n x u rs ts -> length ts = length rs.
Proof. induction 1; cbn [length]; auto. Qed.
Print Assumptions C95_turns.
Theorem C95_settles : forall t tu j k v x u rs ts, runs t tu j k v 0 x u rs ts ->
  forall tr, In tr ts -> exists u', is_held tu (t_next tr) u' /\ is_held tu (t_uncertainty tr) u' /\ 0 <= u' <= u.
Proof.
  intros t tu j k v x u rs ts H. enough (G : forall n, runs t tu j k v n x u rs ts -> n = 0 -> forall tr, In tr ts -> exists u', is_held tu (t_next tr) u' /\ is_held tu (t_uncertainty tr) u' /\ 0 <= u' <= u) by (intros tr I; exact (G 0 H eq_refl tr I)).
  clear H. induction 1 as [|x u r rs tr0 ts g x' u' u'' Hg Hx Hu Hu2 G1 G2 G3 G4 X1 X2 U1 U2 N1 N2 N3 R IH]; intros Hn tr1 I1; [destruct I1|].
  specialize (N3 Hn). subst u''. destruct I1 as [E1|I1].
  - rewrite <- E1. exists u'. split; [exact Hu2|]. split; [exact Hu|]. exact U1.
  - destruct (IH Hn tr1 I1) as (y & A & B & C). exists y. split; [exact A|]. split; [exact B|]. lra.
Qed.
Print Assumptions C95_settles.

(** The filter of points is the filter of the quantities relative to the origin, point by point. *)
Theorem C95_points : forall rb est w t noise vq ms p u, in_doubles t -> point_fits est w t -> p_qtype (pt_type p) = t ->
  Forall (fun m => p_origin (pt_type m) = p_origin (pt_type p) /\ exists r, reads t (relative m) r) ms ->
  point_filter rb est w noise vq p u ms =
  (ts <- quantity_filter est w noise vq (relative p) u (map relative ms);
   Ok (map (fun tr => Turn (t_gain tr) (Point (pt_type p) (q_num (t_state tr))) (t_uncertainty tr) (t_next tr)) ts)).
Proof.
  intros rb est w t noise vq ms p u R F T M. apply (point_filter_same rb est w t noise vq ms p u R F T).
  revert M. apply Forall_impl. intros m [O (r & H)]. split; [exact O|]. exact (reads_measures _ _ _ H).
Qed.
Print Assumptions C95_points.

(** ** The running average of the first example *)

(** [xs] are, one by one, close to the means of the measurements so far. *)
Definition close_to_means (t : qtype) (j : Z) (rs : list R) (xs : list quantity) : Prop :=
  length xs = length rs /\
  forall i q, nth_error xs i = Some q -> exists x, is_held t q x /\ Rabs x <= bpow radix2 j /\
    Rabs (x - mean (firstn (S i) rs)) <= (INR i + 2) * bpow radix2 (j - 52).
Lemma near_close : forall t j rs seen xs, averages_near t j seen rs xs -> length xs = length rs /\
  forall i q, nth_error xs i = Some q -> exists x, is_held t q x /\ Rabs x <= bpow radix2 j /\
    Rabs (x - mean (seen ++ firstn (S i) rs)) <= (INR (length seen + i) + 2) * bpow radix2 (j - 52).
Proof.
  intros t j. induction rs as [|r rs IH]; intros seen [|q xs] H; cbn [averages_near] in H; try contradiction.
  - split; [reflexivity|]. intros [|i] q H'; discriminate H'.
  - destruct H as [(x & A & B & C) H]. destruct (IH _ _ H) as [L N]. split; [cbn [length]; now rewrite L|]. intros [|i] q0 E.
    + cbn [nth_error] in E. inversion E; subst q0. exists x. rewrite Nat.add_0_r. cbn [firstn]. auto.
    + destruct (N i q0 E) as (y & A' & B' & C'). exists y. split; [exact A'|]. split; [exact B'|].
      rewrite app_length in C'. cbn [length] in C'. replace (length seen + 1 + i)%nat with (length seen + S i)%nat in C' by lia.
      rewrite <- app_assoc in C'. exact C'.
Qed.

(** Fewer than 2^31 - 1 measurements within [2^j], whatever the initial state within [2^j]: the
    state after [n] of them is their mean, up to [n + 1] units of [2^j]. *)
Theorem C95_average : forall est w t j ms rs x rx, in_doubles t -> update_fits est w t -> (-1000 <= j <= 1022)%Z ->
  Forall2 (reads t) ms rs -> Forall (fun r => Rabs r <= bpow radix2 j) rs -> is_held t x rx -> Rabs rx <= bpow radix2 j ->
  (Z.of_nat (length ms) < 2147483647)%Z ->
  exists xs, averages est w x ms = Ok xs /\ close_to_means t j rs xs.
Proof.
  intros est w t j ms rs x rx R F J M B X Bx L. destruct (average_runs est w t j R F J ms rs M B [] x rx X Bx) as (xs & E & H).
  - cbn [length INR total fold_right]. rewrite !Rmult_0_l, Rminus_0_r, Rabs_R0. lra.
  - cbn [length]. lia.
  - exists xs. split; [exact E|]. exact (near_close t j rs [] xs H).
Qed.
Print Assumptions C95_average.

(** ** States of several variables *)

(** A measurement equal to the prediction changes no variable, whatever the gains. *)
Theorem C95_confirmed : forall est w tx tv ta ti x v a m g0 g1 g2 i rx rv ra k0 k1 k2 ri,
  in_doubles tx -> in_doubles tv -> in_doubles ta -> in_doubles ti ->
  update_fits est w tx -> rate_fits est w tx tv ti -> acceleration_fits est w tx ta ti ->
  is_held tx x rx -> is_held tv v rv -> is_held ta a ra -> reads tx m rx ->
  is_held pure_number g0 k0 -> is_held pure_number g1 k1 -> is_held pure_number g2 k2 -> is_held ti i ri -> bpow radix2 (-500) <= Rabs ri <= bpow radix2 500 ->
  (exists x', state_update est w x m g0 = Ok x' /\ is_held tx x' rx) /\
  (exists x' v', state_update_2 est w x v m g0 g1 i = Ok (x', v') /\ is_held tx x' rx /\ is_held tv v' rv) /\
  (exists x' v' a', state_update_3 est w x v a m g0 g1 g2 i = Ok (x', v', a') /\ is_held tx x' rx /\ is_held tv v' rv /\ is_held ta a' ra).
Proof.
  intros est w tx tv ta ti x v a m g0 g1 g2 i rx rv ra k0 k1 k2 ri Rx Rv Ra Ri Fu Fr Fa X V A M G0 G1 G2 I [B1 B2].
  destruct (held_fmt _ _ _ X) as [Fx Lx]. destruct (held_fmt _ _ _ V) as [Fv Lv]. destruct (held_fmt _ _ _ A) as [Fa' La].
  assert (Z : ri <> 0) by (intros ->; rewrite Rabs_R0 in B1; pose proof (pw_pos (-500)); lra).
  assert (Sq : pw (-1000) <= ri * ri <= pw 1000).
  { rewrite <- Rabs_right with (r := ri * ri) by (apply Rle_ge; nra). rewrite Rabs_mult. change (-1000)%Z with (-500 + -500)%Z. change 1000%Z with (500 + 500)%Z. rewrite !bpow_plus.
    pose proof (pw_pos (-500)). pose proof (Rabs_pos ri). split; apply Rmult_le_compat; lra. }
  assert (Rs : pw (-1000) <= rnd (ri * ri) <= pw 1000) by (split; [apply rnd_ge|apply rnd_le]; try (apply fmt_pw; lia); lra).
  assert (Hs : pw (-1001) <= half_square ri).
  { unfold half_square. apply rnd_ge; [apply fmt_pw; lia|]. change (-1001)%Z with (-1000 - 1)%Z. rewrite pw_half. lra. }
  pose proof (pw_pos (-1000)). pose proof (pw_pos (-1001)).
  pose proof (same_small rx k0 Fx Lx) as S0. pose proof (same_rate_small rx k1 rv ri Fv Lv) as S1. pose proof (same_rate_small rx k2 ra (half_square ri) Fa' La) as S2. split; [|split].
  - destruct (update_held est w tx x m g0 rx rx k0 Rx Fu X M G0 S0) as (x' & E & H'). exists x'. rewrite same_update in H' by exact Fx. auto.
  - destruct (update_2_held est w tx tv ti x v m g0 g1 i rx rv rx k0 k1 ri Rx Rv Ri Fu Fr X V M G0 G1 I Z S0 S1) as (x' & v' & E & H1 & H2).
    rewrite same_update in H1 by exact Fx. rewrite same_rate in H2 by exact Fv. exists x', v'. auto.
  - destruct (update_3_held est w tx tv ta ti x v a m g0 g1 g2 i rx rv ra rx k0 k1 k2 ri Rx Rv Ra Ri Fu Fr Fa X V A M G0 G1 G2 I Z) as (x' & v' & a' & E & H1 & H2 & H3); auto.
    + apply (small_by _ 1000); [lia|]. rewrite Rabs_right; lra.
    + apply (small_by _ 1000); [lia|]. rewrite Rabs_right; lra.
    + lra.
    + rewrite same_update in H1 by exact Fx. rewrite same_rate in H2 by exact Fv. rewrite same_rate in H3 by exact Fa'. exists x', v', a'. auto.
Qed.
Print Assumptions C95_confirmed.

(** Any measurement: with gains from 0 to 1, an interval that is not too short for the velocity
    and acceleration to stay within [2^l] and [2^n], every variable is within a few half units of
    its size of what the formulas of the filter say. *)
Theorem C95_rates : forall est w tx tv ta ti x v a m g0 g1 g2 i rx rv ra r k0 k1 k2 ri j l n,
  in_doubles tx -> in_doubles tv -> in_doubles ta -> in_doubles ti ->
  update_fits est w tx -> rate_fits est w tx tv ti -> acceleration_fits est w tx ta ti ->
  is_held tx x rx -> is_held tv v rv -> is_held ta a ra -> reads tx m r ->
  is_held pure_number g0 k0 -> is_held pure_number g1 k1 -> is_held pure_number g2 k2 -> is_held ti i ri ->
  0 <= k0 <= 1 -> 0 <= k1 <= 1 -> 0 <= k2 <= 1 -> bpow radix2 (-500) <= Rabs ri <= bpow radix2 500 ->
  (-1000 <= j <= 1022)%Z -> (-1000 <= l <= 1022)%Z -> (-1000 <= n <= 1022)%Z -> (n <= j + 1002)%Z ->
  Rabs rx <= bpow radix2 j -> Rabs r <= bpow radix2 j -> Rabs rv <= bpow radix2 l -> Rabs ra <= bpow radix2 n ->
  bpow radix2 (j + 1 - l) <= Rabs ri -> bpow radix2 (j + 1 - n) <= ri * ri / 2 ->
  exists x' v' a' rx' rv' ra', state_update_2 est w x v m g0 g1 i = Ok (x', v') /\ state_update_3 est w x v a m g0 g1 g2 i = Ok (x', v', a') /\
    is_held tx x' rx' /\ Rabs (rx' - (rx + k0 * (r - rx))) <= 3 * bpow radix2 (j - 53) /\
    is_held tv v' rv' /\ Rabs (rv' - (rv + k1 * (r - rx) / ri)) <= 3 * bpow radix2 (l - 53) /\
    is_held ta a' ra' /\ Rabs (ra' - (ra + k2 * (r - rx) / (ri * ri / 2))) <= 3 * bpow radix2 (n - 52).
Proof.
  intros est w tx tv ta ti x v a m g0 g1 g2 i rx rv ra r k0 k1 k2 ri j l n Rx Rv Ra Ri Fu Fr Fa X V A M G0 G1 G2 I K0 K1 K2 Bi J L N NJ Bx Br Bv Ba Bl Bn.
  destruct (held_fmt _ _ _ X) as [Fx Lx]. pose proof (reads_fmt _ _ _ M) as Fm. pose proof (pw_pos (-500)).
  assert (Z : ri <> 0) by (intros ->; rewrite Rabs_R0 in Bi; lra).
  pose proof (update_is_small rx r k0 j Fx Fm K0 J Bx Br) as S0. pose proof (update_err rx r k0 j Fx Fm K0 J Bx Br) as E0.
  destruct (rate_err rx r k1 rv ri j l Fx Fm K1 J L Bx Br Bv Bl) as (S1 & E1 & _).
  destruct (curve_rate_err rx r k2 ra ri j n Fx Fm K2 J N NJ Bx Br Ba Bi Bn) as (S2 & E2).
  assert (Sq : 0 <= ri * ri <= pw 1000).
  { split; [nra|]. rewrite <- Rabs_right with (r := ri * ri) by (apply Rle_ge; nra). rewrite Rabs_mult. change 1000%Z with (500 + 500)%Z. rewrite bpow_plus.
    pose proof (Rabs_pos ri). apply Rmult_le_compat; lra. }
  assert (Rs : 0 <= rnd (ri * ri) <= pw 1000) by (split; [apply rnd_ge; [apply fmt_0|lra]|apply rnd_le; [apply fmt_pw; lia|lra]]).
  destruct (half_square_near ri Bi) as (_ & _ & Hs). specialize (Hs (-1001)%Z ltac:(lia)).
  assert (Hp : 0 < half_square ri).
  { pose proof (pw_pos (-1001)). eapply Rlt_le_trans; [|apply Hs]; [assumption|]. change (-1001)%Z with (-500 + -500 - 1)%Z. rewrite pw_half, bpow_plus.
    enough (pw (-500) * pw (-500) <= ri * ri) by lra. rewrite <- (Rabs_right (ri * ri)) by (apply Rle_ge; lra). rewrite Rabs_mult. apply Rmult_le_compat; lra. }
  destruct (update_2_held est w tx tv ti x v m g0 g1 i rx rv r k0 k1 ri Rx Rv Ri Fu Fr X V M G0 G1 I Z S0 S1) as (x2 & v2 & U2 & H1 & H2).
  destruct (update_3_held est w tx tv ta ti x v a m g0 g1 g2 i rx rv ra r k0 k1 k2 ri Rx Rv Ra Ri Fu Fr Fa X V A M G0 G1 G2 I Z) as (x3 & v3 & a3 & U3 & H3 & H4 & H5); auto.
  - apply (small_by _ 1000); [lia|]. rewrite Rabs_right; lra.
  - apply (small_by _ 1000); [lia|]. rewrite Rabs_right; lra.
  - lra.
  - assert (x3 = x2 /\ v3 = v2) as [-> ->].
    { clear - U2 U3. unfold state_update_2 in U2. unfold state_update_3 in U3. step U2 as q1 Q1. rewrite Q1 in U3. cbn [bind] in U3. step U2 as q2 Q2. rewrite Q2 in U3. cbn [bind] in U3.
      step U3 as q3 Q3. step U2 as y1 Y1. rewrite Y1 in U3. cbn [bind] in U3. step U2 as y2 Y2. rewrite Y2 in U3. cbn [bind] in U3. step U3 as y3 Y3. inversion U2; inversion U3; subst; auto. }
    exists x2, v2, a3, (update_of rx r k0), (rate_of rx r k1 rv ri), (rate_of rx r k2 ra (half_square ri)).
    split; [exact U2|]. split; [exact U3|]. split; [exact H1|]. split; [exact E0|]. split; [exact H2|]. split; [exact E1|]. split; [exact H5|exact E2].
Qed.
Print Assumptions C95_rates.

(** The extrapolation of a position by a velocity. *)
Lemma moved_err : forall x v i j, (-1000 <= j <= 1021)%Z -> Rabs x <= pw j -> Rabs (v * i) <= pw j ->
  small_enough (v * i) /\ small_enough (x + rnd (v * i)) /\ Rabs (moved x v i) <= pw (j + 1) /\ Rabs (moved x v i - (x + v * i)) <= 3 * pw (j - 54).
Proof.
  intros x v i j J Bx Bv. assert (Rv : Rabs (rnd (v * i)) <= pw j) by (apply (frnd_abs_le F64); [cbn; lia|exact Bv]).
  assert (Bs : Rabs (x + rnd (v * i)) <= pw (j + 1)) by (rewrite pw_step; eapply Rle_trans; [apply Rabs_triang|]; lra).
  split; [apply (small_by _ j); [lia|exact Bv]|]. split; [apply (small_by _ (j + 1)); [lia|exact Bs]|]. split; [apply (frnd_abs_le F64); [cbn; lia|exact Bs]|].
  assert (E1 : Rabs (rnd (v * i) - v * i) <= pw (j - 54)) by (apply half_ulp; [lia|exact Bv]).
  assert (E2 : Rabs (moved x v i - (x + rnd (v * i))) <= pw (j + 1 - 54)) by (apply half_ulp; [lia|exact Bs]).
  replace (j + 1 - 54)%Z with (j - 54 + 1)%Z in E2 by lia. rewrite pw_step in E2.
  replace (moved x v i - (x + v * i)) with ((moved x v i - (x + rnd (v * i))) + (rnd (v * i) - v * i)) by ring. eapply Rle_trans; [apply Rabs_triang|]. lra.
Qed.
Theorem C95_extrapolation : forall est w tx tv ti x v i rx rv ri j, in_doubles tx -> in_doubles tv -> in_doubles ti -> motion_fits est w tx tv ti ->
  is_held tx x rx -> is_held tv v rv -> is_held ti i ri -> (-1000 <= j <= 1021)%Z -> Rabs rx <= bpow radix2 j -> Rabs (rv * ri) <= bpow radix2 j ->
  exists x' rx', state_extrapolation_2 est w x v i = Ok (x', v) /\ is_held tx x' rx' /\ Rabs (rx' - (rx + rv * ri)) <= 3 * bpow radix2 (j - 54).
Proof.
  intros est w tx tv ti x v i rx rv ri j Rx Rv Ri F X V I J Bx Bv. destruct (moved_err rx rv ri j J Bx Bv) as (S1 & S2 & _ & E).
  destruct (moved_held est w tx tv ti x v i rx rv ri Rx Rv Ri F X V I S1 S2) as (x' & Ex & Hx). exists x', (moved rx rv ri). auto.
Qed.
Print Assumptions C95_extrapolation.

(** And with an acceleration, for any implementation of [std::pow]: [p] is what it returns for the
    square of the interval. *)
Theorem C95_extrapolation_3 : forall est w l tx tv ta ti x v a i rx rv ra j, in_doubles tx -> in_doubles tv -> in_doubles ta -> in_doubles ti ->
  curve_fits est w tx tv ta ti -> motion_fits est w tv ta ti -> is_held tx x rx -> is_held tv v rv -> is_held ta a ra ->
  is_number F64 i -> is_number F64 (m_pow l F64 i (float_of_int F64 2)) -> (-1000 <= j <= 1020)%Z ->
  let ri := fval i in let p := fval (m_pow l F64 i (float_of_int F64 2)) in
  Rabs rx <= bpow radix2 j -> Rabs (rv * ri) <= bpow radix2 j -> Rabs (ra * p) <= bpow radix2 j -> Rabs rv <= bpow radix2 j -> Rabs (ra * ri) <= bpow radix2 j ->
  exists x' v' rx' rv', state_extrapolation_3 est w l x v a (Quantity ti (NFlt i)) = Ok (x', v', a) /\
    is_held tx x' rx' /\ Rabs (rx' - (rx + rv * ri + ra * p / 2)) <= bpow radix2 (j - 51) /\
    is_held tv v' rv' /\ Rabs (rv' - (rv + ra * ri)) <= 3 * bpow radix2 (j - 54).
Proof.
  intros est w l tx tv ta ti x v a i rx rv ra j Rx Rv Ra Ri F Fm X V A Ni Np J ri p B1 B2 B3 B4 B5.
  destruct (moved_err rx rv ri j ltac:(lia) B1 B2) as (S1 & S2 & M1 & E1). destruct (moved_err rv ra ri j ltac:(lia) B4 B5) as (S3 & S4 & M2 & E2).
  assert (Rp : Rabs (rnd (ra * p)) <= pw j) by (apply (frnd_abs_le F64); [cbn; lia|exact B3]).
  assert (Bh : Rabs (rnd (ra * p) / 2) <= pw (j - 1)).
  { unfold Rdiv. rewrite Rabs_mult, (Rabs_right (/ 2)) by lra. rewrite pw_half. lra. }
  assert (Rh : Rabs (rnd (rnd (ra * p) / 2)) <= pw (j - 1)) by (apply (frnd_abs_le F64); [cbn; lia|exact Bh]).
  assert (Bc : Rabs (moved rx rv ri + rnd (rnd (ra * p) / 2)) <= pw (j + 2)).
  { eapply Rle_trans; [apply Rabs_triang|]. replace (j + 2)%Z with (j + 1 + 1)%Z by lia. rewrite pw_half in Rh. rewrite pw_step in M1. rewrite !pw_step. pose proof (pw_pos j). lra. }
  destruct (curved_held est w l tx tv ta ti x v a i rx rv ra Rx Rv Ra Ri F Fm X V A Ni Np S1 S2) as (x' & v' & E & Hx & Hv); auto.
  - apply (small_by _ j); [lia|exact B3].
  - apply (small_by _ (j - 1)); [lia|exact Bh].
  - apply (small_by _ (j + 2)); [lia|exact Bc].
  - fold ri in Hx, Hv. exists x', v', (curved rx rv ra ri p), (moved rv ra ri). split; [exact E|]. split; [exact Hx|]. split; [|split; [exact Hv|exact E2]].
    assert (E3 : Rabs (rnd (ra * p) - ra * p) <= pw (j - 54)) by (apply half_ulp; [lia|exact B3]).
    assert (E4 : Rabs (rnd (rnd (ra * p) / 2) - rnd (ra * p) / 2) <= pw (j - 1 - 54)) by (apply half_ulp; [lia|exact Bh]).
    assert (E5 : Rabs (curved rx rv ra ri p - (moved rx rv ri + rnd (rnd (ra * p) / 2))) <= pw (j + 2 - 54)) by (apply half_ulp; [lia|exact Bc]).
    replace (j - 1 - 54)%Z with (j - 54 - 1)%Z in E4 by lia. rewrite pw_half in E4. replace (j + 2 - 54)%Z with (j - 54 + 1 + 1)%Z in E5 by lia. rewrite !pw_step in E5.
    replace (j - 51)%Z with (j - 54 + 1 + 1 + 1)%Z by lia. rewrite !pw_step. apply Rabs_le_inv in E1, E3, E4, E5. apply Rabs_le. lra.
Qed.
Print Assumptions C95_extrapolation_3.

(** * Cases *)

Definition tx : qtype := flt dim_L metre F64.
Definition tv : qtype := QType dim_speed metre_per_second double.
Definition ti : qtype := flt dim_T second F64.

(** Lengths in metres and their squares, speeds and accelerations fit. *)
Lemma types_fit : forall est w, si_world = Ok w -> exists tu ta, product_type w tx tx = Ok tu /\ quotient_type w tv ti = Ok ta /\ in_doubles tu /\ in_doubles ta /\
  gain_fits est w tu /\ update_fits est w tx /\ point_fits est w tx /\ covariance_fits est w tu /\ motion_fits est w tx tv ti /\ motion_fits est w tv ta ti /\
  rate_fits est w tx tv ti /\ acceleration_fits est w tx ta ti /\ curve_fits est w tx tv ta ti.
Proof.
  intros est w W. vm_compute in W. injection W as <-. eexists. eexists. split; [vm_compute; reflexivity|]. split; [vm_compute; reflexivity|].
  split; [reflexivity|]. split; [reflexivity|]. split; [vm_compute; reflexivity|]. split; [vm_compute; reflexivity|]. split; [vm_compute; reflexivity|].
  split; [split; vm_compute; reflexivity|]. split; [vm_compute; reflexivity|]. split; [vm_compute; reflexivity|]. split; [vm_compute; reflexivity|].
  split; [|vm_compute; reflexivity]. eexists. split; [vm_compute; reflexivity|vm_compute; reflexivity].
Qed.

Lemma int_held : forall t z, in_doubles t -> (Z.abs z <= 2 ^ 53)%Z -> is_held t (Quantity t (NFlt (float_of_int F64 z))) (IZR z).
Proof. intros t z R B. destruct (of_int_exact F64 z B) as [N V]. eexists. split; [reflexivity|]. now split. Qed.

(** The fifth example: an initial estimate of 60 m with the uncertainty 225 m^2, measurements with
    the uncertainty 25 m^2; any number of measurements up to 1024 m, of integers as well. *)
Example C95_ex : forall est w zs, si_world = Ok w -> Forall (fun z => (Z.abs z <= 1024)%Z) zs -> exists tu, product_type w tx tx = Ok tu /\
  exists ts ru', quantity_filter est w None (Quantity tu (NFlt (float_of_int F64 25))) (Quantity tx (NFlt (float_of_int F64 60))) (Quantity tu (NFlt (float_of_int F64 225)))
    (map (fun z => Quantity (lengths metre I32) (NInt z)) zs) = Ok ts /\ length ts = length zs /\ runs tx tu 10 10 25 0 60 ru' (map IZR zs) ts /\ 225 <= ru' <= 1024.
Proof.
  intros est w zs W B. destruct (types_fit est w W) as (tu & ta & Tu & _ & Ru & _ & FG & FU & _ & FC & _). exists tu. split; [exact Tu|].
  assert (P10 : pw 10 = 1024) by reflexivity.
  destruct (C95_filter est w tx tu 10 10 25 0 (Quantity tu (NFlt (float_of_int F64 25))) None (map (fun z => Quantity (lengths metre I32) (NInt z)) zs) (map IZR zs)
    (Quantity tx (NFlt (float_of_int F64 60))) (Quantity tu (NFlt (float_of_int F64 225))) 60 225) as (ts & ru' & E & B' & _ & H); auto; try lia; try (rewrite P10; lra); try lra.
  - reflexivity.
  - apply int_held; [exact Ru|lia].
  - induction B as [|z zs Hz _ IH]; cbn [map]; constructor; auto. apply (reads_integer tx I32 z); [|lia]. unfold in_range. cbn. apply andb_true_iff. split; apply Z.leb_le; lia.
  - clear - B P10. induction B as [|z zs Hz _ IH]; cbn [map]; constructor; auto. rewrite <- abs_IZR, P10. now apply IZR_le.
  - apply int_held; [reflexivity|lia].
  - rewrite P10, Rabs_right; lra.
  - apply int_held; [exact Ru|lia].
  - exists ts, ru'. split; [exact E|]. rewrite (C95_turns _ _ _ _ _ _ _ _ _ _ H), map_length. split; [reflexivity|]. split; [exact H|]. now rewrite P10 in B'.
Qed.

(** Its first gain is the double nearest to 0.9. *)
Example C95_ex_gain : forall est w, si_world = Ok w -> exists tu, product_type w tx tx = Ok tu /\
  kalman_gain est w (Quantity tu (NFlt (float_of_int F64 225))) (Quantity tu (NFlt (float_of_int F64 25))) =
  Ok (Quantity pure_number (NFlt (SFdiv (fprec F64) (femax F64) (float_of_int F64 9) (float_of_int F64 10)))).
Proof. intros est w W. vm_compute in W. injection W as <-. eexists. split; [vm_compute; reflexivity|vm_compute; reflexivity]. Qed.

(** The uncertainty 225 m^2 is updated with the gain 0.5, but not with one of 0.5 m. *)
Example C95_ex_dimensions : forall est w, si_world = Ok w -> exists tu, product_type w tx tx = Ok tu /\
  let half := NFlt (SFdiv (fprec F64) (femax F64) (float_of_int F64 1) (float_of_int F64 2)) in
  (exists u, covariance_update est w (Quantity tu (NFlt (float_of_int F64 225))) (Quantity pure_number half) = Ok u) /\
  covariance_update est w (Quantity tu (NFlt (float_of_int F64 225))) (Quantity tx half) = IllFormed.
Proof. intros est w W. vm_compute in W. injection W as <-. eexists. split; [vm_compute; reflexivity|]. cbv zeta. split; [eexists|]; vm_compute; reflexivity. Qed.

(** Points on the axis of lengths. *)
Example C95_ex_points : forall rb est w noise vq u x zs, si_world = Ok w -> let pt := PType (ODynamic (DBase dim_L)) metre double in
  point_filter rb est w noise vq (Point pt x) u (map (fun z => Point (PType (ODynamic (DBase dim_L)) metre double) (NFlt (float_of_int F64 z))) (List.filter (fun z => Z.abs z <=? 2 ^ 53)%Z zs)) =
  (ts <- quantity_filter est w noise vq (Quantity tx x) u (map (fun z => Quantity tx (NFlt (float_of_int F64 z))) (List.filter (fun z => Z.abs z <=? 2 ^ 53)%Z zs));
   Ok (map (fun tr => Turn (t_gain tr) (Point pt (q_num (t_state tr))) (t_uncertainty tr) (t_next tr)) ts)).
Proof.
  intros rb est w noise vq u x zs W pt. destruct (types_fit est w W) as (tu & ta & _ & _ & _ & _ & _ & _ & FP & _).
  rewrite (C95_points rb est w tx noise vq _ (Point pt x) u eq_refl FP eq_refl).
  - rewrite map_map. reflexivity.
  - apply Forall_forall. intros m H. apply in_map_iff in H. destruct H as (z & <- & I). apply filter_In in I. destruct I as [_ I]. apply Z.leb_le in I.
    split; [reflexivity|]. exists (IZR z). apply (reads_held tx); [reflexivity|]. apply int_held; [reflexivity|exact I].
Qed.

(** The first example, with lengths: the averages of any integers up to 2^20. *)
Example C95_ex_average : forall est w zs, si_world = Ok w -> Forall (fun z => (Z.abs z <= 1048576)%Z) zs -> (Z.of_nat (length zs) < 2147483647)%Z ->
  exists xs, averages est w (Quantity tx (NFlt (float_of_int F64 1000))) (map (fun z => Quantity (lengths metre I32) (NInt z)) zs) = Ok xs /\ close_to_means tx 20 (map IZR zs) xs.
Proof.
  intros est w zs W B L. destruct (types_fit est w W) as (tu & ta & _ & _ & _ & _ & _ & FU & _). assert (P20 : pw 20 = 1048576) by reflexivity.
  apply (C95_average est w tx 20 _ (map IZR zs) _ 1000); auto; try lia.
  - reflexivity.
  - induction B as [|z zs Hz _ IH]; cbn [map]; constructor; [|apply IH; cbn [length] in L; lia]. apply (reads_integer tx I32 z); [|lia]. unfold in_range. cbn. apply andb_true_iff. split; apply Z.leb_le; lia.
  - clear - B P20. induction B as [|z zs Hz _ IH]; cbn [map]; constructor; auto. rewrite <- abs_IZR, P20. now apply IZR_le.
  - apply int_held; [reflexivity|lia].
  - rewrite P20, Rabs_right; lra.
  - now rewrite map_length.
Qed.

(** What does not hold: an updated state need not lie between the prediction and the measurement.
    From 1 - 2^53 m, the measurement 4 m with the gain one leads to 5 m. *)
Theorem C95_between_refuted : forall est w, si_world = Ok w ->
  exists x m q x', is_held tx x (1 - 2 ^ 53) /\ reads tx m 4 /\ is_held pure_number q 1 /\ state_update est w x m q = Ok x' /\ is_held tx x' 5.
Proof.
  intros est w W. exists (Quantity tx (NFlt (float_of_int F64 (1 - 2 ^ 53)))), (Quantity (lengths metre I32) (NInt 4)), (Quantity pure_number (NFlt (float_of_int F64 1))), (Quantity tx (NFlt (float_of_int F64 5))).
  split; [|split; [|split; [|split]]].
  - replace (1 - 2 ^ 53) with (IZR (1 - 2 ^ 53)) by (cbn; lra). apply int_held; [reflexivity|vm_compute; discriminate].
  - apply (reads_integer tx I32 4); [reflexivity|vm_compute; discriminate].
  - apply int_held; [reflexivity|vm_compute; discriminate].
  - vm_compute in W. injection W as <-. vm_compute. reflexivity.
  - apply int_held; [reflexivity|vm_compute; discriminate].
Qed.
Print Assumptions C95_between_refuted.

(** The hypotheses of the theorems on several variables hold for metres, metres per second and
    seconds ([types_fit]); a car at 30 km that passes 30 m in a second, seen where it was predicted. *)
Example C95_ex_confirmed : forall est w g0 g1 k0 k1, si_world = Ok w -> is_held pure_number g0 k0 -> is_held pure_number g1 k1 ->
  exists x' v', state_update_2 est w (Quantity tx (NFlt (float_of_int F64 30000))) (Quantity tv (NFlt (float_of_int F64 30))) (Quantity (lengths metre I32) (NInt 30000)) g0 g1
    (Quantity ti (NFlt (float_of_int F64 5))) = Ok (x', v') /\ is_held tx x' 30000 /\ is_held tv v' 30 /\
  exists x'', state_extrapolation_2 est w x' v' (Quantity ti (NFlt (float_of_int F64 5))) = Ok (x'', v') /\ is_held tx x'' 30150.
Proof.
  intros est w g0 g1 k0 k1 W G0 G1. destruct (types_fit est w W) as (tu & ta & _ & _ & _ & Ra & _ & FU & _ & _ & FM & _ & FR & FA & _).
  assert (I : is_held ti (Quantity ti (NFlt (float_of_int F64 5))) 5) by (apply int_held; [reflexivity|vm_compute; discriminate]).
  assert (A : is_held ta (Quantity ta (NFlt (float_of_int F64 0))) 0) by (apply int_held; [exact Ra|vm_compute; discriminate]).
  assert (H : bpow radix2 (-500) <= Rabs 5 <= bpow radix2 500).
  { rewrite Rabs_right by lra. split; [apply Rle_trans with (bpow radix2 0); [apply bpow_le; lia|cbn; lra]|apply Rle_trans with (bpow radix2 3); [cbn; lra|apply bpow_le; lia]]. }
  destruct (C95_confirmed est w tx tv ta ti (Quantity tx (NFlt (float_of_int F64 30000))) (Quantity tv (NFlt (float_of_int F64 30))) (Quantity ta (NFlt (float_of_int F64 0)))
    (Quantity (lengths metre I32) (NInt 30000)) g0 g1 g0 (Quantity ti (NFlt (float_of_int F64 5))) 30000 30 0 k0 k1 k0 5 eq_refl eq_refl Ra eq_refl FU FR FA) as (_ & (x' & v' & E & Hx & Hv) & _); auto.
  - apply int_held; [reflexivity|vm_compute; discriminate].
  - apply int_held; [reflexivity|vm_compute; discriminate].
  - apply (reads_integer tx I32 30000); [reflexivity|vm_compute; discriminate].
  - exists x', v'. split; [exact E|]. split; [exact Hx|]. split; [exact Hv|].
    assert (F150 : fmt 150) by (apply (format_int F64 150); vm_compute; discriminate). assert (F30150 : fmt 30150) by (apply (format_int F64 30150); vm_compute; discriminate).
    destruct (moved_held est w tx tv ti x' v' (Quantity ti (NFlt (float_of_int F64 5))) 30000 30 5 eq_refl eq_refl eq_refl FM Hx Hv I) as (x'' & E2 & H2).
    + apply (small_by _ 20); [lia|]. change (pw 20) with 1048576. rewrite Rabs_right; lra.
    + replace (30 * 5) with 150 by ring. rewrite (frnd_id F64 150 F150). apply (small_by _ 20); [lia|]. change (pw 20) with 1048576. rewrite Rabs_right; lra.
    + exists x''. split; [exact E2|]. replace (moved 30000 30 5) with 30150 in H2; [exact H2|]. unfold moved. replace (30 * 5) with 150 by ring. rewrite (frnd_id F64 150 F150).
      replace (30000 + 150) with 30150 by ring. symmetry. now apply frnd_id.
Qed.

(** The same car seen at 30110 m, with gains of one: any initial velocity up to 100 m/s. *)
Example C95_ex_rates : forall est w zv, si_world = Ok w -> (Z.abs zv <= 100)%Z ->
  exists x' v' rx' rv', state_update_2 est w (Quantity tx (NFlt (float_of_int F64 30000))) (Quantity tv (NFlt (float_of_int F64 zv))) (Quantity (lengths metre I32) (NInt 30110))
    (Quantity pure_number (NFlt (float_of_int F64 1))) (Quantity pure_number (NFlt (float_of_int F64 1))) (Quantity ti (NFlt (float_of_int F64 5))) = Ok (x', v') /\
  is_held tx x' rx' /\ Rabs (rx' - 30110) <= 3 * bpow radix2 (-38) /\ is_held tv v' rv' /\ Rabs (rv' - (IZR zv + 22)) <= 3 * bpow radix2 (-39).
Proof.
  intros est w zv W B. destruct (types_fit est w W) as (tu & ta & _ & _ & _ & Ra & _ & FU & _ & _ & _ & _ & FR & FA & _).
  destruct (C95_rates est w tx tv ta ti (Quantity tx (NFlt (float_of_int F64 30000))) (Quantity tv (NFlt (float_of_int F64 zv))) (Quantity ta (NFlt (float_of_int F64 0))) (Quantity (lengths metre I32) (NInt 30110))
    (Quantity pure_number (NFlt (float_of_int F64 1))) (Quantity pure_number (NFlt (float_of_int F64 1))) (Quantity pure_number (NFlt (float_of_int F64 1))) (Quantity ti (NFlt (float_of_int F64 5)))
    30000 (IZR zv) 0 30110 1 1 1 5 15 14 13) as (x' & v' & a' & rx' & rv' & ra' & U & _ & H1 & H2 & H3 & H4 & _); auto; try lia; try lra; try reflexivity.
  - apply int_held; [reflexivity|vm_compute; discriminate].
  - apply int_held; [reflexivity|]. lia.
  - apply int_held; [exact Ra|vm_compute; discriminate].
  - apply (reads_integer tx I32 30110); [reflexivity|vm_compute; discriminate].
  - apply int_held; [reflexivity|vm_compute; discriminate].
  - apply int_held; [reflexivity|vm_compute; discriminate].
  - apply int_held; [reflexivity|vm_compute; discriminate].
  - apply int_held; [reflexivity|vm_compute; discriminate].
  - rewrite Rabs_right by lra. assert (pw (-500) <= pw 0) by (apply bpow_le; lia). assert (pw 3 <= pw 500) by (apply bpow_le; lia).
    change (pw 0) with 1 in *. change (pw 3) with 8 in *. lra.
  - rewrite Rabs_right by lra. change (pw 15) with 32768. lra.
  - rewrite Rabs_right by lra. change (pw 15) with 32768. lra.
  - rewrite <- abs_IZR. change (pw 14) with (IZR 16384). apply IZR_le. lia.
  - rewrite Rabs_R0. left. apply pw_pos.
  - rewrite Rabs_right by lra. change (pw (15 + 1 - 14)) with 4. lra.
  - change (pw (15 + 1 - 13)) with 8. lra.
  - exists x', v', rx', rv'. split; [exact U|]. split; [exact H1|]. split; [|split; [exact H3|]].
    + change (15 - 53)%Z with (-38)%Z in H2. replace (rx' - 30110) with (rx' - (30000 + 1 * (30110 - 30000))) by ring. exact H2.
    + change (14 - 53)%Z with (-39)%Z in H4. replace (rv' - (IZR zv + 22)) with (rv' - (IZR zv + 1 * (30110 - 30000) / 5)) by field. exact H4.
Qed.
