(** The functions of the Kalman filters for states of several variables. *)

From Coq Require Import ZArith Reals Bool Lia Lra SpecFloat String List.
From Flocq Require Import Core Relative.
From Verif Require Import Outcome CInt Root Ratio Unit Dim DimOp Equivalent Rep Reference QuantityCast CommonQuantity Quantity Point Math
  SpecReal FloatProofs FloatCastProofs SpecOrder SpecQuantity QuantityProofs QuantityProofs2 FloatOrderProofs Kalman SpecKalman KalmanProofs KalmanReals KalmanFilterProofs.
Import ListNotations.
Local Open Scope R_scope.
Local Open Scope res_scope.

Lemma two_exact : is_number F64 (float_of_int F64 2) /\ fval (float_of_int F64 2) = 2.
Proof. apply of_int_exact. vm_compute. discriminate. Qed.
Lemma halved : forall t q r, in_doubles t -> is_held t q r -> small_enough (r / 2) ->
  exists h, q_div_value q (RInt I32) (NInt 2) = Ok h /\ is_held t h (rnd (r / 2)).
Proof.
  intros [d u rp] q r R (x & -> & N & <-) L. unfold in_doubles in R. cbn in R. subst rp. destruct two_exact as [N2 V2].
  destruct (div_rounds F64 x (float_of_int F64 2) N N2) as [Nd Vd]; rewrite V2 in *; [lra|exact L|].
  exists (Quantity (QType d u double) (NFlt (SFdiv (fprec F64) (femax F64) x (float_of_int F64 2)))). split; [|eexists; split; [reflexivity|split; [exact Nd|exact Vd]]].
  unfold q_div_value, q_scale. cbv zeta. cbn [q_type q_num q_rep]. unfold double. cbn [arith_rep safe_convertible floating orb constrained bind]. unfold n_op. cbn [arith_rep n_convert bind op_in float_op].
  rewrite (conv_same F64 x) by apply N. reflexivity.
Qed.

(** [v + k * (m - x) / i]. *)
Definition rate_of (x r k v i : R) : R := rnd (v + rnd (step_of x r k / i)).
Definition rate_small (x r k v i : R) : Prop :=
  small_enough (r - x) /\ small_enough (k * rnd (r - x)) /\ small_enough (step_of x r k / i) /\ small_enough (v + rnd (step_of x r k / i)).
Lemma rate_held : forall est w tx tv ti x m g v i rx r k rv ri, in_doubles tx -> in_doubles tv -> in_doubles ti -> rate_fits est w tx tv ti ->
  is_held tx x rx -> reads tx m r -> is_held pure_number g k -> is_held tv v rv -> is_held ti i ri -> ri <> 0 -> rate_small rx r k rv ri ->
  exists q s, (a <- innovation est w x m g; b <- q_over w a i; q_add est w v b) = Ok q /\ is_held s q (rate_of rx r k rv ri) /\ q_rep s = double /\ converts_to est s tv = Ok tt.
Proof.
  intros est w tx tv ti x m g v i rx r k rv ri Rx Rv Ri F X M G V I Z (L1 & L2 & L3 & L4). unfold rate_fits in F. step F as d D. step F as p P. step F as q Q. step F as s S.
  destruct (innovation_held est w tx d p x m g rx r k Rx D P X M G L1 L2) as (Rp & a & A & Ha).
  destruct (quotient_held w p ti q a i _ ri Rp Ri Q Ha I Z L3) as (Rq & b & B & Hb).
  destruct (sum_held OpAdd est w tv q s v b rv _ (or_introl eq_refl) Rv Rq S V Hb L4) as (Rs & c & C & Hc).
  exists c, s. split; [|split; [exact Hc|split; [exact Rs|exact F]]]. rewrite A. cbn [bind]. rewrite B. exact C.
Qed.
Lemma update_parts : forall est w t x m g rx r k, in_doubles t -> update_fits est w t -> is_held t x rx -> reads t m r -> is_held pure_number g k ->
  update_small rx r k -> exists q s, (a <- innovation est w x m g; q_add est w x a) = Ok q /\ is_held s q (update_of rx r k) /\ q_rep s = double /\ converts_to est s t = Ok tt.
Proof.
  intros est w t x m g rx r k R F X M G (L1 & L2 & L3). unfold update_fits in F. step F as d D. step F as p P. step F as s S.
  destruct (innovation_held est w t d p x m g rx r k R D P X M G L1 L2) as (Rp & q & Q & Hq).
  destruct (sum_held OpAdd est w t p s x q rx _ (or_introl eq_refl) R Rp S X Hq L3) as (Rs & q' & Q' & Hq').
  exists q', s. split; [|split; [exact Hq'|split; [exact Rs|exact F]]]. rewrite Q. exact Q'.
Qed.

Lemma update_2_held : forall est w tx tv ti x v m g0 g1 i rx rv r k0 k1 ri, in_doubles tx -> in_doubles tv -> in_doubles ti ->
  update_fits est w tx -> rate_fits est w tx tv ti -> is_held tx x rx -> is_held tv v rv -> reads tx m r -> is_held pure_number g0 k0 -> is_held pure_number g1 k1 ->
  is_held ti i ri -> ri <> 0 -> update_small rx r k0 -> rate_small rx r k1 rv ri ->
  exists x' v', state_update_2 est w x v m g0 g1 i = Ok (x', v') /\ is_held tx x' (update_of rx r k0) /\ is_held tv v' (rate_of rx r k1 rv ri).
Proof.
  intros est w tx tv ti x v m g0 g1 i rx rv r k0 k1 ri Rx Rv Ri Fu Fr X V M G0 G1 I Z L0 L1.
  destruct (update_parts est w tx x m g0 rx r k0 Rx Fu X M G0 L0) as (q1 & s1 & E1 & H1 & R1 & C1).
  destruct (rate_held est w tx tv ti x m g1 v i rx r k1 rv ri Rx Rv Ri Fr X M G1 V I Z L1) as (q2 & s2 & E2 & H2 & R2 & C2).
  destruct (to_held est s1 tx q1 _ R1 Rx C1 H1) as (x' & T1 & Hx). destruct (to_held est s2 tv q2 _ R2 Rv C2 H2) as (v' & T2 & Hv).
  exists x', v'. split; [|now split]. unfold state_update_2. rewrite E1. cbn [bind]. rewrite E2. cbn [bind].
  destruct X as (xx & -> & _). destruct V as (xv & -> & _). cbn [q_type]. rewrite T1. cbn [bind]. now rewrite T2.
Qed.

(** [interval * interval / 2]. *)
Definition half_square (i : R) : R := rnd (rnd (i * i) / 2).
Lemma update_3_held : forall est w tx tv ta ti x v a m g0 g1 g2 i rx rv ra r k0 k1 k2 ri, in_doubles tx -> in_doubles tv -> in_doubles ta -> in_doubles ti ->
  update_fits est w tx -> rate_fits est w tx tv ti -> acceleration_fits est w tx ta ti ->
  is_held tx x rx -> is_held tv v rv -> is_held ta a ra -> reads tx m r -> is_held pure_number g0 k0 -> is_held pure_number g1 k1 -> is_held pure_number g2 k2 ->
  is_held ti i ri -> ri <> 0 -> small_enough (ri * ri) -> small_enough (rnd (ri * ri) / 2) -> half_square ri <> 0 ->
  update_small rx r k0 -> rate_small rx r k1 rv ri -> rate_small rx r k2 ra (half_square ri) ->
  exists x' v' a', state_update_3 est w x v a m g0 g1 g2 i = Ok (x', v', a') /\
    is_held tx x' (update_of rx r k0) /\ is_held tv v' (rate_of rx r k1 rv ri) /\ is_held ta a' (rate_of rx r k2 ra (half_square ri)).
Proof.
  intros est w tx tv ta ti x v a m g0 g1 g2 i rx rv ra r k0 k1 k2 ri Rx Rv Ra Ri Fu Fr (th & Th & Fa) X V A M G0 G1 G2 I Z S1 S2 Zh L0 L1 L2.
  destruct (product_held w ti ti th i i ri ri Ri Ri Th I I S1) as (Rh & s & Es & Hs). destruct (halved th s _ Rh Hs S2) as (h & Eh & Hh).
  destruct (update_parts est w tx x m g0 rx r k0 Rx Fu X M G0 L0) as (q1 & s1 & E1 & H1 & R1 & C1).
  destruct (rate_held est w tx tv ti x m g1 v i rx r k1 rv ri Rx Rv Ri Fr X M G1 V I Z L1) as (q2 & s2 & E2 & H2 & R2 & C2).
  destruct (rate_held est w tx ta th x m g2 a h rx r k2 ra (half_square ri) Rx Ra Rh Fa X M G2 A Hh Zh L2) as (q3 & s3 & E3 & H3 & R3 & C3).
  destruct (to_held est s1 tx q1 _ R1 Rx C1 H1) as (x' & T1 & Hx). destruct (to_held est s2 tv q2 _ R2 Rv C2 H2) as (v' & T2 & Hv).
  destruct (to_held est s3 ta q3 _ R3 Ra C3 H3) as (a' & T3 & Ha).
  exists x', v', a'. split; [|now repeat split]. unfold state_update_3. rewrite E1. cbn [bind]. rewrite E2. cbn [bind].
  step E3 as j Ej. rewrite Ej. cbn [bind]. rewrite Es. cbn [bind]. rewrite Eh. cbn [bind]. rewrite E3. cbn [bind].
  destruct X as (xx & -> & _). destruct V as (xv & -> & _). destruct A as (xa & -> & _). cbn [q_type]. rewrite T1. cbn [bind]. rewrite T2. cbn [bind]. now rewrite T3.
Qed.

(** ** Extrapolation *)

Definition moved (x v i : R) : R := rnd (x + rnd (v * i)).
Lemma moved_held : forall est w tx tv ti x v i rx rv ri, in_doubles tx -> in_doubles tv -> in_doubles ti -> motion_fits est w tx tv ti ->
  is_held tx x rx -> is_held tv v rv -> is_held ti i ri -> small_enough (rv * ri) -> small_enough (rx + rnd (rv * ri)) ->
  exists x', state_extrapolation_2 est w x v i = Ok (x', v) /\ is_held tx x' (moved rx rv ri).
Proof.
  intros est w tx tv ti x v i rx rv ri Rx Rv Ri F X V I L1 L2. unfold motion_fits in F. step F as p P. step F as s S.
  destruct (product_held w tv ti p v i rv ri Rv Ri P V I L1) as (Rp & q & Q & Hq).
  destruct (sum_held OpAdd est w tx p s x q rx _ (or_introl eq_refl) Rx Rp S X Hq L2) as (Rs & q' & Q' & Hq').
  destruct (to_held est s tx q' _ Rs Rx F Hq') as (x' & T & Hx). exists x'. split; [|exact Hx].
  unfold state_extrapolation_2, q_add. rewrite Q. cbn [bind]. rewrite Q'. cbn [bind]. destruct X as (xx & -> & _). cbn [q_type]. now rewrite T.
Qed.

(** What [std::pow(x, 2.)] returns. *)
Definition libm_square (l : libm) (x : spec_float) : spec_float := m_pow l F64 x (float_of_int F64 2).
Lemma square_held : forall est w l ti tq x, in_doubles ti -> square_type est w ti = Ok tq -> is_number F64 x -> is_number F64 (libm_square l x) ->
  q_rep tq = double /\ exists q, q_pow est w l 2 1 (Quantity ti (NFlt x)) = Ok (inr q) /\ is_held tq q (fval (libm_square l x)).
Proof.
  intros est w l ti tq x R S N Ns. unfold square_type in S. step S as d D. step S as c C. step S as u U.
  assert (Rq : q_rep tq = double) by (unfold mk_qtype in S; step S as z Z; now inversion S). split; [exact Rq|].
  exists (Quantity tq (NFlt (libm_square l x))). split; [|now eexists].
  unfold q_pow. cbv zeta. cbn [q_type q_num]. change (constrained (negb (1 =? 0)%Z)) with (@Ok unit tt). cbn [bind]. change (2 =? 0)%Z with false. cbv iota.
  rewrite D. cbn [bind]. rewrite C. cbn [bind]. rewrite R. unfold math_result. rewrite U. cbn [bind]. rewrite S. cbn [bind].
  change (pow_fty double) with F64. cbn [to_float]. rewrite (conv_same F64 x) by apply N.
  replace (float_conv F64 (SFdiv (fprec F64) (femax F64) (float_of_int F64 2) (float_of_int F64 1))) with (float_of_int F64 2) by (vm_compute; reflexivity).
  fold (libm_square l x). unfold double. cbn [n_convert bind]. rewrite (conv_same F64 (libm_square l x)) by apply Ns. unfold q_make. rewrite Rq. unfold double.
  cbn [safe_convertible floating orb constrained bind n_convert]. rewrite (conv_same F64 (libm_square l x)) by apply Ns. reflexivity.
Qed.

Definition curved (x v a i p : R) : R := rnd (moved x v i + rnd (rnd (a * p) / 2)).
Lemma curved_held : forall est w l tx tv ta ti x v a xi rx rv ra, in_doubles tx -> in_doubles tv -> in_doubles ta -> in_doubles ti ->
  curve_fits est w tx tv ta ti -> motion_fits est w tv ta ti ->
  is_held tx x rx -> is_held tv v rv -> is_held ta a ra -> is_number F64 xi -> is_number F64 (libm_square l xi) ->
  let ri := fval xi in let p := fval (libm_square l xi) in
  small_enough (rv * ri) -> small_enough (rx + rnd (rv * ri)) -> small_enough (ra * p) -> small_enough (rnd (ra * p) / 2) ->
  small_enough (moved rx rv ri + rnd (rnd (ra * p) / 2)) -> small_enough (ra * ri) -> small_enough (rv + rnd (ra * ri)) ->
  exists x' v', state_extrapolation_3 est w l x v a (Quantity ti (NFlt xi)) = Ok (x', v', a) /\ is_held tx x' (curved rx rv ra ri p) /\ is_held tv v' (moved rv ra ri).
Proof.
  intros est w l tx tv ta ti x v a xi rx rv ra Rx Rv Ra Ri F Fm X V A Ni Np ri p L1 L2 L3 L4 L5 L6 L7. unfold curve_fits in F. step F as t1 T1. step F as t2 T2. step F as t3 T3. step F as t4 T4. step F as t5 T5.
  assert (I : is_held ti (Quantity ti (NFlt xi)) ri) by (exists xi; auto).
  destruct (product_held w tv ti t1 v _ rv ri Rv Ri T1 V I L1) as (R1 & q1 & Q1 & H1).
  destruct (sum_held OpAdd est w tx t1 t2 x q1 rx _ (or_introl eq_refl) Rx R1 T2 X H1 L2) as (R2 & q2 & Q2 & H2).
  destruct (square_held est w l ti t3 xi Ri T3 Ni Np) as (R3 & q3 & Q3 & H3).
  destruct (product_held w ta t3 t4 a q3 ra p Ra R3 T4 A H3 L3) as (R4 & q4 & Q4 & H4).
  destruct (halved t4 q4 _ R4 H4 L4) as (q5 & Q5 & H5).
  destruct (sum_held OpAdd est w t2 t4 t5 q2 q5 _ _ (or_introl eq_refl) R2 R4 T5 H2 H5 L5) as (R6 & q6 & Q6 & H6).
  destruct (to_held est t5 tx q6 _ R6 Rx F H6) as (x' & E1 & Hx).
  destruct (moved_held est w tv ta ti v a _ rv ra ri Rv Ra Ri Fm V A I L6 L7) as (v' & E2 & Hv).
  exists x', v'. split; [|now split]. unfold state_extrapolation_3. rewrite Q1. cbn [bind]. unfold q_add at 1. rewrite Q2. cbn [bind]. rewrite Q3. cbn [bind]. rewrite Q4. cbn [bind]. rewrite Q5. cbn [bind].
  unfold q_add at 1. rewrite Q6. cbn [bind]. unfold state_extrapolation_2 in E2. step E2 as q7 Q7. rewrite Q7. cbn [bind]. step E2 as q8 Q8. rewrite Q8. cbn [bind].
  destruct X as (xx & -> & _). destruct V as (xv & -> & _). cbn [q_type] in *. rewrite E1. cbn [bind]. step E2 as q9 Q9. rewrite Q9. cbn [bind]. now inversion E2.
Qed.

(** ** A measurement that confirms the prediction *)

Lemma same_step : forall x k, step_of x x k = 0.
Proof. intros x k. unfold step_of. rewrite Rminus_eq_0, (frnd_id F64 0 fmt_0), Rmult_0_r. now apply frnd_id, fmt_0. Qed.
Lemma same_update : forall x k, fmt x -> update_of x x k = x.
Proof. intros x k F. unfold update_of. rewrite same_step, Rplus_0_r. now apply frnd_id. Qed.
Lemma small_0 : small_enough 0.
Proof. apply (small_by _ 0); [lia|]. rewrite Rabs_R0. apply Rlt_le, pw_pos. Qed.
Lemma small_fmt : forall x, fmt x -> Rabs x < top -> small_enough x.
Proof. intros x F L. unfold small_enough. now rewrite (frnd_id F64 x F). Qed.
Lemma same_small : forall x k, fmt x -> Rabs x < top -> update_small x x k.
Proof.
  intros x k F L. unfold update_small. rewrite same_step, Rminus_eq_0, (frnd_id F64 0 fmt_0), Rmult_0_r, Rplus_0_r. split; [apply small_0|]. split; [apply small_0|now apply small_fmt].
Qed.
Lemma same_rate : forall x k v i, fmt v -> rate_of x x k v i = v.
Proof. intros x k v i F. unfold rate_of. rewrite same_step. unfold Rdiv. rewrite Rmult_0_l, (frnd_id F64 0 fmt_0), Rplus_0_r. now apply frnd_id. Qed.
Lemma same_rate_small : forall x k v i, fmt v -> Rabs v < top -> rate_small x x k v i.
Proof.
  intros x k v i F L. unfold rate_small. rewrite same_step, Rminus_eq_0, (frnd_id F64 0 fmt_0), Rmult_0_r. unfold Rdiv. rewrite Rmult_0_l, (frnd_id F64 0 fmt_0), Rplus_0_r.
  split; [apply small_0|]. split; [apply small_0|]. split; [apply small_0|now apply small_fmt].
Qed.

(** ** The error of a rate *)

Lemma quotient_le : forall a h e d, pw e <= Rabs h -> Rabs a <= pw d -> Rabs (a / h) <= pw (d - e).
Proof.
  intros a h e d H A. pose proof (pw_pos e). assert (Z : h <> 0) by (intros ->; rewrite Rabs_R0 in H; lra). unfold Rdiv. rewrite Rabs_mult, Rabs_inv.
  unfold Z.sub. rewrite bpow_plus, bpow_opp. apply Rmult_le_compat; [apply Rabs_pos| |exact A|apply Rinv_le; lra]. left. apply Rinv_0_lt_compat. lra.
Qed.
Lemma rate_err : forall x r k v h j l, fmt x -> fmt r -> 0 <= k <= 1 -> (-1000 <= j <= 1022)%Z -> (-1000 <= l <= 1022)%Z ->
  Rabs x <= pw j -> Rabs r <= pw j -> Rabs v <= pw l -> pw (j + 1 - l) <= Rabs h ->
  rate_small x r k v h /\ Rabs (rate_of x r k v h - (v + k * (r - x) / h)) <= 3 * pw (l - 53) /\ Rabs (k * (r - x) / h) <= pw l.
Proof.
  intros x r k v h j l Fx Fr K J L Bx Br Bv Bh. pose proof (diff_le x r j Bx Br) as D1. pose proof (diff_err x r j J Bx Br) as D2.
  pose proof (diff_rnd x r j J Bx Br) as D3. pose proof (scaled_le x r k j K J Bx Br) as S1.
  assert (S2 : Rabs (step_of x r k - k * rnd (r - x)) <= pw (j - 53)) by (replace (j - 53)%Z with (j + 1 - 54)%Z by lia; apply half_ulp; [lia|exact S1]).
  assert (S3 : Rabs (step_of x r k) <= pw (j + 1)) by (apply (frnd_abs_le F64); [cbn; lia|exact S1]).
  assert (S4 : Rabs (k * (rnd (r - x) - (r - x))) <= pw (j - 53)).
  { rewrite Rabs_mult, (Rabs_right k) by lra. pose proof (Rabs_pos (rnd (r - x) - (r - x))). pose proof (pw_pos (j - 53)). nra. }
  assert (S5 : Rabs (step_of x r k - k * (r - x)) <= pw (j + 1 - 53)).
  { replace (step_of x r k - k * (r - x)) with ((step_of x r k - k * rnd (r - x)) + k * (rnd (r - x) - (r - x))) by ring. eapply Rle_trans; [apply Rabs_triang|].
    replace (j + 1 - 53)%Z with (j - 53 + 1)%Z by lia. rewrite pw_step. lra. }
  assert (Q1 : Rabs (step_of x r k / h) <= pw l) by (replace l with (j + 1 - (j + 1 - l))%Z by lia; now apply quotient_le).
  assert (Q2 : Rabs ((step_of x r k - k * (r - x)) / h) <= pw (l - 53)) by (replace (l - 53)%Z with (j + 1 - 53 - (j + 1 - l))%Z by lia; now apply quotient_le).
  assert (Q3 : Rabs (rnd (step_of x r k / h) - step_of x r k / h) <= pw (l - 54)) by (apply half_ulp; [lia|exact Q1]).
  assert (Q4 : Rabs (rnd (step_of x r k / h)) <= pw l) by (apply (frnd_abs_le F64); [cbn; lia|exact Q1]).
  assert (A1 : Rabs (v + rnd (step_of x r k / h)) <= pw (l + 1)) by (rewrite pw_step; eapply Rle_trans; [apply Rabs_triang|]; lra).
  assert (A2 : Rabs (rate_of x r k v h - (v + rnd (step_of x r k / h))) <= pw (l + 1 - 54)) by (apply half_ulp; [lia|exact A1]).
  split; [|split].
  - split; [apply (small_by _ (j + 1)); [lia|exact D1]|]. split; [apply (small_by _ (j + 1)); [lia|exact S1]|]. split; [apply (small_by _ l); [lia|exact Q1]|apply (small_by _ (l + 1)); [lia|exact A1]].
  - replace (l + 1 - 54)%Z with (l - 53)%Z in A2 by lia. replace (l - 54)%Z with (l - 53 - 1)%Z in Q3 by lia. rewrite pw_half in Q3.
    replace (rate_of x r k v h - (v + k * (r - x) / h)) with
      ((rate_of x r k v h - (v + rnd (step_of x r k / h))) + (rnd (step_of x r k / h) - step_of x r k / h) + (step_of x r k - k * (r - x)) / h) by (unfold Rdiv; ring).
    pose proof (pw_pos (l - 53)). apply Rabs_le_inv in A2, Q3, Q2. apply Rabs_le. lra.
  - replace l with (j + 1 - (j + 1 - l))%Z by lia. apply quotient_le; [exact Bh|]. rewrite Rabs_mult, (Rabs_right k) by lra. pose proof (Rabs_pos (r - x)). nra.
Qed.
Lemma rel_err : forall r, pw (-1020) <= Rabs r -> Rabs (rnd r - r) <= pw (-53) * Rabs r.
Proof.
  intros r H. eapply Rle_trans; [apply relative_error_N_FLT; [reflexivity|]|].
  - eapply Rle_trans; [|exact H]. apply bpow_le. cbn. lia.
  - right. f_equal. change (- fprec F64 + 1)%Z with (-53 + 1)%Z. rewrite pw_step. lra.
Qed.
Lemma half_square_near : forall i, pw (-500) <= Rabs i <= pw 500 ->
  Rabs (half_square i - i * i / 2) <= 3 * pw (-53) * (i * i / 2) /\ 0 < i * i /\ (forall e, (-1001 <= e)%Z -> pw e <= i * i / 2 -> pw e <= half_square i).
Proof.
  intros i [B1 B2]. pose proof (pw_pos (-500)). assert (Sq : pw (-1000) <= i * i).
  { rewrite <- Rabs_right with (r := i * i) by (apply Rle_ge; nra). rewrite Rabs_mult. change (-1000)%Z with (-500 + -500)%Z. rewrite bpow_plus. apply Rmult_le_compat; lra. }
  pose proof (pw_pos (-1000)) as P. assert (L1 : pw (-1020) <= pw (-1000)) by (apply bpow_le; lia). assert (L2 : pw (-1020) <= pw (-1000) / 2) by (rewrite <- pw_half; apply bpow_le; lia).
  assert (R1 : pw (-1000) <= rnd (i * i)) by (apply rnd_ge; [apply fmt_pw; lia|exact Sq]).
  assert (E1 : Rabs (rnd (i * i) - i * i) <= pw (-53) * (i * i)) by (rewrite <- (Rabs_right (i * i)) at 3 by lra; apply rel_err; rewrite Rabs_right; lra).
  assert (E2 : Rabs (half_square i - rnd (i * i) / 2) <= pw (-53) * (rnd (i * i) / 2)) by (rewrite <- (Rabs_right (rnd (i * i) / 2)) at 2 by lra; apply rel_err; rewrite Rabs_right; lra).
  assert (U : 0 < pw (-53) <= / 2) by (split; [apply pw_pos|]; change (/ 2) with (pw (-1)); apply bpow_le; lia).
  split; [|split; [lra|]].
  - apply Rabs_le_inv in E1, E2. apply Rabs_le. set (u := pw (-53)) in *. set (s := i * i) in *. set (t := rnd s) in *.
    assert (u * t <= 2 * (u * s)) by (assert (t <= 2 * s) by nra; nra). split; lra.
  - intros e He H'. unfold half_square. apply rnd_ge; [apply fmt_pw; lia|].
    assert (pw (e + 1) <= rnd (i * i)) by (apply rnd_ge; [apply fmt_pw; lia|rewrite pw_step; lra]). rewrite pw_step in *. lra.
Qed.
Lemma curve_rate_err : forall x r k v i j l, fmt x -> fmt r -> 0 <= k <= 1 -> (-1000 <= j <= 1022)%Z -> (-1000 <= l <= 1022)%Z -> (l <= j + 1002)%Z ->
  Rabs x <= pw j -> Rabs r <= pw j -> Rabs v <= pw l -> pw (-500) <= Rabs i <= pw 500 -> pw (j + 1 - l) <= i * i / 2 ->
  rate_small x r k v (half_square i) /\ Rabs (rate_of x r k v (half_square i) - (v + k * (r - x) / (i * i / 2))) <= 3 * pw (l - 52).
Proof.
  intros x r k v i j l Fx Fr K J L LJ Bx Br Bv Bi Bh. destruct (half_square_near i Bi) as (N & P & G). specialize (G (j + 1 - l)%Z ltac:(lia) Bh).
  pose proof (pw_pos (j + 1 - l)) as Q. destruct (rate_err x r k v (half_square i) j l Fx Fr K J L Bx Br Bv) as (S & E & M); [rewrite Rabs_right; lra|].
  split; [exact S|]. set (h := half_square i) in *. set (s := i * i / 2) in *. assert (Ps : 0 < s) by (unfold s; lra).
  assert (D : Rabs (k * (r - x) / h - k * (r - x) / s) <= 3 * pw (l - 53)).
  { replace (k * (r - x) / h - k * (r - x) / s) with ((k * (r - x) / h) * ((s - h) / s)) by (field; split; lra).
    rewrite Rabs_mult. unfold Z.sub. rewrite bpow_plus. change (-(53))%Z with (-53)%Z. replace (3 * (pw l * pw (-53))) with (pw l * (3 * pw (-53))) by ring.
    apply Rmult_le_compat; [apply Rabs_pos|apply Rabs_pos|exact M|]. unfold Rdiv. rewrite Rabs_mult, (Rabs_right (/ s)) by (apply Rle_ge; left; now apply Rinv_0_lt_compat).
    fold (Rdiv (Rabs (s - h)) s). apply div_mono; [exact Ps|]. rewrite Rabs_minus_sym. exact N. }
  replace (l - 52)%Z with (l - 53 + 1)%Z by lia. rewrite pw_step. apply Rabs_le_inv in D, E. apply Rabs_le. lra.
Qed.
