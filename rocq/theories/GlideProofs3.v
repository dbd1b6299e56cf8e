(** Legs, the end of the loop and the arrival of the glide computer. *)

From Coq Require Import ZArith String List Bool Lia Reals Lra SpecFloat.
From Flocq Require Import Core IEEE754.BinarySingleNaN.
From Verif Require Import Outcome CInt Root Ratio Unit Rep Math Glide SpecGlide SpecReal FloatProofs FloatCastProofs FloatAddProofs FloatOrderProofs
  GlideProofs GlideProofs2.
Import ListNotations.
Local Open Scope list_scope.
Local Open Scope res_scope.

(** ** Doubles *)

Lemma double_cases : forall x, is_double x -> exists b : binary_float (fprec F64) (femax F64), B2SF b = x.
Proof. intros x X. destruct (B_of F64 x X) as [b E]. now exists b. Qed.

Lemma less_reals : forall x y, is_number F64 x -> is_number F64 y -> (x <? y)%D = if Rlt_dec (fval x) (fval y) then true else false.
Proof.
  intros x y X Y. unfold SFltb. rewrite (compare_numbers F64 x y X Y).
  destruct (Rcompare_spec (fval x) (fval y)), (Rlt_dec (fval x) (fval y)); try reflexivity; lra.
Qed.
Lemma number_double : forall x, is_number F64 x -> is_double x.
Proof. intros x [V _]. exact V. Qed.
Lemma number_zero : is_number F64 zero.
Proof. split; reflexivity. Qed.

Lemma long_leg : forall a, is_double a -> not_negative a -> not_negative (int 6371 * a)%D.
Proof.
  intros a A N. destruct (double_cases a A) as [b <-].
  assert (I : exists i : binary_float (fprec F64) (femax F64), B2SF i = int 6371 /\ is_finite i = true /\ (0 < B2R i)%R /\ Bsign i = false).
  { destruct (double_cases (int 6371) (dbl_int 6371)) as [i E]. exists i. split; [exact E|].
    destruct i as [| | |si mi ei Bi]; cbn in E; try discriminate. assert (si = false) as -> by (vm_compute in E; congruence).
    split; [reflexivity|split; [|reflexivity]]. now apply F2R_gt_0. }
  destruct I as (i & <- & Fi & Pi & Si). unfold not_negative in *. rewrite (mul_equiv F64).
  destruct b as [sb|[|]| |sb mb eb Bb]; [| discriminate N | | |].
  - destruct i as [| | |? ? ? ?]; try discriminate Fi; reflexivity || (cbn in *; now subst).
  - destruct i as [| | |? ? ? ?]; try discriminate Fi; cbn in Si; [cbn in Pi; exfalso; lra|now subst].
  - destruct i as [| | |? ? ? ?]; reflexivity.
  - destruct sb; [discriminate N|]. set (b := B754_finite false mb eb Bb).
    pose proof (Bmult_correct (fprec F64) (femax F64) _ _ mode_NE i b) as C.
    destruct (Rlt_bool _ _) eqn:O in C.
    + destruct C as (C1 & C2 & _). rewrite Fi in C2. change (true && is_finite b)%bool with true in C2.
      unfold SFltb, zero. rewrite (Bcompare_correct (fprec F64) (femax F64) _ (B754_zero false) C2 eq_refl : SFcompare (B2SF _) (S754_zero false) = _).
      cbn [B2R]. assert (Z : (0 <= B2R (Bmult mode_NE i b))%R).
      { rewrite C1. rewrite <- (round_0 radix2 (SpecFloat.fexp (fprec F64) (femax F64)) (round_mode mode_NE)).
        apply round_le; [apply fexp_correct; reflexivity|apply valid_rnd_round_mode|].
        assert (0 < B2R b)%R by now apply F2R_gt_0. nra. }
      destruct (Rcompare_spec (B2R (Bmult mode_NE i b)) 0); try reflexivity; lra.
    + rewrite Si in C. cbn [Bsign xorb b] in C. rewrite C. reflexivity.
Qed.

(** A finite number minus itself is zero, zero times anything is a zero or no number, and adding
    a zero to a number other than minus zero changes nothing. *)
Lemma minus_itself : forall x, is_number F64 x -> (x - x)%D = zero.
Proof.
  intros [[|]| | |s m e] [_ X]; try discriminate X; try reflexivity.
  unfold SFsub. cbv zeta. now rewrite Z.sub_diag.
Qed.
Lemma zero_times : forall x, (zero * x)%D = S754_nan \/ exists s, (zero * x)%D = S754_zero s.
Proof. intros [s|s| |s m e]; cbn; eauto. Qed.
Lemma plus_zero : forall x s, x <> S754_zero true -> is_finite_SF x = true -> (x + S754_zero s)%D = x.
Proof. intros [[|]| | |sx m e] [|] N F; try discriminate F; try reflexivity; now elim N. Qed.
Lemma nan_plus : forall x, (x + S754_nan)%D = S754_nan /\ (S754_nan + x)%D = S754_nan.
Proof. now intros [| | |]. Qed.
Lemma nan_minus : forall x, (x - S754_nan)%D = S754_nan /\ (S754_nan - x)%D = S754_nan.
Proof. now intros [| | |]. Qed.
Lemma nan_less : forall x, (x <? S754_nan)%D = false /\ (S754_nan <? x)%D = false.
Proof. now intros [|[|]| |[|]]. Qed.

Lemma nan_stops : forall cb n h, n = S754_nan -> (zero <? (h - (if h <? cb - n then h else cb - n)))%D = false.
Proof.
  intros cb n h ->. rewrite (proj1 (nan_minus cb)), (proj1 (nan_less h)), (proj1 (nan_minus h)). apply nan_less.
Qed.

(** ** Legs *)

Lemma count_filter : forall (l : list spec_float) d, List.length (filter (fun x => x <? d)%D l) = List.length (filter (fun b : bool => b) (map (fun x => x <? d)%D l)).
Proof. intros l d. induction l as [|x r IH]; [reflexivity|]. cbn [map filter]. destruct (x <? d)%D; cbn [List.length]; auto. Qed.

Section Flight.
Variables (angle : position -> position -> spec_float) (t : task).
Hypothesis angle_dbl : forall p q, is_double (angle p q).
Hypothesis angle_pos : forall p q, not_negative (int 6371 * angle p q)%D.
Hypothesis P : proper angle t.
Hypothesis two : legs t <> [].

Lemma totals_split : forall d, is_double d -> partitioned (map (fun x => x <? d)%D (totals t)) = true.
Proof using P angle_dbl angle_pos.
  intros d D. rewrite (p_totals _ _ P). apply totals_partitioned; auto. rewrite (p_legs _ _ P). generalize (waypoints t). intros [|a r]; [constructor|].
  revert a. induction r as [|b r IH]; intros a; [constructor|]. cbn [plain_legs map leg_length].
  constructor; [split; [auto with dbl|apply angle_pos]|apply IH].
Qed.
Lemma leg_bounds : forall d i x, is_double d -> nth_error (totals t) i = Some x -> ((x <? d)%D = true <-> (i < leg_at t d)%nat).
Proof using P angle_dbl angle_pos.
  intros d i x D N. pose proof (partitioned_count _ i (totals_split d D)) as C. unfold leg_at. rewrite count_filter.
  rewrite (map_nth_error (fun x => x <? d)%D i _ N) in C.
  destruct (i <? _)%nat in C; [|discriminate C]. injection C as ->. apply Nat.ltb_lt.
Qed.
Lemma totals_legs : List.length (totals t) = List.length (legs t).
Proof using P. rewrite (p_totals _ _ P), totals_length. apply map_length. Qed.
Lemma leg_most : forall d, (leg_at t d <= List.length (legs t))%nat.
Proof using P. intros d. rewrite <- totals_legs. apply filter_le. Qed.
Lemma length_total : nth_error (totals t) (List.length (legs t) - 1) = Some (length_ t).
Proof using P two.
  rewrite (p_length _ _ P), <- totals_legs. assert (N : totals t <> []).
  { intros E. apply (f_equal (@List.length _)) in E. rewrite totals_legs in E. destruct (legs t); [now elim two|discriminate]. }
  clear - N. rewrite (app_removelast_last zero N) at 1 2. rewrite app_length, Nat.add_sub, nth_error_app2 by lia. now rewrite Nat.sub_diag.
Qed.
Lemma leg_past : forall d, is_double d -> (leg_at t d = List.length (legs t) <-> (length_ t <? d)%D = true).
Proof using P two angle_dbl angle_pos.
  intros d D. rewrite (leg_bounds d _ _ D length_total). pose proof (leg_most d).
  assert (legs t <> []) as L by exact two. destruct (legs t); [now elim L|]. cbn [List.length] in *. lia.
Qed.
Lemma terrain_defined : forall pos, (exists g, plain_terrain t pos = Ok g) \/ (plain_terrain t pos = Undef /\ (List.length (legs t) <= leg_idx pos)%nat).
Proof using.
  intros pos. unfold plain_terrain. destruct (nth_error (legs t) (leg_idx pos)) eqn:N; [left; eauto|right].
  split; [reflexivity|]. now apply nth_error_None.
Qed.

(** Past the finish there is no terrain, and the flight is undefined. *)
Lemma past_finish : forall sq s pos g m q ln w h, plain_glide_phase sq s pos g t m = Ok (q, ln) -> is_double (dist q) ->
  (plain_circle s q g w t h = Undef <-> (length_ t <? dist q)%D = true).
Proof using P two angle_dbl angle_pos.
  intros sq s pos g m q ln w h H D. unfold plain_circle.
  assert (I : leg_idx q = leg_at t (dist q)).
  { unfold plain_glide_phase in H. destruct (plain_terrain t pos); try discriminate H. cbn [bind] in H. now injection H as <- _. }
  rewrite <- (leg_past _ D), <- I. pose proof (leg_most (dist q)) as M. rewrite <- I in M.
  destruct (terrain_defined q) as [[gr E]|[E L]]; rewrite E; cbn [bind].
  - split; [discriminate|]. intros Q. unfold plain_terrain in E. rewrite Q in E.
    rewrite (proj2 (nth_error_None (legs t) (List.length (legs t)))) in E by lia. discriminate E.
  - split; [lia|reflexivity].
Qed.

(** ** Flat terrain *)

Variable level : spec_float.
Hypothesis F : flat t level.
Hypothesis level_number : is_number F64 level.
Hypothesis level_zero : level <> S754_zero true.

Lemma legs_waypoints : forall l x, In x (plain_legs angle l) -> In (leg_begin x) l /\ In (leg_end x) l.
Proof using.
  intros [|a r] x; [contradiction|]. revert a. induction r as [|b r IH]; intros a I; [contradiction|].
  cbn [plain_legs] in I. destruct I as [<-|I]; [cbn; auto|]. destruct (IH b I) as [A B]. split; right; assumption.
Qed.
Lemma flat_terrain : forall pos g, plain_terrain t pos = Ok g -> g = level \/ g = S754_nan.
Proof using P F level_number level_zero.
  intros pos g H. unfold plain_terrain in H. destruct (nth_error (legs t) (leg_idx pos)) as [x|] eqn:N; [|discriminate].
  apply nth_error_In in N. rewrite (p_legs _ _ P) in N. apply legs_waypoints in N. destruct N as [A B].
  rewrite (F _ A), (F _ B), (minus_itself level level_number) in H. set (k := ((dist pos - _) / _)%D) in H.
  assert (E : g = (level + zero * k)%D) by congruence. clear H. destruct (zero_times k) as [Z|[s Z]]; rewrite Z in E.
  - right. now rewrite (proj1 (nan_plus level)) in E.
  - left. rewrite plus_zero in E; auto. apply level_number.
Qed.

Variables (w : weather) (m : spec_float).
Hypothesis room_number : is_number F64 (room w level m).
Hypothesis room_pos : (0 < fval (room w level m))%R.

(** A turn of the loop: undefined, the last one, or one that climbs all the room there is. *)
Lemma flat_turn : forall sq s pos g h x, plain_glide_phase sq s pos g t m = Ok x ->
  plain_circle s (fst x) g w t h = Undef \/
  exists q h' ln, plain_circle s (fst x) g w t h = Ok (q, h', ln) /\
    ((zero <? h')%D = false \/ (h <? room w level m)%D = false /\ h' = (h - room w level m)%D).
Proof using P F level_number level_zero.
  intros sq s pos g h x H. unfold plain_glide_phase in H. destruct (plain_terrain t pos) as [g0| | | |] eqn:T0; try discriminate.
  cbn [bind] in H. assert (A : alt (fst x) = (g0 + m)%D) by now injection H as <-. clear H.
  unfold plain_circle. destruct (terrain_defined (fst x)) as [[g1 E]|[E L]]; rewrite E; cbn [bind]; [right|now left].
  eexists _, _, _. split; [reflexivity|]. unfold climbed. rewrite A.
  destruct (flat_terrain _ _ T0) as [-> | ->], (flat_terrain _ _ E) as [-> | ->].
  - fold (room w level m). destruct (h <? room w level m)%D eqn:L; [left|right; auto].
    destruct h as [sh|sh| |sh mh eh].
    + destruct sh; reflexivity.
    + destruct sh; reflexivity.
    + reflexivity.
    + unfold SFsub. cbv zeta. now rewrite Z.sub_diag.
  - left. apply nan_stops. apply nan_minus.
  - left. apply nan_stops. now rewrite (proj2 (nan_plus m)).
  - left. apply nan_stops. now rewrite (proj2 (nan_plus m)).
Qed.

Lemma less_left : forall h r, is_number F64 h -> is_number F64 r -> (0 < fval r)%R -> (fval r <= fval h)%R -> (fval h <= bpow radix2 52 * fval r)%R ->
  is_number F64 (h - r)%D /\ (fval (h - r)%D <= fval h - fval r / 2)%R.
Proof using.
  intros h r H R Rp L B. set (hv := fval h) in *. set (rv := fval r) in *.
  assert (K : (0 <= frnd F64 (hv - rv) <= hv)%R).
  { split.
    - rewrite <- (round_0 radix2 (FLT_exp (3 - femax F64 - fprec F64) (fprec F64)) ZnearestE) at 1. apply round_le; [apply FLT_exp_valid; reflexivity|apply valid_rnd_N|lra].
    - rewrite <- (frnd_id F64 hv) at 2 by now apply number_format. apply frnd_le. lra. }
  destruct (sub_rounds F64 h r H R) as [N V].
  { fold hv rv. rewrite Rabs_pos_eq by apply K. eapply Rle_lt_trans; [apply K|]. eapply Rle_lt_trans; [apply Rle_abs|]. now apply number_lt_emax. }
  split; [exact N|]. change (SFsub 53 1024 h r) with (SFsub (fprec F64) (femax F64) h r). rewrite V. fold hv rv.
  destruct (sum_relative OpSub F64 h r H R) as (e & E & [_ U]). cbn [rsum] in E. fold hv rv in E. rewrite E.
  assert (Q : roundoff F64 = (/ (2 * bpow radix2 52))%R).
  { unfold roundoff. rewrite bpow_opp. change (fprec F64) with (1 + 52)%Z. rewrite bpow_plus. reflexivity. }
  rewrite Q in U. set (b := bpow radix2 52) in *. assert (Pb : (0 < b)%R) by apply bpow_gt_0.
  assert (I : (hv * / (2 * b) <= rv / 2)%R).
  { apply Rmult_le_reg_r with (2 * b)%R; [lra|]. rewrite Rmult_assoc, Rinv_l by lra. lra. }
  assert (0 < / (2 * b))%R by (apply Rinv_0_lt_compat; lra). nra.
Qed.

Lemma flat_loop : forall n sq s pos g h, is_number F64 h -> (fval h <= bpow radix2 52 * fval (room w level m))%R ->
  (fval h < INR n * (fval (room w level m) / 2))%R -> plain_loop (S n) sq s pos g w t m h <> Stuck.
Proof using P F level_number level_zero room_number room_pos.
  set (r := room w level m) in *. induction n as [|n IH]; intros sq s pos g h H B L.
  - cbn [plain_loop]. destruct (plain_glide_phase sq s pos g t m) as [x| | | |] eqn:G; try discriminate; cbn [bind].
    2: { unfold plain_glide_phase in G. destruct (terrain_defined pos) as [[gr E]|[E _]]; rewrite E in G; discriminate G. }
    destruct (flat_turn sq s pos g h x G) as [E|(q & h' & ln & E & [S0|[S1 S2]])]; rewrite E; cbn [bind]; [discriminate| |].
    + rewrite S0. discriminate.
    + exfalso. fold r in S1. rewrite (less_reals h r H room_number) in S1. destruct (Rlt_dec _ _); [discriminate|]. cbn [INR] in L. lra.
  - cbn [plain_loop]. destruct (plain_glide_phase sq s pos g t m) as [x| | | |] eqn:G; try discriminate; cbn [bind].
    2: { unfold plain_glide_phase in G. destruct (terrain_defined pos) as [[gr E]|[E _]]; rewrite E in G; discriminate G. }
    destruct (flat_turn sq s pos g h x G) as [E|(q & h' & ln & E & [S0|[S1 S2]])]; rewrite E; cbn [bind]; [discriminate| |].
    + rewrite S0. discriminate.
    + fold r in S1, S2. rewrite (less_reals h r H room_number) in S1. destruct (Rlt_dec _ _) as [|Ge]; [discriminate|].
      destruct (less_left h r H room_number room_pos) as [N V]; [lra|exact B|]. rewrite <- S2 in N, V.
      destruct (zero <? h')%D; [|discriminate].
      assert (Q : plain_loop (S n) sq s q g w t m h' <> Stuck).
      { apply IH; [exact N|lra|]. rewrite S_INR in L. lra. }
      change (bind (plain_loop (S n) sq s q g w t m h') (fun r => Ok (fst r, snd x :: ln :: snd r)) <> Stuck).
      destruct (plain_loop (S n) sq s q g w t m h'); cbn [bind]; try discriminate. now elim Q.
Qed.
End Flight.


(** ** The last line *)

Lemma there_and_on : forall d n, is_number F64 d -> is_number F64 n -> (0 <= fval d <= fval n)%R -> (fval n <= bpow radix2 1022)%R ->
  is_number F64 (d + (n - d))%D /\ (Rabs (fval (d + (n - d))%D - fval n) <= bpow radix2 (-52) * fval n)%R.
Proof.
  intros d n D N I B. pose proof (number_format F64 n N) as Fn. set (dv := fval d) in *. set (nv := fval n) in *.
  assert (K : (0 <= frnd F64 (nv - dv) <= nv)%R).
  { split.
    - rewrite <- (round_0 radix2 (FLT_exp (3 - femax F64 - fprec F64) (fprec F64)) ZnearestE) at 1. apply round_le; [apply FLT_exp_valid; reflexivity|apply valid_rnd_N|lra].
    - rewrite <- (frnd_id F64 nv) at 2 by exact Fn. apply frnd_le. lra. }
  assert (T : (bpow radix2 1022 < bpow radix2 (femax F64))%R) by (apply bpow_lt; reflexivity).
  assert (T2 : (bpow radix2 (femax F64) = 4 * bpow radix2 1022)%R).
  { change (femax F64) with (2 + 1022)%Z. now rewrite bpow_plus. }
  destruct (sub_rounds F64 n d N D) as [N1 V1].
  { fold nv dv. rewrite Rabs_pos_eq by apply K. lra. }
  fold nv dv in V1.
  destruct (sum_relative OpSub F64 n d N D) as (e & E & [U1 U2]). cbn [rsum] in E. fold nv dv in E.
  assert (Q : roundoff F64 = (bpow radix2 (-52) / 2)%R).
  { unfold roundoff. change (- fprec F64)%Z with (-1 + -52)%Z. rewrite bpow_plus. change (bpow radix2 (-1)) with (/ 2)%R. lra. }
  rewrite Q in *. set (u := bpow radix2 (-52)) in *. assert (Pu : (0 < u <= 1)%R).
  { split; [apply bpow_gt_0|]. change 1%R with (bpow radix2 0). apply bpow_le. lia. }
  assert (U : (Rabs (e - 1) <= u / 2)%R).
  { apply Rabs_le. split; [|lra]. assert (/ (1 + u / 2) >= 1 - u / 2)%R; [|lra]. apply Rle_ge.
    apply Rmult_le_reg_r with (1 + u / 2)%R; [lra|]. rewrite Rinv_l by lra. nra. }
  assert (X : (Rabs (dv + frnd F64 (nv - dv) - nv) <= u / 2 * nv)%R).
  { rewrite E. replace (dv + (nv - dv) * e - nv)%R with ((nv - dv) * (e - 1))%R by ring. rewrite Rabs_mult, (Rabs_pos_eq (nv - dv)) by lra.
    rewrite Rmult_comm. apply Rmult_le_compat; try lra. apply Rabs_pos. }
  set (x := (dv + frnd F64 (nv - dv))%R) in *.
  assert (Y : (Rabs (frnd F64 x - nv) <= u * nv)%R).
  { destruct (round_N_pt radix2 (FLT_exp (3 - femax F64 - fprec F64) (fprec F64)) (fun z => negb (Z.even z)) x) as [_ M].
    specialize (M nv Fn). change (Rabs (frnd F64 x - x) <= Rabs (nv - x))%R in M. rewrite (Rabs_minus_sym nv x) in M.
    replace (frnd F64 x - nv)%R with ((frnd F64 x - x) + (x - nv))%R by ring. eapply Rle_trans; [apply Rabs_triang|]. lra. }
  assert (W : (Rabs (frnd F64 x) < bpow radix2 (femax F64))%R).
  { replace (frnd F64 x) with ((frnd F64 x - nv) + nv)%R by ring. eapply Rle_lt_trans; [apply Rabs_triang|].
    rewrite (Rabs_pos_eq nv) by lra. rewrite T2. assert (u * nv <= nv)%R by nra. pose proof (bpow_gt_0 radix2 1022). lra. }
  destruct (add_rounds F64 d _ D N1) as [N2 V2].
  { rewrite V1. fold dv. exact W. }
  split; [exact N2|]. change (SFadd 53 1024 d (SFsub 53 1024 n d)) with (SFadd (fprec F64) (femax F64) d (SFsub (fprec F64) (femax F64) n d)).
  rewrite V2, V1. exact Y.
Qed.

Section Arrival.
Variables (est : estimate) (l : libm) (angle : position -> position -> spec_float).
Hypothesis root_1 : iroot est 2 1 = Ok 1%Z.
Hypothesis pow_dbl : forall x y, is_double (m_pow l F64 x y).
Hypothesis angle_dbl : forall p q, is_double (angle p q).
Hypothesis angle_pos : forall p q, not_negative (int 6371 * angle p q)%D.
Variable t : task.
Hypothesis P : proper angle t.
Hypothesis two : legs t <> [].
Let sq (x : spec_float) := m_pow l F64 x (int 2).

Lemma loop_inside : forall fuel s pos g w m h q ls, is_double s -> doubles_point pos -> doubles_polar g -> doubles_weather w -> is_double m -> is_double h ->
  plain_loop fuel sq s pos g w t m h = Ok (q, ls) -> (length_ t <? dist q)%D = false /\ is_double (dist q).
Proof using root_1 pow_dbl angle_dbl angle_pos P two.
  induction fuel as [|k IH]; intros s pos g w m h q ls S Dp G W M H L; [discriminate L|]. cbn [plain_loop] in L.
  destruct (glide_phase_plain est l angle root_1 pow_dbl angle_dbl t P angle_pos s pos g m S Dp G M) as [_ N]. fold sq in N.
  destruct (plain_glide_phase sq s pos g t m) as [[p1 l1]| | | |] eqn:E1; try discriminate L. cbn [bind fst snd] in L.
  specialize (N _ eq_refl). cbn [fst] in N. pose proof N as (_ & _ & D1).
  destruct (circle_plain est l angle angle_dbl t P s p1 g w h S N G W H) as [_ Q].
  pose proof (past_finish angle t angle_dbl angle_pos P two sq s pos g m p1 l1 w h E1 D1) as PF.
  destruct (plain_circle s p1 g w t h) as [[[p2 h2] l2]| | | |] eqn:E2; try discriminate L. cbn [bind fst snd] in L.
  destruct (Q _ eq_refl) as [P2 H2]. cbn [fst snd] in P2, H2.
  assert (D2 : dist p2 = dist p1).
  { unfold plain_circle in E2. destruct (plain_terrain t p1); try discriminate E2. cbn [bind] in E2. now injection E2 as <- _ _. }
  destruct (zero <? h2)%D.
  - destruct (plain_loop k sq s p2 g w t m h2) as [[p3 l3]| | | |] eqn:E3; try discriminate L. cbn [bind fst snd] in L.
    injection L as <- _. exact (IH s p2 g w m h2 p3 l3 S P2 G W M H2 E3).
  - injection L as <- _. rewrite D2. split; [|exact D1]. destruct (length_ t <? dist p1)%D; [|reflexivity]. now pose proof (proj2 PF eq_refl).
Qed.
Lemma arrival : forall fuel s g w m a ls, is_double s -> doubles_polar g -> doubles_weather w -> is_double m -> doubles_tow a ->
  plain_estimate fuel sq s g w t m a = Ok ls ->
  exists ls' ln d, ls = ls' ++ [ln] /\ l_altitude ln = finish_alt t /\ l_total_distance ln = (d + (length_ t - d))%D /\ is_double d /\ (length_ t <? d)%D = false.
Proof using root_1 pow_dbl angle_dbl angle_pos P two.
  intros fuel s g w m a ls S G W M A H. unfold plain_estimate in H. set (x := start_point s t a) in *. cbv zeta in H.
  pose proof (length_dbl angle angle_dbl t P) as Ld. pose proof (finish_dbl angle t P) as Fd.
  assert (Dx : doubles_point (fst x)).
  { destruct A. unfold x, start_point, plain_tow, doubles_point. cbn [ts alt dist fst]. split; [auto with dbl|split; [|apply dbl_zero]].
    apply dbl_add; auto. destruct (waypoints t) as [|s0 r] eqn:Wp; [apply dbl_zero|]. apply (p_points _ _ P). rewrite Wp. now left. }
  assert (Gd : is_double (first_gain g t (fst x))).
  { destruct G, Dx as (_ & ? & _). unfold first_gain. auto 12 with dbl. }
  destruct (plain_loop fuel sq s (fst x) g w t m _) as [[q l1]| | | |] eqn:E; try discriminate H. cbn [bind fst snd] in H.
  destruct (loop_inside _ _ _ _ _ _ _ _ _ S Dx G W M Gd E) as [Lq Dq].
  eexists (_ :: _), _, (dist q). split; [symmetry; injection H as H; exact H|]. auto.
Qed.
End Arrival.

Lemma terrain_cases : forall t pos, plain_terrain t pos = Undef \/ exists g, plain_terrain t pos = Ok g.
Proof. intros t pos. destruct (terrain_defined t pos) as [G|[U _]]; auto. Qed.
Lemma loop_outcomes : forall fuel sq s pos g w t m h, match plain_loop fuel sq s pos g w t m h with Ok _ | Undef | Stuck => True | _ => False end.
Proof.
  induction fuel as [|k IH]; intros sq s pos g w t m h; [exact I|]. cbn [plain_loop]. unfold plain_glide_phase.
  destruct (terrain_cases t pos) as [E|[gr E]]; rewrite E; cbn [bind]; [exact I|]. cbv zeta. cbn [bind fst snd].
  set (q := Flight _ _ _ _). unfold plain_circle.
  destruct (terrain_cases t q) as [E1|[g1 E1]]; rewrite E1; cbn [bind]; [exact I|]. cbv zeta. cbn [bind].
  destruct (zero <? _)%D; [|exact I]. set (q' := Flight _ _ _ _). specialize (IH sq s q' g w t m (h - climbed t w q g1 h)%D).
  destruct (plain_loop k sq s q' g w t m _); try contradiction; exact I.
Qed.
Lemma estimate_outcomes : forall fuel sq s g w t m a, match plain_estimate fuel sq s g w t m a with Ok _ | Undef | Stuck => True | _ => False end.
Proof.
  intros. unfold plain_estimate. set (x := start_point s t a). cbv zeta.
  pose proof (loop_outcomes fuel sq s (fst x) g w t m (first_gain g t (fst x))) as L. destruct (plain_loop _ _ _ _ _ _ _ _ _); try contradiction; exact I.
Qed.
