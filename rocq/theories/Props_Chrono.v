(** Theorems about [chrono.h] (C55): durations as quantities, time points as quantity points. *)

From Coq Require Import ZArith QArith String List Lia Lqa Bool SpecFloat.
From Verif Require Import Outcome CInt Root Ratio SpecRatio FixedString Unit Downcast Dim DimOp Equivalent
  SpecDim SpecUnit DimProofs Rep QuantityCast CommonQuantity Quantity SpecQuantity DimOpProofs MagnitudeProofs CastProofs
  QuantityProofs QuantityProofs4 QuantityProofs5 Point KindProofs Chrono ChronoProofs Samples Props_Quantity.
Import ListNotations.
Local Open Scope string_scope.
Local Open Scope Z_scope.

(** * C55: durations *)

(** Every duration with a positive period becomes a quantity with the same count, of a type
    with the same representation, whose unit is one period (a multiple of the second). *)
Theorem C55_duration : forall est w d, consistent w -> period_ok (dur_type d) ->
  num_ok (dur_rep (dur_type d)) (dur_count d) = true ->
  exists t, q_of_duration w d = Ok (Quantity t (dur_count d)) /\ q_rep t = dur_rep (dur_type d) /\
    q_dim t = DBase si_dim_time /\ sized est t (period (dur_type d)).
Proof.
  intros est w d C P N. destruct (like_type_ok est w _ C P) as (t & H & _). exists t.
  destruct (like_sized est w _ t C P H) as (R & D & S). split; auto.
  unfold q_of_duration. rewrite H. cbn [bind]. rewrite <- R in *. now apply make_same.
Qed.
Print Assumptions C55_duration.

(** So its physical value is that of the duration. *)
Theorem C55_value : forall w d i n q, consistent w -> period_ok (dur_type d) -> dur_rep (dur_type d) = RInt i ->
  dur_count d = NInt n -> in_range i n = true -> q_of_duration w d = Ok q ->
  denotes q (inject_Z n * period (dur_type d)).
Proof.
  intros w d i n q C P Rd Nd I H.
  assert (N : num_ok (dur_rep (dur_type d)) (dur_count d) = true) by (rewrite Rd, Nd; exact I).
  destruct (C55_duration (fun _ _ => Stuck) w d C P N) as (t & Ht & R & D & S). rewrite Ht in H. inversion H; subst q.
  unfold denotes. cbn [q_num q_type]. rewrite Nd.
  exists n, (period (dur_type d)). repeat split; try apply S; reflexivity.
Qed.
Print Assumptions C55_value.

(** [quantity_cast] between the quantities of two durations is [duration_cast]: the count
    scaled by the quotient of the periods, rounded towards zero. *)
Theorem C55_cast : forall est w p1 p2 t1 t2 a b n r, consistent w -> period_ok p1 -> period_ok p2 ->
  like_type w p1 = Ok t1 -> like_type w p2 = Ok t2 ->
  dur_rep p1 = RInt a -> dur_rep p2 = RInt b -> a <> U64 -> b <> U64 ->
  in_range a n = true -> quantity_cast est t1 t2 (NInt n) = Ok r ->
  exists z, r = NInt (wrap b z) /\ trunc_of (inject_Z n * period p1 / period p2) z.
Proof.
  intros est w p1 p2 t1 t2 a b n r C P1 P2 H1 H2 Ra Rb Ua Ub I H.
  destruct (like_sized est w _ _ C P1 H1) as (R1 & D1 & S1). destruct (like_sized est w _ _ C P2 H2) as (R2 & D2 & S2).
  rewrite Ra in R1. rewrite Rb in R2.
  eapply (defined_truncates est t1 t2 a b); eauto. apply references_ok_refl. congruence.
Qed.
Print Assumptions C55_cast.

(** The implicit conversion exists exactly when [std::chrono] has it: the quotient of the
    periods is an integer, or the target is floating-point. *)
Theorem C55_implicit_iff : forall est w p1 p2 t1 t2 v, consistent w -> period_ok p1 -> period_ok p2 ->
  like_type w p1 = Ok t1 -> like_type w p2 = Ok t2 -> safe_castable_to est t1 t2 = Ok v ->
  (v = true <-> floating (dur_rep p2) = true \/ (floating (dur_rep p1) = false /\ multiple_of (period p1) (period p2))).
Proof.
  intros est w p1 p2 t1 t2 v C P1 P2 H1 H2 H.
  destruct (like_sized est w _ _ C P1 H1) as (R1 & D1 & S1). destruct (like_sized est w _ _ C P2 H2) as (R2 & D2 & S2).
  assert (De : dim_equivalent (q_dim t2) (q_dim t1) = true) by (rewrite D1, D2; reflexivity).
  unfold safe_castable_to in H. rewrite De, R1, R2 in H. cbn [negb] in H.
  destruct (floating (dur_rep p2)) eqn:F2; [inversion H; tauto|].
  destruct (floating (dur_rep p1)) eqn:F1.
  - inversion H. split; [discriminate|intros [X|[X _]]; discriminate].
  - rewrite (harmonic_spec _ _ _ _ _ _ S1 S2 H). split; [auto|]. intros [X|[_ X]]; [discriminate|exact X].
Qed.
Print Assumptions C55_implicit_iff.

(** Construction of a quantity of another type from a duration: defined results in the
    signed 64-bit type lose nothing. *)
Theorem C55_from : forall est w t m d a n q, consistent w -> period_ok (dur_type d) -> sized est t m ->
  dur_rep (dur_type d) = RInt a -> a <> U64 -> dur_count d = NInt n -> in_range a n = true -> q_rep t = RInt I64 ->
  (forall l, like_type w (dur_type d) = Ok l -> references_ok l t) ->
  q_from_duration est w t d = Ok q ->
  exists z, q = Quantity t (NInt z) /\ in_range I64 z = true /\ same_value n (period (dur_type d)) z m.
Proof.
  intros est w t m d a n q C P S Ra U Nd I Rt Ref H. unfold q_from_duration in H. step H as l El. specialize (Ref l El).
  destruct (like_sized est w _ _ C P El) as (R1 & D1 & S1). step H as b Eb. step H as u Eu.
  rewrite <- R1 in H. rewrite make_same in H by (rewrite R1, Ra, Nd; exact I). cbn [bind] in H.
  unfold q_to in H. step H as r Er. cbn [q_type q_num] in Er. rewrite Nd in Er. rewrite Ra in R1.
  destruct (C20_int64 est l t a _ _ n r S1 S Ref R1 U Rt I Er) as (z & -> & Iz & Sv). exists z. inversion H. auto.
Qed.
Print Assumptions C55_from.

(** * C55: time points *)

(** A time point becomes the point with the origin of its clock, at its count of periods. *)
Theorem C55_time_point : forall est w p, consistent w -> period_ok (dur_type (tp_since_epoch p)) ->
  num_ok (dur_rep (dur_type (tp_since_epoch p))) (dur_count (tp_since_epoch p)) = true ->
  exists t, p_of_time_point est w p = Ok (Point t (dur_count (tp_since_epoch p))) /\
    p_origin t = clock_origin (tp_clock p) /\ p_rep t = dur_rep (dur_type (tp_since_epoch p)) /\
    sized est (p_qtype t) (period (dur_type (tp_since_epoch p))).
Proof.
  intros est w [c d] C P N. cbn [tp_clock tp_since_epoch] in *.
  destruct (like_type_ok est w _ C P) as (l & H & _). destruct (like_sized est w _ l C P H) as (R & D & S).
  pose proof H as H'. unfold like_type in H'. step H' as u Eu.
  exists (PType (clock_origin c) u (dur_rep (dur_type d))).
  assert (K : mk_ptype (clock_origin c) u (dur_rep (dur_type d)) = Ok (PType (clock_origin c) u (dur_rep (dur_type d))) /\
    p_qtype (PType (clock_origin c) u (dur_rep (dur_type d))) = l).
  { unfold mk_ptype. change (o_dim (clock_origin c)) with (DBase si_dim_time). rewrite H'. split; [reflexivity|].
    unfold mk_qtype in H'. step H' as x E. now inversion H'. }
  destruct K as [K1 K2]. split; [|split; [reflexivity|split; [reflexivity|now rewrite K2]]].
  unfold p_of_time_point. cbn [tp_clock tp_since_epoch]. rewrite Eu. cbn [bind]. rewrite K1. cbn [bind]. rewrite K2.
  rewrite (like_to_self est w d l C P N H). reflexivity.
Qed.
Print Assumptions C55_time_point.

(** The epochs of different clocks are different origins. *)
Theorem C55_clocks_distinct : forall c c', clock_origin c = clock_origin c' -> c = c'.
Proof.
  intros c c' H. inversion H as [E]. clear H. revert c' E. induction c as [|x c IH]; intros [|y c'] E; auto.
  - exfalso. cbn in E. inversion E as [[E1 E2]]. destruct c'; discriminate.
  - exfalso. cbn in E. inversion E as [[E1 E2]]. destruct c; discriminate.
  - cbn in E. inversion E. f_equal. auto.
Qed.
Print Assumptions C55_clocks_distinct.

(** A point type with an origin of the time dimension is constructed only from the time
    points of that very clock, and keeps the value. *)
Theorem C55_same_clock : forall rb est w t p m a n x, consistent w -> period_ok (dur_type (tp_since_epoch p)) ->
  o_dim (p_origin t) = DBase si_dim_time -> sized est (p_qtype t) m ->
  dur_rep (dur_type (tp_since_epoch p)) = RInt a -> a <> U64 -> dur_count (tp_since_epoch p) = NInt n ->
  in_range a n = true -> p_rep t = RInt I64 ->
  p_from_time_point rb est w t p = Ok x ->
  p_origin t = clock_origin (tp_clock p) /\
  exists z, x = Point t (NInt z) /\ in_range I64 z = true /\ same_value n (period (dur_type (tp_since_epoch p))) z m.
Proof.
  intros rb est w t p m a n x C P Od S Ra U Nd I Rt H. unfold p_from_time_point in H. step H as u Eu. step H as q Eq.
  split.
  - apply constrained_ok in Eu. unfold origin_equivalent in Eu. destruct (origin_eq_dec (p_origin t) _) as [E|E]; [exact E|].
    exfalso. apply andb_true_iff in Eu as [Eu _]. apply andb_true_iff in Eu as [Eu _]. unfold rebinds_to, rebind in Eu.
    change (o_dim (clock_origin (tp_clock p))) with (DBase si_dim_time) in Eu. rewrite Od in Eu.
    destruct (dimension_eq_dec (DBase si_dim_time) (DBase si_dim_time)) as [_|X]; [|now apply X].
    apply andb_true_iff in Eu as [_ Eu]. destruct (origin_eq_dec _ _) as [X|X]; [now apply E|discriminate].
  - assert (Ref : forall l, like_type w (dur_type (tp_since_epoch p)) = Ok l -> references_ok l (p_qtype t)).
    { intros l El. apply references_ok_refl. destruct (like_sized est w _ _ C P El) as (_ & D & _). rewrite D. now rewrite <- Od. }
    destruct (C55_from est w (p_qtype t) m _ a n q C P S Ra U Nd I Rt Ref Eq) as (z & -> & Iz & V). exists z. inversion H. auto.
Qed.
Print Assumptions C55_same_clock.

(** 90 minutes and 5400 seconds; a time point of the system clock is no point of the steady clock. *)
Definition d_minutes : dtype := DType 60 1 (RInt I64).
Definition d_seconds : dtype := DType 1 1 (RInt I64).
Definition d_millis : dtype := DType 1 1000 (RInt I64).
Example C55_ex_hypotheses : consistent empty_world /\ period_ok d_minutes /\ period_ok d_millis /\
  multiple_of (period d_minutes) (period d_millis) /\ ~ multiple_of (period d_millis) (period d_seconds).
Proof.
  split; [apply empty_consistent|]. split; [vm_compute; repeat split; congruence|]. split; [vm_compute; repeat split; congruence|].
  split; [exists 60000; vm_compute; reflexivity|]. intros [z Z]. unfold period, Qeq in Z. cbn in Z. lia.
Qed.
Definition some_type (p : dtype) : qtype :=
  match like_type empty_world p with Ok t => t | _ => QType (DBase si_dim_time) si_second (RInt I64) end.
Example C55_ex_types : like_type empty_world d_minutes = Ok (some_type d_minutes) /\
  like_type empty_world d_millis = Ok (some_type d_millis) /\ like_type empty_world d_seconds = Ok (some_type d_seconds) /\
  u_ratio (q_unit (some_type d_minutes)) = Ratio 6 1 1 /\ u_ratio (q_unit (some_type d_millis)) = Ratio 1 1 (-3).
Proof. vm_compute. auto. Qed.
Example C55_ex : forall est,
  q_of_duration empty_world (Duration d_minutes (NInt 90)) = Ok (Quantity (some_type d_minutes) (NInt 90)) /\
  q_from_duration est empty_world (some_type d_seconds) (Duration d_minutes (NInt 90)) =
    Ok (Quantity (some_type d_seconds) (NInt 5400)) /\
  q_from_duration est empty_world (some_type d_seconds) (Duration d_millis (NInt 90)) = IllFormed /\
  quantity_cast est (some_type d_millis) (some_type d_seconds) (NInt (-1999)) = Ok (NInt (-1)).
Proof. intros est. vm_compute. auto. Qed.
Definition system_millis : ptype := PType (clock_origin "system_clock") (q_unit (some_type d_millis)) (RInt I64).
Example C55_ex_clock : forall rb est,
  p_of_time_point est empty_world (TimePoint "system_clock" (Duration d_millis (NInt 17))) = Ok (Point system_millis (NInt 17)) /\
  p_from_time_point rb est empty_world system_millis (TimePoint "system_clock" (Duration d_seconds (NInt 2))) =
    Ok (Point system_millis (NInt 2000)).
Proof. intros rb est. vm_compute. auto. Qed.
Example C55_ex_other_clock : forall est,
  p_from_time_point (fun _ _ _ => None) est empty_world system_millis (TimePoint "steady_clock" (Duration d_seconds (NInt 2))) = IllFormed.
Proof. intros est. vm_compute. reflexivity. Qed.
