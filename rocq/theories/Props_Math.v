(** Theorems about [math.h] (C54): powers, roots, absolute values, the epsilon. *)

From Coq Require Import ZArith QArith Qpower Reals String List Lia Lqa Bool SpecFloat.
From Flocq Require Import Core.
From Verif Require Import Outcome CInt Pow Root Ratio SpecRatio RatioPowProofs FixedString Unit Downcast Dim DimOp Equivalent
  SpecDim SpecUnit DimProofs Rep RootFloat QuantityCast CommonQuantity Quantity SpecQuantity DimOpProofs DimOpProofs2 MagnitudeProofs QuantityProofs
  Math MathProofs SpecReal FloatProofs FloatCastProofs FloatRootProofs FloatMathProofs Samples Props_Ratio Props_Quantity Props_Quantity2.
Import ListNotations.
Local Open Scope Z_scope.

(** The ratio of the coherent unit of the dimension of a quantity. *)
Definition coherent (q : quantity) : Q := rval (u_ratio (dimension_unit (q_dim (q_type q)))).

(** * C54: powers *)

(** [pow<N>] of an integral quantity: the number is the power of the number (if [std::pow]
    is exact where it can be, and the power fits a double), the dimension is the power of
    the dimension, and the unit has the N-th power of the magnitude up to the ratios of the
    coherent units. *)
Theorem C54_pow : forall est w l N q i n m s, consistent w -> exact_pow l -> 0 < N <= 2 ^ 53 ->
  raisable (q_dim (q_type q)) N 1 -> integral q i n -> sized est (q_type q) m ->
  Z.abs (n ^ N) <= 2 ^ 53 -> in_range i (n ^ N) = true ->
  q_pow est w l N 1 q = Ok (inr s) -> unit_good (dimension_unit (q_dim (q_type s))) ->
  integral s i (n ^ N) /\ dimension_pow w (q_dim (q_type q)) N 1 = Ok (q_dim (q_type s)) /\
  magnitude (q_dim (q_type s)) (q_unit (q_type s)) (m ^ N * (coherent q ^ N / coherent s)).
Proof.
  intros est w l N q i n m s C X HN Rs (Rq & Nq & Rn) Sz B R H G.
  destruct (pow_parts _ _ _ _ _ _ _ C H) as (Nz & Dz & Ed & Er & Rs' & U & P & v & V1 & V2). rewrite Rq, Nq in *.
  pose proof (pow_number l i n N X HN B R) as V. cbv zeta in V. rewrite V in V1. inversion V1; subst v. cbn [n_convert] in V2.
  rewrite wrap_id in V2 by exact R. inversion V2 as [V3].
  split; [split; [exact Rs'|split; [now rewrite <- V3|exact R]]|]. split; [exact Ed|].
  assert (Gu : unit_good (q_unit (q_type q))) by apply Sz.
  destruct (rpow1_good _ _ _ _ Gu Er) as [Vr Gr].
  apply (whole_power est w N 1 q s m); auto.
Qed.
Print Assumptions C54_pow.

(** So the physical value is the power of the physical value exactly when the ratio of the
    coherent unit of the result is the power of that of the operand. *)
Theorem C54_pow_value_iff : forall est w l N q i n m s, consistent w -> exact_pow l -> 0 < N <= 2 ^ 53 ->
  raisable (q_dim (q_type q)) N 1 -> integral q i n -> sized est (q_type q) m ->
  Z.abs (n ^ N) <= 2 ^ 53 -> in_range i (n ^ N) = true ->
  q_pow est w l N 1 q = Ok (inr s) -> unit_good (dimension_unit (q_dim (q_type s))) -> n <> 0 ->
  (denotes s ((inject_Z n * m) ^ N) <-> (coherent s == coherent q ^ N)%Q).
Proof.
  intros est w l N q i n m s C X HN Rs I Sz B R H G Nz.
  destruct (C54_pow _ _ _ _ _ _ _ _ _ C X HN Rs I Sz B R H G) as ((_ & Ns & _) & _ & M).
  pose proof (sized_pos _ _ _ Sz) as P. assert (Gq : unit_good (dimension_unit (q_dim (q_type q)))) by apply Sz.
  apply good_pos in Gq, G. fold (coherent q) in Gq. fold (coherent s) in G.
  assert (Pn : (0 < m ^ N)%Q) by now apply Qpower_pos_lt. assert (Pq : (0 < coherent q ^ N)%Q) by now apply Qpower_pos_lt.
  assert (In : (inject_Z (n ^ N) == inject_Z n ^ N)%Q) by (apply Zpower_Qpower; lia).
  assert (Nn : ~ (inject_Z (n ^ N) == 0)%Q). { apply inject_Z_nz. apply Z.pow_nonzero; lia. }
  split.
  - intros (n' & m' & N' & M' & V). rewrite Ns in N'. inversion N'; subst n'. rewrite (magnitude_unique _ _ _ _ M' M), Qmult_power, <- In in V.
    apply Qmult_inj_l in V; [|exact Nn].
    assert (W : (m ^ N * 1 == m ^ N * (coherent q ^ N / coherent s))%Q) by (rewrite <- V; ring).
    apply Qmult_inj_l in W; [|lra]. assert (Z : (coherent s * 1 == coherent s * (coherent q ^ N / coherent s))%Q) by now rewrite W.
    rewrite Qmult_1_r in Z. rewrite Z. field. lra.
  - intros E. exists (n ^ N), (m ^ N * (coherent q ^ N / coherent s))%Q. split; [exact Ns|]. split; [exact M|].
    rewrite Qmult_power, E, In. field. lra.
Qed.
Print Assumptions C54_pow_value_iff.

(** The exponent 0 yields a plain 1, not a quantity. *)
Theorem C54_pow_zero : forall est w l D q, D <> 0 -> q_pow est w l 0 D q = Ok (inl (rep_one (q_rep (q_type q)))).
Proof. intros est w l D q H. unfold q_pow. apply Z.eqb_neq in H. now rewrite H. Qed.
Print Assumptions C54_pow_zero.

(** 12 km squared = 144 km^2, for every [std::pow] that is exact on whole numbers; there is one. *)
Definition whole_part (x : spec_float) : Z := match float_trunc x with Some z => z | None => 0 end.
Definition whole_libm : libm :=
  Libm (fun f x y => float_of_int f (whole_part x ^ whole_part y)) (fun _ x => x) (fun _ x => x).
Example C54_ex_libm : exact_pow whole_libm.
Proof.
  intros f x y z N [_ Fx] [_ Fy] Vx Vy HN L. unfold whole_libm, whole_part. cbn [m_pow].
  rewrite !trunc_value, Vx, Vy, !Ztrunc_IZR by auto. now apply of_int_exact.
Qed.
Example C54_ex : q_pow sqrt_est empty_world whole_libm 2 1 (Quantity (lengths kilometre I64) (NInt 12)) =
    Ok (inr (Quantity (QType (DUnknown [BExp dim_L 2 1] [BExp dim_L 2 1]) (unk (Ratio 1 1 6)) (RInt I64)) (NInt 144))) /\
  raisable (DBase dim_L) 2 1.
Proof. split; [vm_compute; reflexivity|]. split; [discriminate|]. split; [discriminate|]. left. eauto. Qed.

(** (1 kg)^2: the unit has the magnitude 10^12 g^2 instead of 10^6. *)
Theorem C54_kilogram_refuted : exists s,
  q_pow sqrt_est empty_world whole_libm 2 1 (Quantity (masses kilogram I64) (NInt 1)) = Ok (inr s) /\
  magnitude (DBase dim_M) kilogram 1000 /\ q_num s = NInt 1 /\
  magnitude (q_dim (q_type s)) (q_unit (q_type s)) (1000000000000 # 1).
Proof.
  exists (Quantity (QType (DUnknown [BExp dim_M 2 1] [BExp dim_M 2 1]) (unk (Ratio 1 1 6)) (RInt I64)) (NInt 1)).
  split; [vm_compute; reflexivity|]. split.
  - exists 1000%Q. split; [split; [|split]|]; try (vm_compute; reflexivity).
    constructor; [split; [discriminate|exists 2; reflexivity]|constructor].
  - split; [reflexivity|]. exists (1000000 # 1)%Q. split; [split; [|split]|]; try (vm_compute; reflexivity).
    constructor; [split; [discriminate|exists 4; reflexivity]|constructor].
Qed.
Print Assumptions C54_kilogram_refuted.

(** A unit of length that no declaration names. *)
Definition unnamed_metre (r : ratio) : cunit := CUnit None [] r "metre"%string false None no_prefix.

(** Numbers beyond 2^53 change: [pow<1>] is not the identity, and undefined near the end of the range. *)
Theorem C54_pow_one_refuted : forall l, (forall x, m_pow l F64 x (float_of_int F64 1) = x) ->
  q_pow sqrt_est empty_world l 1 1 (Quantity (lengths metre I64) (NInt (2 ^ 53 + 1))) =
    Ok (inr (Quantity (lengths (unnamed_metre (Ratio 1 1 0)) I64) (NInt (2 ^ 53)))) /\
  q_pow sqrt_est empty_world l 1 1 (Quantity (lengths metre I64) (NInt (2 ^ 63 - 1))) = Undef.
Proof.
  intros l H.
  assert (E : float_conv F64 (SFdiv (fprec F64) (femax F64) (float_of_int F64 1) (float_of_int F64 1)) = float_of_int F64 1)
    by (vm_compute; reflexivity).
  unfold q_pow. cbv zeta. cbn [q_type lengths q_rep pow_fty q_dim q_unit q_num].
  change (1 =? 0) with false. cbn [negb constrained bind].
  change (dimension_pow empty_world (DBase dim_L) 1 1) with (Ok (DBase dim_L)). cbn [bind].
  assert (R : rpow sqrt_est 1 1 (u_ratio metre) = Ok (u_ratio metre)) by reflexivity. rewrite R. cbn [bind].
  rewrite E, !H. split; vm_compute; reflexivity.
Qed.
Print Assumptions C54_pow_one_refuted.

(** A [std::pow] off by one unit in the last place is enough for a wrong integer. *)
Theorem C54_pow_inexact_refuted : forall l,
  m_pow l F64 (float_of_int F64 5) (float_of_int F64 2) = SFpred (fprec F64) (femax F64) (float_of_int F64 25) ->
  q_pow sqrt_est empty_world l 2 1 (Quantity (lengths metre I64) (NInt 5)) =
    Ok (inr (Quantity (QType (DUnknown [BExp dim_L 2 1] [BExp dim_L 2 1]) (unk (Ratio 1 1 0)) (RInt I64)) (NInt 24))).
Proof.
  intros l H.
  assert (E : float_conv F64 (SFdiv (fprec F64) (femax F64) (float_of_int F64 2) (float_of_int F64 1)) = float_of_int F64 2)
    by (vm_compute; reflexivity).
  unfold q_pow. cbv zeta. cbn [q_type lengths q_rep pow_fty q_dim q_unit q_num to_float].
  change (2 =? 0) with false. change (1 =? 0) with false. cbn [negb constrained bind].
  rewrite E, H. vm_compute. reflexivity.
Qed.
Print Assumptions C54_pow_inexact_refuted.

(** * C54: roots *)

(** [pow<N, D>]: when the ratio of the unit has an exact root, the D-th power of the new
    unit is the N-th power of the old one (again up to the ratios of the coherent units). *)
Theorem C54_fractional_pow : forall est w l N D q s m m', consistent w -> raisable (q_dim (q_type q)) N D ->
  sized est (q_type q) m -> q_pow est w l N D q = Ok (inr s) ->
  unit_good (dimension_unit (q_dim (q_type s))) -> unit_good (q_unit (q_type s)) ->
  (rval (u_ratio (q_unit (q_type s))) ^ D == rval (u_ratio (q_unit (q_type q))) ^ N)%Q ->
  magnitude (q_dim (q_type s)) (q_unit (q_type s)) m' ->
  (0 < m')%Q /\ ((m' * coherent s) ^ D == (m * coherent q) ^ N)%Q.
Proof.
  intros est w l N D q s m m' C R Sz H Gd Gu E M.
  destruct (pow_parts _ _ _ _ _ _ _ C H) as (Nz & Dz & Ed & _).
  apply (power_magnitude est w N D q s m C R Sz Ed Gd); auto.
Qed.
Print Assumptions C54_fractional_pow.

(** [sqrt]: the square of the new unit is the old unit; the number of an integral quantity
    below 2^52 is the floor of the root. *)
Theorem C54_sqrt : forall est w q s m m' i n x, consistent w -> raisable (q_dim (q_type q)) 1 2 ->
  sized est (q_type q) m -> rootable est 2 (u_ratio (q_unit (q_type q))) ->
  integral q i n -> 0 <= n < 2 ^ 52 -> floor_root 2 n x ->
  q_sqrt est w q = Ok s -> unit_good (dimension_unit (q_dim (q_type s))) ->
  magnitude (q_dim (q_type s)) (q_unit (q_type s)) m' ->
  integral s i x /\ (0 < m')%Q /\ ((m' * coherent s) ^ 2 == m * coherent q)%Q.
Proof.
  intros est w q s m m' i n x C R Sz Rt (Rq & Nq & Rn) B Fx H Gd M.
  destruct (sqrt_parts _ _ _ _ C H) as (Ed & Er & Rs & U & P & v & V1 & V2). rewrite Rq, Nq in *.
  cbn [cmath_fty] in V1. rewrite (sqrt_number i n x B Rn Fx) in V1. inversion V1; subst v. cbn [n_convert] in V2.
  assert (Rx : in_range i x = true).
  { destruct Fx as (X0 & X1 & _). change (x ^ 2 <= n) in X1. apply in_range_spec in Rn. apply in_range_spec.
    destruct i as [wd []]; unfold imin, imax in *; cbn [isigned iwidth] in *;
      assert (0 < 2 ^ (wbits wd - 1)) by (destruct wd; reflexivity); nia. }
  rewrite wrap_id in V2 by exact Rx. inversion V2 as [V3].
  split; [split; [exact Rs|split; [now rewrite <- V3|exact Rx]]|].
  assert (Gu : unit_good (q_unit (q_type q))) by apply Sz.
  destruct (root_ratio _ 2%positive _ _ ltac:(lia) ltac:(vm_compute; discriminate) Gu Rt Er) as [Vr Gr].
  apply (power_magnitude est w 1 2 q s m C R Sz Ed Gd m' Gr Vr M).
Qed.
Print Assumptions C54_sqrt.

(** A floating-point square root is correctly rounded: one rounding. *)
Theorem C54_sqrt_float : forall est w q s f x, consistent w -> q_rep (q_type q) = RFlt f -> q_num q = NFlt x ->
  is_number f x -> (0 <= fval x)%R -> q_sqrt est w q = Ok s ->
  exists y, q_num s = NFlt y /\ is_number f y /\ within f 1 (fval y) (sqrt (fval x)).
Proof.
  intros est w q s f x C Rq Nq Nx P H. destruct (sqrt_parts _ _ _ _ C H) as (Ed & Er & Rs & U & _ & v & V1 & V2).
  rewrite Rq, Nq in *. cbn [cmath_fty to_float] in V1. rewrite conv_same in V1 by apply Nx.
  destruct (sqrt_accuracy f x Nx P) as [A B]. cbn [n_convert] in V1. rewrite conv_same in V1 by apply A. inversion V1; subst v.
  cbn [n_convert] in V2. rewrite conv_same in V2 by apply A. inversion V2 as [V3].
  eexists. split; [reflexivity|]. split; [exact A|exact B].
Qed.
Print Assumptions C54_sqrt_float.

(** The root of a negative number is not a number; made an integer, that is undefined. *)
Theorem C54_sqrt_negative : forall est w q i n s, consistent w -> integral q i n -> n < 0 -> q_sqrt est w q <> Ok s.
Proof.
  intros est w q i n s C (Rq & Nq & Rn) L H. destruct (sqrt_parts _ _ _ _ C H) as (_ & _ & _ & _ & _ & v & V1 & _).
  rewrite Rq, Nq in *. cbn [cmath_fty to_float] in V1.
  assert (B : (Rabs (IZR n) <= bpow radix2 63)%R).
  { rewrite <- abs_IZR, <- (IZR_Zpower radix2) by discriminate. apply IZR_le. apply in_range_spec in Rn.
    change (radix2 ^ 63) with (2 ^ 63). destruct i as [[] []]; unfold imin, imax in Rn; cbn in Rn; lia. }
  destruct (of_int_rounds F64 n) as [A V]; [apply frnd_lt_emax with (e := 63); [discriminate|reflexivity|exact B]|].
  assert (N1 : (fval (float_of_int F64 n) <= -1)%R).
  { rewrite V, <- (frnd_id F64 (-1)) by (apply (format_int F64 (-1)); cbn; discriminate). apply frnd_le. apply IZR_le. lia. }
  destruct (float_of_int F64 n) as [sg|sg| |sg mx ex] eqn:E; try (destruct A; discriminate).
  - unfold fval in N1. cbn in N1. Lra.lra.
  - destruct sg.
    + cbn in V1. discriminate.
    + exfalso. unfold fval in N1. cbn in N1. assert (0 < F2R (Float radix2 (Z.pos mx) ex))%R by (apply F2R_gt_0; reflexivity). Lra.lra.
Qed.
Print Assumptions C54_sqrt_negative.

(** [cbrt]: the cube of the new unit is the old unit. *)
Theorem C54_cbrt : forall est w l q s m m', consistent w -> raisable (q_dim (q_type q)) 1 3 ->
  sized est (q_type q) m -> rootable est 3 (u_ratio (q_unit (q_type q))) ->
  q_cbrt est w l q = Ok s -> unit_good (dimension_unit (q_dim (q_type s))) ->
  magnitude (q_dim (q_type s)) (q_unit (q_type s)) m' ->
  (0 < m')%Q /\ ((m' * coherent s) ^ 3 == m * coherent q)%Q.
Proof.
  intros est w l q s m m' C R Sz Rt H Gd M.
  destruct (cbrt_parts _ _ _ _ _ C H) as (Ed & Er & _).
  assert (Gu : unit_good (q_unit (q_type q))) by apply Sz.
  destruct (root_ratio _ 3%positive _ _ ltac:(lia) ltac:(vm_compute; discriminate) Gu Rt Er) as [Vr Gr].
  apply (power_magnitude est w 1 3 q s m C R Sz Ed Gd m' Gr Vr M).
Qed.
Print Assumptions C54_cbrt.

(** Areas, squared lengths. *)
Definition dim_A : dimension := DUnknown [BExp dim_L 2 1] [BExp dim_L 2 1].
Definition areas (r : ratio) (t : ity) : qtype := QType dim_A (unk r) (RInt t).
(** sqrt(50 km^2) = 7 km; cbrt of the cube. *)
Example C54_sqrt_ex : q_sqrt sqrt_est empty_world (Quantity (areas (Ratio 1 1 6) I64) (NInt 50)) =
    Ok (Quantity (lengths (unnamed_metre (Ratio 1 1 3)) I64) (NInt 7)) /\
  raisable dim_A 1 2 /\ floor_root 2 50 7.
Proof.
  split; [vm_compute; reflexivity|]. split; [|unfold floor_root; lia]. split; [discriminate|]. split; [discriminate|]. right.
  split; [vm_compute; discriminate|]. split; [vm_compute; discriminate|].
  assert (T : ten_free (inject_Z 1 / inject_Z 2)). { split; [intros _|]; vm_compute; discriminate. }
  split; [exact T|]. split.
  - split; [repeat constructor|]. constructor; [|constructor]. vm_compute. repeat split; discriminate.
  - constructor; [|constructor]. split; [|split]; [split; [intros _|]; vm_compute; discriminate..|split; vm_compute; discriminate].
Qed.

(** Beyond 2^52 the root may come out one too large: 67108865^2 - 1. *)
Theorem C54_sqrt_rounded_up_refuted : floor_root 2 4503599761588224 67108864 /\
  q_sqrt sqrt_est empty_world (Quantity (areas (Ratio 1 1 0) I64) (NInt 4503599761588224)) =
    Ok (Quantity (lengths (unnamed_metre (Ratio 1 1 0)) I64) (NInt 67108865)).
Proof. split; [unfold floor_root; lia|vm_compute; reflexivity]. Qed.
Print Assumptions C54_sqrt_rounded_up_refuted.

(** The root of a unit that is not a perfect square is silently rounded: sqrt(4 * (2 m^2)) = 2 m. *)
Theorem C54_sqrt_unit_refuted :
  q_sqrt sqrt_est empty_world (Quantity (areas (Ratio 2 1 0) I64) (NInt 4)) =
    Ok (Quantity (lengths (unnamed_metre (Ratio 1 1 0)) I64) (NInt 2)).
Proof. vm_compute. reflexivity. Qed.
Print Assumptions C54_sqrt_unit_refuted.

(** * C54: absolute values *)

(** The unit is kept and the number is the absolute value, whenever that is a number of the type. *)
Theorem C54_abs : forall q i n, integral q i n -> isigned i = true -> in_range i (Z.abs n) = true ->
  q_abs q = Ok (Quantity (q_type q) (NInt (Z.abs n))).
Proof.
  intros q i n (Rq & Nq & Rn) Sg R. unfold q_abs. rewrite Rq, Nq, abs_int.
  assert (Sp : isigned (promote i) = true) by (destruct i as [[] []]; try discriminate; reflexivity). rewrite Sp. cbn [negb].
  assert (Ri : in_range (promote i) (Z.abs n) = true).
  { apply in_range_spec in R. apply in_range_spec. destruct i as [[] []]; try discriminate; unfold imin, imax in *; cbn in *; lia. }
  destruct (Z.ltb_spec n 0) as [L|L]; cbn [andb].
  - rewrite Z.abs_neq in Ri by lia. rewrite Ri. cbn [negb bind fst snd].
    unfold q_make. rewrite Rq. cbn [safe_convertible floating negb orb constrained bind n_convert]. now rewrite wrap_id by exact R.
  - cbn [bind fst snd]. unfold q_make. rewrite Rq. cbn [safe_convertible floating negb orb constrained bind n_convert].
    now rewrite wrap_id by exact R.
Qed.
Print Assumptions C54_abs.

(** Otherwise: the lowest number of [int] and of [std::int64_t] has no absolute value; that of
    the narrower types comes back unchanged, negative; unsigned [int] and wider do not compile. *)
Theorem C54_abs_lowest : forall q i n, integral q i n -> isigned i = true -> n = imin i ->
  q_abs q = match iwidth i with W8 | W16 => Ok q | _ => Undef end.
Proof.
  intros [[d u r] x] i n (Rq & Nq & Rn) Sg ->. cbn [q_type q_rep q_num] in *. subst r x.
  unfold q_abs. cbn [q_type q_rep q_num]. rewrite abs_int.
  destruct i as [[] []]; try discriminate; vm_compute; reflexivity.
Qed.
Print Assumptions C54_abs_lowest.
Theorem C54_abs_unsigned : forall q i n, integral q i n -> isigned i = false ->
  q_abs q = match iwidth i with W8 | W16 => Ok q | _ => IllFormed end.
Proof.
  intros [[d u r] x] i n (Rq & Nq & Rn) Sg. cbn [q_type q_rep q_num] in *. subst r x.
  unfold q_abs. cbn [q_type q_rep q_num]. rewrite abs_int. pose proof Rn as R. apply in_range_spec in R.
  assert (P : 0 <= n) by (unfold imin in R; rewrite Sg in R; lia). assert (L : (n <? 0) = false) by (apply Z.ltb_ge; lia).
  rewrite L. destruct i as [[] []]; try discriminate; cbn [promote iwidth isigned I32 negb andb bind fst snd]; try reflexivity;
    unfold q_make; cbn [q_rep safe_convertible floating negb orb constrained bind n_convert]; rewrite Z.abs_eq, wrap_id by auto; reflexivity.
Qed.
Print Assumptions C54_abs_unsigned.
Theorem C54_abs_float : forall q f x, q_rep (q_type q) = RFlt f -> q_num q = NFlt x -> is_number f x ->
  exists y, q_abs q = Ok (Quantity (q_type q) (NFlt y)) /\ is_number f y /\ fval y = Rabs (fval x).
Proof.
  intros q f x Rq Nq Nx. destruct (abs_float f x Nx) as [A B]. exists (SFabs x). split; [|auto].
  unfold q_abs. rewrite Rq, Nq. cbn [std_abs bind fst snd]. unfold q_make. rewrite Rq.
  cbn [safe_convertible floating orb constrained bind n_convert]. now rewrite conv_same by apply A.
Qed.
Print Assumptions C54_abs_float.
Example C54_abs_ex : q_abs (Quantity (lengths metre I16) (NInt (-5))) = Ok (Quantity (lengths metre I16) (NInt 5)) /\
  q_abs (Quantity (lengths metre I16) (NInt (-32768))) = Ok (Quantity (lengths metre I16) (NInt (-32768))) /\
  q_abs (Quantity (lengths metre I64) (NInt (- 2 ^ 63))) = Undef /\
  q_abs (Quantity (lengths metre U32) (NInt 5)) = IllFormed.
Proof. vm_compute. auto. Qed.

(** * C54: the epsilon *)

(** The distance from one to the next number of the representation. *)
Theorem C54_epsilon : forall t f, q_rep t = RFlt f ->
  exists x, q_epsilon t = Ok (Quantity t (NFlt x)) /\ is_number f x /\ (0 < fval x)%R /\
  forall y, is_number f y -> (1 < fval y)%R -> (1 + fval x <= fval y)%R.
Proof.
  intros t f R. destruct (epsilon_value f) as (x & E & N & V). exists x. unfold q_epsilon, q_make. rewrite R, E.
  cbn [safe_convertible floating orb constrained bind n_convert]. rewrite conv_same by apply N.
  split; [reflexivity|]. split; [exact N|]. rewrite V. split; [apply bpow_gt_0|apply epsilon_gap].
Qed.
Print Assumptions C54_epsilon.
(** The next number is attained. *)
Theorem C54_epsilon_attained : forall f, exists y, is_number f y /\ fval y = (1 + bpow radix2 (1 - fprec f))%R.
Proof.
  intros f. assert (E : F2R (Float radix2 (2 ^ (fprec f - 1) + 1) (1 - fprec f)) = (1 + bpow radix2 (1 - fprec f))%R).
  { unfold F2R. cbn [Fnum Fexp]. rewrite plus_IZR, (IZR_Zpower radix2) by (destruct f; discriminate).
    rewrite Rmult_plus_distr_r, Rmult_1_l, <- bpow_plus. replace (fprec f - 1 + (1 - fprec f)) with 0 by lia. reflexivity. }
  assert (I : in_format f (1 + bpow radix2 (1 - fprec f))).
  { rewrite <- E. unfold F2R. cbn [Fnum Fexp]. apply format_mul_pow2; destruct f; discriminate. }
  destruct (normalize_rounds f (2 ^ (fprec f - 1) + 1) (1 - fprec f) false) as [A B].
  - rewrite E, (frnd_id f) by exact I. pose proof (bpow_gt_0 radix2 (1 - fprec f)). rewrite Rabs_right by Lra.lra.
    apply Rlt_le_trans with (bpow radix2 1).
    + change (bpow radix2 1) with 2%R. assert (bpow radix2 (1 - fprec f) < bpow radix2 0)%R by (apply bpow_lt; destruct f; reflexivity).
      change (bpow radix2 0) with 1%R in *. Lra.lra.
    + apply bpow_le. destruct f; discriminate.
  - rewrite E, (frnd_id f) in B by exact I. eauto.
Qed.
Print Assumptions C54_epsilon_attained.

(** * C54: the exponential *)

(** For an integral representation [exp] does not compile; for a floating one in the unit
    [one] the number is that of [std::exp]. *)
Theorem C54_exp_integral : forall est l q i s, q_rep (q_type q) = RInt i -> q_exp est l q <> Ok s.
Proof.
  intros est l q i s R H. unfold q_exp in H. cbv zeta in H. rewrite R in H. step H as c0 E0. step H as p Ep. step H as t1 Et.
  unfold mk_qtype in Et. step Et as c1 E1. inversion Et; subst t1. discriminate.
Qed.
Print Assumptions C54_exp_integral.
Theorem C54_exp_one : forall est l f x, valid_binary (fprec f) (femax f) x = true ->
  valid_binary (fprec f) (femax f) (m_exp l f x) = true ->
  let t := QType dim_one unit_one (RFlt f) in
  q_exp est l (Quantity t (NFlt x)) = Ok (Quantity t (NFlt (m_exp l f x))).
Proof.
  intros est l f x V E t.
  assert (Sz : sized est t 1%Q).
  { split; [|split; [reflexivity|split; [constructor|]]].
    - assert (G : ratio_good (Ratio 1 1 0)) by (unfold ratio_good, lowest, storable; vm_compute; repeat split; auto; discriminate).
      split; [split; [constructor|exact G]|exact G].
    - exists 1%Q. split; [split; [constructor|split]|]; reflexivity. }
  assert (I : forall y, valid_binary (fprec f) (femax f) y = true -> quantity_cast est t t (NFlt y) = Ok (NFlt y)).
  { intros y Vy. apply (cast_identity est t f 1%Q y Sz); auto. discriminate. }
  unfold q_exp. cbv zeta. cbn [q_type q_num]. change (q_rep t) with (RFlt f). change (q_dim t) with dim_one.
  destruct (dimension_eq_dec dim_one dim_one) as [_|N]; [|congruence]. cbn [constrained bind].
  unfold quantity_cast_unit. change (mk_qtype (q_dim t) unit_one (q_rep t)) with (Ok t). cbn [bind]. rewrite I by exact V. cbn [bind snd].
  change (mk_qtype dim_one unit_one (RFlt f)) with (Ok t). cbn [bind cmath_fty to_float]. rewrite conv_same by exact V.
  unfold q_make. change (q_rep t) with (RFlt f). cbn [safe_convertible floating orb constrained bind n_convert].
  rewrite conv_same by exact E. cbn [q_type q_num]. rewrite I by exact E. reflexivity.
Qed.
Print Assumptions C54_exp_one.
