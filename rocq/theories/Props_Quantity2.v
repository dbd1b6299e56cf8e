(** Theorems about products, scaling, remainders, histories and mixed representations
    (C28-C34). *)

From Coq Require Import ZArith QArith Qabs String List Bool Lia Lqa.
From Verif Require Import Outcome CInt Pow Root Ratio SpecRatio FixedString Unit Downcast Dim DimOp
  Equivalent SpecDim SpecUnit Rep QuantityCast CommonQuantity Quantity SpecQuantity DimOpProofs MagnitudeProofs
  QTen IntProofs CastProofs QuantityProofs QuantityProofs2 QuantityProofs3 QuantityProofs4 QuantityProofs5 Samples Props_Quantity.
Import ListNotations.
Local Open Scope string_scope.
Local Open Scope list_scope.
Local Open Scope Z_scope.
Local Open Scope res_scope.

(** * C28: products and quotients *)

Theorem C28_product : forall est w a b ia ib na nb ma mb, consistent w -> integral a ia na -> integral b ib nb ->
  sized est (q_type a) ma -> sized est (q_type b) mb -> operands_fit ia ib na nb ->
  forall s, q_times w a b = Ok s -> unit_good (dimension_unit (q_dim (q_type s))) ->
  isigned (arith_conv ia ib) = true \/ in_range (arith_conv ia ib) (na * nb) = true ->
  denotes s (inject_Z na * ma * (inject_Z nb * mb)) /\ q_rep (q_type s) = RInt (arith_conv ia ib) /\
  dimension_multiply w (q_dim (q_type a)) (q_dim (q_type b)) = Ok (q_dim (q_type s)).
Proof.
  intros est w a b ia ib na nb ma mb C Ia Ib Sa Sb OF s H G F.
  destruct (q_times_values est w a b ia ib na nb ma mb C Ia Ib Sa Sb OF s H G F) as ((Rs & Ns & _) & _ & M & D).
  split; [|split; auto]. exists (na * nb), (ma * mb)%Q. split; [exact Ns|]. split; [exact M|].
  rewrite inject_Z_mult. ring.
Qed.
Print Assumptions C28_product.

(** The number of the quotient is the quotient of the physical values, expressed in the unit
    of the result and truncated; so the value is exact when the numbers divide. *)
Theorem C28_quotient : forall est w a b ia ib na nb ma mb, consistent w -> integral a ia na -> integral b ib nb ->
  sized est (q_type a) ma -> sized est (q_type b) mb -> operands_fit ia ib na nb ->
  forall s, q_over w a b = Ok s -> unit_good (dimension_unit (q_dim (q_type s))) ->
  isigned (arith_conv ia ib) = true \/ in_range (arith_conv ia ib) (Z.quot na nb) = true ->
  nb <> 0 /\ q_rep (q_type s) = RInt (arith_conv ia ib) /\
  dimension_divide w (q_dim (q_type a)) (q_dim (q_type b)) = Ok (q_dim (q_type s)) /\
  exists z m, q_num s = NInt z /\ magnitude (q_dim (q_type s)) (q_unit (q_type s)) m /\
    trunc_of (inject_Z na * ma / (inject_Z nb * mb) / m) z /\
    ((nb | na) -> denotes s (inject_Z na * ma / (inject_Z nb * mb))).
Proof.
  intros est w a b ia ib na nb ma mb C Ia Ib Sa Sb OF s H G F.
  destruct (q_over_values est w a b ia ib na nb ma mb C Ia Ib Sa Sb OF s H G F) as (Z0 & (Rs & Ns & _) & _ & M & D).
  pose proof (sized_pos _ _ _ Sa). pose proof (sized_pos _ _ _ Sb).
  split; auto. split; auto. split; auto. exists (Z.quot na nb), (ma / mb)%Q. split; auto. split; auto. split.
  - now apply over_trunc.
  - intros (k & ->). rewrite Z.quot_mul in Ns by auto. exists k, (ma / mb)%Q. split; auto. split; auto.
    rewrite inject_Z_mult. field. split; [lra|now apply injZ_nz].
Qed.
Print Assumptions C28_quotient.

Definition unk (r : ratio) : cunit := CUnit None [] r "unknown_coherent_unit" false None "no_prefix".
Definition dim_LT : dimension := DUnknown [BExp dim_L 1 1; BExp dim_T (-1) 1] [BExp dim_L 1 1; BExp dim_T (-1) 1].
(** 7 km / 2 h = 3 km/h (an unnamed unit of 10/36 m/s); -3 km * 2 m. *)
Example C28_ex : q_over empty_world (Quantity (lengths kilometre I64) (NInt 7)) (Quantity (times hour I64) (NInt 2)) =
    Ok (Quantity (QType dim_LT (unk (Ratio 1 36 1)) (RInt I64)) (NInt 3)) /\
  q_times empty_world (Quantity (lengths kilometre I64) (NInt (-3))) (Quantity (lengths metre I32) (NInt 2)) =
    Ok (Quantity (QType (DUnknown [BExp dim_L 2 1] [BExp dim_L 2 1]) (unk (Ratio 1 1 3)) (RInt I64)) (NInt (-6))).
Proof. vm_compute. auto. Qed.

(** * C29: the reciprocal *)

(** The unit of [v / q] has the magnitude 1/m exactly when the ratios of the coherent units
    of the two dimensions multiply to 1; the number is the truncated quotient. *)
Theorem C29_reciprocal_iff : forall est w i v q iq n m s, consistent w -> in_range i v = true ->
  integral q iq n -> sized est (q_type q) m -> operands_fit i iq v n ->
  isigned (arith_conv i iq) = true \/ in_range (arith_conv i iq) (Z.quot v n) = true ->
  value_div_q w (RInt i) (NInt v) q = Ok s -> unit_good (dimension_unit (q_dim (q_type s))) ->
  n <> 0 /\ integral s (arith_conv i iq) (Z.quot v n) /\
  dim_invert w (q_dim (q_type q)) = Ok (q_dim (q_type s)) /\
  (magnitude (q_dim (q_type s)) (q_unit (q_type s)) (/ m) <->
   (rval (u_ratio (dimension_unit (q_dim (q_type q)))) * rval (u_ratio (dimension_unit (q_dim (q_type s)))) == 1)%Q).
Proof.
  intros est w i v q iq n m s C Rv I S OF F H G.
  destruct (value_div_values est w i v q iq n m s C Rv I S OF F H G) as (Z0 & Is & D & M).
  split; auto. split; auto. split; auto. pose proof (sized_pos _ _ _ S) as P.
  assert (Gq : unit_good (dimension_unit (q_dim (q_type q)))) by apply S.
  apply good_pos in Gq, G.
  set (x := rval (u_ratio (dimension_unit (q_dim (q_type q))))) in *.
  set (y := rval (u_ratio (dimension_unit (q_dim (q_type s))))) in *.
  assert (XY : (0 < x * y)%Q) by (apply Qmult_lt_0_compat; auto).
  assert (IM : (0 < / m)%Q) by now apply Qinv_lt_0_compat.
  split; intros E.
  - pose proof (magnitude_unique _ _ _ _ M E) as U.
    assert (W : (/ m == / m * (x * y))%Q). { rewrite <- U at 2. field. repeat split; lra. }
    assert (W' : (/ m * 1 == / m * (x * y))%Q) by (rewrite <- W; ring).
    apply Qmult_inj_l in W'; lra.
  - eapply magnitude_ext; [|exact M]. rewrite E. field. lra.
Qed.
Print Assumptions C29_reciprocal_iff.

(** 6 / (2 min) = 3 per minute; and a dimension whose coherent unit is not its reference: the
    unit of 1 / (1 kg) has the magnitude 10^-6 per gram instead of 10^-3. *)
Example C29_ex : value_div_q empty_world (RInt I64) (NInt 6) (Quantity (times minute I64) (NInt 2)) =
  Ok (Quantity (QType (DUnknown [BExp dim_T (-1) 1] [BExp dim_T (-1) 1]) (unk (Ratio 1 6 (-1))) (RInt I64)) (NInt 3)).
Proof. vm_compute. auto. Qed.
Definition masses (u : cunit) (t : ity) : qtype := QType (DBase dim_M) u (RInt t).
Theorem C29_kilogram_refuted : exists s,
  value_div_q empty_world (RInt I64) (NInt 1) (Quantity (masses kilogram I64) (NInt 1)) = Ok s /\
  magnitude (DBase dim_M) kilogram 1000 /\
  magnitude (q_dim (q_type s)) (q_unit (q_type s)) (1 # 1000000) /\
  ~ magnitude (q_dim (q_type s)) (q_unit (q_type s)) (/ 1000).
Proof.
  exists (Quantity (QType (DUnknown [BExp dim_M (-1) 1] [BExp dim_M (-1) 1]) (unk (Ratio 1 1 (-3))) (RInt I64)) (NInt 1)).
  split; [vm_compute; reflexivity|]. split.
  - exists 1000%Q. split; [split; [|split]|]; try (vm_compute; reflexivity).
    constructor; [split; [discriminate|exists 2; reflexivity]|constructor].
  - assert (M : magnitude (DUnknown [BExp dim_M (-1) 1] [BExp dim_M (-1) 1]) (unk (Ratio 1 1 (-3))) (1 # 1000000)).
    { exists (1 # 1000)%Q. split; [split; [|split]|]; try (vm_compute; reflexivity).
      constructor; [split; [discriminate|exists (-2); reflexivity]|constructor]. }
    split; [exact M|]. intros N. pose proof (magnitude_unique _ _ _ _ M N) as E. vm_compute in E. discriminate.
Qed.
Print Assumptions C29_kilogram_refuted.

(** * C30: scaling *)

(** [q * v], [v * q] ([o] = multiplication) and [q / v]: the unit is kept, the number is
    scaled exactly, or divided and truncated. *)
Theorem C30_scales : forall o (sw : bool) q i v iq n s, in_range i v = true -> integral q iq n -> operands_fit iq i n v ->
  let e := if sw then exact_op o v n else exact_op o n v in
  isigned (arith_conv iq i) = true \/ in_range (arith_conv iq i) e = true ->
  q_scale o sw q (RInt i) (NInt v) = Ok s ->
  integral s (arith_conv iq i) e /\ q_dim (q_type s) = q_dim (q_type q) /\ q_unit (q_type s) = q_unit (q_type q) /\
  (divides_op o = true -> (if sw then n else v) <> 0).
Proof. exact q_scale_values. Qed.
Print Assumptions C30_scales.

Theorem C30_value : forall est q i v iq n m s, in_range i v = true -> integral q iq n -> sized est (q_type q) m ->
  isigned (arith_conv iq i) = true -> q_mul_value q (RInt i) (NInt v) = Ok s ->
  denotes s (inject_Z v * (inject_Z n * m)).
Proof.
  intros est q i v iq n m s Rv I S Sg H.
  destruct (q_scale_values OpMul false q i v iq n s Rv I (or_introl Sg) (or_introl Sg) H) as ((_ & Ns & _) & D & U & _).
  exists (n * v), m. split; [exact Ns|]. rewrite D, U. split; [apply S|]. rewrite inject_Z_mult. ring.
Qed.
Print Assumptions C30_value.

Theorem C30_quotient_value : forall est q i v iq n m s, in_range i v = true -> integral q iq n -> sized est (q_type q) m ->
  isigned (arith_conv iq i) = true -> q_div_value q (RInt i) (NInt v) = Ok s ->
  v <> 0 /\ exists z, q_num s = NInt z /\ trunc_of (inject_Z n / inject_Z v) z /\ denotes s (inject_Z z * m).
Proof.
  intros est q i v iq n m s Rv I S Sg H.
  destruct (q_scale_values OpDiv false q i v iq n s Rv I (or_introl Sg) (or_introl Sg) H) as ((_ & Ns & _) & D & U & Z0).
  specialize (Z0 eq_refl). split; [exact Z0|]. exists (Z.quot n v). split; [exact Ns|]. split; [now apply quot_trunc_any|].
  exists (Z.quot n v), m. split; [exact Ns|]. rewrite D, U. split; [apply S|reflexivity].
Qed.
Print Assumptions C30_quotient_value.

Theorem C30_back : forall q i v iq n p s, in_range i v = true -> integral q iq n -> isigned (arith_conv iq i) = true ->
  v <> 0 -> q_mul_value q (RInt i) (NInt v) = Ok p -> q_div_value p (RInt i) (NInt v) = Ok s ->
  integral s (arith_conv iq i) n /\ q_dim (q_type s) = q_dim (q_type q) /\ q_unit (q_type s) = q_unit (q_type q).
Proof. exact scale_back. Qed.
Print Assumptions C30_back.

Theorem C30_commutes : forall q i v iq n p s, in_range i v = true -> integral q iq n ->
  q_mul_value q (RInt i) (NInt v) = Ok p -> value_mul_q q (RInt i) (NInt v) = Ok s -> p = s.
Proof. exact scale_commutes. Qed.
Print Assumptions C30_commutes.
Example C30_ex : q_mul_value (Quantity (lengths kilometre I32) (NInt (-7))) (RInt I16) (NInt 3) =
    Ok (Quantity (lengths kilometre I32) (NInt (-21))) /\
  q_div_value (Quantity (lengths kilometre I32) (NInt (-7))) (RInt I64) (NInt 2) =
    Ok (Quantity (lengths kilometre I64) (NInt (-3))).
Proof. vm_compute. auto. Qed.

(** * C31: the remainder law *)

Theorem C31_same_unit : forall a b ia ib na nb s m, integral a ia na -> integral b ib nb ->
  operands_fit ia ib na nb -> q_rem a b = Ok s ->
  magnitude (q_dim (q_type a)) (q_unit (q_type a)) m -> magnitude (q_dim (q_type b)) (q_unit (q_type b)) m -> (0 < m)%Q ->
  exists k v, trunc_of (inject_Z na * m / (inject_Z nb * m)) k /\ denotes s v /\
    (inject_Z na * m == inject_Z k * (inject_Z nb * m) + v)%Q /\
    (Qabs v < Qabs (inject_Z nb * m))%Q /\ ((0 <= inject_Z na)%Q -> (0 <= v)%Q) /\ ((inject_Z na <= 0)%Q -> (v <= 0)%Q).
Proof. exact remainder_law. Qed.
Print Assumptions C31_same_unit.
Example C31_ex : q_rem (Quantity (lengths kilometre I32) (NInt (-17))) (Quantity (lengths kilometre I64) (NInt 5)) =
  Ok (Quantity (lengths kilometre I64) (NInt (-2))).
Proof. vm_compute. auto. Qed.

(** Different units: 5 km % 3 m is computed as 2 km, which is more than 3 m. *)
Theorem C31_different_units_refuted :
  q_rem (Quantity (lengths kilometre I64) (NInt 5)) (Quantity (lengths metre I64) (NInt 3)) =
    Ok (Quantity (lengths kilometre I64) (NInt 2)) /\
  (inject_Z 3 * rval (u_ratio metre) < inject_Z 2 * rval (u_ratio kilometre))%Q.
Proof. vm_compute. auto. Qed.
Print Assumptions C31_different_units_refuted.

(** * C32: histories of compound assignments *)

(** Any representation: the type is kept, and the number is what the same operations on the
    plain representation give, operands converted to the type first. *)
Theorem C32_plain_numbers : forall est l q q', q_run est q l = Ok q' ->
  q_type q' = q_type q /\
  exists ops, Forall2 (plain est (q_type q)) l ops /\ plain_run (q_rep (q_type q)) (q_num q) ops = Ok (q_num q').
Proof. exact run_plain. Qed.
Print Assumptions C32_plain_numbers.

(** Integral representations: the physical value is that of the exact history as long as its
    values are values of the type. *)
Theorem C32_physical_values : forall est l q iq n m v v', integral q iq n -> sized est (q_type q) m ->
  (v == inject_Z n * m)%Q -> history est (q_type q) m v l v' -> forall q', q_run est q l = Ok q' ->
  q_type q' = q_type q /\ exists n', integral q' iq n' /\ (v' == inject_Z n' * m)%Q.
Proof. exact run_history. Qed.
Print Assumptions C32_physical_values.

Theorem C32_negation : forall est q iq n m s, integral q iq n -> sized est (q_type q) m ->
  isigned (promote iq) = true -> q_neg q = Ok s -> denotes s (- (inject_Z n * m)).
Proof.
  intros est q iq n m s I S Sg H. destruct (q_neg_values q iq n s I Sg H) as ((_ & Ns & _) & D & U).
  exists (- n), m. split; [exact Ns|]. rewrite D, U. split; [apply S|]. rewrite inject_Z_opp. ring.
Qed.
Print Assumptions C32_negation.

(** 10 min; += 1 h; *= 3; --; /= 2; ++. *)
Definition history_ex : list action :=
  [AAdd (Quantity (times hour I64) (NInt 1)); AMulV (RInt I32) (NInt 3); ADec; ADivV (RInt I32) (NInt 2); AInc].
Example C32_ex : forall est, q_run est (Quantity (times minute I64) (NInt 10)) history_ex =
  Ok (Quantity (times minute I64) (NInt 105)).
Proof. intros est. vm_compute. auto. Qed.
Example C32_ex_history : forall est, history est (times minute I64) 60 600 history_ex 6300.
Proof.
  intros est. destruct good_units as (_ & _ & _ & _ & _ & Gh & _). unfold history_ex.
  apply hist_cons with (v1 := 4200%Q).
  - apply eff_add with (x := 3600%Q); [|reflexivity].
    apply operand_intro with (i := I64) (n := 1) (mb := rval (u_ratio hour)).
    + repeat split.
    + now apply (sized_time est hour).
    + now apply references_ok_refl.
    + right. split.
      * exists (Ratio 6 1 1), I64. vm_compute. repeat split; congruence.
      * intros m1 m2 M1 M2. exists I64. split; [reflexivity|].
        assert (E1 : (m1 == 3600)%Q).
        { destruct (sized_time est hour I64 Gh eq_refl) as (_ & _ & _ & M). rewrite (magnitude_unique _ _ _ _ M1 M). reflexivity. }
        assert (E2 : (m2 == 60)%Q).
        { assert (Gm : unit_good minute) by apply good_units.
          destruct (sized_time est minute I64 Gm eq_refl) as (_ & _ & _ & M). rewrite (magnitude_unique _ _ _ _ M2 M). reflexivity. }
        rewrite E1, E2. vm_compute. split; discriminate.
    + reflexivity.
  - exists I64. split; [reflexivity|]. vm_compute. split; discriminate.
  - apply hist_cons with (v1 := 12600%Q); [apply eff_mulv; reflexivity| |].
    { exists I64. split; [reflexivity|]. vm_compute. split; discriminate. }
    apply hist_cons with (v1 := 12540%Q); [apply eff_dec; reflexivity| |].
    { exists I64. split; [reflexivity|]. vm_compute. split; discriminate. }
    apply hist_cons with (v1 := 6240%Q).
    + apply eff_divv with (k := 104); [reflexivity|discriminate|apply fits_signed with (a := I64); reflexivity| |reflexivity].
      split; vm_compute; [|intros X; exfalso; now apply X]. split; [discriminate|reflexivity].
    + exists I64. split; [reflexivity|]. vm_compute. split; discriminate.
    + apply hist_cons with (v1 := 6300%Q); [apply eff_inc; reflexivity| |constructor].
      exists I64. split; [reflexivity|]. vm_compute. split; discriminate.
Qed.
(** A floating factor on an integral quantity truncates the product: 3 m *= 2.5 is 7 m. *)
Theorem C32_floating_factor_refuted : forall est,
  q_run est (Quantity (lengths metre I64) (NInt 3)) [AMulV (RFlt F64) (NFlt (SpecFloat.S754_finite false 5629499534213120 (-51)))] =
  Ok (Quantity (lengths metre I64) (NInt 7)).
Proof. intros est. vm_compute. auto. Qed.
Print Assumptions C32_floating_factor_refuted.

(** * C33: zero, min and max *)

Theorem C33_zero_identity : forall o est w q a n m s, sum_op o -> consistent w -> integral q a n -> sized est (q_type q) m ->
  q_addsub o est w q (q_zero (q_type q)) = Ok s ->
  q_dim (q_type s) = q_dim (q_type q) /\ q_unit (q_type s) = q_unit (q_type q) /\
  q_num s = q_num q /\ q_rep (q_type s) = RInt (promote a).
Proof. exact zero_identity. Qed.
Print Assumptions C33_zero_identity.

Theorem C33_bounds : forall est w q a n, integral q a n ->
  exists c d, q_compare est w (q_min (q_type q)) q = Ok (Some c) /\ c <> Gt /\
    q_compare est w q (q_max (q_type q)) = Ok (Some d) /\ d <> Gt.
Proof. exact bounds_same_type. Qed.
Print Assumptions C33_bounds.

(** A quantity of another unit beyond the bounds of a type is beyond all its quantities. *)
Theorem C33_bounds_other_unit : forall est w, consistent w -> forall q x n m vx, integral q I64 n -> sized est (q_type q) m ->
  valued est x vx -> compatible (q_type q) (x.(q_type)) ->
  (forall c, q_compare est w (q_max (q_type q)) x = Ok (Some Lt) -> q_compare est w q x = Ok c -> c = Some Lt) /\
  (forall c, q_compare est w (q_min (q_type q)) x = Ok (Some Gt) -> q_compare est w q x = Ok c -> c = Some Gt).
Proof.
  intros est w C q x n m vx I S Vx Co. pose proof (sized_pos _ _ _ S) as P.
  assert (Vq : valued est q (inject_Z n * m)) by (exists n, m; repeat split; auto; try apply I; try apply S).
  assert (R : q_rep (q_type q) = RInt I64) by apply I.
  assert (Vmax : valued est (q_max (q_type q)) (inject_Z (imax I64) * m)).
  { exists (imax I64), m. split; [now apply max_integral|]. split; [exact S|reflexivity]. }
  assert (Vmin : valued est (q_min (q_type q)) (inject_Z (imin I64) * m)).
  { exists (imin I64), m. split; [now apply min_integral|]. split; [exact S|reflexivity]. }
  destruct I as (_ & _ & I). rewrite in_range_spec in I.
  assert (L1 : (inject_Z (imin I64) * m <= inject_Z n * m)%Q) by (apply Qmult_le_compat_r; [apply (proj1 (injZ_le _ _)); lia|lra]).
  assert (L2 : (inject_Z n * m <= inject_Z (imax I64) * m)%Q) by (apply Qmult_le_compat_r; [apply (proj1 (injZ_le _ _)); lia|lra]).
  split; intros c H1 H2.
  - apply (valued_compare est w C _ _ _ _ _ Vmax Vx Co) in H1. apply (valued_compare est w C _ _ _ _ _ Vq Vx Co) in H2.
    subst c. f_equal. apply (proj1 (Qlt_alt _ _)). assert (inject_Z (imax I64) * m < vx)%Q by (apply Qlt_alt; congruence). lra.
  - apply (valued_compare est w C _ _ _ _ _ Vmin Vx Co) in H1. apply (valued_compare est w C _ _ _ _ _ Vq Vx Co) in H2.
    subst c. f_equal. apply (proj1 (Qgt_alt _ _)). assert (vx < inject_Z (imin I64) * m)%Q by (apply Qgt_alt; congruence). lra.
Qed.
Print Assumptions C33_bounds_other_unit.
Example C33_ex : forall est,
  q_add est empty_world (Quantity (lengths metre I16) (NInt (-5))) (q_zero (lengths metre I16)) =
    Ok (Quantity (lengths metre I32) (NInt (-5))) /\
  q_compare est empty_world (q_max (lengths metre I64)) (Quantity (lengths kilometre I64) (NInt 9223372036854775)) = Ok (Some Gt).
Proof. intros est. vm_compute. auto. Qed.

(** * C34: mixed representations *)

Theorem C34_exact : forall o a b x y r, in_range a x = true -> in_range b y = true -> operands_fit a b x y ->
  n_op o (RInt a) (RInt b) (NInt x) (NInt y) = Ok r ->
  isigned (arith_conv a b) = true \/ in_range (arith_conv a b) (exact_op o x y) = true ->
  r = NInt (exact_op o x y) /\ (divides_op o = true -> y <> 0) /\
  in_range (arith_conv a b) (exact_op o x y) = true.
Proof. exact n_op_exact. Qed.
Print Assumptions C34_exact.

(** The result type: 64 bits if one operand has them, else 32; unsigned exactly when an
    operand at least as wide as that is. *)
Theorem C34_result_type : forall a b, let t := arith_conv a b in
  (iwidth t = W64 <-> iwidth a = W64 \/ iwidth b = W64) /\ (iwidth t = W64 \/ iwidth t = W32) /\
  (isigned t = false <-> (a = t /\ isigned a = false) \/ (b = t /\ isigned b = false)).
Proof.
  intros [[] []] [[] []]; cbn; repeat split; try congruence; try tauto;
    intros; repeat match goal with H : _ \/ _ |- _ => destruct H | H : _ /\ _ |- _ => destruct H end; try congruence; auto.
Qed.
Print Assumptions C34_result_type.
Example C34_ex : arith_conv I16 U32 = U32 /\ arith_conv I64 U32 = I64 /\ arith_conv I16 (ITy W8 false) = I32 /\
  n_op OpSub (RInt I64) (RInt U32) (NInt 1) (NInt 5) = Ok (NInt (-4)).
Proof. vm_compute. auto. Qed.

(** A negative number and an unsigned type: -1 m > 1 m. *)
Theorem C34_negative_to_unsigned_refuted : forall est,
  q_compare est empty_world (Quantity (lengths metre I32) (NInt (-1))) (Quantity (lengths metre U32) (NInt 1)) = Ok (Some Gt).
Proof. intros est. vm_compute. auto. Qed.
Print Assumptions C34_negative_to_unsigned_refuted.
