(** Laws of casts and operators as a user sees them. *)

From Coq Require Import ZArith QArith Qpower Qabs String List Bool Lia Lqa.
From Verif Require Import Outcome CInt Ratio SpecRatio QTen RatioMaths RatioMathsProofs RatioProofs
  Pow Root RatioProofs2 RatioPowProofs Unit Downcast Dim DimOp Equivalent SpecDim SpecUnit
  DimOpProofs DimOpProofs2 EquivProofs MagnitudeProofs Rep IntProofs Reference QuantityCast CommonQuantity Quantity SpecQuantity CastProofs
  QuantityProofs QuantityProofs2 QuantityProofs3 QuantityProofs4.
Import ListNotations.
Local Open Scope Z_scope.
Local Open Scope res_scope.

Lemma cast_rep_I64 : forall a b, a <> U64 -> b <> U64 -> cast_rep (RInt a) (RInt b) = RInt I64.
Proof. intros [[] []] [[] []] A B; try reflexivity; exfalso; try (now apply A); now apply B. Qed.

Lemma references_ok_sym : forall t1 t2, references_ok t1 t2 -> references_ok t2 t1.
Proof. intros t1 t2 R E b1 b2 B1 B2. symmetry. apply (R (eq_sym E)); auto. Qed.

Section Signed.
Variables (est : estimate) (from to : qtype) (a b : ity) (m1 m2 : Q).
Hypothesis (S1 : sized est from m1) (S2 : sized est to m2) (Ref : references_ok from to).
Hypothesis (Ra : q_rep from = RInt a) (Rb : q_rep to = RInt b).
Hypothesis (Ua : a <> U64) (Ub : b <> U64).

Lemma defined_no_overflow : forall n r, in_range a n = true -> quantity_cast est from to (NInt n) = Ok r ->
  no_overflow est from to n /\ dim_equivalent (q_dim to) (q_dim from) = true.
Proof.
  intros n r I H. split.
  - destruct S1 as (G1 & _ & X1 & M1), S2 as (G2 & _ & X2 & M2).
    eapply (quantity_cast_defined est from to a b m1 m2); eauto.
    + rewrite Ra, Rb. now apply cast_rep_I64.
    + reflexivity.
  - unfold quantity_cast in H. step H as u Eu. unfold constrained in Eu.
    destruct (dim_equivalent (q_dim to) (q_dim from)); congruence.
Qed.

Lemma defined_truncates : forall n r, in_range a n = true -> quantity_cast est from to (NInt n) = Ok r ->
  exists z, r = NInt (wrap b z) /\ trunc_of (inject_Z n * m1 / m2) z.
Proof.
  intros n r I H. destruct (defined_no_overflow _ _ I H) as [No De].
  destruct (cast_fits _ _ _ _ _ _ _ _ S1 S2 Ref Ra Rb De No) as (z & Ez & T). exists z. split; [congruence|exact T].
Qed.

Lemma defined_value : forall n z, in_range a n = true -> value_fits (q_rep to) (inject_Z n * m1 / m2) ->
  quantity_cast est from to (NInt n) = Ok (NInt z) -> trunc_of (inject_Z n * m1 / m2) z /\ in_range b z = true.
Proof.
  intros n z I F H. destruct (defined_truncates _ _ I H) as (y & E & T). inversion E as [E'].
  rewrite Rb in F. pose proof (trunc_in_range _ _ _ F T) as Iy. rewrite wrap_id; auto.
Qed.

Lemma not_fitting : forall n c, in_range a n = true -> dim_equivalent (q_dim to) (q_dim from) = true ->
  cast_ratio est (q_dim from) (q_unit from) (q_dim to) (q_unit to) = Ok c ->
  ~ products_fit I64 c n -> quantity_cast est from to (NInt n) = Undef.
Proof.
  intros n c I De Ec NF. destruct S1 as (G1 & _ & X1 & M1), S2 as (G2 & _ & X2 & M2).
  eapply (quantity_cast_undefined est from to a b m1 m2) with (t := I64); eauto. rewrite Ra, Rb. now apply cast_rep_I64.
Qed.
End Signed.

Lemma trunc_bounds : forall q z, trunc_of q z ->
  (Qabs (q - inject_Z z) < 1)%Q /\ (Qabs (inject_Z z) <= Qabs q)%Q /\
  ((0 <= q)%Q -> 0 <= z) /\ ((q <= 0)%Q -> z <= 0).
Proof.
  intros q z [T1 T2]. destruct (Qlt_le_dec 0 q) as [P|P].
  - assert (P' : (0 <= q)%Q) by lra. specialize (T1 P'). destruct T1 as [A B]. clear T2.
    assert (Z0 : 0 <= z) by (apply (injZ_lt1 0 z); change (inject_Z 0) with 0%Q; lra).
    assert (ZQ : (0 <= inject_Z z)%Q) by (change 0%Q with (inject_Z 0); now apply (proj1 (injZ_le _ _))).
    split; [|split; [|split]]; auto.
    + rewrite Qabs_pos by lra. lra.
    + rewrite !Qabs_pos by lra. lra.
    + intros N. lra.
  - specialize (T2 P). destruct T2 as [A B].
    assert (Z0 : z <= 0) by (apply (injZ_lt1 z 0); change (inject_Z 0) with 0%Q; lra).
    assert (ZQ : (inject_Z z <= 0)%Q) by (change 0%Q with (inject_Z 0); now apply (proj1 (injZ_le _ _))).
    split; [|split; [|split]]; auto.
    + rewrite Qabs_neg by lra. lra.
    + rewrite !Qabs_neg by lra. lra.
    + intros N. specialize (T1 N). destruct T1 as [C D].
      apply (injZ_lt1 0 z); change (inject_Z 0) with 0%Q; lra.
Qed.

Lemma cast_back : forall est from to a b m1 m2 n z r, sized est from m1 -> sized est to m2 -> references_ok from to ->
  q_rep from = RInt a -> q_rep to = RInt b -> a <> U64 -> b <> U64 -> in_range a n = true ->
  multiple_of m1 m2 -> value_fits (q_rep to) (inject_Z n * m1 / m2) ->
  quantity_cast est from to (NInt n) = Ok (NInt z) ->
  same_value n m1 z m2 /\ (quantity_cast est to from (NInt z) = Ok r -> r = NInt n).
Proof.
  intros est from to a b m1 m2 n z r S1 S2 Ref Ra Rb Ua Ub I (k & Hk) F H.
  pose proof (sized_pos _ _ _ S1) as P1. pose proof (sized_pos _ _ _ S2) as P2.
  destruct (defined_value est from to a b m1 m2 S1 S2 Ref Ra Rb Ua Ub n z I F H) as [T Iz].
  assert (E : z = n * k).
  { eapply trunc_unique; [exact T|]. apply trunc_int. rewrite Hk, inject_Z_mult. field. lra. }
  assert (V : same_value n m1 z m2) by (unfold same_value; rewrite E, Hk, inject_Z_mult; ring).
  split; [exact V|]. intros B.
  destruct (defined_truncates est to from b a m2 m1 S2 S1 (references_ok_sym _ _ Ref) Rb Ra Ub Ua z r Iz B) as (y & -> & Ty).
  assert (y = n).
  { eapply trunc_unique; [exact Ty|]. apply trunc_int. unfold same_value in V. rewrite <- V. field. lra. }
  subst y. now rewrite wrap_id.
Qed.

(** ** Ordering across units *)

Section Order.
Variables (est : estimate) (w : world) (C : consistent w).
Lemma valued_compare : forall a b va vb c, valued est a va -> valued est b vb -> compatible (q_type a) (q_type b) ->
  q_compare est w a b = Ok c -> c = Some (va ?= vb)%Q.
Proof.
  intros a b va vb c (na & ma & Ia & Sa & Va) (nb & mb & Ib & Sb & Vb) Co H. rewrite Va, Vb.
  eapply q_compare_int64; eauto; discriminate.
Qed.
Lemma valued_eqb : forall a b va vb v, valued est a va -> valued est b vb -> compatible (q_type a) (q_type b) ->
  q_eqb est w a b = Ok v -> (v = true <-> (va == vb)%Q).
Proof.
  intros a b va vb c (na & ma & Ia & Sa & Va) (nb & mb & Ib & Sb & Vb) Co H. rewrite Va, Vb.
  eapply q_eqb_int64; eauto; discriminate.
Qed.
End Order.

(** ** Zero, min and max *)

Lemma convert_rep : forall est t m a a' n r, sized est t m -> q_rep t = RInt a -> in_range a n = true ->
  in_range a' n = true -> (a = a' \/ (a <> U64 /\ a' <> U64)) ->
  q_convert est t (with_rep t (RInt a')) (NInt n) = Ok r -> convertible est t (with_rep t (RInt a')) n.
Proof.
  intros est t m a a' n r S R I I' A H. destruct A as [<-|[U U']].
  - left. destruct t as [d u r0]. cbn in *. now subst r0.
  - unfold q_convert in H. destruct (qtype_eq_dec t (with_rep t (RInt a'))) as [E|E]; [now left|]. right.
    step H as s Es. step H as c Ec.
    pose proof (sized_rep est t m (RInt a') S) as S'. pose proof (references_ok_refl t (with_rep t (RInt a')) eq_refl) as Ref.
    split.
    + apply (defined_no_overflow est t (with_rep t (RInt a')) a a' m m S S' Ref R eq_refl U U' n r I H).
    + intros x y X Y. cbn [with_rep q_dim q_unit q_rep] in *.
      pose proof (magnitude_unique _ _ _ _ X Y) as XY. exists a'. split; [reflexivity|].
      assert (0 < x)%Q by (eapply magnitude_pos; [apply S|apply S|exact X]).
      assert (E' : (inject_Z n * x / y == inject_Z n)%Q) by (rewrite <- XY; field; lra).
      rewrite E'. apply in_range_spec in I'. split; apply (proj1 (injZ_le _ _)); lia.
Qed.

Lemma zero_identity : forall o est w q a n m s, sum_op o -> consistent w -> integral q a n -> sized est (q_type q) m ->
  q_addsub o est w q (q_zero (q_type q)) = Ok s ->
  q_dim (q_type s) = q_dim (q_type q) /\ q_unit (q_type s) = q_unit (q_type q) /\
  q_num s = q_num q /\ q_rep (q_type s) = RInt (promote a).
Proof.
  intros o est w [t x] a n m s O C (R & N & I) S H. cbn [q_type q_num] in *. subst x.
  unfold q_addsub, q_zero in H. cbn [q_type q_num] in H. rewrite R in H. cbv zeta in H. cbn [arith_rep rep_zero] in H.
  step H as t' Et. unfold common_quantity in Et. step Et as c Ec. unfold common_dim_unit in Et.
  destruct (dimension_eq_dec (q_dim t) (q_dim t)) as [_|X]; [|now contradiction X].
  destruct (cunit_eq_dec (q_unit t) (q_unit t)) as [_|X]; [|now contradiction X]. cbn [bind fst snd] in Et.
  unfold mk_qtype in Et. step Et as c2 Ec2. inversion Et; subst t'; clear Et.
  assert (AP : arith_conv a a = promote a) by (destruct a as [[] []]; reflexivity). rewrite AP in *.
  change (QType (q_dim t) (q_unit t) (RInt (promote a))) with (with_rep t (RInt (promote a))) in *.
  step H as x Ex. step H as y Ey. step H as k Ek. step H as k' Ek'. inversion H; subst s; clear H. cbn [q_type q_num with_rep q_dim q_unit q_rep].
  assert (A : a = promote a \/ (a <> U64 /\ promote a <> U64)).
  { destruct a as [[] []]; try (left; reflexivity); right; split; discriminate. }
  assert (Z0 : in_range a 0 = true) by (destruct a as [[] []]; reflexivity).
  pose proof (promote_holds a n I) as Ip. pose proof (promote_holds a 0 Z0) as Ip0.
  pose proof (sized_rep est t m (RInt (promote a)) S) as S'. pose proof (references_ok_refl t (with_rep t (RInt (promote a))) eq_refl) as Ref.
  pose proof (sized_pos _ _ _ S) as P.
  assert (V : forall n r, in_range a n = true -> q_convert est t (with_rep t (RInt (promote a))) (NInt n) = Ok r -> r = NInt n).
  { intros n0 r I0 H0. pose proof (convert_rep _ _ _ _ _ _ _ S R I0 (promote_holds a n0 I0) A H0) as Cv.
    destruct (convert_exact _ _ _ _ _ _ _ _ _ S S' Ref R eq_refl I0 Cv H0) as (z & -> & _ & Vz). f_equal.
    unfold same_value in Vz. apply Qmult_inj_r in Vz; [|lra]. now apply (proj1 (inject_Z_injective _ _)). }
  apply V in Ex; auto. apply V in Ey; auto. subst x y.
  assert (OF : operands_fit (promote a) (promote a) n 0).
  { unfold operands_fit. destruct a as [[] []]; try (left; reflexivity); right; rewrite in_range_spec in I; cbn in I; lia. }
  assert (PP : arith_conv (promote a) (promote a) = promote a) by (destruct a as [[] []]; reflexivity).
  assert (EX : exact_op o n 0 = n) by (destruct O as [-> | ->]; cbn; lia).
  destruct (n_op_exact _ _ _ _ _ _ Ip Ip0 OF Ek) as (-> & _ & _).
  { right. now rewrite PP, EX. }
  rewrite EX in Ek'. cbn [n_convert] in Ek'. inversion Ek'. rewrite wrap_id by auto. auto.
Qed.

Lemma bounds_same_type : forall est w q a n, integral q a n ->
  exists c d, q_compare est w (q_min (q_type q)) q = Ok (Some c) /\ c <> Gt /\
    q_compare est w q (q_max (q_type q)) = Ok (Some d) /\ d <> Gt.
Proof.
  intros est w [t x] a n (R & N & I). cbn [q_type q_num] in *. subst x.
  exists (Z.compare (imin a) n), (Z.compare n (imax a)). rewrite in_range_spec in I.
  unfold q_compare, q_common, q_min, q_max. cbn [q_type q_num]. rewrite R.
  destruct (qtype_eq_dec t t) as [_|X]; [|now contradiction X]. cbn. repeat split; rewrite ?Z.compare_gt_iff; lia.
Qed.

(** ** Scaling and back *)

Lemma scale_back : forall q i v iq n p s, in_range i v = true -> integral q iq n -> isigned (arith_conv iq i) = true ->
  v <> 0 -> q_mul_value q (RInt i) (NInt v) = Ok p -> q_div_value p (RInt i) (NInt v) = Ok s ->
  integral s (arith_conv iq i) n /\ q_dim (q_type s) = q_dim (q_type q) /\ q_unit (q_type s) = q_unit (q_type q).
Proof.
  intros q i v iq n p s Rv I Sg V Hp Hs.
  destruct (q_scale_values OpMul false q i v iq n p Rv I (or_introl Sg) (or_introl Sg) Hp) as (Ip & Dp & Up & _).
  cbn [exact_op] in Ip.
  assert (E : arith_conv (arith_conv iq i) i = arith_conv iq i) by (destruct iq as [[] []], i as [[] []]; reflexivity).
  assert (Sg' : isigned (arith_conv (arith_conv iq i) i) = true) by now rewrite E.
  destruct (q_scale_values OpDiv false p i v _ _ s Rv Ip (or_introl Sg') (or_introl Sg') Hs) as (Is & Ds & Us & _).
  cbn [exact_op] in Is. rewrite E, Z.quot_mul in Is by auto. split; auto. split; congruence.
Qed.

Lemma scale_commutes : forall q i v iq n p s, in_range i v = true -> integral q iq n ->
  q_mul_value q (RInt i) (NInt v) = Ok p -> value_mul_q q (RInt i) (NInt v) = Ok s -> p = s.
Proof.
  intros q i v iq n p s Rv (Rq & Nq & Rn) Hp Hs. unfold q_mul_value, value_mul_q, q_scale in *. rewrite Rq, Nq in *. cbv zeta in *.
  step Hp as c Ec. step Hs as d Ed. cbn [arith_rep] in *. step Hp as x Ex. step Hs as y Ey. inversion Hp; inversion Hs; subst. f_equal.
  rewrite n_op_int in Ex, Ey. rewrite (arith_conv_sym i iq) in Ey. cbn [int_op] in *. unfold cmul in *.
  rewrite Z.mul_comm in Ey. congruence.
Qed.

(** ** The remainder law *)

Lemma remainder_law : forall a b ia ib na nb s m, integral a ia na -> integral b ib nb ->
  operands_fit ia ib na nb -> q_rem a b = Ok s ->
  magnitude (q_dim (q_type a)) (q_unit (q_type a)) m -> magnitude (q_dim (q_type b)) (q_unit (q_type b)) m -> (0 < m)%Q ->
  exists k v, trunc_of (inject_Z na * m / (inject_Z nb * m)) k /\ denotes s v /\
    (inject_Z na * m == inject_Z k * (inject_Z nb * m) + v)%Q /\
    (Qabs v < Qabs (inject_Z nb * m))%Q /\ ((0 <= inject_Z na)%Q -> (0 <= v)%Q) /\ ((inject_Z na <= 0)%Q -> (v <= 0)%Q).
Proof.
  intros a b ia ib na nb s m Ia Ib OF H Ma Mb P.
  destruct (q_rem_values _ _ _ _ _ _ _ Ia Ib OF H) as (Z0 & (_ & Ns & _) & Ds & Us).
  assert (NZ : ~ (inject_Z nb == 0)%Q) by now apply injZ_nz.
  exists (Z.quot na nb), (inject_Z (Z.rem na nb) * m)%Q. split; [|split; [|split; [|split; [|split]]]].
  - eapply trunc_ext; [|apply quot_trunc_any; exact Z0]. field. split; auto. lra.
  - exists (Z.rem na nb), m. split; [exact Ns|]. rewrite Ds, Us. split; [exact Ma|reflexivity].
  - rewrite (Z.quot_rem' na nb) at 1. rewrite inject_Z_plus, inject_Z_mult. ring.
  - rewrite !Qabs_Qmult, (Qabs_pos m) by lra. apply Qmult_lt_compat_r; auto.
    assert (X : forall z, (Qabs (inject_Z z) == inject_Z (Z.abs z))%Q) by (intros; reflexivity).
    rewrite !X. apply (proj1 (injZ_lt _ _)). now apply Z.rem_bound_abs.
  - intros N. change 0%Q with (inject_Z 0) in N. apply (proj2 (injZ_le _ _)) in N. apply Qmult_le_0_compat; [|lra].
    change 0%Q with (inject_Z 0). apply (proj1 (injZ_le _ _)). now apply Z.rem_nonneg.
  - intros N. change 0%Q with (inject_Z 0) in N. apply (proj2 (injZ_le _ _)) in N.
    assert (Y : (0 <= inject_Z (- Z.rem na nb) * m)%Q).
    { apply Qmult_le_0_compat; [|lra]. change 0%Q with (inject_Z 0). apply (proj1 (injZ_le _ _)).
      pose proof (Z.rem_nonpos na nb Z0 N). lia. }
    rewrite inject_Z_opp in Y. lra.
Qed.
