(** Conversions, common types, comparison and arithmetic of quantities. *)

From Coq Require Import ZArith QArith Qpower Qabs String List Bool Lia Lqa.
From Verif Require Import Outcome CInt Ratio SpecRatio QTen RatioMaths RatioMathsProofs RatioProofs
  Pow Root RatioProofs2 RatioPowProofs Unit Downcast Dim DimOp Equivalent SpecDim SpecUnit
  DimOpProofs DimOpProofs2 EquivProofs MagnitudeProofs Rep Reference QuantityCast CommonQuantity Quantity SpecQuantity CastProofs.
Local Open Scope Z_scope.
Local Open Scope res_scope.

Lemma sized_pos : forall est t m, sized est t m -> (0 < m)%Q.
Proof. intros est t m (([_ D] & U) & _ & _ & M). eapply magnitude_pos; eauto. Qed.

Lemma sized_unique : forall est t m m', sized est t m -> sized est t m' -> (m == m')%Q.
Proof. intros est t m m' (_ & _ & _ & M) (_ & _ & _ & M'). eapply magnitude_unique; eauto. Qed.

Lemma sized_rep : forall est t m r, sized est t m -> sized est (with_rep t r) m.
Proof. intros est t m r H. exact H. Qed.

(** ** Casts of sized types *)

Lemma cast_fits : forall est from to a b m1 m2 n, sized est from m1 -> sized est to m2 ->
  references_ok from to -> q_rep from = RInt a -> q_rep to = RInt b ->
  dim_equivalent (q_dim to) (q_dim from) = true -> no_overflow est from to n ->
  exists z, quantity_cast est from to (NInt n) = Ok (NInt (wrap b z)) /\ trunc_of (inject_Z n * m1 / m2) z.
Proof.
  intros est from to a b m1 m2 n (G1 & _ & X1 & M1) (G2 & _ & X2 & M2) R Ra Rb De NO.
  eapply quantity_cast_fits; eauto.
Qed.

Lemma trunc_in_range : forall b q z, value_fits (RInt b) q -> trunc_of q z -> in_range b z = true.
Proof.
  intros b q z (t & E & V) T. inversion E; subst t. apply in_range_spec.
  destruct V as [L H]. split.
  - eapply trunc_mono; [exact L| |exact T]. apply trunc_int. reflexivity.
  - eapply trunc_mono; [exact H|exact T|]. apply trunc_int. reflexivity.
Qed.

Lemma cast_value : forall est from to a b m1 m2 n, sized est from m1 -> sized est to m2 ->
  references_ok from to -> q_rep from = RInt a -> q_rep to = RInt b ->
  dim_equivalent (q_dim to) (q_dim from) = true -> no_overflow est from to n ->
  value_fits (q_rep to) (inject_Z n * m1 / m2) ->
  exists z, quantity_cast est from to (NInt n) = Ok (NInt z) /\ trunc_of (inject_Z n * m1 / m2) z /\
    in_range b z = true.
Proof.
  intros est from to a b m1 m2 n S1 S2 R Ra Rb De NO V.
  destruct (cast_fits est from to a b m1 m2 n S1 S2 R Ra Rb De NO) as (z & H & T).
  rewrite Rb in V. pose proof (trunc_in_range _ _ _ V T) as I.
  exists z. rewrite wrap_id in H by auto. auto.
Qed.

(** ** Implicit conversions *)

Lemma is_int_multiple : forall a b, (0 < b)%Q -> (is_int (a / b) <-> multiple_of a b).
Proof.
  intros a b P. split; intros [z H]; exists z.
  - rewrite <- H. field. lra.
  - rewrite H. field. lra.
Qed.

Lemma harmonic_spec : forall est from to m1 m2 v, sized est from m1 -> sized est to m2 ->
  harmonic est from to = Ok v -> (v = true <-> multiple_of m1 m2).
Proof.
  intros est from to m1 m2 v (([D1 D1'] & U1) & O1 & X1 & M1) (([D2 D2'] & U2) & O2 & X2 & M2) H.
  unfold harmonic in H. step H as a Ea. step H as b Eb. step H as c Ec.
  destruct (quantity_ratio_magnitude _ _ _ _ (conj D1 D1') U1 X1 Ea) as [Ma Ga].
  destruct (quantity_ratio_magnitude _ _ _ _ (conj D2 D2') U2 X2 Eb) as [Mb Gb].
  destruct (rdiv_good _ _ _ Ga Gb Ec) as [V (L & S & N)].
  destruct (is_integral_spec c L S N) as (w & Hw & I). rewrite H in Hw. inversion Hw; subst w. rewrite I.
  pose proof (magnitude_unique _ _ _ _ Ma M1) as E1. pose proof (magnitude_unique _ _ _ _ Mb M2) as E2.
  rewrite <- is_int_multiple by (rewrite <- E2; now apply good_pos).
  split; intros [z Z]; exists z; [rewrite <- E1, <- E2, <- V|rewrite V, E1, E2]; exact Z.
Qed.

Lemma safe_castable_int : forall est from to a b m1 m2 v, sized est from m1 -> sized est to m2 ->
  q_rep from = RInt a -> q_rep to = RInt b ->
  safe_castable_to est from to = Ok v ->
  (v = true <-> dim_equivalent (q_dim to) (q_dim from) = true /\ multiple_of m1 m2).
Proof.
  intros est from to a b m1 m2 v S1 S2 Ra Rb H. unfold safe_castable_to in H. rewrite Ra, Rb in H.
  destruct (dim_equivalent (q_dim to) (q_dim from)); cbn [negb] in H.
  - cbn [floating] in H. rewrite (harmonic_spec _ _ _ _ _ _ S1 S2 H). tauto.
  - inversion H. split; [discriminate|intros [X _]; discriminate].
Qed.

Lemma convert_exact : forall est from to a b m1 m2 n r, sized est from m1 -> sized est to m2 ->
  references_ok from to -> q_rep from = RInt a -> q_rep to = RInt b -> in_range a n = true ->
  convertible est from to n -> q_convert est from to (NInt n) = Ok r ->
  exists z, r = NInt z /\ in_range b z = true /\ same_value n m1 z m2.
Proof.
  intros est from to a b m1 m2 n r S1 S2 R Ra Rb Rn C H. unfold q_convert in H.
  destruct (qtype_eq_dec from to) as [E|E].
  - inversion H; subst. exists n. split; auto. rewrite Ra in Rb. inversion Rb; subst. split; auto.
    unfold same_value. now rewrite (sized_unique _ _ _ _ S1 S2).
  - destruct C as [C|[NO V]]; [contradiction|].
    step H as s Es. step H as u Eu. apply constrained_ok in Eu. subst s.
    apply (safe_castable_int _ _ _ _ _ _ _ _ S1 S2 Ra Rb) in Es as Es'. destruct (proj1 Es' eq_refl) as [De [k K]].
    specialize (V m1 m2 (proj2 (proj2 (proj2 S1))) (proj2 (proj2 (proj2 S2)))).
    destruct (cast_value est from to a b m1 m2 n S1 S2 R Ra Rb De NO V) as (z & Hz & T & I).
    rewrite Hz in H. inversion H; subst. exists z. split; auto. split; auto.
    assert (P : (0 < m2)%Q) by (eapply sized_pos; eauto).
    assert (Z : z = n * k).
    { eapply trunc_unique; [exact T|]. apply trunc_int. rewrite K, inject_Z_mult. field. lra. }
    unfold same_value. rewrite K, Z, inject_Z_mult. ring.
Qed.

(** Conversion to 64-bit signed numbers: whatever is defined is exact. *)
Lemma convert_int64 : forall est from to a m1 m2 n r, sized est from m1 -> sized est to m2 ->
  references_ok from to -> q_rep from = RInt a -> a <> U64 -> q_rep to = RInt I64 -> in_range a n = true ->
  q_convert est from to (NInt n) = Ok r -> convertible est from to n.
Proof.
  intros est from to a m1 m2 n r S1 S2 R Ra Na Rb Rn H. unfold q_convert in H.
  destruct (qtype_eq_dec from to) as [E|E]; [now left|]. right.
  step H as s Es. step H as u Eu. apply constrained_ok in Eu. subst s.
  apply (safe_castable_int _ _ _ _ _ _ _ _ S1 S2 Ra Rb) in Es as Es'. destruct (proj1 Es' eq_refl) as [De [k K]].
  assert (Ht : cast_rep (q_rep from) (q_rep to) = RInt I64).
  { rewrite Ra, Rb. destruct a as [[] []]; try reflexivity. now elim Na. }
  pose proof S1 as (G1 & _ & X1 & M1). pose proof S2 as (G2 & _ & X2 & M2).
  assert (NO : no_overflow est from to n).
  { eapply quantity_cast_defined; eauto. }
  split; auto. intros m1' m2' M1' M2'.
  destruct NO as (c & t & Hc & Ht' & F). rewrite Ht in Ht'. inversion Ht'; subst t.
  destruct (cast_ratio_magnitude _ _ _ _ _ _ G1 G2 X1 X2 R M1' M2' Hc) as [V G].
  destruct (cast_parts c G) as (P1 & P2 & Q). apply products_fit_iff in F as (_ & _ & _ & F & _).
  pose proof (in_range_quot I64 _ _ eq_refl F P2) as I.
  pose proof (sized_pos _ _ _ S2) as Pm.
  pose proof (magnitude_unique _ _ _ _ M1 M1') as U1. pose proof (magnitude_unique _ _ _ _ M2 M2') as U2.
  assert (T : trunc_of (inject_Z n * m1' / m2') (Z.quot (n * cast_num c) (cast_den c))) by (eapply quot_value; eauto).
  assert (W : (inject_Z n * m1' / m2' == inject_Z (n * k))%Q).
  { rewrite <- U1, <- U2, K, inject_Z_mult. field. lra. }
  assert (Z : Z.quot (n * cast_num c) (cast_den c) = n * k) by (eapply trunc_unique; [exact T|now apply trunc_int]).
  exists I64. split; auto. rewrite W, <- Z. apply in_range_spec in I. split; rewrite <- Zle_Qle; apply I.
Qed.

(** ** The common type *)

Lemma multiple_scale : forall k a b, multiple_of a b -> multiple_of (k * a) (k * b).
Proof. intros k a b [z H]. exists z. rewrite H. ring. Qed.
Lemma multiple_ext : forall a a' b b', (a == a')%Q -> (b == b')%Q -> multiple_of a b -> multiple_of a' b'.
Proof. intros a a' b b' E F [z H]. exists z. now rewrite <- E, <- F. Qed.
Lemma multiple_refl : forall a, multiple_of a a.
Proof. intros a. exists 1. ring. Qed.

Lemma multiple_unscale : forall k a b, ~ (k == 0)%Q -> multiple_of (k * a) b -> multiple_of a (b / k).
Proof. intros k a b K [z H]. exists z. apply Qmult_inj_l with k; auto. rewrite H. field. auto. Qed.

(** The coarsest common divisor scales. *)
Lemma common_scale : forall k r1 r2 c, (0 < k)%Q ->
  ratio_good c -> multiple_of (rval r1) (rval c) -> multiple_of (rval r2) (rval c) ->
  (forall h, multiple_of (rval r1) h -> multiple_of (rval r2) h -> multiple_of (rval c) h) ->
  common_magnitude (k * rval r1) (k * rval r2) (k * rval c).
Proof.
  intros k r1 r2 c K G M1 M2 M. apply good_pos in G. assert (Kz : ~ (k == 0)%Q) by lra. split.
  - now apply Qmult_lt_0_compat.
  - split; [now apply multiple_scale|]. split; [now apply multiple_scale|].
    intros h H1 H2. apply (multiple_unscale k) in H1, H2; auto.
    specialize (M _ H1 H2). apply (multiple_scale k) in M.
    eapply multiple_ext; [reflexivity| |exact M]. field. auto.
Qed.

Lemma common_ext : forall a a' b b' m m', (a == a')%Q -> (b == b')%Q -> (m == m')%Q ->
  common_magnitude a b m -> common_magnitude a' b' m'.
Proof.
  intros a a' b b' m m' E1 E2 E3 (P & A & B & M). split; [now rewrite <- E3|].
  split; [eapply multiple_ext; eauto|]. split; [eapply multiple_ext; eauto|].
  intros h H1 H2. eapply multiple_ext; [exact E3|reflexivity|]. apply M.
  - eapply multiple_ext; [symmetry; exact E1|reflexivity|auto].
  - eapply multiple_ext; [symmetry; exact E2|reflexivity|auto].
Qed.

Lemma common_magnitude_unique : forall a b m m', common_magnitude a b m -> common_magnitude a b m' -> (m == m')%Q.
Proof.
  intros a b m m' (P & A & B & M) (P' & A' & B' & M').
  destruct (M _ A' B') as [x X], (M' _ A B) as [y Y].
  assert (Hx : 0 < x).
  { destruct (Z_lt_le_dec 0 x); auto. exfalso. apply injZ_le in l. change (inject_Z 0) with 0%Q in l. nra. }
  assert (Hy : 0 < y).
  { destruct (Z_lt_le_dec 0 y); auto. exfalso. apply injZ_le in l. change (inject_Z 0) with 0%Q in l. nra. }
  assert (XY : (inject_Z (x * y) == 1)%Q).
  { apply Qmult_inj_r with m; [lra|]. rewrite inject_Z_mult. rewrite <- Qmult_assoc, <- Y, <- X. ring. }
  change 1%Q with (inject_Z 1) in XY. apply (proj1 (inject_Z_injective _ _)) in XY. assert (x = 1) by nia. subst x.
  rewrite X. change (inject_Z 1) with 1%Q. ring.
Qed.

Lemma unit_of_ref : forall u d, unit_of u d = true -> u_ref u = u_ref (dimension_unit d).
Proof. intros u d H. unfold unit_of in H. now apply String.eqb_eq. Qed.

Lemma common_quantity_sized : forall est w t1 t2 r t m1 m2, consistent w -> sized est t1 m1 -> sized est t2 m2 ->
  compatible t1 t2 -> common_quantity est w t1 t2 r = Ok t ->
  exists m, sized est t m /\ common_magnitude m1 m2 m /\ q_rep t = r /\
    references_ok t1 t /\ references_ok t2 t /\ dim_equivalent (q_dim t) (q_dim t1) = true /\
    dim_equivalent (q_dim t) (q_dim t2) = true /\ (q_dim t = q_dim t1 \/ q_dim t = q_dim t2).
Proof.
  intros est w t1 t2 r t m1 m2 C S1 S2 [RO CO] H. unfold common_quantity in H.
  step H as v De. apply constrained_ok in De. step H as du Edu. unfold mk_qtype in H. step H as v' Ou.
  apply constrained_ok in Ou. inversion H; subst t; clear H. cbn [q_rep q_dim q_unit].
  destruct dim_equivalent_equivalence as (Erefl & Esym & _).
  destruct t1 as [d1 u1 p1], t2 as [d2 u2 p2]. cbn [q_dim q_unit q_rep] in *.
  pose proof S1 as ((D1 & U1) & O1 & X1 & M1). pose proof S2 as ((D2 & U2) & O2 & X2 & M2). cbn [q_dim q_unit q_rep] in *.
  pose proof (unit_of_ref _ _ O1) as F1. pose proof (unit_of_ref _ _ O2) as F2.
  assert (P1 : (0 < m1)%Q) by (eapply sized_pos; eauto). assert (P2 : (0 < m2)%Q) by (eapply sized_pos; eauto).
  (* a unit of the dimension d1 with the ratio c *)
  assert (A : forall c u, downcast_unit w d1 c = Ok u -> common_ratio (u_ratio u1) (u_ratio u2) = Ok c ->
    u_ref u1 = u_ref u2 ->
    exists m, sized est (QType d1 u r) m /\ common_magnitude m1 m2 m).
  { intros c u Hu Hc E. destruct (common_good _ _ _ U1 U2 Hc) as (G & A1 & A2 & A3).
    destruct (downcast_unit_ratio _ _ _ _ C Hu) as (Ru & Uu & _).
    destruct M1 as (b1 & B1 & V1). destruct M2 as (b2 & B2 & V2).
    pose proof (RO E b1 b2 B1 B2) as Ag. cbn [q_dim] in Ag. pose proof D1 as [D1a D1b]. pose proof D2 as [D2a D2b].
    apply good_pos in D1b, D2b. pose proof B1 as (_ & Pb1 & _). pose proof B2 as (_ & Pb2 & _).
    exists (b1 * (rval c / rval (u_ratio (dimension_unit d1))))%Q. split.
    - split; [split; [exact D1|]|].
      + cbn [q_unit]. unfold unit_good. now rewrite Ru.
      + split; [exact Uu|]. split; [exact X1|]. exists b1. split; auto. cbn [q_unit q_dim]. rewrite Ru. reflexivity.
    - eapply common_ext; [| | |apply (common_scale (b1 / rval (u_ratio (dimension_unit d1))) (u_ratio u1) (u_ratio u2) c)]; auto.
      + rewrite V1. field. lra.
      + rewrite V2, Ag. field. lra.
      + field. lra.
      + unfold Qdiv. apply Qmult_lt_0_compat; auto. now apply Qinv_lt_0_compat. }
  unfold common_dim_unit in Edu. destruct (dimension_eq_dec d1 d2) as [Ed|Ed].
  - subst d2. assert (ER : u_ref u1 = u_ref u2) by congruence.
    destruct (cunit_eq_dec u1 u2) as [Eu|Eu].
    + inversion Edu; subst du u2. cbn [fst snd]. exists m1. split; [exact S1|].
      assert (E : (m1 == m2)%Q) by (eapply magnitude_unique; eauto). split.
      * split; auto. split; [apply multiple_refl|]. split; [|auto].
        eapply multiple_ext; [exact E|reflexivity|apply multiple_refl].
      * repeat split; auto; now apply references_ok_refl.
    + step Edu as c Ec. step Edu as u Eu'. inversion Edu; subst du. cbn [fst snd] in *.
      destruct (A _ _ Eu' Ec ER) as (m & Sm & Cm). exists m. split; auto. split; auto. repeat split; auto;
        now apply references_ok_refl.
  - destruct (same_unit_reference (dimension_unit d1) (dimension_unit d2)) eqn:SR.
    + apply String.eqb_eq in SR. assert (ER : u_ref u1 = u_ref u2) by congruence.
      step Edu as c Ec. step Edu as u Eu'. inversion Edu; subst du. cbn [fst snd] in *.
      destruct (A _ _ Eu' Ec ER) as (m & Sm & Cm). exists m. split; auto. split; auto. split; auto.
      split; [now apply references_ok_refl|]. split; [|split; [|split; [|now left]]].
      * intros _ x y Bx By. symmetry. now apply (RO ER).
      * apply Erefl.
      * rewrite Esym. exact De.
    + assert (NR : u_ref u1 <> u_ref u2).
      { intros X. unfold same_unit_reference in SR. apply String.eqb_neq in SR. congruence. }
      cbv zeta in Edu. step Edu as b1 Eb1. step Edu as r1 Er1. step Edu as b2 Eb2. step Edu as r2 Er2.
      step Edu as cr Ecr. step Edu as b Eb. step Edu as x Ex. step Edu as u Eu.
      set (d := if is_unknown d1 then d2 else d1) in *. inversion Edu; subst du. cbn [fst snd] in *.
      assert (BU : forall d b, member_base_units_ratio est d = Ok b -> dim_good d ->
        Forall (exact_root est) (exponents d) -> coherent_magnitude (exponents d) (rval b) /\ ratio_good b).
      { intros e y Hy [De' _] Xe. assert (Y : base_units_ratio est (exponents e) = Ok y).
        { destruct e; [discriminate|exact Hy|exact Hy]. }
        assert (FE : Forall (fun x => base_good (e_dim x) /\ exact_root est x) (exponents e)).
        { rewrite Forall_forall in *. intros z Hz. split; [apply De', Hz|apply Xe, Hz]. }
        destruct (base_units_ratio_spec _ _ _ FE Y) as (Q1 & Q2 & Q3 & Q4 & Q5).
        split; [|now apply good_intro]. split; auto. }
      assert (DD : dim_good d /\ Forall (exact_root est) (exponents d) /\
                   (rval (u_ratio (dimension_unit d)) == rval (u_ratio (dimension_unit d1)))%Q).
      { unfold d. destruct (is_unknown d1); [|repeat split; auto; apply D1]. split; auto. split; auto.
        symmetry. now apply CO. }
      destruct DD as (Dd & Xd & Vd).
      destruct (BU _ _ Eb1 D1 X1) as [B1 G1]. destruct (BU _ _ Eb2 D2 X2) as [B2 G2]. destruct (BU _ _ Eb Dd Xd) as [B G].
      destruct (rmul_good _ _ _ G1 U1 Er1) as [V1 Gr1]. destruct (rmul_good _ _ _ G2 U2 Er2) as [V2 Gr2].
      destruct (common_good _ _ _ Gr1 Gr2 Ecr) as (Gc & A1 & A2 & A3).
      destruct (rdiv_good _ _ _ Gc G Ex) as [Vx Gx].
      destruct (downcast_unit_ratio _ _ _ _ C Eu) as (Ru & Uu & _).
      assert (W1 : (m1 == rval b1 * (rval (u_ratio u1) / rval (u_ratio (dimension_unit d1))))%Q).
      { eapply magnitude_unique; [exact M1|]. exists (rval b1). split; auto. reflexivity. }
      assert (W2 : (m2 == rval b2 * (rval (u_ratio u2) / rval (u_ratio (dimension_unit d2))))%Q).
      { eapply magnitude_unique; [exact M2|]. exists (rval b2). split; auto. reflexivity. }
      pose proof (CO NR) as CE. cbn [q_dim] in CE.
      pose proof D1 as [D1a D1b]. pose proof D2 as [D2a D2b]. apply good_pos in D1b, D2b.
      apply good_pos in G as Pb.
      exists (rval cr / rval (u_ratio (dimension_unit d1)))%Q. split; [|split; [|split; [|split; [|split; [|split; [|split]]]]]].
      * split; [split; [exact Dd|]|].
        -- cbn [q_unit]. unfold unit_good. now rewrite Ru.
        -- split; [exact Uu|]. split; [exact Xd|]. exists (rval b). split; auto. cbn [q_unit q_dim]. rewrite Ru, Vx, Vd.
           field. lra.
      * eapply common_ext; [| | |apply (common_scale (/ rval (u_ratio (dimension_unit d1))) r1 r2 cr)]; auto.
        -- rewrite W1, V1. field. lra.
        -- rewrite W2, V2, CE. field. lra.
        -- unfold Qdiv. ring.
        -- now apply Qinv_lt_0_compat.
      * reflexivity.
      * unfold d in *. destruct (is_unknown d1); [|now apply references_ok_refl].
        intros Er. cbn [q_unit q_dim] in *. exfalso. apply unit_of_ref in Uu. congruence.
      * unfold d in *. destruct (is_unknown d1); [now apply references_ok_refl|].
        intros Er. cbn [q_unit q_dim] in *. exfalso. apply unit_of_ref in Uu. congruence.
      * cbn [q_dim]. unfold d. destruct (is_unknown d1); [exact De|apply Erefl].
      * cbn [q_dim]. unfold d. destruct (is_unknown d1); [apply Erefl|rewrite Esym; exact De].
      * cbn [q_dim]. unfold d. destruct (is_unknown d1); auto.
Qed.
