(** Casts between integral representations. *)

From Coq Require Import ZArith QArith Qpower Qabs String List Bool Lia Lqa.
From Verif Require Import Outcome CInt Ratio SpecRatio QTen RatioMaths RatioMathsProofs RatioProofs
  Pow Root RatioProofs2 RatioPowProofs Unit Dim DimOp Equivalent SpecDim SpecUnit
  DimOpProofs2 MagnitudeProofs Rep QuantityCast Quantity SpecQuantity.
Local Open Scope Z_scope.
Local Open Scope res_scope.

(** ** Truncation *)

Lemma injZ_pos : forall d, 0 < d -> (0 < inject_Z d)%Q.
Proof. intros d H. rewrite (Zlt_Qlt 0 d) in H. exact H. Qed.
Lemma injZ_le : forall a b, a <= b <-> (inject_Z a <= inject_Z b)%Q.
Proof. intros. now rewrite <- Zle_Qle. Qed.
Lemma injZ_lt : forall a b, a < b <-> (inject_Z a < inject_Z b)%Q.
Proof. intros. now rewrite <- Zlt_Qlt. Qed.

Lemma quot_trunc : forall n d, 0 < d -> trunc_of (inject_Z n / inject_Z d) (Z.quot n d).
Proof.
  intros n d H. pose proof (injZ_pos d H) as P.
  assert (S : forall z, ((inject_Z z <= inject_Z n / inject_Z d)%Q <-> z * d <= n) /\
                        ((inject_Z n / inject_Z d < inject_Z z)%Q <-> n < z * d) /\
                        ((inject_Z z < inject_Z n / inject_Z d)%Q <-> z * d < n) /\
                        ((inject_Z n / inject_Z d <= inject_Z z)%Q <-> n <= z * d)).
  { intros z. rewrite !injZ_le, !injZ_lt, !inject_Z_mult. repeat split; intros X.
    - setoid_replace (inject_Z n) with (inject_Z n / inject_Z d * inject_Z d)%Q by (field; lra). nra.
    - apply Qle_shift_div_l; auto.
    - setoid_replace (inject_Z n) with (inject_Z n / inject_Z d * inject_Z d)%Q by (field; lra). nra.
    - apply Qlt_shift_div_r; auto.
    - setoid_replace (inject_Z n) with (inject_Z n / inject_Z d * inject_Z d)%Q by (field; lra). nra.
    - apply Qlt_shift_div_l; auto.
    - setoid_replace (inject_Z n) with (inject_Z n / inject_Z d * inject_Z d)%Q by (field; lra). nra.
    - apply Qle_shift_div_r; auto. }
  pose proof (Z.quot_rem' n d) as QR. split; intros Q.
  - change 0%Q with (inject_Z 0) in Q. apply (proj1 (proj1 (S 0))) in Q. rewrite Z.mul_0_l in Q.
    pose proof (Z.rem_bound_pos n d Q H) as B.
    change (inject_Z (Z.quot n d) + 1)%Q with (inject_Z (Z.quot n d) + inject_Z 1)%Q. rewrite <- inject_Z_plus.
    split; apply S; nia.
  - change 0%Q with (inject_Z 0) in Q. apply (proj1 (proj2 (proj2 (proj2 (S 0))))) in Q. rewrite Z.mul_0_l in Q.
    pose proof (Z.rem_bound_pos (- n) d ltac:(lia) H) as B. rewrite Z.rem_opp_l in B by lia.
    unfold Qminus. change (- (1))%Q with (inject_Z (-1)). rewrite <- inject_Z_plus.
    split; apply S; nia.
Qed.

Lemma trunc_ext : forall a b z, (a == b)%Q -> trunc_of a z -> trunc_of b z.
Proof.
  intros a b z E [A B]. split; intros H; rewrite <- E in *; auto.
Qed.

Lemma injZ_lt1 : forall a b, (inject_Z a < inject_Z b + 1)%Q -> a <= b.
Proof.
  intros a b H. change 1%Q with (inject_Z 1) in H. rewrite <- inject_Z_plus, <- Zlt_Qlt in H. lia.
Qed.

Lemma trunc_mono : forall a b x y, (a <= b)%Q -> trunc_of a x -> trunc_of b y -> x <= y.
Proof.
  intros a b x y L [A1 A2] [B1 B2]. apply injZ_lt1.
  destruct (Qlt_le_dec a 0) as [Na|Na].
  - destruct (A2 (Qlt_le_weak _ _ Na)) as [X1 X2].
    destruct (Qlt_le_dec b 0) as [Nb|Nb].
    + destruct (B2 (Qlt_le_weak _ _ Nb)). lra.
    + destruct (B1 Nb) as [Y1 Y2].
      assert (x <= 0). { apply injZ_lt1. change (inject_Z 0) with 0%Q. lra. }
      assert (0 <= y). { apply injZ_lt1. change (inject_Z 0) with 0%Q. lra. }
      assert (Z : x <= y) by lia. apply injZ_le in Z. lra.
  - destruct (A1 Na). destruct (B1 (Qle_trans _ _ _ Na L)). lra.
Qed.

Lemma trunc_unique : forall q x y, trunc_of q x -> trunc_of q y -> x = y.
Proof.
  intros q x y A B. pose proof (trunc_mono q q x y (Qle_refl q) A B).
  pose proof (trunc_mono q q y x (Qle_refl q) B A). lia.
Qed.

Lemma trunc_int : forall q z, (q == inject_Z z)%Q -> trunc_of q z.
Proof. intros q z H. split; rewrite H; lra. Qed.

(** ** The type casts compute in *)

Lemma cast_rep_int : forall a b, exists t, cast_rep (RInt a) (RInt b) = RInt t /\
  iwidth t = W64 /\ (isigned t = true -> forall z, in_range a z = true \/ in_range b z = true -> in_range t z = true).
Proof.
  intros a b. eexists. split; [reflexivity|]. split.
  - destruct a as [[] []], b as [[] []]; reflexivity.
  - intros S z H. rewrite !in_range_spec in *. destruct a as [[] []], b as [[] []]; try discriminate S;
      cbn in H; cbn; lia.
Qed.

Lemma cast_rep_signed : forall a b t, cast_rep (RInt a) (RInt b) = RInt t ->
  t = I64 \/ t = U64.
Proof. intros a b t H. destruct a as [[] []], b as [[] []]; cbn in H; inversion H; auto. Qed.

(** ** The cast of a number *)

Lemma ipow10_ok : forall e p, ipow10 e = Ok p -> 0 <= e <= 18 /\ p = 10 ^ e.
Proof.
  intros e p H. destruct (ipow10_spec e) as (A & B & C).
  destruct (Z_lt_le_dec e 0); [rewrite C in H by auto; discriminate|].
  destruct (Z_lt_le_dec 18 e); [rewrite B in H by auto; discriminate|].
  rewrite A in H by auto. inversion H. auto.
Qed.

Lemma in_range_0_pos : forall t a b, in_range t b = true -> 0 <= a <= b -> in_range t a = true.
Proof. intros [[] []] a b; rewrite !in_range_spec; cbn; lia. Qed.

Lemma in_range_quot : forall t a b, iwidth t = W64 -> in_range t a = true -> 0 < b -> in_range t (Z.quot a b) = true.
Proof.
  intros t a b W H P. rewrite in_range_spec in *.
  assert (Q : Z.min 0 a <= Z.quot a b <= Z.max 0 a).
  { destruct (Z_le_gt_dec 0 a).
    - pose proof (Z.quot_pos a b). pose proof (Z.quot_le_upper_bound a b a ltac:(lia)). split; [lia|].
      rewrite Z.max_r by lia. apply H1. nia.
    - assert (Z.quot a b = - Z.quot (- a) b) by (rewrite Z.quot_opp_l; lia).
      pose proof (Z.quot_pos (- a) b). pose proof (Z.quot_le_upper_bound (- a) b (- a) ltac:(lia)).
      rewrite H0. split; [|lia]. rewrite Z.min_r by lia. assert (Z.quot (- a) b <= - a) by (apply H2; nia). lia. }
  destruct t as [[] []]; try discriminate; cbn in *; lia.
Qed.

(** The factor as a quotient of integers. *)
Definition cast_num (c : ratio) : Z := if 0 <? rexp c then rnum c * 10 ^ rexp c else rnum c.
Definition cast_den (c : ratio) : Z := if 0 <? rexp c then rden c else rden c * 10 ^ (- rexp c).

Lemma cast_parts : forall c, ratio_good c -> 0 < cast_num c /\ 0 < cast_den c /\
  (rval c == inject_Z (cast_num c) / inject_Z (cast_den c))%Q.
Proof.
  intros c (L & S & N). pose proof (proj1 L) as D. unfold cast_num, cast_den.
  destruct (Z.ltb_spec 0 (rexp c)) as [E|E].
  - pose proof (Z.pow_pos_nonneg 10 (rexp c) ltac:(lia) ltac:(lia)) as P.
    split; [nia|]. split; [lia|]. unfold rval.
    transitivity (frac (rnum c * 10 ^ rexp c) (rden c) 0).
    + rewrite frac_num10 by lia. reflexivity.
    + unfold frac. rewrite p10_0. ring.
  - pose proof (Z.pow_pos_nonneg 10 (- rexp c) ltac:(lia) ltac:(lia)) as P.
    split; [lia|]. split; [nia|]. unfold rval.
    transitivity (frac (rnum c) (rden c * 10 ^ (- rexp c)) 0).
    + rewrite frac_den10 by lia. replace (0 - - rexp c) with (rexp c) by lia. reflexivity.
    + unfold frac. rewrite p10_0. ring.
Qed.

Lemma products_fit_iff : forall t c n, products_fit t c n <->
  (in_range t n = true /\ Z.abs (rexp c) <= 18 /\ in_range t (cast_num c) = true /\
   in_range t (n * cast_num c) = true /\ in_range t (cast_den c) = true).
Proof.
  intros t c n. unfold products_fit, cast_num, cast_den. destruct (0 <? rexp c); cbn beta iota.
  - rewrite !Z.mul_1_r. tauto.
  - rewrite !Z.mul_1_r. tauto.
Qed.

Lemma op_in_int : forall o t a b, op_in o (RInt t) (NInt a) (NInt b) =
  (z <- int_op o t a b; Ok (NInt z)).
Proof. reflexivity. Qed.

Lemma cast_number_fits : forall c a b t n, ratio_good c -> cast_rep (RInt a) (RInt b) = RInt t ->
  products_fit t c n ->
  cast_number c (RInt a) (RInt b) (NInt n) = Ok (NInt (wrap b (Z.quot (n * cast_num c) (cast_den c)))).
Proof.
  intros c a b t n G T F. apply products_fit_iff in F as (Fn & Fe & F1 & F2 & F3).
  destruct (cast_parts c G) as (P1 & P2 & _). destruct G as (L & _ & Nc). pose proof (proj1 L) as Dc.
  assert (W : iwidth t = W64).
  { destruct (cast_rep_int a b) as (t' & T' & W & _). rewrite T in T'. inversion T'; subst. auto. }
  unfold cast_number. rewrite T. unfold cast_num, cast_den in *.
  pose proof (in_range_quot t _ _ W F2 P2) as FQ.
  cbn [n_convert bind]. rewrite (wrap_id t n Fn).
  destruct (Z.ltb_spec 0 (rexp c)) as [E|E].
  - destruct (ipow10_spec (rexp c)) as (I & _). rewrite I by lia. cbn [bind].
    pose proof (Z.pow_pos_nonneg 10 (rexp c) ltac:(lia) ltac:(lia)) as P.
    assert (Rn : in_range t (rnum c) = true) by (apply (in_range_0_pos t _ _ F1); nia).
    assert (Rp : in_range t (10 ^ rexp c) = true) by (apply (in_range_0_pos t _ _ F1); nia).
    rewrite (wrap_id t _ Rn), (wrap_id t _ Rp), (wrap_id t _ F3).
    rewrite op_in_int. unfold int_op, cmul at 1. rewrite arith_in_range by auto. cbn [bind].
    rewrite op_in_int. unfold int_op, cmul. rewrite arith_in_range by auto. cbn [bind].
    rewrite op_in_int. unfold int_op, cdiv. destruct (Z.eqb_spec (rden c) 0); [lia|].
    rewrite arith_in_range by auto. reflexivity.
  - destruct (ipow10_spec (- rexp c)) as (I & _).
    assert (Rn : in_range t (rnum c) = true) by auto.
    pose proof (Z.pow_pos_nonneg 10 (- rexp c) ltac:(lia) ltac:(lia)) as P.
    assert (Rd : in_range t (rden c) = true) by (apply (in_range_0_pos t _ _ F3); nia).
    assert (Rp : in_range t (10 ^ (- rexp c)) = true) by (apply (in_range_0_pos t _ _ F3); nia).
    rewrite (wrap_id t _ Rn), (wrap_id t _ Rd).
    rewrite op_in_int. unfold int_op at 1, cmul at 1. rewrite arith_in_range by auto. cbn [bind].
    unfold cneg. rewrite arith_in_range by (apply in_range_I64; unfold INTMAX_MIN, INTMAX_MAX; lia). cbn [bind].
    rewrite I by lia. cbn [bind]. rewrite (wrap_id t _ Rp).
    rewrite op_in_int. unfold int_op at 1, cmul at 1. rewrite arith_in_range by auto. cbn [bind].
    rewrite op_in_int. unfold int_op, cdiv. destruct (Z.eqb_spec (rden c * 10 ^ (- rexp c)) 0); [lia|].
    rewrite arith_in_range by auto. reflexivity.
Qed.

(** Signed arithmetic: a defined result means that everything fitted. *)
Lemma cast_number_defined : forall c a b t n r, ratio_good c -> cast_rep (RInt a) (RInt b) = RInt t ->
  isigned t = true -> in_range a n = true ->
  cast_number c (RInt a) (RInt b) (NInt n) = Ok r -> products_fit t c n.
Proof.
  intros c a b t n r G T Sg Ra H. apply products_fit_iff.
  destruct (cast_rep_int a b) as (t' & T' & W & Rg). rewrite T in T'. inversion T'; subst t'; clear T'.
  assert (Ht : t = I64).
  { destruct (cast_rep_signed _ _ _ T); subst; auto. discriminate. }
  subst t. specialize (Rg eq_refl n (or_introl Ra)).
  destruct G as (L & (S1 & S2 & S3) & N). pose proof (proj1 L) as D.
  unfold cast_number in H. rewrite T in H. cbn [n_convert bind] in H.
  assert (Rn : in_range I64 (rnum c) = true) by (apply in_range_I64; unfold INTMAX_MIN, INTMAX_MAX in *; lia).
  assert (Rd : in_range I64 (rden c) = true) by (apply in_range_I64; unfold INTMAX_MIN, INTMAX_MAX in *; lia).
  rewrite (wrap_id _ _ Rn), (wrap_id _ _ Rd), (wrap_id _ _ Rg) in H. unfold cast_num, cast_den.
  assert (P10 : forall e, 0 <= e <= 18 -> in_range I64 (10 ^ e) = true).
  { intros e He. apply in_range_I64. pose proof (Z.pow_le_mono_r 10 e 18 ltac:(lia) ltac:(lia)).
    pose proof (Z.pow_pos_nonneg 10 e ltac:(lia) ltac:(lia)). unfold INTMAX_MIN, INTMAX_MAX in *. lia. }
  destruct (Z.ltb_spec 0 (rexp c)) as [E|E].
  - step H as p Ep. apply ipow10_ok in Ep as [Ep ->]. rewrite (wrap_id _ _ (P10 _ Ep)) in H.
    rewrite op_in_int in H. step H as k Ek. step Ek as k' Ek'. apply cmul_ok in Ek' as [-> Ik]. inversion Ek; subst k.
    rewrite op_in_int in H. step H as y Ey. step Ey as y' Ey'. apply cmul_ok in Ey' as [-> Iy]. inversion Ey; subst y.
    repeat split; auto; lia.
  - rewrite op_in_int in H. step H as y Ey. step Ey as y' Ey'. apply cmul_ok in Ey' as [-> Iy]. inversion Ey; subst y.
    step H as e Ee. apply cneg_ok in Ee as [-> _]. step H as p Ep. apply ipow10_ok in Ep as [Ep ->].
    rewrite (wrap_id _ _ (P10 _ Ep)) in H.
    rewrite op_in_int in H. step H as k Ek. step Ek as k' Ek'. apply cmul_ok in Ek' as [-> Ik]. inversion Ek; subst k.
    repeat split; auto; lia.
Qed.

(** ... and otherwise the behaviour is undefined. *)
Lemma cast_number_undefined : forall c a b t n, ratio_good c -> cast_rep (RInt a) (RInt b) = RInt t ->
  isigned t = true -> in_range a n = true ->
  ~ products_fit t c n -> cast_number c (RInt a) (RInt b) (NInt n) = Undef.
Proof.
  intros c a b t n G T Sg Ra NF.
  assert (A : forall o x y, (exists z, int_op o I64 x y = Ok z) \/ int_op o I64 x y = Undef).
  { intros o x y; destruct o; unfold int_op, cadd, csub, cmul, cdiv, crem, arith; cbn [isigned I64];
    repeat match goal with |- context [if ?q then _ else _] => destruct q end; eauto. }
  assert (I : forall e, 0 <= e -> (exists p, ipow10 e = Ok p) \/ ipow10 e = Undef).
  { intros e He. destruct (ipow10_spec e) as (I1 & I2 & _).
    destruct (Z_le_gt_dec e 18); [left; rewrite I1 by lia; eauto|right; apply I2; lia]. }
  assert (Q : (exists r, cast_number c (RInt a) (RInt b) (NInt n) = Ok r) \/
              cast_number c (RInt a) (RInt b) (NInt n) = Undef).
  { assert (Ht : t = I64) by (destruct (cast_rep_signed _ _ _ T); subst; auto; discriminate). subst t.
    unfold cast_number. rewrite T. cbn [n_convert bind].
    destruct (Z.ltb_spec 0 (rexp c)) as [E|E].
    - destruct (I (rexp c) ltac:(lia)) as [[p ->]| ->]; cbn [bind]; [|now right].
      rewrite op_in_int. destruct (A OpMul (wrap I64 (rnum c)) (wrap I64 p)) as [[k ->]| ->]; cbn [bind]; [|now right].
      rewrite op_in_int. destruct (A OpMul (wrap I64 n) k) as [[y ->]| ->]; cbn [bind]; [|now right].
      rewrite op_in_int. destruct (A OpDiv y (wrap I64 (rden c))) as [[z ->]| ->]; cbn [bind n_convert]; [|now right].
      left. eauto.
    - rewrite op_in_int. destruct (A OpMul (wrap I64 n) (wrap I64 (rnum c))) as [[y ->]| ->]; cbn [bind]; [|now right].
      unfold cneg, arith. cbn [isigned I64]. destruct (in_range I64 (- rexp c)); cbn [bind]; [|now right].
      destruct (I (- rexp c) ltac:(lia)) as [[p ->]| ->]; cbn [bind]; [|now right].
      rewrite op_in_int. destruct (A OpMul (wrap I64 (rden c)) (wrap I64 p)) as [[k ->]| ->]; cbn [bind]; [|now right].
      rewrite op_in_int. destruct (A OpDiv y k) as [[z ->]| ->]; cbn [bind n_convert]; [|now right].
      left. eauto. }
  destruct Q as [[r R]|R]; auto. exfalso. apply NF. eapply cast_number_defined; eauto.
Qed.

(** ** The factor *)

Lemma cast_ratio_magnitude : forall est from to c m1 m2, qtype_good from -> qtype_good to ->
  Forall (exact_root est) (exponents (q_dim from)) -> Forall (exact_root est) (exponents (q_dim to)) ->
  references_ok from to ->
  magnitude (q_dim from) (q_unit from) m1 -> magnitude (q_dim to) (q_unit to) m2 ->
  cast_ratio est (q_dim from) (q_unit from) (q_dim to) (q_unit to) = Ok c ->
  (rval c == m1 / m2)%Q /\ ratio_good c.
Proof.
  intros est from to c m1 m2 [D1 U1] [D2 U2] X1 X2 R M1 M2 H. unfold cast_ratio in H.
  unfold same_unit_reference in H. destruct (String.eqb_spec (u_ref (q_unit from)) (u_ref (q_unit to))) as [E|E].
  - destruct (rdiv_good _ _ _ U1 U2 H) as [V G]. split; auto.
    destruct M1 as (b1 & B1 & V1), M2 as (b2 & B2 & V2). pose proof (R E b1 b2 B1 B2) as A.
    rewrite V, V1, V2. destruct D1 as [_ D1], D2 as [_ D2].
    apply good_pos in U1, U2, D1, D2. destruct B1 as (_ & P1 & _), B2 as (_ & P2 & _).
    set (x := rval (u_ratio (dimension_unit (q_dim from)))) in *.
    set (y := rval (u_ratio (dimension_unit (q_dim to)))) in *.
    assert (Z : (b1 == b2 / y * x)%Q).
    { rewrite <- A. field. lra. }
    rewrite Z. field. repeat split; lra.
  - step H as a Ea. step H as b Eb.
    destruct (quantity_ratio_magnitude _ _ _ _ D1 U1 X1 Ea) as [Ma Ga].
    destruct (quantity_ratio_magnitude _ _ _ _ D2 U2 X2 Eb) as [Mb Gb].
    destruct (rdiv_good _ _ _ Ga Gb H) as [V G]. split; auto.
    rewrite V, (magnitude_unique _ _ _ _ Ma M1), (magnitude_unique _ _ _ _ Mb M2). reflexivity.
Qed.

Lemma references_ok_refl : forall t1 t2, q_dim t1 = q_dim t2 -> references_ok t1 t2.
Proof.
  intros t1 t2 E _ b1 b2 B1 B2. rewrite E in *. now rewrite (coherent_unique _ _ _ B1 B2).
Qed.

Lemma references_ok_base : forall t1 t2 a b, q_dim t1 = DBase a -> q_dim t2 = DBase b ->
  base_good a -> base_good b -> references_ok t1 t2.
Proof.
  intros t1 t2 a b E1 E2 Ga Gb _ b1 b2 B1 B2. rewrite E1, E2 in *. cbn [dimension_unit].
  assert (Q : forall c x, base_good c -> coherent_magnitude (exponents (DBase c)) x -> (x == rval (u_ratio (bd_unit c)))%Q).
  { intros c x Gc (_ & P & S). apply square_inj; auto; [now apply good_pos|].
    rewrite S. cbn [exponents squared e_dim]. rewrite Qmult_1_r. reflexivity. }
  rewrite (Q a b1), (Q b b2) by auto. apply good_pos in Ga, Gb. unfold base_ratio in *. field. split; lra.
Qed.

(** ** quantity_cast *)

Section Cast.
Variables (est : estimate) (from to : qtype) (a b : ity) (m1 m2 : Q).
Hypothesis (Gf : qtype_good from) (Gt : qtype_good to).
Hypothesis (Xf : Forall (exact_root est) (exponents (q_dim from))).
Hypothesis (Xt : Forall (exact_root est) (exponents (q_dim to))).
Hypothesis (Rf : references_ok from to).
Hypothesis (M1 : magnitude (q_dim from) (q_unit from) m1).
Hypothesis (M2 : magnitude (q_dim to) (q_unit to) m2).
Hypothesis (Ra : q_rep from = RInt a) (Rb : q_rep to = RInt b).

Lemma m1_pos : (0 < m1)%Q.
Proof. destruct Gf as [[_ D] U]. eapply magnitude_pos; eauto. Qed.
Lemma m2_pos : (0 < m2)%Q.
Proof. destruct Gt as [[_ D] U]. eapply magnitude_pos; eauto. Qed.

Lemma quot_value : forall c n, ratio_good c -> (rval c == m1 / m2)%Q ->
  trunc_of (inject_Z n * m1 / m2) (Z.quot (n * cast_num c) (cast_den c)).
Proof.
  intros c n G V. destruct (cast_parts c G) as (P1 & P2 & Q).
  eapply trunc_ext; [|apply quot_trunc; exact P2].
  rewrite inject_Z_mult. unfold Qdiv at 2. rewrite <- Qmult_assoc. fold (m1 / m2)%Q. rewrite <- V, Q.
  field. apply injZ_nz. lia.
Qed.

Lemma quantity_cast_fits : forall n, dim_equivalent (q_dim to) (q_dim from) = true ->
  no_overflow est from to n ->
  exists z, quantity_cast est from to (NInt n) = Ok (NInt (wrap b z)) /\
    trunc_of (inject_Z n * m1 / m2) z.
Proof.
  intros n De (c & t & Hc & Ht & F). rewrite Ra, Rb in Ht.
  destruct (cast_ratio_magnitude _ _ _ _ _ _ Gf Gt Xf Xt Rf M1 M2 Hc) as [V G].
  exists (Z.quot (n * cast_num c) (cast_den c)). split; [|now apply quot_value].
  unfold quantity_cast. rewrite De. cbn [constrained bind]. rewrite Hc. cbn [bind]. rewrite Ra, Rb.
  now apply (cast_number_fits c a b t).
Qed.

Lemma quantity_cast_defined : forall n r t, cast_rep (q_rep from) (q_rep to) = RInt t -> isigned t = true ->
  in_range a n = true ->
  quantity_cast est from to (NInt n) = Ok r -> no_overflow est from to n.
Proof.
  intros n r t Ht S Rn H. unfold quantity_cast in H. step H as u E. step H as c Ec.
  destruct (cast_ratio_magnitude _ _ _ _ _ _ Gf Gt Xf Xt Rf M1 M2 Ec) as [V G].
  exists c, t. split; auto. split; auto. rewrite Ra, Rb in *.
  eapply cast_number_defined; eauto.
Qed.

Lemma quantity_cast_undefined : forall n c t, dim_equivalent (q_dim to) (q_dim from) = true ->
  cast_ratio est (q_dim from) (q_unit from) (q_dim to) (q_unit to) = Ok c ->
  cast_rep (q_rep from) (q_rep to) = RInt t -> isigned t = true -> in_range a n = true ->
  ~ products_fit t c n -> quantity_cast est from to (NInt n) = Undef.
Proof.
  intros n c t De Hc Ht S Rn NF. unfold quantity_cast. rewrite De. cbn [constrained bind]. rewrite Hc. cbn [bind].
  destruct (cast_ratio_magnitude _ _ _ _ _ _ Gf Gt Xf Xt Rf M1 M2 Hc) as [V G].
  rewrite Ra, Rb in *. eapply cast_number_undefined; eauto.
Qed.

(** When the exact value is a whole number of target units that the type holds. *)
Lemma quantity_cast_exact : forall n z, dim_equivalent (q_dim to) (q_dim from) = true ->
  no_overflow est from to n -> same_value n m1 z m2 -> in_range b z = true ->
  quantity_cast est from to (NInt n) = Ok (NInt z).
Proof.
  intros n z De NO SV Rz. destruct (quantity_cast_fits n De NO) as (y & H & T).
  assert (y = z).
  { eapply trunc_unique; [exact T|]. apply trunc_int. unfold same_value in SV. rewrite SV.
    pose proof m2_pos. field. lra. }
  subst y. now rewrite wrap_id in H.
Qed.

End Cast.
