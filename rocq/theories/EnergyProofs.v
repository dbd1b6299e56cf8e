(** Powers and roots of floating-point quantities. *)

From Coq Require Import ZArith QArith Qpower Qreals Reals Bool Lia Lra SpecFloat String List Sorted.
From Flocq Require Import Core.
From Verif Require Import Outcome CInt Root Ratio SpecRatio QTen FixedString Unit Downcast Dim DimOp Equivalent SpecDim SpecUnit Rep Reference QuantityCast CommonQuantity Quantity
  SpecQuantity DimProofs DimOpProofs DimOpProofs2 DimOpProofs3 MagnitudeProofs QuantityProofs QuantityProofs2 QuantityProofs4 Point Expr SpecExpr ExprProofs ExprProofs2 ExprProofs3
  SpecReal FloatProofs FloatCastProofs FloatAddProofs SpecOrder FloatOrderProofs FloatRootProofs FloatMathProofs SpecRounding RoundingProofs SpecMeasure MeasureProofs Math MathProofs Energy SpecEnergy.
Import ListNotations.
Local Open Scope R_scope.
Local Open Scope res_scope.

(** ** Dimensions *)

Lemma whole_num : forall e, e_den e = 1%Z -> (equot e == inject_Z (e_num e))%Q.
Proof. intros e H. unfold equot. rewrite H. change (inject_Z 1) with 1%Q. field. Qed.
Lemma red_whole : forall b z q, (q == inject_Z z)%Q -> red_exp b q = BExp b z 1.
Proof.
  intros b z q H. unfold red_exp. destruct (Qred_lowest_pos z 1 ltac:(lia) (Z.gcd_1_r z)) as [E1 E2].
  assert (E : (q == inject_Z z / inject_Z 1)%Q) by (rewrite H; change (inject_Z 1) with 1%Q; field).
  now rewrite (Qred_complete _ _ E), E1, E2.
Qed.

Section Dims.
Variable U : bdim -> Prop.
Variable w : world.
Hypothesis HU : symbols_identify U.
Hypothesis G : good_system U w.
Let P := in_system U w.

Lemma pow_in_system : forall d N d', P d -> raisable d N 1 -> (0 < N <= INTMAX_MAX)%Z -> dimension_pow w d N 1 = Ok d' ->
  P d' /\ exponents d' = DimOpProofs2.scaled (inject_Z N) (exponents d).
Proof.
  intros d N d' ((Nd & O) & K & W) (_ & Nz & R) B H. assert (C : consistent w) by apply G.
  assert (Q1 : (inject_Z N / inject_Z 1 == inject_Z N)%Q) by (change (inject_Z 1) with 1%Q; field).
  assert (Sc : DimOpProofs2.scaled (inject_Z N / inject_Z 1) (exponents d) = DimOpProofs2.scaled (inject_Z N) (exponents d)).
  { unfold DimOpProofs2.scaled. apply map_ext. intros e. unfold red_exp. rewrite (Qred_complete _ (equot e * inject_Z N)) by now rewrite Q1. reflexivity. }
  assert (Sw : Forall2 (fun e e' => e' = BExp (e_dim e) (e_num e * N) 1) (exponents d) (DimOpProofs2.scaled (inject_Z N) (exponents d))).
  { unfold DimOpProofs2.scaled. clear - W. unfold whole in W. induction W as [|e l We _ IH]; constructor; auto. apply red_whole. rewrite (whole_num e We). now rewrite <- inject_Z_mult. }
  assert (Main : to_dimension w (DimOpProofs2.scaled (inject_Z N) (exponents d)) = Ok d' /\ normal (DimOpProofs2.scaled (inject_Z N) (exponents d))).
  { destruct R as [[b ->]|(_ & _ & T & Nr & F)].
    - cbn [exponents DimOpProofs2.scaled map e_dim] in *. rewrite (red_whole b N) in * by (unfold equot; cbn [e_num e_den]; change (inject_Z 1) with 1%Q; field).
      split.
      + unfold dimension_pow in H. unfold to_dimension, is_plus_one. cbn [e_num e_den e_dim]. destruct ((N =? 1)%Z && (1 =? 1)%Z); exact H.
      + split; [repeat constructor|]. constructor; [|constructor]. unfold proper. cbn [e_num e_den]. rewrite Z.gcd_1_r. repeat split; lia.
    - rewrite (dimension_pow_canonical w d N 1) in H; auto; try lia; try apply Z.gcd_1_r. rewrite Sc in H. split; [exact H|].
      rewrite <- Sc. apply scaled_normal; [rewrite Q1; now apply inject_Z_nz|exact Nr|].
      rewrite Forall_forall in F. intros e He. apply (F e He). }
  destruct Main as [M Nn].
  destruct (to_dimension_strict w _ C (proj1 Nn)) as (d2 & M2 & E2). rewrite M in M2. inversion M2; subst d2.
  split; [|exact E2]. split; [split|split].
  - now rewrite E2.
  - rewrite E2. intros e He. unfold DimOpProofs2.scaled in He. apply in_map_iff in He as (e0 & <- & I0). cbn [red_exp e_dim]. now apply O.
  - unfold canonical. now rewrite E2.
  - unfold whole. rewrite E2. clear - Sw. induction Sw as [|e e' l l' X _ IH]; constructor; auto. now rewrite X.
Qed.

(** Small whole exponents can be doubled, and halved again. *)
Lemma slight_entry : forall e, e_den e = 1%Z -> (-4 <= e_num e <= 4)%Z -> e_num e <> 0%Z ->
  power_ok 2 1 e /\ power_ok 1 2 (red_exp (e_dim e) (equot e * inject_Z 2)) /\
  red_exp (e_dim (red_exp (e_dim e) (equot e * inject_Z 2))) (equot (red_exp (e_dim e) (equot e * inject_Z 2)) * (inject_Z 1 / inject_Z 2)) = e.
Proof.
  intros [b n d] D B Nz. cbn [e_den e_num e_dim] in *. subst d.
  assert (Cs : (n = -4 \/ n = -3 \/ n = -2 \/ n = -1 \/ n = 1 \/ n = 2 \/ n = 3 \/ n = 4)%Z) by lia.
  unfold power_ok, ten_free, representable.
  destruct Cs as [->|[->|[->|[->|[->|[->|[->| ->]]]]]]]; (split; [|split]);
    try (vm_compute; repeat split; intros; discriminate); vm_compute; reflexivity.
Qed.
Lemma slight_raisable : forall d, P d -> slight d -> raisable d 2 1.
Proof.
  intros d ((Nd & O) & K & W) Sl. split; [discriminate|]. split; [discriminate|]. right. split; [vm_compute; discriminate|]. split; [vm_compute; discriminate|].
  split; [split; vm_compute; [intros _|]; discriminate|]. split; [exact Nd|]. unfold whole, slight in *. destruct Nd as [_ Pr].
  rewrite Forall_forall in *. intros e He. apply slight_entry; auto. apply Pr. exact He.
Qed.
Lemma double_halved : forall d d' d2, P d -> slight d -> dimension_pow w d 2 1 = Ok d' -> dimension_pow w d' 1 2 = Ok d2 -> d2 = d /\ raisable d' 1 2.
Proof.
  intros d d' d2 Pd Sl H H2. pose proof (slight_raisable d Pd Sl) as R.
  destruct (pow_in_system d 2 d' Pd R ltac:(split; [lia|vm_compute; discriminate]) H) as [((Nd' & _) & _) E].
  destruct Pd as ((Nd & O) & K & W). destruct Nd as [_ Pr].
  assert (F : Forall (power_ok 1 2) (exponents d') /\ DimOpProofs2.scaled (inject_Z 1 / inject_Z 2) (exponents d') = exponents d).
  { rewrite E. unfold whole, slight in *. clear - W Sl Pr. unfold DimOpProofs2.scaled. induction (exponents d) as [|e l IH]; [split; [constructor|reflexivity]|].
    inversion W; subst. inversion Sl; subst. inversion Pr as [|? ? Pe ?]; subst. destruct IH as [I1 I2]; auto.
    destruct (slight_entry e) as (_ & X & Y); auto; [apply Pe|]. cbn [map]. split; [now constructor|]. f_equal; [exact Y|exact I2]. }
  destruct F as [F1 F2].
  assert (T : ten_free (inject_Z 1 / inject_Z 2)) by (split; vm_compute; [intros _|]; discriminate).
  assert (Big : (1 <= INTMAX_MAX)%Z /\ (2 <= INTMAX_MAX)%Z) by (split; vm_compute; discriminate). destruct Big as [Big1 Big2].
  rewrite (dimension_pow_canonical w d' 1 2 ltac:(lia) ltac:(lia) eq_refl Big1 Big2 T Nd' F1) in H2.
  rewrite F2 in H2. unfold canonical in K. rewrite K in H2. inversion H2. split; [reflexivity|].
  split; [discriminate|]. split; [discriminate|]. right. split; [vm_compute; discriminate|]. split; [vm_compute; discriminate|]. auto.
Qed.
End Dims.

(** ** Numbers *)

Lemma near_power : forall f k x r n, near f k x r -> near f (n * k) (x ^ n) (r ^ n).
Proof.
  intros f k x r n K. induction n as [|n IH]; [apply near_refl|]. cbn [pow Nat.mul]. now apply near_mul.
Qed.
Lemma exponent_number : forall f N, (0 < N <= 2 ^ 53)%Z -> let y := float_conv (pow_fty (RFlt f)) (SFdiv (fprec F64) (femax F64) (float_of_int F64 N) (float_of_int F64 1)) in
  is_number (pow_fty (RFlt f)) y /\ fval y = IZR N.
Proof.
  intros f N HN y.
  destruct (of_int_exact F64 N) as [A2 B2]; [cbn [fprec]; lia|].
  destruct (of_int_exact F64 1) as [A3 B3]; [cbn [fprec]; lia|].
  assert (E : frnd F64 (fval (float_of_int F64 N) / fval (float_of_int F64 1)) = IZR N).
  { rewrite B2, B3. replace (IZR N / 1) with (IZR N) by field. apply frnd_id, format_int. cbn [fprec]. lia. }
  destruct (div_rounds F64 _ _ A2 A3) as [A4 B4].
  { rewrite B3. lra. }
  { rewrite E, <- (frnd_id F64 (IZR N)) by (apply format_int; cbn [fprec]; lia).
    apply frnd_lt_emax with (e := 53%Z); [discriminate|reflexivity|].
    rewrite <- abs_IZR, <- (IZR_Zpower radix2) by discriminate. apply IZR_le. change (radix2 ^ 53)%Z with (2 ^ 53)%Z. lia. }
  rewrite E in B4. pose proof (pow_fty_wide (RFlt f)) as Wd.
  assert (L : (Z.abs N <= 2 ^ fprec (pow_fty (RFlt f)))%Z).
  { rewrite Z.abs_eq by lia. apply Z.le_trans with (2 ^ 53)%Z; [lia|]. apply Z.pow_le_mono_r; lia. }
  unfold y. clear y. set (x := SFdiv _ _ _ _) in *. pose proof (frnd_id (pow_fty (RFlt f)) (IZR N) (format_int _ N L)) as E2.
  destruct (conv_rounds (pow_fty (RFlt f)) x (proj2 A4)) as [A B].
  { rewrite B4, E2. rewrite <- E2. apply frnd_lt_emax with (e := fprec (pow_fty (RFlt f))); [destruct f; discriminate|destruct f; reflexivity|].
    rewrite <- abs_IZR, <- (IZR_Zpower radix2) by (destruct f; discriminate). now apply IZR_le. }
  rewrite B4, E2 in B. auto.
Qed.

Section Values.
Variable U : bdim -> Prop.
Variable w : world.
Hypothesis HU : symbols_identify U.
Hypothesis G : good_system U w.
Variable est : estimate.
Variable l : libm.
Variable f : fty.
Let P := in_system U w.
Definition du (q : quantity) : Q := rval (u_ratio (dimension_unit (q_dim (q_type q)))).

Lemma du_pos : forall q, P (q_dim (q_type q)) -> 0 < Q2R (du q).
Proof. intros q D. replace 0 with (Q2R 0) by (unfold Q2R; cbn; lra). apply Qlt_Rlt. apply good_pos. exact (system_unit_good U w G _ D). Qed.

Lemma power_sized : forall N q m s, P (q_dim (q_type q)) -> raisable (q_dim (q_type q)) N 1 -> (0 < N <= 2 ^ 53)%Z -> sized est (q_type q) m ->
  q_pow est w l N 1 q = Ok (inr s) -> P (q_dim (q_type s)) /\ sized est (q_type s) (m ^ N * (du q ^ N / du s)).
Proof.
  intros N q m s D R HN Sz H. assert (C : consistent w) by apply G.
  destruct (pow_parts _ _ _ _ _ _ _ C H) as (Nz & Dz & Ed & Er & Rs & Uo & _).
  destruct (pow_in_system U w G _ N _ D R ltac:(unfold INTMAX_MAX; cbn; lia) Ed) as [Ds Ee]. split; [exact Ds|].
  pose proof (system_unit_good U w G _ Ds) as Gd. assert (Gu : unit_good (q_unit (q_type q))) by apply Sz.
  destruct (rpow1_good _ _ _ _ Gu Er) as [Vr Gr]. pose proof (whole_power est w N 1 q s m C R Sz Ed Gd eq_refl Vr) as M.
  split; [|split; [exact Uo|split; [exact (system_roots U w est _ Ds)|exact M]]].
  split; [|exact Gr]. split; [|exact Gd]. destruct Ds as ((_ & O) & _ & W). destruct G as (_ & Bg & _). unfold whole in W. rewrite Forall_forall in *.
  intros e He. split; [|apply Bg; now apply O]. unfold half_int. rewrite (W e He). split; [discriminate|]. exists (2 * e_num e)%Z. lia.
Qed.

Lemma power_part : forall N h q r k m s, part U w est f q r k -> raisable (q_dim (q_type q)) N 1 -> (0 < N <= 2 ^ 53)%Z -> pow_accurate l f N h ->
  sized est (q_type q) m -> mid_range f ((r / Q2R m) ^ Z.to_nat N) -> (Z.of_nat (Z.to_nat N * k) <= 2 ^ 23)%Z ->
  q_pow est w l N 1 q = Ok (inr s) -> part U w est f s (r ^ Z.to_nat N * Q2R (du q ^ N / du s)) (Z.to_nat N * k + h).
Proof.
  intros N h q r k m s (D & x & m0 & Rq & Nq & Fx & Sz & K) R HN A Sm M L H. assert (C : consistent w) by apply G.
  pose proof (size_unique _ _ _ _ Sz Sm) as Em. destruct (power_sized N q m0 s D R HN Sz H) as [Ds Ss].
  destruct (pow_parts _ _ _ _ _ _ _ C H) as (_ & _ & _ & _ & Rs & _ & _ & v & V1 & V2). rewrite Rq, Nq in *. cbn [to_float] in V1.
  destruct (exponent_number f N HN) as [Ny Vy]. set (y := float_conv _ (SFdiv _ _ _ _)) in *.
  pose proof (size_pos _ _ _ Sz) as Pm. rewrite <- Em in M.
  assert (Kx : near f k (fval x) (r / Q2R m0)) by (apply near_unscale; [lra|exact K]).
  pose proof (near_power f k _ _ (Z.to_nat N) Kx) as Kp.
  destruct (A x y Fx Ny Vy (reach f _ _ _ L M Kp)) as (Nz & t & Et & Bt). cbn [n_convert] in V1. set (z := float_conv f _) in *.
  inversion V1; subst v. cbn [n_convert] in V2. rewrite conv_same in V2 by apply Nz. inversion V2 as [V3].
  split; [exact Ds|]. exists z, (m0 ^ N * (du q ^ N / du s))%Q. split; [exact Rs|]. split; [now symmetry|]. split; [exact Nz|]. split; [exact Ss|].
  assert (Ez : near f (Z.to_nat N * k + h) (fval z) ((r / Q2R m0) ^ Z.to_nat N)).
  { rewrite Nat.add_comm. apply near_trans with (fval x ^ Z.to_nat N); [exists t; auto|exact Kp]. }
  assert (Ep : Q2R (m0 ^ N) = Q2R m0 ^ Z.to_nat N).
  { destruct HN as [HN _]. clear - HN. rewrite <- (Z2Nat.id N) at 1 by lia. generalize (Z.to_nat N). intros n. induction n as [|n IH]; [cbn; unfold Q2R; cbn; lra|].
    rewrite Nat2Z.inj_succ, <- Z.add_1_l, Qpower_plus' by lia. rewrite Q2R_mult, IH. reflexivity. }
  rewrite Q2R_mult, Ep. eapply near_eq; [reflexivity| |apply near_scale; exact Ez].
  unfold Rdiv. rewrite Rpow_mult_distr, pow_inv. field. apply pow_nonzero. lra.
Qed.

Lemma sqrt_part : forall q r k j s m m', part U w est f q r k -> raisable (q_dim (q_type q)) 1 2 -> rootable est 2 (u_ratio (q_unit (q_type q))) ->
  sized est (q_type q) m -> sized est (q_type s) m' -> 0 <= r -> (k <= j + j)%nat -> q_sqrt est w q = Ok s ->
  ((m' * du s) ^ 2 == m * du q)%Q /\
  exists y, q_rep (q_type s) = RFlt f /\ q_num s = NFlt y /\ is_number f y /\ near f (j + 1) (fval y * Q2R m') (sqrt (r * Q2R (du q / du s ^ 2))).
Proof.
  intros q r k j s m m' (D & x & m0 & Rq & Nq & Fx & Sz & K) R Rt Sm Ss Pr L H. assert (C : consistent w) by apply G.
  destruct (sqrt_parts _ _ _ _ C H) as (Ed & Er & Rs & Uo & _ & v & V1 & V2).
  assert (Gu : unit_good (q_unit (q_type q))) by apply Sz.
  destruct (root_ratio _ 2%positive _ _ ltac:(lia) ltac:(vm_compute; discriminate) Gu Rt Er) as [Vr Gr].
  assert (Gs : unit_good (dimension_unit (q_dim (q_type s)))) by apply Ss. assert (M' : magnitude (q_dim (q_type s)) (q_unit (q_type s)) m') by apply Ss.
  destruct (power_magnitude est w 1 2 q s m C R Sm Ed Gs m' Gr Vr M') as [_ Em]. change ((m * rval (u_ratio (dimension_unit (q_dim (q_type q))))) ^ 1)%Q with (m * du q)%Q in Em.
  fold (du s) in Em. split; [exact Em|]. rewrite Rq, Nq in *. cbn [cmath_fty to_float] in V1. rewrite conv_same in V1 by apply Fx.
  pose proof (size_unique _ _ _ _ Sz Sm) as E0. pose proof (size_pos _ _ _ Sm) as Pm. pose proof (size_pos _ _ _ Ss) as Pm'.
  rewrite E0 in K. assert (Kx : near f k (fval x) (r / Q2R m)) by (apply near_unscale; [lra|exact K]).
  assert (Prm : 0 <= r / Q2R m) by (apply Rmult_le_pos; [exact Pr|apply Rlt_le, Rinv_0_lt_compat; lra]).
  assert (Px : 0 <= fval x).
  { destruct Kx as (t & -> & B & _). apply Rmult_le_pos; [exact Prm|]. apply Rlt_le, Rlt_le_trans with (2 := B). apply Rinv_0_lt_compat. apply grow_pos. }
  destruct (sqrt_near1 f x Fx Px) as (Ny & Ky). cbn [n_convert] in V1. rewrite conv_same in V1 by apply Ny. inversion V1; subst v. cbn [n_convert] in V2.
  rewrite conv_same in V2 by apply Ny. inversion V2 as [V3]. eexists. split; [exact Rs|]. split; [reflexivity|]. split; [exact Ny|].
  assert (Kr : near f j (sqrt (fval x)) (sqrt (r / Q2R m))) by (apply near_sqrt; [exact Prm|now apply (near_weaken f k)]).
  pose proof (near_trans f 1 j _ _ _ Ky Kr) as Kt. rewrite Nat.add_comm. eapply near_eq; [reflexivity| |apply near_scale; exact Kt].
  assert (Pd : (0 < du s)%Q) by now apply good_pos. assert (Nd : ~ (du s ^ 2 == 0)%Q) by (apply pos_nz; now apply Qpower_pos_lt).
  assert (E1 : Q2R (du q / du s ^ 2) * Q2R m = Q2R m' * Q2R m').
  { rewrite <- !Q2R_mult. apply Qeq_eqR. rewrite Qmult_power in Em. 
    assert (X : (du q / du s ^ 2 * m == (m' * m') * (du s ^ 2) / du s ^ 2)%Q) by (change (m' * m')%Q with (m' ^ 2)%Q; rewrite Em; field; now apply pos_nz).
    rewrite X. field. now apply pos_nz. }
  rewrite <- (sqrt_square (Q2R m')) by lra. rewrite <- sqrt_mult by (try exact Prm; nra). f_equal. rewrite <- E1. field. lra.
Qed.

Lemma times_part : forall a b r s k j ma mb q, part U w est f a r k -> part U w est f b s j -> sized est (q_type a) ma -> sized est (q_type b) mb ->
  mid_range f (r * s / (Q2R ma * Q2R mb)) -> (Z.of_nat (k + j) <= 2 ^ 22)%Z -> q_times w a b = Ok q ->
  part U w est f q (r * s) (k + j + 1) /\ sized est (q_type q) (ma * mb).
Proof.
  intros a b r s k j ma mb q (D1 & x & ma' & Ra & Na & Fx & Sa' & Kx) (D2 & y & mb' & Rb & Nb & Fy & Sb' & Ky) Sa Sb M L H.
  assert (C : consistent w) by apply G. rewrite (size_unique _ _ _ _ Sa' Sa) in Kx. rewrite (size_unique _ _ _ _ Sb' Sb) in Ky. clear ma' mb' Sa' Sb'.
  pose proof (multiply_in_system U w HU G _ _ _ D1 D2 (times_dim _ _ _ _ H)) as D. pose proof (system_unit_good U w G _ D) as Gd.
  pose proof (size_pos _ _ _ Sa) as Pa. pose proof (size_pos _ _ _ Sb) as Pb. pose proof (times_unit_of w _ _ _ H) as Uo.
  unfold q_times in H. cbv zeta in H. step H as rf Er. step H as z0 Ez. inversion H; subst q; clear H. cbn [q_type q_dim q_unit q_rep q_num] in *.
  destruct Sa as ((Ga & Ua) & _ & _ & Ma). destruct Sb as ((Gb & Ub) & _ & _ & Mb). destruct rf as [d u]. cbn [ref_dim ref_unit] in *.
  destruct (reference_multiply_magnitude _ _ _ _ _ _ _ _ _ C Ga Gb Ua Ub Gd Er Ma Mb) as (Mg & Gg).
  assert (Sq : forall r0, sized est (QType d u r0) (ma * mb)).
  { intros r0. split; [|split; [exact Uo|split; [exact (system_roots U w est _ D)|exact Mg]]]. cbn [q_dim q_unit].
    split; [|apply Gg]. split; [|exact Gd]. cbn [q_dim]. destruct D as ((_ & O) & _ & W). destruct G as (_ & Bg & _). unfold whole in W. rewrite Forall_forall in *.
    intros e He. split; [|apply Bg; now apply O]. unfold half_int. rewrite (W e He). split; [discriminate|]. exists (2 * e_num e)%Z. lia. }
  assert (Em : Q2R (ma * mb) = Q2R ma * Q2R mb) by apply Q2R_mult.
  assert (Kx' : near f k (fval x) (r / Q2R ma)) by (apply near_unscale; [lra|exact Kx]).
  assert (Ky' : near f j (fval y) (s / Q2R mb)) by (apply near_unscale; [lra|exact Ky]).
  assert (Ers : r / Q2R ma * (s / Q2R mb) = r * s / (Q2R ma * Q2R mb)) by (field; split; lra).
  destruct (product f x y _ _ (Q2R (ma * mb)) k j Fx Fy Kx' Ky') as (z & Oz & Fz & Kz); [rewrite Em; nra|lia|now rewrite Ers|].
  rewrite Ra, Rb, Na, Nb in *. rewrite same_float in *.
  assert (No : num_ok (RFlt f) (NFlt y) = true) by apply Fy.
  destruct (float_n_op f (RFlt f) (NFlt y) x (same_float f) (proj1 Fx) No OpMul ltac:(discriminate)) as [(z2 & E2 & F2) _].
  cbn [as_float] in F2. rewrite conv_same in F2 by apply Fy. rewrite Oz in F2. inversion F2; subst z2. rewrite E2 in Ez. inversion Ez; subst z0.
  split; [|apply Sq]. split; [exact D|]. exists z, (ma * mb)%Q. cbn [q_type q_num q_rep]. split; [reflexivity|]. split; [reflexivity|]. split; [exact Fz|]. split; [apply Sq|].
  eapply near_eq; [reflexivity| |exact Kz]. rewrite Ers, Em. field. split; lra.
Qed.

Lemma measured_part : forall q x m, P (q_dim (q_type q)) -> measures est f q x m -> part U w est f q (fval x * Q2R m) 0.
Proof. intros q x m D (R & N & Fx & Sz). split; [exact D|]. exists x, m. split; [exact R|]. split; [exact N|]. split; [exact Fx|]. split; [exact Sz|apply near_refl]. Qed.

Lemma square_parts : forall q s, q_square est w l q = Ok s -> q_pow est w l 2 1 q = Ok (inr s).
Proof. intros q s H. unfold q_square in H. step H as r E. destruct r; inversion H. now subst. Qed.
End Values.
