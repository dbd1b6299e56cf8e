(** C102: powers and roots of floating-point quantities in any units; the total energy. *)

From Coq Require Import ZArith QArith Qpower Qreals Reals Bool Lia Lra SpecFloat String List.
From Flocq Require Import Core.
From Verif Require Import Outcome CInt Root Ratio SpecRatio FixedString Unit Downcast Dim DimOp Equivalent SpecDim SpecUnit Rep RootFloat Reference QuantityCast CommonQuantity Quantity
  SpecQuantity DimProofs DimOpProofs DimOpProofs2 MagnitudeProofs QuantityProofs QuantityProofs2 QuantityProofs4 Point Expr SpecExpr ExprProofs ExprProofs2 ExprProofs3
  Samples SpecReal FloatProofs FloatCastProofs FloatAddProofs SpecOrder FloatOrderProofs SpecRounding RoundingProofs CatalogueProofs SpecMeasure MeasureProofs
  CastProofs Math MathProofs FloatMathProofs Energy SpecEnergy EnergyProofs
  Props_Ratio Props_Dim Props_Quantity Props_Quantity2 Props_Float Props_FloatOrder Props_Expr Props_Rounding Props_Measure Props_Math.
Import ListNotations.
Local Open Scope R_scope.
Local Open Scope res_scope.

(** ** Powers *)

(** [pow<N>] of a floating-point quantity in any unit: the power of the value, times the factor
    by which the ratios of the coherent units disagree (C54), up to the error of [std::pow]. *)
Theorem C102_pow : forall U w est l f N h q x m s, symbols_identify U -> good_system U w -> in_system U w (q_dim (q_type q)) ->
  raisable (q_dim (q_type q)) N 1 -> (0 < N <= 2 ^ 53)%Z -> pow_accurate l f N h -> (Z.of_nat h <= 2 ^ 22)%Z ->
  measures est f q x m -> mid_range f (fval x ^ Z.to_nat N) -> q_pow est w l N 1 q = Ok (inr s) ->
  accurate est f s ((fval x * Q2R m) ^ Z.to_nat N * Q2R (coherent q ^ N / coherent s)) h.
Proof.
  intros U w est l f N h q x m s HU G D R HN A L Me M H. pose proof (measured_part U w est f q x m D Me) as Pq.
  assert (Sz : sized est (q_type q) m) by apply Me. pose proof (size_pos _ _ _ Sz) as Pm.
  destruct (power_part U w G est l f N h q _ 0 m s Pq R HN A Sz) as (_ & z & m' & Rz & Nz & Fz & Sq & K); auto.
  { replace (fval x * Q2R m / Q2R m) with (fval x) by (field; lra). exact M. }
  { rewrite Nat.mul_0_r. discriminate. }
  exists z, m'. split; [exact Rz|]. split; [exact Nz|]. split; [exact Fz|]. split; [exact Sq|].
  rewrite Nat.mul_0_r, Nat.add_0_l in K. apply near_within; [now apply few|exact K].
Qed.
Print Assumptions C102_pow.

(** ** Square roots *)

(** [sqrt] of a floating-point quantity in any unit whose ratio has a root: the root of the
    value, times the factor of the coherent units, up to one rounding. *)
Theorem C102_sqrt : forall U w est f q x m s m', symbols_identify U -> good_system U w -> in_system U w (q_dim (q_type q)) ->
  raisable (q_dim (q_type q)) 1 2 -> rootable est 2 (u_ratio (q_unit (q_type q))) -> measures est f q x m -> 0 <= fval x ->
  q_sqrt est w q = Ok s -> sized est (q_type s) m' -> accurate est f s (sqrt (fval x * Q2R m * Q2R (coherent q / coherent s ^ 2))) 1.
Proof.
  intros U w est f q x m s m' HU G D R Rt Me Px H Ss. pose proof (measured_part U w est f q x m D Me) as Pq.
  assert (Sz : sized est (q_type q) m) by apply Me. pose proof (size_pos _ _ _ Sz) as Pm.
  destruct (sqrt_part U w G est f q _ 0 0 s m m' Pq R Rt Sz Ss) as (_ & y & Ry & Ny & Fy & K); auto; [nra|].
  exists y, m'. split; [exact Ry|]. split; [exact Ny|]. split; [exact Fy|]. split; [exact Ss|]. apply near_within; [apply few; vm_compute; discriminate|exact K].
Qed.
Print Assumptions C102_sqrt.

(** ** Roots of squares *)

(** The root of the square has the dimension and the value of the quantity, whatever its unit:
    the factor of the square, such as that of C54_kilogram_refuted, cancels. *)
Theorem C102_root_of_square : forall U w est l f h j q x m s e m', symbols_identify U -> good_system U w ->
  in_system U w (q_dim (q_type q)) -> slight (q_dim (q_type q)) -> pow_accurate l f 2 h -> (h <= j + j)%nat -> (Z.of_nat j < 2 ^ 22)%Z ->
  measures est f q x m -> mid_range f (fval x ^ 2) -> q_square est w l q = Ok s -> rootable est 2 (u_ratio (q_unit (q_type s))) ->
  q_sqrt est w s = Ok e -> sized est (q_type e) m' ->
  q_dim (q_type e) = q_dim (q_type q) /\ accurate est f e (Rabs (fval x * Q2R m)) (j + 1).
Proof.
  intros U w est l f h j q x m s e m' HU G D Sl A Lh Lj Me M H Rt He Se. apply square_parts in H.
  pose proof (measured_part U w est f q x m D Me) as Pq. assert (Sz : sized est (q_type q) m) by apply Me. pose proof (size_pos _ _ _ Sz) as Pm.
  pose proof (slight_raisable U w _ D Sl) as R.
  assert (Ps : part U w est f s ((fval x * Q2R m) ^ 2 * Q2R (du q ^ 2 / du s)) h).
  { apply (power_part U w G est l f 2 h q _ 0 m s Pq R ltac:(lia) A Sz); [|discriminate|exact H].
    replace (fval x * Q2R m / Q2R m) with (fval x) by (field; lra). exact M. }
  destruct (power_sized U w G est l 2 q m s D R ltac:(lia) Sz H) as [Ds Ss].
  destruct (pow_parts _ _ _ _ _ _ _ (proj1 G) H) as (_ & _ & Ed & _). destruct (sqrt_parts _ _ _ _ (proj1 G) He) as (Ee & _).
  destruct (double_halved U w G _ _ _ D Sl Ed Ee) as [Dq Rs]. split; [exact Dq|].
  assert (De : du e = du q) by (unfold du; now rewrite Dq). pose proof (du_pos U w G q D) as P1. pose proof (du_pos U w G s Ds) as P2.
  assert (Q1 : (0 < du q)%Q) by (apply good_pos; apply (system_unit_good U w G _ D)). assert (Q2 : (0 < du s)%Q) by (apply good_pos; apply (system_unit_good U w G _ Ds)).
  assert (K2 : Q2R (du q ^ 2 / du s) = Q2R (du q) * Q2R (du q) / Q2R (du s)) by (rewrite Q2R_div by (now apply pos_nz); f_equal; apply Q2R_mult).
  assert (K3 : Q2R (du s / du e ^ 2) = Q2R (du s) / (Q2R (du q) * Q2R (du q))).
  { rewrite De, Q2R_div by (apply pos_nz; now apply Qpower_pos_lt). f_equal. apply Q2R_mult. }
  assert (Sg : 0 <= (fval x * Q2R m) ^ 2 * Q2R (du q ^ 2 / du s)).
  { apply Rmult_le_pos; [apply pow2_ge_0|]. rewrite K2. apply Rlt_le, Rdiv_lt_0_compat; nra. }
  destruct (sqrt_part U w G est f s _ h j e _ m' Ps Rs Rt Ss Se Sg Lh He) as (_ & y & Ry & Ny & Fy & K).
  exists y, m'. split; [exact Ry|]. split; [exact Ny|]. split; [exact Fy|]. split; [exact Se|]. apply near_within; [apply few; lia|].
  eapply near_eq; [reflexivity| |exact K]. rewrite K2, K3, <- sqrt_Rsqr_abs. f_equal. unfold Rsqr. field. split; lra.
Qed.
Print Assumptions C102_root_of_square.

(** ** The total energy *)

(** The function of total_energy.cpp, with momentum, mass and speed in any units of one system:
    the result has the dimension of [p * c] and the value [sqrt((p c)^2 + (m c^2)^2)], up to the
    roundings counted.  The squares [a] and [b] may be wrong in value (C54); the root makes up
    for it.  Only the inner [pow<2>(c)] must be right by itself. *)
Theorem C102_energy : forall U w est l f h p m c xp xm xc mp mm mc e me ka kb j,
  symbols_identify U -> good_system U w ->
  in_system U w (q_dim (q_type p)) -> in_system U w (q_dim (q_type m)) -> in_system U w (q_dim (q_type c)) ->
  (forall b, dim_expo (q_dim (q_type p)) b == dim_expo (q_dim (q_type m)) b + dim_expo (q_dim (q_type c)) b)%Q ->
  slight (q_dim (q_type c)) -> measures est f p xp mp -> measures est f m xm mm -> measures est f c xc mc -> pow_accurate l f 2 h ->
  total_energy est w l p m c = Ok e -> sized est (q_type e) me ->
  (forall pc a c2 mc2 b s, energy_steps est w l p m c pc a c2 mc2 b s ->
     slight (q_dim (q_type pc)) /\ (coherent c2 == coherent c ^ 2)%Q /\ rootable est 2 (u_ratio (q_unit (q_type s))) /\
     conversion_costs est f (q_type a) (q_type s) ka /\ conversion_costs est f (q_type b) (q_type s) kb) ->
  let P := fval xp * Q2R mp in let M := fval xm * Q2R mm in let C := fval xc * Q2R mc in
  mid_range f (fval xp * fval xc) -> mid_range f ((fval xp * fval xc) ^ 2) -> mid_range f (fval xc ^ 2) ->
  mid_range f (fval xm * fval xc ^ 2) -> mid_range f ((fval xm * fval xc ^ 2) ^ 2) ->
  mid_range f ((P * C / Q2R me) ^ 2) -> mid_range f ((M * C ^ 2 / Q2R me) ^ 2) -> mid_range f ((P * C / Q2R me) ^ 2 + (M * C ^ 2 / Q2R me) ^ 2) ->
  (Nat.max (h + 2 + ka) (3 * h + 2 + kb) + 1 <= j + j)%nat -> (Z.of_nat j < 2 ^ 20)%Z ->
  dimension_multiply w (q_dim (q_type p)) (q_dim (q_type c)) = Ok (q_dim (q_type e)) /\
  accurate est f e (sqrt ((P * C) ^ 2 + (M * C ^ 2) ^ 2)) (j + 1).
Proof.
  intros U w est l f h p m c xp xm xc mp mm mc e me ka kb j HU G Dp Dm Dc Dim Slc Mp Mm Mc A H Se Way P M C R1 R2 R3 R4 R5 R6 R7 R8 Lj Lt.
  unfold total_energy in H. step H as pc Hpc. step H as a Ha. step H as c2 Hc2. step H as mc2 Hmc2. step H as b Hb. step H as s Hs.
  destruct (Way pc a c2 mc2 b s) as (Slp & Co & Rt & Ca & Cb); [now repeat split|]. clear Way.
  pose proof (measured_part U w est f p xp mp Dp Mp) as Pp. pose proof (measured_part U w est f m xm mm Dm Mm) as Pm. pose proof (measured_part U w est f c xc mc Dc Mc) as Pc.
  fold P in Pp. fold M in Pm. fold C in Pc. assert (Sp : sized est (q_type p) mp) by apply Mp. assert (Sm : sized est (q_type m) mm) by apply Mm. assert (Sc : sized est (q_type c) mc) by apply Mc.
  pose proof (size_pos _ _ _ Sp) as Qp. pose proof (size_pos _ _ _ Sm) as Qm. pose proof (size_pos _ _ _ Sc) as Qc. pose proof (size_pos _ _ _ Se) as Qe.
  pose proof (slight_raisable U w _ Dc Slc) as Rc.
  (* p * c *)
  destruct (times_part U w HU G est f p c P C 0 0 mp mc pc Pp Pc Sp Sc) as [Ppc Spc]; [|lia|exact Hpc|].
  { replace (P * C / (Q2R mp * Q2R mc)) with (fval xp * fval xc) by (unfold P, C; field; split; lra). exact R1. }
  assert (Dpc : in_system U w (q_dim (q_type pc))) by apply Ppc. pose proof (slight_raisable U w _ Dpc Slp) as Rpc.
  apply square_parts in Ha. apply square_parts in Hc2. apply square_parts in Hb.
  assert (Pa : part U w est f a ((P * C) ^ 2 * Q2R (du pc ^ 2 / du a)) (2 + h)).
  { apply (power_part U w G est l f 2 h pc _ 1 (mp * mc) a Ppc Rpc ltac:(lia) A Spc); [|vm_compute; discriminate|exact Ha]. rewrite Q2R_mult.
    replace (P * C / (Q2R mp * Q2R mc)) with (fval xp * fval xc) by (unfold P, C; field; split; lra). exact R2. }
  (* m * c^2 *)
  assert (Pc2 : part U w est f c2 (C ^ 2) h).
  { assert (X : part U w est f c2 (C ^ 2 * Q2R (du c ^ 2 / du c2)) h).
    { apply (power_part U w G est l f 2 h c _ 0 mc c2 Pc Rc ltac:(lia) A Sc); [|vm_compute; discriminate|exact Hc2].
      replace (C / Q2R mc) with (fval xc) by (unfold C; field; lra). exact R3. }
    replace (C ^ 2) with (C ^ 2 * Q2R (du c ^ 2 / du c2)); [exact X|]. rewrite <- (Rmult_1_r (C ^ 2)) at 2. f_equal. replace 1 with (Q2R 1) by (unfold Q2R; cbn; lra). apply Qeq_eqR.
    change (coherent c2) with (du c2) in Co. change (coherent c) with (du c) in Co. rewrite <- Co. apply Qmult_inv_r. apply pos_nz. apply good_pos. apply (system_unit_good U w G). apply X. }
  assert (Dc2 : in_system U w (q_dim (q_type c2))) by apply Pc2.
  destruct (power_sized U w G est l 2 c mc c2 Dc Rc ltac:(lia) Sc Hc2) as [_ Sc2].
  assert (Ec2 : Q2R (mc ^ 2 * (du c ^ 2 / du c2)) = Q2R mc * Q2R mc).
  { rewrite <- Q2R_mult. apply Qeq_eqR. change (coherent c2) with (du c2) in Co. change (coherent c) with (du c) in Co. rewrite <- Co.
    setoid_replace (du c2 / du c2)%Q with 1%Q by (apply Qmult_inv_r; apply pos_nz; apply good_pos; apply (system_unit_good U w G _ Dc2)). rewrite Qmult_1_r. reflexivity. }
  destruct (times_part U w HU G est f m c2 M (C ^ 2) 0 h mm _ mc2 Pm Pc2 Sm Sc2) as [Pmc Smc]; [|lia|exact Hmc2|].
  { rewrite Ec2. replace (M * C ^ 2 / (Q2R mm * (Q2R mc * Q2R mc))) with (fval xm * fval xc ^ 2) by (unfold M, C; field; split; lra). exact R4. }
  assert (Dmc : in_system U w (q_dim (q_type mc2))) by apply Pmc.
  (* one dimension *)
  assert (Ed : q_dim (q_type mc2) = q_dim (q_type pc)).
  { destruct Dp as (Np & _ & _). destruct Dm as (Nm & _ & _). destruct Dc as (Nc & Kc & Wc). destruct Dc2 as (Nc2 & _ & _).
    destruct (dimension_multiply_ok U HU w _ _ _ (proj1 G) Np Nc (times_dim _ _ _ _ Hpc)) as (N1 & K1 & V1).
    destruct (dimension_multiply_ok U HU w _ _ _ (proj1 G) Nm Nc2 (times_dim _ _ _ _ Hmc2)) as (N2 & K2 & V2).
    apply (canonical_unique U HU w); auto. intros b0 _. rewrite V1, V2, Dim.
    destruct (pow_parts _ _ _ _ _ _ _ (proj1 G) Hc2) as (_ & _ & Ec & _).
    destruct (pow_in_system U w G _ 2 _ (conj Nc (conj Kc Wc)) Rc ltac:(split; [lia|vm_compute; discriminate]) Ec) as [_ Ex].
    unfold dim_expo at 2. rewrite Ex, scaled_expo. change (inject_Z 2) with 2%Q. unfold dim_expo. ring. }
  assert (Eu : du mc2 = du pc) by (unfold du; now rewrite Ed).
  assert (Rmc : raisable (q_dim (q_type mc2)) 2 1) by now rewrite Ed.
  assert (Pb : part U w est f b ((M * C ^ 2) ^ 2 * Q2R (du mc2 ^ 2 / du b)) (2 * (0 + h + 1) + h)).
  { apply (power_part U w G est l f 2 h mc2 _ (0 + h + 1) _ b Pmc Rmc ltac:(lia) A Smc); [|change (Z.to_nat 2) with 2%nat; lia|exact Hb]. rewrite Q2R_mult, Ec2.
    replace (M * C ^ 2 / (Q2R mm * (Q2R mc * Q2R mc))) with (fval xm * fval xc ^ 2) by (unfold M, C; field; split; lra). exact R5. }
  destruct (pow_parts _ _ _ _ _ _ _ (proj1 G) Ha) as (_ & _ & Eda & _). destruct (pow_parts _ _ _ _ _ _ _ (proj1 G) Hb) as (_ & _ & Edb & _).
  assert (Eab : q_dim (q_type b) = q_dim (q_type a)) by (rewrite Ed in Edb; congruence).
  assert (Eub : du b = du a) by (unfold du; now rewrite Eab). rewrite Eu, Eub in Pb. set (kap := Q2R (du pc ^ 2 / du a)) in *.
  (* the sum *)
  assert (Da : in_system U w (q_dim (q_type a))) by apply Pa.
  assert (Ss : exists ms, sized est (q_type s) ms /\ (q_dim (q_type s) = q_dim (q_type a))).
  { destruct Pa as (_ & xa & ma & Ra & Na & _ & Sa & _). destruct Pb as (Db & xb & mb & Rb & Nb & _ & Sb & _).
    assert (Cm : compatible (q_type a) (q_type b)). { split; [apply references_ok_refl; now rewrite Eab|]. intros _. rewrite Eab. reflexivity. }
    pose proof Hs as Hs'. unfold q_add, q_addsub in Hs'. cbv zeta in Hs'. step Hs' as t Et.
    destruct (common_quantity_sized _ _ _ _ _ _ _ _ (proj1 G) Sa Sb Cm Et) as (ms & St & _ & _ & _ & _ & _ & _ & Dt).
    step Hs' as y1 Y1. step Hs' as y2 Y2. step Hs' as y3 Y3. step Hs' as y4 Y4. inversion Hs'; subst s. cbn [q_type]. exists ms. split; [exact St|].
    destruct Dt as [-> | ->]; [reflexivity|exact Eab]. }
  destruct Ss as (ms & Ss & Eds).
  destruct (sqrt_parts _ _ _ _ (proj1 G) H) as (Ee & _). rewrite Eds in Ee.
  destruct (double_halved U w G _ _ _ Dpc Slp Eda Ee) as [Dq Rs].
  split; [rewrite Dq; exact (times_dim _ _ _ _ Hpc)|].
  assert (De : du e = du pc) by (unfold du; now rewrite Dq). assert (Es : du s = du a) by (unfold du; now rewrite Eds).
  pose proof (du_pos U w G pc Dpc) as P1. pose proof (du_pos U w G a Da) as P2.
  assert (Q1 : (0 < du pc)%Q) by (apply good_pos; apply (system_unit_good U w G _ Dpc)). assert (Q2 : (0 < du a)%Q) by (apply good_pos; apply (system_unit_good U w G _ Da)).
  assert (K2 : kap = Q2R (du pc) * Q2R (du pc) / Q2R (du a)) by (unfold kap; rewrite Q2R_div by (now apply pos_nz); f_equal; apply Q2R_mult).
  assert (K3 : Q2R (du s / du e ^ 2) = Q2R (du a) / (Q2R (du pc) * Q2R (du pc))).
  { rewrite De, Es, Q2R_div by (apply pos_nz; now apply Qpower_pos_lt). f_equal. apply Q2R_mult. }
  assert (Pk : 0 < kap) by (rewrite K2; apply Rdiv_lt_0_compat; nra).
  assert (Em : Q2R me * Q2R me * (Q2R (du pc) * Q2R (du pc)) = Q2R ms * Q2R (du a)).
  { assert (Gu : unit_good (q_unit (q_type s))) by apply Ss. destruct (sqrt_parts _ _ _ _ (proj1 G) H) as (_ & Er & _).
    destruct (root_ratio _ 2%positive _ _ ltac:(lia) ltac:(vm_compute; discriminate) Gu Rt Er) as [Vr Gr]. rewrite <- Eds in Ee, Rs.
    destruct (power_magnitude est w 1 2 s e ms (proj1 G) Rs Ss Ee ltac:(apply Se) me Gr Vr ltac:(apply Se)) as [_ X].
    change (rval (u_ratio (dimension_unit (q_dim (q_type e))))) with (du e) in X. change (rval (u_ratio (dimension_unit (q_dim (q_type s))))) with (du s) in X. rewrite De, Es in X.
    apply Qeq_eqR in X. change ((me * du pc) ^ 2)%Q with (me * du pc * (me * du pc))%Q in X. change ((ms * du a) ^ 1)%Q with (ms * du a)%Q in X. rewrite !Q2R_mult in X. rewrite <- X. ring. }
  pose proof (size_pos _ _ _ Ss) as Qs.
  assert (Sh : forall v, v ^ 2 * kap / Q2R ms = (v / Q2R me) ^ 2).
  { intros v. assert (Ek : kap * (Q2R me * Q2R me) = Q2R ms) by (rewrite K2; apply Rmult_eq_reg_r with (Q2R (du a)); [|lra]; rewrite <- Em; field; lra).
    rewrite <- Ek. field. split; lra. }
  set (n := Nat.max (2 + h + ka) (2 * (0 + h + 1) + h + kb)) in *.
  assert (Ps : part U w est f s ((P * C) ^ 2 * kap + (M * C ^ 2) ^ 2 * kap) (n + 1)).
  { apply (summed U w HU G est f OpAdd a b _ _ (2 + h) (2 * (0 + h + 1) + h) ka kb ms s); auto.
    - now left.
    - cbn [rsum]. rewrite Rplus_0_l. apply Rmult_le_pos; (apply Rmult_le_pos; [apply pow2_ge_0|lra]).
    - rewrite Sh. exact R6.
    - rewrite Sh. exact R7.
    - cbn [rsum]. unfold Rdiv. rewrite Rmult_plus_distr_r. unfold Rdiv in Sh. rewrite !Sh. exact R8.
    - fold n. lia. }
  assert (Sg : 0 <= (P * C) ^ 2 * kap + (M * C ^ 2) ^ 2 * kap) by (apply Rplus_le_le_0_compat; (apply Rmult_le_pos; [apply pow2_ge_0|lra])).
  rewrite <- Eds in Rs.
  destruct (sqrt_part U w G est f s _ (n + 1) j e ms me Ps Rs Rt Ss Se Sg ltac:(lia) H) as (_ & y & Ry & Ny & Fy & K).
  exists y, me. split; [exact Ry|]. split; [exact Ny|]. split; [exact Fy|]. split; [exact Se|]. apply near_within; [apply few; lia|].
  eapply near_eq; [reflexivity| |exact K]. rewrite K3, K2. f_equal. field. split; lra.
Qed.
Print Assumptions C102_energy.

(** ** A case *)

(** A [std::pow] for the exponent 2: one multiplication.  It meets the demand with one rounding. *)
Definition square_libm : libm := Libm (fun f x y => SFmul (fprec f) (femax f) x x) (fun _ x => x) (fun _ x => x).
Example C102_ex_libm : forall f, f <> F32 -> pow_accurate square_libm f 2 1.
Proof.
  intros f Nf x y Nx _ _ R z. assert (Ep : pow_fty (RFlt f) = f) by (destruct f; [now elim Nf|reflexivity|reflexivity]). unfold z. clear z. rewrite Ep.
  cbn [square_libm m_pow]. rewrite (conv_same f x) by apply Nx. change (Z.to_nat 2) with 2%nat in *. assert (E2 : fval x ^ 2 = fval x * fval x) by ring. rewrite E2 in *.
  assert (B : Rabs (fval x * fval x) <= bpow radix2 (femax f - 1)) by (destruct R as [->|[_ R]]; [rewrite Rabs_R0; apply bpow_ge_0|exact R]).
  destruct (mul_rounds f x x Nx Nx) as [A V]; [apply frnd_lt_emax with (e := (femax f - 1)%Z); [apply emin_small|lia|exact B]|].
  rewrite conv_same by apply A. split; [exact A|]. rewrite V. apply near_round_0. destruct R as [R|[R _]]; auto.
Qed.

(** Mechanics: speed, momentum (si/momentum.h) and energy (si/energy.h). *)
Definition momentum_unit : cunit := CUnit (Some "kilogram_metre_per_second"%string) [] one_r "kilogram_metre_per_second" false None "no_prefix".
Definition joule : cunit := mk_sample_unit "joule" "J" one_r "joule".
Definition momentum_recipe : list (dimension * (Z * Z)) := [(DBase dim_M, (1, 1)%Z); (dim_speed, (1, 1)%Z)].
Definition energy_recipe : list (dimension * (Z * Z)) := [(DBase dim_M, (1, 1)%Z); (dim_speed, (2, 1)%Z)].
Definition mechanics : res world :=
  w1 <- declare_dimension On "dim_speed" metre_per_second speed_recipe empty_world;
  w2 <- declare_dimension On "dim_momentum" momentum_unit momentum_recipe w1;
  w3 <- declare_dimension On "dim_energy" joule energy_recipe w2;
  declare_unit On joule w3.
Definition dim_momentum : dimension := DDerived "dim_momentum" [BExp dim_L 1 1; BExp dim_M 1 1; BExp dim_T (-1) 1] momentum_unit momentum_recipe.
Definition dim_energy : dimension := DDerived "dim_energy" [BExp dim_L 2 1; BExp dim_M 1 1; BExp dim_T (-2) 1] joule energy_recipe.

Definition speed_in (x : spec_float) : quantity := Quantity (QType dim_speed metre_per_second (RFlt F64)) (NFlt x).
Definition momentum_in (x : spec_float) : quantity := Quantity (QType dim_momentum momentum_unit (RFlt F64)) (NFlt x).
Definition mass_in (u : cunit) (x : spec_float) : quantity := Quantity (QType (DBase dim_M) u (RFlt F64)) (NFlt x).

(** 3 kg m/s, 4 kg and 1 m/s make 5 J; with the mass as 4000 g the result is 5000 mJ; and the
    root of the square of 5 kg is 5 kg. *)
Definition shown (r : res quantity) : res (ratio * number) := q <- r; Ok (u_ratio (q_unit (q_type q)), q_num q).
Example C102_ex_program : exists w, mechanics = Ok w /\
  shown (total_energy sqrt_est w square_libm (momentum_in (float_of_int F64 3)) (mass_in kilogram (float_of_int F64 4)) (speed_in (float_of_int F64 1))) =
    Ok (Ratio 1 1 0, NFlt (float_of_int F64 5)) /\
  shown (total_energy sqrt_est w square_libm (momentum_in (float_of_int F64 3)) (mass_in gram (float_of_int F64 4000)) (speed_in (float_of_int F64 1))) =
    Ok (Ratio 1 1 (-3), NFlt (float_of_int F64 5000)) /\
  shown (s <- q_square sqrt_est w square_libm (mass_in kilogram (float_of_int F64 5)); q_sqrt sqrt_est w s) = Ok (Ratio 1 1 3, NFlt (float_of_int F64 5)).
Proof. destruct mechanics as [w| | | |] eqn:W; vm_compute in W; try discriminate W. injection W as <-. eexists. split; [reflexivity|]. repeat split; vm_compute; reflexivity. Qed.

Lemma times_type : forall w a b q d u, q_times w a b = Ok q ->
  reference_multiply w (Reference (q_dim (q_type a)) (q_unit (q_type a))) (Reference (q_dim (q_type b)) (q_unit (q_type b))) = Ok (Reference d u) ->
  q_type q = QType d u (arith_rep (q_rep (q_type a)) (q_rep (q_type b))).
Proof.
  intros w a b q d u H R. unfold q_times in H. cbv zeta in H. rewrite R in H. cbn [bind] in H. step H as v V. now inversion H.
Qed.
Lemma square_type : forall est w l q s d c u, q_square est w l q = Ok s -> dimension_pow w (q_dim (q_type q)) 2 1 = Ok d ->
  rpow est 2 1 (u_ratio (q_unit (q_type q))) = Ok c -> downcast_unit w d c = Ok u -> q_type s = QType d u (q_rep (q_type q)).
Proof.
  intros est w l q s d c u H D R Du. apply square_parts in H. unfold q_pow in H. cbv zeta in H. change (2 =? 0)%Z with false in H. change (1 =? 0)%Z with false in H.
  cbn [negb constrained bind] in H. rewrite D, R in H. cbn [bind] in H. unfold math_result in H. rewrite Du in H. cbn [bind] in H. step H as s0 S0. inversion H; subst s0.
  step S0 as t T. step S0 as v V. unfold q_make in S0. step S0 as t0 T0. step S0 as v0 V0. inversion S0; subst s. cbn [q_type]. unfold mk_qtype in T. step T as t1 T1. now inversion T.
Qed.

(** Whatever numbers between 1 and 10^6 the momentum, the mass and the speed are: the energy is
    right to four roundings. *)
Definition squared_speed : dimension := DUnknown [BExp dim_L 2 1; BExp dim_T (-2) 1] [BExp dim_L 2 1; BExp dim_T (-2) 1].
Example C102_ex : forall w xp xm xc e, mechanics = Ok w -> is_number F64 xp -> is_number F64 xm -> is_number F64 xc ->
  1 <= fval xp <= 1000000 -> 1 <= fval xm <= 1000000 -> 1 <= fval xc <= 1000000 ->
  total_energy sqrt_est w square_libm (momentum_in xp) (mass_in kilogram xm) (speed_in xc) = Ok e ->
  q_dim (q_type e) = dim_energy /\ u_ratio (q_unit (q_type e)) = Ratio 1 1 0 /\
  accurate sqrt_est F64 e (sqrt ((fval xp * 1000 * fval xc) ^ 2 + (fval xm * 1000 * fval xc ^ 2) ^ 2)) 4.
Proof.
  intros w xp xm xc e W Np Nm Nc Bp Bm Bc H.
  assert (R : reachable w).
  { clear - W. unfold mechanics in W. step W as w1 W1. step W as w2 W2. step W as w3 W3. eapply reach_unit; [|exact W]. eapply reach_dim; [|exact W3]. eapply reach_dim; [|exact W2]. eapply reach_dim; [constructor|exact W1]. }
  assert (G : good_system si_base w).
  { split; [now apply reachable_consistent|]. split; [intros b [->|[->| ->]]; vm_compute; intuition congruence|].
    clear - W. vm_compute in W. injection W as <-. intros es d [X|[X|[X|[]]]]; inversion X; subst; vm_compute; intuition congruence. }
  assert (Dm : in_system si_base w (DBase dim_M)) by (apply base_in_system; right; now right).
  assert (Dc : in_system si_base w dim_speed).
  { split; [exact speed_ndim|]. split; [|repeat constructor]. clear - W. vm_compute in W. injection W as <-. vm_compute. reflexivity. }
  assert (Dp : in_system si_base w dim_momentum).
  { split; [split|split; [|repeat constructor]].
    - split; repeat constructor; vm_compute; discriminate.
    - intros b [<-|[<-|[<-|[]]]]; unfold si_base; cbn; auto.
    - clear - W. vm_compute in W. injection W as <-. vm_compute. reflexivity. }
  assert (Sp : sized sqrt_est (QType dim_momentum momentum_unit (RFlt F64)) (mag dim_momentum momentum_unit)) by now apply mag_sized.
  assert (Sm : sized sqrt_est (QType (DBase dim_M) kilogram (RFlt F64)) (mag (DBase dim_M) kilogram)) by now apply mag_sized.
  assert (Sc : sized sqrt_est (QType dim_speed metre_per_second (RFlt F64)) (mag dim_speed metre_per_second)) by now apply mag_sized.
  assert (Mp : Q2R (mag dim_momentum momentum_unit) = 1000) by (replace 1000 with (Q2R 1000) by (unfold Q2R; cbn; lra); apply Qeq_eqR; vm_compute; reflexivity).
  assert (Mm : Q2R (mag (DBase dim_M) kilogram) = 1000) by (replace 1000 with (Q2R 1000) by (unfold Q2R; cbn; lra); apply Qeq_eqR; vm_compute; reflexivity).
  assert (Mc : Q2R (mag dim_speed metre_per_second) = 1) by (replace 1 with (Q2R 1) by (unfold Q2R; cbn; lra); apply Qeq_eqR; vm_compute; reflexivity).
  assert (Me : Q2R (mag dim_energy joule) = 1000) by (replace 1000 with (Q2R 1000) by (unfold Q2R; cbn; lra); apply Qeq_eqR; vm_compute; reflexivity).
  set (sq := unk (Ratio 1 1 0)). set (e2 := DUnknown [BExp dim_L 4 1; BExp dim_M 2 1; BExp dim_T (-4) 1] [BExp dim_L 4 1; BExp dim_M 2 1; BExp dim_T (-4) 1]).
  assert (Ty : forall pc a c2 mc2 b s, energy_steps sqrt_est w square_libm (momentum_in xp) (mass_in kilogram xm) (speed_in xc) pc a c2 mc2 b s ->
    q_dim (q_type pc) = dim_energy /\ q_dim (q_type c2) = squared_speed /\ q_type a = QType e2 sq (RFlt F64) /\ q_type b = QType e2 sq (RFlt F64) /\ q_type s = QType e2 sq (RFlt F64)).
  { intros pc a c2 mc2 b s (H1 & H2 & H3 & H4 & H5 & H6).
    assert (T1 : q_type pc = QType dim_energy joule (RFlt F64)).
    { apply (times_type _ _ _ _ dim_energy joule) in H1; [exact H1|]. clear - W. vm_compute in W. injection W as <-. vm_compute. reflexivity. }
    assert (T3 : q_type c2 = QType squared_speed sq (RFlt F64)).
    { apply (square_type _ _ _ _ _ squared_speed (Ratio 1 1 0) sq) in H3; [exact H3| | |]; clear - W; vm_compute in W; injection W as <-; vm_compute; reflexivity. }
    assert (T4 : q_type mc2 = QType dim_energy joule (RFlt F64)).
    { apply (times_type _ _ _ _ dim_energy joule) in H4; [rewrite T3 in H4; exact H4|]. rewrite T3. clear - W. vm_compute in W. injection W as <-. vm_compute. reflexivity. }
    assert (T2 : q_type a = QType e2 sq (RFlt F64)).
    { apply (square_type _ _ _ _ _ e2 (Ratio 1 1 0) sq) in H2; [rewrite T1 in H2; exact H2| | |]; rewrite ?T1; clear - W; vm_compute in W; injection W as <-; vm_compute; reflexivity. }
    assert (T5 : q_type b = QType e2 sq (RFlt F64)).
    { apply (square_type _ _ _ _ _ e2 (Ratio 1 1 0) sq) in H5; [rewrite T4 in H5; exact H5| | |]; rewrite ?T4; clear - W; vm_compute in W; injection W as <-; vm_compute; reflexivity. }
    rewrite T1, T3. split; [reflexivity|]. split; [reflexivity|]. split; [exact T2|]. split; [exact T5|].
    unfold q_add, q_addsub in H6. cbv zeta in H6. rewrite T2, T5 in H6. step H6 as t T. change (arith_rep (q_rep (QType e2 sq (RFlt F64))) (q_rep (QType e2 sq (RFlt F64)))) with (RFlt F64) in T.
    apply common_same in T; [|reflexivity]. step H6 as y1 Y1. step H6 as y2 Y2. step H6 as y3 Y3. step H6 as y4 Y4. inversion H6; subst s. exact T. }
  assert (Te : q_type e = QType dim_energy joule (RFlt F64)).
  { pose proof H as H'. unfold total_energy in H'. step H' as pc Hpc. step H' as a Ha. step H' as c2 Hc2. step H' as mc2 Hmc2. step H' as b Hb. step H' as s Hs.
    destruct (Ty pc a c2 mc2 b s ltac:(now repeat split)) as (_ & _ & _ & _ & Ts).
    unfold q_sqrt in H'. cbv zeta in H'. rewrite Ts in H'. cbn [q_dim q_unit q_rep] in H'.
    assert (X1 : dimension_pow w e2 1 2 = Ok dim_energy) by (clear - W; vm_compute in W; injection W as <-; vm_compute; reflexivity). rewrite X1 in H'.
    assert (X2 : rsqrt sqrt_est (u_ratio sq) = Ok (Ratio 1 1 0)) by (vm_compute; reflexivity). rewrite X2 in H'. cbn [bind] in H'. unfold math_result in H'.
    assert (X3 : downcast_unit w dim_energy (Ratio 1 1 0) = Ok joule) by (clear - W; vm_compute in W; injection W as <-; vm_compute; reflexivity). rewrite X3 in H'. cbn [bind] in H'.
    step H' as t T. step H' as v V. unfold q_make in H'. step H' as t0 T0. step H' as v0 V0. inversion H'; subst e. cbn [q_type]. unfold mk_qtype in T. step T as t1 T1. now inversion T. }
  split; [now rewrite Te|]. split; [now rewrite Te|].
  assert (Se : sized sqrt_est (q_type e) (mag dim_energy joule)) by (rewrite Te; now apply mag_sized).
  assert (B1 : 1 * 1 <= fval xp * fval xc <= 1000000 * 1000000) by (apply box; lra).
  assert (B2 : 1 * 1 <= fval xc * fval xc <= 1000000 * 1000000) by (apply box; lra).
  assert (B3 : 1 * (1 * 1) <= fval xm * (fval xc * fval xc) <= 1000000 * (1000000 * 1000000)) by (apply box; lra).
  pose proof (box _ _ _ _ _ _ B1 B1 ltac:(lra) ltac:(lra)) as B4. pose proof (box _ _ _ _ _ _ B3 B3 ltac:(lra) ltac:(lra)) as B5.
  assert (Sqr : forall v, v ^ 2 = v * v) by (intros; ring).
  destruct (C102_energy si_base w sqrt_est square_libm F64 1 (momentum_in xp) (mass_in kilogram xm) (speed_in xc) xp xm xc
    (mag dim_momentum momentum_unit) (mag (DBase dim_M) kilogram) (mag dim_speed metre_per_second) e (mag dim_energy joule) 0 0 3 si_identify G Dp Dm Dc) as [_ Ac].
  all: cbv zeta.
  - intros b. unfold dim_expo. cbn [momentum_in mass_in speed_in q_type q_dim exponents dim_momentum dim_speed expo e_dim]. 
    destruct (bdim_eq_dec dim_L b), (bdim_eq_dec dim_M b), (bdim_eq_dec dim_T b); vm_compute; try reflexivity; subst; discriminate.
  - repeat constructor; vm_compute; discriminate.
  - split; [reflexivity|]. split; [reflexivity|]. split; [exact Np|exact Sp].
  - split; [reflexivity|]. split; [reflexivity|]. split; [exact Nm|exact Sm].
  - split; [reflexivity|]. split; [reflexivity|]. split; [exact Nc|exact Sc].
  - apply C102_ex_libm. discriminate.
  - exact H.
  - exact Se.
  - intros pc a c2 mc2 b s St. destruct (Ty _ _ _ _ _ _ St) as (T1 & T2 & T3 & T4 & T5). rewrite T1, T5. split; [repeat constructor; vm_compute; discriminate|].
    split; [unfold coherent; rewrite T2; vm_compute; reflexivity|]. split.
    + split; [exists 0%Z; reflexivity|]. split; [exists 1%Q; split; vm_compute; reflexivity|].
      split; (exists 1%Z, 1%Z; split; [unfold floor_root; cbn; lia|split; [reflexivity|split; [cbn; lia|split; vm_compute; congruence]]]).
    + rewrite T3, T4. split; left; split; reflexivity.
  - apply mid_wide. lra.
  - rewrite Sqr. apply mid_wide. lra.
  - rewrite Sqr. apply mid_wide. lra.
  - rewrite Sqr. apply mid_wide. lra.
  - rewrite !Sqr. apply mid_wide. lra.
  - cbn [q_type momentum_in mass_in speed_in]. rewrite Mp, Mc, Me. replace (fval xp * 1000 * (fval xc * 1) / 1000) with (fval xp * fval xc) by field. rewrite Sqr. apply mid_wide. lra.
  - rewrite Mm, Mc, Me. replace (fval xm * 1000 * (fval xc * 1) ^ 2 / 1000) with (fval xm * (fval xc * fval xc)) by field. rewrite Sqr. apply mid_wide. lra.
  - rewrite Mp, Mm, Mc, Me. replace (fval xp * 1000 * (fval xc * 1) / 1000) with (fval xp * fval xc) by field.
    replace (fval xm * 1000 * (fval xc * 1) ^ 2 / 1000) with (fval xm * (fval xc * fval xc)) by field. rewrite !Sqr. apply mid_wide. lra.
  - cbn. lia.
  - vm_compute. reflexivity.
  - rewrite Mp, Mm, Mc, Rmult_1_r in Ac. exact Ac.
Qed.

(** The root of the square of any mass between 1 and 10^6 kg is that mass to two roundings,
    although the square is wrong by a factor of a million (C54_kilogram_refuted). *)
Example C102_ex_root : forall w x s e, mechanics = Ok w -> is_number F64 x -> 1 <= fval x <= 1000000 ->
  q_square sqrt_est w square_libm (mass_in kilogram x) = Ok s -> q_sqrt sqrt_est w s = Ok e ->
  q_dim (q_type e) = DBase dim_M /\ accurate sqrt_est F64 e (fval x * 1000) 2.
Proof.
  intros w x s e W Nx Bx Hs He.
  assert (R : reachable w).
  { clear - W. unfold mechanics in W. step W as w1 W1. step W as w2 W2. step W as w3 W3. eapply reach_unit; [|exact W]. eapply reach_dim; [|exact W3]. eapply reach_dim; [|exact W2]. eapply reach_dim; [constructor|exact W1]. }
  assert (G : good_system si_base w).
  { split; [now apply reachable_consistent|]. split; [intros b [->|[->| ->]]; vm_compute; intuition congruence|].
    clear - W. vm_compute in W. injection W as <-. intros es d [X|[X|[X|[]]]]; inversion X; subst; vm_compute; intuition congruence. }
  assert (Dm : in_system si_base w (DBase dim_M)) by (apply base_in_system; right; now right).
  assert (Sm : sized sqrt_est (QType (DBase dim_M) kilogram (RFlt F64)) (mag (DBase dim_M) kilogram)) by now apply mag_sized.
  assert (Mm : Q2R (mag (DBase dim_M) kilogram) = 1000) by (replace 1000 with (Q2R 1000) by (unfold Q2R; cbn; lra); apply Qeq_eqR; vm_compute; reflexivity).
  set (m2 := DUnknown [BExp dim_M 2 1] [BExp dim_M 2 1]). set (u := CUnit None [] (Ratio 1 1 3) "gram" false None "no_prefix").
  assert (Ts : q_type s = QType m2 (unk (Ratio 1 1 6)) (RFlt F64)).
  { apply (square_type _ _ _ _ _ m2 (Ratio 1 1 6) (unk (Ratio 1 1 6))) in Hs; [exact Hs| | |]; clear - W; vm_compute in W; injection W as <-; vm_compute; reflexivity. }
  assert (Te : q_type e = QType (DBase dim_M) u (RFlt F64)).
  { pose proof He as H'. unfold q_sqrt in H'. cbv zeta in H'. rewrite Ts in H'. cbn [q_dim q_unit q_rep] in H'.
    assert (X1 : dimension_pow w m2 1 2 = Ok (DBase dim_M)) by (clear - W; vm_compute in W; injection W as <-; vm_compute; reflexivity). rewrite X1 in H'.
    assert (X2 : rsqrt sqrt_est (u_ratio (unk (Ratio 1 1 6))) = Ok (Ratio 1 1 3)) by (vm_compute; reflexivity). rewrite X2 in H'. cbn [bind] in H'. unfold math_result in H'.
    assert (X3 : downcast_unit w (DBase dim_M) (Ratio 1 1 3) = Ok u) by (clear - W; vm_compute in W; injection W as <-; vm_compute; reflexivity). rewrite X3 in H'. cbn [bind] in H'.
    step H' as t T. step H' as v V. unfold q_make in H'. step H' as t0 T0. step H' as v0 V0. inversion H'; subst e. cbn [q_type]. unfold mk_qtype in T. step T as t1 T1. now inversion T. }
  assert (Se : sized sqrt_est (q_type e) (mag (DBase dim_M) u)) by (rewrite Te; now apply mag_sized).
  assert (B2 : 1 * 1 <= fval x * fval x <= 1000000 * 1000000) by (apply box; lra).
  destruct (C102_root_of_square si_base w sqrt_est square_libm F64 1 1 (mass_in kilogram x) x (mag (DBase dim_M) kilogram) s e (mag (DBase dim_M) u) si_identify G Dm) as [Dq Ac]; auto.
  - repeat constructor; vm_compute; discriminate.
  - apply C102_ex_libm. discriminate.
  - vm_compute. reflexivity.
  - split; [reflexivity|]. split; [reflexivity|]. split; [exact Nx|exact Sm].
  - apply mid_wide. replace (fval x ^ 2) with (fval x * fval x) by ring. lra.
  - rewrite Ts. split; [exists 3%Z; reflexivity|]. split; [exists 1000%Q; split; vm_compute; reflexivity|].
    split; (exists 1%Z, 1%Z; split; [unfold floor_root; cbn; lia|split; [reflexivity|split; [cbn; lia|split; vm_compute; congruence]]]).
  - split; [rewrite Te; reflexivity|]. rewrite Mm, Rabs_right in Ac by lra. exact Ac.
Qed.
