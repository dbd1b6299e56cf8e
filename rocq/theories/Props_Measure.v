(** C101: the uncertainties of measured quantities. *)

From Coq Require Import ZArith QArith Qreals Reals Bool Lia Lra Psatz SpecFloat String List.
From Flocq Require Import Core.
From Verif Require Import Outcome CInt Root Ratio SpecRatio FixedString Unit Downcast Dim DimOp Equivalent SpecDim SpecUnit Rep Reference QuantityCast CommonQuantity Quantity
  SpecQuantity DimProofs DimOpProofs MagnitudeProofs QuantityProofs QuantityProofs2 QuantityProofs4 Point Expr SpecExpr ExprProofs ExprProofs2 ExprProofs3
  Samples SpecReal FloatProofs FloatCastProofs FloatAddProofs SpecOrder FloatOrderProofs SpecRounding RoundingProofs CatalogueProofs Custom Measure SpecMeasure MeasureProofs
  Props_Dim Props_Quantity Props_Float Props_FloatOrder Props_Expr Props_Rounding.
Import ListNotations.
Local Open Scope R_scope.
Local Open Scope res_scope.

(** The central value of an expression of measurements is, bit by bit, the value of the same
    expression of plain numbers, and it has the same type. *)
Theorem C101_central : forall hyp est w f e c, over f e -> meval hyp est w e = Ok c ->
  eval est w (centre e) = Ok (Quantity (cq_type c) (fst (cq_val c))) /\ q_rep (cq_type c) = RFlt f.
Proof. intros hyp est w f e c O H. destruct (central_value hyp est w f e c O H) as (E & R & _). auto. Qed.
Print Assumptions C101_central.

(** No uncertainty is negative. *)
Theorem C101_nonnegative : forall hyp est w e c, meval hyp est w e = Ok c -> exists x, snd (cq_val c) = NFlt x /\ unsigned x.
Proof. intros hyp est w e c H. exact (uncertainty_no_sign hyp est w e c H). Qed.
Print Assumptions C101_nonnegative.

(** The uncertainty is that of the theory of errors, whatever units the parts are in. *)
Theorem C101_uncertainty : forall hyp U w est f h e u l c, symbols_identify U -> good_system U w -> hypot_accurate f h hyp ->
  spreads est w f h e u l -> over f e -> all_dims (in_system U w) (centre e) -> (Z.of_nat l <= 2 ^ 21)%Z ->
  meval hyp est w e = Ok c -> uncertain est f (cq_type c) (cq_val c) u l.
Proof.
  intros hyp U w est f h e u l c HU G Hy S O A L H. destruct (spread_bound hyp U w HU G est f h Hy e u l S O A L c H) as (x & m & E & N & P & M & K).
  exists x, m. split; [exact E|]. split; [exact N|]. split; [exact P|]. split; [exact M|]. apply near_within; [apply few; lia|exact K].
Qed.
Print Assumptions C101_uncertainty.

(** [std::hypot] need not be correctly rounded: the textbook formula will do. *)
Theorem C101_hypot : forall f, hypot_accurate f 2 plain_hypot.
Proof. exact hypot_plain. Qed.
Print Assumptions C101_hypot.

(** * Cases *)

Definition mkm (x u : spec_float) : mexpr := MLit (flt dim_L kilometre F64) (NFlt x) (NFlt u).
Definition mm (x u : spec_float) : mexpr := MLit (flt dim_L metre F64) (NFlt x) (NFlt u).
Definition mh (x u : spec_float) : mexpr := MLit (flt dim_T hour F64) (NFlt x) (NFlt u).
Definition ms (x u : spec_float) : mexpr := MLit (flt dim_T second F64) (NFlt x) (NFlt u).
Definition mspeed (x u : spec_float) : mexpr := MLit (QType dim_speed metre_per_second (RFlt F64)) (NFlt x) (NFlt u).

Lemma box : forall a b c d x y, a <= x <= b -> c <= y <= d -> 0 < a -> 0 < c -> a * c <= x * y <= b * d.
Proof. intros a b c d x y [X1 X2] [Y1 Y2] A C. split; apply Rmult_le_compat; lra. Qed.
Lemma mid_wide : forall r, / 10000000000000000000000000000000000000000 <= r <= 10000000000000000000000000000000000000000 -> mid_range F64 r.
Proof.
  intros r [A B]. assert (P : 0 < / 10000000000000000000000000000000000000000) by lra. right. rewrite Rabs_right by lra. split.
  - apply Rle_trans with (bpow radix2 (-140)); [apply bpow_le; vm_compute; discriminate|].
    apply Rle_trans with (/ 10000000000000000000000000000000000000000); [|exact A]. change (bpow radix2 (-140)) with (/ IZR (2 ^ 140)). apply Rinv_le; [apply IZR_lt; reflexivity|apply IZR_le; vm_compute; discriminate].
  - apply Rle_trans with (bpow radix2 140); [|apply bpow_le; vm_compute; discriminate].
    apply Rle_trans with (10000000000000000000000000000000000000000); [exact B|]. change (bpow radix2 140) with (IZR (2 ^ 140)). apply IZR_le. vm_compute. discriminate.
Qed.
Lemma hypotenuse_between : forall x y, 0 <= x -> 0 <= y -> x <= hypotenuse x y <= x + y.
Proof.
  intros x y X Y. unfold hypotenuse. split.
  - apply Rsqr_incr_0_var; [|apply sqrt_pos]. rewrite Rsqr_sqrt by nra. unfold Rsqr. nra.
  - apply Rsqr_incr_0_var; [|lra]. rewrite Rsqr_sqrt by nra. unfold Rsqr. nra.
Qed.
Lemma usual_pos : forall x, usual x -> Rabs (fval x) = fval x.
Proof. intros x [_ B]. apply Rabs_right. lra. Qed.
(** What products and quotients of the numbers below are between. *)
Lemma quotient_box : forall a b c d x y, a <= x <= b -> c <= y <= d -> 0 < a -> 0 < c -> a / d <= x / y <= b / c.
Proof.
  intros a b c d x y X Y A C. unfold Rdiv. apply box; auto.
  - split; apply Rinv_le; lra.
  - apply Rinv_0_lt_compat. lra.
Qed.

(** A distance measured in two parts, in kilometres and in metres, divided by a time in hours, all
    with uncertainties, for any numbers from 1 to 10^9: the uncertainty of the speed is within
    fourteen roundings of the textbook's. *)
Example C101_ex : forall est w x u y v t z c, si_world = Ok w -> usual x -> usual u -> usual y -> usual v -> usual t -> usual z ->
  meval plain_hypot est w (MDiv (MAdd (mkm x u) (mm y v)) (mh t z)) = Ok c ->
  let d := fval x * 1000 + fval y in let dt := fval t * 3600 in
  uncertain est F64 (cq_type c) (cq_val c) (Rabs (d / dt) * hypotenuse (hypotenuse (fval u * 1000) (fval v) / d) (fval z * 3600 / dt)) 14.
Proof.
  intros est w x u y v t z c W Hx Hu Hy Hv Ht Hz H d dt. destruct good_units as (Gm & Gk & _ & Gs & _ & Gh & _).
  pose proof (usual_pos _ Hu) as Pu. pose proof (usual_pos _ Hv) as Pv. pose proof (usual_pos _ Hz) as Pz.
  destruct Hx as (Nx & Bx), Hy as (Ny & By), Ht as (Nt & Bt), Hu as (Nu & Bu), Hv as (Nv & Bv), Hz as (Nz & Bz).
  destruct si_world_reachable as (w' & W' & R). assert (w' = w) by congruence. subst w'.
  assert (L : in_system si_base w (DBase dim_L)) by (apply base_in_system; now left).
  assert (T : in_system si_base w (DBase dim_T)) by (apply base_in_system; right; now left).
  assert (A : all_dims (in_system si_base w) (EDiv (EAdd (km x) (m_ y)) (h_ t))) by (cbn; auto).
  assert (Sk : sized est (flt dim_L kilometre F64) (rval (Ratio 1 1 3))) by (apply (flt_sized_length est kilometre); auto).
  assert (Sm : sized est (flt dim_L metre F64) (rval (Ratio 1 1 0))) by (apply (flt_sized_length est metre); auto).
  assert (Su : sized est (flt dim_L unnamed_metre F64) (rval (Ratio 1 1 0))).
  { apply (flt_sized_length est unnamed_metre); [|reflexivity]. repeat split; vm_compute; congruence. }
  assert (Sh : sized est (flt dim_T hour F64) (rval (Ratio 36 1 2))) by now apply (flt_sized_time est hour).
  assert (Ek : Q2R (rval (Ratio 1 1 3)) = 1000) by (apply ratio_R; vm_compute; reflexivity).
  assert (E1 : Q2R (rval (Ratio 1 1 0)) = 1) by (apply ratio_R; vm_compute; reflexivity).
  assert (Eh : Q2R (rval (Ratio 36 1 2)) = 3600) by (apply ratio_R; vm_compute; reflexivity).
  assert (Ct : common_quantity est w (flt dim_L kilometre F64) (flt dim_L metre F64) (RFlt F64) = Ok (flt dim_L unnamed_metre F64)).
  { clear - W. vm_compute in W. injection W as <-. vm_compute. reflexivity. }
  assert (Ty : forall s, eval est w (EAdd (km x) (m_ y)) = Ok s -> q_type s = flt dim_L unnamed_metre F64).
  { intros s Hs. cbn [eval bind km m_] in Hs. unfold q_add, q_addsub in Hs. cbv zeta in Hs. cbn [q_type q_num] in Hs.
    change (arith_rep (q_rep (flt dim_L kilometre F64)) (q_rep (flt dim_L metre F64))) with (RFlt F64) in Hs. rewrite Ct in Hs. cbn [bind] in Hs.
    step Hs as a Ea. step Hs as b Eb. step Hs as c0 Ec. step Hs as d0 Ed. now inversion Hs. }
  assert (Is : in_units est w (EAdd (km x) (m_ y)) (rval (Ratio 1 1 0))) by (intros s Hs; now rewrite (Ty s Hs)).
  assert (Ih : in_units est w (h_ t) (rval (Ratio 36 1 2))) by (intros s Hs; inversion Hs; exact Sh).
  pose proof (units_div si_base w si_identify (si_good w W) est _ _ _ _ A Is Ih) as Id.
  assert (K1 : conversion_costs est F64 (flt dim_L kilometre F64) (flt dim_L unnamed_metre F64) 1).
  { right. split; [discriminate|]. exists 0%nat. split; [|reflexivity].
    exists (Ratio 1 1 3). split; [reflexivity|]. left. split; [|reflexivity]. exists 1000%Z. cbn [rnum rden rexp].
    split; [reflexivity|]. split; [lia|]. split; [vm_compute; discriminate|]. repeat split; apply holds_small; vm_compute; discriminate. }
  assert (K2 : conversion_costs est F64 (flt dim_L metre F64) (flt dim_L unnamed_metre F64) 1).
  { right. split; [discriminate|]. exists 0%nat. split; [|reflexivity].
    exists (Ratio 1 1 0). split; [reflexivity|]. left. split; [|reflexivity]. exists 1%Z. cbn [rnum rden rexp].
    split; [reflexivity|]. split; [lia|]. split; [vm_compute; discriminate|]. repeat split; apply holds_small; vm_compute; discriminate. }
  assert (Ckm : computes est w F64 (km x) (fval x * 1000) 0) by (rewrite <- Ek; now apply cp_lit).
  assert (Cm : computes est w F64 (m_ y) (fval y) 0) by (rewrite <- (Rmult_1_r (fval y)), <- E1; now apply cp_lit).
  assert (Ch : computes est w F64 (h_ t) dt 0) by (unfold dt; rewrite <- Eh; now apply cp_lit).
  assert (Cs : computes est w F64 (EAdd (km x) (m_ y)) d 2).
  { unfold d. apply (cp_add est w F64 (km x) (m_ y) _ _ 0 0 1 1 (rval (Ratio 1 1 0))); auto.
    - nra.
    - intros a b s Ha Hb Hs. inversion Ha; subst a. inversion Hb; subst b. rewrite (Ty s Hs). split; assumption.
    - rewrite E1. apply mid_between. lra.
    - rewrite E1. apply mid_between. lra.
    - rewrite E1. apply mid_between. lra. }
  assert (Mw : forall r, / 10000000000000000000000000000000000000000 <= r <= 10000000000000000000000000000000000000000 -> mid_range F64 r) by exact mid_wide.
  assert (Bd : 1001 <= d <= 1001000000000) by (unfold d; lra).
  assert (Bdt : 3600 <= dt <= 3600000000000) by (unfold dt; lra).
  assert (Cd : computes est w F64 (EDiv (EAdd (km x) (m_ y)) (h_ t)) (d / dt) 3).
  { apply (cp_div est w F64 _ (h_ t) d dt 2 0 (rval (Ratio 1 1 0) / rval (Ratio 36 1 2))); auto; [lra|].
    rewrite Q2R_div by (vm_compute; discriminate). rewrite Eh, E1. apply mid_wide.
    replace (d / dt / (1 / 3600)) with (d / dt * 3600) by (field; lra). pose proof (quotient_box _ _ _ _ _ _ Bd Bdt ltac:(lra) ltac:(lra)) as B. split; lra. }
  assert (Sx : spreads est w F64 2 (mkm x u) (fval u * 1000) 0) by (rewrite <- Pu, <- Ek; now apply sp_lit).
  assert (Sy : spreads est w F64 2 (mm y v) (fval v) 0) by (rewrite <- (Rmult_1_r (fval v)), <- E1, <- Pv; now apply sp_lit).
  assert (Sz : spreads est w F64 2 (mh t z) (fval z * 3600) 0) by (rewrite <- Pz, <- Eh; now apply sp_lit).
  set (e := hypotenuse (fval u * 1000) (fval v)). assert (Be : 1000 <= e <= 1001000000000) by (pose proof (hypotenuse_between (fval u * 1000) (fval v) ltac:(lra) ltac:(lra)); unfold e; lra).
  assert (Ss : spreads est w F64 2 (MAdd (mkm x u) (mm y v)) e 5).
  { unfold e. apply (sp_add est w F64 2 (mkm x u) (mm y v) (fval u * 1000) (fval v) 0 0 3 3 (rval (Ratio 1 1 0))); auto.
    - intros a b q Ha Hb Hq. inversion Ha; subst a. inversion Hb; subst b. cbn [centre mkm mm] in Hq. rewrite (Ty q Hq). split; right.
      + exists (fval x * 1000), 0%nat, 1%nat. split; [exact Ckm|]. split; [lra|]. split; [exact K1|]. rewrite E1. split; [|split; [|reflexivity]].
        * apply mid_wide. pose proof (quotient_box 1000 1000000000000 1000 1000000000000 (fval u * 1000) (fval x * 1000) ltac:(lra) ltac:(lra) ltac:(lra) ltac:(lra)). split; lra.
        * apply mid_wide. split; lra.
      + exists (fval y), 0%nat, 1%nat. split; [exact Cm|]. split; [lra|]. split; [exact K2|]. rewrite E1. split; [|split; [|reflexivity]].
        * apply mid_wide. pose proof (quotient_box 1 1000000000 1 1000000000 (fval v) (fval y) ltac:(lra) ltac:(lra) ltac:(lra) ltac:(lra)). split; lra.
        * apply mid_wide. split; lra.
    - rewrite E1. unfold Rdiv. rewrite Rinv_1, !Rmult_1_r. assert (U1 : 1000 <= fval u * 1000 <= 1000000000000) by lra.
      pose proof (box _ _ _ _ _ _ U1 U1 ltac:(lra) ltac:(lra)). pose proof (box _ _ _ _ _ _ Bv Bv ltac:(lra) ltac:(lra)). repeat split; apply mid_wide; split; lra. }
  assert (B1 : 1000 / 1001000000000 <= e / d <= 1001000000000 / 1001) by (apply quotient_box; lra).
  assert (B2 : 3600 / 3600000000000 <= fval z * 3600 / dt <= 3600000000000 / 3600) by (apply quotient_box; lra).
  assert (B3 : 1001 / 3600000000000 <= d / dt <= 1001000000000 / 3600) by (apply quotient_box; lra).
  pose proof (hypotenuse_between (e / d) (fval z * 3600 / dt) ltac:(lra) ltac:(lra)) as B4.
  apply (C101_uncertainty plain_hypot si_base w est F64 2 (MDiv (MAdd (mkm x u) (mm y v)) (mh t z)) _ 14 c si_identify (si_good w W) (C101_hypot F64)); auto.
  - apply (sp_div est w F64 2 (MAdd (mkm x u) (mm y v)) (mh t z) d dt e (fval z * 3600) 2 0 3 5 0 (rval (Ratio 1 1 0) / rval (Ratio 36 1 2))); auto; try lra.
    + pose proof (box _ _ _ _ _ _ B1 B1 ltac:(lra) ltac:(lra)). pose proof (box _ _ _ _ _ _ B2 B2 ltac:(lra) ltac:(lra)). repeat split; apply mid_wide; split; lra.
    + rewrite Q2R_div by (vm_compute; discriminate). rewrite Eh, E1. apply mid_wide.
      assert (B5 : 1000 / 1001000000000 <= hypotenuse (e / d) (fval z * 3600 / dt) <= 1001000000000 / 1001 + 3600000000000 / 3600) by lra.
      pose proof (box _ _ _ _ _ _ B3 B5 ltac:(lra) ltac:(lra)) as B6. replace (d / dt * hypotenuse (e / d) (fval z * 3600 / dt) / (1 / 3600)) with (d / dt * hypotenuse (e / d) (fval z * 3600 / dt) * 3600) by (field; lra). split; lra.
  - cbn. repeat split; apply Nx || apply Ny || apply Nt.
  - vm_compute. discriminate.
Qed.

(** The numbers of measurement.cpp:128-138: 9.8 ± 0.1 m/s for 1.2 ± 0.1 s are 11.76 ± 0.987 m;
    10 * (123 ± 1) m are 1230 ± 10.000000000000002 m, one unit in the last place above 10. *)
Definition printed (hyp : fty -> number -> number -> res spec_float) (est : estimate) (w : world) (e : mexpr) : res (ratio * (number * number)) :=
  c <- meval hyp est w e; Ok (u_ratio (q_unit (cq_type c)), cq_val c).
Definition dec (f : fty) (n d : Z) : spec_float := SFdiv (fprec f) (femax f) (float_of_int f n) (float_of_int f d).
Example C101_ex_program : forall est, exists w, si_world = Ok w /\
  (exists u, printed plain_hypot est w (MMul (mspeed (dec F64 98 10) (dec F64 1 10)) (ms (dec F64 12 10) (dec F64 1 10))) =
     Ok (Ratio 1 1 0, (NFlt (dec F64 1176 100), NFlt u)) /\ (SFcompare u (dec F64 9874 10000) = Some Lt) /\ (SFcompare (dec F64 9873 10000) u = Some Lt)) /\
  printed plain_hypot est w (MVMul (RInt I32) (NInt 10) (mm (float_of_int F64 123) (float_of_int F64 1))) =
     Ok (Ratio 1 1 0, (NFlt (float_of_int F64 1230), NFlt (S754_finite false 5629499534213121 (-49)))).
Proof.
  intros est. destruct si_world_reachable as (w & W & _). exists w. split; [exact W|]. clear - W. vm_compute in W. injection W as <-. split.
  - eexists. split; [vm_compute; reflexivity|]. split; vm_compute; reflexivity.
  - vm_compute. reflexivity.
Qed.

(** The theory is that of independent measurements.  A quantity added to itself is treated as two
    of them: 3 ± 1 m plus itself is 6 ± 1.41 m and not 6 ± 2 m, and minus itself is 0 ± 1.41 m. *)
Definition root2 : spec_float := SFsqrt (fprec F64) (femax F64) (float_of_int F64 2).
Theorem C101_correlated_refuted : forall est w, si_world = Ok w -> let a := mm (float_of_int F64 3) (float_of_int F64 1) in
  printed plain_hypot est w (MAdd a a) = Ok (Ratio 1 1 0, (NFlt (float_of_int F64 6), NFlt root2)) /\
  printed plain_hypot est w (MVMul (RInt I32) (NInt 2) a) = Ok (Ratio 1 1 0, (NFlt (float_of_int F64 6), NFlt (float_of_int F64 2))) /\
  printed plain_hypot est w (MSub a a) = Ok (Ratio 1 1 0, (NFlt (float_of_int F64 0), NFlt root2)) /\ SFcompare root2 (float_of_int F64 2) = Some Lt.
Proof. intros est w W a. clear - W. vm_compute in W. injection W as <-. vm_compute. auto. Qed.
Print Assumptions C101_correlated_refuted.

(** Values of zero are not covered: (0 ± 1) m times 2 ± 1 s has no uncertainty although the theory
    gives 2 m s, and neither has (0 ± 1) m in kilometres. *)
Theorem C101_zero_refuted : forall est w, si_world = Ok w -> let a := mm (float_of_int F64 0) (float_of_int F64 1) in
  printed plain_hypot est w (MMul a (ms (float_of_int F64 2) (float_of_int F64 1))) = Ok (Ratio 1 1 0, (NFlt (float_of_int F64 0), NFlt S754_nan)) /\
  printed plain_hypot est w (MCast (ToUnit kilometre) a) = Ok (Ratio 1 1 3, (NFlt (float_of_int F64 0), NFlt S754_nan)).
Proof. intros est w W a. clear - W. vm_compute in W. injection W as <-. vm_compute. auto. Qed.
Print Assumptions C101_zero_refuted.
