(** C104: conversion factors. *)

From Coq Require Import ZArith QArith Qreals Reals Bool Lia Lra SpecFloat String List.
From Flocq Require Import Core.
From Verif Require Import Outcome CInt Root Ratio SpecRatio FixedString Unit Downcast Dim DimOp Equivalent SpecDim SpecUnit Rep Reference QuantityCast CommonQuantity Quantity
  SpecQuantity DimProofs DimOpProofs EquivProofs MagnitudeProofs CastProofs QuantityProofs QuantityProofs2 QuantityProofs4 QuantityProofs5 Point Expr SpecExpr ExprProofs ExprProofs2 ExprProofs3
  Samples SpecReal FloatProofs FloatCastProofs FloatAddProofs SpecOrder FloatOrderProofs SpecRounding RoundingProofs CatalogueProofs
  Props_Dim Props_Quantity Props_Float Props_FloatOrder Props_Expr Props_Rounding ConversionFactor.
Import ListNotations.
Local Open Scope R_scope.
Local Open Scope res_scope.

Lemma mul_comm : forall p e x y, SFmul p e x y = SFmul p e y x.
Proof.
  intros p e [s|s| |s m x] [t|t| |t n y]; cbn [SFmul]; try reflexivity; rewrite ?(xorb_comm t s); try reflexivity.
  now rewrite (Pos.mul_comm n m), (Z.add_comm y x).
Qed.

Lemma int_valid : forall f z, valid_binary (fprec f) (femax f) (float_of_int f z) = true.
Proof. intros f z. exact (as_float_valid f (NInt z)). Qed.
Lemma power_valid : forall f e, valid_binary (fprec f) (femax f) (fpow10 f e) = true.
Proof.
  intros f [|p|p]; cbn [fpow10].
  - apply int_valid.
  - apply Pos.iter_invariant; [intros x V; apply mul_valid; [exact V|apply int_valid]|apply int_valid].
  - apply Pos.iter_invariant; [intros x V; apply div_valid; [exact V|apply int_valid]|apply int_valid].
Qed.
Lemma factor_valid : forall f c, valid_binary (fprec f) (femax f) (cast_factor f c) = true.
Proof. intros f c. apply div_valid; [|apply int_valid]. apply mul_valid; [apply int_valid|apply power_valid]. Qed.

Lemma cast_rep_same : forall f, cast_rep (RFlt f) (RFlt f) = RFlt f.
Proof. now intros []. Qed.

(** The number of the converted quantity, for quantities of one floating-point type. *)
Lemma converted : forall est f from to x, q_rep from = RFlt f -> q_rep to = RFlt f -> dim_equivalent (q_dim to) (q_dim from) = true ->
  valid_binary (fprec f) (femax f) x = true -> from <> to ->
  q_convert est from to (NFlt x) =
    (c <- cast_ratio est (q_dim from) (q_unit from) (q_dim to) (q_unit to); Ok (NFlt (SFmul (fprec f) (femax f) x (cast_factor f c)))).
Proof.
  intros est f from to x Rf Rt De V Ne. unfold q_convert. destruct (qtype_eq_dec from to) as [E|_]; [now elim Ne|].
  rewrite (safe_to_float est from to f Rt De). cbn [bind constrained]. unfold quantity_cast. rewrite De. cbn [bind constrained].
  destruct (cast_ratio _ _ _ _ _) as [c| | | |]; try reflexivity. cbn [bind]. rewrite Rf, Rt.
  rewrite (cast_number_eq _ _ _ f (NFlt x) x (cast_rep_same f)); [|cbn [n_convert]; now rewrite conv_same].
  cbn [n_convert]. rewrite conv_same; [reflexivity|]. apply mul_valid; [exact V|apply factor_valid].
Qed.

(** The factor, for types the common representation of which is floating-point. *)
Lemma factor_is : forall est f target source, common_rep (q_rep target) (q_rep source) = RFlt f ->
  dim_equivalent (q_dim source) (q_dim target) = true ->
  conversion_factor est target source =
    (if qtype_eq_dec (with_rep source (RFlt f)) (with_rep target (RFlt f)) then Ok (NFlt (float_of_int f 1))
     else c <- cast_ratio est (q_dim source) (q_unit source) (q_dim target) (q_unit target); Ok (NFlt (cast_factor f c))).
Proof.
  intros est f target source Cr De. unfold conversion_factor. rewrite De, Cr. cbn [constrained bind]. cbv zeta.
  unfold q_make. cbn [q_rep with_rep safe_convertible floating orb constrained bind n_convert]. unfold q_to. cbn [q_type q_num].
  destruct (qtype_eq_dec (with_rep source (RFlt f)) (with_rep target (RFlt f))) as [E|E].
  - unfold q_convert. destruct (qtype_eq_dec _ _) as [_|N]; [reflexivity|now elim N].
  - rewrite (converted est f); try reflexivity; [|destruct dim_equivalent_equivalence as (_ & Esym & _); cbn [with_rep q_dim]; now rewrite Esym|apply int_valid|exact E].
    cbn [q_dim q_unit with_rep]. destruct (cast_ratio _ _ _ _ _) as [c| | | |]; try reflexivity. cbn [bind q_num].
    now rewrite mul_comm, mul_one by apply factor_valid.
Qed.

(** Every conversion is, bit by bit, a multiplication by the conversion factor: for all numbers of
    the common floating-point type, including infinities and NaN. *)
Theorem C104_multiplies : forall est f target source r, common_rep (q_rep target) (q_rep source) = RFlt f ->
  conversion_factor est target source = Ok r ->
  exists k, r = NFlt k /\ forall x, num_ok (RFlt f) (NFlt x) = true ->
    q_to est (with_rep target (RFlt f)) (Quantity (with_rep source (RFlt f)) (NFlt x)) =
      Ok (Quantity (with_rep target (RFlt f)) (NFlt (SFmul (fprec f) (femax f) x k))).
Proof.
  intros est f target source r Cr H. assert (De : dim_equivalent (q_dim source) (q_dim target) = true).
  { unfold conversion_factor in H. step H as u Eu. now apply constrained_ok in Eu. }
  rewrite (factor_is est f _ _ Cr De) in H. unfold q_to. cbn [q_type q_num].
  destruct (qtype_eq_dec (with_rep source (RFlt f)) (with_rep target (RFlt f))) as [E|E].
  - inversion H. exists (float_of_int f 1). split; [reflexivity|]. intros x V. cbn [num_ok] in V. unfold q_convert.
    destruct (qtype_eq_dec _ _) as [_|N]; [|now elim N]. cbn [bind]. now rewrite mul_one.
  - step H as c Ec. inversion H. exists (cast_factor f c). split; [reflexivity|]. intros x V. cbn [num_ok] in V.
    rewrite (converted est f); try reflexivity; [|destruct dim_equivalent_equivalence as (_ & Esym & _); cbn [with_rep q_dim]; now rewrite Esym|exact V|exact E].
    cbn [q_dim q_unit with_rep]. rewrite Ec. reflexivity.
Qed.
Print Assumptions C104_multiplies.

(** The factor is the ratio of the units, up to the roundings of the factor of a cast. *)
Lemma factor_value : forall est f target source m1 m2 j, common_rep (q_rep target) (q_rep source) = RFlt f ->
  sized est source m1 -> sized est target m2 -> references_ok source target -> dim_equivalent (q_dim source) (q_dim target) = true ->
  factor_costs est f source target j ->
  exists k, conversion_factor est target source = Ok (NFlt k) /\ is_number f k /\ near f j (fval k) (Q2R m1 / Q2R m2).
Proof.
  intros est f target source m1 m2 j Cr S1 S2 Ref De K. rewrite (factor_is est f _ _ Cr De).
  destruct (qtype_eq_dec (with_rep source (RFlt f)) (with_rep target (RFlt f))) as [E|E].
  - destruct (one_exact f) as [A B]. exists (float_of_int f 1). split; [reflexivity|]. split; [exact A|]. rewrite B.
    pose proof (sized_rep _ _ _ (RFlt f) S1) as T1. pose proof (sized_rep _ _ _ (RFlt f) S2) as T2. rewrite E in T1.
    rewrite (size_unique _ _ _ _ T1 T2). pose proof (size_pos _ _ _ S2). replace (Q2R m2 / Q2R m2) with 1 by (field; lra).
    apply (near_weaken f 0); [lia|apply near_refl].
  - destruct (factor_cost _ _ _ _ _ _ _ S1 S2 Ref K) as (c & Hc & Nc & Fc). rewrite Hc. exists (cast_factor f c). auto.
Qed.

Theorem C104_value : forall est f target source m1 m2 j, common_rep (q_rep target) (q_rep source) = RFlt f ->
  sized est source m1 -> sized est target m2 -> references_ok source target -> dim_equivalent (q_dim source) (q_dim target) = true ->
  factor_costs est f source target j -> (Z.of_nat j <= 2 ^ 22)%Z ->
  exists k, conversion_factor est target source = Ok (NFlt k) /\ is_number f k /\ within f j (fval k) (Q2R m1 / Q2R m2).
Proof.
  intros est f target source m1 m2 j Cr S1 S2 Ref De K L. destruct (factor_value est f target source m1 m2 j Cr S1 S2 Ref De K) as (k & H & N & F).
  exists k. split; [exact H|]. split; [exact N|]. apply near_within; [now apply few|exact F].
Qed.
Print Assumptions C104_value.

(** The factors of the two directions are each other's inverses, up to their roundings. *)
Theorem C104_inverse : forall est f target source m1 m2 i j x y, common_rep (q_rep target) (q_rep source) = RFlt f ->
  common_rep (q_rep source) (q_rep target) = RFlt f ->
  sized est source m1 -> sized est target m2 -> references_ok source target ->
  factor_costs est f source target i -> factor_costs est f target source j -> (Z.of_nat (i + j) <= 2 ^ 22)%Z ->
  conversion_factor est target source = Ok (NFlt x) -> conversion_factor est source target = Ok (NFlt y) ->
  within f (i + j) (fval x * fval y) 1.
Proof.
  intros est f target source m1 m2 i j x y Cr Cr' S1 S2 Ref Ki Kj L X Y.
  assert (D1 : dim_equivalent (q_dim source) (q_dim target) = true).
  { unfold conversion_factor in X. step X as u Eu. now apply constrained_ok in Eu. }
  assert (D2 : dim_equivalent (q_dim target) (q_dim source) = true).
  { unfold conversion_factor in Y. step Y as u Eu. now apply constrained_ok in Eu. }
  destruct (factor_value est f target source m1 m2 i Cr S1 S2 Ref D1 Ki) as (x' & X' & _ & Nx).
  destruct (factor_value est f source target m2 m1 j Cr' S2 S1 (references_ok_sym _ _ Ref) D2 Kj) as (y' & Y' & _ & Ny).
  rewrite X in X'. rewrite Y in Y'. inversion X'. inversion Y'. subst x' y'. apply near_within; [now apply few|].
  pose proof (size_pos _ _ _ S1). pose proof (size_pos _ _ _ S2).
  apply (near_eq f _ _ _ (Q2R m1 / Q2R m2 * (Q2R m2 / Q2R m1)) 1 eq_refl); [field; lra|]. now apply near_mul.
Qed.
Print Assumptions C104_inverse.

(** Converting in two steps multiplies by the factor of the one step, up to the roundings of the
    three factors. *)
Theorem C104_chain : forall est f a b c ma mb mc i j l x y z, q_rep a = RFlt f -> q_rep b = RFlt f -> q_rep c = RFlt f ->
  sized est a ma -> sized est b mb -> sized est c mc -> references_ok a b -> references_ok b c -> references_ok a c ->
  factor_costs est f a b i -> factor_costs est f b c j -> factor_costs est f a c l -> (Z.of_nat (i + j + l) <= 2 ^ 22)%Z ->
  conversion_factor est b a = Ok (NFlt x) -> conversion_factor est c b = Ok (NFlt y) -> conversion_factor est c a = Ok (NFlt z) ->
  within f (i + j + l) (fval x * fval y) (fval z).
Proof.
  intros est f a b c ma mb mc i j l x y z Ra Rb Rc Sa Sb Sc Rab Rbc Rac Ki Kj Kl L X Y Z.
  assert (Cm : forall s t, q_rep s = RFlt f -> q_rep t = RFlt f -> common_rep (q_rep s) (q_rep t) = RFlt f).
  { intros s t -> ->. now destruct f. }
  assert (Dm : forall s t k, conversion_factor est t s = Ok k -> dim_equivalent (q_dim s) (q_dim t) = true).
  { intros s t k H. unfold conversion_factor in H. step H as u Eu. now apply constrained_ok in Eu. }
  destruct (factor_value est f b a ma mb i (Cm _ _ Rb Ra) Sa Sb Rab (Dm _ _ _ X) Ki) as (x' & X' & _ & Nx).
  destruct (factor_value est f c b mb mc j (Cm _ _ Rc Rb) Sb Sc Rbc (Dm _ _ _ Y) Kj) as (y' & Y' & _ & Ny).
  destruct (factor_value est f c a ma mc l (Cm _ _ Rc Ra) Sa Sc Rac (Dm _ _ _ Z) Kl) as (z' & Z' & _ & Nz).
  rewrite X in X'. rewrite Y in Y'. rewrite Z in Z'. inversion X'. inversion Y'. inversion Z'. subst x' y' z'.
  apply near_within; [now apply few|]. pose proof (size_pos _ _ _ Sa). pose proof (size_pos _ _ _ Sb). pose proof (size_pos _ _ _ Sc).
  apply near_trans with (Q2R ma / Q2R mc).
  - apply (near_eq f _ _ _ (Q2R ma / Q2R mb * (Q2R mb / Q2R mc)) _ eq_refl); [field; lra|]. now apply near_mul.
  - destruct Nz as (t & E & A & B). pose proof (grow_pos f l) as P. exists (/ t). assert (0 < t) by (apply Rlt_le_trans with (2 := A); now apply Rinv_0_lt_compat).
    split; [rewrite E; field; lra|]. split.
    + now apply Rinv_le.
    + rewrite <- (Rinv_inv ((1 + roundoff f) ^ l)). apply Rinv_le; [now apply Rinv_0_lt_compat|exact A].
Qed.
Print Assumptions C104_chain.

(** With integers the factor exists only if it is a whole number, and conversions multiply by it
    exactly. *)
Lemma whole_conversion : forall est from to b m1 m2 n r, sized est from m1 -> sized est to m2 -> references_ok from to ->
  q_rep from = RInt b -> q_rep to = RInt b -> b <> U64 -> in_range b n = true -> value_fits (RInt b) (inject_Z n * m1 / m2) ->
  q_convert est from to (NInt n) = Ok r -> exists z, r = NInt z /\ same_value n m1 z m2.
Proof.
  intros est from to b m1 m2 n r S1 S2 Ref Ra Rb Ub I F H. unfold q_convert in H. destruct (qtype_eq_dec from to) as [E|E].
  - inversion H. exists n. split; [reflexivity|]. subst to. unfold same_value. now rewrite (sized_unique _ _ _ _ S1 S2).
  - step H as v Ev. step H as u Eu. apply constrained_ok in Eu. subst v.
    destruct (proj1 (safe_castable_int _ _ _ _ _ _ _ _ S1 S2 Ra Rb Ev) eq_refl) as [De Mu].
    destruct (defined_truncates est from to b b m1 m2 S1 S2 Ref Ra Rb Ub Ub n r I H) as (z & -> & T).
    rewrite <- Rb in F. exists (wrap b z). split; [reflexivity|].
    exact (proj1 (cast_back est from to b b m1 m2 n (wrap b z) (NInt 0) S1 S2 Ref Ra Rb Ub Ub I Mu F H)).
Qed.

Theorem C104_whole : forall est target source b m1 m2 r, common_rep (q_rep target) (q_rep source) = RInt b -> b <> U64 ->
  sized est source m1 -> sized est target m2 -> references_ok source target ->
  value_fits (RInt b) (m1 / m2) -> conversion_factor est target source = Ok r ->
  exists k, r = NInt k /\ (m1 == inject_Z k * m2)%Q /\
    forall n q, in_range b n = true -> in_range b (n * k) = true ->
      q_to est (with_rep target (RInt b)) (Quantity (with_rep source (RInt b)) (NInt n)) = Ok q ->
      q = Quantity (with_rep target (RInt b)) (NInt (n * k)).
Proof.
  intros est target source b m1 m2 r Cr Ub S1 S2 Ref F H. unfold conversion_factor in H. rewrite Cr in H. cbv zeta in H. step H as u Eu. clear Eu u.
  unfold q_make in H. cbn [q_rep with_rep safe_convertible floating orb negb constrained bind n_convert] in H.
  assert (I : in_range b 1 = true) by now destruct b as [[] []].
  rewrite (wrap_id b 1 I) in H. unfold q_to in *. cbn [q_type q_num] in *. step H as x Ex. step Ex as y Ey. inversion Ex; subst x. cbn [q_num] in H.
  inversion H; subst y. clear H Ex. pose proof (sized_pos _ _ _ S2) as P2. assert (N2 : ~ (m2 == 0)%Q) by (intros N; rewrite N in P2; discriminate).
  assert (F1 : value_fits (RInt b) (inject_Z 1 * m1 / m2)).
  { destruct F as (t & E & L & M). exists t. split; [exact E|]. assert (Q : (inject_Z 1 * m1 / m2 == m1 / m2)%Q) by (unfold inject_Z; field; exact N2). now rewrite Q. }
  destruct (whole_conversion est (with_rep source (RInt b)) (with_rep target (RInt b)) b m1 m2 1 r S1 S2 Ref eq_refl eq_refl Ub I F1 Ey) as (k & -> & K).
  unfold same_value in K. assert (K' : (m1 == inject_Z k * m2)%Q) by (rewrite <- K; unfold inject_Z; ring).
  exists k. split; [reflexivity|]. split; [exact K'|]. intros n q In Ink Q. step Q as v Ev. inversion Q; subst q. clear Q.
  assert (Fn : value_fits (RInt b) (inject_Z n * m1 / m2)).
  { exists b. split; [reflexivity|]. assert (E : (inject_Z n * m1 / m2 == inject_Z (n * k))%Q) by (rewrite K', inject_Z_mult; field; exact N2).
    rewrite E. apply in_range_spec in Ink. rewrite <- !Zle_Qle. exact Ink. }
  destruct (whole_conversion est (with_rep source (RInt b)) (with_rep target (RInt b)) b m1 m2 n v S1 S2 Ref eq_refl eq_refl Ub In Fn Ev) as (z & -> & Z).
  unfold same_value in Z. rewrite K', Qmult_assoc, <- inject_Z_mult in Z. apply Qmult_inj_r in Z; [|exact N2]. now rewrite inject_Z_injective in Z; subst z.
Qed.
Print Assumptions C104_whole.

(** The line the example prints is true of every double and of any two units one of which is a
    thousand of the other: "lengthB.number == lengthA.number * conversion_factor", with the factor
    1000; and the quotient of the lengths has the quotient of the numbers. *)
Theorem C104_main : forall est w metres millimetres m1 m2 a r, q_rep metres = RFlt F64 -> q_rep millimetres = RFlt F64 ->
  sized est metres m1 -> sized est millimetres m2 -> references_ok metres millimetres -> (m1 == inject_Z 1000 * m2)%Q ->
  factor_costs est F64 metres millimetres 0 -> num_ok (RFlt F64) (NFlt a) = true -> factor_main est w metres millimetres (NFlt a) = Ok r ->
  exists k, is_number F64 k /\ fval k = 1000 /\
    let b := SFmul (fprec F64) (femax F64) a k in r = (NFlt a, NFlt b, NFlt (SFdiv (fprec F64) (femax F64) a b), NFlt k).
Proof.
  intros est w metres millimetres m1 m2 a r R1 R2 S1 S2 Ref E K V H. cbn [num_ok] in V. unfold factor_main in H.
  assert (Q : q_make metres (RFlt F64) (NFlt a) = Ok (Quantity metres (NFlt a))).
  { unfold q_make. rewrite R1. cbn [safe_convertible floating orb constrained bind n_convert]. now rewrite conv_same. }
  rewrite Q in H. cbn [bind] in H. clear Q. step H as lb Elb. step H as quo Eq. step H as kk Ek. inversion H. clear H.
  assert (T1 : with_rep metres (RFlt F64) = metres) by (rewrite <- R1; now destruct metres).
  assert (T2 : with_rep millimetres (RFlt F64) = millimetres) by (rewrite <- R2; now destruct millimetres).
  assert (Tb : q_type lb = millimetres) by (unfold q_to in Elb; step Elb as n En; now inversion Elb).
  rewrite Tb in Ek. cbn [q_type] in Ek. assert (Cr : common_rep (q_rep millimetres) (q_rep metres) = RFlt F64) by (rewrite R1, R2; reflexivity).
  destruct (C104_multiplies est F64 _ _ _ Cr Ek) as (k & -> & M). specialize (M a V). rewrite T1, T2, Elb in M. injection M as ->.
  assert (De : dim_equivalent (q_dim metres) (q_dim millimetres) = true).
  { unfold conversion_factor in Ek. step Ek as u Eu. now apply constrained_ok in Eu. }
  destruct (factor_value est F64 _ _ m1 m2 0 Cr S1 S2 Ref De K) as (k' & Ek' & Nk & Fk). rewrite Ek in Ek'. inversion Ek'. subst k'.
  exists k. split; [exact Nk|]. split.
  - pose proof (size_pos _ _ _ S2) as P2. destruct Fk as (t & Et & A & B). cbn [pow] in A, B. rewrite Rinv_1 in A. assert (t = 1) by lra. subst t.
    rewrite Et, (Qeq_eqR _ _ E), Q2R_mult, Q2R_Z. field. lra.
  - cbv zeta. unfold q_over in Eq. cbv zeta in Eq. cbn [q_type q_num] in Eq. step Eq as rf Erf. rewrite R1, R2 in Eq. cbn [q_num].
    destruct (float_n_op F64 (RFlt F64) (NFlt (SFmul (fprec F64) (femax F64) a k)) a eq_refl V) with (o := OpDiv) as [(z & Z & F) _];
      [apply mul_valid; [exact V|apply Nk]|discriminate|].
    change (SFmul 53 1024 a k) with (SFmul (fprec F64) (femax F64) a k) in *. rewrite Z in Eq. cbn [bind] in Eq. injection Eq as <-. cbn [q_num].
    cbn [as_float] in F. rewrite conv_same in F by (apply mul_valid; [exact V|apply Nk]). cbn [float_op] in F. injection F as <-. reflexivity.
Qed.
Print Assumptions C104_main.

(** ** Cases *)

Definition millimetre := mk_sample_unit "millimetre" "mm" (Ratio 1 1 (-3)) "metre".

(** A factor is of the common type: 1000 for kilometres and metres, 60 for hours and minutes of
    doubles or of one double and one integer; there is no factor from minutes to hours of integers. *)
Example C104_ex_factors : forall est,
  conversion_factor est (flt dim_L metre F64) (flt dim_L kilometre F64) = Ok (NFlt (float_of_int F64 1000)) /\
  conversion_factor est (times minute I32) (flt dim_T hour F64) = Ok (NFlt (float_of_int F64 60)) /\
  conversion_factor est (times minute I64) (times hour I32) = Ok (NInt 60) /\
  conversion_factor est (times hour I64) (times minute I64) = IllFormed /\
  conversion_factor est (flt dim_L metre F64) (flt dim_T hour F64) = IllFormed.
Proof. intros est. repeat split; vm_compute; reflexivity. Qed.

Lemma kilo_costs : forall est, factor_costs est F64 (flt dim_L kilometre F64) (flt dim_L metre F64) 0.
Proof.
  intros est. exists (Ratio 1 1 3). split; [reflexivity|]. left. split; [|reflexivity]. exists 1000%Z. cbn [rnum rden rexp].
  split; [reflexivity|]. split; [lia|]. split; [vm_compute; discriminate|]. repeat split; apply holds_small; vm_compute; discriminate.
Qed.
Lemma milli_costs : forall est, factor_costs est F64 (flt dim_L metre F64) (flt dim_L kilometre F64) 7.
Proof.
  intros est. exists (Ratio 1 1 (-3)). split; [reflexivity|]. right. split; [|reflexivity]. unfold factor_in_range. cbn [rnum rden rexp].
  assert (P : powerRZ 10 (-3) = / 1000) by (cbn [powerRZ]; change (Pos.to_nat 3) with 3%nat; cbn [pow]; f_equal; ring). rewrite P. repeat split; apply mid_between; lra.
Qed.

(** The hypotheses of the inverse: 1000 and the double nearest to 0.001 multiply to 1 within seven
    roundings. *)
Example C104_ex_inverse : forall est x y,
  conversion_factor est (flt dim_L metre F64) (flt dim_L kilometre F64) = Ok (NFlt x) ->
  conversion_factor est (flt dim_L kilometre F64) (flt dim_L metre F64) = Ok (NFlt y) ->
  within F64 7 (fval x * fval y) 1.
Proof.
  intros est x y X Y. destruct good_units as (Gm & Gk & _).
  apply (C104_inverse est F64 (flt dim_L metre F64) (flt dim_L kilometre F64) (rval (u_ratio kilometre)) (rval (u_ratio metre)) 0 7 x y); auto.
  - now apply flt_sized_length.
  - now apply flt_sized_length.
  - now apply references_ok_refl.
  - apply kilo_costs.
  - apply milli_costs.
  - vm_compute. discriminate.
Qed.

(** Those of the chain: kilometres to metres to millimetres. *)
Example C104_ex_chain : forall est x y,
  conversion_factor est (flt dim_L metre F64) (flt dim_L kilometre F64) = Ok (NFlt x) ->
  conversion_factor est (flt dim_L millimetre F64) (flt dim_L metre F64) = Ok (NFlt y) ->
  exists z, conversion_factor est (flt dim_L millimetre F64) (flt dim_L kilometre F64) = Ok (NFlt z) /\ fval x * fval y = fval z.
Proof.
  intros est x y X Y. destruct good_units as (Gm & Gk & _). exists (float_of_int F64 1000000). split; [vm_compute; reflexivity|].
  assert (Gmm : unit_good millimetre) by (repeat split; vm_compute; congruence).
  assert (W : within F64 (0 + 0 + 0) (fval x * fval y) (fval (float_of_int F64 1000000))).
  { apply (C104_chain est F64 (flt dim_L kilometre F64) (flt dim_L metre F64) (flt dim_L millimetre F64)
      (rval (u_ratio kilometre)) (rval (u_ratio metre)) (rval (u_ratio millimetre)) 0 0 0 x y); auto; try reflexivity;
      try (now apply flt_sized_length); try (now apply references_ok_refl).
    - apply kilo_costs.
    - exists (Ratio 1 1 3). split; [reflexivity|]. left. split; [|reflexivity]. exists 1000%Z. cbn [rnum rden rexp].
      split; [reflexivity|]. split; [lia|]. split; [vm_compute; discriminate|]. repeat split; apply holds_small; vm_compute; discriminate.
    - exists (Ratio 1 1 6). split; [reflexivity|]. left. split; [|reflexivity]. exists 1000000%Z. cbn [rnum rden rexp].
      split; [reflexivity|]. split; [lia|]. split; [vm_compute; discriminate|]. repeat split; apply holds_small; vm_compute; discriminate.
    - vm_compute. discriminate. }
  unfold within, gamma in W. cbn [Nat.add INR] in W. rewrite Rmult_0_l in W. unfold Rdiv in W. rewrite !Rmult_0_l in W.
  apply Rminus_diag_uniq. destruct (Req_dec (fval x * fval y - fval (float_of_int F64 1000000)) 0) as [Z|Z]; [exact Z|].
  apply Rabs_pos_lt in Z. lra.
Qed.

(** Whole factors: the hypotheses for hours and minutes. *)
Example C104_ex_whole : forall est n q, in_range I64 n = true -> in_range I64 (n * 60) = true ->
  q_to est (times minute I64) (Quantity (times hour I64) (NInt n)) = Ok q -> q = Quantity (times minute I64) (NInt (n * 60)).
Proof.
  intros est n q I J H. destruct good_units as (_ & _ & _ & _ & Gm & Gh & _).
  destruct (C104_whole est (times minute I64) (times hour I64) I64 (rval (u_ratio hour)) (rval (u_ratio minute)) (NInt 60)) as (k & E & _ & M); auto.
  - discriminate.
  - now apply sized_time.
  - now apply sized_time.
  - now apply references_ok_refl.
  - exists I64. split; [reflexivity|]. split; vm_compute; discriminate.
  - injection E as <-. now apply M.
Qed.

(** The example itself: 2 m are 2000 mm. *)
Example C104_ex_main : forall est, exists w, si_world = Ok w /\
  factor_main est w (flt dim_L metre F64) (flt dim_L millimetre F64) (NFlt (float_of_int F64 2)) =
    Ok (NFlt (float_of_int F64 2), NFlt (float_of_int F64 2000), NFlt (SFdiv 53 1024 (float_of_int F64 2) (float_of_int F64 2000)), NFlt (float_of_int F64 1000)).
Proof.
  intros est. destruct si_world_reachable as (w & W & _). exists w. split; [exact W|]. vm_compute in W. injection W as <-. vm_compute. reflexivity.
Qed.
