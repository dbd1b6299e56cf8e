(** Further theorems about casts that name a part of the target (C17), plain numbers beside
    quantities (C25), the operands of the remainder (C31), the bounds of floating-point
    quantities (C33) and the constituents of derived units (C45, C58). *)

From Coq Require Import ZArith Reals QArith String List Bool Lia Lra SpecFloat.
From Flocq Require Import Core BinarySingleNaN.
From Verif Require Import Outcome CInt Root Ratio SpecRatio FixedString TextTools DerivedSymbol Unit Downcast Dim DimOp DerivedUnit
  UnitDecl Equivalent SpecDim SpecUnit SpecText Rep QuantityCast CommonQuantity Quantity SpecQuantity IntProofs EquivProofs DimOpProofs
  MagnitudeProofs CastProofs QuantityProofs QuantityProofs3 RatioProofs UnitProofs SpecReal FloatProofs MathProofs Samples Props_Quantity Props_Text.
Import ListNotations.
Local Open Scope string_scope.
Local Open Scope list_scope.
Local Open Scope Z_scope.
Local Open Scope res_scope.

(** * C17: casts that name a part of the target *)

(** [quantity_cast<Unit>], [quantity_cast<Dimension, Unit>] and [quantity_cast<Rep>] keep the
    other parts of the type, and give the number of the cast to that type. *)
Theorem C17_parts : forall est from n,
  (forall u t r, quantity_cast_unit est u from n = Ok (t, r) ->
     t = QType (q_dim from) u (q_rep from) /\ u_ref u = u_ref (dimension_unit (q_dim from)) /\
     quantity_cast est from t n = Ok r) /\
  (forall d u t r, quantity_cast_dim_unit est d u from n = Ok (t, r) ->
     t = QType d u (q_rep from) /\ u_ref u = u_ref (dimension_unit d) /\ quantity_cast est from t n = Ok r) /\
  (forall p t r, quantity_cast_rep est p from n = Ok (t, r) ->
     t = QType (q_dim from) (q_unit from) p /\ quantity_cast est from t n = Ok r).
Proof.
  intros est from n. split; [|split].
  - intros u t r H. unfold quantity_cast_unit in H. step H as x X. step H as y Y. inversion H; subst x y.
    unfold mk_qtype in X. step X as z Z0. inversion X; subst t. apply constrained_ok, String.eqb_eq in Z0. auto.
  - intros d u t r H. unfold quantity_cast_dim_unit in H. step H as x X. step H as y Y. inversion H; subst x y.
    unfold mk_qtype in X. step X as z Z0. inversion X; subst t. apply constrained_ok, String.eqb_eq in Z0. auto.
  - intros p t r H. unfold quantity_cast_rep in H. cbv zeta in H. step H as y Y. inversion H; subst t y. auto.
Qed.
Print Assumptions C17_parts.

(** [quantity_cast<Dimension>] keeps the ratio of the unit, so that between dimensions with
    one reference the unit is as large as before and the number stays the same (if the
    conversion factor is defined); otherwise the number follows the unit. *)
Theorem C17_dimension : forall est w d from n t r, consistent w -> quantity_cast_dim est w d from n = Ok (t, r) ->
  q_dim t = d /\ q_rep t = q_rep from /\ u_ratio (q_unit t) = u_ratio (q_unit from) /\
  u_ref (q_unit t) = u_ref (dimension_unit d) /\ quantity_cast est from t n = Ok r.
Proof.
  intros est w d from n t r C H. unfold quantity_cast_dim in H. step H as x X. step H as u U. step H as y Y. step H as z Z0.
  inversion H; subst y z. destruct (downcast_unit_ratio _ _ _ _ C U) as (R & O & _).
  unfold mk_qtype in Y. step Y as a A. inversion Y; subst t. cbn [q_dim q_unit q_rep].
  apply String.eqb_eq in O. auto.
Qed.
Print Assumptions C17_dimension.
Theorem C17_dimension_number : forall est w d from a n m t m' r, consistent w -> a <> U64 ->
  sized est from m -> q_rep from = RInt a -> in_range a n = true ->
  u_ref (q_unit from) = u_ref (dimension_unit d) -> references_ok from t ->
  quantity_cast_dim est w d from (NInt n) = Ok (t, r) -> sized est t m' ->
  (m' == m)%Q /\ r = NInt n.
Proof.
  intros est w d from a n m t m' r C U S R I E Ro H S'. destruct (C17_dimension _ _ _ _ _ _ _ C H) as (D & Rt & Ra & Rf & Q).
  rewrite R in Rt.
  assert (M : (m' == m)%Q).
  { destruct S as (_ & _ & _ & (b & B & V)), S' as (_ & _ & _ & (b' & B' & V')). rewrite Ra in V'.
    assert (X := Ro (eq_trans E (eq_sym Rf)) b b' B B'). rewrite V, V'. unfold Qdiv in *.
    setoid_replace (b * (rval (u_ratio (q_unit from)) * / rval (u_ratio (dimension_unit (q_dim from)))))%Q
      with (b * / rval (u_ratio (dimension_unit (q_dim from))) * rval (u_ratio (q_unit from)))%Q by ring.
    rewrite X. ring. }
  split; [exact M|].
  destruct (C17_every_defined_result est from t a a m m' S S' Ro R Rt U U n _ I Q) as (z & Ez & T).
  subst r. pose proof (sized_pos _ _ _ S) as P.
  assert (Ev : (inject_Z n * m / m' == inject_Z n)%Q) by (rewrite M; field; intros Z0; rewrite Z0 in P; exact (Qlt_irrefl _ P)).
  apply (trunc_ext _ _ _ Ev) in T. assert (z = n) as -> by (eapply trunc_unique; [exact T|apply trunc_int; reflexivity]).
  now rewrite wrap_id.
Qed.
Print Assumptions C17_dimension_number.
(** 90 min of time as whole hours; 3 km to the cgs length are 300000 of its unit; 5 km of a
    second length dimension with the same reference keep the 5. *)
Definition my_length : bdim := BDim "my_length" "L" metre.
Example C17_parts_ex : forall est,
  quantity_cast_unit est hour (times minute I64) (NInt 90) = Ok (times hour I64, NInt 1) /\
  quantity_cast_rep est (RInt I16) (times minute I64) (NInt 65626) = Ok (times minute I16, NInt 90) /\
  quantity_cast_dim est empty_world (DBase my_length) (lengths kilometre I64) (NInt 5) =
    Ok (QType (DBase my_length) (CUnit None [] (Ratio 1 1 3) "metre" false None "no_prefix") (RInt I64), NInt 5) /\
  references_ok (lengths kilometre I64)
    (QType (DBase my_length) (CUnit None [] (Ratio 1 1 3) "metre" false None "no_prefix") (RInt I64)).
Proof.
  intros est. split; [vm_compute; reflexivity|]. split; [vm_compute; reflexivity|]. split; [vm_compute; reflexivity|].
  intros _ b1 b2 (_ & P1 & V1) (_ & P2 & V2).
  assert (X : (b1 ^ 2 == b2 ^ 2)%Q) by (rewrite V1, V2; vm_compute; reflexivity).
  assert (Y : (b1 == b2)%Q) by (apply Qpower_sq_inj; auto). rewrite Y. reflexivity.
Qed.

(** * C25: plain numbers *)

(** A number can be added to or subtracted from a quantity (on either side) only if its unit
    is [one]; the result is the plain sum or difference, a dimensionless quantity. *)
Theorem C25_plain_number : forall o sw q r v s, q_addsub_value o sw q r v = Ok s ->
  q_unit (q_type q) = unit_one /\ q_dim (q_type s) = dim_one /\ q_unit (q_type s) = unit_one /\
  q_rep (q_type s) = arith_rep (q_rep (q_type q)) r /\
  (if sw then n_op o r (q_rep (q_type q)) v (q_num q) else n_op o (q_rep (q_type q)) r (q_num q) v) = Ok (q_num s).
Proof.
  intros o sw q r v s H. unfold q_addsub_value in H. cbv zeta in H. step H as x X. step H as y Y. inversion H; subst s.
  cbn [q_type q_dim q_unit q_rep q_num]. apply constrained_ok, andb_true_iff in X as [X _]. unfold is_unit_one in X.
  destruct (cunit_eq_dec (q_unit (q_type q)) unit_one); [|discriminate]. auto.
Qed.
Print Assumptions C25_plain_number.
Theorem C25_plain_number_only_one : forall o sw q r v, q_unit (q_type q) <> unit_one -> q_addsub_value o sw q r v = IllFormed.
Proof.
  intros o sw q r v H. unfold q_addsub_value. cbv zeta. unfold is_unit_one.
  destruct (cunit_eq_dec (q_unit (q_type q)) unit_one); [contradiction|reflexivity].
Qed.
Print Assumptions C25_plain_number_only_one.
Example C25_plain_number_ex :
  q_addsub_value OpSub true (Quantity (QType dim_one unit_one (RInt I32)) (NInt 4)) (RInt I64) (NInt 10) =
    Ok (Quantity (QType dim_one unit_one (RInt I64)) (NInt 6)) /\
  q_unit (lengths metre I64) <> unit_one.
Proof. split; [vm_compute; reflexivity|discriminate]. Qed.

(** * C31: the operands of the remainder *)

(** A remainder exists only for integral representations, and for a divisor of the same
    dimension, or a dimensionless one. *)
Theorem C31_operands : forall a b s, q_rem a b = Ok s ->
  (exists i j, q_rep (q_type a) = RInt i /\ q_rep (q_type b) = RInt j) /\
  ((forall c r, (class_expo (exponents (q_dim (q_type a))) c r == class_expo (exponents (q_dim (q_type b))) c r)%Q) \/
   (forall c r, (class_expo (exponents (q_dim (q_type b))) c r == 0)%Q)).
Proof.
  intros a b s H. unfold q_rem in H. cbv zeta in H. step H as x X. apply constrained_ok in X.
  apply andb_true_iff in X as [X1 X2]. apply andb_true_iff in X1 as [Fa Fb]. split.
  - destruct (q_rep (q_type a)) as [i|]; [|discriminate]. destruct (q_rep (q_type b)) as [j|]; [|discriminate]. eauto.
  - apply orb_true_iff in X2 as [X2|X2]; apply dim_equivalent_shape in X2 as [_ X2]; [left|right]; intros c r;
      rewrite (exps_equivalent_class _ _ X2); reflexivity.
Qed.
Print Assumptions C31_operands.
Example C31_operands_ex :
  q_rem (Quantity (lengths metre I64) (NInt 7)) (Quantity (times second I64) (NInt 4)) = IllFormed /\
  q_rem (Quantity (lengths metre I64) (NInt 7)) (Quantity (QType dim_one unit_one (RInt I64)) (NInt 4)) =
    Ok (Quantity (lengths metre I64) (NInt 3)).
Proof. vm_compute. auto. Qed.

(** * C33: floating-point bounds *)

Local Open Scope R_scope.
Lemma float_max_B : forall f, exists b : binary_float (fprec f) (femax f), B2SF b = float_max f /\ is_finite b = true /\
  B2R b = bpow radix2 (femax f) - bpow radix2 (femax f - fprec f).
Proof.
  intros f. assert (V : valid_binary (fprec f) (femax f) (float_max f) = true) by (destruct f; vm_compute; reflexivity).
  exists (SF2B (float_max f) V). rewrite B2SF_SF2B, B2R_SF2B, is_finite_SF2B. split; auto. split; auto.
  unfold float_max. cbn [SF2R]. unfold F2R. cbn [Fnum Fexp cond_Zopp].
  assert (P : (0 < fprec f)%Z) by (destruct f; vm_compute; reflexivity).
  rewrite Z2Pos.id by (destruct f; vm_compute; reflexivity). rewrite minus_IZR. change (2 ^ fprec f)%Z with (Zpower radix2 (fprec f)). rewrite IZR_Zpower by lia.
  rewrite Rmult_minus_distr_r, <- bpow_plus, Rmult_1_l. do 2 f_equal. lia.
Qed.
(** Every finite number of a floating-point quantity lies between [min()], the lowest number
    of the type, and [max()]; [zero()] and [one()] are what they say. *)
Theorem C33_floating_bounds : forall est w t f x, q_rep t = RFlt f -> is_number f x ->
  exists c d, q_compare est w (q_min t) (Quantity t (NFlt x)) = Ok (Some c) /\ c <> Gt /\
    q_compare est w (Quantity t (NFlt x)) (q_max t) = Ok (Some d) /\ d <> Gt.
Proof.
  intros est w t f x R N. destruct (number_B f x N) as (b & Eb & Vb & Fb). destruct (float_max_B f) as (m & Em & Fm & Vm).
  pose proof (abs_B2R_le_emax_minus_prec (fprec f) (femax f) (fprec_pos f) b) as A. rewrite <- Vm in A.
  unfold q_compare, q_common, q_min, q_max. cbn [q_type q_num]. destruct (qtype_eq_dec t t) as [_|X]; [|now elim X].
  cbn [bind fst snd]. unfold rep_min, rep_max. rewrite R. cbn [n_compare]. rewrite <- Em, <- Eb.
  assert (O : SFopp (B2SF m) = B2SF (Bopp m)) by (destruct m; reflexivity). rewrite O.
  change (SFcompare (B2SF (Bopp m)) (B2SF b)) with (Bcompare (Bopp m) b).
  change (SFcompare (B2SF b) (B2SF m)) with (Bcompare b m).
  assert (Fo : is_finite (Bopp m) = true) by (now rewrite is_finite_Bopp).
  rewrite (Bcompare_correct _ _ (Bopp m) b Fo Fb), (Bcompare_correct _ _ b m Fb Fm). rewrite B2R_Bopp.
  apply Rabs_le_inv in A. eexists. eexists. split; [reflexivity|]. split; [|split; [reflexivity|]].
  - intros G. apply Rcompare_Gt_inv in G. lra.
  - intros G. apply Rcompare_Gt_inv in G. lra.
Qed.
Print Assumptions C33_floating_bounds.
Theorem C33_floating_constants : forall t f, q_rep t = RFlt f ->
  nval (q_num (q_zero t)) = 0 /\ nval (q_num (q_one t)) = 1 /\
  is_value (q_rep t) (q_num (q_min t)) /\ is_value (q_rep t) (q_num (q_max t)) /\
  nval (q_num (q_min t)) = - nval (q_num (q_max t)).
Proof.
  intros t f R. unfold q_zero, q_one, q_min, q_max. cbn [q_num]. rewrite R. cbn [rep_zero rep_one rep_min rep_max nval is_value].
  split; [reflexivity|]. split; [|split; [|split]].
  - apply (of_int_exact f 1). destruct f; vm_compute; discriminate.
  - split; destruct f; vm_compute; reflexivity.
  - split; destruct f; vm_compute; reflexivity.
  - unfold fval, float_max. cbn [SFopp SF2R negb]. unfold F2R. cbn [Fnum Fexp cond_Zopp]. rewrite opp_IZR. ring.
Qed.
Print Assumptions C33_floating_constants.
Example C33_floating_ex : forall est,
  is_number F64 (S754_finite true 1 (-1074)) /\
  q_compare est empty_world (q_min (QType (DBase dim_L) metre (RFlt F64)))
    (Quantity (QType (DBase dim_L) metre (RFlt F64)) (NFlt (S754_finite true 1 (-1074)))) = Ok (Some Lt).
Proof. intros est. split; [split|]; vm_compute; reflexivity. Qed.
Local Open Scope Z_scope.

(** * C45, C58: the constituents of derived units *)

(** A derived unit is declared with one unit per exponent of the recipe, each a unit of the
    dimension it stands for; to deduce the symbol, each must be named. *)
Theorem C45_constituents : forall est child d us u,
  (mk_derived_unit est child d us = Ok u -> Forall (fun v => u_named v = true) us) /\
  (mk_derived_unit est child d us = Ok u \/ (exists sym pf, mk_named_derived_unit est child d sym pf us = Ok u) ->
   Forall2 (fun x v => u_ref v = u_ref (dimension_unit (fst x))) (recipe_of d) us).
Proof.
  intros est child d us u.
  assert (G : forall rec us, same_scaled_units rec us = true ->
    Forall2 (fun x v => u_ref v = u_ref (dimension_unit (fst x))) rec us).
  { induction rec as [|[x e] rec IH]; intros [|v l] H; try discriminate; constructor.
    - apply andb_true_iff in H as [H _]. now apply String.eqb_eq in H.
    - apply IH. now apply andb_true_iff in H as [_ H]. }
  split.
  - intros H. unfold mk_derived_unit in H. step H as x X. apply constrained_ok, andb_true_iff in X as [_ X].
    apply Forall_forall. exact (proj1 (forallb_forall _ _) X).
  - intros [H|(sym & pf & H)].
    + unfold mk_derived_unit in H. step H as x X. apply constrained_ok, andb_true_iff in X as [X _]. now apply G.
    + unfold mk_named_derived_unit in H. step H as x X. apply constrained_ok in X. now apply G.
Qed.
Print Assumptions C45_constituents.
Example C45_constituents_ex : forall est,
  mk_derived_unit est "x" dim_speed [hour; kilometre] = IllFormed /\ mk_derived_unit est "x" dim_speed [kilometre] = IllFormed /\
  mk_named_derived_unit est "x" dim_speed (st_of_ascii "x") "no_prefix" [hour; kilometre] = IllFormed.
Proof. intros est. vm_compute. auto. Qed.

(** The deduced symbol, read back, gives the symbols of the units with the exponents of the
    recipe, in this order. *)
Theorem C58_declared_unit : forall est child d us u (l : list constituent), mk_derived_unit est child d us = Ok u ->
  map fst l = map snd (recipe_of d) -> map (fun c => Some (snd c)) l = map u_symbol us ->
  l <> [] -> Forall writable l -> (forall c, In c l -> snd (fst c) = 1) ->
  exists t, u_symbol u = Some t /\
    read_symbol (st_standard t) = Some (map (fun c => (st_standard (snd c), fst c)) l) /\
    read_symbol (st_ascii t) = Some (map (fun c => (st_ascii (snd c), fst c)) l).
Proof.
  intros est child d us u l H M S Ne W O. unfold mk_derived_unit in H. step H as x X. step H as b B. step H as ss Ss. step H as t T.
  inversion H; subst u. cbn [u_symbol].
  assert (Y : ss = map snd l).
  { clear - Ss S. revert ss l Ss S. induction us as [|v us IH]; intros ss l Ss S; destruct l as [|c l]; try discriminate.
    - now inversion Ss.
    - cbn [symbols_of map] in *. inversion S as [[S1 S2]]. rewrite <- S1 in Ss. step Ss as r R. inversion Ss; subst ss.
      f_equal. exact (IH _ _ R S2). }
  assert (Z0 : combine (map snd (recipe_of d)) ss = l).
  { rewrite Y, <- M. clear. induction l as [|[a s] l IH]; [reflexivity|]. cbn. now rewrite IH. }
  rewrite Z0 in T. destruct (C58_reads_back l Ne W) as (t' & T' & Rs & Ra). rewrite T in T'. inversion T'; subst t'.
  exists t. split; [reflexivity|]. split; [apply Rs|apply Ra]; right; intros c I; apply O; apply filter_In in I; apply I.
Qed.
Print Assumptions C58_declared_unit.
Example C58_declared_ex : forall est, exists u,
  mk_derived_unit est "kilometre_per_hour" dim_speed [kilometre; hour] = Ok u /\
  map fst [((1, 1), st_of_ascii "km"); ((-1, 1), st_of_ascii "h")] = map snd (recipe_of dim_speed) /\
  map (fun c : constituent => Some (snd c)) [((1, 1), st_of_ascii "km"); ((-1, 1), st_of_ascii "h")] = map u_symbol [kilometre; hour] /\
  Forall writable [((1, 1), st_of_ascii "km"); ((-1, 1), st_of_ascii "h")].
Proof.
  intros est. eexists. split; [vm_compute; reflexivity|]. split; [reflexivity|]. split; [reflexivity|].
  repeat constructor; cbn; try discriminate.
Qed.

(** * C31: the remainder by a number *)

(** Floating-point numbers have no remainder, on neither side; with integers it is the remainder
    of the numbers, in the unit of the quantity, and undefined for a divisor of zero. *)
Theorem C31_remainder_by_number : forall q r v,
  (floating (q_rep (q_type q)) = true \/ floating r = true -> q_rem_value q r v = IllFormed) /\
  (forall i z iq n s, r = RInt i -> v = NInt z -> in_range i z = true -> integral q iq n -> operands_fit iq i n z ->
     isigned (arith_conv iq i) = true \/ in_range (arith_conv iq i) (Z.rem n z) = true -> q_rem_value q r v = Ok s ->
     z <> 0 /\ q_type s = QType (q_dim (q_type q)) (q_unit (q_type q)) (RInt (arith_conv iq i)) /\ q_num s = NInt (Z.rem n z)).
Proof.
  intros q r v. split.
  - intros H. unfold q_rem_value. destruct H as [H|H]; rewrite H; [reflexivity|]. cbn [negb]. now rewrite andb_false_r.
  - intros i z iq n s -> -> Rz I OF F H. unfold q_rem_value in H. step H as u0 K.
    destruct (q_scale_values OpRem false q i z iq n s Rz I OF F H) as ((Rs & Ns & _) & D & U & Z0).
    split; [exact (Z0 eq_refl)|]. split; [|exact Ns]. destruct (q_type s) as [d u r']. cbn in *. congruence.
Qed.
Print Assumptions C31_remainder_by_number.
Example C31_number_ex :
  q_rem_value (Quantity (lengths metre I32) (NInt (-17))) (RInt I64) (NInt 5) = Ok (Quantity (lengths metre I64) (NInt (-2))) /\
  q_rem_value (Quantity (lengths metre I32) (NInt 17)) (RInt I64) (NInt 0) = Undef.
Proof. vm_compute. auto. Qed.
