(** Central values and uncertainties of expressions of measurements. *)

From Coq Require Import ZArith QArith Qpower Qreals Reals Bool Lia Lra SpecFloat String List.
From Flocq Require Import Core BinarySingleNaN.
From Verif Require Import Outcome CInt Root Ratio SpecRatio RatioMaths RatioProofs2 Unit Downcast Dim DimOp Equivalent SpecDim SpecUnit Rep Reference QuantityCast CommonQuantity Quantity
  SpecQuantity DimProofs DimOpProofs DimOpProofs2 DimOpProofs3 EquivProofs MagnitudeProofs CastProofs QuantityProofs QuantityProofs2 QuantityProofs3 QuantityProofs4
  SpecReal FloatProofs FloatCastProofs FloatAddProofs FloatMathProofs SpecOrder FloatOrderProofs
  Point Expr SpecExpr ExprProofs ExprProofs2 ExprProofs3 ErrorProofs SpecRounding RoundingProofs Custom SpecCustom CustomProofs CustomProofs2 Measure SpecMeasure.
Local Open Scope R_scope.
Local Open Scope res_scope.

(** ** Central values *)

Section Central.
Variable hyp : fty -> number -> number -> res spec_float.
Variable est : estimate.
Variable w : world.
Variable f : fty.
Local Notation cl := (measurement_class hyp).
Local Notation ob := (measurement_observation hyp).

Definition seen (c : cquantity (measurement_class hyp)) (r : res quantity) : Prop :=
  r = Ok (Quantity (cq_type c) (fst (cq_val c))) /\ q_rep (cq_type c) = RFlt f /\ num_ok (RFlt f) (fst (cq_val c)) = true.

Lemma same_types : meas_types (RFlt f) (RFlt f).
Proof. split; [now destruct f|reflexivity]. Qed.
Lemma same_casts : cast_types cl meas_types (RFlt f) (RFlt f).
Proof. unfold cast_types. cbn [measurement_class rc_mixes]. destruct f; cbn; repeat split; reflexivity. Qed.
Lemma signs : forall x, sign_kept cl (RFlt f) (RFlt f) x.
Proof. intros x. right. left. now destruct f. Qed.
Lemma product_sim : forall a b c r s, seen a r -> seen b s -> class_product cl w a b = Ok c -> seen c (x <- r; y <- s; q_times w x y).
Proof.
  intros a b c r s (-> & Ra & Na) (-> & Rb & Nb) H. cbn [bind]. unfold class_product in H. unfold q_times. cbn [q_type q_num]. cbv zeta in *. step H as rf E. rewrite E. cbn [bind].
  rewrite Ra, Rb in *. step H as v V. destruct (ob_op _ _ _ ob OpMul (RFlt f) (RFlt f) (cq_val a) (cq_val b) (fst (cq_val a)) (fst (cq_val b)) v same_types (conj eq_refl Na) (conj eq_refl Nb) V) as (z & Z & Oz).
  rewrite Z. cbn [bind]. inversion H; subst c. cbn [cq_type cq_val q_rep]. destruct Oz as [<- Nz]. unfold seen. cbn [cq_type cq_val q_rep rc_result measurement_class].
  rewrite same_float in *. auto.
Qed.
Lemma quotient_sim : forall a b c r s, seen a r -> seen b s -> class_quotient cl w a b = Ok c -> seen c (x <- r; y <- s; q_over w x y).
Proof.
  intros a b c r s (-> & Ra & Na) (-> & Rb & Nb) H. cbn [bind]. unfold class_quotient in H. unfold q_over. cbn [q_type q_num]. cbv zeta in *. step H as rf E. rewrite E. cbn [bind].
  rewrite Ra, Rb in *. step H as v V. destruct (ob_op _ _ _ ob OpDiv (RFlt f) (RFlt f) (cq_val a) (cq_val b) (fst (cq_val a)) (fst (cq_val b)) v same_types (conj eq_refl Na) (conj eq_refl Nb) V) as (z & Z & Oz).
  rewrite Z. cbn [bind]. inversion H; subst c. cbn [cq_type cq_val q_rep]. destruct Oz as [<- Nz]. unfold seen. cbn [cq_type cq_val q_rep rc_result measurement_class].
  rewrite same_float in *. auto.
Qed.
Lemma sum_sim : forall o a b c r s, seen a r -> seen b s -> class_addsub cl o est w a b = Ok c -> seen c (x <- r; y <- s; q_addsub o est w x y).
Proof.
  intros o a b c r s (-> & Ra & Na) (-> & Rb & Nb) H. cbn [bind].
  destruct (addsub_sim _ _ _ ob o est w a b (fst (cq_val a)) (fst (cq_val b)) c) as (z & Z & Oz); rewrite ?Ra, ?Rb, ?same_float; try apply same_types; try apply same_casts; try apply signs;
    try (now split); [exact H|]. destruct Oz as [<- Nz]. split; [exact Z|].
  assert (R : q_rep (cq_type c) = RFlt f).
  { unfold class_addsub in H. cbn [measurement_class rc_result] in H. rewrite Ra in H. step H as t T. step H as x X. step H as y Y. step H as z Z'. step H as z' Z''.
    inversion H; subst c. cbn [cq_type]. unfold common_quantity in T. step T as u U'. step T as du DU. unfold mk_qtype in T. step T as u' U''. now inversion T. }
  split; [exact R|]. now rewrite R in Nz.
Qed.
Lemma scale_seen : forall o a p v c r, (o = OpMul \/ o = OpDiv) -> arith_rep (RFlt f) p = RFlt f -> num_ok p v = true -> seen a r -> class_scale cl o a p v = Ok c ->
  seen c (x <- r; q_scale o false x p v).
Proof.
  intros o a p v c r Ho A V (-> & Ra & Na) H. cbn [bind].
  destruct (scale_sim _ _ _ ob o a p v (fst (cq_val a)) c) as (z & Z & Oz); rewrite ?Ra; try (now split); [exact V|exact H|]. destruct Oz as [<- Nz]. split; [exact Z|].
  assert (R : q_rep (cq_type c) = RFlt f) by (unfold class_scale in H; cbn [measurement_class rc_result] in H; step H as u U'; step H as x X; inversion H; subst c; exact Ra).
  split; [exact R|]. now rewrite R in Nz.
Qed.
Lemma scale_left_seen : forall a p v c r, arith_rep (RFlt f) p = RFlt f -> num_ok p v = true -> seen a r -> class_scale_left cl p v a = Ok c ->
  seen c (x <- r; q_scale OpMul true x p v).
Proof.
  intros a p v c r A V (-> & Ra & Na) H. cbn [bind].
  destruct (scale_left_sim _ _ _ ob a p v (fst (cq_val a)) c) as (z & Z & Oz); rewrite ?Ra; try (now split); [exact V|exact H|]. destruct Oz as [<- Nz]. split; [exact Z|].
  assert (R : q_rep (cq_type c) = RFlt f) by (unfold class_scale_left in H; cbn [measurement_class rc_result] in H; step H as u U'; step H as x X; inversion H; subst c; exact Ra).
  split; [exact R|]. now rewrite R in Nz.
Qed.
Lemma convert_seen : forall (a : cquantity cl) t v', q_rep (cq_type a) = RFlt f -> q_rep t = RFlt f -> num_ok (RFlt f) (fst (cq_val a)) = true ->
  class_convert cl est (cq_type a) t (cq_val a) = Ok v' -> q_convert est (cq_type a) t (fst (cq_val a)) = Ok (fst v') /\ num_ok (RFlt f) (fst v') = true.
Proof.
  intros a t v' Ra Rt Na H. destruct (convert_sim _ _ _ ob est (cq_type a) t (cq_val a) (fst (cq_val a)) v') as (y & Y & Oy); rewrite ?Ra, ?Rt; try apply same_casts; try apply signs; try (now split); [exact H|].
  destruct Oy as [<- Ny]. rewrite Rt in Ny. now split.
Qed.
Lemma cast_seen : forall c (a : cquantity cl) t v', cast_target w c (cq_type a) = Ok t -> q_rep (cq_type a) = RFlt f -> q_rep t = RFlt f -> num_ok (RFlt f) (fst (cq_val a)) = true ->
  class_quantity_cast cl est (cq_type a) t (cq_val a) = Ok v' ->
  q_cast est w c (Quantity (cq_type a) (fst (cq_val a))) = Ok (Quantity t (fst v')) /\ num_ok (RFlt f) (fst v') = true.
Proof.
  intros c a t v' T Ra Rt Na H. destruct (cast_sim _ _ _ ob est (cq_type a) t (cq_val a) (fst (cq_val a)) v') as (y & Y & Oy); rewrite ?Ra, ?Rt; try apply same_casts; try apply signs; try (now split); [exact H|].
  destruct Oy as [<- Ny]. rewrite Rt in Ny. split; [|exact Ny]. unfold q_cast. cbn [q_type q_num]. destruct c as [t0|d|u|r]; cbn [cast_target] in T.
  - inversion T; subst t0. now rewrite Y.
  - unfold quantity_cast_dim. step T as x X. rewrite X. cbn [bind]. step T as u Eu. rewrite Eu. cbn [bind]. rewrite T. cbn [bind]. rewrite Y. reflexivity.
  - unfold quantity_cast_unit. rewrite T. cbn [bind]. rewrite Y. reflexivity.
  - unfold quantity_cast_rep. inversion T; subst t. cbv zeta. rewrite Y. reflexivity.
Qed.
Lemma target_rep : forall c from t, cast_target w c from = Ok t -> q_rep from = RFlt f ->
  match c with ToQuantity t => q_rep t = RFlt f | ToRep r => r = RFlt f | _ => True end -> q_rep t = RFlt f.
Proof.
  intros [t0|d|u|r] from t T R O; cbn [cast_target] in T.
  - now inversion T; subst.
  - step T as x X. step T as u Eu. unfold mk_qtype in T. step T as y Y. now inversion T.
  - unfold mk_qtype in T. step T as y Y. now inversion T.
  - now inversion T; subst.
Qed.

Theorem central_value : forall e c, over f e -> meval hyp est w e = Ok c -> seen c (eval est w (centre e)).
Proof.
  induction e as [t x e|a IH|a IHa b IHb|a IHa b IHb|a IHa b IHb|a IHa b IHb|a IH r v|r v a IH|a IH r v|t a IH|cs a IH]; intros c O H; cbn [meval over] in *.
  - step H as v V. inversion H; subst c. destruct e; [discriminate|]. inversion V; subst v. destruct O as [R N]. split; [reflexivity|]. split; assumption.
  - step H as x X. specialize (IH x O X). destruct IH as (E & Ra & Na). cbn [centre eval]. rewrite E. cbn [bind].
    destruct (neg_sim _ _ _ ob x (fst (cq_val x)) c) as (z & Z & Oz); rewrite ?Ra; try apply same_types; [now split|exact H|]. destruct Oz as [<- Nz]. split; [exact Z|].
    assert (R : q_rep (cq_type c) = RFlt f) by (unfold class_neg in H; step H as v V; inversion H; subst c; cbn [cq_type with_rep q_rep]; now rewrite Ra).
    split; [exact R|]. now rewrite R in Nz.
  - destruct O as [Oa Ob]. step H as x X. step H as y Y. exact (sum_sim OpAdd x y c _ _ (IHa x Oa X) (IHb y Ob Y) H).
  - destruct O as [Oa Ob]. step H as x X. step H as y Y. exact (sum_sim OpSub x y c _ _ (IHa x Oa X) (IHb y Ob Y) H).
  - destruct O as [Oa Ob]. step H as x X. step H as y Y. exact (product_sim x y c _ _ (IHa x Oa X) (IHb y Ob Y) H).
  - destruct O as [Oa Ob]. step H as x X. step H as y Y. exact (quotient_sim x y c _ _ (IHa x Oa X) (IHb y Ob Y) H).
  - destruct O as (A & V & O). step H as x X. exact (scale_seen OpMul x r v c _ (or_introl eq_refl) A V (IH x O X) H).
  - destruct O as (A & V & O). step H as x X. exact (scale_left_seen x r v c _ A V (IH x O X) H).
  - destruct O as (A & V & O). step H as x X. exact (scale_seen OpDiv x r v c _ (or_intror eq_refl) A V (IH x O X) H).
  - destruct O as (R & O). step H as x X. destruct (IH x O X) as (E & Ra & Na). cbn [centre eval]. rewrite E. cbn [bind]. unfold class_to in H. step H as v V. inversion H; subst c.
    destruct (convert_seen x t v Ra R Na V) as [Y N]. unfold q_to. cbn [q_type q_num]. rewrite Y. cbn [bind]. split; [reflexivity|]. now split.
  - destruct O as (R & O). step H as x X. destruct (IH x O X) as (E & Ra & Na). cbn [centre eval]. rewrite E. cbn [bind]. unfold class_cast in H. step H as t T. step H as v V. inversion H; subst c.
    pose proof (target_rep cs _ t T Ra R) as Rt. destruct (cast_seen cs x t v T Ra Rt Na V) as [Y N]. rewrite Y. split; [reflexivity|]. now split.
Qed.
End Central.

(** ** Uncertainties are not negative *)

Section Sign.
Variable hyp : fty -> number -> number -> res spec_float.
Local Notation cl := (measurement_class hyp).
Definition no_sign (v : number * number) : Prop := exists x, snd v = NFlt x /\ unsigned x.

Lemma abs_unsigned : forall x, unsigned (SFabs x).
Proof. now intros []. Qed.
Lemma scale_no_sign : forall o a v k v', meas_scale o a v k = Ok v' -> no_sign v'.
Proof.
  intros o a v k v' H. unfold meas_scale in H. destruct a as [t|f]; [discriminate|]. step H as k' K. step H as x X. step H as r R. step H as e E.
  destruct e as [|e]; [discriminate|]. inversion H; subst v'. exists (SFabs e). split; [reflexivity|apply abs_unsigned].
Qed.
Lemma op_no_sign : forall o a b v w v', meas_op hyp o a b v w = Ok v' -> no_sign v'.
Proof.
  intros o a b v w v' H. unfold meas_op in H. destruct a as [t|f]; [discriminate|]. destruct (rep_eq_dec (RFlt f) b) as [<-|]; [|discriminate].
  destruct o; try discriminate.
  1-2: step H as x X; step H as e E; inversion H; subst v'; exists (SFabs e); split; [reflexivity|apply abs_unsigned].
  1-2: step H as x X; step H as r R; step H as s S; step H as h Hh; step H as e E; destruct e as [|e]; [discriminate|]; inversion H; subst v';
    exists (SFabs e); split; [reflexivity|apply abs_unsigned].
Qed.
Lemma kept : forall a b (v v' : number * number), rc_convert cl a b v = Ok v' -> v' = v.
Proof. intros a b v v' H. cbn [measurement_class rc_convert] in H. destruct (rep_eq_dec a b); [now inversion H|discriminate]. Qed.
Lemma cast_no_sign : forall est from to v v', class_quantity_cast cl est from to v = Ok v' -> no_sign v'.
Proof.
  intros est from to v v' H. unfold class_quantity_cast in H. step H as u Hu. step H as c C. unfold class_cast_number in H. change (rc_mixes cl) with false in H. cbv iota in H.
  unfold class_cast_scaled in H. cbv zeta in H. cbn [measurement_class rc_scale] in H.
  destruct (class_ratio_type (q_rep from) (q_rep to)) as [t|f].
  - step H as x X. step H as num N. step H as den D. destruct (0 <? rexp c)%Z.
    + step H as p P. step H as p' P'. step H as k K. step H as y Y. step H as z Z. apply kept in H. subst z. now apply scale_no_sign in Z.
    + step H as y Y. step H as e E. step H as p P. step H as p' P'. step H as k K. step H as z Z. apply kept in H. subst z. now apply scale_no_sign in Z.
  - step H as x X. step H as y Y. apply kept in H. subst y. now apply scale_no_sign in Y.
Qed.
Lemma convert_no_sign : forall est from to v v', no_sign v -> class_convert cl est from to v = Ok v' -> no_sign v'.
Proof.
  intros est from to v v' N H. unfold class_convert in H. destruct (qtype_eq_dec from to); [inversion H; now subst|]. step H as b B. step H as u Hu.
  now apply cast_no_sign in H.
Qed.
Theorem uncertainty_no_sign : forall est w e c, meval hyp est w e = Ok c -> no_sign (cq_val c).
Proof.
  intros est w. induction e as [t x e|a IH|a IHa b IHb|a IHa b IHb|a IHa b IHb|a IHa b IHb|a IH r v|r v a IH|a IH r v|t a IH|cs a IH]; intros c H; cbn [meval] in H.
  - step H as v V. inversion H; subst c. destruct e as [|e]; [discriminate|]. inversion V; subst v. exists (SFabs e). split; [reflexivity|apply abs_unsigned].
  - step H as x X. unfold class_neg in H. step H as v V. inversion H; subst c. cbn [cq_val measurement_class rc_neg] in *. step V as y Y. inversion V; subst v. exact (IH x X).
  - step H as x X. step H as y Y. unfold class_addsub in H. step H as t T. step H as p P. step H as q Q. step H as z Z. step H as z' Z'. inversion H; subst c.
    apply kept in Z'. subst z'. exact (op_no_sign _ _ _ _ _ _ Z).
  - step H as x X. step H as y Y. unfold class_addsub in H. step H as t T. step H as p P. step H as q Q. step H as z Z. step H as z' Z'. inversion H; subst c.
    apply kept in Z'. subst z'. exact (op_no_sign _ _ _ _ _ _ Z).
  - step H as x X. step H as y Y. unfold class_product in H. step H as t T. step H as z Z. inversion H; subst c. exact (op_no_sign _ _ _ _ _ _ Z).
  - step H as x X. step H as y Y. unfold class_quotient in H. step H as t T. step H as z Z. inversion H; subst c. exact (op_no_sign _ _ _ _ _ _ Z).
  - step H as x X. unfold class_scale in H. step H as u Hu. step H as z Z. inversion H; subst c. exact (scale_no_sign _ _ _ _ _ Z).
  - step H as x X. unfold class_scale_left in H. step H as u Hu. step H as z Z. inversion H; subst c. exact (scale_no_sign _ _ _ _ _ Z).
  - step H as x X. unfold class_scale in H. step H as u Hu. step H as z Z. inversion H; subst c. exact (scale_no_sign _ _ _ _ _ Z).
  - step H as x X. unfold class_to in H. step H as v V. inversion H; subst c. exact (convert_no_sign _ _ _ _ _ (IH x X) V).
  - step H as x X. unfold class_cast in H. step H as t T. step H as v V. inversion H; subst c. exact (cast_no_sign _ _ _ _ _ V).
Qed.
End Sign.

(** ** Roots of sums of squares *)

Lemma near_Rabs : forall f k x r, near f k x r -> near f k (Rabs x) (Rabs r).
Proof.
  intros f k x r (t & -> & A & B). exists t. split; [|now split]. rewrite Rabs_mult. f_equal. apply Rabs_right. pose proof (Rinv_0_lt_compat _ (grow_pos f k)). lra.
Qed.
Lemma near_sqrt : forall f k x r, 0 <= r -> near f (k + k) x r -> near f k (sqrt x) (sqrt r).
Proof.
  intros f k x r R (t & -> & A & B). set (g := (1 + roundoff f) ^ k) in *. assert (G : 0 < g) by apply grow_pos. rewrite pow_add in A, B. fold g in A, B.
  assert (T : 0 < t). { apply Rlt_le_trans with (2 := A). apply Rinv_0_lt_compat. nra. }
  exists (sqrt t). split; [apply sqrt_mult; lra|]. fold g. split.
  - replace (/ g) with (sqrt (/ (g * g))); [now apply sqrt_le_1_alt|]. rewrite sqrt_inv. rewrite sqrt_square; [reflexivity|lra].
  - rewrite <- (sqrt_square g) by lra. now apply sqrt_le_1_alt.
Qed.
Lemma near_squares : forall f k x y r s, near f k x r -> near f k y s -> near f (k + k) (x * x + y * y) (r * r + s * s).
Proof. intros f k x y r s X Y. apply near_plus; [pose proof (Rle_0_sqr r) as A; pose proof (Rle_0_sqr s) as B; unfold Rsqr in *; nra|now apply near_mul|now apply near_mul]. Qed.
Lemma near_hypotenuse : forall f k x y r s, near f k x r -> near f k y s -> near f k (hypotenuse x y) (hypotenuse r s).
Proof. intros f k x y r s X Y. apply near_sqrt; [pose proof (Rle_0_sqr r) as A; pose proof (Rle_0_sqr s) as B; unfold Rsqr in *; nra|now apply near_squares]. Qed.
Lemma reach : forall f k p r, (Z.of_nat k <= 2 ^ 23)%Z -> mid_range f r -> near f k p r -> in_reach f p.
Proof. intros f k p r K M N. destruct (mid_bounds f k p r K M N) as [[A|A] B]; [now left|right; now split]. Qed.
Lemma hypot_near : forall f h hyp k x y r s, hypot_accurate f h hyp -> is_number f x -> is_number f y -> near f k (fval x) r -> near f k (fval y) s -> (Z.of_nat k <= 2 ^ 22)%Z ->
  mid_range f (r * r) -> mid_range f (s * s) -> mid_range f (r * r + s * s) ->
  exists z, hyp f (NFlt x) (NFlt y) = Ok z /\ is_number f z /\ near f (k + h) (fval z) (hypotenuse r s).
Proof.
  intros f h hyp k x y r s Hy Nx Ny X Y K Mr Ms Mt.
  destruct (Hy x y Nx Ny) as (z & Z & Nz & t & T & B).
  - apply (reach f (k + k) _ (r * r)); [lia|exact Mr|now apply near_mul].
  - apply (reach f (k + k) _ (s * s)); [lia|exact Ms|now apply near_mul].
  - apply (reach f (k + k) _ (r * r + s * s)); [lia|exact Mt|now apply near_squares].
  - exists z. split; [exact Z|]. split; [exact Nz|]. rewrite Nat.add_comm. apply near_trans with (hypotenuse (fval x) (fval y)); [exists t; now split|now apply near_hypotenuse].
Qed.
Lemma hypotenuse_nonneg : forall x y, 0 <= hypotenuse x y.
Proof. intros. apply sqrt_pos. Qed.
Lemma hypotenuse_scale : forall x y c, 0 <= c -> hypotenuse (x * c) (y * c) = hypotenuse x y * c.
Proof.
  intros x y c C. unfold hypotenuse. replace (x * c * (x * c) + y * c * (y * c)) with ((x * x + y * y) * (c * c)) by ring.
  rewrite sqrt_mult; [|pose proof (Rle_0_sqr x) as A; pose proof (Rle_0_sqr y) as B; unfold Rsqr in *; nra|nra]. now rewrite sqrt_square.
Qed.
Lemma sqrt_near1 : forall f x, is_number f x -> 0 <= fval x ->
  is_number f (SFsqrt (fprec f) (femax f) x) /\ near f 1 (fval (SFsqrt (fprec f) (femax f) x)) (sqrt (fval x)).
Proof.
  intros f x Hx P. destruct (sqrt_rounds f x Hx P) as [A B]. split; auto. rewrite B.
  apply near_round_0. destruct (Req_dec (fval x) 0) as [Z|Nz]; [left; now rewrite Z, sqrt_0|right].
  assert (L : bpow radix2 (3 - femax f - fprec f) <= fval x).
  { apply (generic_format_ge_bpow radix2 (FLT_exp (3 - femax f - fprec f) (fprec f))); [|lra|now apply number_format].
    intros e. apply Z.le_max_r. }
  rewrite Rabs_right by (apply Rle_ge, sqrt_pos).
  rewrite <- (sqrt_square (bpow radix2 (2 - femax f))) by apply bpow_ge_0. apply sqrt_le_1_alt. eapply Rle_trans; [|exact L].
  rewrite <- bpow_plus. apply bpow_le. destruct f; discriminate.
Qed.
Lemma hypot_plain : forall f, hypot_accurate f 2 plain_hypot.
Proof.
  intros f x y Nx Ny Rx Ry Rt. cbn [plain_hypot]. eexists. split; [reflexivity|].
  assert (Sq : forall v, is_number f v -> in_reach f (fval v * fval v) ->
    is_number f (SFmul (fprec f) (femax f) v v) /\ near f 1 (fval (SFmul (fprec f) (femax f) v v)) (fval v * fval v) /\ 0 <= fval (SFmul (fprec f) (femax f) v v)).
  { intros v Nv R. assert (B : Rabs (frnd f (fval v * fval v)) < bpow radix2 (femax f)).
    { apply frnd_lt_emax with (e := (femax f - 1)%Z); [apply emin_small|lia|]. destruct R as [->|[_ R]]; [rewrite Rabs_R0; apply bpow_ge_0|exact R]. }
    destruct (mul_rounds f v v Nv Nv B) as [A ->]. split; [exact A|]. split.
    - apply near_round_0. destruct R as [R|[R _]]; auto.
    - rewrite <- (frnd_id f 0); [apply frnd_le; pose proof (Rle_0_sqr (fval v)) as P; unfold Rsqr in P; lra|apply generic_format_0]. }
  destruct (Sq x Nx Rx) as (N1 & K1 & P1). destruct (Sq y Ny Ry) as (N2 & K2 & P2). clear Sq.
  set (a := SFmul (fprec f) (femax f) x x) in *. set (b := SFmul (fprec f) (femax f) y y) in *.
  assert (Kab : near f 1 (fval a + fval b) (fval x * fval x + fval y * fval y)).
  { apply near_plus; auto. pose proof (Rle_0_sqr (fval x)) as A; pose proof (Rle_0_sqr (fval y)) as B; unfold Rsqr in *; nra. }
  assert (Up : forall r, 0 <= r -> 0 <= frnd f r).
  { intros r R. rewrite <- (frnd_id f 0); [now apply frnd_le|apply generic_format_0]. }
  assert (Lt : Rabs (frnd f (fval a + fval b)) < bpow radix2 (femax f)).
  { assert (T : fval a + fval b <= 3 * bpow radix2 (femax f - 2)).
    { destruct (near_between f 1 _ _ ltac:(lia) Kab) as [_ _]. destruct (near_abs f 1 _ _ Kab) as [_ Hi]. rewrite pow_1 in Hi.
      pose proof (roundoff_small f) as U. rewrite (Rabs_right (fval a + fval b)) in Hi by lra.
      assert (M : Rabs (fval x * fval x + fval y * fval y) <= 2 * bpow radix2 (femax f - 2)).
      { replace (2 * bpow radix2 (femax f - 2)) with (bpow radix2 (femax f - 1)).
        - destruct Rt as [->|[_ R]]; [rewrite Rabs_R0; apply bpow_ge_0|exact R].
        - replace (femax f - 1)%Z with (femax f - 2 + 1)%Z by lia. rewrite bpow_plus. change (bpow radix2 1) with 2. ring. }
      pose proof (roundoff_pos f). pose proof (bpow_gt_0 radix2 (femax f - 2)). pose proof (Rabs_pos (fval x * fval x + fval y * fval y)).
      assert (roundoff f <= / 2) by (apply Rle_trans with (1 := U); cbn; lra). nra. }
    rewrite Rabs_right by (apply Rle_ge, Up; lra). apply Rle_lt_trans with (3 * bpow radix2 (femax f - 2)).
    - rewrite <- (frnd_id f (3 * bpow radix2 (femax f - 2))); [now apply frnd_le|]. apply (format_mul_pow2 f 3); destruct f; cbn; lia.
    - replace (femax f) with (femax f - 2 + 2)%Z at 2 by lia. rewrite bpow_plus. change (bpow radix2 2) with 4. pose proof (bpow_gt_0 radix2 (femax f - 2)). lra. }
  destruct (add_rounds f a b N1 N2 Lt) as [N3 V3]. set (c := SFadd (fprec f) (femax f) a b) in *.
  destruct (sum_relative OpAdd f a b N1 N2) as (e & E & Be). cbn [rsum] in E.
  assert (Kc : near f 2 (fval c) (fval x * fval x + fval y * fval y)) by (rewrite V3, E; now apply (near_step f 1)).
  assert (Pc : 0 <= fval c) by (rewrite V3; apply Up; lra).
  destruct (sqrt_near1 f c N3 Pc) as (N4 & B4).
  split; [exact N4|]. apply (near_trans f 1 1 _ (sqrt (fval c))); [exact B4|]. apply near_sqrt; [|exact Kc].
  pose proof (Rle_0_sqr (fval x)) as A; pose proof (Rle_0_sqr (fval y)) as B; unfold Rsqr in *; lra.
Qed.

(** ** Uncertainties *)

Section Uncertainty.
Variable hyp : fty -> number -> number -> res spec_float.
Variable U : bdim -> Prop.
Variable w : world.
Hypothesis HU : symbols_identify U.
Hypothesis G : good_system U w.
Variable est : estimate.
Variable f : fty.
Variable h : nat.
Hypothesis Hy : hypot_accurate f h hyp.
Local Notation cl := (measurement_class hyp).
Local Notation P := (in_system U w).

(** What is known of the uncertainty of a part. *)
Definition spread (c : cquantity cl) (u : R) (l : nat) : Prop :=
  exists e m, snd (cq_val c) = NFlt e /\ is_number f e /\ 0 <= fval e /\ sized est (cq_type c) m /\ near f l (fval e * Q2R m) u.

(** [val * (err / x)], the uncertainty after a scaling. *)
Lemma scaled_spread : forall o v k v' x e y r s u k1 l n, meas_scale o (RFlt f) v k = Ok v' -> v = (NFlt x, NFlt e) -> fst v' = NFlt y ->
  is_number f x -> is_number f e -> is_number f y -> near f k1 (fval x) r -> near f l (fval e) u -> near f n (fval y) s -> r <> 0 ->
  mid_range f (u / r) -> mid_range f (s * (u / r)) -> (Z.of_nat (n + (k1 + l + 1)) <= 2 ^ 23)%Z ->
  exists e', snd v' = NFlt e' /\ is_number f e' /\ 0 <= fval e' /\ near f (n + (k1 + l + 1) + 1) (fval e') (Rabs (s * (u / r))).
Proof.
  intros o v k v' x e y r s u k1 l n H -> Y Nx Ne Ny X E Ys R M1 M2 L. unfold meas_scale in H. cbn [fst snd] in H. step H as kk K. step H as val V. step H as rel Rl. step H as err Er.
  cbn [op_in float_op bind] in Rl. inversion Rl; subst rel; clear Rl. destruct err as [|err]; [discriminate|]. inversion H; subst v'; clear H. cbn [fst snd] in *. subst val.
  cbn [op_in float_op bind] in Er. inversion Er; subst err; clear Er.
  destruct (div_near f l k1 e x u r Ne Nx E X R) as [Nr Kr]; [lia|exact M1|].
  destruct (mul_near f n (l + k1 + 1) _ _ _ _ Ny Nr Ys Kr) as [Np Kp]; [lia|exact M2|].
  destruct (abs_float f _ Np) as [Na Va]. eexists. split; [reflexivity|]. split; [exact Na|]. rewrite Va. split; [apply Rabs_pos|].
  apply near_Rabs. replace (n + (k1 + l + 1) + 1)%nat with (n + (l + k1 + 1) + 1)%nat by lia. exact Kp.
Qed.
Lemma cast_scales : forall c v v', class_cast_number cl c (RFlt f) (RFlt f) v = Ok v' -> exists k, meas_scale OpMul (RFlt f) v k = Ok v'.
Proof.
  intros c v v' H. unfold class_cast_number in H. change (rc_mixes cl) with false in H. cbv iota in H. unfold class_cast_scaled in H. cbv zeta in H.
  assert (R : class_ratio_type (RFlt f) (RFlt f) = RFlt f) by now destruct f. assert (C : common_rep (RFlt f) (RFlt f) = RFlt f) by now destruct f.
  rewrite R, C in H. step H as x X. apply kept in X. subst x. step H as y Y. apply kept in H. subst y. eexists. exact Y.
Qed.
Lemma quantity_cast_scales : forall from to v v', q_rep from = RFlt f -> q_rep to = RFlt f -> class_quantity_cast cl est from to v = Ok v' ->
  exists k, meas_scale OpMul (RFlt f) v k = Ok v'.
Proof.
  intros from to v v' R1 R2 H. unfold class_quantity_cast in H. step H as u Hu. step H as c C. rewrite R1, R2 in H. exact (cast_scales c v v' H).
Qed.

(** The central value of a part, from C88. *)
Lemma central_part : forall e r k c, over f e -> all_dims P (centre e) -> computes est w f (centre e) r k -> (Z.of_nat k <= 2 ^ 22)%Z -> meval hyp est w e = Ok c ->
  P (q_dim (cq_type c)) /\ exists x m, q_rep (cq_type c) = RFlt f /\ fst (cq_val c) = NFlt x /\ is_number f x /\ sized est (cq_type c) m /\ near f k (fval x * Q2R m) r.
Proof.
  intros e r k c O A C K H. destruct (central_value hyp est w f e c O H) as (E & R & N).
  destruct (eval_rounded U w HU G est f (centre e) r k C A K _ E) as (D & x & m & Rr & Nn & Nx & S & Kk). cbn [q_type q_num] in *. split; [exact D|]. exists x, m. auto.
Qed.

Lemma near_nonneg : forall k x r, near f k x r -> 0 <= x -> 0 <= r.
Proof. intros k x r (t & -> & A & _) X. pose proof (Rinv_0_lt_compat _ (grow_pos f k)). apply Rmult_le_reg_r with t; lra. Qed.

(** The same in physical terms. *)
Lemma rescaled : forall o v k v' x e y r s u k1 l n ma m, meas_scale o (RFlt f) v k = Ok v' -> v = (NFlt x, NFlt e) -> fst v' = NFlt y ->
  is_number f x -> is_number f e -> is_number f y -> 0 < ma -> 0 < m -> near f k1 (fval x * ma) r -> near f l (fval e * ma) u -> near f n (fval y * m) s -> r <> 0 ->
  mid_range f (u / r) -> mid_range f (s * (u / r) / m) -> (Z.of_nat (n + (k1 + l + 1)) <= 2 ^ 23)%Z ->
  exists e', snd v' = NFlt e' /\ is_number f e' /\ 0 <= fval e' /\ near f (n + (k1 + l + 1) + 1) (fval e' * m) (Rabs (s * (u / r))).
Proof.
  intros o v k v' x e y r s u k1 l n ma m H V Y Nx Ne Ny Pa Pm X E Ys R M1 M2 L.
  assert (Q1 : u / ma / (r / ma) = u / r) by (field; split; lra). assert (Q2 : s / m * (u / r) = s * (u / r) / m) by (field; split; lra).
  destruct (scaled_spread o v k v' x e y (r / ma) (s / m) (u / ma) k1 l n H V Y Nx Ne Ny) as (e' & E1 & E2 & E3 & E4); auto; try (apply near_unscale; [lra|assumption]).
  - apply Rmult_integral_contrapositive. split; [exact R|apply Rinv_neq_0_compat; lra].
  - now rewrite Q1.
  - now rewrite Q1, Q2.
  - exists e'. split; [exact E1|]. split; [exact E2|]. split; [exact E3|]. rewrite Q1, Q2 in E4.
    apply (near_eq f _ (fval e' * m) _ (Rabs (s * (u / r) / m) * m)); [reflexivity| |now apply near_scale].
    unfold Rdiv at 1. rewrite Rabs_mult, (Rabs_right (/ m)) by (apply Rle_ge, Rlt_le, Rinv_0_lt_compat; lra). field. lra.
Qed.

Lemma product_spread : forall o v v2 v' x e x2 e2 y r s t u u2 k k2 l l2 n ma mb m, (o = OpMul \/ o = OpDiv) -> meas_op hyp o (RFlt f) (RFlt f) v v2 = Ok v' ->
  v = (NFlt x, NFlt e) -> v2 = (NFlt x2, NFlt e2) -> fst v' = NFlt y -> is_number f x -> is_number f e -> is_number f x2 -> is_number f e2 -> is_number f y ->
  0 < ma -> 0 < mb -> 0 < m -> near f k (fval x * ma) r -> near f l (fval e * ma) u -> near f k2 (fval x2 * mb) s -> near f l2 (fval e2 * mb) u2 -> near f n (fval y * m) t ->
  r <> 0 -> s <> 0 -> combinable f (u / r) (u2 / s) -> mid_range f (t * hypotenuse (u / r) (u2 / s) / m) ->
  (Z.of_nat (n + (Nat.max (k + l + 1) (k2 + l2 + 1) + h)) <= 2 ^ 21)%Z ->
  exists e', snd v' = NFlt e' /\ is_number f e' /\ 0 <= fval e' /\
    near f (n + (Nat.max (k + l + 1) (k2 + l2 + 1) + h) + 1) (fval e' * m) (Rabs t * hypotenuse (u / r) (u2 / s)).
Proof.
  intros o v v2 v' x e x2 e2 y r s t u u2 k k2 l l2 n ma mb m Ho H V V2 Y Nx Ne Nx2 Ne2 Ny Pa Pb Pm X E X2 E2 Ys R S (M1 & M2 & M3 & M4 & M5) M L. subst v v2.
  set (K := Nat.max (k + l + 1) (k2 + l2 + 1)) in *.
  assert (Q1 : u / ma / (r / ma) = u / r) by (field; split; lra). assert (Q2 : u2 / mb / (s / mb) = u2 / s) by (field; split; lra).
  assert (NZ : forall q p, q <> 0 -> 0 < p -> q / p <> 0) by (intros q p Hq Hp; apply Rmult_integral_contrapositive; split; [exact Hq|apply Rinv_neq_0_compat; lra]).
  apply near_unscale in X; [|lra]. apply near_unscale in E; [|lra]. apply near_unscale in X2; [|lra]. apply near_unscale in E2; [|lra]. apply near_unscale in Ys; [|lra].
  destruct (div_near f l k e x _ _ Ne Nx E X (NZ r ma R Pa)) as [N1 K1]; [lia|now rewrite Q1|]. rewrite Q1 in K1.
  destruct (div_near f l2 k2 e2 x2 _ _ Ne2 Nx2 E2 X2 (NZ s mb S Pb)) as [N2 K2]; [lia|now rewrite Q2|]. rewrite Q2 in K2.
  apply (near_weaken f _ K) in K1; [|lia]. apply (near_weaken f _ K) in K2; [|lia].
  destruct (hypot_near f h hyp K _ _ _ _ Hy N1 N2 K1 K2) as (z & Z & Nz & Kz); auto; [lia|].
  assert (Er : exists e', op_in OpMul (RFlt f) (NFlt y) (NFlt z) = Ok (NFlt e') /\ v' = (NFlt y, NFlt (SFabs e'))).
  { unfold meas_op in H. destruct (rep_eq_dec (RFlt f) (RFlt f)) as [_|N]; [|now elim N]. cbn [fst snd] in H.
    destruct Ho as [->| ->]; step H as val Va; cbn [op_in float_op bind] in H; rewrite Z in H; cbn [bind] in H; destruct val as [|val]; try discriminate; cbn [float_op bind] in H;
      inversion H; subst v'; cbn [fst] in Y; inversion Y; subst val; eexists; split; reflexivity. }
  destruct Er as (e' & Ee & ->). cbn [op_in float_op bind] in Ee. inversion Ee; subst e'; clear Ee.
  assert (Q3 : t / m * hypotenuse (u / r) (u2 / s) = t * hypotenuse (u / r) (u2 / s) / m) by (field; lra).
  destruct (mul_near f n (K + h) _ _ _ _ Ny Nz Ys Kz) as [Np Kp]; [lia|now rewrite Q3|]. rewrite Q3 in Kp.
  destruct (abs_float f _ Np) as [Na Va]. eexists. split; [reflexivity|]. split; [exact Na|]. rewrite Va. split; [apply Rabs_pos|].
  apply (near_eq f _ (Rabs (fval (SFmul (fprec f) (femax f) y z)) * m) _ (Rabs (t * hypotenuse (u / r) (u2 / s) / m) * m)); [reflexivity| |now apply near_scale, near_Rabs].
  unfold Rdiv at 1. rewrite !Rabs_mult, (Rabs_right (/ m)) by (apply Rle_ge, Rlt_le, Rinv_0_lt_compat; lra). rewrite (Rabs_right (hypotenuse _ _)) by (apply Rle_ge, hypotenuse_nonneg). field. lra.
Qed.

Lemma sum_spread : forall o (v v2 v' : number * number) e e2 u u2 l l2 m, (o = OpAdd \/ o = OpSub) -> meas_op hyp o (RFlt f) (RFlt f) v v2 = Ok v' ->
  snd v = NFlt e -> snd v2 = NFlt e2 -> is_number f e -> is_number f e2 -> 0 < m -> near f l (fval e * m) u -> near f l2 (fval e2 * m) u2 ->
  combinable f (u / m) (u2 / m) -> (Z.of_nat (Nat.max l l2) <= 2 ^ 22)%Z ->
  exists e', snd v' = NFlt e' /\ is_number f e' /\ 0 <= fval e' /\ near f (Nat.max l l2 + h) (fval e' * m) (hypotenuse u u2).
Proof.
  intros o v v2 v' e e2 u u2 l l2 m Ho H V V2 Ne Ne2 Pm E E2 (M1 & M2 & M3 & M4 & M5) L.
  apply near_unscale in E; [|lra]. apply near_unscale in E2; [|lra]. set (K := Nat.max l l2) in *.
  apply (near_weaken f _ K) in E; [|lia]. apply (near_weaken f _ K) in E2; [|lia].
  destruct (hypot_near f h hyp K _ _ _ _ Hy Ne Ne2 E E2) as (z & Z & Nz & Kz); auto.
  destruct (abs_float f _ Nz) as [Na Va]. exists (SFabs z). split.
  - unfold meas_op in H. destruct (rep_eq_dec (RFlt f) (RFlt f)) as [_|N]; [|now elim N].
    destruct Ho as [->| ->]; step H as val Va'; rewrite V, V2, Z in H; cbn [bind] in H; inversion H; reflexivity.
  - split; [exact Na|]. rewrite Va. split; [apply Rabs_pos|].
    apply (near_eq f _ (Rabs (fval z) * m) _ (Rabs (hypotenuse (u / m) (u2 / m)) * m)); [reflexivity| |now apply near_scale, near_Rabs].
    rewrite (Rabs_right (hypotenuse _ _)) by (apply Rle_ge, hypotenuse_nonneg). rewrite <- hypotenuse_scale by lra. f_equal; field; lra.
Qed.

(** An operand moved to the type of a sum. *)
Lemma moved_spread : forall a c t m u l l' v', over f a -> all_dims P (centre a) -> meval hyp est w a = Ok c -> spread c u l -> sized est t m -> q_rep t = RFlt f -> P (q_dim t) ->
  moved est w f a (cq_type c) t m u l l' -> mid_range f (u / Q2R m) -> (Z.of_nat l' <= 2 ^ 21)%Z -> class_convert cl est (cq_type c) t (cq_val c) = Ok v' ->
  exists e, snd v' = NFlt e /\ is_number f e /\ 0 <= fval e /\ near f l' (fval e * Q2R m) u.
Proof.
  intros a c t m u l l' v' O A H (e & ma & E & Ne & Pe & S & K) St Rt Dt Mv M L C. pose proof (size_pos _ _ _ S) as Pa. pose proof (size_pos _ _ _ St) as Pm.
  destruct (qtype_eq_dec (cq_type c) t) as [Et|Nt] eqn:Q.
  - unfold class_convert in C. rewrite Q in C. inversion C; subst v'. exists e. split; [exact E|]. split; [exact Ne|]. split; [exact Pe|].
    subst t. rewrite (size_unique _ _ _ _ St S).
    destruct Mv as [[_ ->]|(r & k & j & _ & _ & _ & _ & _ & ->)]; [exact K|apply (near_weaken f l); [lia|exact K]].
  - destruct Mv as [[Et _]|(r & k & j & Cp & R & Cc & M1 & M2 & ->)]; [now elim Nt|].
    destruct (central_part a r k c O A Cp ltac:(lia) H) as (D & x & mx & Rc & Vx & Nx & Sx & Kx). rewrite (size_unique _ _ _ _ Sx S) in Kx.
    destruct (convert_seen hyp est f c t v' Rc Rt) as [Cv _]; [rewrite Vx; apply Nx|exact C|]. rewrite Vx in Cv.
    pose proof (convert_equivalent _ _ _ _ _ Cv) as De. pose proof (same_dimension U w HU _ _ Dt D (equivalent_exps _ _ De)) as Ed.
    assert (V : is_value (q_rep (cq_type c)) (NFlt x)) by now rewrite Rc.
    assert (Cr : cast_rep (q_rep (cq_type c)) (RFlt f) = RFlt f) by (rewrite Rc; apply same_cast).
    destruct (convert_value est f (cq_type c) t ma m (NFlt x) r k j S St (references_ok_refl _ _ (eq_sym Ed)) De Cr Rt V Kx Cc M2) as (y & Ey & Ny & Ky); [lia|].
    rewrite Cv in Ey. inversion Ey as [Vy]. unfold class_convert in C. rewrite Q in C. step C as b B. step C as u0 Hu.
    destruct (quantity_cast_scales _ _ _ _ Rc Rt C) as (kk & Hs).
    assert (Ur : r * (u / r) / Q2R m = u / Q2R m) by (field; split; lra).
    destruct (rescaled OpMul (cq_val c) kk v' x e y r r u k l (k + j) (Q2R ma) (Q2R m) Hs) as (e' & E1 & E2 & E3 & E4); auto; [now rewrite <- Vx, <- E; destruct (cq_val c)|now rewrite Ur|lia|].
    exists e'. split; [exact E1|]. split; [exact E2|]. split; [exact E3|]. replace u with (Rabs (r * (u / r))); [exact E4|].
    replace (r * (u / r)) with u by (field; exact R). apply Rabs_right, Rle_ge. apply (near_nonneg _ _ _ K). nra.
Qed.

Lemma scale_parts : forall o a c p v, (o = OpMul \/ o = OpDiv) -> class_scale cl o a p v = Ok c -> q_rep (cq_type a) = RFlt f ->
  meas_scale o (RFlt f) (cq_val a) v = Ok (cq_val c) /\ (forall m, sized est (cq_type a) m -> sized est (cq_type c) m).
Proof.
  intros o a c p v Ho H R. unfold class_scale in H. step H as u Hu. step H as z Z. inversion H; subst c. cbn [cq_val cq_type]. split.
  - cbn [measurement_class rc_scale] in Z. rewrite R in Z. now destruct Ho as [->| ->].
  - intros m S. apply with_size. exact S.
Qed.
Lemma scale_left_parts : forall a c p v, class_scale_left cl p v a = Ok c -> q_rep (cq_type a) = RFlt f ->
  meas_scale OpMul (RFlt f) (cq_val a) v = Ok (cq_val c) /\ (forall m, sized est (cq_type a) m -> sized est (cq_type c) m).
Proof.
  intros a c p v H R. unfold class_scale_left in H. step H as u Hu. step H as z Z. inversion H; subst c. cbn [cq_val cq_type]. split.
  - cbn [measurement_class rc_scale_left] in Z. now rewrite R in Z.
  - intros m S. apply with_size. exact S.
Qed.
Lemma pair_of : forall (v : number * number) x e, fst v = x -> snd v = e -> v = (x, e).
Proof. now intros [a b] x e <- <-. Qed.

(** A node whose uncertainty keeps the relative one of its operand. *)
Lemma kept_relative : forall a node x c o kk r s u k l n m u', over f a -> all_dims P (centre a) -> over f node -> all_dims P (centre node) ->
  meval hyp est w a = Ok x -> meval hyp est w node = Ok c -> meas_scale o (RFlt f) (cq_val x) kk = Ok (cq_val c) ->
  computes est w f (centre a) r k -> computes est w f (centre node) s n -> spread x u l -> r <> 0 -> sized est (cq_type c) m ->
  mid_range f (u / r) -> mid_range f (s * (u / r) / Q2R m) -> (Z.of_nat (n + (k + l + 1) + 1) <= 2 ^ 21)%Z -> u' = Rabs (s * (u / r)) ->
  spread c u' (n + (k + l + 1) + 1).
Proof.
  intros a node x c o kk r s u k l n m u' Oa Aa On An Ha Hn Hs Ca Cn (e & ma & E & Ne & Pe & S & K) R Sm M1 M2 L ->.
  destruct (central_part a r k x Oa Aa Ca ltac:(lia) Ha) as (Da & xa & mx & Ra & Vx & Nx & Sx & Kx). rewrite (size_unique _ _ _ _ Sx S) in Kx.
  destruct (central_part node s n c On An Cn ltac:(lia) Hn) as (Dn & y & my & Rn & Vy & Ny & Sy & Ky). rewrite (size_unique _ _ _ _ Sy Sm) in Ky.
  destruct (rescaled o (cq_val x) kk (cq_val c) xa e y r s u k l n (Q2R ma) (Q2R m) Hs (pair_of _ _ _ Vx E) Vy Nx Ne Ny) as (e' & E1 & E2 & E3 & E4); auto;
    [exact (size_pos _ _ _ S)|exact (size_pos _ _ _ Sm)|lia|].
  exists e', m. auto.
Qed.

(** A product or quotient. *)
Lemma joint_relative : forall o a b node x y c r s t u v k k' n l l' m, (o = OpMul \/ o = OpDiv) -> over f a -> all_dims P (centre a) -> over f b -> all_dims P (centre b) ->
  over f node -> all_dims P (centre node) -> meval hyp est w a = Ok x -> meval hyp est w b = Ok y -> meval hyp est w node = Ok c ->
  meas_op hyp o (RFlt f) (RFlt f) (cq_val x) (cq_val y) = Ok (cq_val c) ->
  computes est w f (centre a) r k -> computes est w f (centre b) s k' -> computes est w f (centre node) t n -> spread x u l -> spread y v l' -> r <> 0 -> s <> 0 ->
  sized est (cq_type c) m -> combinable f (u / r) (v / s) -> mid_range f (t * hypotenuse (u / r) (v / s) / Q2R m) ->
  (Z.of_nat (n + (Nat.max (k + l + 1) (k' + l' + 1) + h) + 1) <= 2 ^ 21)%Z ->
  spread c (Rabs t * hypotenuse (u / r) (v / s)) (n + (Nat.max (k + l + 1) (k' + l' + 1) + h) + 1).
Proof.
  intros o a b node x y c r s t u v k k' n l l' m Ho Oa Aa Ob Ab On An Ha Hb Hn Hs Ca Cb Cn (e & ma & E & Ne & Pe & S & K) (e2 & mb & E2 & Ne2 & Pe2 & S2 & K2) R R2 Sm M1 M2 L.
  destruct (central_part a r k x Oa Aa Ca ltac:(lia) Ha) as (Da & xa & mx & Ra & Vx & Nx & Sx & Kx). rewrite (size_unique _ _ _ _ Sx S) in Kx.
  destruct (central_part b s k' y Ob Ab Cb ltac:(lia) Hb) as (Db & xb & mx2 & Rb & Vx2 & Nx2 & Sx2 & Kx2). rewrite (size_unique _ _ _ _ Sx2 S2) in Kx2.
  destruct (central_part node t n c On An Cn ltac:(lia) Hn) as (Dn & z & my & Rn & Vz & Nz & Sz & Kz). rewrite (size_unique _ _ _ _ Sz Sm) in Kz.
  destruct (product_spread o (cq_val x) (cq_val y) (cq_val c) xa e xb e2 z r s t u v k k' l l' n (Q2R ma) (Q2R mb) (Q2R m) Ho Hs (pair_of _ _ _ Vx E) (pair_of _ _ _ Vx2 E2) Vz)
    as (e' & F1 & F2 & F3 & F4); auto; [exact (size_pos _ _ _ S)|exact (size_pos _ _ _ S2)|exact (size_pos _ _ _ Sm)|lia|].
  exists e', m. auto.
Qed.

(** A sum or difference. *)
Lemma joint_absolute : forall o a b x y c u v l l' la lb m, (o = OpAdd \/ o = OpSub) -> over f a -> all_dims P (centre a) -> over f b -> all_dims P (centre b) ->
  meval hyp est w a = Ok x -> meval hyp est w b = Ok y -> class_addsub cl o est w x y = Ok c -> spread x u l -> spread y v l' ->
  moved est w f a (cq_type x) (cq_type c) m u l la -> moved est w f b (cq_type y) (cq_type c) m v l' lb -> sized est (cq_type c) m -> P (q_dim (cq_type c)) ->
  combinable f (u / Q2R m) (v / Q2R m) -> (Z.of_nat (Nat.max la lb + h) <= 2 ^ 21)%Z -> spread c (hypotenuse u v) (Nat.max la lb + h).
Proof.
  intros o a b x y c u v l l' la lb m Ho Oa Aa Ob Ab Ha Hb H Sa Sb Ma Mb Sm D M L.
  destruct (central_value hyp est w f a x Oa Ha) as (_ & Ra & _). destruct (central_value hyp est w f b y Ob Hb) as (_ & Rb & _).
  unfold class_addsub in H. change (rc_result cl o (q_rep (cq_type x)) (q_rep (cq_type y))) with (q_rep (cq_type x)) in H. rewrite Ra in H.
  step H as t T. step H as v1 V1. step H as v2 V2. step H as z Z. step H as z' Z'. inversion H; subst c; clear H. cbn [cq_type cq_val] in *. apply kept in Z'. subst z'.
  assert (Rt : q_rep t = RFlt f).
  { unfold common_quantity in T. step T as u0 U0. step T as du DU. unfold mk_qtype in T. step T as u1 U1. now inversion T. }
  destruct M as (M1 & M2 & M3). 
  destruct (moved_spread a x t m u l la v1 Oa Aa Ha Sa Sm Rt D Ma M1 ltac:(lia) V1) as (e1 & E1 & N1 & P1 & K1).
  destruct (moved_spread b y t m v l' lb v2 Ob Ab Hb Sb Sm Rt D Mb M2 ltac:(lia) V2) as (e2 & E2 & N2 & P2 & K2).
  destruct (sum_spread o v1 v2 z e1 e2 u v la lb (Q2R m) Ho Z E1 E2 N1 N2 (size_pos _ _ _ Sm) K1 K2) as (e' & F1 & F2 & F3 & F4); [now repeat split|lia|].
  exists e', m. cbn [cq_type cq_val]. auto.
Qed.

Theorem spread_bound : forall e u l, spreads est w f h e u l -> over f e -> all_dims P (centre e) -> (Z.of_nat l <= 2 ^ 21)%Z ->
  forall c, meval hyp est w e = Ok c -> spread c u l.
Proof.
  assert (Sz : forall e c m, over f e -> in_units est w (centre e) m -> meval hyp est w e = Ok c -> sized est (cq_type c) m).
  { intros e c m O I H. destruct (central_value hyp est w f e c O H) as (E & _). exact (I _ E). }
  assert (Dm : forall e c, over f e -> all_dims P (centre e) -> meval hyp est w e = Ok c -> P (q_dim (cq_type c))).
  { intros e c O A H. destruct (central_value hyp est w f e c O H) as (E & _). exact (eval_dims U w HU G est (centre e) A _ E). }
  induction 1 as [t x e m Ne S|a u l N IH|a b u v l l' la lb m N1 IH1 N2 IH2 Mv Iu M|a b u v l l' la lb m N1 IH1 N2 IH2 Mv Iu M
    |a b r s u v k k' n l l' m Ca Cb Cn N1 IH1 N2 IH2 R R2 Iu M1 M2|a b r s u v k k' n l l' m Ca Cb Cn N1 IH1 N2 IH2 R R2 Iu M1 M2
    |a p v r u k n l m Ca Cn N IH R Iu M1 M2|a p v r u k n l m Ca Cn N IH R Iu M1 M2|a p v r u k n l m Ca Cn N IH R Nv Iu M1 M2
    |t a r u k n l m Ca Cn N IH R St M1 M2|cs a r u k n l m Ca Cn N IH R Iu M1 M2]; intros O A L c H; pose proof H as H0; pose proof O as O0; pose proof A as A0.
  - cbn [meval measurement_of bind] in H. inversion H; subst c. destruct (abs_float f e Ne) as [Na Va]. exists (SFabs e), m. cbn [cq_type cq_val snd].
    rewrite Va. split; [reflexivity|]. split; [exact Na|]. split; [apply Rabs_pos|]. split; [exact S|apply near_refl].
  - cbn [meval] in H. step H as x X. destruct (IH O A L x X) as (e & m & E & Ne & Pe & S & K). unfold class_neg in H. step H as v V. inversion H; subst c.
    cbn [measurement_class rc_neg] in V. step V as y Y. inversion V; subst v. exists e, m. cbn [cq_type cq_val snd]. split; [exact E|]. split; [exact Ne|]. split; [exact Pe|].
    split; [apply with_size; exact S|exact K].
  - cbn [meval] in H. step H as x X. step H as y Y. destruct O as [Oa Ob], A as [Aa Ab].
    destruct (central_value hyp est w f a x Oa X) as (Ea & _). destruct (central_value hyp est w f b y Ob Y) as (Eb & _).
    destruct (central_value hyp est w f (MAdd a b) c O0 H0) as (En & _).
    destruct (Mv _ _ _ Ea Eb En) as [Mva Mvb]. cbn [q_type] in *.
    apply (joint_absolute OpAdd a b x y c u v l l' la lb m); auto.
    + apply IH1; auto. destruct Mva as [[_ ->]|(r & k & j & _ & _ & _ & _ & _ & ->)]; lia.
    + apply IH2; auto. destruct Mvb as [[_ ->]|(r & k & j & _ & _ & _ & _ & _ & ->)]; lia.
    + exact (Sz _ _ _ O0 Iu H0).
    + exact (Dm _ _ O0 A0 H0).
  - cbn [meval] in H. step H as x X. step H as y Y. destruct O as [Oa Ob], A as [Aa Ab].
    destruct (central_value hyp est w f a x Oa X) as (Ea & _). destruct (central_value hyp est w f b y Ob Y) as (Eb & _).
    destruct (central_value hyp est w f (MSub a b) c O0 H0) as (En & _).
    destruct (Mv _ _ _ Ea Eb En) as [Mva Mvb]. cbn [q_type] in *.
    apply (joint_absolute OpSub a b x y c u v l l' la lb m); auto.
    + apply IH1; auto. destruct Mva as [[_ ->]|(r & k & j & _ & _ & _ & _ & _ & ->)]; lia.
    + apply IH2; auto. destruct Mvb as [[_ ->]|(r & k & j & _ & _ & _ & _ & _ & ->)]; lia.
    + exact (Sz _ _ _ O0 Iu H0).
    + exact (Dm _ _ O0 A0 H0).
  - cbn [meval] in H. step H as x X. step H as y Y. destruct O as [Oa Ob], A as [Aa Ab].
    destruct (central_value hyp est w f a x Oa X) as (_ & Ra & _). destruct (central_value hyp est w f b y Ob Y) as (_ & Rb & _).
    apply (joint_relative OpMul a b (MMul a b) x y c r s (r * s) u v k k' n l l' m); auto; try (apply IH1; auto; lia); try (apply IH2; auto; lia).
    + unfold class_product in H. rewrite Ra, Rb in H. step H as rf Rf. step H as z Z. inversion H; subst c. exact Z.
    + exact (Sz _ _ _ O0 Iu H0).
  - cbn [meval] in H. step H as x X. step H as y Y. destruct O as [Oa Ob], A as [Aa Ab].
    destruct (central_value hyp est w f a x Oa X) as (_ & Ra & _). destruct (central_value hyp est w f b y Ob Y) as (_ & Rb & _).
    apply (joint_relative OpDiv a b (MDiv a b) x y c r s (r / s) u v k k' n l l' m); auto; try (apply IH1; auto; lia); try (apply IH2; auto; lia).
    + unfold class_quotient in H. rewrite Ra, Rb in H. step H as rf Rf. step H as z Z. inversion H; subst c. exact Z.
    + exact (Sz _ _ _ O0 Iu H0).
  - cbn [meval] in H. step H as x X. destruct O as (Ar & V & Oa). pose proof (IH Oa A ltac:(lia) x X) as Sp.
    destruct (central_value hyp est w f a x Oa X) as (_ & Ra & _). destruct (scale_parts OpMul x c p v (or_introl eq_refl) H Ra) as [Hs _].
    apply (kept_relative a (MMulV a p v) x c OpMul v r (r * nval v) u k l n m); auto.
    + exact (Sz _ _ _ O0 Iu H0).
    + replace (r * nval v * (u / r)) with (nval v * u) by (field; exact R). exact M2.
    + destruct Sp as (e & me & _ & _ & Pe & S & K). replace (r * nval v * (u / r)) with (nval v * u) by (field; exact R). rewrite Rabs_mult. f_equal. symmetry.
      apply Rabs_right, Rle_ge. apply (near_nonneg _ _ _ K). pose proof (size_pos _ _ _ S). nra.
  - cbn [meval] in H. step H as x X. destruct O as (Ar & V & Oa). pose proof (IH Oa A ltac:(lia) x X) as Sp.
    destruct (central_value hyp est w f a x Oa X) as (_ & Ra & _). destruct (scale_left_parts x c p v H Ra) as [Hs _].
    apply (kept_relative a (MVMul p v a) x c OpMul v r (nval v * r) u k l n m); auto.
    + exact (Sz _ _ _ O0 Iu H0).
    + replace (nval v * r * (u / r)) with (nval v * u) by (field; exact R). exact M2.
    + destruct Sp as (e & me & _ & _ & Pe & S & K). replace (nval v * r * (u / r)) with (nval v * u) by (field; exact R). rewrite Rabs_mult. f_equal. symmetry.
      apply Rabs_right, Rle_ge. apply (near_nonneg _ _ _ K). pose proof (size_pos _ _ _ S). nra.
  - cbn [meval] in H. step H as x X. destruct O as (Ar & V & Oa). pose proof (IH Oa A ltac:(lia) x X) as Sp.
    destruct (central_value hyp est w f a x Oa X) as (_ & Ra & _). destruct (scale_parts OpDiv x c p v (or_intror eq_refl) H Ra) as [Hs _].
    assert (Q : r / nval v * (u / r) = u / nval v) by (field; split; assumption).
    apply (kept_relative a (MDivV a p v) x c OpDiv v r (r / nval v) u k l n m); auto.
    + exact (Sz _ _ _ O0 Iu H0).
    + rewrite Q. exact M2.
    + destruct Sp as (e & me & _ & _ & Pe & S & K). rewrite Q. unfold Rdiv. rewrite Rabs_mult, Rabs_inv. f_equal. symmetry.
      apply Rabs_right, Rle_ge. apply (near_nonneg _ _ _ K). pose proof (size_pos _ _ _ S). nra.
  - cbn [meval] in H. step H as x X. destruct O as (Rt & Oa), A as (At & Aa). pose proof (IH Oa Aa ltac:(lia) x X) as Sp.
    destruct (central_value hyp est w f a x Oa X) as (_ & Ra & _). unfold class_to in H. step H as v V. inversion H; subst c. clear H.
    assert (Q : r * (u / r) = u) by (field; exact R). unfold class_convert in V. destruct (qtype_eq_dec (cq_type x) t) as [E|Ne].
    + inversion V; subst v t. destruct Sp as (e & me & E1 & E2 & E3 & S & K). exists e, me. cbn [cq_type cq_val]. split; [exact E1|]. split; [exact E2|]. split; [exact E3|]. split; [exact S|].
      apply (near_weaken f l); [lia|exact K].
    + step V as b B. step V as u0 Hu. destruct (quantity_cast_scales _ _ _ _ Ra Rt V) as (kk & Hs).
      apply (kept_relative a (MConv t a) x (@CQuantity cl t v) OpMul kk r r u k l n m); auto.
      * rewrite Q. exact M2.
      * destruct Sp as (e & me & _ & _ & Pe & S & K). rewrite Q. symmetry. apply Rabs_right, Rle_ge. apply (near_nonneg _ _ _ K). pose proof (size_pos _ _ _ S). nra.
  - cbn [meval] in H. step H as x X. destruct O as (Rc & Oa), A as (Ac & Aa). pose proof (IH Oa Aa ltac:(lia) x X) as Sp.
    destruct (central_value hyp est w f a x Oa X) as (_ & Ra & _). pose proof (Sz _ _ _ O0 Iu H0) as Sm. unfold class_cast in H. step H as t T. step H as v V. inversion H; subst c. clear H.
    assert (Q : r * (u / r) = u) by (field; exact R). pose proof (target_rep w f cs _ t T Ra Rc) as Rt. destruct (quantity_cast_scales _ _ _ _ Ra Rt V) as (kk & Hs).
    apply (kept_relative a (MCast cs a) x (@CQuantity cl t v) OpMul kk r r u k l n m); auto.
    + rewrite Q. exact M2.
    + destruct Sp as (e & me & _ & _ & Pe & S & K). rewrite Q. symmetry. apply Rabs_right, Rle_ge. apply (near_nonneg _ _ _ K). pose proof (size_pos _ _ _ S). nra.
Qed.
End Uncertainty.
