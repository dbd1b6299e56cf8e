(** The functions and the loops of the Kalman filters, on doubles. *)

From Coq Require Import ZArith Reals Bool Lia Lra SpecFloat String List.
From Flocq Require Import Core.
From Verif Require Import Outcome CInt Root Ratio SpecRatio RatioMaths Unit Dim DimOp Equivalent Rep Reference QuantityCast CommonQuantity Quantity Point Math
  SpecReal FloatProofs FloatCastProofs FloatAddProofs SpecOrder SpecQuantity QuantityProofs QuantityProofs2 FloatOrderProofs Kalman SpecKalman.
Import ListNotations.
Local Open Scope R_scope.
Local Open Scope res_scope.

Notation rnd := (frnd F64).
Definition top : R := bpow radix2 1024.

(** ** Conversions that rescale nothing *)

Lemma unscaled_parts : forall est a b, unscaled est a b = true ->
  dim_equivalent (q_dim b) (q_dim a) = true /\ cast_ratio est (q_dim a) (q_unit a) (q_dim b) (q_unit b) = Ok (Ratio 1 1 0).
Proof.
  intros est a b H. unfold unscaled in H. apply andb_true_iff in H. destruct H as [D H]. split; [exact D|].
  destruct (cast_ratio est (q_dim a) (q_unit a) (q_dim b) (q_unit b)) as [c| | | |]; try discriminate H.
  apply andb_true_iff in H. destruct H as [H E]. apply andb_true_iff in H. destruct H as [N D'].
  apply Z.eqb_eq in N, D', E. destruct c as [n d e]. cbn in *. now subst.
Qed.

Lemma copy_double : forall est a b x, unscaled est a b = true -> q_rep a = double -> q_rep b = double -> is_number F64 x ->
  q_convert est a b (NFlt x) = Ok (NFlt x).
Proof.
  intros est a b x U A B N. destruct (unscaled_parts _ _ _ U) as [D C]. unfold q_convert. destruct (qtype_eq_dec a b); [reflexivity|].
  unfold safe_castable_to, quantity_cast. rewrite D, A, B. unfold double. cbn [negb floating bind constrained]. rewrite C. cbn [bind].
  rewrite (cast_number_eq (Ratio 1 1 0) (RFlt F64) (RFlt F64) F64 (NFlt x) x); [|reflexivity|cbn [n_convert]; now rewrite conv_same by apply N].
  rewrite factor_one, mul_one by apply N. cbn [n_convert]. now rewrite conv_same by apply N.
Qed.
Lemma copy_int : forall est a b i z, unscaled est a b = true -> q_rep a = RInt i -> q_rep b = double -> (Z.abs z <= 2 ^ 53)%Z ->
  q_convert est a b (NInt z) = Ok (NFlt (float_of_int F64 z)).
Proof.
  intros est a b i z U A B Z. destruct (unscaled_parts _ _ _ U) as [D C]. unfold q_convert. destruct (qtype_eq_dec a b) as [->|_]; [rewrite A in B; discriminate B|].
  unfold safe_castable_to, quantity_cast. rewrite D, A, B. unfold double. cbn [negb floating bind constrained]. rewrite C. cbn [bind].
  destruct (of_int_exact F64 z Z) as [N V].
  rewrite (cast_number_eq (Ratio 1 1 0) (RInt i) (RFlt F64) F64 (NInt z) (float_of_int F64 z)); [|reflexivity|reflexivity].
  rewrite factor_one, mul_one by apply N. cbn [n_convert]. now rewrite conv_same by apply N.
Qed.

(** ** Operations on quantities held as doubles *)

Lemma common_rep_r : forall est w a b r c, common_quantity est w a b r = Ok c -> q_rep c = r.
Proof. intros est w a b r c H. unfold common_quantity in H. step H as x X. step H as du E. unfold mk_qtype in H. step H as y Y. now inversion H. Qed.

Definition small_enough (r : R) : Prop := Rabs (rnd r) < top.

Lemma sum_held : forall o est w ta tb tc a b x y, sum_op o -> q_rep ta = double -> q_rep tb = double -> sum_type est w ta tb = Ok tc ->
  is_held ta a x -> is_held tb b y -> small_enough (rsum o x y) ->
  q_rep tc = double /\ exists q, q_addsub o est w a b = Ok q /\ is_held tc q (rnd (rsum o x y)).
Proof.
  intros o est w ta tb tc a b x y O Ra Rb S (xa & -> & Na & Va) (xb & -> & Nb & Vb) L. unfold sum_type in S. step S as c C. step S as z Z.
  assert (c = tc) by now inversion S. subst c. clear S. unfold constrained in Z. destruct (unscaled est ta tc && unscaled est tb tc) eqn:U; [|discriminate Z].
  apply andb_true_iff in U. destruct U as [Ua Ub]. pose proof (common_rep_r _ _ _ _ _ _ C) as Rc. split; [exact Rc|].
  subst x y. destruct (op_number o F64 xa xb O Na Nb L) as (v & Ov & Nv & Vv).
  exists (Quantity tc (NFlt v)). split; [|now exists v].
  unfold q_addsub. cbv zeta. cbn [q_type q_num]. rewrite Ra, Rb. change (arith_rep double double) with double. rewrite C. cbn [bind].
  rewrite (copy_double est ta tc xa Ua Ra Rc Na), (copy_double est tb tc xb Ub Rb Rc Nb). cbn [bind].
  unfold n_op. change (arith_rep double double) with double. unfold double. cbn [n_convert bind].
  rewrite (conv_same F64 xa) by apply Na. rewrite (conv_same F64 xb) by apply Nb. rewrite Ov. cbn [bind n_convert]. now rewrite conv_same by apply Nv.
Qed.

Lemma product_held : forall w ta tb tc a b x y, q_rep ta = double -> q_rep tb = double -> product_type w ta tb = Ok tc ->
  is_held ta a x -> is_held tb b y -> small_enough (x * y) ->
  q_rep tc = double /\ exists q, q_times w a b = Ok q /\ is_held tc q (rnd (x * y)).
Proof.
  intros w ta tb tc a b x y Ra Rb S (xa & -> & Na & Va) (xb & -> & Nb & Vb) L. unfold product_type in S. step S as r C.
  assert (tc = QType (ref_dim r) (ref_unit r) double) by now inversion S. subst tc. split; [reflexivity|]. subst x y. destruct (mul_rounds F64 xa xb Na Nb L) as [Nv Vv].
  exists (Quantity (QType (ref_dim r) (ref_unit r) double) (NFlt (SFmul (fprec F64) (femax F64) xa xb))). split; [|eexists; split; [reflexivity|split; [exact Nv|exact Vv]]].
  unfold q_times. cbv zeta. cbn [q_type q_num]. rewrite C. cbn [bind]. rewrite Ra, Rb. unfold n_op. change (arith_rep double double) with double. unfold double. cbn [n_convert bind].
  rewrite (conv_same F64 xa) by apply Na. rewrite (conv_same F64 xb) by apply Nb. reflexivity.
Qed.
Lemma quotient_held : forall w ta tb tc a b x y, q_rep ta = double -> q_rep tb = double -> quotient_type w ta tb = Ok tc ->
  is_held ta a x -> is_held tb b y -> y <> 0 -> small_enough (x / y) ->
  q_rep tc = double /\ exists q, q_over w a b = Ok q /\ is_held tc q (rnd (x / y)).
Proof.
  intros w ta tb tc a b x y Ra Rb S (xa & -> & Na & Va) (xb & -> & Nb & Vb) Z L. unfold quotient_type in S. step S as r C.
  assert (tc = QType (ref_dim r) (ref_unit r) double) by now inversion S. subst tc. split; [reflexivity|]. subst x y. destruct (div_rounds F64 xa xb Na Nb Z L) as [Nv Vv].
  exists (Quantity (QType (ref_dim r) (ref_unit r) double) (NFlt (SFdiv (fprec F64) (femax F64) xa xb))). split; [|eexists; split; [reflexivity|split; [exact Nv|exact Vv]]].
  unfold q_over. cbv zeta. cbn [q_type q_num]. rewrite C. cbn [bind]. rewrite Ra, Rb. unfold n_op. change (arith_rep double double) with double. unfold double. cbn [n_convert bind].
  rewrite (conv_same F64 xa) by apply Na. rewrite (conv_same F64 xb) by apply Nb. reflexivity.
Qed.
Lemma to_held : forall est ta tb q x, q_rep ta = double -> q_rep tb = double -> converts_to est ta tb = Ok tt -> is_held ta q x ->
  exists q', q_to est tb q = Ok q' /\ is_held tb q' x.
Proof.
  intros est ta tb q x Ra Rb C (xa & -> & Na & Va). unfold converts_to, constrained in C. destruct (unscaled est ta tb) eqn:U; [|discriminate C].
  exists (Quantity tb (NFlt xa)). split; [|now exists xa]. unfold q_to. cbn [q_type q_num]. now rewrite (copy_double est ta tb xa U Ra Rb Na).
Qed.

Lemma reads_held : forall t q r, q_rep t = double -> is_held t q r -> reads t q r.
Proof.
  intros [d u rp] q r R (x & -> & N & <-). cbn in R. subst rp. change (QType d u double) with (with_rep (QType d u double) double) at 2. now apply reads_double.
Qed.

(** [measured - predicted], for a measurement of integers too. *)
Lemma difference_held : forall est w t d m x r s, q_rep t = double -> sum_type est w t t = Ok d -> reads t m r -> is_held t x s -> small_enough (r - s) ->
  q_rep d = double /\ exists q, q_sub est w m x = Ok q /\ is_held d q (rnd (r - s)).
Proof.
  intros est w t d m x r s R S M X L. destruct M as [xm Nm|i z Iz Bz].
  - destruct t as [td tu tr]. cbn in R. subst tr. apply (sum_held OpSub est w (QType td tu double) (QType td tu double) d _ _ (fval xm) s (or_intror eq_refl) eq_refl eq_refl S); auto. now exists xm.
  - destruct X as (xb & -> & Nb & Vb). unfold sum_type in S. step S as c C. step S as z0 Z. assert (c = d) by now inversion S. subst c. clear S.
    unfold constrained in Z. destruct (unscaled est t d && unscaled est t d) eqn:U; [|discriminate Z]. apply andb_true_iff in U. destruct U as [Ua _].
    pose proof (common_rep_r _ _ _ _ _ _ C) as Rc. split; [exact Rc|]. destruct (of_int_exact F64 z Bz) as [Ni Vi].
    subst s. destruct (op_number OpSub F64 (float_of_int F64 z) xb (or_intror eq_refl) Ni Nb) as (v & Ov & Nv & Vv); [cbn [rsum]; rewrite Vi; exact L|].
    cbn [rsum] in Vv. rewrite Vi in Vv. exists (Quantity d (NFlt v)). split; [|now exists v].
    unfold q_sub, q_addsub. cbv zeta. cbn [q_type q_num with_rep q_rep]. rewrite R. change (arith_rep (RInt i) double) with double.
    change (common_quantity est w (with_rep t (RInt i)) t double) with (common_quantity est w t t double). rewrite C. cbn [bind].
    rewrite (copy_int est (with_rep t (RInt i)) d i z Ua eq_refl Rc Bz), (copy_double est t d xb Ua R Rc Nb). cbn [bind].
    unfold n_op. change (arith_rep double double) with double. unfold double. cbn [n_convert bind].
    rewrite (conv_same F64 (float_of_int F64 z)) by apply Ni. rewrite (conv_same F64 xb) by apply Nb. rewrite Ov. cbn [bind n_convert]. now rewrite conv_same by apply Nv.
Qed.

(** ** The functions *)

Lemma sum_fits_dims : forall est w a b c, sum_type est w a b = Ok c -> dim_equivalent (q_dim b) (q_dim a) = true.
Proof.
  intros est w a b c H. unfold sum_type in H. step H as x X. unfold common_quantity in X. step X as y Y. unfold constrained in Y.
  now destruct (dim_equivalent (q_dim b) (q_dim a)).
Qed.

Definition gain_of (a b : R) : R := rnd (a / rnd (a + b)).
Lemma gain_held : forall est w t a b x y, in_doubles t -> gain_fits est w t -> is_held t a x -> is_held t b y ->
  small_enough (x + y) -> rnd (x + y) <> 0 -> small_enough (x / rnd (x + y)) ->
  exists g, kalman_gain est w a b = Ok g /\ is_held pure_number g (gain_of x y).
Proof.
  intros est w t a b x y R F A B L1 Z L2. unfold gain_fits in F. step F as s S. step F as g G.
  destruct (sum_held OpAdd est w t t s a b x y (or_introl eq_refl) R R S A B L1) as (Rs & q & Q & Hq).
  destruct (quotient_held w t s g a q x (rnd (x + y)) R Rs G A Hq Z L2) as (Rg & q' & Q' & Hq').
  destruct (to_held est g pure_number q' _ Rg eq_refl F Hq') as (q'' & Q'' & Hq''). exists q''. split; [|exact Hq''].
  unfold kalman_gain, q_add. rewrite Q. cbn [bind]. rewrite Q'. cbn [bind]. exact Q''.
Qed.

Lemma innovation_held : forall est w t d p x m g rx r k, in_doubles t -> sum_type est w t t = Ok d -> product_type w pure_number d = Ok p ->
  is_held t x rx -> reads t m r -> is_held pure_number g k -> small_enough (r - rx) -> small_enough (k * rnd (r - rx)) ->
  q_rep p = double /\ exists q, innovation est w x m g = Ok q /\ is_held p q (rnd (k * rnd (r - rx))).
Proof.
  intros est w t d p x m g rx r k R D P X M G L1 L2. destruct (difference_held est w t d m x r rx R D M X L1) as (Rd & q & Q & Hq).
  destruct (product_held w pure_number d p g q k _ eq_refl Rd P G Hq L2) as (Rp & q' & Q' & Hq'). split; [exact Rp|]. exists q'. split; [|exact Hq'].
  pose proof (sum_fits_dims _ _ _ _ _ D) as De. destruct X as (xa & -> & _). destruct G as (xg & -> & _).
  unfold innovation, is_dimensionless. cbn [q_type]. replace (q_dim (q_type m)) with (q_dim t) by now destruct M. rewrite De. cbn [constrained bind].
  change (dim_equivalent (q_dim pure_number) dim_one) with true. cbn [constrained bind]. rewrite Q. cbn [bind]. exact Q'.
Qed.

Definition step_of (rx r k : R) : R := rnd (k * rnd (r - rx)).
Definition update_of (rx r k : R) : R := rnd (rx + step_of rx r k).
Definition update_small (rx r k : R) : Prop := small_enough (r - rx) /\ small_enough (k * rnd (r - rx)) /\ small_enough (rx + step_of rx r k).
Lemma update_held : forall est w t x m g rx r k, in_doubles t -> update_fits est w t -> is_held t x rx -> reads t m r -> is_held pure_number g k ->
  update_small rx r k -> exists q, state_update est w x m g = Ok q /\ is_held t q (update_of rx r k).
Proof.
  intros est w t x m g rx r k R F X M G (L1 & L2 & L3). unfold update_fits in F. step F as d D. step F as p P. step F as s S.
  destruct (innovation_held est w t d p x m g rx r k R D P X M G L1 L2) as (Rp & q & Q & Hq).
  destruct (sum_held OpAdd est w t p s x q rx _ (or_introl eq_refl) R Rp S X Hq L3) as (Rs & q' & Q' & Hq').
  destruct (to_held est s t q' _ Rs R F Hq') as (q'' & Q'' & Hq''). exists q''. split; [|exact Hq''].
  unfold state_update, q_add. rewrite Q. cbn [bind]. rewrite Q'. cbn [bind]. destruct X as (xa & -> & _). exact Q''.
Qed.

Lemma complement_held : forall g k, is_held pure_number g k -> small_enough (1 - k) ->
  exists q, q_addsub_value OpSub true g (RInt I32) (NInt 1) = Ok q /\ is_held pure_number q (rnd (1 - k)).
Proof.
  intros g k (x & -> & N & V) L. destruct (one_exact F64) as [No Vo]. subst k.
  destruct (op_number OpSub F64 (float_of_int F64 1) x (or_intror eq_refl) No N) as (v & Ov & Nv & Vv); [cbn [rsum]; rewrite Vo; exact L|].
  cbn [rsum] in Vv. rewrite Vo in Vv. exists (Quantity pure_number (NFlt v)). split; [|now exists v].
  unfold q_addsub_value. cbv zeta. cbn [q_type q_num q_rep pure_number q_unit]. change (is_unit_one unit_one) with true. unfold double.
  cbn [arith_rep safe_convertible floating orb andb negb constrained bind]. unfold n_op. cbn [arith_rep n_convert bind]. rewrite (conv_same F64 x) by apply N. now rewrite Ov.
Qed.
Definition covariance_of (u k : R) : R := rnd (rnd (1 - k) * u).
Lemma covariance_held : forall est w t u g r k, in_doubles t -> covariance_fits est w t -> is_held t u r -> is_held pure_number g k ->
  small_enough (1 - k) -> small_enough (rnd (1 - k) * r) -> exists q, covariance_update est w u g = Ok q /\ is_held t q (covariance_of r k).
Proof.
  intros est w t u g r k R [F _] U G L1 L2. step F as p P. destruct (complement_held g k G L1) as (c & C & Hc).
  destruct (product_held w pure_number t p c u _ r eq_refl R P Hc U L2) as (Rp & q & Q & Hq).
  destruct (to_held est p t q _ Rp R F Hq) as (q' & Q' & Hq'). exists q'. split; [|exact Hq'].
  unfold covariance_update. replace (is_dimensionless g) with (@Ok unit tt) by now destruct G as (xg & -> & _). cbn [bind]. rewrite C. cbn [bind]. rewrite Q. cbn [bind].
  destruct U as (xu & -> & _). exact Q'.
Qed.
Lemma extrapolation_held : forall est w t u n r s, in_doubles t -> covariance_fits est w t -> is_held t u r -> is_held t n s -> small_enough (r + s) ->
  exists q, covariance_extrapolation est w u n = Ok q /\ is_held t q (rnd (r + s)).
Proof.
  intros est w t u n r s R [_ F] U N L. step F as c C. destruct (sum_held OpAdd est w t t c u n r s (or_introl eq_refl) R R C U N L) as (Rc & q & Q & Hq).
  destruct (to_held est c t q _ Rc R F Hq) as (q' & Q' & Hq'). exists q'. split; [|exact Hq']. unfold covariance_extrapolation, q_add. rewrite Q. cbn [bind].
  destruct U as (xu & -> & _). exact Q'.
Qed.
