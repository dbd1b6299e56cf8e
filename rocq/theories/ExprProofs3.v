(** Expressions of quantities: formulas in coherent units. *)

From Coq Require Import ZArith QArith Qpower Qabs String List Bool Lia Sorted Lqa SpecFloat.
From Flocq Require Import BinarySingleNaN.
From Verif Require Import Outcome CInt Ratio SpecRatio QTen RatioProofs RatioProofs2 RatioMaths Root TypeList Unit Downcast Dim DimOp Equivalent SpecDim SpecUnit
  StringProofs DimProofs DimOpProofs DimOpProofs2 DimOpProofs3 EquivProofs MagnitudeProofs Rep IntProofs Reference QuantityCast CommonQuantity Quantity
  SpecQuantity CastProofs QuantityProofs SpecReal FloatProofs FloatCastProofs FloatAddProofs Point Expr SpecExpr ExprProofs ExprProofs2.
Import ListNotations.
Local Open Scope Z_scope.
Local Open Scope res_scope.

(** ** Floating-point operations stay in the type *)

Definition fvalid (f : fty) (x : spec_float) : Prop := valid_binary (fprec f) (femax f) x = true.
Lemma mul_valid : forall f x y, fvalid f x -> fvalid f y -> fvalid f (SFmul (fprec f) (femax f) x y).
Proof.
  intros f x y Vx Vy. destruct (B_of f x Vx) as [bx <-]. destruct (B_of f y Vy) as [b_y <-]. rewrite mul_equiv. apply valid_binary_B2SF.
Qed.
Lemma div_valid : forall f x y, fvalid f x -> fvalid f y -> fvalid f (SFdiv (fprec f) (femax f) x y).
Proof.
  intros f x y Vx Vy. destruct (B_of f x Vx) as [bx <-]. destruct (B_of f y Vy) as [b_y <-]. rewrite div_equiv. apply valid_binary_B2SF.
Qed.
Lemma opp_valid : forall f x, fvalid f x -> fvalid f (SFopp x).
Proof. intros f [s|s| |s m e] V; exact V. Qed.
Lemma normalize_valid : forall f m e s, fvalid f (SpecFloat.binary_normalize (fprec f) (femax f) m e s).
Proof. intros f m e s. rewrite normalize_equiv. apply valid_binary_B2SF. Qed.
Lemma as_float_valid : forall f n, fvalid f (as_float f n).
Proof.
  intros f [z|x]; cbn [as_float]; [apply normalize_valid|]. destruct x as [s|s| |s m e]; cbn [float_conv]; try reflexivity.
  apply normalize_valid.
Qed.

Lemma float_n_op : forall f r v x, arith_rep (RFlt f) r = RFlt f -> fvalid f x -> num_ok r v = true -> forall o, o <> OpRem ->
  (exists z, n_op o (RFlt f) r (NFlt x) v = Ok (NFlt z) /\ float_op o f x (as_float f v) = Ok z) /\
  (exists z, n_op o r (RFlt f) v (NFlt x) = Ok (NFlt z) /\ float_op o f (as_float f v) x = Ok z).
Proof.
  intros f r v x A V N o Ho. assert (A' : arith_rep r (RFlt f) = RFlt f).
  { destruct r as [t|g]; [reflexivity|]. cbn in *. destruct f, g; try discriminate A; reflexivity. }
  assert (X : n_convert (RFlt f) (NFlt x) = Ok (NFlt x)) by (cbn [n_convert]; now rewrite conv_same).
  assert (Y : n_convert (RFlt f) v = Ok (NFlt (as_float f v))) by (destruct v; reflexivity).
  unfold n_op. rewrite A, A'. cbv zeta. rewrite X, Y. cbn [bind op_in].
  destruct o; try congruence; cbn [float_op bind]; split; eexists; split; reflexivity.
Qed.

Section System.
Variables (U : bdim -> Prop) (w : world) (est : estimate) (f : fty).
Hypothesis (HU : symbols_identify U) (G : good_system U w) (GO : ordinary_system U w).
Let C := system_consistent U w G.

Definition ok_type (t : qtype) : Prop := in_system U w (q_dim t) /\ coherent t /\ q_rep t = RFlt f.

Lemma system_ordinary : forall d, in_system U w d -> rexp (u_ratio (dimension_unit d)) <> INTMAX_MIN.
Proof.
  intros d (([_ _] & O) & K & _). destruct GO as (B & D).
  assert (X : forall es, downcast_dimension w es = Ok d -> rexp (u_ratio (dimension_unit d)) <> INTMAX_MIN).
  { intros es H. unfold downcast_dimension in H. destruct (downcast bexps_eq_dec (w_dims w) es) as [d'|] eqn:E.
    - inversion H; subst d'. apply downcast_in in E. eapply D; eauto.
    - unfold mk_unknown_dimension in H. step H as l L. inversion H; subst d. discriminate. }
  unfold canonical, to_dimension in K. destruct (exponents d) as [|e [|g l]] eqn:E; try (eapply X; eassumption).
  destruct (is_plus_one e); [|eapply X; eassumption]. inversion K; subst d. apply B. apply O. now left.
Qed.

Lemma ok_div : forall d r, in_system U w d -> r = u_ratio (dimension_unit d) -> rdiv r r = Ok rone.
Proof.
  intros d r D ->. destruct (system_unit_good U w G d D) as (L & S & P). apply rdiv_same; auto; [lia|]. now apply system_ordinary.
Qed.
Lemma ok_common : forall r, ratio_good r -> common_ratio r r = Ok r.
Proof.
  intros r (L & S & P). unfold common_ratio, gcd_frac. rewrite !Z.eqb_refl. cbn [andb bind].
  rewrite mk_ratio_lowest by auto. reflexivity.
Qed.
Lemma ok_downcast : forall d, in_system U w d -> exists u, downcast_unit w d (u_ratio (dimension_unit d)) = Ok u /\
  u_ratio u = u_ratio (dimension_unit d) /\ unit_of u d = true.
Proof.
  intros d D. destruct (system_unit_good U w G d D) as ((L & _) & _ & P).
  assert (E : exists u, downcast_unit w d (u_ratio (dimension_unit d)) = Ok u).
  { unfold downcast_unit. assert (K : unit_ratio_ok (u_ratio (dimension_unit d)) = true).
    { unfold unit_ratio_ok. apply andb_true_iff. split; apply Z.ltb_lt; auto. }
    rewrite K. cbn [constrained bind]. destruct (downcast _ _ _) as [u|]; [eauto|]. unfold scaled_unit. rewrite K. cbn. eauto. }
  destruct E as (u & E). destruct (downcast_unit_ratio _ _ _ _ C E) as (R & O & _). eauto.
Qed.

Lemma ok_convert : forall t1 t2 x, ok_type t1 -> ok_type t2 -> q_dim t1 = q_dim t2 -> fvalid f x ->
  q_convert est t1 t2 (NFlt x) = Ok (NFlt x).
Proof.
  intros t1 t2 x (D1 & (O1 & R1) & F1) (D2 & (O2 & R2) & F2) E V. unfold q_convert. destruct (qtype_eq_dec t1 t2); [reflexivity|].
  assert (De : dim_equivalent (q_dim t2) (q_dim t1) = true) by (rewrite E; apply dim_equivalent_equivalence).
  unfold safe_castable_to. rewrite De, F2. cbn [negb floating bind constrained]. unfold quantity_cast. rewrite De. cbn [constrained bind].
  unfold cast_ratio, same_unit_reference. unfold unit_of in O1, O2. rewrite E in O1, R1. apply String.eqb_eq in O1, O2.
  rewrite O1, O2, String.eqb_refl, R1, R2, (ok_div _ _ D2 eq_refl). cbn [bind]. rewrite F1, F2.
  assert (Cr : cast_rep (RFlt f) (RFlt f) = RFlt f) by now destruct f.
  rewrite (cast_number_eq _ _ _ f (NFlt x) x Cr); [|cbn [n_convert]; now rewrite conv_same].
  unfold rone. rewrite factor_one, mul_one by auto. cbn [n_convert]. now rewrite conv_same.
Qed.

Lemma ok_addsub : forall o t1 t2 x y, o = OpAdd \/ o = OpSub -> ok_type t1 -> ok_type t2 -> q_dim t1 = q_dim t2 -> fvalid f x -> fvalid f y ->
  exists t z, q_addsub o est w (Quantity t1 (NFlt x)) (Quantity t2 (NFlt y)) = Ok (Quantity t (NFlt z)) /\ ok_type t /\ q_dim t = q_dim t1 /\
    float_op o f x y = Ok z.
Proof.
  intros o t1 t2 x y Ho T1 T2 E Vx Vy. pose proof T1 as (D1 & (O1 & R1) & F1). pose proof T2 as (D2 & (O2 & R2) & F2).
  assert (A : arith_rep (RFlt f) (RFlt f) = RFlt f) by now destruct f.
  assert (Ct : exists t, common_quantity est w t1 t2 (RFlt f) = Ok t /\ ok_type t /\ q_dim t = q_dim t1).
  { unfold common_quantity. assert (De : dim_equivalent (q_dim t2) (q_dim t1) = true) by (rewrite E; apply dim_equivalent_equivalence).
    rewrite De. cbn [constrained bind]. unfold common_dim_unit. rewrite <- E.
    destruct (dimension_eq_dec (q_dim t1) (q_dim t1)) as [_|N]; [|congruence].
    destruct (cunit_eq_dec (q_unit t1) (q_unit t2)) as [_|N].
    - cbn [bind fst snd]. unfold mk_qtype. rewrite O1. cbn [constrained bind]. eexists. split; [reflexivity|]. repeat split; auto; try apply D1.
    - rewrite R1, R2, <- E. rewrite ok_common by exact (system_unit_good U w G _ D1). cbn [bind].
      destruct (ok_downcast _ D1) as (u & Eu & Ru & Ou). rewrite Eu. cbn [bind fst snd]. unfold mk_qtype. rewrite Ou. cbn [constrained bind].
      eexists. split; [reflexivity|]. repeat split; auto; try apply D1. }
  destruct Ct as (t & Et & T & Dt). unfold q_addsub. cbn [q_type q_num]. rewrite F1, F2, A. cbv zeta. rewrite Et. cbn [bind].
  rewrite (ok_convert t1 t x) by (auto; congruence). cbn [bind]. rewrite (ok_convert t2 t y) by (auto; congruence). cbn [bind].
  assert (No : num_ok (RFlt f) (NFlt y) = true) by exact Vy.
  assert (Hr : o <> OpRem) by (destruct Ho; subst; discriminate).
  destruct (float_n_op f (RFlt f) (NFlt y) x A Vx No o Hr) as [(z & Ez & Fz) _]. rewrite Ez. cbn [bind n_convert].
  cbn [as_float] in Fz. rewrite conv_same in Fz by auto.
  assert (Vz : fvalid f z).
  { destruct Ho; subst o; cbn [float_op] in Fz; inversion Fz; subst z; [now apply add_valid|now apply sub_valid]. }
  rewrite conv_same by exact Vz. eauto 8.
Qed.

Lemma ok_reference : forall t1 t2 d, ok_type t1 -> ok_type t2 -> in_system U w d ->
  dimension_multiply w (q_dim t1) (q_dim t2) = Ok d ->
  exists u, reference_multiply w (Reference (q_dim t1) (q_unit t1)) (Reference (q_dim t2) (q_unit t2)) = Ok (Reference d u) /\
    ok_type (QType d u (RFlt f)).
Proof.
  intros t1 t2 d (D1 & (O1 & R1) & F1) (D2 & (O2 & R2) & F2) D H. unfold reference_multiply, relative_ratio. cbn [ref_dim ref_unit].
  rewrite H. cbn [bind]. rewrite R1, R2, (ok_div _ _ D1 eq_refl), (ok_div _ _ D2 eq_refl). cbn [bind].
  change (rmul rone rone) with (Ok rone). cbn [bind].
  destruct (system_unit_good U w G d D) as (L & S & P). rewrite rmul_one_l by auto. cbn [bind].
  destruct (ok_downcast d D) as (u & Eu & Ru & Ou). rewrite Eu. cbn [bind]. unfold mk_reference. rewrite Ou. cbn [constrained bind].
  exists u. split; [reflexivity|]. repeat split; auto; apply D.
Qed.
Lemma ok_reference_div : forall t1 t2 d, ok_type t1 -> ok_type t2 -> in_system U w d ->
  dimension_divide w (q_dim t1) (q_dim t2) = Ok d ->
  exists u, reference_divide w (Reference (q_dim t1) (q_unit t1)) (Reference (q_dim t2) (q_unit t2)) = Ok (Reference d u) /\
    ok_type (QType d u (RFlt f)).
Proof.
  intros t1 t2 d (D1 & (O1 & R1) & F1) (D2 & (O2 & R2) & F2) D H. unfold reference_divide, relative_ratio. cbn [ref_dim ref_unit].
  rewrite H. cbn [bind]. rewrite R1, R2, (ok_div _ _ D1 eq_refl), (ok_div _ _ D2 eq_refl). cbn [bind].
  change (rdiv rone rone) with (Ok rone). cbn [bind].
  destruct (system_unit_good U w G d D) as (L & S & P). rewrite rmul_one_l by auto. cbn [bind].
  destruct (ok_downcast d D) as (u & Eu & Ru & Ou). rewrite Eu. cbn [bind]. unfold mk_reference. rewrite Ou. cbn [constrained bind].
  exists u. split; [reflexivity|]. repeat split; auto; apply D.
Qed.

(** Exponents within the weight of the formula are accepted. *)
Lemma whole_expo : forall d b, in_system U w d -> U b -> is_int (dim_expo d b).
Proof. intros d b (N & _ & W) Ub. exact (proj1 (whole_int U d N) W b Ub). Qed.
Lemma bound_multiply : forall d1 d2, in_system U w d1 -> in_system U w d2 ->
  (forall b, U b -> Qabs (dim_expo d1 b + dim_expo d2 b) <= inject_Z INTMAX_MAX)%Q -> exists d, dimension_multiply w d1 d2 = Ok d.
Proof.
  intros d1 d2 D1 D2 B. apply (dimension_multiply_complete U HU); auto; [apply D1|apply D2|]. intros b Ub.
  destruct (is_int_plus _ _ (whole_expo d1 b D1 Ub) (whole_expo d2 b D2 Ub)) as [z Z].
  apply (representable_int z); auto. apply (Qabs_int_le z _ _ Z). now apply B.
Qed.
Lemma bound_divide : forall d1 d2, in_system U w d1 -> in_system U w d2 ->
  (forall b, U b -> Qabs (dim_expo d1 b - dim_expo d2 b) <= inject_Z INTMAX_MAX)%Q -> exists d, dimension_divide w d1 d2 = Ok d.
Proof.
  intros d1 d2 D1 D2 B. apply (dimension_divide_complete U HU); auto; [apply D1|apply D2|]. intros b Ub.
  destruct (is_int_plus _ _ (whole_expo d1 b D1 Ub) (is_int_opp _ (whole_expo d2 b D2 Ub))) as [z Z].
  apply (representable_int z); auto. apply (Qabs_int_le z _ _ Z). now apply B.
Qed.

Lemma weight_nonneg : forall e b, (0 <= weight e b)%Q.
Proof.
  induction e; intros b0; cbn [weight]; auto; try apply Qabs_nonneg; specialize (IHe1 b0); specialize (IHe2 b0); lra.
Qed.

(** Addition of the exponents cannot exceed the sum of the weights. *)
Theorem formula_defined : forall e g, has_dim e g -> formula f e -> all_dims (in_system U w) e ->
  (forall b, U b -> weight e b <= inject_Z INTMAX_MAX)%Q ->
  exists q, eval est w e = Ok q /\ ok_type (q_type q) /\ q_num q = NFlt (bare f e) /\ fvalid f (bare f e) /\
    (forall b, U b -> Qabs (dim_expo (q_dim (q_type q)) b) <= weight e b)%Q.
Proof.
  assert (A : arith_rep (RFlt f) (RFlt f) = RFlt f) by now destruct f.
  assert (Two : forall e1 e2 g1 g2 q1 q2, has_dim e1 g1 -> has_dim e2 g2 -> same_exps g1 g2 -> eval est w e1 = Ok q1 -> eval est w e2 = Ok q2 ->
    ok_type (q_type q1) -> ok_type (q_type q2) -> q_dim (q_type q1) = q_dim (q_type q2)).
  { intros e1 e2 g1 g2 q1 q2 H1 H2 S E1 E2 T1 T2. apply (same_dimension U w HU); [apply T1|apply T2|].
    pose proof (has_dim_unique _ _ _ (eval_has_dim est w C _ _ E1) H1) as X1.
    pose proof (has_dim_unique _ _ _ (eval_has_dim est w C _ _ E2) H2) as X2.
    intros s r. rewrite (X1 s r), (X2 s r). apply S. }
  assert (Scale : forall o (sw : bool) q r v, o <> OpRem -> arith_rep (RFlt f) r = RFlt f -> num_ok r v = true -> ok_type (q_type q) ->
    forall x, q_num q = NFlt x -> fvalid f x ->
    exists z, q_scale o sw q r v = Ok (Quantity (q_type q) (NFlt z)) /\
      (if sw then float_op o f (as_float f v) x else float_op o f x (as_float f v)) = Ok z).
  { intros o sw q r v Ho Ar Nv (D & Co & R) x Nx Vx. unfold q_scale. cbv zeta. rewrite R, Ar, Nx. cbn [safe_convertible floating orb constrained bind].
    destruct (float_n_op f r v x Ar Vx Nv o Ho) as [(z1 & E1 & F1) (z2 & E2 & F2)].
    destruct q as [t n]. cbn [q_type] in *. destruct t as [d u r0]. cbn [q_rep] in R. subst r0. unfold with_rep. cbn [q_dim q_unit].
    destruct sw; [rewrite E2|rewrite E1]; cbn [bind]; eauto. }
  induction e as [q0|a IHa|a IHa|a IHa b IHb|a IHa b IHb|a IHa b IHb|a IHa b IHb|a IHa b IHb|a IHa r v|r v a IHa|a IHa r v|r v a IHa|a IHa r v|t a IHa|c a IHa];
    intros g Hd F Al W; cbn [formula all_dims weight eval bare] in *; try contradiction.
  - destruct F as (Co & R & N). destruct q0 as [t n]. cbn [q_type q_num] in *. destruct n as [z|x]; [discriminate N|].
    exists (Quantity t (NFlt x)). cbn [as_float q_type q_num]. rewrite conv_same by exact N. repeat split; auto; try apply Al; try apply Co.
    intros b _. apply Qle_refl.
  - inversion Hd; subst. match goal with Hx : has_dim a g |- _ => destruct (IHa _ Hx F Al W) as (q & E & T & N & V & B) end. rewrite E. cbn [bind]. unfold q_plus. cbv zeta.
    destruct q as [[d u r0] n]. pose proof T as (D & Co & R). cbn [q_type q_num q_rep] in *. subst r0 n. cbn [promote_rep n_convert bind].
    rewrite conv_same by exact V. cbn [bind]. eexists. split; [reflexivity|]. auto.
  - inversion Hd; subst. match goal with Hx : has_dim a g |- _ => destruct (IHa _ Hx F Al W) as (q & E & T & N & V & B) end. rewrite E. cbn [bind]. unfold q_neg. cbv zeta.
    destruct q as [[d u r0] n]. pose proof T as (D & Co & R). cbn [q_type q_num q_rep] in *. subst r0 n. cbn [promote_rep n_neg bind].
    eexists. split; [reflexivity|]. split; [exact T|]. split; [reflexivity|]. split; [now apply opp_valid|exact B].
  - inversion Hd; subst. destruct F as [F1 F2]. destruct Al as [A1 A2].
    assert (W1 : (forall x, U x -> weight a x <= inject_Z INTMAX_MAX)%Q) by (intros x Hx; specialize (W x Hx); pose proof (weight_nonneg b x); lra).
    assert (W2 : (forall x, U x -> weight b x <= inject_Z INTMAX_MAX)%Q) by (intros x Hx; specialize (W x Hx); pose proof (weight_nonneg a x); lra).
    destruct (IHa _ H1 F1 A1 W1) as (qa & Ea & Ta & Na & Va & Ba). destruct (IHb _ H3 F2 A2 W2) as (qb & Eb & Tb & Nb & Vb & Bb).
    pose proof (Two _ _ _ _ _ _ H1 H3 (same_refl g) Ea Eb Ta Tb) as Ed. rewrite Ea, Eb. cbn [bind].
    destruct qa as [ta xa], qb as [tb xb]. cbn [q_type q_num] in *. subst xa xb.
    destruct (ok_addsub OpAdd ta tb _ _ (or_introl eq_refl) Ta Tb Ed Va Vb) as (t & z & E & T & Dt & Z).
    exists (Quantity t (NFlt z)). unfold q_add. split; [exact E|]. cbn [float_op] in Z. inversion Z; subst z. split; [exact T|]. split; [reflexivity|].
    split; [now apply add_valid|]. cbn [q_type]. rewrite Dt. intros x Hx. specialize (Ba x Hx). pose proof (weight_nonneg b x). lra.
  - inversion Hd; subst. destruct F as [F1 F2]. destruct Al as [A1 A2].
    assert (W1 : (forall x, U x -> weight a x <= inject_Z INTMAX_MAX)%Q) by (intros x Hx; specialize (W x Hx); pose proof (weight_nonneg b x); lra).
    assert (W2 : (forall x, U x -> weight b x <= inject_Z INTMAX_MAX)%Q) by (intros x Hx; specialize (W x Hx); pose proof (weight_nonneg a x); lra).
    destruct (IHa _ H1 F1 A1 W1) as (qa & Ea & Ta & Na & Va & Ba). destruct (IHb _ H3 F2 A2 W2) as (qb & Eb & Tb & Nb & Vb & Bb).
    pose proof (Two _ _ _ _ _ _ H1 H3 (same_refl g) Ea Eb Ta Tb) as Ed. rewrite Ea, Eb. cbn [bind].
    destruct qa as [ta xa], qb as [tb xb]. cbn [q_type q_num] in *. subst xa xb.
    destruct (ok_addsub OpSub ta tb _ _ (or_intror eq_refl) Ta Tb Ed Va Vb) as (t & z & E & T & Dt & Z).
    exists (Quantity t (NFlt z)). unfold q_sub. split; [exact E|]. cbn [float_op] in Z. inversion Z; subst z. split; [exact T|]. split; [reflexivity|].
    split; [now apply sub_valid|]. cbn [q_type]. rewrite Dt. intros x Hx. specialize (Ba x Hx). pose proof (weight_nonneg b x). lra.
  - inversion Hd; subst. destruct F as [F1 F2]. destruct Al as [A1 A2].
    assert (W1 : (forall x, U x -> weight a x <= inject_Z INTMAX_MAX)%Q) by (intros x Hx; specialize (W x Hx); pose proof (weight_nonneg b x); lra).
    assert (W2 : (forall x, U x -> weight b x <= inject_Z INTMAX_MAX)%Q) by (intros x Hx; specialize (W x Hx); pose proof (weight_nonneg a x); lra).
    destruct (IHa _ H1 F1 A1 W1) as (qa & Ea & Ta & Na & Va & Ba). destruct (IHb _ H2 F2 A2 W2) as (qb & Eb & Tb & Nb & Vb & Bb).
    rewrite Ea, Eb. cbn [bind]. destruct qa as [ta xa], qb as [tb xb]. cbn [q_type q_num] in *. subst xa xb.
    assert (Bd : (forall x, U x -> Qabs (dim_expo (q_dim ta) x + dim_expo (q_dim tb) x) <= weight a x + weight b x)%Q).
    { intros x Hx. eapply Qle_trans; [apply Qabs_triangle|]. specialize (Ba x Hx). specialize (Bb x Hx). lra. }
    destruct (bound_multiply (q_dim ta) (q_dim tb) (proj1 Ta) (proj1 Tb)) as (d & Ed).
    { intros x Hx. eapply Qle_trans; [now apply Bd|now apply W]. }
    pose proof (multiply_in_system U w HU G _ _ _ (proj1 Ta) (proj1 Tb) Ed) as Dd.
    destruct (ok_reference ta tb d Ta Tb Dd Ed) as (u & Eu & Tu). pose proof Ta as (_ & _ & Ra). pose proof Tb as (_ & _ & Rb).
    unfold q_times. cbn [q_type q_num]. cbv zeta. rewrite Eu, Ra, Rb, A. cbn [bind ref_dim ref_unit].
    assert (Hr : OpMul <> OpRem) by discriminate.
    destruct (float_n_op f (RFlt f) (NFlt (bare f b)) (bare f a) A Va Vb OpMul Hr) as [(z & Ez & Fz) _]. rewrite Ez. cbn [bind].
    cbn [as_float] in Fz. rewrite conv_same in Fz by exact Vb. cbn [float_op] in Fz. inversion Fz; subst z.
    eexists. split; [reflexivity|]. split; [exact Tu|]. split; [reflexivity|]. split; [now apply mul_valid|].
    intros x Hx. cbn [q_type q_dim]. rewrite (multiply_expo _ _ _ _ C Ed x). now apply Bd.
  - inversion Hd; subst. destruct F as [F1 F2]. destruct Al as [A1 A2].
    assert (W1 : (forall x, U x -> weight a x <= inject_Z INTMAX_MAX)%Q) by (intros x Hx; specialize (W x Hx); pose proof (weight_nonneg b x); lra).
    assert (W2 : (forall x, U x -> weight b x <= inject_Z INTMAX_MAX)%Q) by (intros x Hx; specialize (W x Hx); pose proof (weight_nonneg a x); lra).
    destruct (IHa _ H1 F1 A1 W1) as (qa & Ea & Ta & Na & Va & Ba). destruct (IHb _ H2 F2 A2 W2) as (qb & Eb & Tb & Nb & Vb & Bb).
    rewrite Ea, Eb. cbn [bind]. destruct qa as [ta xa], qb as [tb xb]. cbn [q_type q_num] in *. subst xa xb.
    assert (Bd : (forall x, U x -> Qabs (dim_expo (q_dim ta) x - dim_expo (q_dim tb) x) <= weight a x + weight b x)%Q).
    { intros x Hx. unfold Qminus. eapply Qle_trans; [apply Qabs_triangle|]. rewrite Qabs_opp. specialize (Ba x Hx). specialize (Bb x Hx). lra. }
    destruct (bound_divide (q_dim ta) (q_dim tb) (proj1 Ta) (proj1 Tb)) as (d & Ed).
    { intros x Hx. eapply Qle_trans; [now apply Bd|now apply W]. }
    pose proof (divide_in_system U w HU G _ _ _ (proj1 Ta) (proj1 Tb) Ed) as Dd.
    destruct (ok_reference_div ta tb d Ta Tb Dd Ed) as (u & Eu & Tu). pose proof Ta as (_ & _ & Ra). pose proof Tb as (_ & _ & Rb).
    unfold q_over. cbn [q_type q_num]. cbv zeta. rewrite Eu, Ra, Rb, A. cbn [bind ref_dim ref_unit].
    assert (Hr : OpDiv <> OpRem) by discriminate.
    destruct (float_n_op f (RFlt f) (NFlt (bare f b)) (bare f a) A Va Vb OpDiv Hr) as [(z & Ez & Fz) _]. rewrite Ez. cbn [bind].
    cbn [as_float] in Fz. rewrite conv_same in Fz by exact Vb. cbn [float_op] in Fz. inversion Fz; subst z.
    eexists. split; [reflexivity|]. split; [exact Tu|]. split; [reflexivity|]. split; [now apply div_valid|].
    intros x Hx. cbn [q_type q_dim].
    destruct (dimension_divide_ok U HU w _ _ _ C (proj1 (proj1 Ta)) (proj1 (proj1 Tb)) Ed) as (_ & _ & Vd). rewrite Vd. now apply Bd.
  - inversion Hd; subst. destruct F as (Ar & Nv & F). match goal with Hx : has_dim a g |- _ => destruct (IHa _ Hx F Al W) as (q & E & T & N & V & B) end. rewrite E. cbn [bind].
    assert (Hr : OpMul <> OpRem) by discriminate.
    destruct (Scale OpMul false q r v Hr Ar Nv T _ N V) as (z & Ez & Fz). unfold q_mul_value. rewrite Ez. inversion Fz; subst z.
    eexists. split; [reflexivity|]. split; [exact T|]. split; [reflexivity|]. split; [apply mul_valid; [exact V|apply as_float_valid]|exact B].
  - inversion Hd; subst. destruct F as (Ar & Nv & F). match goal with Hx : has_dim a g |- _ => destruct (IHa _ Hx F Al W) as (q & E & T & N & V & B) end. rewrite E. cbn [bind].
    assert (Hr : OpMul <> OpRem) by discriminate.
    destruct (Scale OpMul true q r v Hr Ar Nv T _ N V) as (z & Ez & Fz). unfold value_mul_q. rewrite Ez. inversion Fz; subst z.
    eexists. split; [reflexivity|]. split; [exact T|]. split; [reflexivity|]. split; [apply mul_valid; [apply as_float_valid|exact V]|exact B].
  - inversion Hd; subst. destruct F as (Ar & Nv & F). match goal with Hx : has_dim a g |- _ => destruct (IHa _ Hx F Al W) as (q & E & T & N & V & B) end. rewrite E. cbn [bind].
    assert (Hr : OpDiv <> OpRem) by discriminate.
    destruct (Scale OpDiv false q r v Hr Ar Nv T _ N V) as (z & Ez & Fz). unfold q_div_value. rewrite Ez. inversion Fz; subst z.
    eexists. split; [reflexivity|]. split; [exact T|]. split; [reflexivity|]. split; [apply div_valid; [exact V|apply as_float_valid]|exact B].
  - inversion Hd; subst. destruct F as (Co & R & F). destruct Al as [At Al]. destruct (IHa _ H1 F Al W) as (q & E & T & N & V & B). rewrite E. cbn [bind].
    assert (Tt : ok_type t) by (split; [exact At|split; [exact Co|exact R]]).
    assert (Ed : q_dim (q_type q) = q_dim t).
    { apply (same_dimension U w HU); [apply T|exact At|]. pose proof (has_dim_unique _ _ _ (eval_has_dim est w C _ _ E) H1) as X.
      intros s r0. rewrite (X s r0). symmetry. apply H3. }
    unfold q_to. rewrite N, (ok_convert _ _ _ T Tt Ed V). cbn [bind]. eexists. split; [reflexivity|]. split; [exact Tt|]. split; [reflexivity|].
    split; [exact V|]. cbn [q_type]. now rewrite <- Ed.
Qed.
End System.
