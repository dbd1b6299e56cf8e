(** Expressions of floating-point quantities in any units. *)

From Coq Require Import ZArith QArith Qpower Qreals Reals Bool Lia Lra SpecFloat String List.
From Flocq Require Import Core BinarySingleNaN.
From Verif Require Import Outcome CInt Root Ratio SpecRatio RatioMaths RatioProofs2 Unit Downcast Dim DimOp Equivalent SpecDim SpecUnit Rep Reference QuantityCast CommonQuantity Quantity
  SpecQuantity DimProofs DimOpProofs DimOpProofs2 DimOpProofs3 EquivProofs MagnitudeProofs CastProofs QuantityProofs QuantityProofs2 QuantityProofs3 QuantityProofs4
  SpecReal FloatProofs FloatCastProofs FloatAddProofs SpecOrder FloatOrderProofs
  Point Expr SpecExpr ExprProofs ExprProofs2 ExprProofs3 ErrorProofs SpecRounding.
Local Open Scope R_scope.
Local Open Scope res_scope.

(** ** Relative errors *)

Lemma near_plus : forall f k x y r s, 0 <= r * s -> near f k x r -> near f k y s -> near f k (x + y) (r + s).
Proof.
  intros f k x y r s P (t & -> & A & B) (v & -> & C & D). destruct (Req_dec (r + s) 0) as [Z|Z].
  - assert (Hs : s = - r) by lra. subst s. assert (Hr : r = 0).
    { apply Rsqr_0_uniq. unfold Rsqr. pose proof (Rle_0_sqr r) as Q. unfold Rsqr in Q. lra. }
    subst r. exists 1. pose proof (grow_ge1 f k) as G. split; [ring|]. split; [|lra].
    apply Rle_trans with (/ 1); [apply Rinv_le; lra|lra].
  - exists ((r * t + s * v) / (r + s)). split; [now field|]. set (lo := / (1 + roundoff f) ^ k) in *. set (hi := (1 + roundoff f) ^ k) in *.
    assert (Sg : (0 < r + s /\ 0 <= r /\ 0 <= s) \/ (r + s < 0 /\ r <= 0 /\ s <= 0)).
    { destruct (Rlt_le_dec (r + s) 0); [right|left]; repeat split; nra. }
    assert (E1 : r * t + s * v = lo * (r + s) + (r * (t - lo) + s * (v - lo))) by ring.
    assert (E2 : r * t + s * v = hi * (r + s) - (r * (hi - t) + s * (hi - v))) by ring.
    destruct Sg as [(S & R1 & R2)|(S & R1 & R2)]; split.
    + apply Rmult_le_reg_r with (r + s); [lra|]. unfold Rdiv. rewrite Rmult_assoc, Rinv_l by lra. nra.
    + apply Rmult_le_reg_r with (r + s); [lra|]. unfold Rdiv. rewrite Rmult_assoc, Rinv_l by lra. nra.
    + apply Rmult_le_reg_r with (- (r + s)); [lra|]. replace ((r * t + s * v) / (r + s) * - (r + s)) with (- (r * t + s * v)) by (field; lra). nra.
    + apply Rmult_le_reg_r with (- (r + s)); [lra|]. replace ((r * t + s * v) / (r + s) * - (r + s)) with (- (r * t + s * v)) by (field; lra). nra.
Qed.
Lemma near_opp : forall f k x r, near f k x r -> near f k (- x) (- r).
Proof. intros f k x r (t & -> & H). exists t. split; [ring|exact H]. Qed.
Lemma near_scale : forall f k x r c, near f k x r -> near f k (x * c) (r * c).
Proof. intros f k x r c (t & -> & H). exists t. split; [ring|exact H]. Qed.
Lemma near_unscale : forall f k x r c, c <> 0 -> near f k (x * c) r -> near f k x (r / c).
Proof. intros f k x r c N (t & E & H). exists t. split; [|exact H]. apply Rmult_eq_reg_r with c; auto. rewrite E. now field. Qed.
Lemma near_eq : forall f k x x' r r', x = x' -> r = r' -> near f k x r -> near f k x' r'.
Proof. now intros f k x x' r r' -> ->. Qed.

Lemma size_pos : forall est t m, sized est t m -> 0 < Q2R m.
Proof. intros est t m S. replace 0 with (Q2R 0) by (unfold Q2R; cbn; lra). apply Qlt_Rlt. exact (sized_pos _ _ _ S). Qed.
Lemma size_unique : forall est t m m', sized est t m -> sized est t m' -> Q2R m = Q2R m'.
Proof. intros est t m m' S S'. apply Qeq_eqR. exact (sized_unique _ _ _ _ S S'). Qed.

(** ** Factors and conversions *)

Lemma factor_exact : forall f c, ratio_good c -> exact_factor f c -> is_number f (cast_factor f c) /\ fval (cast_factor f c) = Q2R (rval c).
Proof.
  intros f c G (k & Ek & He & H5 & Hn & Hd & Hp & Hk). assert (Dp : (0 < rden c)%Z) by apply G.
  assert (Qk : Q2R (rval c) = IZR k).
  { rewrite Q2R_rval by lia. rewrite powerRZ_Z by auto. rewrite <- mult_IZR, Ek, mult_IZR. field. apply IZR_neq. lia. }
  destruct (of_int_holds f _ Hn) as [A1 B1]. destruct (of_int_holds f _ Hd) as [A2 B2].
  destruct (fpow10_exact f _ He H5) as [A3 B3]. rewrite powerRZ_Z in B3 by auto.
  destruct (mul_holds f _ _ _ _ A1 A3 B1 B3 Hp) as [A4 B4].
  destruct (div_holds f _ _ _ _ k A4 A2 B4 B2) as [A5 B5]; [lia|lia|auto|]. split; [exact A5|]. rewrite Qk. exact B5.
Qed.

Lemma factor_cost : forall est f from to m1 m2 k, sized est from m1 -> sized est to m2 -> references_ok from to -> factor_costs est f from to k ->
  exists c, cast_ratio est (q_dim from) (q_unit from) (q_dim to) (q_unit to) = Ok c /\
    is_number f (cast_factor f c) /\ near f k (fval (cast_factor f c)) (Q2R m1 / Q2R m2).
Proof.
  intros est f from to m1 m2 k S1 S2 R (c & Hc & K). exists c. split; [exact Hc|].
  destruct (sized_parts _ _ _ S1) as (G1 & X1 & M1). destruct (sized_parts _ _ _ S2) as (G2 & X2 & M2).
  destruct (cast_ratio_magnitude _ _ _ _ _ _ G1 G2 X1 X2 R M1 M2 Hc) as [Q G].
  rewrite <- Q2R_div by (apply pos_nz; exact (sized_pos _ _ _ S2)). rewrite <- (Qeq_eqR _ _ Q).
  destruct K as [[K ->]|[K ->]].
  - destruct (factor_exact f c G K) as [A ->]. split; [exact A|apply near_refl].
  - exact (factor_near f c G K).
Qed.

Lemma cast_value : forall est f from to m1 m2 n r k j, sized est from m1 -> sized est to m2 -> references_ok from to ->
  dim_equivalent (q_dim to) (q_dim from) = true -> cast_rep (q_rep from) (RFlt f) = RFlt f -> q_rep to = RFlt f ->
  is_value (q_rep from) n -> near f k (nval n * Q2R m1) r -> factor_costs est f from to j -> mid_range f (r / Q2R m2) ->
  (Z.of_nat (k + entry_costs (q_rep from) + j) <= 2 ^ 23)%Z ->
  exists y, quantity_cast est from to n = Ok (NFlt y) /\ is_number f y /\ near f (k + entry_costs (q_rep from) + j + 1) (fval y * Q2R m2) r.
Proof.
  intros est f from to m1 m2 n r k j S1 S2 R De Cr Rt V N K M L.
  destruct (factor_cost _ _ _ _ _ _ _ S1 S2 R K) as (c & Hc & Nc & Fc). pose proof (size_pos _ _ _ S1) as P1. pose proof (size_pos _ _ _ S2) as P2.
  destruct (source_near _ _ _ _ Cr V) as (x & Ex & Nx & Vx). fold (entry_costs (q_rep from)) in Vx.
  assert (Nn : near f (k + entry_costs (q_rep from)) (fval x) (r / Q2R m1)).
  { rewrite Nat.add_comm. eapply near_trans; [exact Vx|]. apply near_unscale; [lra|exact N]. }
  assert (Er : r / Q2R m1 * (Q2R m1 / Q2R m2) = r / Q2R m2) by (field; lra).
  destruct (mul_near f _ _ _ _ _ _ Nx Nc Nn Fc) as [A B]; [exact L|now rewrite Er|]. rewrite Er in B.
  exists (SFmul (fprec f) (femax f) x (cast_factor f c)). split; [|split; [exact A|]].
  - unfold quantity_cast. rewrite De. cbn [constrained bind]. rewrite Hc. cbn [bind]. rewrite Rt.
    rewrite (cast_number_eq _ _ _ f n x Cr Ex). cbn [n_convert]. now rewrite conv_same by apply A.
  - apply (near_eq f _ _ _ (r / Q2R m2 * Q2R m2) _ eq_refl); [field; lra|]. now apply near_scale.
Qed.

Lemma convert_value : forall est f from to m1 m2 n r k j, sized est from m1 -> sized est to m2 -> references_ok from to ->
  dim_equivalent (q_dim to) (q_dim from) = true -> cast_rep (q_rep from) (RFlt f) = RFlt f -> q_rep to = RFlt f ->
  is_value (q_rep from) n -> near f k (nval n * Q2R m1) r -> conversion_costs est f from to j -> mid_range f (r / Q2R m2) ->
  (Z.of_nat (k + j) <= 2 ^ 23)%Z ->
  exists y, q_convert est from to n = Ok (NFlt y) /\ is_number f y /\ near f (k + j) (fval y * Q2R m2) r.
Proof.
  intros est f from to m1 m2 n r k j S1 S2 R De Cr Rt V N K M L. unfold q_convert. destruct (qtype_eq_dec from to) as [<-|Ne].
  - destruct K as [[_ ->]|[K _]]; [|now elim K]. rewrite Nat.add_0_r. rewrite Rt in V. destruct n as [z|v]; [contradiction|].
    exists v. split; [reflexivity|]. split; [exact V|]. rewrite (size_unique _ _ _ _ S2 S1). exact N.
  - destruct K as [[E _]|[_ (i & K & ->)]]; [now elim Ne|]. rewrite (safe_to_float est from to f Rt De). cbn [bind constrained].
    destruct (cast_value _ _ _ _ _ _ _ _ _ _ S1 S2 R De Cr Rt V N K M) as (y & H); [lia|]. exists y.
    now replace (k + (entry_costs (q_rep from) + i + 1))%nat with (k + entry_costs (q_rep from) + i + 1)%nat by lia.
Qed.

(** ** Whole expressions *)

Section System.
Variable U : bdim -> Prop.
Variable w : world.
Hypothesis HU : symbols_identify U.
Hypothesis G : good_system U w.
Variable est : estimate.
Variable f : fty.
Let P := in_system U w.

(** What is known of the result of a part. *)
Definition part (q : quantity) (r : R) (k : nat) : Prop :=
  P (q_dim (q_type q)) /\ exists x m, q_rep (q_type q) = RFlt f /\ q_num q = NFlt x /\ is_number f x /\ sized est (q_type q) m /\
    near f k (fval x * Q2R m) r.

Lemma same_float : arith_rep (RFlt f) (RFlt f) = RFlt f.
Proof. now destruct f. Qed.
Lemma same_cast : cast_rep (RFlt f) (RFlt f) = RFlt f.
Proof. now destruct f. Qed.
Lemma with_size : forall t m r, sized est t m -> sized est (with_rep t r) m.
Proof. intros [d u r0] m r S. exact (sized_rep _ _ _ r S). Qed.

Lemma value_as_float : forall p v, arith_rep (RFlt f) p = RFlt f -> is_value p v ->
  num_ok p v = true /\ is_number f (as_float f v) /\ near f (entry_costs p) (fval (as_float f v)) (nval v).
Proof.
  intros p v A V. assert (C : cast_rep p (RFlt f) = RFlt f).
  { destruct p as [t|g]; [reflexivity|]. cbn in *. destruct f, g; try discriminate A; reflexivity. }
  split; [destruct p, v; try contradiction; [exact V|apply V]|].
  destruct (source_near _ _ _ _ C V) as (x & E & N & H). assert (x = as_float f v) by (destruct v; cbn in E |- *; congruence). subst x. now split.
Qed.

(** The unit of [v / q]. *)
Lemma inverse_size : forall qa q p v ma m, value_div_q w p v qa = Ok q -> sized est (q_type qa) ma -> sized est (q_type q) m ->
  (rval (u_ratio (dimension_unit (q_dim (q_type qa)))) * rval (u_ratio (dimension_unit (q_dim (q_type q)))) == 1)%Q -> Q2R m = / Q2R ma.
Proof.
  intros qa q p v ma m H Sa Sq Co. assert (C : consistent w) by apply G. pose proof (size_pos _ _ _ Sa) as Pa.
  rewrite <- Q2R_inv by (apply pos_nz; exact (sized_pos _ _ _ Sa)). apply Qeq_eqR.
  destruct Sa as ((D & U') & O & X & M). destruct Sq as (((_ & Gd) & _) & _ & _ & Mq).
  unfold value_div_q in H. cbv zeta in H. step H as c0 E0. step H as d Ed. step H as r Er. step H as u Eu. step H as x Ex. inversion H; subst q; clear H.
  cbn [q_type q_dim q_unit] in *. destruct (rinv_good _ _ U' Er) as [Vr Gr]. destruct (downcast_unit_ratio _ _ _ _ C Eu) as (Ru & _).
  destruct D as [De Du]. assert (EN : entries (exponents (q_dim (q_type qa)))) by exact De.
  destruct (invert_entries _ _ _ C EN Ed) as [Sq' En]. destruct M as (b & (Hb & Pb & Sb) & Vb).
  apply (magnitude_unique d u _ _ Mq). exists (/ b)%Q. split.
  - split; [|split].
    + unfold entries in En. rewrite Forall_forall in *. intros e He. apply En, He.
    + now apply Qinv_lt_0_compat.
    + rewrite Sq', <- Sb. now rewrite Qinv_power.
  - rewrite Ru, Vr, Vb. apply good_pos in U', Du, Gd.
    transitivity ((rval (u_ratio (dimension_unit (q_dim (q_type qa)))) * rval (u_ratio (dimension_unit d))) /
      (b * rval (u_ratio (q_unit (q_type qa))) * rval (u_ratio (dimension_unit d))))%Q.
    + field. repeat split; apply pos_nz; assumption.
    + rewrite Co. field. repeat split; apply pos_nz; assumption.
Qed.

(** A product or quotient of two numbers of the format. *)
Lemma product : forall x y r s m k l, is_number f x -> is_number f y -> near f k (fval x) r -> near f l (fval y) s ->
  m <> 0 -> (Z.of_nat (k + l) <= 2 ^ 23)%Z -> mid_range f (r * s) ->
  exists z, float_op OpMul f x y = Ok z /\ is_number f z /\ near f (k + l + 1) (fval z * m) (r * s * m).
Proof.
  intros x y r s m k l Nx Ny Kx Ky Hm L M. destruct (mul_near f k l x y r s Nx Ny Kx Ky L M) as [A B].
  eexists. split; [reflexivity|]. split; [exact A|]. now apply near_scale.
Qed.
Lemma quotient : forall x y r s m k l, is_number f x -> is_number f y -> near f k (fval x) r -> near f l (fval y) s -> s <> 0 ->
  m <> 0 -> (Z.of_nat (k + l) <= 2 ^ 23)%Z -> mid_range f (r / s) ->
  exists z, float_op OpDiv f x y = Ok z /\ is_number f z /\ near f (k + l + 1) (fval z * m) (r / s * m).
Proof.
  intros x y r s m k l Nx Ny Kx Ky Hs Hm L M. destruct (div_near f k l x y r s Nx Ny Kx Ky Hs L M) as [A B].
  eexists. split; [reflexivity|]. split; [exact A|]. now apply near_scale.
Qed.

Lemma scaled : forall o (sw : bool) q p v r k s, o <> OpRem -> arith_rep (RFlt f) p = RFlt f -> is_value p v -> part q r k ->
  q_scale o sw q p v = Ok s ->
  P (q_dim (q_type s)) /\ exists x m z, q_num q = NFlt x /\ is_number f x /\ near f k (fval x) (r / Q2R m) /\ 0 < Q2R m /\
    sized est (q_type s) m /\ q_rep (q_type s) = RFlt f /\ q_num s = NFlt z /\
    (if sw then float_op o f (as_float f v) x else float_op o f x (as_float f v)) = Ok z.
Proof.
  intros o sw q p v r k s Ho Ar V (D & x & m & R & N & Nx & S & K) H. destruct (value_as_float p v Ar V) as (Nv & _ & _).
  unfold q_scale in H. cbv zeta in H. rewrite R, Ar, N in H. cbn [safe_convertible floating orb constrained bind] in H.
  destruct (float_n_op f p v x Ar (proj1 Nx) Nv o Ho) as [(z1 & E1 & F1) (z2 & E2 & F2)].
  pose proof (size_pos _ _ _ S) as Pm.
  destruct sw; [rewrite E2 in H|rewrite E1 in H]; cbn [bind] in H; inversion H; subst s; cbn [q_type q_num with_rep q_dim q_rep];
    (split; [exact D|]); eexists x, m, _; (split; [exact N|]); (split; [exact Nx|]);
    (split; [apply near_unscale; [lra|exact K]|]); (split; [exact Pm|]); (split; [exact (with_size _ _ _ S)|]); auto.
Qed.

Lemma summed : forall o a b r s k l ka kb m q, sum_op o -> 0 <= r * rsum o 0 s -> part a r k -> part b s l -> q_addsub o est w a b = Ok q ->
  conversion_costs est f (q_type a) (q_type q) ka -> conversion_costs est f (q_type b) (q_type q) kb -> sized est (q_type q) m ->
  mid_range f (r / Q2R m) -> mid_range f (s / Q2R m) -> mid_range f (rsum o r s / Q2R m) ->
  (Z.of_nat (Nat.max (k + ka) (l + kb)) < 2 ^ 22)%Z -> part q (rsum o r s) (Nat.max (k + ka) (l + kb) + 1).
Proof.
  intros o a b r s k l ka kb m q Ho Sg (Da & xa & ma & Ra & Na & Fa & Sa & Va) (Db & xb & mb & Rb & Nb & Fb & Sb & Vb) H Ca Cb Sq Mr Ms Mt L.
  assert (C : consistent w) by apply G.
  pose proof (addsub_dims _ _ _ _ _ _ H) as [E1 _]. apply equivalent_exps in E1. pose proof (same_dimension U w HU _ _ Db Da E1) as E.
  assert (Cm : compatible (q_type a) (q_type b)).
  { split; [apply references_ok_refl; now rewrite E|]. intros _. rewrite E. reflexivity. }
  unfold q_addsub in H. cbv zeta in H. rewrite Ra, Rb, same_float in H. step H as t Et. 
  destruct (common_quantity_sized _ _ _ _ _ _ _ _ C Sa Sb Cm Et) as (m' & S' & CM & Rt & Fta & Ftb & Dta & Dtb & Dt).
  step H as x Ex. step H as y Ey. step H as z0 Ez. step H as z1 Ez1. inversion H; subst q; clear H. cbn [q_type q_num] in *.
  assert (Va' : is_value (q_rep (q_type a)) (q_num a)) by now rewrite Ra, Na.
  assert (Vb' : is_value (q_rep (q_type b)) (q_num b)) by now rewrite Rb, Nb.
  rewrite Na in Va'. rewrite Nb in Vb'. rewrite Na in Ex. rewrite Nb in Ey.
  destruct (convert_value est f (q_type a) t ma m (NFlt xa) r k ka Sa Sq Fta Dta) as (x' & Ex' & Nx & Kx); auto; [rewrite Ra; apply same_cast|lia|].
  destruct (convert_value est f (q_type b) t mb m (NFlt xb) s l kb Sb Sq Ftb Dtb) as (y' & Ey' & Ny & Ky); auto; [rewrite Rb; apply same_cast|lia|].
  rewrite Ex in Ex'. rewrite Ey in Ey'. inversion Ex'; subst x. inversion Ey'; subst y. clear Ex' Ey'.
  set (K := Nat.max (k + ka) (l + kb)) in *. pose proof (size_pos _ _ _ Sq) as Pm.
  assert (Kx' : near f K (fval x') (r / Q2R m)) by (apply near_unscale; [lra|]; apply (near_weaken f (k + ka)); [lia|exact Kx]).
  assert (Ky' : near f K (fval y') (s / Q2R m)) by (apply near_unscale; [lra|]; apply (near_weaken f (l + kb)); [lia|exact Ky]).
  assert (Ks : near f K (rsum o (fval x') (fval y')) (rsum o r s / Q2R m)).
  { destruct Ho as [->| ->]; cbn [rsum] in *.
    - replace ((r + s) / Q2R m) with (r / Q2R m + s / Q2R m) by (field; lra). apply near_plus; auto.
      replace (r / Q2R m * (s / Q2R m)) with (r * s * (/ Q2R m * / Q2R m)) by (field; lra). pose proof (Rinv_0_lt_compat _ Pm). nra.
    - replace ((r - s) / Q2R m) with (r / Q2R m + - (s / Q2R m)) by (field; lra). unfold Rminus. apply near_plus; auto; [|now apply near_opp].
      replace (r / Q2R m * - (s / Q2R m)) with (- (r * s) * (/ Q2R m * / Q2R m)) by (field; lra). pose proof (Rinv_0_lt_compat _ Pm). nra. }
  destruct (mid_bounds f K _ _ ltac:(lia) Mt Ks) as [_ Bd].
  destruct (op_number o f x' y' Ho Nx Ny) as (z & Oz & Nz & Vz).
  { apply frnd_lt_emax with (e := (femax f - 1)%Z); [apply emin_small|lia|exact Bd]. }
  assert (Z0 : z0 = NFlt z).
  { unfold n_op in Ez. rewrite same_float in Ez. cbn [n_convert bind] in Ez. rewrite (conv_same f x') in Ez by apply Nx.
    rewrite (conv_same f y') in Ez by apply Ny. rewrite Oz in Ez. now inversion Ez. }
  subst z0. cbn [n_convert] in Ez1. rewrite (conv_same f z) in Ez1 by apply Nz. inversion Ez1; subst z1.
  split; [destruct Dt as [Dt|Dt]; cbn [q_type]; rewrite Dt; auto|]. exists z, m. cbn [q_type q_num]. split; [exact Rt|]. split; [reflexivity|]. split; [exact Nz|]. split; [exact Sq|].
  destruct (sum_relative o f x' y' Nx Ny) as (e & Ee & He). rewrite Vz, Ee.
  apply (near_eq f _ (rsum o (fval x') (fval y') * e * Q2R m) _ (rsum o r s / Q2R m * Q2R m)); [reflexivity|field; lra|].
  apply near_scale. now apply near_step.
Qed.

Theorem eval_rounded : forall e r k, computes est w f e r k -> all_dims P e -> (Z.of_nat k <= 2 ^ 22)%Z ->
  forall q, eval est w e = Ok q -> part q r k.
Proof.
  assert (C : consistent w) by apply G.
  induction 1 as [q0 x m R N Fx S|q0 t m mt k V Cr Rt S St K M|a r k N IH|a r k N IH|a b r s k l ka kb m N1 IH1 N2 IH2 Sg Sc Iu Mr Ms Mt
    |a b r s k l ka kb m N1 IH1 N2 IH2 Sg Sc Iu Mr Ms Mt|a b r s k l m N1 IH1 N2 IH2 Iu M|a b r s k l m N1 IH1 N2 IH2 Ns Iu M
    |a p v r k m N IH Ar V Iu M|a p v r k m N IH Ar V Iu M|a p v r k m N IH Ar V Nz Iu M|a p v r k m N IH Ar V Nz Co Iu M
    |t a r k j mt N IH Rt St Cc M|c a r k j m N IH Cc Iu M]; intros A L q H.
  - inversion H; subst q0. split; [exact A|]. exists x, m. split; [exact R|]. split; [exact N|]. split; [exact Fx|]. split; [exact S|].
    rewrite <- (Rmult_1_r (fval x * Q2R m)). apply (near_eq f 0 (fval x * Q2R m) _ (fval x * Q2R m)); [ring|ring|apply near_refl].
  - destruct A as [At Aq]. cbn [eval bind all_dims] in *. unfold q_to in H. step H as y E. inversion H; subst q. cbn [q_type q_num].
    pose proof (convert_equivalent _ _ _ _ _ E) as De.
    pose proof (same_dimension U w HU _ _ At Aq (equivalent_exps _ _ De)) as Ed.
    destruct (convert_value est f (q_type q0) t m mt (q_num q0) _ 0 k S St (references_ok_refl _ _ (eq_sym Ed)) De Cr Rt V (near_refl f _) K M) as (y' & Ey & Ny & Ky); [lia|].
    rewrite E in Ey. inversion Ey; subst y. split; [exact At|]. exists y', mt. cbn [q_type q_num]. auto.
  - cbn [eval] in H. step H as qa X. destruct (IH A L _ X) as (D & x & m & R & Nx & Fx & S & K). unfold q_plus in H. cbv zeta in H.
    rewrite R, Nx in H. cbn [promote_rep n_convert bind] in H. rewrite (conv_same f x) in H by apply Fx. inversion H; subst q.
    split; [exact D|]. exists x, m. cbn [q_type q_num]. split; [reflexivity|]. split; [reflexivity|]. split; [exact Fx|]. split; [exact (with_size _ _ _ S)|exact K].
  - cbn [eval] in H. step H as qa X. destruct (IH A L _ X) as (D & x & m & R & Nx & Fx & S & K). unfold q_neg in H. cbv zeta in H.
    rewrite R, Nx in H. cbn [promote_rep n_neg bind] in H. inversion H; subst q.
    split; [exact D|]. exists (SFopp x), m. cbn [q_type q_num]. split; [reflexivity|]. split; [reflexivity|].
    assert (O : is_number f (SFopp x) /\ fval (SFopp x) = - fval x).
    { destruct Fx as [V1 V2]. split; [split; [now apply opp_valid|now destruct x]|]. destruct x as [s0|s0| |s0 mm ee]; try discriminate V2; unfold fval; cbn [SFopp SF2R].
      - ring.
      - destruct s0; cbn [negb cond_Zopp]; rewrite <- F2R_Zopp; reflexivity. }
    destruct O as [O1 O2]. split; [exact O1|]. split; [exact (with_size _ _ _ S)|]. rewrite O2.
    apply (near_eq f k (- (fval x * Q2R m)) _ (- r)); [ring|reflexivity|]. now apply near_opp.
  - pose proof H as H0. cbn [eval] in H. step H as qa X. step H as qb Y. destruct (Sc _ _ _ X Y H0) as [Ca Cb].
    apply (summed OpAdd qa qb r s k l ka kb m q); auto; try lia; [now left|cbn [rsum]; nra|apply IH1; auto; [apply A|lia]|apply IH2; auto; [apply A|lia]].
  - pose proof H as H0. cbn [eval] in H. step H as qa X. step H as qb Y. destruct (Sc _ _ _ X Y H0) as [Ca Cb].
    apply (summed OpSub qa qb r s k l ka kb m q); auto; try lia; [now right|cbn [rsum]; nra|apply IH1; auto; [apply A|lia]|apply IH2; auto; [apply A|lia]].
  - pose proof (Iu _ H) as Sq. cbn [eval] in H. step H as qa X. step H as qb Y. destruct A as [A1 A2].
    destruct (IH1 A1 ltac:(lia) _ X) as (D1 & x & ma & Ra & Na & Fx & Sa & Kx). destruct (IH2 A2 ltac:(lia) _ Y) as (D2 & y & mb & Rb & Nb & Fy & Sb & Ky).
    pose proof (multiply_in_system U w HU G _ _ _ D1 D2 (times_dim _ _ _ _ H)) as D. pose proof (system_unit_good U w G _ D) as Gd.
    pose proof (size_pos _ _ _ Sa) as Pa. pose proof (size_pos _ _ _ Sb) as Pb.
    unfold q_times in H. cbv zeta in H. step H as rf Er. step H as z0 Ez. inversion H; subst q; clear H. cbn [q_type q_dim q_unit q_rep q_num] in *.
    destruct Sa as ((Ga & Ua) & _ & _ & Ma). destruct Sb as ((Gb & Ub) & _ & _ & Mb). destruct rf as [d u]. cbn [ref_dim ref_unit] in *.
    destruct (reference_multiply_magnitude _ _ _ _ _ _ _ _ _ C Ga Gb Ua Ub Gd Er Ma Mb) as (Mg & _).
    assert (Em : Q2R m = Q2R ma * Q2R mb).
    { rewrite <- Q2R_mult. apply Qeq_eqR. destruct Sq as (_ & _ & _ & Mq). exact (magnitude_unique _ _ _ _ Mq Mg). }
    assert (Kx' : near f k (fval x) (r / Q2R ma)) by (apply near_unscale; [lra|exact Kx]).
    assert (Ky' : near f l (fval y) (s / Q2R mb)) by (apply near_unscale; [lra|exact Ky]).
    assert (Ers : r / Q2R ma * (s / Q2R mb) = r * s / Q2R m) by (rewrite Em; field; split; lra).
    destruct (product x y _ _ (Q2R m) k l Fx Fy Kx' Ky') as (z & Oz & Fz & Kz); [rewrite Em; nra|lia|now rewrite Ers|].
    rewrite Ra, Rb, Na, Nb in *. rewrite same_float in *.
    assert (No : num_ok (RFlt f) (NFlt y) = true) by apply Fy.
    destruct (float_n_op f (RFlt f) (NFlt y) x same_float (proj1 Fx) No OpMul ltac:(discriminate)) as [(z2 & E2 & F2) _].
    cbn [as_float] in F2. rewrite conv_same in F2 by apply Fy. rewrite Oz in F2. inversion F2; subst z2. rewrite E2 in Ez. inversion Ez; subst z0.
    split; [exact D|]. exists z, m. cbn [q_type q_num q_rep]. split; [reflexivity|]. split; [reflexivity|]. split; [exact Fz|]. split; [exact Sq|].
    apply (near_eq f _ (fval z * Q2R m) _ (r / Q2R ma * (s / Q2R mb) * Q2R m)); [reflexivity|rewrite Ers; field; rewrite Em; nra|exact Kz].
  - pose proof (Iu _ H) as Sq. cbn [eval] in H. step H as qa X. step H as qb Y. destruct A as [A1 A2].
    destruct (IH1 A1 ltac:(lia) _ X) as (D1 & x & ma & Ra & Na & Fx & Sa & Kx). destruct (IH2 A2 ltac:(lia) _ Y) as (D2 & y & mb & Rb & Nb & Fy & Sb & Ky).
    pose proof (divide_in_system U w HU G _ _ _ D1 D2 (over_dim _ _ _ _ H)) as D. pose proof (system_unit_good U w G _ D) as Gd.
    pose proof (size_pos _ _ _ Sa) as Pa. pose proof (size_pos _ _ _ Sb) as Pb. pose proof (sized_pos _ _ _ Sb) as Pb'.
    unfold q_over in H. cbv zeta in H. step H as rf Er. step H as z0 Ez. inversion H; subst q; clear H. cbn [q_type q_dim q_unit q_rep q_num] in *.
    destruct Sa as ((Ga & Ua) & _ & _ & Ma). destruct Sb as ((Gb & Ub) & _ & _ & Mb). destruct rf as [d u]. cbn [ref_dim ref_unit] in *.
    destruct (reference_divide_magnitude _ _ _ _ _ _ _ _ _ C Ga Gb Ua Ub Gd Er Ma Mb) as (Mg & _).
    assert (Em : Q2R m = Q2R ma / Q2R mb).
    { rewrite <- Q2R_div by now apply pos_nz. apply Qeq_eqR. destruct Sq as (_ & _ & _ & Mq). exact (magnitude_unique _ _ _ _ Mq Mg). }
    pose proof (size_pos _ _ _ Sq) as Pm.
    assert (Kx' : near f k (fval x) (r / Q2R ma)) by (apply near_unscale; [lra|exact Kx]).
    assert (Ky' : near f l (fval y) (s / Q2R mb)) by (apply near_unscale; [lra|exact Ky]).
    assert (Ns' : s / Q2R mb <> 0) by (apply Rmult_integral_contrapositive; split; [exact Ns|apply Rinv_neq_0_compat; lra]).
    assert (Ers : r / Q2R ma / (s / Q2R mb) = r / s / Q2R m) by (rewrite Em; field; repeat split; lra).
    destruct (quotient x y _ _ (Q2R m) k l Fx Fy Kx' Ky' Ns') as (z & Oz & Fz & Kz); [lra|lia|now rewrite Ers|].
    rewrite Ra, Rb, Na, Nb in *. rewrite same_float in *.
    assert (No : num_ok (RFlt f) (NFlt y) = true) by apply Fy.
    destruct (float_n_op f (RFlt f) (NFlt y) x same_float (proj1 Fx) No OpDiv ltac:(discriminate)) as [(z2 & E2 & F2) _].
    cbn [as_float] in F2. rewrite conv_same in F2 by apply Fy. rewrite Oz in F2. inversion F2; subst z2. rewrite E2 in Ez. inversion Ez; subst z0.
    split; [exact D|]. exists z, m. cbn [q_type q_num q_rep]. split; [reflexivity|]. split; [reflexivity|]. split; [exact Fz|]. split; [exact Sq|].
    apply (near_eq f _ (fval z * Q2R m) _ (r / Q2R ma / (s / Q2R mb) * Q2R m)); [reflexivity|rewrite Ers; field; split; lra|exact Kz].
  - pose proof (Iu _ H) as Sq. cbn [eval] in H. step H as qa X. pose proof (IH A ltac:(lia) _ X) as Pa.
    destruct (scaled OpMul false qa p v r k q ltac:(discriminate) Ar V Pa H) as (D & x & m' & z & Nx & Fx & Kx & Pm & S & Rq & Nq & O).
    destruct (value_as_float p v Ar V) as (_ & Nv & Kv). pose proof (size_unique _ _ _ _ Sq S) as Em. rewrite <- Em in Kx, Pm.
    assert (Er : r / Q2R m * nval v = r * nval v / Q2R m) by (field; lra).
    destruct (product x (as_float f v) _ _ (Q2R m) k (entry_costs p) Fx Nv Kx Kv) as (z' & Oz & Fz & Kz); [lra|lia|now rewrite Er|].
    rewrite O in Oz. inversion Oz; subst z'. split; [exact D|]. exists z, m. split; [exact Rq|]. split; [exact Nq|]. split; [exact Fz|]. split; [exact Sq|].
    apply (near_eq f _ (fval z * Q2R m) _ (r / Q2R m * nval v * Q2R m)); [reflexivity|field; lra|exact Kz].
  - pose proof (Iu _ H) as Sq. cbn [eval] in H. step H as qa X. pose proof (IH A ltac:(lia) _ X) as Pa.
    destruct (scaled OpMul true qa p v r k q ltac:(discriminate) Ar V Pa H) as (D & x & m' & z & Nx & Fx & Kx & Pm & S & Rq & Nq & O).
    destruct (value_as_float p v Ar V) as (_ & Nv & Kv). pose proof (size_unique _ _ _ _ Sq S) as Em. rewrite <- Em in Kx, Pm.
    assert (Er : nval v * (r / Q2R m) = nval v * r / Q2R m) by (field; lra).
    destruct (product (as_float f v) x _ _ (Q2R m) (entry_costs p) k Nv Fx Kv Kx) as (z' & Oz & Fz & Kz); [lra|lia|now rewrite Er|].
    rewrite O in Oz. inversion Oz; subst z'. split; [exact D|]. exists z, m. split; [exact Rq|]. split; [exact Nq|]. split; [exact Fz|]. split; [exact Sq|].
    apply (near_eq f _ (fval z * Q2R m) _ (nval v * (r / Q2R m) * Q2R m)); [reflexivity|field; lra|exact Kz].
  - pose proof (Iu _ H) as Sq. cbn [eval] in H. step H as qa X. pose proof (IH A ltac:(lia) _ X) as Pa.
    destruct (scaled OpDiv false qa p v r k q ltac:(discriminate) Ar V Pa H) as (D & x & m' & z & Nx & Fx & Kx & Pm & S & Rq & Nq & O).
    destruct (value_as_float p v Ar V) as (_ & Nv & Kv). pose proof (size_unique _ _ _ _ Sq S) as Em. rewrite <- Em in Kx, Pm.
    assert (Er : r / Q2R m / nval v = r / nval v / Q2R m) by (field; split; first [exact Nz|lra]).
    destruct (quotient x (as_float f v) _ _ (Q2R m) k (entry_costs p) Fx Nv Kx Kv Nz) as (z' & Oz & Fz & Kz); [lra|lia|now rewrite Er|].
    rewrite O in Oz. inversion Oz; subst z'. split; [exact D|]. exists z, m. split; [exact Rq|]. split; [exact Nq|]. split; [exact Fz|]. split; [exact Sq|].
    apply (near_eq f _ (fval z * Q2R m) _ (r / Q2R m / nval v * Q2R m)); [reflexivity|field; split; first [exact Nz|lra]|exact Kz].
  - pose proof (Iu _ H) as Sq. cbn [eval] in H. step H as qa X. destruct (IH A ltac:(lia) _ X) as (D & x & ma & Ra & Na & Fx & Sa & Kx).
    pose proof (value_div_dim w _ _ _ _ H) as Di. pose proof (invert_in_system U w G _ _ D Di) as Dq. specialize (Co _ _ X Di).
    pose proof (size_pos _ _ _ Sa) as Pa. pose proof (size_pos _ _ _ Sq) as Pm. pose proof (sized_pos _ _ _ Sa) as Pa'.
    assert (Em : Q2R m = / Q2R ma) by (apply (inverse_size qa q p v ma m); auto).
    destruct (value_as_float p v Ar V) as (Nv0 & Nv & Kv).
    assert (Kx' : near f k (fval x) (r / Q2R ma)) by (apply near_unscale; [lra|exact Kx]).
    assert (Ns' : r / Q2R ma <> 0) by (apply Rmult_integral_contrapositive; split; [exact Nz|apply Rinv_neq_0_compat; lra]).
    assert (Er : nval v / (r / Q2R ma) = nval v / r / Q2R m) by (rewrite Em; field; repeat split; lra).
    destruct (quotient (as_float f v) x _ _ (Q2R m) (entry_costs p) k Nv Fx Kv Kx' Ns') as (z & Oz & Fz & Kz); [lra|lia|now rewrite Er|].
    destruct (float_n_op f p v x Ar (proj1 Fx) Nv0 OpDiv ltac:(discriminate)) as [_ (z2 & E2 & F2)]. rewrite Oz in F2. inversion F2; subst z2.
    assert (Ar' : arith_rep p (RFlt f) = RFlt f).
    { destruct p as [t0|g]; [reflexivity|]. cbn in *. destruct f, g; try discriminate Ar; reflexivity. }
    unfold value_div_q in H. cbv zeta in H. rewrite Ra, Na, Ar' in H. step H as c0 C0. step H as d Ed. step H as ri Eri. step H as u Eu.
    rewrite E2 in H. cbn [bind] in H. inversion H; subst q. cbn [q_type q_dim q_num q_rep] in *.
    split; [exact Dq|]. exists z, m. cbn [q_type q_num q_rep]. split; [reflexivity|]. split; [reflexivity|]. split; [exact Fz|]. split; [exact Sq|].
    apply (near_eq f _ (fval z * Q2R m) _ (nval v / (r / Q2R ma) * Q2R m)); [reflexivity|rewrite Er; field; split; lra|exact Kz].
  - destruct A as [At Aa]. cbn [eval] in H. step H as qa X. destruct (IH Aa ltac:(lia) _ X) as (D & x & ma & Ra & Na & Fx & Sa & Kx).
    unfold q_to in H. step H as y E. inversion H; subst q. cbn [q_type q_num].
    pose proof (convert_equivalent _ _ _ _ _ E) as De.
    pose proof (same_dimension U w HU _ _ At D (equivalent_exps _ _ De)) as Ed. rewrite Na in E.
    assert (V : is_value (q_rep (q_type qa)) (NFlt x)) by now rewrite Ra.
    assert (Cr : cast_rep (q_rep (q_type qa)) (RFlt f) = RFlt f) by (rewrite Ra; apply same_cast).
    destruct (convert_value est f (q_type qa) t ma mt (NFlt x) r k j Sa St (references_ok_refl _ _ (eq_sym Ed)) De Cr Rt V Kx (Cc _ X) M) as (y' & Ey & Ny & Ky); [lia|].
    rewrite E in Ey. inversion Ey; subst y. split; [exact At|]. exists y', mt. cbn [q_type q_num]. auto.
  - pose proof (Iu _ H) as Sq. pose proof H as H0. cbn [eval] in H. step H as qa X. destruct A as [Ac Aa].
    destruct (IH Aa ltac:(lia) _ X) as (D & x & ma & Ra & Na & Fx & Sa & Kx). destruct (Cc _ _ X H0) as [Rq Fc].
    destruct (q_cast_dims _ _ _ _ _ H) as [De _]. destruct (q_cast_is est w c qa q H) as [Hc Dc].
    assert (Dq : P (q_dim (q_type q))) by (destruct c; rewrite Dc; [exact Ac|exact Ac|exact D|exact D]).
    pose proof (same_dimension U w HU _ _ Dq D (equivalent_exps _ _ De)) as Ed. rewrite Na in Hc.
    assert (V : is_value (q_rep (q_type qa)) (NFlt x)) by now rewrite Ra.
    assert (Cr : cast_rep (q_rep (q_type qa)) (RFlt f) = RFlt f) by (rewrite Ra; apply same_cast).
    assert (E0 : entry_costs (q_rep (q_type qa)) = 0%nat) by now rewrite Ra.
    destruct (cast_value est f (q_type qa) (q_type q) ma m (NFlt x) r k j Sa Sq (references_ok_refl _ _ (eq_sym Ed)) De Cr Rq V Kx Fc M) as (y & Ey & Ny & Ky); [rewrite E0; lia|].
    rewrite E0, Nat.add_0_r in Ky. rewrite Hc in Ey. split; [exact Dq|]. exists y, m. split; [exact Rq|]. split; [now inversion Ey|]. auto.
Qed.
End System.

(** ** Dimensions and units of results *)

Section Units.
Variable U : bdim -> Prop.
Variable w : world.
Hypothesis HU : symbols_identify U.
Hypothesis G : good_system U w.
Variable est : estimate.
Let P := in_system U w.

Lemma common_dim : forall t1 t2 r t, P (q_dim t1) -> P (q_dim t2) -> common_quantity est w t1 t2 r = Ok t -> q_dim t = q_dim t1 /\ q_rep t = r.
Proof.
  intros t1 t2 r t D1 D2 H. unfold common_quantity in H. step H as u Eu. apply constrained_ok in Eu.
  pose proof (same_dimension U w HU _ _ D2 D1 (equivalent_exps _ _ Eu)) as E. step H as du Ed. unfold common_dim_unit in Ed. rewrite E in Ed.
  assert (F : fst du = q_dim t1).
  { destruct (dimension_eq_dec (q_dim t1) (q_dim t1)) as [_|N]; [|now elim N].
    destruct (cunit_eq_dec (q_unit t1) (q_unit t2)); [now inversion Ed|]. step Ed as c Ec. step Ed as u0 U0. now inversion Ed. }
  unfold mk_qtype in H. step H as v Ev. inversion H; subst t. cbn [q_dim q_rep]. auto.
Qed.
Lemma common_same : forall t r t', q_rep t = r -> common_quantity est w t t r = Ok t' -> t' = t.
Proof.
  intros t r t' R H. unfold common_quantity in H. step H as u Eu. step H as du Ed. unfold common_dim_unit in Ed.
  destruct (dimension_eq_dec (q_dim t) (q_dim t)) as [_|N]; [|now elim N]. destruct (cunit_eq_dec (q_unit t) (q_unit t)) as [_|N]; [|now elim N].
  inversion Ed; subst du. cbn [fst snd] in H. unfold mk_qtype in H. step H as v Ev. inversion H; subst t'. destruct t. cbn in *. now subst r.
Qed.

Lemma eval_dims : forall e, all_dims P e -> forall q, eval est w e = Ok q -> P (q_dim (q_type q)).
Proof.
  assert (Sums : forall o a b q, P (q_dim (q_type a)) -> P (q_dim (q_type b)) -> q_addsub o est w a b = Ok q -> P (q_dim (q_type q))).
  { intros o a b q Da Db H. unfold q_addsub in H. cbv zeta in H. step H as t Et. destruct (common_dim _ _ _ _ Da Db Et) as [E _].
    step H as x Ex. step H as y Ey. step H as z Ez. step H as z1 Ez1. inversion H; subst q. cbn [q_type]. now rewrite E. }
  induction e as [q0|a IHa|a IHa|a IHa b IHb|a IHa b IHb|a IHa b IHb|a IHa b IHb|a IHa b IHb|a IHa r v|r v a IHa|a IHa r v|r v a IHa|a IHa r v|t a IHa|c a IHa];
    intros A q H; cbn [eval all_dims] in *.
  - now inversion H; subst.
  - step H as x X. unfold q_plus in H. cbv zeta in H. step H as y Y. inversion H; subst q. exact (IHa A _ X).
  - step H as x X. unfold q_neg in H. cbv zeta in H. step H as y Y. inversion H; subst q. exact (IHa A _ X).
  - step H as x X. step H as y Y. exact (Sums OpAdd x y q (IHa (proj1 A) _ X) (IHb (proj2 A) _ Y) H).
  - step H as x X. step H as y Y. exact (Sums OpSub x y q (IHa (proj1 A) _ X) (IHb (proj2 A) _ Y) H).
  - step H as x X. step H as y Y. exact (multiply_in_system U w HU G _ _ _ (IHa (proj1 A) _ X) (IHb (proj2 A) _ Y) (times_dim _ _ _ _ H)).
  - step H as x X. step H as y Y. exact (divide_in_system U w HU G _ _ _ (IHa (proj1 A) _ X) (IHb (proj2 A) _ Y) (over_dim _ _ _ _ H)).
  - step H as x X. step H as y Y. unfold q_rem in H. cbv zeta in H. step H as u Eu. step H as z Z. inversion H; subst q. exact (IHa (proj1 A) _ X).
  - step H as x X. unfold q_mul_value in H. rewrite (scale_dim _ _ _ _ _ _ H). exact (IHa A _ X).
  - step H as x X. unfold value_mul_q in H. rewrite (scale_dim _ _ _ _ _ _ H). exact (IHa A _ X).
  - step H as x X. unfold q_div_value in H. rewrite (scale_dim _ _ _ _ _ _ H). exact (IHa A _ X).
  - step H as x X. exact (invert_in_system U w G _ _ (IHa A _ X) (value_div_dim w _ _ _ _ H)).
  - step H as x X. unfold q_rem_value in H. step H as u Eu. rewrite (scale_dim _ _ _ _ _ _ H). exact (IHa A _ X).
  - step H as x X. unfold q_to in H. step H as y Y. inversion H; subst q. exact (proj1 A).
  - step H as x X. destruct (q_cast_is est w c x q H) as [_ Dc]. pose proof (IHa (proj2 A) _ X) as D.
    destruct c; rewrite Dc; [exact (proj1 A)|exact (proj1 A)|exact D|exact D].
Qed.

(** The unit of a product or a quotient has the product or quotient of the sizes. *)
Lemma units_mul : forall a b ma mb, all_dims P (EMul a b) -> in_units est w a ma -> in_units est w b mb -> in_units est w (EMul a b) (ma * mb).
Proof.
  intros a b ma mb A Ia Ib q H. pose proof (eval_dims _ A _ H) as D. pose proof (system_unit_good U w G _ D) as Gd. cbn [eval] in H. step H as x X. step H as y Y.
  pose proof (times_unit_of w _ _ _ H) as Uo. destruct (Ia _ X) as ((Ga & Ua) & _ & _ & Ma). destruct (Ib _ Y) as ((Gb & Ub) & _ & _ & Mb).
  unfold q_times in H. cbv zeta in H. step H as rf Er. step H as z Ez. inversion H; subst q; clear H. cbn [q_type q_dim q_unit] in *. destruct rf as [d u]. cbn [ref_dim ref_unit] in *.
  destruct (reference_multiply_magnitude _ _ _ _ _ _ _ _ _ (proj1 G) Ga Gb Ua Ub Gd Er Ma Mb) as (Mg & D' & U' & O & E).
  split; [split; auto|]. split; [exact Uo|]. split; [now apply (system_roots U w)|exact Mg].
Qed.
Lemma units_div : forall a b ma mb, all_dims P (EDiv a b) -> in_units est w a ma -> in_units est w b mb -> in_units est w (EDiv a b) (ma / mb).
Proof.
  intros a b ma mb A Ia Ib q H. pose proof (eval_dims _ A _ H) as D. pose proof (system_unit_good U w G _ D) as Gd. cbn [eval] in H. step H as x X. step H as y Y.
  pose proof (over_unit_of w _ _ _ H) as Uo. destruct (Ia _ X) as ((Ga & Ua) & _ & _ & Ma). destruct (Ib _ Y) as ((Gb & Ub) & _ & _ & Mb).
  unfold q_over in H. cbv zeta in H. step H as rf Er. step H as z Ez. inversion H; subst q; clear H. cbn [q_type q_dim q_unit] in *. destruct rf as [d u]. cbn [ref_dim ref_unit] in *.
  destruct (reference_divide_magnitude _ _ _ _ _ _ _ _ _ (proj1 G) Ga Gb Ua Ub Gd Er Ma Mb) as (Mg & D' & U' & O & E).
  split; [split; auto|]. split; [exact Uo|]. split; [now apply (system_roots U w)|exact Mg].
Qed.
End Units.
