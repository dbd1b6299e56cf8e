(** Products, quotients, scaling, remainders and histories of quantities. *)

From Coq Require Import ZArith QArith Qpower Qabs String List Bool Lia Lqa.
From Verif Require Import Outcome CInt Ratio SpecRatio QTen RatioMaths RatioMathsProofs RatioProofs
  Pow Root RatioProofs2 RatioPowProofs Unit Downcast Dim DimOp Equivalent SpecDim SpecUnit
  DimOpProofs DimOpProofs2 EquivProofs MagnitudeProofs Rep IntProofs Reference QuantityCast CommonQuantity Quantity SpecQuantity CastProofs
  QuantityProofs QuantityProofs2.
Import ListNotations.
Local Open Scope Z_scope.
Local Open Scope res_scope.

(** ** Products and quotients *)

Section Product.
Variables (est : estimate) (w : world) (a b : quantity) (ia ib : ity) (na nb : Z) (ma mb : Q).
Hypothesis (C : consistent w) (Ia : integral a ia na) (Ib : integral b ib nb).
Hypothesis (Sa : sized est (q_type a) ma) (Sb : sized est (q_type b) mb).
Hypothesis (OF : operands_fit ia ib na nb).

Lemma q_times_values : forall s, q_times w a b = Ok s -> unit_good (dimension_unit (q_dim (q_type s))) ->
  isigned (arith_conv ia ib) = true \/ in_range (arith_conv ia ib) (na * nb) = true ->
  integral s (arith_conv ia ib) (na * nb) /\ qtype_good (q_type s) /\
  magnitude (q_dim (q_type s)) (q_unit (q_type s)) (ma * mb) /\
  dimension_multiply w (q_dim (q_type a)) (q_dim (q_type b)) = Ok (q_dim (q_type s)).
Proof.
  intros s H Gd F. unfold q_times in H. destruct Ia as (Ra & Na & Rna), Ib as (Rb & Nb & Rnb).
  destruct Sa as ((Da & Ua) & _ & _ & Ma), Sb as ((Db & Ub) & _ & _ & Mb). cbv zeta in H.
  step H as r Er. step H as x Ex. inversion H; subst s; clear H. cbn [q_type q_dim q_unit q_num q_rep] in *.
  rewrite Ra, Rb, Na, Nb in *. destruct r as [d u]. cbn [ref_dim ref_unit] in *.
  destruct (n_op_exact _ _ _ _ _ _ Rna Rnb OF Ex F) as (-> & _ & R).
  destruct (reference_multiply_magnitude _ _ _ _ _ _ _ _ _ C Da Db Ua Ub Gd Er Ma Mb) as (M & D & U & O & E).
  split; [split; [reflexivity|split; [reflexivity|exact R]]|]. split; [split; auto|]. auto.
Qed.

Lemma q_over_values : forall s, q_over w a b = Ok s -> unit_good (dimension_unit (q_dim (q_type s))) ->
  isigned (arith_conv ia ib) = true \/ in_range (arith_conv ia ib) (Z.quot na nb) = true ->
  nb <> 0 /\ integral s (arith_conv ia ib) (Z.quot na nb) /\ qtype_good (q_type s) /\
  magnitude (q_dim (q_type s)) (q_unit (q_type s)) (ma / mb) /\
  dimension_divide w (q_dim (q_type a)) (q_dim (q_type b)) = Ok (q_dim (q_type s)).
Proof.
  intros s H Gd F. unfold q_over in H. destruct Ia as (Ra & Na & Rna), Ib as (Rb & Nb & Rnb).
  destruct Sa as ((Da & Ua) & _ & _ & Ma), Sb as ((Db & Ub) & _ & _ & Mb). cbv zeta in H.
  step H as r Er. step H as x Ex. inversion H; subst s; clear H. cbn [q_type q_dim q_unit q_num q_rep] in *.
  rewrite Ra, Rb, Na, Nb in *. destruct r as [d u]. cbn [ref_dim ref_unit] in *.
  destruct (n_op_exact _ _ _ _ _ _ Rna Rnb OF Ex F) as (-> & Z & R). specialize (Z eq_refl).
  destruct (reference_divide_magnitude _ _ _ _ _ _ _ _ _ C Da Db Ua Ub Gd Er Ma Mb) as (M & D & U & O & E).
  split; auto. split; [split; [reflexivity|split; [reflexivity|exact R]]|]. split; [split; auto|]. auto.
Qed.

Lemma quot_trunc_any : forall x y, y <> 0 -> trunc_of (inject_Z x / inject_Z y) (Z.quot x y).
Proof.
  intros x y Y. destruct (Z_lt_le_dec 0 y) as [P|P]; [now apply quot_trunc|].
  assert (P' : 0 < - y) by lia. pose proof (quot_trunc (- x) (- y) P') as T.
  rewrite Z.quot_opp_opp in T by auto. eapply trunc_ext; [|exact T].
  rewrite !inject_Z_opp. field. now apply injZ_nz.
Qed.

(** The quotient of the numbers is that of the values in the unit of the result. *)
Lemma over_trunc : nb <> 0 -> (0 < ma)%Q -> (0 < mb)%Q ->
  trunc_of (inject_Z na * ma / (inject_Z nb * mb) / (ma / mb)) (Z.quot na nb).
Proof.
  intros Z Pa Pb. eapply trunc_ext; [|apply quot_trunc_any; exact Z]. field.
  repeat split; try lra. now apply injZ_nz.
Qed.

End Product.

(** ** v / q *)

Lemma value_div_values : forall est w i v q iq n m s, consistent w -> in_range i v = true ->
  integral q iq n -> sized est (q_type q) m -> operands_fit i iq v n ->
  isigned (arith_conv i iq) = true \/ in_range (arith_conv i iq) (Z.quot v n) = true ->
  value_div_q w (RInt i) (NInt v) q = Ok s -> unit_good (dimension_unit (q_dim (q_type s))) ->
  n <> 0 /\ integral s (arith_conv i iq) (Z.quot v n) /\
  dim_invert w (q_dim (q_type q)) = Ok (q_dim (q_type s)) /\
  magnitude (q_dim (q_type s)) (q_unit (q_type s))
    (/ m / (rval (u_ratio (dimension_unit (q_dim (q_type q)))) * rval (u_ratio (dimension_unit (q_dim (q_type s)))))).
Proof.
  intros est w i v q iq n m s C Rv (Rq & Nq & Rn) ((D & U) & O & X & M) OF F H Gd. unfold value_div_q in H. cbv zeta in H.
  step H as c0 E0. step H as d Ed. step H as r Er. step H as u Eu. step H as x Ex. inversion H; subst s; clear H.
  cbn [q_type q_dim q_unit q_num q_rep] in *. rewrite Rq, Nq in *.
  destruct (n_op_exact _ _ _ _ _ _ Rv Rn OF Ex F) as (-> & Z & R). specialize (Z eq_refl).
  split; auto. split; [split; [reflexivity|split; [reflexivity|exact R]]|]. split; auto.
  destruct (rinv_good _ _ U Er) as [Vr Gr]. destruct (downcast_unit_ratio _ _ _ _ C Eu) as (Ru & _).
  destruct D as [De Du].
  assert (EN : entries (exponents (q_dim (q_type q)))) by exact De.
  destruct (invert_entries _ _ _ C EN Ed) as [Sq En].
  destruct M as (b & (Hb & Pb & Sb) & Vb).
  exists (/ b)%Q. split.
  - split; [|split].
    + unfold entries in En. rewrite Forall_forall in *. intros e He. apply En, He.
    + now apply Qinv_lt_0_compat.
    + rewrite Sq, <- Sb. now rewrite Qinv_power.
  - rewrite Ru, Vr, Vb. apply good_pos in U, Du, Gd. field. repeat split; lra.
Qed.

(** ** Scaling *)

Lemma q_scale_values : forall o (sw : bool) q i v iq n s, in_range i v = true -> integral q iq n ->
  operands_fit iq i n v ->
  let e := if sw then exact_op o v n else exact_op o n v in
  isigned (arith_conv iq i) = true \/ in_range (arith_conv iq i) e = true ->
  q_scale o sw q (RInt i) (NInt v) = Ok s ->
  integral s (arith_conv iq i) e /\ q_dim (q_type s) = q_dim (q_type q) /\ q_unit (q_type s) = q_unit (q_type q) /\
  (divides_op o = true -> (if sw then n else v) <> 0).
Proof.
  intros o sw q i v iq n s Rv (Rq & Nq & Rn) OF e F H. unfold q_scale in H. cbv zeta in H. step H as c0 E0. step H as x Ex.
  inversion H; subst s; clear H. cbn [q_type q_dim q_unit q_num q_rep with_rep] in *. rewrite Rq, Nq in *.
  unfold e in *. destruct sw.
  - rewrite (arith_conv_sym iq i) in *.
    assert (OF' : operands_fit i iq v n) by (unfold operands_fit in *; rewrite (arith_conv_sym iq i) in OF; tauto).
    destruct (n_op_exact _ _ _ _ _ _ Rv Rn OF' Ex F) as (-> & Z & R).
    split; [split; [cbn; now rewrite (arith_conv_sym iq i)|split; [reflexivity|exact R]]|]. auto.
  - destruct (n_op_exact _ _ _ _ _ _ Rn Rv OF Ex F) as (-> & Z & R).
    split; [split; [reflexivity|split; [reflexivity|exact R]]|]. auto.
Qed.

(** ** Remainder *)

Lemma q_rem_values : forall a b ia ib na nb s, integral a ia na -> integral b ib nb -> operands_fit ia ib na nb ->
  q_rem a b = Ok s ->
  nb <> 0 /\ integral s (arith_conv ia ib) (Z.rem na nb) /\
  q_dim (q_type s) = q_dim (q_type a) /\ q_unit (q_type s) = q_unit (q_type a).
Proof.
  intros a b ia ib na nb s (Ra & Na & Rna) (Rb & Nb & Rnb) OF H. unfold q_rem in H. cbv zeta in H.
  step H as c0 E0. step H as x Ex. inversion H; subst s; clear H. cbn [q_type q_dim q_unit q_num q_rep with_rep] in *.
  rewrite Ra, Rb, Na, Nb in *.
  assert (F : isigned (arith_conv ia ib) = true \/ in_range (arith_conv ia ib) (exact_op OpRem na nb) = true).
  { destruct OF as [OF|[P1 P2]]; [now left|]. right. cbn [exact_op].
    destruct (isigned (arith_conv ia ib)) eqn:S.
    - destruct (n_op_exact OpRem ia ib na nb x Rna Rnb (or_introl S) Ex (or_introl S)) as (_ & _ & R). exact R.
    - assert (Y : nb <> 0).
      { rewrite n_op_int in Ex. step Ex as k Ek.
        destruct (operands_wrap ia ib na nb Rna Rnb (or_intror (conj P1 P2))) as [_ Wy]. rewrite Wy in Ek.
        unfold int_op, crem in Ek. destruct (Z.eqb_spec nb 0); congruence. }
      apply arith_conv_holds_l; [|right; now apply Z.rem_nonneg].
      rewrite in_range_spec in *. pose proof (Z.rem_nonneg na nb Y P1). pose proof (Z.rem_le na nb P1 ltac:(lia)).
      assert (imin ia <= 0) by (destruct ia as [[] []]; cbn; lia). lia. }
  destruct (n_op_exact _ _ _ _ _ _ Rna Rnb OF Ex F) as (-> & Z & R). specialize (Z eq_refl).
  split; auto. split; [split; [reflexivity|split; [reflexivity|exact R]]|]. auto.
Qed.

(** ** Negation *)

Lemma promote_holds : forall a x, in_range a x = true -> in_range (promote a) x = true.
Proof. intros [[] []] x; rewrite !in_range_spec; cbn; lia. Qed.

Lemma q_neg_values : forall q iq n s, integral q iq n -> isigned (promote iq) = true -> q_neg q = Ok s ->
  integral s (promote iq) (- n) /\ q_dim (q_type s) = q_dim (q_type q) /\ q_unit (q_type s) = q_unit (q_type q).
Proof.
  intros q iq n s (Rq & Nq & Rn) S H. unfold q_neg in H. rewrite Rq, Nq in H. cbv zeta in H. cbn [promote_rep n_neg] in H.
  step H as x Ex. step Ex as y Ey. inversion Ex; subst x. inversion H; subst s; clear H.
  unfold cneg in Ey. apply arith_ok_signed in Ey as [-> R]; auto. split; [split; [reflexivity|split; [reflexivity|exact R]]|].
  auto.
Qed.

(** ** Histories *)

Lemma operand_convert : forall est t a b x m r, sized est t m -> q_rep t = RInt a -> operand est t b x ->
  q_convert est (q_type b) t (q_num b) = Ok r ->
  exists z, r = NInt z /\ in_range a z = true /\ (x == inject_Z z * m)%Q.
Proof.
  intros est t a b x m r S R O H. destruct O as [i n mb (Rb & Nb & Ib) Sb Ref Cv Vx].
  rewrite Nb in H. destruct (convert_exact _ _ _ _ _ _ _ _ _ Sb S Ref Rb R Ib Cv H) as (z & -> & I & V).
  exists z. split; auto. split; auto. now rewrite Vx.
Qed.

Lemma fits_range : forall a v m z, (0 < m)%Q -> value_fits (RInt a) (v / m) -> (v == inject_Z z * m)%Q -> in_range a z = true.
Proof.
  intros a v m z P (t & E & L) V. inversion E; subst t. apply in_range_spec.
  assert (W : (v / m == inject_Z z)%Q) by (rewrite V; field; lra). rewrite W in L. rewrite <- !Zle_Qle in L. exact L.
Qed.

Lemma I32_range1 : in_range I32 1 = true. Proof. reflexivity. Qed.

Lemma act_effect : forall est q a iq n m v v', integral q iq n -> sized est (q_type q) m -> (v == inject_Z n * m)%Q ->
  effect est (q_type q) m v a v' -> value_fits (q_rep (q_type q)) (v' / m) ->
  forall q', q_act est q a = Ok q' ->
  q_type q' = q_type q /\ exists n', integral q' iq n' /\ (v' == inject_Z n' * m)%Q.
Proof.
  intros est q a iq n m v v' (Rq & Nq & Rn) S V E F q' H. pose proof (sized_pos _ _ _ S) as P. rewrite Rq in F.
  unfold q_act in H. cbv zeta in H. step H as x Ex. inversion H; subst q'; clear H. cbn [q_type q_num]. split; auto.
  rewrite Rq, Nq in Ex.
  assert (K : forall z, (v' == inject_Z z * m)%Q -> x = NInt z ->
    exists n', integral (Quantity (q_type q) x) iq n' /\ (v' == inject_Z n' * m)%Q).
  { intros z Z Xz. exists z. split; auto. split; [exact Rq|]. split; [exact Xz|]. eapply fits_range; eauto. }
  assert (QV : (v / m == inject_Z n)%Q) by (rewrite V; field; lra).
  assert (OF : forall i y, scalar_fits (q_type q) i (v / m) y -> operands_fit iq i n y).
  { intros i y SF. destruct SF as [a' Ra Sg|P1 P2].
    - left. rewrite Rq in Ra. inversion Ra; subst. auto.
    - right. rewrite QV in P1. change 0%Q with (inject_Z 0) in P1. rewrite <- Zle_Qle in P1. auto. }
  inversion E as [v1 Z|v1 Z|b y v1 O Z|b y v1 O Z|b y k v1 O Y T Z|i y v1 Ry Z|i y k v1 Ry Y SF T Z|i y k v1 Ry Y SF T Z]; subst.
  - assert (W : (v' == inject_Z (n + 1) * m)%Q).
    { rewrite Z, V, inject_Z_plus. change (inject_Z 1) with 1%Q. ring. }
    apply (K _ W). apply (assign_ring OpAdd iq I32 n 1 x); auto. cbn. eapply fits_range; eauto.
  - assert (W : (v' == inject_Z (n - 1) * m)%Q).
    { rewrite Z, V. unfold Z.sub. rewrite inject_Z_plus. change (inject_Z (- (1))) with (- (1))%Q. ring. }
    apply (K _ W). apply (assign_ring OpSub iq I32 n 1 x); auto. cbn. eapply fits_range; eauto.
  - step Ex as r Er. destruct (operand_convert _ _ _ _ _ _ _ S Rq O Er) as (z & -> & Iz & Vz).
    assert (W : (v' == inject_Z (n + z) * m)%Q) by (rewrite Z, V, Vz, inject_Z_plus; ring).
    apply (K _ W). apply (assign_ring OpAdd iq iq n z x); auto. cbn. eapply fits_range; eauto.
  - step Ex as r Er. destruct (operand_convert _ _ _ _ _ _ _ S Rq O Er) as (z & -> & Iz & Vz).
    assert (W : (v' == inject_Z (n - z) * m)%Q).
    { rewrite Z, V, Vz. unfold Z.sub. rewrite inject_Z_plus, inject_Z_opp. ring. }
    apply (K _ W). apply (assign_ring OpSub iq iq n z x); auto. cbn. eapply fits_range; eauto.
  - step Ex as c0 E0. step Ex as r Er. destruct (operand_convert _ _ _ _ _ _ _ S Rq O Er) as (z & -> & Iz & Vz).
    assert (Nz : z <> 0). { intros ->. apply Y. rewrite Vz. change (inject_Z 0) with 0%Q. ring. }
    assert (k = Z.quot n z).
    { eapply trunc_unique; [exact T|]. eapply trunc_ext; [|apply quot_trunc_any; exact Nz].
      rewrite V, Vz. field. split; [lra|]. now apply injZ_nz. }
    subst k. assert (W : (v' == inject_Z (Z.rem n z) * m)%Q).
    { rewrite Z, V, Vz. pose proof (Z.quot_rem' n z) as QR. 
      assert (RE : Z.rem n z = n - Z.quot n z * z) by lia. rewrite RE. unfold Z.sub.
      rewrite inject_Z_plus, inject_Z_opp, inject_Z_mult. ring. }
    apply (K _ W). apply (fun A B D F G H => proj1 (assign_div OpRem iq iq n z x A B D F G H)); auto.
    + unfold operands_fit. destruct (isigned (arith_conv iq iq)) eqn:Sg; [now left|right].
      assert (isigned iq = false) by (destruct iq as [[] []]; cbn in *; congruence).
      rewrite in_range_spec in Rn, Iz. unfold imin in Rn, Iz. rewrite H in Rn, Iz. lia.
    + cbn. eapply fits_range; eauto.
  - assert (W : (v' == inject_Z (n * y) * m)%Q) by (rewrite Z, V, inject_Z_mult; ring).
    apply (K _ W). apply (assign_ring OpMul iq i n y x); auto. cbn. eapply fits_range; eauto.
  - assert (k = Z.quot n y).
    { eapply trunc_unique; [exact T|]. eapply trunc_ext; [|apply quot_trunc_any; exact Y].
      rewrite QV. reflexivity. }
    subst k. apply (K _ Z). apply (fun A B D F G H => proj1 (assign_div OpDiv iq i n y x A B D F G H)); auto. cbn. eapply fits_range; eauto.
  - assert (k = Z.quot n y).
    { eapply trunc_unique; [exact T|]. eapply trunc_ext; [|apply quot_trunc_any; exact Y].
      rewrite QV. reflexivity. }
    subst k. step Ex as c0 E0. assert (W : (v' == inject_Z (Z.rem n y) * m)%Q).
    { rewrite Z, V. pose proof (Z.quot_rem' n y) as QR. 
      assert (RE : Z.rem n y = n - Z.quot n y * y) by lia. rewrite RE. unfold Z.sub.
      rewrite inject_Z_plus, inject_Z_opp, inject_Z_mult. ring. }
    apply (K _ W). apply (fun A B D F G H => proj1 (assign_div OpRem iq i n y x A B D F G H)); auto. cbn. eapply fits_range; eauto.
Qed.

Lemma effect_ext : forall est t m v w a v', (v == w)%Q -> effect est t m v a v' -> effect est t m w a v'.
Proof.
  intros est t m v w a v' E H.
  assert (SF : forall i y, scalar_fits t i (v / m) y -> scalar_fits t i (w / m) y).
  { intros i y X. destruct X as [a' Ra Sg|P1 P2]; [eapply fits_signed; eauto|apply fits_positive; auto]. now rewrite <- E. }
  assert (TR : forall x k, trunc_of (v / x) k -> trunc_of (w / x) k).
  { intros x k T. eapply trunc_ext; [|exact T]. now rewrite E. }
  assert (TR2 : forall x k, trunc_of (v / m / x) k -> trunc_of (w / m / x) k).
  { intros x k T. eapply trunc_ext; [|exact T]. now rewrite E. }
  inversion H; subst.
  - apply eff_inc. now rewrite <- E.
  - apply eff_dec. now rewrite <- E.
  - eapply eff_add; eauto. now rewrite <- E.
  - eapply eff_sub; eauto. now rewrite <- E.
  - eapply eff_rem; eauto. now rewrite <- E.
  - eapply eff_mulv; eauto. now rewrite <- E.
  - eapply eff_divv; eauto.
  - eapply eff_remv; eauto. now rewrite <- E.
Qed.

Lemma history_ext : forall est t m v w l v', (v == w)%Q -> history est t m v l v' ->
  exists w', (w' == v')%Q /\ history est t m w l w'.
Proof.
  intros est t m v w l v' E H. destruct H.
  - exists w. split; [now symmetry|constructor].
  - exists v2. split; [reflexivity|]. econstructor; eauto. eapply effect_ext; eauto.
Qed.

Lemma run_history : forall est l q iq n m v v', integral q iq n -> sized est (q_type q) m -> (v == inject_Z n * m)%Q ->
  history est (q_type q) m v l v' -> forall q', q_run est q l = Ok q' ->
  q_type q' = q_type q /\ exists n', integral q' iq n' /\ (v' == inject_Z n' * m)%Q.
Proof.
  intros est l. induction l as [|a l IH]; intros q iq n m v v' I S V H q' R; simpl in R.
  - inversion R; subst q'. inversion H; subst. split; auto. exists n. auto.
  - step R as q1 E1. inversion H as [|v0 a0 v1 l0 v2 Ef Fi Hi]; subst.
    destruct (act_effect _ _ _ _ _ _ _ _ I S V Ef Fi _ E1) as [T1 (n1 & I1 & V1)].
    rewrite <- T1 in S, Hi. destruct (IH _ _ _ _ _ _ I1 S V1 Hi _ R) as [T2 X]. split; [congruence|exact X].
Qed.

(** Adding zero. *)
Lemma zero_integral : forall t a, q_rep t = RInt a -> integral (q_zero t) a 0.
Proof. intros t a R. split; [exact R|]. split; [unfold q_zero; rewrite R; reflexivity|]. destruct a as [[] []]; reflexivity. Qed.
Lemma min_integral : forall t a, q_rep t = RInt a -> integral (q_min t) a (imin a).
Proof. intros t a R. split; [exact R|]. split; [unfold q_min; rewrite R; reflexivity|]. destruct a as [[] []]; reflexivity. Qed.
Lemma max_integral : forall t a, q_rep t = RInt a -> integral (q_max t) a (imax a).
Proof. intros t a R. split; [exact R|]. split; [unfold q_max; rewrite R; reflexivity|]. destruct a as [[] []]; reflexivity. Qed.
