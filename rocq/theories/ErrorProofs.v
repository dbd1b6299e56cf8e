(** Expressions whose casts and divisions truncate. *)

From Coq Require Import ZArith QArith Qabs Qpower String List Bool Lia Lqa.
From Verif Require Import Outcome CInt Ratio SpecRatio QTen RatioMaths RatioMathsProofs RatioProofs RatioProofs2 Root Unit Downcast Dim DimOp Equivalent SpecDim SpecUnit
  DimProofs DimOpProofs DimOpProofs3 EquivProofs MagnitudeProofs Rep IntProofs Reference QuantityCast CommonQuantity Quantity
  SpecQuantity CastProofs QuantityProofs QuantityProofs2 QuantityProofs3 QuantityProofs4 QuantityProofs5 Point SpecPoint PointProofs Expr SpecExpr
  ExprProofs ExprProofs2 Affine SpecAffine AffineProofs Program SpecError.
Import ListNotations.
Local Open Scope Z_scope.
Local Open Scope res_scope.

(** ** Errors of rational arithmetic *)

Local Open Scope Q_scope.
Lemma sum_error : forall x x' y y' e f, Qabs (x' - x) <= e -> Qabs (y' - y) <= f -> Qabs (x' + y' - (x + y)) <= e + f.
Proof.
  intros x x' y y' e f E F. apply Qabs_Qle_condition in E. apply Qabs_Qle_condition in F. apply Qabs_Qle_condition. lra.
Qed.
Lemma diff_error : forall x x' y y' e f, Qabs (x' - x) <= e -> Qabs (y' - y) <= f -> Qabs (x' - y' - (x - y)) <= e + f.
Proof.
  intros x x' y y' e f E F. apply Qabs_Qle_condition in E. apply Qabs_Qle_condition in F. apply Qabs_Qle_condition. lra.
Qed.
Lemma error_pos : forall x e, Qabs x <= e -> 0 <= e.
Proof. intros x e H. pose proof (Qabs_nonneg x). lra. Qed.
Lemma mul_le : forall a b c d, 0 <= a -> 0 <= c -> a <= b -> c <= d -> a * c <= b * d.
Proof. intros a b c d A C B D. nra. Qed.
Lemma prod_error : forall x x' y y' e f, Qabs (x' - x) <= e -> Qabs (y' - y) <= f -> Qabs (x' * y' - x * y) <= product_error x e y f.
Proof.
  intros x x' y y' e f E F. unfold product_error.
  assert (Eq : x' * y' - x * y == x * (y' - y) + y * (x' - x) + (x' - x) * (y' - y)) by ring. rewrite Eq.
  eapply Qle_trans; [apply Qabs_triangle|]. rewrite (Qabs_Qmult (x' - x)).
  apply Qplus_le_compat; [|apply mul_le; auto using Qabs_nonneg].
  eapply Qle_trans; [apply Qabs_triangle|]. rewrite !Qabs_Qmult. apply Qplus_le_compat; apply mul_le; auto using Qabs_nonneg; apply Qle_refl.
Qed.
Lemma far_from_zero : forall y y' f, Qabs (y' - y) <= f -> f < Qabs y -> Qabs y - f <= Qabs y' /\ 0 < Qabs y'.
Proof.
  intros y y' f F L. assert (Qabs y - Qabs y' <= f); [|split; lra].
  eapply Qle_trans; [apply Qabs_triangle_reverse|]. rewrite Qabs_Qminus. exact F.
Qed.
Lemma nonzero_abs : forall y, 0 < Qabs y -> ~ y == 0.
Proof. intros y P E. rewrite E in P. cbn in P. lra. Qed.
Lemma inv_le : forall a b, 0 < a -> a <= b -> / b <= / a.
Proof.
  intros a b A B. assert (I : 0 < / a) by now apply Qinv_lt_0_compat.
  assert (E : / b == 1 / b) by (field; lra). rewrite E. apply Qle_shift_div_r; [lra|].
  assert (E' : 1 == / a * a) by (field; lra). rewrite E'. nra.
Qed.
Lemma quot_error : forall x x' y y' e f, Qabs (x' - x) <= e -> Qabs (y' - y) <= f -> f < Qabs y ->
  Qabs (x' / y' - x / y) <= quotient_error x e y f.
Proof.
  intros x x' y y' e f E F L. unfold quotient_error. pose proof (error_pos _ _ F) as Pf. pose proof (error_pos _ _ E) as Pe.
  destruct (far_from_zero y y' f F L) as [B P']. assert (P : 0 < Qabs y) by lra.
  pose proof (nonzero_abs _ P) as Ny. pose proof (nonzero_abs _ P') as Ny'.
  assert (Eq : x' / y' - x / y == ((x' - x) * y - x * (y' - y)) / (y * y')) by (field; auto). rewrite Eq.
  unfold Qdiv at 1. rewrite Qabs_Qmult, Qabs_Qinv, Qabs_Qmult.
  assert (N : Qabs ((x' - x) * y - x * (y' - y)) <= Qabs x * f + Qabs y * e).
  { eapply Qle_trans; [apply Qabs_triangle|]. rewrite Qabs_opp, !Qabs_Qmult.
    assert (Qabs (x' - x) * Qabs y <= e * Qabs y) by (apply mul_le; auto using Qabs_nonneg; apply Qle_refl).
    assert (Qabs x * Qabs (y' - y) <= Qabs x * f) by (apply mul_le; auto using Qabs_nonneg; apply Qle_refl). lra. }
  apply mul_le; [apply Qabs_nonneg| |exact N|].
  - apply Qlt_le_weak, Qinv_lt_0_compat. nra.
  - assert (D1 : 0 < Qabs y * (Qabs y - f)) by nra. assert (D2 : 0 < Qabs y * Qabs y') by nra.
    assert (D3 : Qabs y * (Qabs y - f) <= Qabs y * Qabs y') by nra.
    now apply inv_le.
Qed.
Lemma scale_error : forall x x' z e, Qabs (x' - x) <= e -> Qabs (x' * z - x * z) <= e * Qabs z.
Proof.
  intros x x' z e E. assert (Eq : x' * z - x * z == (x' - x) * z) by ring. rewrite Eq, Qabs_Qmult.
  apply mul_le; auto using Qabs_nonneg. apply Qle_refl.
Qed.
Lemma further : forall v v' v'' e m, Qabs (v' - v) <= e -> Qabs (v'' - v') <= m -> Qabs (v'' - v) <= e + m.
Proof.
  intros v v' v'' e m E M. apply Qabs_Qle_condition in E. apply Qabs_Qle_condition in M. apply Qabs_Qle_condition. lra.
Qed.
Lemma abs_ext : forall a b c, a == b -> Qabs b <= c -> Qabs a <= c.
Proof. intros a b c E H. now rewrite E. Qed.
Local Close Scope Q_scope.

(** ** Truncation *)

Lemma quot_near : forall n k, k <> 0 -> (Qabs (inject_Z (Z.quot n k) - inject_Z n / inject_Z k) <= 1)%Q.
Proof.
  intros n k K. destruct (trunc_bounds _ _ (quot_trunc_any n k K)) as [B _]. rewrite Qabs_Qminus. now apply Qlt_le_weak.
Qed.

Section Truncated.
Variable est : estimate.
(** A cast to a type with signed 64-bit numbers is less than one unit off. *)
Lemma cast_near : forall from to n r m1 m2, sized est from m1 -> sized est to m2 -> references_ok from to ->
  q_rep from = RInt I64 -> q_rep to = RInt I64 -> in_range I64 n = true -> quantity_cast est from to (NInt n) = Ok r ->
  exists z, r = NInt z /\ in_range I64 z = true /\ (Qabs (inject_Z z * m2 - inject_Z n * m1) <= m2)%Q.
Proof.
  intros from to n r m1 m2 S1 S2 Ref R1 R2 In H. assert (N64 : I64 <> U64) by discriminate.
  destruct (defined_no_overflow est from to I64 I64 m1 m2 S1 S2 Ref R1 R2 N64 N64 n r In H) as [NO _].
  destruct (defined_truncates est from to I64 I64 m1 m2 S1 S2 Ref R1 R2 N64 N64 n r In H) as (z & -> & T).
  pose proof S1 as (G1 & _ & X1 & M1). pose proof S2 as (G2 & _ & X2 & M2).
  destruct NO as (c & t & Hc & Ht' & F). assert (Ht : cast_rep (q_rep from) (q_rep to) = RInt I64) by (now rewrite R1, R2).
  rewrite Ht in Ht'. inversion Ht'; subst t.
  destruct (cast_ratio_magnitude _ _ _ _ _ _ G1 G2 X1 X2 Ref M1 M2 Hc) as [V G].
  destruct (cast_parts c G) as (P1 & P2 & Q). apply products_fit_iff in F as (_ & _ & _ & F & _).
  pose proof (in_range_quot I64 _ _ eq_refl F P2) as Iz.
  assert (T' : trunc_of (inject_Z n * m1 / m2) (Z.quot (n * cast_num c) (cast_den c))).
  { eapply quot_value; eauto. }
  rewrite <- (trunc_unique _ _ _ T T') in Iz. exists z. rewrite wrap_id by auto. split; [reflexivity|]. split; [exact Iz|].
  destruct (trunc_bounds _ _ T) as [B _]. pose proof (sized_pos _ _ _ S2) as P.
  assert (E : (inject_Z z * m2 - inject_Z n * m1 == - (inject_Z n * m1 / m2 - inject_Z z) * m2)%Q) by (field; lra).
  rewrite E, Qabs_Qmult, Qabs_opp, (Qabs_pos m2) by lra. nra.
Qed.

Lemma q_cast_is : forall w c q s, q_cast est w c q = Ok s ->
  quantity_cast est (q_type q) (q_type s) (q_num q) = Ok (q_num s) /\
  match c with ToQuantity t => q_dim (q_type s) = q_dim t | ToDim d => q_dim (q_type s) = d | _ => q_dim (q_type s) = q_dim (q_type q) end.
Proof.
  intros w [t|d|u|r] q s H; unfold q_cast in H.
  - step H as n E. inversion H; subst s. cbn [q_type q_num]. auto.
  - step H as x E. inversion H; subst s. cbn [q_type q_num]. unfold quantity_cast_dim in E. step E as u0 C. step E as u U. step E as t T. step E as n N.
    inversion E; subst x. cbn [fst snd]. split; [exact N|]. unfold mk_qtype in T. step T as u1 C1. now inversion T.
  - step H as x E. inversion H; subst s. cbn [q_type q_num]. unfold quantity_cast_unit in E. step E as t T. step E as n N.
    inversion E; subst x. cbn [fst snd]. split; [exact N|]. unfold mk_qtype in T. step T as u1 C1. now inversion T.
  - step H as x E. inversion H; subst s. cbn [q_type q_num]. unfold quantity_cast_rep in E. cbv zeta in E. step E as n N.
    inversion E; subst x. cbn [fst snd]. split; [exact N|reflexivity].
Qed.
End Truncated.

Section Values.
Variable U : bdim -> Prop.
Variable w : world.
Hypothesis HU : symbols_identify U.
Hypothesis G : good_system U w.
Variable rb : rebinding.
Variable est : estimate.
Variable at_ : frame.
Let P := in_system U w.

Lemma object_stands : forall r x, at_value est at_ r x -> P (value_dim r) ->
  exists x', stands_for rb est w at_ (object r) x' /\ (x' == x)%Q /\ aall_dims P (object r) /\ aeval rb est w (object r) = Ok r.
Proof.
  intros [q|p] x A D; cbn in A, D.
  - exists x. split; [apply sf_quantity; exact A|]. split; [reflexivity|]. split; [exact D|reflexivity].
  - destruct A as (v & V & E). exists (at_ (p_origin (pt_type p)) + v)%Q. split; [apply sf_point; exact V|]. split; [exact E|]. split; [exact D|reflexivity].
Qed.

Lemma one_unary : forall o a ra r, aeval rb est w a = Ok ra -> aeval rb est w (AUnary o a) = Ok r -> aeval rb est w (AUnary o (object ra)) = Ok r.
Proof. intros o a ra r A H. cbn [aeval] in *. rewrite A in H. destruct ra; exact H. Qed.
Lemma one_binary : forall o a b ra r' r, aeval rb est w a = Ok ra -> aeval rb est w b = Ok r' -> aeval rb est w (ABinary o a b) = Ok r ->
  aeval rb est w (ABinary o (object ra) (object r')) = Ok r.
Proof. intros o a b ra r' r A B H. cbn [aeval] in *. rewrite A, B in H. destruct ra, r'; exact H. Qed.
Lemma one_move : forall t a ra r, aeval rb est w a = Ok ra -> aeval rb est w (AMove t a) = Ok r -> aeval rb est w (AMove t (object ra)) = Ok r.
Proof. intros t a ra r A H. cbn [aeval] in *. rewrite A in H. destruct ra; exact H. Qed.

(** An exact node: the result has the value of the node on the values of its operands. *)
Lemma exact_node : forall e v r, stands_for rb est w at_ e v -> aall_dims P e -> aeval rb est w e = Ok r -> P (value_dim r) /\ at_value est at_ r v.
Proof. intros e v r S A H. exact (aeval_exact U w HU G rb est at_ e v S A r H). Qed.

(** Conversion of a quantity. *)
Lemma convert_near : forall q t x r m, P (q_dim (q_type q)) -> P (q_dim t) -> valued est q x -> q_rep t = RInt I64 -> sized est t m ->
  q_convert est (q_type q) t (q_num q) = Ok r -> valued est (Quantity t r) x.
Proof.
  intros q t x r m D Dt V R S H.
  assert (M : means est w (EConv t (ELit q)) x) by (apply mn_conv; [now constructor|exact R|eauto]).
  refine (proj2 (one_node U w HU G est _ _ (Quantity t r) M _ _)); [cbn; auto|]. cbn [eval bind]. unfold q_to. now rewrite H.
Qed.

Lemma cast_value : forall q s x m, P (q_dim (q_type q)) -> P (q_dim (q_type s)) -> valued est q x ->
  q_rep (q_type s) = RInt I64 -> sized est (q_type s) m -> quantity_cast est (q_type q) (q_type s) (q_num q) = Ok (q_num s) ->
  exists x', valued est s x' /\ (Qabs (x' - x) <= m)%Q.
Proof.
  intros q s x m D Ds (n & mq & (R & N & In) & S & V) Rs Ss H. rewrite N in H.
  assert (De : q_dim (q_type s) = q_dim (q_type q)).
  { apply (same_dimension U w HU); auto. unfold quantity_cast in H. step H as u C. apply constrained_ok in C. now apply equivalent_exps. }
  destruct (cast_near est _ _ n _ mq m S Ss (references_ok_refl _ _ (eq_sym De)) R Rs In H) as (z & E & Iz & B).
  exists (inject_Z z * m)%Q. split; [exists z, m; split; [split; [exact Rs|split; [exact E|exact Iz]]|split; [exact Ss|reflexivity]]|].
  now rewrite V.
Qed.

Lemma pos_of : forall t m, sized est t m -> (0 < m)%Q.
Proof. intros t m S. exact (sized_pos _ _ _ S). Qed.
Lemma same_size : forall t m m', sized est t m -> sized est t m' -> (m == m')%Q.
Proof. intros t m m' (_ & _ & _ & M) (_ & _ & _ & M'). exact (magnitude_unique _ _ _ _ M M'). Qed.

Theorem eval_near : forall e v d, near rb est w at_ e v d -> aall_dims P e ->
  forall r, aeval rb est w e = Ok r -> P (value_dim r) /\ within est at_ r v d.
Proof.
  intros e v d N. induction N as [q v V|p v V|a v d N IH|a v d N IH|a b x y e f N1 IH1 N2 IH2|a b x y e f N1 IH1 N2 IH2|a b x y e f N1 IH1 N2 IH2
    |a b x y e f m N1 IH1 N2 IH2 L Cn|a i z x e N IH Rz Ni|a i z x e N IH Rz Ni|a i z x e m N IH Rz Ni Cn|t a x e N IH Rt St|c a x e m N IH Cn
    |t a x e N IH Rt St|c a x e m N IH Cn Sp|t a x e m N IH Cn Sp|a x e o N IH Og|t a x e N IH Rt St]; intros A r H.
  - inversion H; subst r. split; [exact A|]. exists v. split; [exact V|]. apply (abs_ext _ 0); [ring|]. apply Qle_refl.
  - inversion H; subst r. split; [exact A|]. exists (at_ (p_origin (pt_type p)) + v)%Q. split; [exists v; split; [exact V|reflexivity]|].
    apply (abs_ext _ 0); [ring|]. apply Qle_refl.
  - pose proof H as H0. cbn [aeval] in H0. step H0 as ra Ra. clear H0. destruct (IH (proj2 A) _ Ra) as (D & x & V & B).
    destruct (object_stands ra x V D) as (x' & S & E & Ao & _).
    destruct (exact_node (AUnary UPos (object ra)) x' r) as [D' V']; [now constructor|split; [exact I|exact Ao]|now apply (one_unary _ a)|].
    split; [exact D'|]. exists x'. split; [exact V'|]. now rewrite E.
  - pose proof H as H0. cbn [aeval] in H0. step H0 as ra Ra. clear H0. destruct (IH (proj2 A) _ Ra) as (D & x & V & B).
    destruct (object_stands ra x V D) as (x' & S & E & Ao & _).
    destruct (exact_node (AUnary UNeg (object ra)) (- x') r) as [D' V']; [now constructor|split; [exact I|exact Ao]|now apply (one_unary _ a)|].
    split; [exact D'|]. exists (- x')%Q. split; [exact V'|]. apply (abs_ext _ (- (x - v))); [rewrite E; ring|]. now rewrite Qabs_opp.
  - pose proof H as H0. cbn [aeval] in H0. step H0 as ra Ra. step H0 as r' Rb. clear H0.
    destruct (IH1 (proj1 A) _ Ra) as (Da & xa & Va & Ba). destruct (IH2 (proj2 A) _ Rb) as (Db & xb & Vb & Bb).
    destruct (object_stands ra xa Va Da) as (ya & Sa & Ea & Aa & _). destruct (object_stands r' xb Vb Db) as (yb & Sb & Eb & Ab & _).
    destruct (exact_node (ABinary BAdd (object ra) (object r')) (ya + yb) r) as [D' V']; [now constructor|split; auto|now apply (one_binary _ a b)|].
    split; [exact D'|]. exists (ya + yb)%Q. split; [exact V'|]. rewrite Ea, Eb. now apply sum_error.
  - pose proof H as H0. cbn [aeval] in H0. step H0 as ra Ra. step H0 as r' Rb. clear H0.
    destruct (IH1 (proj1 A) _ Ra) as (Da & xa & Va & Ba). destruct (IH2 (proj2 A) _ Rb) as (Db & xb & Vb & Bb).
    destruct (object_stands ra xa Va Da) as (ya & Sa & Ea & Aa & _). destruct (object_stands r' xb Vb Db) as (yb & Sb & Eb & Ab & _).
    destruct (exact_node (ABinary BSub (object ra) (object r')) (ya - yb) r) as [D' V']; [now constructor|split; auto|now apply (one_binary _ a b)|].
    split; [exact D'|]. exists (ya - yb)%Q. split; [exact V'|]. rewrite Ea, Eb. now apply diff_error.
  - pose proof H as H0. cbn [aeval] in H0. step H0 as ra Ra. step H0 as r' Rb. clear H0.
    destruct (IH1 (proj1 A) _ Ra) as (Da & xa & Va & Ba). destruct (IH2 (proj2 A) _ Rb) as (Db & xb & Vb & Bb).
    destruct (object_stands ra xa Va Da) as (ya & Sa & Ea & Aa & _). destruct (object_stands r' xb Vb Db) as (yb & Sb & Eb & Ab & _).
    destruct (exact_node (ABinary BMul (object ra) (object r')) (ya * yb) r) as [D' V']; [now constructor|split; auto|now apply (one_binary _ a b)|].
    split; [exact D'|]. exists (ya * yb)%Q. split; [exact V'|]. rewrite Ea, Eb. now apply prod_error.
  - (* division *) pose proof H as H0. cbn [aeval] in H0. step H0 as ra Ra. step H0 as r' Rb.
    destruct (IH1 (proj1 A) _ Ra) as (Da & xa & Va & Ba). destruct (IH2 (proj2 A) _ Rb) as (Db & xb & Vb & Bb).
    destruct ra as [qa|], r' as [qb|]; try discriminate H0. cbn [binary_value binary_quantity] in H0. step H0 as s Hs. inversion H0; subst r; clear H0.
    cbn [value_dim at_value] in *. destruct Va as (na & ma & Ia & Sa & Va), Vb as (nb & mb & Ib & Sb & Vb).
    pose proof (divide_in_system U w HU G _ _ _ Da Db (over_dim _ _ _ _ Hs)) as D. split; [exact D|].
    destruct (q_over_values est w qa qb I64 I64 na nb ma mb (proj1 G) Ia Ib Sa Sb (or_introl eq_refl) s Hs (system_unit_good U w G _ D) (or_introl eq_refl))
      as (Z & I & Gd & M & _).
    destruct (proj1 Cn s H) as [_ Ss]. pose proof Ss as (_ & _ & _ & Ms). pose proof (magnitude_unique _ _ _ _ M Ms) as Em.
    pose proof (sized_pos _ _ _ Sa) as Pa. pose proof (sized_pos _ _ _ Sb) as Pb. pose proof (sized_pos _ _ _ Ss) as Pm.
    exists (inject_Z (Z.quot na nb) * m)%Q. split; [exists (Z.quot na nb), m; split; [exact I|split; [exact Ss|reflexivity]]|].
    apply (further _ (xa / xb)); [now apply quot_error|]. pose proof (injZ_nz _ Z) as Nb.
    apply (abs_ext _ ((inject_Z (Z.quot na nb) - inject_Z na / inject_Z nb) * m)).
    { rewrite Va, Vb, <- Em. field. repeat split; lra || exact Nb. }
    rewrite Qabs_Qmult, (Qabs_pos m) by lra. pose proof (quot_near na nb Z). nra.
  - pose proof H as H0. cbn [aeval] in H0. step H0 as ra Ra. clear H0. destruct (IH (proj2 A) _ Ra) as (D & y & V & B).
    destruct (object_stands ra y V D) as (x' & S & E & Ao & _).
    destruct (exact_node (AUnary (UMulV (RInt i) (NInt z)) (object ra)) (x' * inject_Z z) r) as [D' V'];
      [now constructor|split; [exact I|exact Ao]|now apply (one_unary _ a)|].
    split; [exact D'|]. exists (x' * inject_Z z)%Q. split; [exact V'|]. rewrite E. now apply scale_error.
  - pose proof H as H0. cbn [aeval] in H0. step H0 as ra Ra. clear H0. destruct (IH (proj2 A) _ Ra) as (D & y & V & B).
    destruct (object_stands ra y V D) as (x' & S & E & Ao & _).
    destruct (exact_node (AUnary (UVMul (RInt i) (NInt z)) (object ra)) (inject_Z z * x') r) as [D' V'];
      [now constructor|split; [exact I|exact Ao]|now apply (one_unary _ a)|].
    split; [exact D'|]. exists (inject_Z z * x')%Q. split; [exact V'|]. rewrite E. rewrite (Qmult_comm _ y), (Qmult_comm _ x). now apply scale_error.
  - (* division by a number *) pose proof H as H0. cbn [aeval] in H0. step H0 as ra Ra. step H0 as q Q. step H0 as s Hs. inversion H0; subst r; clear H0.
    destruct ra as [q'|]; [|discriminate Q]. inversion Q; subst q'; clear Q. destruct (IH (proj2 A) _ Ra) as (D & y & (n & mq & Iq & Sq & V) & B).
    cbn [value_dim] in *. assert (SG : isigned (arith_conv I64 i) = true) by (now rewrite conv64).
    destruct (q_scale_values OpDiv false q i z I64 n s Rz Iq (or_introl SG) (or_introl SG) Hs) as (I' & D' & U' & Z'). specialize (Z' eq_refl). cbn in Z'.
    rewrite conv64 in I' by auto. split; [now rewrite D'|]. destruct (proj1 Cn s H) as [_ Ss].
    assert (Sq' : sized est (q_type s) mq).
    { destruct s as [[d u r0] x0]. cbn [q_type q_dim q_unit] in *. subst d u. exact (sized_rep _ _ _ r0 Sq). }
    pose proof (same_size _ _ _ Sq' Ss) as Em. pose proof (sized_pos _ _ _ Ss) as Pm. pose proof (injZ_nz _ Z') as Nz.
    exists (inject_Z (Z.quot n z) * m)%Q. split; [exists (Z.quot n z), m; split; [exact I'|split; [exact Ss|reflexivity]]|].
    apply (further _ (y / inject_Z z)).
    + assert (E1 : (e / Qabs (inject_Z z) == e * Qabs (/ inject_Z z))%Q) by (rewrite Qabs_Qinv; reflexivity). rewrite E1. now apply scale_error.
    + apply (abs_ext _ ((inject_Z (Z.quot n z) - inject_Z n / inject_Z z) * m)); [rewrite V, Em; field; exact Nz|].
      rewrite Qabs_Qmult, (Qabs_pos m) by lra. pose proof (quot_near n z Z'). nra.
  - pose proof H as H0. cbn [aeval] in H0. step H0 as ra Ra. clear H0. destruct (IH (proj2 A) _ Ra) as (D & y & V & B).
    destruct (object_stands ra y V D) as (x' & S & E & Ao & _).
    destruct (exact_node (AUnary (UConv t) (object ra)) x' r) as [D' V']; [now constructor|split; [exact (proj1 A)|exact Ao]|now apply (one_unary _ a)|].
    split; [exact D'|]. exists x'. split; [exact V'|]. now rewrite E.
  - (* cast *) pose proof H as H0. cbn [aeval] in H0. step H0 as ra Ra. step H0 as q Q. step H0 as s Hs. inversion H0; subst r; clear H0.
    destruct ra as [q'|]; [|discriminate Q]. inversion Q; subst q'; clear Q. destruct (IH (proj2 A) _ Ra) as (D & y & V & B). cbn [value_dim at_value] in *.
    cbn [unary_quantity] in Hs. destruct (q_cast_is est w c q s Hs) as [Hc Dc]. destruct (proj1 Cn s H) as [Rs Ss].
    assert (Ds : P (q_dim (q_type s))) by (destruct c; rewrite Dc; [exact (proj1 A)|exact (proj1 A)|exact D|exact D]). split; [exact Ds|].
    destruct (cast_value q s y m D Ds V Rs Ss Hc) as (x' & V' & B'). exists x'. split; [exact V'|]. now apply (further _ y).
  - pose proof H as H0. cbn [aeval] in H0. step H0 as ra Ra. clear H0. destruct (IH (proj2 A) _ Ra) as (D & y & V & B).
    destruct (object_stands ra y V D) as (x' & S & E & Ao & _).
    destruct (exact_node (AMove t (object ra)) x' r) as [D' V']; [now constructor|split; [exact (proj1 A)|exact Ao]|now apply (one_move _ a)|].
    split; [exact D'|]. exists x'. split; [exact V'|]. now rewrite E.
  - (* cast of a point *) pose proof H as H0. cbn [aeval] in H0. step H0 as ra Ra. step H0 as p Q. step H0 as s Hs. inversion H0; subst r; clear H0.
    destruct ra as [|p']; [discriminate Q|]. inversion Q; subst p'; clear Q. destruct (IH (proj2 A) _ Ra) as (D & y & (z & V & E) & B). cbn [value_dim at_value] in *.
    unfold point_cast in Hs. step Hs as q Hq. inversion Hs; subst s; clear Hs. destruct (q_cast_is est w c (relative p) q Hq) as [Hc Dc].
    destruct (proj2 Cn _ H) as [Rs Ss]. pose proof (Sp p _ Ra H) as O. destruct q as [[dq uq rq] nq].
    cbn [p_deduced pt_type p_origin p_rep p_qtype p_unit o_dim q_type q_dim q_unit q_rep q_num relative] in *.
    assert (Ds : P dq) by (destruct c; rewrite Dc; [exact (proj1 A)|exact (proj1 A)|exact D|exact D]). split; [exact Ds|].
    destruct (cast_value (relative p) (Quantity (QType dq uq rq) nq) z m D Ds V Rs Ss Hc) as (x' & V' & B').
    exists (at_ (ODynamic dq) + x')%Q. split; [exists x'; split; [exact V'|reflexivity]|].
    apply (further _ y); [exact B|]. apply (abs_ext _ (x' - z)); [rewrite <- E, O; ring|exact B'].
  - pose proof H as H0. cbn [aeval] in H0. step H0 as ra Ra. step H0 as p Q. step H0 as s Hs. inversion H0; subst r; clear H0.
    destruct ra as [|p']; [discriminate Q|]. inversion Q; subst p'; clear Q. destruct (IH (proj2 A) _ Ra) as (D & y & (z & V & E) & B). cbn [value_dim at_value] in *.
    unfold point_cast_to in Hs. step Hs as u0 U0. step Hs as n Hc. inversion Hs; subst s; clear Hs.
    destruct (proj2 Cn _ H) as [Rs Ss]. pose proof (Sp p _ Ra H) as O.
    cbn [p_deduced pt_type p_origin p_rep p_qtype p_unit o_dim q_type q_dim q_unit q_rep q_num] in *.
    split; [exact (proj1 A)|].
    destruct (cast_value (relative p) (Quantity (p_qtype t) n) z m D (proj1 A) V Rs Ss Hc) as (x' & V' & B').
    exists (at_ (ODynamic (o_dim (p_origin t))) + x')%Q. split; [exists x'; split; [exact V'|reflexivity]|].
    apply (further _ y); [exact B|]. apply (abs_ext _ (x' - z)); [rewrite <- E, O; ring|exact B'].
  - (* relative *) cbn [aeval] in H. step H as ra Ra. step H as p Q. inversion H; subst r; clear H.
    destruct ra as [|p']; [discriminate Q|]. inversion Q; subst p'; clear Q. destruct (IH A _ Ra) as (D & y & (z & V & E) & B). cbn [value_dim at_value] in *.
    split; [exact D|]. exists z. split; [exact V|]. apply (abs_ext _ (y - x)); [|exact B]. rewrite <- E, (Og p Ra). ring.
  - (* a point from a quantity *) cbn [aeval] in H. step H as ra Ra. step H as q Q. step H as s Hs. inversion H; subst r; clear H.
    destruct ra as [q'|]; [|discriminate Q]. inversion Q; subst q'; clear Q. destruct (IH (proj2 A) _ Ra) as (D & y & V & B). cbn [value_dim at_value] in *.
    unfold p_make in Hs. step Hs as n Hn. inversion Hs; subst s; clear Hs. cbn [pt_type]. split; [exact (proj1 A)|]. destruct St as [mt St].
    exists (at_ (p_origin t) + y)%Q. split.
    + exists y. split; [|reflexivity]. exact (convert_near q (p_qtype t) y n mt D (proj1 A) V Rt St Hn).
    + apply (abs_ext _ (y - x)); [ring|exact B].
Qed.
End Values.
