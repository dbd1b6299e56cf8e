(** Comparison and arithmetic of quantities with integral representations. *)

From Coq Require Import ZArith QArith Qpower Qabs String List Bool Lia Lqa.
From Verif Require Import Outcome CInt Ratio SpecRatio QTen RatioMaths RatioMathsProofs RatioProofs
  Pow Root RatioProofs2 RatioPowProofs Unit Downcast Dim DimOp Equivalent SpecDim SpecUnit
  DimOpProofs DimOpProofs2 EquivProofs MagnitudeProofs Rep IntProofs Reference QuantityCast CommonQuantity Quantity SpecQuantity CastProofs
  QuantityProofs.
Import ListNotations.
Local Open Scope Z_scope.
Local Open Scope res_scope.

Lemma denotes_int : forall est q a n m v, integral q a n -> sized est (q_type q) m -> denotes q v ->
  (v == inject_Z n * m)%Q.
Proof.
  intros est q a n m v (_ & N & _) (_ & _ & _ & M) (n' & m' & N' & M' & V). rewrite N in N'. inversion N'; subst n'.
  rewrite V. now rewrite (magnitude_unique _ _ _ _ M M').
Qed.

Lemma denotes_intro : forall est q n m v, q_num q = NInt n -> sized est (q_type q) m -> (v == inject_Z n * m)%Q -> denotes q v.
Proof. intros est q n m v N (_ & _ & _ & M) V. exists n, m. auto. Qed.

(** ** Both operands in the common unit *)

Lemma common_values : forall est w a b ia ib na nb ma mb r t x y, consistent w ->
  integral a ia na -> integral b ib nb -> sized est (q_type a) ma -> sized est (q_type b) mb ->
  compatible (q_type a) (q_type b) ->
  common_quantity est w (q_type a) (q_type b) (RInt r) = Ok t ->
  convertible est (q_type a) t na -> convertible est (q_type b) t nb ->
  q_convert est (q_type a) t (q_num a) = Ok x -> q_convert est (q_type b) t (q_num b) = Ok y ->
  exists m zx zy, sized est t m /\ common_magnitude ma mb m /\ x = NInt zx /\ y = NInt zy /\
    in_range r zx = true /\ in_range r zy = true /\ same_value na ma zx m /\ same_value nb mb zy m.
Proof.
  intros est w a b ia ib na nb ma mb r t x y C (Ra & Na & Ia) (Rb & Nb & Ib) Sa Sb CO Ht Ca Cb Hx Hy.
  destruct (common_quantity_sized _ _ _ _ _ _ _ _ C Sa Sb CO Ht) as (m & Sm & Cm & Rt & R1 & R2 & _).
  rewrite Na in Hx. rewrite Nb in Hy.
  destruct (convert_exact _ _ _ _ _ _ _ _ _ Sa Sm R1 Ra Rt Ia Ca Hx) as (zx & Ex & Ix & Vx).
  destruct (convert_exact _ _ _ _ _ _ _ _ _ Sb Sm R2 Rb Rt Ib Cb Hy) as (zy & Ey & Iy & Vy).
  exists m, zx, zy. repeat (split; auto).
Qed.

(** ** Comparison *)

Lemma q_common_values : forall est w a b ia ib na nb ma mb p, consistent w ->
  integral a ia na -> integral b ib nb -> sized est (q_type a) ma -> sized est (q_type b) mb ->
  compatible (q_type a) (q_type b) ->
  both_convertible est w (common_rep (RInt ia) (RInt ib)) a b na nb ->
  q_common est w a b = Ok p ->
  exists m zx zy, p = (NInt zx, NInt zy) /\ (0 < m)%Q /\ same_value na ma zx m /\ same_value nb mb zy m.
Proof.
  intros est w a b ia ib na nb ma mb p C Ia Ib Sa Sb CO BC H. unfold q_common in H.
  destruct (qtype_eq_dec (q_type a) (q_type b)) as [E|E].
  - inversion H; subst p. exists ma, na, nb. destruct Ia as (_ & -> & _), Ib as (_ & -> & _).
    split; auto. split; [eapply sized_pos; eauto|]. unfold same_value. split; [reflexivity|].
    rewrite E in Sa. now rewrite (sized_unique _ _ _ _ Sa Sb).
  - pose proof Ia as (Ra & _). pose proof Ib as (Rb & _). rewrite Ra, Rb in H.
    step H as t Et. step H as x Ex. step H as y Ey. inversion H; subst p. destruct (BC t Et) as [Ca Cb].
    cbn [common_rep] in Et.
    destruct (common_values _ _ _ _ _ _ _ _ _ _ _ _ _ _ C Ia Ib Sa Sb CO Et Ca Cb Ex Ey)
      as (m & zx & zy & Sm & _ & -> & -> & _ & _ & Vx & Vy).
    exists m, zx, zy. split; auto. split; [eapply sized_pos; eauto|auto].
Qed.

Lemma compare_scale : forall m x y, (0 < m)%Q -> (inject_Z x * m ?= inject_Z y * m)%Q = (x ?= y)%Z.
Proof.
  intros m x y P. destruct (Z.compare_spec x y) as [E|E|E].
  - subst. apply Qeq_alt. reflexivity.
  - apply Qlt_alt. apply Qmult_lt_compat_r; auto. now rewrite <- Zlt_Qlt.
  - apply Qgt_alt. apply Qmult_lt_compat_r; auto. now rewrite <- Zlt_Qlt.
Qed.

Lemma q_compare_values : forall est w a b ia ib na nb ma mb c, consistent w ->
  integral a ia na -> integral b ib nb -> sized est (q_type a) ma -> sized est (q_type b) mb ->
  compatible (q_type a) (q_type b) ->
  both_convertible est w (common_rep (RInt ia) (RInt ib)) a b na nb ->
  q_compare est w a b = Ok c -> c = Some (inject_Z na * ma ?= inject_Z nb * mb)%Q.
Proof.
  intros est w a b ia ib na nb ma mb c C Ia Ib Sa Sb CO BC H. unfold q_compare in H. step H as p Ep.
  destruct (q_common_values _ _ _ _ _ _ _ _ _ _ _ C Ia Ib Sa Sb CO BC Ep) as (m & zx & zy & -> & P & Vx & Vy).
  cbn [fst snd n_compare] in H. inversion H. f_equal. unfold same_value in *. rewrite Vx, Vy. symmetry. now apply compare_scale.
Qed.

Lemma q_eqb_values : forall est w a b ia ib na nb ma mb v, consistent w ->
  integral a ia na -> integral b ib nb -> sized est (q_type a) ma -> sized est (q_type b) mb ->
  compatible (q_type a) (q_type b) ->
  both_convertible est w (common_rep (RInt ia) (RInt ib)) a b na nb ->
  q_eqb est w a b = Ok v -> (v = true <-> (inject_Z na * ma == inject_Z nb * mb)%Q).
Proof.
  intros est w a b ia ib na nb ma mb v C Ia Ib Sa Sb CO BC H. unfold q_eqb in H. step H as p Ep.
  destruct (q_common_values _ _ _ _ _ _ _ _ _ _ _ C Ia Ib Sa Sb CO BC Ep) as (m & zx & zy & -> & P & Vx & Vy).
  cbn [fst snd n_eqb] in H. inversion H. unfold same_value in *. rewrite Vx, Vy, Z.eqb_eq. split; intros E.
  - subst. reflexivity.
  - apply Qmult_inj_r in E; [|lra]. now apply (proj1 (inject_Z_injective _ _)).
Qed.

(** With 64-bit signed numbers a comparison that is defined needs no further condition. *)
Lemma both_convertible_int64 : forall est w a b ia ib na nb ma mb r x y t, consistent w ->
  integral a ia na -> integral b ib nb -> ia <> U64 -> ib <> U64 -> r = RInt I64 ->
  sized est (q_type a) ma -> sized est (q_type b) mb -> compatible (q_type a) (q_type b) ->
  common_quantity est w (q_type a) (q_type b) r = Ok t ->
  q_convert est (q_type a) t (q_num a) = Ok x -> q_convert est (q_type b) t (q_num b) = Ok y ->
  both_convertible est w r a b na nb.
Proof.
  intros est w a b ia ib na nb ma mb r x y t C (Ra & Na & Ia) (Rb & Nb & Ib) Ua Ub -> Sa Sb CO Ht Hx Hy t' Ht'.
  rewrite Ht in Ht'. inversion Ht'; subst t'.
  destruct (common_quantity_sized _ _ _ _ _ _ _ _ C Sa Sb CO Ht) as (m & Sm & Cm & Rt & R1 & R2 & _).
  rewrite Na in Hx. rewrite Nb in Hy. split.
  - exact (convert_int64 _ _ _ _ _ _ _ _ Sa Sm R1 Ra Ua Rt Ia Hx).
  - exact (convert_int64 _ _ _ _ _ _ _ _ Sb Sm R2 Rb Ub Rt Ib Hy).
Qed.

Lemma q_common_int64 : forall est w a b ia ib na nb ma mb p, consistent w ->
  integral a ia na -> integral b ib nb -> ia <> U64 -> ib <> U64 -> common_rep (RInt ia) (RInt ib) = RInt I64 ->
  sized est (q_type a) ma -> sized est (q_type b) mb -> compatible (q_type a) (q_type b) ->
  q_type a <> q_type b -> q_common est w a b = Ok p ->
  both_convertible est w (common_rep (RInt ia) (RInt ib)) a b na nb.
Proof.
  intros est w a b ia ib na nb ma mb p C Ia Ib Ua Ub R Sa Sb CO NE H. unfold q_common in H.
  destruct (qtype_eq_dec (q_type a) (q_type b)) as [E|E]; [contradiction|].
  pose proof Ia as (Ra & _). pose proof Ib as (Rb & _). rewrite Ra, Rb in H.
  step H as t Et. step H as x Ex. step H as y Ey. 
  eapply both_convertible_int64; eauto.
Qed.

Lemma q_compare_int64 : forall est w a b ia ib na nb ma mb c, consistent w ->
  integral a ia na -> integral b ib nb -> ia <> U64 -> ib <> U64 -> common_rep (RInt ia) (RInt ib) = RInt I64 ->
  sized est (q_type a) ma -> sized est (q_type b) mb -> compatible (q_type a) (q_type b) ->
  q_compare est w a b = Ok c -> c = Some (inject_Z na * ma ?= inject_Z nb * mb)%Q.
Proof.
  intros est w a b ia ib na nb ma mb c C Ia Ib Ua Ub R Sa Sb CO H.
  destruct (qtype_eq_dec (q_type a) (q_type b)) as [E|E].
  - unfold q_compare, q_common in H. destruct (qtype_eq_dec (q_type a) (q_type b)); [|contradiction].
    destruct Ia as (_ & Na & _), Ib as (_ & Nb & _). cbn [bind fst snd] in H. rewrite Na, Nb in H.
    cbn [n_compare] in H. inversion H. f_equal.
    rewrite E in Sa. rewrite <- (sized_unique _ _ _ _ Sa Sb). symmetry. apply compare_scale. eapply sized_pos; eauto.
  - unfold q_compare in H. step H as p Ep.
    pose proof (q_common_int64 _ _ _ _ _ _ _ _ _ _ _ C Ia Ib Ua Ub R Sa Sb CO E Ep) as BC.
    eapply q_compare_values; eauto. unfold q_compare. rewrite Ep. exact H.
Qed.

Lemma q_eqb_int64 : forall est w a b ia ib na nb ma mb v, consistent w ->
  integral a ia na -> integral b ib nb -> ia <> U64 -> ib <> U64 -> common_rep (RInt ia) (RInt ib) = RInt I64 ->
  sized est (q_type a) ma -> sized est (q_type b) mb -> compatible (q_type a) (q_type b) ->
  q_eqb est w a b = Ok v -> (v = true <-> (inject_Z na * ma == inject_Z nb * mb)%Q).
Proof.
  intros est w a b ia ib na nb ma mb v C Ia Ib Ua Ub R Sa Sb CO H.
  assert (X : exists c, q_compare est w a b = Ok (Some c) /\ (v = true <-> c = Eq)).
  { unfold q_eqb in H. unfold q_compare. step H as p Ep. rewrite Ep. cbn [bind]. unfold q_common in Ep.
    destruct (qtype_eq_dec (q_type a) (q_type b)) as [E|E].
    - inversion Ep; subst p. destruct Ia as (_ & Na & _), Ib as (_ & Nb & _). rewrite Na, Nb in *.
      cbn [fst snd n_eqb n_compare] in *. inversion H. eexists. split; [reflexivity|].
      rewrite Z.eqb_eq, Z.compare_eq_iff. tauto.
    - assert (Ep' : q_common est w a b = Ok p).
      { unfold q_common. destruct (qtype_eq_dec (q_type a) (q_type b)); [contradiction|exact Ep]. }
      pose proof (q_common_int64 _ _ _ _ _ _ _ _ _ _ _ C Ia Ib Ua Ub R Sa Sb CO E Ep') as BC.
      destruct (q_common_values _ _ _ _ _ _ _ _ _ _ _ C Ia Ib Sa Sb CO BC Ep') as (m & zx & zy & -> & _).
      cbn [fst snd n_eqb n_compare] in *. inversion H. eexists. split; [reflexivity|].
      rewrite Z.eqb_eq, Z.compare_eq_iff. tauto. }
  destruct X as (c & Hc & Vc). rewrite Vc.
  assert (Y : Some c = Some (inject_Z na * ma ?= inject_Z nb * mb)%Q) by (eapply q_compare_int64; eauto).
  inversion Y as [Y']. rewrite <- Y'. rewrite Y'. rewrite <- Qeq_alt. tauto.
Qed.

(** ** Addition and subtraction *)

Definition exact_sum (o : arith_op) (x y : Q) : Q := match o with OpSub => x - y | _ => x + y end.
Definition sum_op (o : arith_op) : Prop := o = OpAdd \/ o = OpSub.

Lemma q_addsub_values : forall o est w a b ia ib na nb ma mb s, sum_op o -> consistent w ->
  integral a ia na -> integral b ib nb -> sized est (q_type a) ma -> sized est (q_type b) mb ->
  compatible (q_type a) (q_type b) ->
  both_convertible est w (RInt (arith_conv ia ib)) a b na nb ->
  q_addsub o est w a b = Ok s ->
  (isigned (arith_conv ia ib) = true \/
   forall m, common_magnitude ma mb m ->
   value_fits (RInt (arith_conv ia ib)) (exact_sum o (inject_Z na * ma) (inject_Z nb * mb) / m)) ->
  exists m z, sized est (q_type s) m /\ common_magnitude ma mb m /\ integral s (arith_conv ia ib) z /\
    (inject_Z z * m == exact_sum o (inject_Z na * ma) (inject_Z nb * mb))%Q.
Proof.
  intros o est w a b ia ib na nb ma mb s SO C Ia Ib Sa Sb CO BC H F. unfold q_addsub in H.
  pose proof Ia as (Ra & _). pose proof Ib as (Rb & _). rewrite Ra, Rb in H. cbn [arith_rep] in H. cbv zeta in H.
  set (t0 := arith_conv ia ib) in *.
  step H as t Et. step H as x Ex. step H as y Ey. step H as z1 E1. step H as z2 E2. inversion H; subst s; clear H.
  destruct (BC t Et) as [Ca Cb].
  destruct (common_values _ _ _ _ _ _ _ _ _ _ _ _ _ _ C Ia Ib Sa Sb CO Et Ca Cb Ex Ey)
    as (m & zx & zy & Sm & Cm & -> & -> & Rx & Ry & Vx & Vy).
  destruct (common_quantity_sized _ _ _ _ _ _ _ _ C Sa Sb CO Et) as (_ & _ & _ & Rt & _).
  assert (At : arith_type t0) by apply arith_conv_type.
  assert (P : (0 < m)%Q) by (eapply sized_pos; eauto).
  assert (EX : (exact_sum o (inject_Z na * ma) (inject_Z nb * mb) == inject_Z (exact_op o zx zy) * m)%Q).
  { unfold same_value in *. destruct SO as [-> | ->]; cbn [exact_sum exact_op]; rewrite Vx, Vy.
    - rewrite inject_Z_plus. ring.
    - unfold Z.sub. rewrite inject_Z_plus, inject_Z_opp. ring. }
  assert (RR : z1 = NInt (exact_op o zx zy) /\ in_range t0 (exact_op o zx zy) = true).
  { destruct (n_op_exact o t0 t0 zx zy z1) as (A & _ & B); auto.
    - unfold operands_fit. rewrite (arith_conv_self _ At). destruct (isigned t0) eqn:S; [now left|right].
      rewrite in_range_spec in Rx, Ry. unfold imin in Rx, Ry. rewrite S in Rx, Ry. lia.
    - rewrite (arith_conv_self _ At). destruct F as [F|F]; [now left|right].
      destruct (F m Cm) as (t1 & Q & V). inversion Q; subst t1. rewrite in_range_spec.
      assert (W : (exact_sum o (inject_Z na * ma) (inject_Z nb * mb) / m == inject_Z (exact_op o zx zy))%Q).
      { rewrite EX. field. lra. }
      rewrite W in V. rewrite <- !Zle_Qle in V. exact V.
    - rewrite (arith_conv_self _ At) in B. auto. }
  destruct RR as [-> RR]. cbn [n_convert] in E2. rewrite (wrap_id _ _ RR) in E2. inversion E2; subst z2.
  exists m, (exact_op o zx zy). split; [exact Sm|]. split; [exact Cm|]. split; [split; auto|]. symmetry. exact EX.
Qed.

(** With a signed 64-bit result nothing but definedness is needed. *)
Lemma q_addsub_int64 : forall o est w a b ia ib na nb ma mb s, consistent w ->
  integral a ia na -> integral b ib nb -> ia <> U64 -> ib <> U64 -> arith_conv ia ib = I64 ->
  sized est (q_type a) ma -> sized est (q_type b) mb -> compatible (q_type a) (q_type b) ->
  q_addsub o est w a b = Ok s -> both_convertible est w (RInt (arith_conv ia ib)) a b na nb.
Proof.
  intros o est w a b ia ib na nb ma mb s C Ia Ib Ua Ub R Sa Sb CO H. unfold q_addsub in H.
  pose proof Ia as (Ra & _). pose proof Ib as (Rb & _). rewrite Ra, Rb in H. cbn [arith_rep] in H. cbv zeta in H.
  step H as t Et. step H as x Ex. step H as y Ey. clear H. rewrite R in *.
  eapply both_convertible_int64; eauto.
Qed.

(** ** The order of the operands *)

Lemma common_quantity_sym : forall est w t1 t2 r t t', q_dim t1 = q_dim t2 ->
  unit_good (q_unit t1) -> unit_good (q_unit t2) ->
  common_quantity est w t1 t2 r = Ok t -> common_quantity est w t2 t1 r = Ok t' -> t = t'.
Proof.
  intros est w [d u1 r1] [d' u2 r2] r t t' E G1 G2. cbn [q_dim] in E. subst d'. unfold common_quantity, common_dim_unit.
  cbn [q_dim q_unit] in *. intros H H'. destruct (dimension_eq_dec d d) as [_|X]; [|now elim X].
  destruct (cunit_eq_dec u1 u2) as [Eu|Eu].
  - subst u2. destruct (cunit_eq_dec u1 u1) as [_|X]; [|now elim X]. congruence.
  - destruct (cunit_eq_dec u2 u1) as [Eu'|_]; [now elim Eu|].
    step H as v1 E1. step H as du Edu. step Edu as c Ec. step Edu as u Hu. inversion Edu; subst du.
    step H' as v1' E1'. step H' as du' Edu'. step Edu' as c' Ec'. step Edu' as u' Hu'. inversion Edu'; subst du'.
    destruct G1 as (L1 & S1 & N1), G2 as (L2 & S2 & N2).
    assert (c = c') by (eapply common_ratio_sym; [| | | | | |exact Ec|exact Ec']; auto).
    subst c'. congruence.
Qed.
