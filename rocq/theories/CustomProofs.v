(** Proofs about quantities whose representation is a class of the user. *)

From Coq Require Import ZArith List Bool Lia SpecFloat.
From Verif Require Import Outcome CInt RatioMaths Pow Root Ratio FixedString Unit Dim DimOp Equivalent Rep Reference
  QuantityCast CommonQuantity Quantity SpecRatio RatioProofs CastProofs SpecReal FloatProofs FloatCastProofs FloatAddProofs ChronoProofs ExprProofs3 Custom SpecCustom.
Import ListNotations.
Local Open Scope Z_scope.
Local Open Scope res_scope.

(** ** Numbers stay in their types *)

Lemma convert_ok : forall r x y, n_convert r x = Ok y -> num_ok r y = true.
Proof.
  intros [t|f] [z|v] y H; cbn [n_convert] in H.
  - inversion H. apply wrap_in_range.
  - destruct (float_trunc v) as [z|]; [|discriminate]. destruct (in_range t z) eqn:E; [|discriminate]. now inversion H.
  - inversion H. apply (as_float_valid f (NInt z)).
  - inversion H. apply (as_float_valid f (NFlt v)).
Qed.
Lemma int_op_ok : forall o t a b z, in_range t a = true -> in_range t b = true -> int_op o t a b = Ok z -> in_range t z = true.
Proof.
  intros o t a b z A B H. destruct o; cbn [int_op] in H; unfold cadd, csub, cmul, cdiv, crem in H.
  - eapply arith_result_in_range; eauto.
  - eapply arith_result_in_range; eauto.
  - eapply arith_result_in_range; eauto.
  - destruct (b =? 0); [discriminate|]. eapply arith_result_in_range; eauto.
  - destruct (b =? 0) eqn:E; [discriminate|]. destruct (isigned t && negb (in_range t (Z.quot a b))); [discriminate|].
    inversion H. apply in_range_spec in A, B. apply in_range_spec. apply Z.eqb_neq in E.
    pose proof (Z.rem_bound_abs a b E). pose proof (Z.rem_sign_nz a b E).
    assert (Z.abs (Z.rem a b) <= Z.abs a).
    { rewrite <- Z.rem_abs by exact E. destruct (Z_lt_le_dec (Z.abs a) (Z.abs b)).
      - rewrite Z.rem_small; lia.
      - pose proof (Z.rem_bound_pos (Z.abs a) (Z.abs b)). lia. }
    assert (S : 0 <= Z.rem a b * a) by (apply Z.rem_sign_mul; exact E).
    assert (imin t <= 0 <= imax t) by (destruct t as [[] []]; vm_compute; split; congruence).
    assert (0 <= a -> 0 <= Z.rem a b). { intros. apply Z.rem_nonneg; auto. }
    assert (a <= 0 -> Z.rem a b <= 0). { intros. apply Z.rem_nonpos; auto. }
    destruct (Z_le_gt_dec 0 a); lia.
Qed.
Lemma op_in_ok : forall o r x y z, num_ok r x = true -> num_ok r y = true -> op_in o r x y = Ok z -> num_ok r z = true.
Proof.
  intros o [t|f] [a|a] [b|b] z A B H; try discriminate; cbn [op_in] in H; unbind.
  - cbn [num_ok] in *. exact (int_op_ok o t a b _ A B E).
  - cbn [num_ok] in *. destruct o; cbn [float_op] in E; inversion E; subst.
    + now apply add_valid. + now apply sub_valid. + now apply mul_valid. + now apply div_valid.
Qed.
Lemma n_op_ok : forall o a b x y z, n_op o a b x y = Ok z -> num_ok (arith_rep a b) z = true.
Proof.
  intros o a b x y z H. unfold n_op in H. cbv zeta in H. step H as x' X. step H as y' Y.
  exact (op_in_ok o _ x' y' z (convert_ok _ _ _ X) (convert_ok _ _ _ Y) H).
Qed.
Lemma n_op_same : forall o r x y, arith_rep r r = r -> num_ok r x = true -> num_ok r y = true -> n_op o r r x y = op_in o r x y.
Proof. intros o r x y R X Y. unfold n_op. rewrite R, !convert_same by assumption. reflexivity. Qed.

(** ** The types of a cast *)

Lemma ratio_type_same : forall a, arith_rep (common_rep a (RInt I64)) (common_rep a (RInt I64)) = common_rep a (RInt I64).
Proof. intros [[[] []]|[]]; reflexivity. Qed.
Lemma ratio_type_wide : forall a, arith_rep a (common_rep a (RInt I64)) = common_rep a (RInt I64).
Proof. intros [[[] []]|[]]; reflexivity. Qed.
Lemma arith_rep_comm : forall a b, arith_rep a b = arith_rep b a.
Proof. intros [[[] []]|[]] [[[] []]|[]]; reflexivity. Qed.

Lemma wrap_mod : forall t z k, wrap t (z + k * 2 ^ wbits (iwidth t)) = wrap t z.
Proof.
  intros t z k. unfold wrap. replace (z + k * 2 ^ wbits (iwidth t) - imin t) with (z - imin t + k * 2 ^ wbits (iwidth t)) by ring.
  rewrite Z.mod_add; [reflexivity|]. pose proof (modulus_pos t). lia.
Qed.
Lemma wrap_same_width : forall t u z, iwidth t = iwidth u -> wrap t (wrap u z) = wrap t z.
Proof.
  intros t u z E. assert (X : exists k, wrap u z = z + k * 2 ^ wbits (iwidth t)).
  { rewrite E. unfold wrap. set (m := 2 ^ wbits (iwidth u)). exists (- ((z - imin u) / m)).
    assert (0 < m) by apply modulus_pos. pose proof (Z.div_mod (z - imin u) m). lia. }
  destruct X as [k ->]. apply wrap_mod.
Qed.

(** Converting to the common type first changes nothing, unless it loses a sign. *)
Lemma convert_through : forall from to x, num_ok from x = true -> (sign_lost from to = false \/ negative x = false) ->
  let cm := common_rep from to in let rt := common_rep cm (RInt I64) in
  (y <- n_convert cm x; n_convert rt y) = n_convert rt x.
Proof.
  intros from to x X S cm rt. destruct cm as [t|f] eqn:E.
  - assert (C : common_rep from to = RInt t) by exact E. assert (I : exists s u, from = RInt s /\ to = RInt u).
    { destruct from, to; try discriminate C; eauto. }
    destruct I as (s & u & -> & ->). destruct x as [z|v]; [|discriminate]. cbn [num_ok] in X. unfold rt.
    cbn [common_rep n_convert bind]. f_equal. f_equal. unfold sign_lost in S. rewrite C in S.
    destruct (width_eqb (iwidth t) W64) eqn:W.
    + apply width_eqb_eq in W. apply wrap_same_width. destruct t as [w []]; cbn [iwidth] in W; subst w; reflexivity.
    + rewrite (wrap_id t z); [reflexivity|]. apply in_range_spec in X. apply in_range_spec.
      assert (P : isigned t = true \/ isigned s = false \/ 0 <= z).
      { cbn [negative] in S. rewrite !andb_false_iff, !negb_false_iff in S. destruct S as [[[S|S]|S]|S]; auto.
        - discriminate.
        - apply Z.ltb_ge in S. auto. }
      clear S. cbn [common_rep] in C. inversion C as [C']. clear - X P W C'. revert X P W. rewrite <- C'.
      destruct s as [[] []], u as [[] []]; cbn -[Z.pow]; intros X P W; try discriminate W;
        cbn in X |- *; repeat (destruct P as [P|P]; try discriminate P); lia.
  - unfold rt. cbn [common_rep arith_rep]. destruct (n_convert (RFlt f) x) as [y| | | |] eqn:Y; try reflexivity.
    cbn [bind]. apply convert_same. eapply convert_ok; eauto.
Qed.

(** ** Ratios of casts *)

Lemma rdiv_storable : forall l r c, rdiv l r = Ok c -> storable c.
Proof.
  intros l r c H. unfold rdiv in H. step H as i I. unfold rmul in H.
  step H as g1 G1. step H as g2 G2. step H as a A. step H as b B. step H as n N. step H as c' C. step H as d Dd.
  step H as m M. step H as e E. eapply mk_ratio_storable; [|exact H].
  apply arith_result_in_range in E. now apply in_range_I64.
Qed.
Lemma cast_ratio_storable : forall est d1 u1 d2 u2 c, cast_ratio est d1 u1 d2 u2 = Ok c -> storable c.
Proof.
  intros est d1 u1 d2 u2 c H. unfold cast_ratio in H. destruct (same_unit_reference u1 u2).
  - eapply rdiv_storable; eauto.
  - step H as a A. step H as b B. eapply rdiv_storable; eauto.
Qed.
Lemma ipow10_range : forall e p, ipow10 e = Ok p -> in_range I64 p = true.
Proof.
  intros e p H. apply ipow10_ok in H. destruct H as [H ->]. apply in_range_I64. pose proof (Z.pow_le_mono_r 10 e 18).
  pose proof (Z.pow_pos_nonneg 10 e). assert (10 ^ 18 = 1000000000000000000) by reflexivity. unfold INTMAX_MIN, INTMAX_MAX. lia.
Qed.

Lemma iter_valid : forall f (g : spec_float -> spec_float) x p, (forall y, fvalid f y -> fvalid f (g y)) -> fvalid f x -> fvalid f (Pos.iter g x p).
Proof. intros f g x p G X. apply Pos.iter_invariant; auto. Qed.
Lemma fpow10_valid : forall f e, fvalid f (fpow10 f e).
Proof.
  intros f [|p|p]; unfold fpow10; [apply normalize_valid|..]; apply iter_valid; try apply normalize_valid; intros y Y.
  - apply mul_valid; [exact Y|apply normalize_valid].
  - apply div_valid; [exact Y|apply normalize_valid].
Qed.

(** ** A class behaves like the numbers seen in it *)

Section Class.
Variables (cl : repclass) (D : rep -> rep -> Prop) (O : rep -> rc_val cl -> number -> Prop).
Hypothesis ob : observation cl D O.

Lemma scaled_sim : forall c from to v x v', rc_mixes cl = false -> cast_types cl D from to -> O from v x ->
  (sign_lost from to = false \/ negative x = false) ->
  class_cast_scaled cl c from to v = Ok v' -> exists y, cast_number c from to x = Ok y /\ O to v' y.
Proof.
  intros c from to v x v' M CT V S H. unfold cast_types in CT. rewrite M in CT. cbv zeta in CT. destruct CT as (D1 & D2 & D3 & D4).
  pose proof (ob_value _ _ _ ob _ _ _ V) as Vx. pose proof (convert_through from to x Vx S) as T. cbv zeta in T.
  unfold class_cast_scaled in H. unfold cast_number, cast_rep. cbv zeta in *. unfold class_ratio_type in *.
  set (cm := common_rep from to) in *.
  pose proof (ratio_type_wide cm) as RW. pose proof (ratio_type_same cm) as RS.
  set (rt := common_rep cm (RInt I64)) in *.
  assert (RM : rc_result cl OpMul cm rt = rt) by (rewrite (ob_result _ _ _ ob) by exact D2; exact RW).
  assert (RD : rc_result cl OpDiv rt rt = rt) by (rewrite (ob_result _ _ _ ob) by exact D3; exact RS).
  rewrite RM in H. rewrite RD in H.
  (* one step of scaling the converted value *)
  assert (SC : forall v1 xc xr k v2, O cm v1 xc -> n_convert rt xc = Ok xr -> num_ok rt k = true ->
     rc_scale cl OpMul cm rt v1 k = Ok v2 -> exists y, op_in OpMul rt xr k = Ok y /\ O rt v2 y).
  { intros v1 xc xr k v2 O1 X K E. destruct (ob_scale _ _ _ ob OpMul cm rt v1 xc k v2 D2 O1 K E) as (y & Y & Oy).
    exists y. rewrite RW in Oy. split; [|exact Oy]. unfold n_op in Y. rewrite RW in Y. cbv zeta in Y. rewrite X in Y.
    cbn [bind] in Y. rewrite convert_same in Y by exact K. exact Y. }
  assert (SD : forall v1 x1 k v2, O rt v1 x1 -> num_ok rt k = true -> rc_scale cl OpDiv rt rt v1 k = Ok v2 ->
     exists y, op_in OpDiv rt x1 k = Ok y /\ O rt v2 y).
  { intros v1 x1 k v2 O1 K E. destruct (ob_scale _ _ _ ob OpDiv rt rt v1 x1 k v2 D3 O1 K E) as (y & Y & Oy).
    exists y. rewrite RS in Oy. split; [|exact Oy]. rewrite n_op_same in Y; auto. eapply ob_value; eauto. }
  destruct rt as [t|f] eqn:Ert.
  - step H as v1 V1. destruct (ob_convert _ _ _ ob from cm v x v1 D1 V V1) as (xc & Xc & O1). rewrite Xc in T. cbn [bind] in T.
    step H as num N. step H as den Dn.
    destruct (n_convert (RInt t) xc) as [xr| | | |] eqn:Xr; cycle 1.
    { exfalso. assert (X := ob_value _ _ _ ob _ _ _ O1). destruct cm as [u|g]; [|now destruct g]. destruct xc; discriminate. }
    1-3: (exfalso; assert (X := ob_value _ _ _ ob _ _ _ O1); destruct cm as [u|g]; [|now destruct g]; destruct xc; discriminate).
    rewrite <- T, N, Dn. cbn [bind].
    destruct (0 <? rexp c).
    + step H as p P. step H as q Q. step H as k K. step H as v2 V2. step H as v3 V3.
      rewrite P. cbn [bind]. rewrite Q. cbn [bind]. rewrite K. cbn [bind].
      assert (Kk : num_ok (RInt t) k = true) by exact (op_in_ok _ _ _ _ _ (convert_ok _ _ _ N) (convert_ok _ _ _ Q) K).
      destruct (SC _ _ _ _ _ O1 Xr Kk V2) as (y & Y & O2). rewrite Y. cbn [bind].
      destruct (SD _ _ _ _ O2 (convert_ok _ _ _ Dn) V3) as (z & Z & O3). rewrite Z. cbn [bind].
      exact (ob_convert _ _ _ ob (RInt t) to v3 z v' D4 O3 H).
    + step H as v2 V2. step H as e E. step H as p P. step H as q Q. step H as k K. step H as v3 V3.
      destruct (SC _ _ _ _ _ O1 Xr (convert_ok _ _ _ N) V2) as (y & Y & O2). rewrite Y. cbn [bind]. rewrite E. cbn [bind]. rewrite P. cbn [bind]. rewrite Q. cbn [bind]. rewrite K. cbn [bind].
      assert (Kk : num_ok (RInt t) k = true) by exact (op_in_ok _ _ _ _ _ (convert_ok _ _ _ Dn) (convert_ok _ _ _ Q) K).
      destruct (SD _ _ _ _ O2 Kk V3) as (z & Z & O3). rewrite Z. cbn [bind].
      exact (ob_convert _ _ _ ob (RInt t) to v3 z v' D4 O3 H).
  - step H as v1 V1. destruct (ob_convert _ _ _ ob from cm v x v1 D1 V V1) as (xc & Xc & O1). rewrite Xc in T. cbn [bind] in T.
    step H as v2 V2.
    assert (Kk : num_ok (RFlt f) (NFlt (SFdiv (fprec f) (femax f) (SFmul (fprec f) (femax f) (float_of_int f (rnum c)) (fpow10 f (rexp c)))
        (float_of_int f (rden c)))) = true).
    { apply div_valid; [apply mul_valid|]; try apply normalize_valid. apply fpow10_valid. }
    destruct (n_convert (RFlt f) xc) as [xr| | | |] eqn:Xr; try (exfalso; destruct xc; discriminate).
    rewrite <- T. cbn [bind]. destruct (SC _ _ _ _ _ O1 Xr Kk V2) as (y & Y & O2). rewrite Y. cbn [bind].
    exact (ob_convert _ _ _ ob (RFlt f) to v2 y v' D4 O2 H).
Qed.

Lemma op_sim : forall o rt v x w y v', arith_rep rt rt = rt -> D rt rt -> O rt v x -> O rt w y -> rc_op cl o rt rt v w = Ok v' ->
  exists z, op_in o rt x y = Ok z /\ O rt v' z.
Proof.
  intros o rt v x w y v' RS Drt V W E. destruct (ob_op _ _ _ ob o rt rt v w x y v' Drt V W E) as (z & Z & Oz).
  rewrite RS in Oz. exists z. split; [|exact Oz]. rewrite n_op_same in Z; auto; eapply ob_value; eauto.
Qed.

Lemma one_injects : forall f, n_convert (RFlt f) f_one = Ok (NFlt (float_of_int f 1)).
Proof. now intros []. Qed.
Lemma ten_injects : forall f, n_convert (RFlt f) f_ten = Ok (NFlt (float_of_int f 10)).
Proof. now intros []. Qed.

Lemma fpow10_sim : forall f e v, D (RFlt F64) (RFlt f) -> D (RFlt f) (RFlt f) -> class_fpow10 cl (RFlt f) e = Ok v ->
  O (RFlt f) v (NFlt (fpow10 f e)).
Proof.
  intros f e v D1 D2 H.
  assert (ONE : forall u, rc_inject cl (RFlt F64) (RFlt f) f_one = Ok u -> O (RFlt f) u (NFlt (float_of_int f 1))).
  { intros u U. destruct (ob_inject _ _ _ ob (RFlt F64) (RFlt f) f_one u D1 eq_refl U) as (y & Y & Oy).
    rewrite one_injects in Y. now inversion Y; subst y. }
  assert (TEN : forall u, rc_inject cl (RFlt F64) (RFlt f) f_ten = Ok u -> O (RFlt f) u (NFlt (float_of_int f 10))).
  { intros u U. destruct (ob_inject _ _ _ ob (RFlt F64) (RFlt f) f_ten u D1 eq_refl U) as (y & Y & Oy).
    rewrite ten_injects in Y. now inversion Y; subst y. }
  assert (IT : forall o g, (forall a b z, op_in o (RFlt f) (NFlt a) (NFlt b) = Ok z -> z = NFlt (g a b)) ->
    forall p u, Pos.iter (fun r => r <- r; ten <- rc_inject cl (RFlt F64) (RFlt f) f_ten; rc_op cl o (RFlt f) (RFlt f) r ten)
      (rc_inject cl (RFlt F64) (RFlt f) f_one) p = Ok u ->
    O (RFlt f) u (NFlt (Pos.iter (fun r => g r (float_of_int f 10)) (float_of_int f 1) p))).
  { intros o g G p. induction p as [|p IH] using Pos.peano_ind; intros u U.
    - cbn [Pos.iter] in U |- *. step U as a A. step U as t T.
      destruct (op_sim o (RFlt f) a _ t _ u ltac:(now destruct f) D2 (ONE _ A) (TEN _ T) U) as (z & Z & Oz).
      rewrite (G _ _ _ Z) in Oz. exact Oz.
    - rewrite Pos.iter_succ in U |- *. step U as a A. step U as t T.
      destruct (op_sim o (RFlt f) a _ t _ u ltac:(now destruct f) D2 (IH _ A) (TEN _ T) U) as (z & Z & Oz).
      rewrite (G _ _ _ Z) in Oz. exact Oz. }
  destruct e as [|p|p]; cbn [class_fpow10 fpow10] in H |- *.
  - now apply ONE.
  - apply (IT OpMul (fun a b => SFmul (fprec f) (femax f) a b)); [|exact H]. intros a b z Z. cbn [op_in float_op bind] in Z. congruence.
  - apply (IT OpDiv (fun a b => SFdiv (fprec f) (femax f) a b)); [|exact H]. intros a b z Z. cbn [op_in float_op bind] in Z. congruence.
Qed.

Lemma mixed_sim : forall c from to v x v', rc_mixes cl = true -> storable c -> cast_types cl D from to -> O from v x ->
  class_cast_mixed cl c from to v = Ok v' -> exists y, cast_number c from to x = Ok y /\ O to v' y.
Proof.
  intros c from to v x v' M St CT V H. unfold cast_types in CT. rewrite M in CT. cbv zeta in CT. destruct CT as (D1 & D2 & D3 & D4 & D5).
  assert (Sn : num_ok (RInt I64) (NInt (rnum c)) = true) by (apply in_range_I64; destruct St; unfold INTMAX_MIN, INTMAX_MAX in *; lia).
  assert (Sd : num_ok (RInt I64) (NInt (rden c)) = true) by (apply in_range_I64; destruct St; unfold INTMAX_MIN, INTMAX_MAX in *; lia).
  unfold class_cast_mixed in H. unfold cast_number, cast_rep. cbv zeta in *. unfold class_ratio_type in *.
  pose proof (ratio_type_same (common_rep from to)) as RS. set (rt := common_rep (common_rep from to) (RInt I64)) in *.
  destruct rt as [t|f] eqn:Ert.
  - step H as v1 V1. destruct (ob_convert _ _ _ ob from (RInt t) v x v1 D1 V V1) as (x1 & X1 & O1). rewrite X1. cbn [bind].
    step H as vn N. destruct (ob_inject _ _ _ ob (RInt I64) (RInt t) _ vn D2 Sn N) as (num & Nn & On). rewrite Nn. cbn [bind].
    step H as vd Dd. destruct (ob_inject _ _ _ ob (RInt I64) (RInt t) _ vd D2 Sd Dd) as (den & Nd & Od). rewrite Nd. cbn [bind].
    destruct (0 <? rexp c).
    + step H as p P. step H as vp Pv. pose proof (ipow10_range _ _ P) as Rp. rewrite P. cbn [bind].
      destruct (ob_inject _ _ _ ob (RInt I64) (RInt t) (NInt p) vp D2 Rp Pv) as (q & Q & Oq). rewrite Q. cbn [bind].
      step H as vk K. destruct (op_sim _ _ _ _ _ _ _ RS D3 On Oq K) as (k & Kk & Ok'). rewrite Kk. cbn [bind].
      step H as v2 V2. destruct (op_sim _ _ _ _ _ _ _ RS D3 O1 Ok' V2) as (y & Y & O2). rewrite Y. cbn [bind].
      step H as v3 V3. destruct (op_sim _ _ _ _ _ _ _ RS D3 O2 Od V3) as (z & Z & O3). rewrite Z. cbn [bind].
      exact (ob_convert _ _ _ ob (RInt t) to v3 z v' D4 O3 H).
    + step H as v2 V2. destruct (op_sim _ _ _ _ _ _ _ RS D3 O1 On V2) as (y & Y & O2). rewrite Y. cbn [bind].
      step H as e E. rewrite E. cbn [bind]. step H as p P. step H as vp Pv. pose proof (ipow10_range _ _ P) as Rp. rewrite P. cbn [bind].
      destruct (ob_inject _ _ _ ob (RInt I64) (RInt t) (NInt p) vp D2 Rp Pv) as (q & Q & Oq). rewrite Q. cbn [bind].
      step H as vk K. destruct (op_sim _ _ _ _ _ _ _ RS D3 Od Oq K) as (k & Kk & Ok'). rewrite Kk. cbn [bind].
      step H as v3 V3. destruct (op_sim _ _ _ _ _ _ _ RS D3 O2 Ok' V3) as (z & Z & O3). rewrite Z. cbn [bind].
      exact (ob_convert _ _ _ ob (RInt t) to v3 z v' D4 O3 H).
  - specialize (D5 eq_refl).
    step H as v1 V1. destruct (ob_convert _ _ _ ob from (RFlt f) v x v1 D1 V V1) as (x1 & X1 & O1). rewrite X1. cbn [bind].
    step H as vn N. destruct (ob_inject _ _ _ ob (RInt I64) (RFlt f) _ vn D2 Sn N) as (num & Nn & On). cbn [n_convert] in Nn.
    step H as vp P. pose proof (fpow10_sim _ _ _ D5 D3 P) as Op.
    step H as vk K. destruct (op_sim _ _ _ _ _ _ _ RS D3 On Op K) as (k & Kk & Ok').
    step H as vd Dd. destruct (ob_inject _ _ _ ob (RInt I64) (RFlt f) _ vd D2 Sd Dd) as (den & Nd & Od). cbn [n_convert] in Nd.
    step H as vl L. destruct (op_sim _ _ _ _ _ _ _ RS D3 Ok' Od L) as (l & Ll & Ol).
    step H as v2 V2. destruct (op_sim _ _ _ _ _ _ _ RS D3 O1 Ol V2) as (y & Y & O2).
    inversion Nn; subst num. inversion Nd; subst den. cbn [op_in float_op bind] in Kk. inversion Kk; subst k.
    cbn [op_in float_op bind] in Ll. inversion Ll; subst l. rewrite Y. cbn [bind].
    exact (ob_convert _ _ _ ob (RFlt f) to v2 y v' D4 O2 H).
Qed.

Lemma cast_sim : forall est from to v x v', cast_types cl D (q_rep from) (q_rep to) -> O (q_rep from) v x ->
  sign_kept cl (q_rep from) (q_rep to) x ->
  class_quantity_cast cl est from to v = Ok v' -> exists y, quantity_cast est from to x = Ok y /\ O (q_rep to) v' y.
Proof.
  intros est from to v x v' CT V S H. unfold class_quantity_cast in H. unfold quantity_cast.
  step H as u U. rewrite U. cbn [bind]. step H as c C. rewrite C. cbn [bind]. unfold class_cast_number in H.
  destruct (rc_mixes cl) eqn:M.
  - apply (mixed_sim c (q_rep from) (q_rep to) v x v' M); auto. eapply cast_ratio_storable; eauto.
  - apply (scaled_sim c (q_rep from) (q_rep to) v x v' M); auto. destruct S as [S|S]; [congruence|exact S].
Qed.
Lemma convert_sim : forall est from to v x v', cast_types cl D (q_rep from) (q_rep to) -> O (q_rep from) v x ->
  sign_kept cl (q_rep from) (q_rep to) x ->
  class_convert cl est from to v = Ok v' -> exists y, q_convert est from to x = Ok y /\ O (q_rep to) v' y.
Proof.
  intros est from to v x v' CT V S H. unfold class_convert in H. unfold q_convert. destruct (qtype_eq_dec from to) as [<-|N].
  - inversion H; subst v'. eauto.
  - step H as b B. rewrite B. cbn [bind]. step H as u U. rewrite U. cbn [bind]. now apply (cast_sim est from to v x v').
Qed.

Lemma addsub_sim : forall o est w a b x y c,
  let ra := q_rep (cq_type a) in let rb := q_rep (cq_type b) in let r := arith_rep ra rb in
  D ra rb -> D r r -> cast_types cl D ra r -> cast_types cl D rb r ->
  O ra (cq_val a) x -> O rb (cq_val b) y -> sign_kept cl ra r x -> sign_kept cl rb r y ->
  class_addsub cl o est w a b = Ok c ->
  exists z, q_addsub o est w (Quantity (cq_type a) x) (Quantity (cq_type b) y) = Ok (Quantity (cq_type c) z) /\
    O (q_rep (cq_type c)) (cq_val c) z.
Proof.
  intros o est w a b x y c ra rb r Dab Dr Ca Cb Oa Ob Sa Sb H. unfold class_addsub in H. unfold q_addsub. cbn [q_type q_num].
  fold ra rb in H |- *. rewrite (ob_result _ _ _ ob) in H by exact Dab. fold r in H |- *.
  step H as t T. rewrite T. cbn [bind].
  assert (Rt : q_rep t = r).
  { unfold common_quantity in T. step T as u U. step T as du DU. unfold mk_qtype in T. step T as u' U'. now inversion T. }
  step H as v1 V1. destruct (convert_sim est (cq_type a) t (cq_val a) x v1) as (x1 & X1 & O1); auto; try (rewrite Rt; assumption).
  step H as v2 V2. destruct (convert_sim est (cq_type b) t (cq_val b) y v2) as (y1 & Y1 & O2); auto; try (rewrite Rt; assumption).
  rewrite X1, Y1. cbn [bind]. rewrite Rt in O1, O2.
  assert (RR : arith_rep r r = r) by (unfold r; destruct ra as [[[] []]|[]], rb as [[[] []]|[]]; reflexivity).
  step H as v3 V3. destruct (ob_op _ _ _ ob o r r v1 v2 x1 y1 v3 Dr O1 O2 V3) as (z & Z & O3). rewrite Z. cbn [bind].
  rewrite (ob_result _ _ _ ob) in H by exact Dr. rewrite RR in H, O3.
  step H as v4 V4. destruct (ob_convert _ _ _ ob r r v3 z v4 Dr O3 V4) as (z' & Z' & O4). rewrite Z'. cbn [bind].
  inversion H; subst c. cbn [cq_type cq_val]. exists z'. split; [reflexivity|]. now rewrite Rt.
Qed.

Lemma scale_sim : forall o q r k x c, D (q_rep (cq_type q)) r -> O (q_rep (cq_type q)) (cq_val q) x -> num_ok r k = true ->
  class_scale cl o q r k = Ok c ->
  exists z, q_scale o false (Quantity (cq_type q) x) r k = Ok (Quantity (cq_type c) z) /\ O (q_rep (cq_type c)) (cq_val c) z.
Proof.
  intros o q r k x c Dr Oq K H. unfold class_scale in H. unfold q_scale. cbn [q_type q_num].
  rewrite (ob_result _ _ _ ob) in H by exact Dr. step H as u U. rewrite U. cbn [bind].
  step H as v V. destruct (ob_scale _ _ _ ob o _ r _ x k v Dr Oq K V) as (z & Z & Oz). rewrite Z. cbn [bind].
  inversion H; subst c. cbn [cq_type cq_val with_rep q_rep]. eauto.
Qed.
Lemma scale_left_sim : forall q r k x c, D (q_rep (cq_type q)) r -> O (q_rep (cq_type q)) (cq_val q) x -> num_ok r k = true ->
  class_scale_left cl r k q = Ok c ->
  exists z, q_scale OpMul true (Quantity (cq_type q) x) r k = Ok (Quantity (cq_type c) z) /\ O (q_rep (cq_type c)) (cq_val c) z.
Proof.
  intros q r k x c Dr Oq K H. unfold class_scale_left in H. unfold q_scale. cbn [q_type q_num].
  rewrite (ob_result _ _ _ ob) in H by exact Dr. step H as u U. rewrite U. cbn [bind].
  step H as v V. destruct (ob_scale_left _ _ _ ob _ r _ x k v Dr Oq K V) as (z & Z & Oz). rewrite Z. cbn [bind].
  inversion H; subst c. cbn [cq_type cq_val with_rep q_rep]. eauto.
Qed.
Lemma times_sim : forall w a b x c, D (q_rep (cq_type a)) (q_rep (q_type b)) -> O (q_rep (cq_type a)) (cq_val a) x ->
  num_ok (q_rep (q_type b)) (q_num b) = true -> class_times cl w a b = Ok c ->
  exists z, q_times w (Quantity (cq_type a) x) b = Ok (Quantity (cq_type c) z) /\ O (q_rep (cq_type c)) (cq_val c) z.
Proof.
  intros w a b x c Dab Oa K H. unfold class_times in H. unfold q_times. cbn [q_type q_num]. cbv zeta in *.
  step H as r R. rewrite R. cbn [bind]. step H as v V.
  destruct (ob_scale _ _ _ ob OpMul _ _ _ x _ v Dab Oa K V) as (z & Z & Oz). rewrite Z. cbn [bind].
  rewrite (ob_result _ _ _ ob) in H by exact Dab. inversion H; subst c. cbn [cq_type cq_val q_rep]. eauto.
Qed.
Lemma over_sim : forall w a b x c, D (q_rep (cq_type a)) (q_rep (q_type b)) -> O (q_rep (cq_type a)) (cq_val a) x ->
  num_ok (q_rep (q_type b)) (q_num b) = true -> class_over cl w a b = Ok c ->
  exists z, q_over w (Quantity (cq_type a) x) b = Ok (Quantity (cq_type c) z) /\ O (q_rep (cq_type c)) (cq_val c) z.
Proof.
  intros w a b x c Dab Oa K H. unfold class_over in H. unfold q_over. cbn [q_type q_num]. cbv zeta in *.
  step H as r R. rewrite R. cbn [bind]. step H as v V.
  destruct (ob_scale _ _ _ ob OpDiv _ _ _ x _ v Dab Oa K V) as (z & Z & Oz). rewrite Z. cbn [bind].
  rewrite (ob_result _ _ _ ob) in H by exact Dab. inversion H; subst c. cbn [cq_type cq_val q_rep]. eauto.
Qed.
Lemma neg_sim : forall q x c, D (q_rep (cq_type q)) (q_rep (cq_type q)) -> O (q_rep (cq_type q)) (cq_val q) x -> class_neg cl q = Ok c ->
  exists z, q_neg (Quantity (cq_type q) x) = Ok (Quantity (cq_type c) z) /\ O (q_rep (cq_type c)) (cq_val c) z.
Proof.
  intros q x c Dq Oq H. unfold class_neg in H. unfold q_neg. cbn [q_type q_num]. cbv zeta in *. step H as v V.
  destruct (ob_neg _ _ _ ob _ _ x v Dq Oq V) as (z & Z & Oz). rewrite Z. cbn [bind]. inversion H; subst c.
  cbn [cq_type cq_val with_rep q_rep]. eauto.
Qed.
Lemma eqb_sim : forall est w a b x y,
  let ra := q_rep (cq_type a) in let rb := q_rep (cq_type b) in let r := common_rep ra rb in
  cast_types cl D ra r -> cast_types cl D rb r -> O ra (cq_val a) x -> O rb (cq_val b) y ->
  sign_kept cl ra r x -> sign_kept cl rb r y -> class_eqb cl est w a b = Ok true ->
  q_eqb est w (Quantity (cq_type a) x) (Quantity (cq_type b) y) = Ok true.
Proof.
  intros est w a b x y ra rb r Ca Cb Oa Ob Sa Sb H. unfold class_eqb in H. unfold q_eqb, q_common. cbn [q_type q_num].
  fold ra rb in H |- *. fold r in H |- *. destruct (qtype_eq_dec (cq_type a) (cq_type b)) as [E|N].
  - cbn [bind fst snd]. unfold rb in Ob. rewrite <- E in Ob. eapply ob_eqb; eauto.
  - step H as t T. rewrite T. cbn [bind].
    assert (Rt : q_rep t = r).
    { unfold common_quantity in T. step T as u U. step T as du DU. unfold mk_qtype in T. step T as u' U'. now inversion T. }
    step H as v1 V1. destruct (convert_sim est (cq_type a) t (cq_val a) x v1) as (x1 & X1 & O1); auto; try (rewrite Rt; assumption).
    step H as v2 V2. destruct (convert_sim est (cq_type b) t (cq_val b) y v2) as (y1 & Y1 & O2); auto; try (rewrite Rt; assumption).
    rewrite X1, Y1. cbn [bind fst snd]. rewrite Rt in O1, O2. eapply ob_eqb; eauto.
Qed.
End Class.
