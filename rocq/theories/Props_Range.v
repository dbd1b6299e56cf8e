(** C92: checking the ranges of the numbers suffices, whatever mixture of integral types. *)

From Coq Require Import ZArith QArith String List Bool Lia Lqa.
From Verif Require Import Outcome CInt Root Ratio SpecRatio Unit Downcast Dim DimOp Equivalent SpecDim SpecUnit Rep IntProofs QuantityCast CommonQuantity Quantity
  SpecQuantity DimOpProofs DimOpProofs3 EquivProofs MagnitudeProofs CastProofs QuantityProofs QuantityProofs2 QuantityProofs4 Point SpecPoint PointProofs Expr SpecExpr
  ExprProofs ExprProofs2 Affine SpecAffine AffineProofs Static SpecStatic StaticProofs Program SpecRange RangeProofs Samples Props_Dim Props_Quantity Props_Expr
  Props_Affine.
Import ListNotations.
Local Open Scope string_scope.
Local Open Scope list_scope.
Local Open Scope Z_scope.
Local Open Scope res_scope.

(** * Expressions *)

(** In one system of units, with numbers of any integral types, an expression that compiles and
    stays in range by the bounds of its parts is defined, has the type the compiler found, and
    its number is between the bounds. *)
Theorem C92_defined : forall U w rb est e lo hi T, symbols_identify U -> good_system U w -> aall_dims (in_system U w) e ->
  type_of rb est w e = Ok T -> stays rb est w e lo hi ->
  exists r n, aeval rb est w e = Ok r /\ vtype r = T /\ q_num (distance r) = NInt n /\ lo <= n <= hi.
Proof.
  intros U w rb est e lo hi T HU G A HT S.
  destruct (stays_bounded U w HU G rb est (fun _ => 0%Q) e lo hi S A T HT) as (r & E & V & i & n & m & (_ & N & _) & B & _).
  exists r, n. auto.
Qed.
Print Assumptions C92_defined.

(** Nothing wraps on the way either: the result is what the rational numbers give. *)
Theorem C92_exact : forall U w rb est at_ e lo hi T v, symbols_identify U -> good_system U w -> aall_dims (in_system U w) e ->
  type_of rb est w e = Ok T -> stays rb est w e lo hi -> worth rb est w at_ e v ->
  exists r x, aeval rb est w e = Ok r /\ denotes (distance r) x /\ (v == place at_ r + x)%Q.
Proof.
  intros U w rb est at_ e lo hi T v HU G A HT S V.
  destruct (stays_bounded U w HU G rb est at_ e lo hi S A T HT) as (r & E & _ & i & n & m & (_ & N & _) & B & (_ & _ & _ & M) & _ & W).
  exists r, (inject_Z n * m)%Q. split; [exact E|]. split; [|exact (W v V)]. exists n, m. split; [exact N|]. split; [exact M|reflexivity].
Qed.
Print Assumptions C92_exact.

(** Comparing two of them compares what they are worth, if the conversions to the common type
    stay in range too. *)
Theorem C92_comparison : forall U w rb est at_ e1 e2 l1 h1 l2 h2 l1' h1' l2' h2' T1 T2 t v1 v2, symbols_identify U -> good_system U w ->
  aall_dims (in_system U w) e1 -> aall_dims (in_system U w) e2 ->
  type_of rb est w e1 = Ok T1 -> type_of rb est w e2 = Ok T2 -> t_compare rb est w T1 T2 = Ok tt ->
  stays rb est w e1 l1 h1 -> stays rb est w e2 l2 h2 ->
  common_quantity est w (distance_type T1) (distance_type T2) (common_rep (q_rep (distance_type T1)) (q_rep (distance_type T2))) = Ok t ->
  conversion_stays est (distance_type T1) t l1 h1 l1' h1' -> conversion_stays est (distance_type T2) t l2 h2 l2' h2' ->
  worth rb est w at_ e1 v1 -> worth rb est w at_ e2 v2 ->
  exists r1 r2, aeval rb est w e1 = Ok r1 /\ aeval rb est w e2 = Ok r2 /\ v_compare rb est w r1 r2 = Ok (Some (v1 ?= v2)%Q).
Proof.
  intros U w rb est at_ e1 e2 l1 h1 l2 h2 l1' h1' l2' h2' T1 T2 t v1 v2 HU G A1 A2 HT1 HT2 HC S1 S2 Ct C1 C2 V1 V2.
  pose proof (proj1 G) as C.
  destruct (stays_bounded U w HU G rb est at_ e1 l1 h1 S1 A1 T1 HT1) as (r1 & E1 & <- & i1 & n1 & m1 & I1 & B1 & Z1 & D1 & W1).
  destruct (stays_bounded U w HU G rb est at_ e2 l2 h2 S2 A2 T2 HT2) as (r2 & E2 & <- & i2 & n2 & m2 & I2 & B2 & Z2 & D2 & W2).
  exists r1, r2. split; [exact E1|]. split; [exact E2|]. specialize (W1 v1 V1). specialize (W2 v2 V2).
  assert (Dt : forall r, distance_type (vtype r) = q_type (distance r)) by (intros []; reflexivity). rewrite !Dt in *.
  pose proof I1 as (R1 & _). pose proof I2 as (R2 & _). rewrite R1, R2 in Ct.
  assert (E : q_dim (q_type (distance r1)) = q_dim (q_type (distance r2))).
  { symmetry. apply (equivalent_dims U w HU); auto. unfold common_quantity in Ct. step Ct as c0 C0. now apply constrained_ok in C0. }
  assert (BC : both_convertible est w (common_rep (RInt i1) (RInt i2)) (distance r1) (distance r2) n1 n2).
  { intros t' Ct'. rewrite Ct in Ct'. inversion Ct'; subst t'. split; [apply (C1 n1 B1)|apply (C2 n2 B2)]. }
  assert (Ac : accepted est (q_type (distance r1)) t /\ accepted est (q_type (distance r2)) t \/ q_type (distance r1) = q_type (distance r2)).
  { assert (K : t_common est w (q_type (distance r1)) (q_type (distance r2)) = Ok tt).
    { destruct r1, r2; cbn [vtype t_compare distance relative q_type] in *; try discriminate HC; [exact HC|]. now step HC as c0 C0. }
    unfold t_common in K. destruct (qtype_eq_dec _ _) as [Eq|_]; [now right|]. left. rewrite R1, R2, Ct in K. cbn [bind] in K. step K as c0 C0.
    split; eapply t_convert_accepted; eauto. }
  assert (Q : exists c, q_compare est w (distance r1) (distance r2) = Ok c).
  { destruct Ac as [[Aa Ab]|Eq].
    - apply (compare_defined est w _ _ i1 i2 n1 n2 m1 m2 t C I1 I2 Z1 Z2 (compatible_same _ _ E) Ct Aa Ab); [apply (C1 n1 B1)|apply (C2 n2 B2)].
    - unfold q_compare, q_common. destruct (qtype_eq_dec _ _) as [_|N]; [|contradiction]. destruct I1 as (_ & -> & _), I2 as (_ & -> & _). cbn. eauto. }
  destruct Q as [c Q].
  pose proof (q_compare_values est w _ _ i1 i2 n1 n2 m1 m2 c C I1 I2 Z1 Z2 (compatible_same _ _ E) BC Q) as Ec. subst c.
  assert (Cmp : (inject_Z n1 * m1 ?= inject_Z n2 * m2)%Q = (v1 ?= v2)%Q \/ place at_ r1 <> place at_ r2).
  { destruct (Qcompare_spec (place at_ r1) (place at_ r2)); [left|right; intros X; rewrite X in *; lra|right; intros X; rewrite X in *; lra].
    symmetry. destruct (Qcompare_spec (inject_Z n1 * m1) (inject_Z n2 * m2)) as [L|L|L];
      [apply (proj1 (Qeq_alt _ _))|apply (proj1 (Qlt_alt _ _))|apply (proj1 (Qgt_alt _ _))]; lra. }
  destruct r1 as [q1|p1], r2 as [q2|p2]; cbn [vtype t_compare distance place v_compare] in *; try discriminate HC.
  - destruct Cmp as [Cmp|N]; [now rewrite Q, Cmp|now contradiction N].
  - step HC as c0 C0. apply constrained_ok in C0. apply origin_equivalent_iff in C0.
    pose proof (origin_same U w HU rb _ _ D2 D1 C0) as Oe. destruct Cmp as [Cmp|N]; [|contradiction N; now rewrite Oe].
    rewrite <- Cmp. apply compare_iff. split; [now apply one_origin_sym|exact Q].
Qed.
Print Assumptions C92_comparison.

(** * Checking the ends *)

Lemma range_between : forall t a b z, in_range t a = true -> in_range t b = true -> a <= z <= b -> in_range t z = true.
Proof. intros t a b z A B Z. apply in_range_spec in A, B. apply in_range_spec. lia. Qed.

(** Sums and differences: the ends suffice. *)
Theorem C92_sums : forall i j la ha lb hb, ends_fit i j la lb ->
  (in_range (arith_conv i j) (la + lb) = true -> in_range (arith_conv i j) (ha + hb) = true ->
   op_stays OpAdd i j la ha lb hb (la + lb) (ha + hb)) /\
  (in_range (arith_conv i j) (la - hb) = true -> in_range (arith_conv i j) (ha - lb) = true ->
   op_stays OpSub i j la ha lb hb (la - hb) (ha - lb)).
Proof.
  intros i j la ha lb hb F. split; intros L H x y X Y; cbn [exact_op divides_op].
  - split; [destruct F as [F|F]; [now left|right; lia]|]. split; [apply (range_between _ _ _ _ L H); lia|]. split; [discriminate|]. split; [discriminate|lia].
  - split; [destruct F as [F|F]; [now left|right; lia]|]. split; [apply (range_between _ _ _ _ L H); lia|]. split; [discriminate|]. split; [discriminate|lia].
Qed.
Print Assumptions C92_sums.

Lemma mul_between : forall x y la ha lb hb, la <= x <= ha -> lb <= y <= hb ->
  least4 (la * lb) (la * hb) (ha * lb) (ha * hb) <= x * y <= greatest4 (la * lb) (la * hb) (ha * lb) (ha * hb).
Proof.
  intros x y la ha lb hb X Y. unfold least4, greatest4.
  assert (K : forall u v a b z, u <= v -> a <= z <= b -> (z * u <= Z.max (a * u) (b * u)) /\ (Z.min (a * u) (b * u) <= z * u)).
  { intros u v a b z _ Z. destruct (Z.le_ge_cases 0 u); nia. }
  assert (X1 : Z.min (la * y) (ha * y) <= x * y <= Z.max (la * y) (ha * y)) by (destruct (K y y la ha x ltac:(lia) X); lia).
  assert (X2 : Z.min (lb * la) (hb * la) <= y * la <= Z.max (lb * la) (hb * la)) by (destruct (K la la lb hb y ltac:(lia) Y); lia).
  assert (X3 : Z.min (lb * ha) (hb * ha) <= y * ha <= Z.max (lb * ha) (hb * ha)) by (destruct (K ha ha lb hb y ltac:(lia) Y); lia).
  rewrite (Z.mul_comm lb la), (Z.mul_comm hb la), (Z.mul_comm y la) in X2. rewrite (Z.mul_comm lb ha), (Z.mul_comm hb ha), (Z.mul_comm y ha) in X3. lia.
Qed.
(** Products: the four corners suffice. *)
Theorem C92_products : forall i j la ha lb hb,
  let lo := least4 (la * lb) (la * hb) (ha * lb) (ha * hb) in let hi := greatest4 (la * lb) (la * hb) (ha * lb) (ha * hb) in
  ends_fit i j la lb -> in_range (arith_conv i j) lo = true -> in_range (arith_conv i j) hi = true -> op_stays OpMul i j la ha lb hb lo hi.
Proof.
  intros i j la ha lb hb lo hi F L H x y X Y. cbn [exact_op divides_op]. pose proof (mul_between x y la ha lb hb X Y) as B. fold lo hi in B.
  split; [destruct F as [F|F]; [now left|right; lia]|]. split; [exact (range_between _ _ _ _ L H B)|]. split; [discriminate|]. split; [discriminate|exact B].
Qed.
Print Assumptions C92_products.

Lemma quot_mono_pos : forall x x' y, 0 < y -> x <= x' -> Z.quot x y <= Z.quot x' y.
Proof. intros x x' y Y X. now apply Z.quot_le_mono. Qed.
Lemma quot_between_pos : forall x y la ha lb hb, la <= x <= ha -> 0 < lb -> lb <= y <= hb ->
  least4 (Z.quot la lb) (Z.quot la hb) (Z.quot ha lb) (Z.quot ha hb) <= Z.quot x y <= greatest4 (Z.quot la lb) (Z.quot la hb) (Z.quot ha lb) (Z.quot ha hb).
Proof.
  intros x y la ha lb hb X P Y. unfold least4, greatest4.
  assert (D : forall z u v, 0 < u -> u <= v -> 0 <= z -> Z.quot z v <= Z.quot z u).
  { intros z u v U V Z. rewrite !Z.quot_div_nonneg by lia. now apply Z.div_le_compat_l. }
  assert (K : forall z, Z.min (Z.quot z lb) (Z.quot z hb) <= Z.quot z y <= Z.max (Z.quot z lb) (Z.quot z hb)).
  { intros z. destruct (Z.le_ge_cases 0 z) as [Z|Z].
    - pose proof (D z lb y P ltac:(lia) Z). pose proof (D z y hb ltac:(lia) ltac:(lia) Z). lia.
    - pose proof (D (- z) lb y P ltac:(lia) ltac:(lia)) as A1. pose proof (D (- z) y hb ltac:(lia) ltac:(lia) ltac:(lia)) as A2.
      rewrite !Z.quot_opp_l in A1, A2 by lia. lia. }
  pose proof (K la). pose proof (K ha). pose proof (quot_mono_pos la x y ltac:(lia) ltac:(lia)). pose proof (quot_mono_pos x ha y ltac:(lia) ltac:(lia)). lia.
Qed.
Lemma quot_between : forall x y la ha lb hb, la <= x <= ha -> 0 < lb \/ hb < 0 -> lb <= y <= hb ->
  least4 (Z.quot la lb) (Z.quot la hb) (Z.quot ha lb) (Z.quot ha hb) <= Z.quot x y <= greatest4 (Z.quot la lb) (Z.quot la hb) (Z.quot ha lb) (Z.quot ha hb).
Proof.
  intros x y la ha lb hb X [P|P] Y; [now apply quot_between_pos|].
  pose proof (quot_between_pos x (- y) la ha (- hb) (- lb) X ltac:(lia) ltac:(lia)) as B. rewrite !Z.quot_opp_r in B by lia. unfold least4, greatest4 in *. lia.
Qed.
(** Quotients by numbers on one side of zero: the four corners suffice. *)
Theorem C92_quotients : forall i j la ha lb hb,
  let lo := least4 (Z.quot la lb) (Z.quot la hb) (Z.quot ha lb) (Z.quot ha hb) in
  let hi := greatest4 (Z.quot la lb) (Z.quot la hb) (Z.quot ha lb) (Z.quot ha hb) in
  ends_fit i j la lb -> 0 < lb \/ hb < 0 -> in_range (arith_conv i j) lo = true -> in_range (arith_conv i j) hi = true ->
  op_stays OpDiv i j la ha lb hb lo hi.
Proof.
  intros i j la ha lb hb lo hi F Z L H x y X Y. cbn [exact_op divides_op]. pose proof (quot_between x y la ha lb hb X Z Y) as B. fold lo hi in B.
  split; [destruct F as [F|F]; [now left|right; lia]|]. split; [exact (range_between _ _ _ _ L H B)|]. split; [lia|]. split; [discriminate|exact B].
Qed.
Print Assumptions C92_quotients.
(** Remainders are nearer to zero than the divisors and have the sign of the dividend. *)
Theorem C92_remainders : forall i j la ha lb hb, ends_fit i j la lb -> 0 < lb \/ hb < 0 ->
  in_range (arith_conv i j) (least4 (Z.quot la lb) (Z.quot la hb) (Z.quot ha lb) (Z.quot ha hb)) = true ->
  in_range (arith_conv i j) (greatest4 (Z.quot la lb) (Z.quot la hb) (Z.quot ha lb) (Z.quot ha hb)) = true ->
  let m := Z.max (Z.abs lb) (Z.abs hb) - 1 in
  let lo := Z.max (- m) (Z.min 0 la) in let hi := Z.min m (Z.max 0 ha) in
  in_range (arith_conv i j) lo = true -> in_range (arith_conv i j) hi = true -> op_stays OpRem i j la ha lb hb lo hi.
Proof.
  intros i j la ha lb hb F Z L H m lo hi L' H' x y X Y. cbn [exact_op divides_op]. pose proof (quot_between x y la ha lb hb X Z Y) as B.
  assert (N : y <> 0) by lia. assert (R : lo <= Z.rem x y <= hi).
  { pose proof (Z.rem_bound_abs x y N) as A. pose proof (Z.quot_rem' x y) as Q.
    assert (Sg : (0 <= x -> 0 <= Z.rem x y <= x) /\ (x <= 0 -> x <= Z.rem x y <= 0)).
    { assert (Pos : forall u v, 0 <= u -> v <> 0 -> 0 <= Z.rem u v <= u).
      { intros u v U V. pose proof (Z.rem_nonneg u v V U). split; [lia|]. rewrite <- (Z.rem_abs_r u v V).
        rewrite Z.rem_mod_nonneg by lia. now apply Z.mod_le; [|lia]. }
      split; intros S; [now apply Pos|]. pose proof (Pos (- x) y ltac:(lia) N) as P. rewrite Z.rem_opp_l in P by exact N. lia. }
    subst m lo hi. destruct Sg as [S1 S2]. destruct (Z.le_ge_cases 0 x) as [S|S]; [specialize (S1 S)|specialize (S2 S)]; lia. }
  split; [destruct F as [F|F]; [now left|right; lia]|]. split; [exact (range_between _ _ _ _ L' H' R)|]. split; [auto|].
  split; [intros _; exact (range_between _ _ _ _ L H B)|exact R].
Qed.
Print Assumptions C92_remainders.

Lemma no_overflow_between : forall est from to lo hi n, no_overflow est from to lo -> no_overflow est from to hi -> lo <= n <= hi -> no_overflow est from to n.
Proof.
  intros est from to lo hi n (c & t & C & R & P) (c' & t' & C' & R' & P') N. rewrite C in C'. inversion C'; subst c'. rewrite R in R'. inversion R'; subst t'.
  exists c, t. split; [exact C|]. split; [exact R|]. apply products_fit_iff in P as (A1 & A2 & A3 & A4 & A5). apply products_fit_iff in P' as (B1 & B2 & B3 & B4 & B5).
  apply products_fit_iff. split; [exact (range_between _ _ _ _ A1 B1 N)|]. split; [exact A2|]. split; [exact A3|]. split; [|exact A5].
  apply in_range_spec in A4, B4. apply in_range_spec. destruct (Z.le_ge_cases 0 (cast_num c)); nia.
Qed.
(** Conversions: the ends suffice; a conversion to the same type changes nothing. *)
Theorem C92_conversions : forall est from to b m1 m2 lo hi lo' hi', sized est from m1 -> sized est to m2 -> q_rep to = RInt b ->
  no_overflow est from to lo -> no_overflow est from to hi -> in_range b lo' = true -> in_range b hi' = true ->
  (inject_Z lo' * m2 <= inject_Z lo * m1)%Q -> (inject_Z hi * m1 <= inject_Z hi' * m2)%Q ->
  conversion_stays est from to lo hi lo' hi'.
Proof.
  intros est from to b m1 m2 lo hi lo' hi' S1 S2 Rb O1 O2 L' H' Lo Hi n N.
  assert (B : forall k1 k2, magnitude (q_dim from) (q_unit from) k1 -> magnitude (q_dim to) (q_unit to) k2 -> (inject_Z lo' <= inject_Z n * k1 / k2 <= inject_Z hi')%Q).
  { intros k1 k2 K1 K2. assert (M1 : magnitude (q_dim from) (q_unit from) m1) by apply S1. assert (M2 : magnitude (q_dim to) (q_unit to) m2) by apply S2.
    rewrite (magnitude_unique _ _ _ _ K1 M1), (magnitude_unique _ _ _ _ K2 M2). pose proof (sized_pos _ _ _ S1) as P1. pose proof (sized_pos _ _ _ S2) as P2.
    assert (N1 : (inject_Z lo <= inject_Z n)%Q) by (rewrite <- Zle_Qle; lia). assert (N2 : (inject_Z n <= inject_Z hi)%Q) by (rewrite <- Zle_Qle; lia).
    split; [apply Qle_shift_div_l|apply Qle_shift_div_r]; auto; [apply Qle_trans with (inject_Z lo * m1)%Q|apply Qle_trans with (inject_Z hi * m1)%Q]; auto;
      (apply Qmult_le_compat_r; [assumption|apply Qlt_le_weak, P1]). }
  split; [|exact B]. right. split; [exact (no_overflow_between _ _ _ _ _ _ O1 O2 N)|]. intros k1 k2 K1 K2. exists b. split; [exact Rb|].
  destruct (B k1 k2 K1 K2) as [B1 B2]. apply in_range_spec in L', H'.
  split; [apply Qle_trans with (inject_Z lo'); [rewrite <- Zle_Qle; lia|exact B1]|apply Qle_trans with (inject_Z hi'); [exact B2|rewrite <- Zle_Qle; lia]].
Qed.
Print Assumptions C92_conversions.
Theorem C92_same_type : forall est t m lo hi, sized est t m -> conversion_stays est t t lo hi lo hi.
Proof.
  intros est t m lo hi S n N. split; [now left|]. intros k1 k2 K1 K2. assert (M : magnitude (q_dim t) (q_unit t) m) by apply S.
  rewrite (magnitude_unique _ _ _ _ K1 M), (magnitude_unique _ _ _ _ K2 M). pose proof (sized_pos _ _ _ S) as P.
  assert (E : (inject_Z n * m / m == inject_Z n)%Q) by (field; lra). rewrite E. rewrite <- !Zle_Qle. exact N.
Qed.
Print Assumptions C92_same_type.
(** Casts: the ends suffice too. *)
Theorem C92_casts : forall est from to m1 m2 lo hi lo' hi', sized est from m1 -> sized est to m2 ->
  no_overflow est from to lo -> no_overflow est from to hi ->
  value_fits (q_rep to) (inject_Z lo * m1 / m2) -> value_fits (q_rep to) (inject_Z hi * m1 / m2) ->
  trunc_of (inject_Z lo * m1 / m2) lo' -> trunc_of (inject_Z hi * m1 / m2) hi' -> cast_stays est from to lo hi lo' hi'.
Proof.
  intros est from to m1 m2 lo hi lo' hi' S1 S2 O1 O2 (b & Rb & F1 & F1') (b' & Rb' & F2 & F2') Tl Th n N. assert (b' = b) by congruence. subst b'.
  split; [exact (no_overflow_between _ _ _ _ _ _ O1 O2 N)|]. intros k1 k2 K1 K2.
  assert (M1 : magnitude (q_dim from) (q_unit from) m1) by apply S1. assert (M2 : magnitude (q_dim to) (q_unit to) m2) by apply S2.
  pose proof (sized_pos _ _ _ S1) as P1. pose proof (sized_pos _ _ _ S2) as P2.
  assert (E : (inject_Z n * k1 / k2 == inject_Z n * m1 / m2)%Q) by (rewrite (magnitude_unique _ _ _ _ K1 M1), (magnitude_unique _ _ _ _ K2 M2); reflexivity).
  assert (Mono : forall a b, a <= b -> (inject_Z a * m1 / m2 <= inject_Z b * m1 / m2)%Q).
  { intros a c L. unfold Qdiv. apply Qmult_le_compat_r; [|apply Qlt_le_weak, Qinv_lt_0_compat, P2]. apply Qmult_le_compat_r; [now rewrite <- Zle_Qle|apply Qlt_le_weak, P1]. }
  pose proof (Mono lo n ltac:(lia)) as L1. pose proof (Mono n hi ltac:(lia)) as L2. split.
  - exists b. split; [exact Rb|]. rewrite E. split; [exact (Qle_trans _ _ _ F1 L1)|exact (Qle_trans _ _ _ L2 F2')].
  - intros z Tz. apply (trunc_ext _ _ _ E) in Tz. split; [exact (trunc_mono _ _ _ _ L1 Tl Tz)|exact (trunc_mono _ _ _ _ L2 Tz Th)].
Qed.
Print Assumptions C92_casts.

(** * Cases *)

Definition U8 := ITy W8 false.
Definition km16 (x : Z) : aexpr := AQuantity (Quantity (lengths kilometre I16) (NInt x)).
Definition m32 (y : Z) : aexpr := AQuantity (Quantity (lengths metre I32) (NInt y)).
Definition m32u (y : Z) : aexpr := AQuantity (Quantity (lengths metre U32) (NInt y)).
Definition s8 (z : Z) : aexpr := AQuantity (Quantity (times second U8) (NInt z)).
(** The sum of kilometres and metres is in metres, the quotient in metres per second: units of
    these sizes (the declarations of this world do not name them). *)
Definition metre_size : cunit := CUnit None [] one_r "metre" false None "no_prefix".
Definition speed_size : cunit := CUnit None [] one_r "metre_per_second" false None "no_prefix".
(** [(x km + y m) / (z s)] of 16-bit kilometres, 32-bit metres and unsigned bytes of seconds. *)
Definition pace (x y z : Z) : aexpr := ABinary BDiv (ABinary BAdd (km16 x) (m32 y)) (s8 z).

Lemma range_I16 : forall x, -300 <= x <= 300 -> in_range I16 x = true.
Proof. intros x H. apply in_range_spec. change (imin I16) with (-32768). change (imax I16) with 32767. lia. Qed.
Lemma range_I32 : forall x, 0 <= x <= 500000 -> in_range I32 x = true.
Proof. intros x H. apply in_range_spec. change (imin I32) with (-2147483648). change (imax I32) with 2147483647. lia. Qed.
Lemma range_U8 : forall x, 1 <= x <= 60 -> in_range U8 x = true.
Proof. intros x H. apply in_range_spec. change (imin U8) with 0. change (imax U8) with 255. lia. Qed.

Lemma pace_stays : forall est w x y z, si_world = Ok w -> -300 <= x <= 300 -> 0 <= y <= 500000 -> 1 <= z <= 60 ->
  stays no_rebinding est w (ABinary BAdd (km16 x) (m32 y)) (-300000) 800000 /\ stays no_rebinding est w (pace x y z) (-300000) 800000.
Proof.
  intros est w x y z W X Y Z. destruct good_units as (Gm & Gk & _ & Gs & _).
  pose proof (sized_length est metre I32 Gm eq_refl) as Sm. pose proof (sized_length est kilometre I16 Gk eq_refl) as Sk.
  pose proof (sized_time est second U8 Gs eq_refl) as Ss. pose proof (sized_length est metre_size I32 Gm eq_refl) as Sz.
  assert (Tk : has_type no_rebinding est w (km16 x) (lengths kilometre I16)) by (eexists; split; reflexivity).
  assert (Tm : has_type no_rebinding est w (m32 y) (lengths metre I32)) by (eexists; split; reflexivity).
  assert (Tsum : has_type no_rebinding est w (ABinary BAdd (km16 x) (m32 y)) (lengths metre_size I32)).
  { exists (TQuantity (lengths metre_size I32)). split; [|reflexivity]. vm_compute in W. injection W as <-. vm_compute. reflexivity. }
  assert (Ts : has_type no_rebinding est w (s8 z) (times second U8)) by (eexists; split; reflexivity).
  assert (Sum : stays no_rebinding est w (ABinary BAdd (km16 x) (m32 y)) (-300000) 800000).
  { apply (st_sum _ _ _ BAdd _ _ (lengths kilometre I16) (lengths metre I32) (lengths metre_size I32) I32 (-300) 300 0 500000 (-300000) 300000 0 500000); auto.
    - apply (st_quantity _ _ _ _ I16 x (rval (u_ratio kilometre))); auto. split; [reflexivity|]. split; [reflexivity|now apply range_I16].
    - apply (st_quantity _ _ _ _ I32 y (rval (u_ratio metre))); auto. split; [reflexivity|]. split; [reflexivity|now apply range_I32].
    - apply (C92_conversions est _ _ I32 (rval (u_ratio kilometre)) (rval (u_ratio metre_size))); auto.
      + exists (Ratio 1 1 3), I64. vm_compute. repeat split; congruence.
      + exists (Ratio 1 1 3), I64. vm_compute. repeat split; congruence.
      + vm_compute. discriminate.
      + vm_compute. discriminate.
    - apply (C92_conversions est _ _ I32 (rval (u_ratio metre)) (rval (u_ratio metre_size))); auto.
      + exists (Ratio 1 1 0), I64. vm_compute. repeat split; congruence.
      + exists (Ratio 1 1 0), I64. vm_compute. repeat split; congruence.
      + vm_compute. discriminate.
      + vm_compute. discriminate.
    - exact (proj1 (C92_sums I32 I32 (-300000) 300000 0 500000 (or_introl eq_refl)) eq_refl eq_refl). }
  split; [exact Sum|].
  apply (st_product _ _ _ BDiv _ _ (lengths metre_size I32) (times second U8) I32 U8 (-300000) 800000 1 60); auto.
  - apply (st_quantity _ _ _ _ U8 z (rval (u_ratio second))); auto. split; [reflexivity|]. split; [reflexivity|now apply range_U8].
  - exact (C92_quotients I32 U8 (-300000) 800000 1 60 (or_introl eq_refl) (or_introl eq_refl) eq_refl eq_refl).
Qed.

(** Up to 300 km either way and up to 500 km, in up to a minute: defined for all such numbers,
    the speed in metres per second is a signed 32-bit number between -300000 and 800000, and the
    distance is exact. *)
Example C92_ex : forall est w x y z, si_world = Ok w -> -300 <= x <= 300 -> 0 <= y <= 500000 -> 1 <= z <= 60 ->
  (exists r n, aeval no_rebinding est w (pace x y z) = Ok r /\ vtype r = TQuantity (QType dim_speed speed_size (RInt I32)) /\
     q_num (distance r) = NInt n /\ -300000 <= n <= 800000) /\
  (exists r v, aeval no_rebinding est w (ABinary BAdd (km16 x) (m32 y)) = Ok r /\ denotes (distance r) v /\ (v == inject_Z (1000 * x + y))%Q).
Proof.
  intros est w x y z W X Y Z. destruct (pace_stays est w x y z W X Y Z) as [S1 S2].
  assert (L : in_system si_base w (DBase dim_L)) by (apply base_in_system; now left).
  assert (T : in_system si_base w (DBase dim_T)) by (apply base_in_system; right; now left).
  assert (T1 : type_of no_rebinding est w (pace x y z) = Ok (TQuantity (QType dim_speed speed_size (RInt I32)))).
  { vm_compute in W. injection W as <-. vm_compute. reflexivity. }
  assert (T2 : type_of no_rebinding est w (ABinary BAdd (km16 x) (m32 y)) = Ok (TQuantity (lengths metre_size I32))).
  { vm_compute in W. injection W as <-. vm_compute. reflexivity. }
  split.
  - apply (C92_defined si_base w no_rebinding est (pace x y z) (-300000) 800000 _ si_identify (si_good w W)); auto. cbn. auto.
  - assert (V : worth no_rebinding est w (fun _ => 0%Q) (ABinary BAdd (km16 x) (m32 y)) (inject_Z x * rval (u_ratio kilometre) + inject_Z y * rval (u_ratio metre))).
    { destruct good_units as (Gm & Gk & _). apply wo_add; apply wo_quantity.
      - exists x, (rval (u_ratio kilometre)). split; [reflexivity|]. split; [apply (sized_length est kilometre I16 Gk eq_refl)|reflexivity].
      - exists y, (rval (u_ratio metre)). split; [reflexivity|]. split; [apply (sized_length est metre I32 Gm eq_refl)|reflexivity]. }
    destruct (C92_exact si_base w no_rebinding est (fun _ => 0%Q) (ABinary BAdd (km16 x) (m32 y)) _ _ _ _ si_identify (si_good w W) (conj L L) T2 S1 V) as (r & v & E & Dn & Ev).
    exists r, v. split; [exact E|]. split; [exact Dn|]. pose proof (type_complete _ _ _ _ _ E) as Tr. rewrite T2 in Tr. destruct r as [q|p]; [|discriminate Tr].
    cbn [place] in Ev. assert (K : (rval (u_ratio kilometre) == 1000)%Q) by reflexivity. assert (K' : (rval (u_ratio metre) == 1)%Q) by reflexivity.
    rewrite K, K' in Ev. rewrite inject_Z_plus, inject_Z_mult. change (inject_Z 1000) with 1000%Q. lra.
Qed.

(** Kilometres of 16 bits compare with metres of 32 bits as distances do. *)
Example C92_ex_comparison : forall est w x y, si_world = Ok w -> -300 <= x <= 300 -> 0 <= y <= 500000 ->
  exists r1 r2, aeval no_rebinding est w (km16 x) = Ok r1 /\ aeval no_rebinding est w (m32 y) = Ok r2 /\
    v_compare no_rebinding est w r1 r2 = Ok (Some (inject_Z x * rval (u_ratio kilometre) ?= inject_Z y * rval (u_ratio metre))%Q).
Proof.
  intros est w x y W X Y. destruct good_units as (Gm & Gk & _).
  pose proof (sized_length est metre I32 Gm eq_refl) as Sm. pose proof (sized_length est kilometre I16 Gk eq_refl) as Sk.
  pose proof (sized_length est metre_size I32 Gm eq_refl) as Sz.
  assert (L : in_system si_base w (DBase dim_L)) by (apply base_in_system; now left).
  assert (Tc : t_compare no_rebinding est w (TQuantity (lengths kilometre I16)) (TQuantity (lengths metre I32)) = Ok tt /\
    common_quantity est w (lengths kilometre I16) (lengths metre I32) (RInt I32) = Ok (lengths metre_size I32)).
  { vm_compute in W. injection W as <-. vm_compute. auto. }
  destruct Tc as [Tc Cq].
  apply (C92_comparison si_base w no_rebinding est (fun _ => 0%Q) (km16 x) (m32 y) (-300) 300 0 500000 (-300000) 300000 0 500000
    (TQuantity (lengths kilometre I16)) (TQuantity (lengths metre I32)) (lengths metre_size I32)); auto.
  - exact si_identify.
  - now apply si_good.
  - apply (st_quantity _ _ _ _ I16 x (rval (u_ratio kilometre))); auto. split; [reflexivity|]. split; [reflexivity|now apply range_I16].
  - apply (st_quantity _ _ _ _ I32 y (rval (u_ratio metre))); auto. split; [reflexivity|]. split; [reflexivity|now apply range_I32].
  - apply (C92_conversions est _ _ I32 (rval (u_ratio kilometre)) (rval (u_ratio metre_size))); auto.
    + exists (Ratio 1 1 3), I64. vm_compute. repeat split; congruence.
    + exists (Ratio 1 1 3), I64. vm_compute. repeat split; congruence.
    + vm_compute. discriminate.
    + vm_compute. discriminate.
  - apply (C92_conversions est _ _ I32 (rval (u_ratio metre)) (rval (u_ratio metre_size))); auto.
    + exists (Ratio 1 1 0), I64. vm_compute. repeat split; congruence.
    + exists (Ratio 1 1 0), I64. vm_compute. repeat split; congruence.
    + vm_compute. discriminate.
    + vm_compute. discriminate.
  - apply wo_quantity. exists x, (rval (u_ratio kilometre)). split; [reflexivity|]. split; [apply Sk|reflexivity].
  - apply wo_quantity. exists y, (rval (u_ratio metre)). split; [reflexivity|]. split; [apply Sm|reflexivity].
Qed.

(** Points: [quantity_point_cast<kilometre>(p + x km)] of a 32-bit altitude in metres and 16-bit
    kilometres, for all altitudes up to 500 km, is defined: between -300 and 800 km. *)
Definition altitude32 (y : Z) : aexpr := APoint (Point (PType (ODynamic (DBase dim_L)) metre (RInt I32)) (NInt y)).
Example C92_ex_point : forall est w x y, si_world = Ok w -> -300 <= x <= 300 -> 0 <= y <= 500000 ->
  exists r n, aeval no_rebinding est w (APointCast (ToUnit kilometre) (ABinary BAdd (altitude32 y) (km16 x))) = Ok r /\
    vtype r = TPoint (PType (ODynamic (DBase dim_L)) kilometre (RInt I32)) /\ q_num (distance r) = NInt n /\ -300 <= n <= 800.
Proof.
  intros est w x y W X Y. destruct good_units as (Gm & Gk & _).
  pose proof (sized_length est metre I32 Gm eq_refl) as Sm. pose proof (sized_length est kilometre I16 Gk eq_refl) as Sk.
  pose proof (sized_length est metre_size I32 Gm eq_refl) as Sz. pose proof (sized_length est kilometre I32 Gk eq_refl) as Sk2.
  assert (L : in_system si_base w (DBase dim_L)) by (apply base_in_system; now left).
  assert (T1 : type_of no_rebinding est w (ABinary BAdd (altitude32 y) (km16 x)) = Ok (TPoint (PType (ODynamic (DBase dim_L)) metre_size (RInt I32))) /\
    type_of no_rebinding est w (APointCast (ToUnit kilometre) (ABinary BAdd (altitude32 y) (km16 x))) = Ok (TPoint (PType (ODynamic (DBase dim_L)) kilometre (RInt I32)))).
  { vm_compute in W. injection W as <-. vm_compute. auto. }
  destruct T1 as [T1 T2].
  apply (C92_defined si_base w no_rebinding est _ (-300) 800 _ si_identify (si_good w W)); auto; [cbn; auto|].
  apply (st_pcast _ _ _ _ _ (lengths metre_size I32) (lengths kilometre I32) I32 (rval (u_ratio kilometre)) (-300000) 800000); auto.
  - apply (st_sum _ _ _ BAdd _ _ (lengths metre I32) (lengths kilometre I16) (lengths metre_size I32) I32 0 500000 (-300) 300 0 500000 (-300000) 300000); auto.
    + apply (st_point _ _ _ _ I32 y (rval (u_ratio metre))); auto. split; [reflexivity|]. split; [reflexivity|now apply range_I32].
    + apply (st_quantity _ _ _ _ I16 x (rval (u_ratio kilometre))); auto. split; [reflexivity|]. split; [reflexivity|now apply range_I16].
    + eexists. split; reflexivity.
    + eexists. split; reflexivity.
    + eexists. split; [exact T1|reflexivity].
    + apply (C92_conversions est _ _ I32 (rval (u_ratio metre)) (rval (u_ratio metre_size))); auto.
      * exists (Ratio 1 1 0), I64. vm_compute. repeat split; congruence.
      * exists (Ratio 1 1 0), I64. vm_compute. repeat split; congruence.
      * vm_compute. discriminate.
      * vm_compute. discriminate.
    + apply (C92_conversions est _ _ I32 (rval (u_ratio kilometre)) (rval (u_ratio metre_size))); auto.
      * exists (Ratio 1 1 3), I64. vm_compute. repeat split; congruence.
      * exists (Ratio 1 1 3), I64. vm_compute. repeat split; congruence.
      * vm_compute. discriminate.
      * vm_compute. discriminate.
    + exact (proj1 (C92_sums I32 I32 0 500000 (-300000) 300000 (or_introl eq_refl)) eq_refl eq_refl).
  - eexists. split; [exact T1|reflexivity].
  - eexists. split; [exact T2|reflexivity].
  - apply (C92_casts est _ _ (rval (u_ratio metre_size)) (rval (u_ratio kilometre))); auto.
    + exists (Ratio 1 1 (-3)), I64. vm_compute. repeat split; congruence.
    + exists (Ratio 1 1 (-3)), I64. vm_compute. repeat split; congruence.
    + exists I32. split; [reflexivity|]. vm_compute. split; discriminate.
    + exists I32. split; [reflexivity|]. vm_compute. split; discriminate.
    + apply trunc_int. reflexivity.
    + apply trunc_int. reflexivity.
Qed.

(** Compiling is not enough.  2147484 km and 0 m in 32 bits: the kilometres do not fit as metres
    and come out negative, without undefined behaviour; -1 m and 0 m with signed and unsigned
    numbers add up to 4294967295 m; the sum of the greatest 32-bit number of metres and 1 m is
    undefined. *)
Theorem C92_types_refuted : forall est, exists w, si_world = Ok w /\
  let km32 := AQuantity (Quantity (lengths kilometre I32) (NInt 2147484)) in
  aeval no_rebinding est w (ABinary BAdd km32 (m32 0)) = Ok (VQuantity (Quantity (lengths metre_size I32) (NInt (-2147483296)))) /\
  aeval no_rebinding est w (ABinary BAdd (m32 (-1)) (m32u 0)) = Ok (VQuantity (Quantity (lengths metre U32) (NInt 4294967295))) /\
  aeval no_rebinding est w (ABinary BAdd (m32 2147483647) (m32 1)) = Undef.
Proof.
  intros est. destruct si_world as [w| | | |] eqn:W; try (vm_compute in W; discriminate W). exists w. split; [reflexivity|].
  vm_compute in W. injection W as <-. vm_compute. auto.
Qed.
Print Assumptions C92_types_refuted.
