(** Chains of casts, definedness of comparison and addition, associativity of addition. *)

From Coq Require Import ZArith QArith Qpower Qabs String List Bool Lia Lqa.
From Verif Require Import Outcome CInt Ratio SpecRatio QTen RatioMaths RatioMathsProofs RatioProofs
  Pow Root RatioProofs2 RatioPowProofs Unit Downcast Dim DimOp Equivalent SpecDim SpecUnit
  DimOpProofs DimOpProofs2 EquivProofs MagnitudeProofs Rep IntProofs Reference QuantityCast CommonQuantity Quantity SpecQuantity CastProofs
  QuantityProofs QuantityProofs2 QuantityProofs3.
Import ListNotations.
Local Open Scope Z_scope.
Local Open Scope res_scope.

(** Base dimensions: the magnitude of a unit is its ratio. *)
Lemma base_sized : forall est b u r, base_good b -> unit_good u -> unit_of u (DBase b) = true ->
  sized est (QType (DBase b) u r) (rval (u_ratio u)).
Proof.
  intros est b u r B U O. pose proof (good_pos _ B) as P. unfold base_ratio in P.
  assert (H : half_int (BExp b 1 1)) by (split; [discriminate|exists 2; reflexivity]).
  split; [split; [split; [constructor; [split; auto|constructor]|exact B]|exact U]|]. split; [exact O|]. split.
  - constructor; [|constructor]. intros E; discriminate E.
  - exists (rval (u_ratio (bd_unit b))). cbn [q_dim q_unit dimension_unit exponents]. split; [split; [|split]|].
    + constructor; [exact H|constructor].
    + exact P.
    + cbn [squared]. unfold twice. cbn [e_num e_den e_dim]. change (2 * 1 / 1) with 2. unfold base_ratio. ring.
    + field. lra.
Qed.

(** ** Chains *)

Lemma trunc_trunc : forall q z k y, 0 < k -> trunc_of q z -> trunc_of (inject_Z z / inject_Z k) y ->
  trunc_of (q / inject_Z k) y.
Proof.
  intros q z k y K Tq Ty. pose proof (injZ_pos _ K) as P.
  assert (E : y = Z.quot z k) by (eapply trunc_unique; [exact Ty|now apply quot_trunc]). subst y. clear Ty.
  pose proof (Z.quot_rem' z k) as QR.
  assert (S : forall a b, (a < b * inject_Z k)%Q -> (a / inject_Z k < b)%Q).
  { intros a b L. apply Qlt_shift_div_r; auto. }
  assert (S' : forall a b, (a * inject_Z k < b)%Q -> (a < b / inject_Z k)%Q).
  { intros a b L. apply Qlt_shift_div_l; auto. }
  assert (S1 : forall a b, (a <= b * inject_Z k)%Q -> (a / inject_Z k <= b)%Q).
  { intros a b L. apply Qle_shift_div_r; auto. }
  assert (S1' : forall a b, (a * inject_Z k <= b)%Q -> (a <= b / inject_Z k)%Q).
  { intros a b L. apply Qle_shift_div_l; auto. }
  destruct Tq as [T1 T2]. split; intros C.
  - assert (C' : (0 <= q)%Q).
    { assert (q == q / inject_Z k * inject_Z k)%Q as -> by (field; lra). apply Qmult_le_0_compat; lra. }
    specialize (T1 C'). destruct T1 as [T1a T1b]. clear T2.
    assert (Z0 : 0 <= z). { apply (injZ_lt1 0 z). change (inject_Z 0) with 0%Q. lra. }
    pose proof (Z.rem_bound_pos z k Z0 K). split.
    + apply S1'. assert (L : (inject_Z (Z.quot z k * k) <= inject_Z z)%Q) by (apply (proj1 (injZ_le _ _)); lia).
      rewrite inject_Z_mult in L. lra.
    + apply S. assert (L : (inject_Z (z + 1) <= inject_Z ((Z.quot z k + 1) * k))%Q) by (apply (proj1 (injZ_le _ _)); lia).
      rewrite inject_Z_mult, !inject_Z_plus in L. change (inject_Z 1) with 1%Q in L. lra.
  - assert (C' : (q <= 0)%Q).
    { assert (q == - ((- (q / inject_Z k)) * inject_Z k))%Q as -> by (field; lra).
      assert (0 <= - (q / inject_Z k) * inject_Z k)%Q by (apply Qmult_le_0_compat; lra). lra. }
    specialize (T2 C'). destruct T2 as [T2a T2b]. clear T1.
    assert (Z0 : z <= 0). { apply (injZ_lt1 z 0). change (inject_Z 0) with 0%Q. lra. }
    pose proof (Z.rem_bound_pos_neg z k K Z0). split.
    + apply S'. assert (L : (inject_Z ((Z.quot z k - 1) * k) <= inject_Z (z - 1))%Q) by (apply (proj1 (injZ_le _ _)); lia).
      unfold Z.sub in L. rewrite inject_Z_mult, !inject_Z_plus in L. change (inject_Z (-(1))) with (-(1))%Q in L. lra.
    + apply S1. assert (L : (inject_Z z <= inject_Z (Z.quot z k * k))%Q) by (apply (proj1 (injZ_le _ _)); lia).
      rewrite inject_Z_mult in L. lra.
Qed.

(** The number at the end of a chain is the truncated value, if that is so for each step. *)
Lemma chain_end : forall est (R : Q -> Q -> Prop) (keeps : Q -> Q -> Z -> Prop),
  (forall v m n m1 n1, (0 < m)%Q -> (0 < m1)%Q -> R m m1 -> keeps v m n -> trunc_of (inject_Z n * m / m1) n1 -> keeps v m1 n1) ->
  forall l t m n to m' v, chain est R t m n l to m' -> sized est t m -> (exists a, q_rep t = RInt a) ->
  keeps v m n ->
  exists z, cast_through est t (NInt n) l = Ok (NInt z) /\ keeps v m' z /\ sized est to m' /\
    (l = [] \/ value_fits (q_rep to) (inject_Z z) ) /\ dim_equivalent (q_dim to) (q_dim t) = true.
Proof.
  intros est R keeps K l. induction l as [|t1 l IH]; intros t m n to m' v C S (a & Ra) I.
  - inversion C; subst. exists n. split; [reflexivity|]. split; [exact I|]. split; [exact S|]. split; [now left|].
    apply dim_equivalent_equivalence.
  - inversion C as [|? ? ? ? m1 n1 ? ? ? S1 Rm Ref De No Fi Tr C1]; subst. cbn [cast_through].
    destruct Fi as (b & Rb & Fb).
    destruct (cast_value _ _ _ _ _ _ _ _ S S1 Ref Ra Rb De No (ex_intro _ b (conj Rb Fb))) as (z & Ez & Tz & Iz).
    rewrite Ez. cbn [bind]. assert (z = n1) by (eapply trunc_unique; eauto). subst z.
    destruct (IH _ _ _ _ _ v C1 S1 (ex_intro _ b Rb)) as (y & Ey & Ky & Sy & Fy & Dy).
    { eapply K; [| |exact Rm|exact I|exact Tr]; eapply sized_pos; eauto. }
    exists y. split; [exact Ey|]. split; [exact Ky|]. split; [exact Sy|]. split.
    + right. destruct Fy as [->|Fy]; [|exact Fy]. inversion C1; subst. simpl in Ey. inversion Ey; subst y.
      exists b. split; [exact Rb|]. rewrite in_range_spec in Iz. rewrite <- !injZ_le. exact Iz.
    + destruct dim_equivalent_equivalence as (_ & _ & Tn). eapply Tn; eauto.
Qed.

Lemma chain_direct : forall est (R : Q -> Q -> Prop) (keeps : Q -> Q -> Z -> Prop),
  (forall v m n m1 n1, (0 < m)%Q -> (0 < m1)%Q -> R m m1 -> keeps v m n -> trunc_of (inject_Z n * m / m1) n1 -> keeps v m1 n1) ->
  (forall v m n, (0 < m)%Q -> keeps v m n -> trunc_of (v / m) n) ->
  (forall m n, (0 < m)%Q -> keeps (inject_Z n * m)%Q m n) ->
  forall l t m n a to m', l <> [] -> chain est R t m n l to m' -> sized est t m -> q_rep t = RInt a ->
  references_ok t to -> no_overflow est t to n ->
  exists z, cast_through est t (NInt n) l = Ok (NInt z) /\ quantity_cast est t to (NInt n) = Ok (NInt z) /\
    trunc_of (inject_Z n * m / m') z.
Proof.
  intros est R keeps K1 K2 K3 l t m n a to m' NE C S Ra Ref No.
  destruct (chain_end est R keeps K1 l t m n to m' (inject_Z n * m)%Q C S (ex_intro _ a Ra)) as (z & Ez & Kz & Sz & Fz & Dz).
  { apply K3. eapply sized_pos; eauto. }
  exists z. split; [exact Ez|]. destruct Fz as [|(b & Rb & Fb)]; [contradiction|].
  destruct (cast_fits _ _ _ _ _ _ _ _ S Sz Ref Ra Rb Dz No) as (y & Ey & Ty).
  assert (Tz : trunc_of (inject_Z n * m / m') z) by (apply K2; [eapply sized_pos; eauto|exact Kz]).
  assert (y = z) by (eapply trunc_unique; eauto). subst y. rewrite wrap_id in Ey.
  - auto.
  - apply in_range_spec. rewrite !injZ_le. exact Fb.
Qed.

Lemma refining_chain : forall est l t m n a to m', l <> [] -> chain est multiple_of t m n l to m' -> sized est t m ->
  q_rep t = RInt a -> references_ok t to -> no_overflow est t to n ->
  exists z, cast_through est t (NInt n) l = Ok (NInt z) /\ quantity_cast est t to (NInt n) = Ok (NInt z) /\
    trunc_of (inject_Z n * m / m') z.
Proof.
  intros est. apply (chain_direct est multiple_of (fun v m n => (v == inject_Z n * m)%Q)).
  - intros v m n m1 n1 P P1 (k & Hk) V T.
    assert (E : (inject_Z n * m / m1 == inject_Z (n * k))%Q) by (rewrite Hk, inject_Z_mult; field; lra).
    assert (n1 = n * k) by (eapply trunc_unique; [exact T|now apply trunc_int]). subst n1.
    rewrite V, Hk, inject_Z_mult. ring.
  - intros v m n P V. apply trunc_int. rewrite V. field. lra.
  - intros m n _. reflexivity.
Qed.

Lemma coarsening_chain : forall est l t m n a to m', l <> [] -> chain est (fun x y => multiple_of y x) t m n l to m' -> sized est t m ->
  q_rep t = RInt a -> references_ok t to -> no_overflow est t to n ->
  exists z, cast_through est t (NInt n) l = Ok (NInt z) /\ quantity_cast est t to (NInt n) = Ok (NInt z) /\
    trunc_of (inject_Z n * m / m') z.
Proof.
  intros est. apply (chain_direct est (fun x y => multiple_of y x) (fun v m n => trunc_of (v / m) n)).
  - intros v m n m1 n1 P P1 (k & Hk) V T.
    assert (K : 0 < k).
    { apply injZ_lt. change (inject_Z 0) with 0%Q.
      destruct (Qlt_le_dec 0 (inject_Z k)) as [L|L]; auto. exfalso.
      assert (0 <= (- inject_Z k) * m)%Q by (apply Qmult_le_0_compat; lra). lra. }
    pose proof (injZ_pos _ K) as PK.
    eapply trunc_ext; [|eapply (trunc_trunc (v / m) n k n1 K V)].
    + rewrite Hk. field. split; lra.
    + eapply trunc_ext; [|exact T]. rewrite Hk. field. split; lra.
  - intros v m n P V. exact V.
  - intros m n P. apply trunc_int. field. lra.
Qed.

(** ** Definedness *)

Lemma convert_defined : forall est from to a b m1 m2 n, sized est from m1 -> sized est to m2 ->
  references_ok from to -> q_rep from = RInt a -> q_rep to = RInt b ->
  accepted est from to -> convertible est from to n -> exists z, q_convert est from to (NInt n) = Ok (NInt z).
Proof.
  intros est from to a b m1 m2 n S1 S2 R Ra Rb A C. unfold q_convert.
  destruct (qtype_eq_dec from to) as [E|E]; [eauto|]. destruct A as [A|A]; [contradiction|]. destruct C as [C|[No Fi]]; [contradiction|].
  rewrite A. cbn [bind constrained].
  assert (D : dim_equivalent (q_dim to) (q_dim from) = true).
  { unfold safe_castable_to in A. destruct (dim_equivalent (q_dim to) (q_dim from)); auto. simpl in A. congruence. }
  destruct (cast_fits _ _ _ _ _ _ _ _ S1 S2 R Ra Rb D No) as (z & Ez & _). rewrite Ez. eauto.
Qed.

Lemma compare_defined : forall est w a b ia ib na nb ma mb t, consistent w ->
  integral a ia na -> integral b ib nb -> sized est (q_type a) ma -> sized est (q_type b) mb ->
  compatible (q_type a) (q_type b) ->
  common_quantity est w (q_type a) (q_type b) (common_rep (RInt ia) (RInt ib)) = Ok t ->
  accepted est (q_type a) t -> accepted est (q_type b) t ->
  convertible est (q_type a) t na -> convertible est (q_type b) t nb ->
  (exists c, q_compare est w a b = Ok c) /\ (exists v, q_eqb est w a b = Ok v).
Proof.
  intros est w a b ia ib na nb ma mb t C (Ra & Na & Ia) (Rb & Nb & Ib) Sa Sb Co Ct Aa Ab Ca Cb.
  destruct (common_quantity_sized _ _ _ _ _ _ _ _ C Sa Sb Co Ct) as (m & St & _ & Rt & R1 & R2 & _).
  cbn [common_rep] in Rt.
  destruct (convert_defined _ _ _ _ _ _ _ _ Sa St R1 Ra Rt Aa Ca) as (x & Ex).
  destruct (convert_defined _ _ _ _ _ _ _ _ Sb St R2 Rb Rt Ab Cb) as (y & Ey).
  unfold q_compare, q_eqb, q_common. rewrite Ra, Rb, Na, Nb.
  destruct (qtype_eq_dec (q_type a) (q_type b)); [cbn; split; eauto|].
  rewrite Ct. cbn [bind]. rewrite Ex. cbn [bind]. rewrite Ey. cbn. split; eauto.
Qed.

(** ** Addition of signed 64-bit quantities of one dimension *)

Lemma compatible_same : forall t1 t2, q_dim t1 = q_dim t2 -> compatible t1 t2.
Proof. intros t1 t2 E. split; [now apply references_ok_refl|]. intros _. now rewrite E. Qed.

Lemma add64 : forall o est w a b na nb ma mb s, sum_op o -> consistent w ->
  integral a I64 na -> integral b I64 nb -> sized est (q_type a) ma -> sized est (q_type b) mb ->
  q_dim (q_type a) = q_dim (q_type b) -> q_addsub o est w a b = Ok s ->
  exists m z, sized est (q_type s) m /\ common_magnitude ma mb m /\ integral s I64 z /\
    q_dim (q_type s) = q_dim (q_type a) /\
    (inject_Z z * m == exact_sum o (inject_Z na * ma) (inject_Z nb * mb))%Q.
Proof.
  intros o est w a b na nb ma mb s O C Ia Ib Sa Sb D H.
  pose proof (compatible_same _ _ D) as Co.
  assert (B : both_convertible est w (RInt (arith_conv I64 I64)) a b na nb).
  { eapply q_addsub_int64; eauto; discriminate. }
  destruct (q_addsub_values _ _ _ _ _ _ _ _ _ _ _ _ O C Ia Ib Sa Sb Co B H (or_introl eq_refl)) as (m & z & S & M & I & V).
  exists m, z. split; auto. split; auto. split; [exact I|]. split; [|exact V].
  unfold q_addsub in H. cbv zeta in H. step H as t Et. step H as x Ex. step H as y Ey. step H as k Ek. step H as k' Ek'.
  inversion H; subst s. cbn [q_type].
  destruct (common_quantity_sized _ _ _ _ _ _ _ _ C Sa Sb Co Et) as (m' & _ & _ & _ & _ & _ & _ & _ & [X|X]); congruence.
Qed.

Lemma add_associative : forall est w a b c na nb nc ma mb mc s1 s2 s3 s4, consistent w ->
  integral a I64 na -> integral b I64 nb -> integral c I64 nc ->
  sized est (q_type a) ma -> sized est (q_type b) mb -> sized est (q_type c) mc ->
  q_dim (q_type a) = q_dim (q_type b) -> q_dim (q_type b) = q_dim (q_type c) ->
  q_add est w a b = Ok s1 -> q_add est w s1 c = Ok s2 -> q_add est w b c = Ok s3 -> q_add est w a s3 = Ok s4 ->
  forall v, (v == inject_Z na * ma + inject_Z nb * mb + inject_Z nc * mc)%Q -> denotes s2 v /\ denotes s4 v.
Proof.
  intros est w a b c na nb nc ma mb mc s1 s2 s3 s4 C Ia Ib Ic Sa Sb Sc D1 D2 H1 H2 H3 H4 v V.
  assert (O : sum_op OpAdd) by now left. unfold q_add in *.
  destruct (add64 _ _ _ _ _ _ _ _ _ _ O C Ia Ib Sa Sb D1 H1) as (m1 & z1 & S1 & _ & I1 & E1 & V1).
  destruct (add64 _ _ _ _ _ _ _ _ _ _ O C Ib Ic Sb Sc D2 H3) as (m3 & z3 & S3 & _ & I3 & E3 & V3).
  assert (X1 : q_dim (q_type s1) = q_dim (q_type c)) by congruence.
  assert (X2 : q_dim (q_type a) = q_dim (q_type s3)) by congruence.
  destruct (add64 _ _ _ _ _ _ _ _ _ _ O C I1 Ic S1 Sc X1 H2) as (m2 & z2 & S2 & _ & I2 & E2 & V2).
  destruct (add64 _ _ _ _ _ _ _ _ _ _ O C Ia I3 Sa S3 X2 H4) as (m4 & z4 & S4 & _ & I4 & E4 & V4).
  cbn [exact_sum] in *. split.
  - eapply denotes_intro; [apply I2|exact S2|]. rewrite V2, V1, V. reflexivity.
  - eapply denotes_intro; [apply I4|exact S4|]. rewrite V4, V3, V. ring.
Qed.

Lemma add_commutative : forall est w a b na nb ma mb s1 s2, consistent w ->
  integral a I64 na -> integral b I64 nb -> sized est (q_type a) ma -> sized est (q_type b) mb ->
  q_dim (q_type a) = q_dim (q_type b) ->
  q_add est w a b = Ok s1 -> q_add est w b a = Ok s2 -> s1 = s2.
Proof.
  intros est w a b na nb ma mb s1 s2 C Ia Ib Sa Sb D H1 H2. assert (O : sum_op OpAdd) by now left. unfold q_add in *.
  destruct (add64 _ _ _ _ _ _ _ _ _ _ O C Ia Ib Sa Sb D H1) as (m1 & z1 & S1 & M1 & I1 & E1 & V1).
  destruct (add64 _ _ _ _ _ _ _ _ _ _ O C Ib Ia Sb Sa (eq_sym D) H2) as (m2 & z2 & S2 & M2 & I2 & E2 & V2).
  assert (T : q_type s1 = q_type s2).
  { unfold q_addsub in H1, H2. cbv zeta in H1, H2. step H1 as t Et. step H2 as t' Et'.
    step H1 as x Ex. step H1 as y Ey. step H1 as k Ek. step H1 as k' Ek'. inversion H1; subst s1.
    step H2 as x2 Ex2. step H2 as y2 Ey2. step H2 as k2 Ek2. step H2 as k2' Ek2'. inversion H2; subst s2. cbn [q_type].
    destruct Ia as (Ra & _), Ib as (Rb & _). rewrite Ra, Rb in *.
    eapply common_quantity_sym; [exact D|apply Sa|apply Sb|exact Et|exact Et']. }
  destruct I1 as (_ & N1 & _), I2 as (_ & N2 & _). destruct s1 as [t1 n1], s2 as [t2 n2]. cbn [q_type q_num] in *. subst t2 n1 n2.
  f_equal. f_equal. pose proof (sized_unique _ _ _ _ S1 S2) as EM. pose proof (sized_pos _ _ _ S1) as P.
  cbn [exact_sum] in *. rewrite <- EM in V2.
  assert (X : (inject_Z z1 * m1 == inject_Z z2 * m1)%Q) by (rewrite V1, V2; ring).
  apply Qmult_inj_r in X; [|lra]. now apply (proj1 (inject_Z_injective _ _)).
Qed.

(** ** Histories on plain numbers *)

Lemma run_plain : forall est l q q', q_run est q l = Ok q' ->
  q_type q' = q_type q /\
  exists ops, Forall2 (plain est (q_type q)) l ops /\ plain_run (q_rep (q_type q)) (q_num q) ops = Ok (q_num q').
Proof.
  intros est l. induction l as [|a l IH]; intros q q' H; simpl in H.
  - inversion H; subst. split; auto. exists []. split; [constructor|reflexivity].
  - step H as q1 E1. destruct (IH _ _ H) as (T & ops & F & P).
    assert (X : q_type q1 = q_type q /\ exists o r v, plain est (q_type q) a (o, r, v) /\
      n_assign o (q_rep (q_type q)) r (q_num q) v = Ok (q_num q1)).
    { unfold q_act in E1. cbv zeta in E1. step E1 as n En. inversion E1; subst q1. cbn [q_type q_num]. split; auto.
      destruct a as [| |b|b|b|r v|r v|r v].
      - do 3 eexists. split; [constructor|exact En].
      - do 3 eexists. split; [constructor|exact En].
      - step En as x Ex. do 3 eexists. split; [apply plain_add with (x := x)|exact En]. unfold q_to. rewrite Ex. reflexivity.
      - step En as x Ex. do 3 eexists. split; [apply plain_sub with (x := x)|exact En]. unfold q_to. rewrite Ex. reflexivity.
      - step En as c Ec. step En as x Ex. do 3 eexists. split; [apply plain_rem with (x := x)|exact En]. unfold q_to. rewrite Ex. reflexivity.
      - do 3 eexists. split; [constructor|exact En].
      - do 3 eexists. split; [constructor|exact En].
      - step En as c Ec. do 3 eexists. split; [constructor|exact En]. }
    destruct X as (T1 & o & r & v & Pl & As). split; [congruence|]. rewrite T1 in F, P.
    exists ((o, r, v) :: ops). split; [constructor; auto|]. cbn [plain_run]. rewrite As. exact P.
Qed.
