(** Proofs about quantity points. *)

From Coq Require Import ZArith QArith Qpower Qabs String List Bool Lia Lqa.
From Verif Require Import Outcome CInt Ratio SpecRatio QTen Root Unit Downcast Dim DimOp Equivalent SpecDim SpecUnit
  DimOpProofs EquivProofs Rep IntProofs Reference QuantityCast CommonQuantity Quantity SpecQuantity CastProofs
  QuantityProofs QuantityProofs2 QuantityProofs3 QuantityProofs4 QuantityProofs5 Point Kind PointKind SpecPoint.
Import ListNotations.
Local Open Scope Z_scope.
Local Open Scope res_scope.

(** ** Origins *)

Lemma rebinds_to_iff : forall rb o t, o_dim o <> o_dim t -> (rebinds_to rb o t = true <-> names rb o t).
Proof.
  intros rb o t D. unfold rebinds_to, rebindable, rebind.
  destruct (dimension_eq_dec (o_dim o) (o_dim t)) as [X|X]; [contradiction|clear X].
  destruct o as [d|n d]; cbn [names].
  - cbn [o_dim]. destruct (dimension_eq_dec (o_dim t) (o_dim t)); [|contradiction].
    destruct (origin_eq_dec t (ODynamic (o_dim t))); cbn; split; congruence.
  - destruct (rb n d (o_dim t)) as [o'|]; [|split; discriminate].
    destruct (dimension_eq_dec (o_dim t) (o_dim o')) as [E|E].
    + destruct (origin_eq_dec t o'); cbn; split; congruence.
    + cbn. split; [discriminate|]. intros H. inversion H. subst. contradiction.
Qed.

Lemma rebinds_to_same : forall rb o t, o_dim o = o_dim t -> rebinds_to rb o t = true -> t = o.
Proof.
  intros rb o t D. unfold rebinds_to, rebindable, rebind.
  destruct (dimension_eq_dec (o_dim o) (o_dim t)); [|contradiction].
  destruct (origin_eq_dec t o); auto. rewrite andb_false_r. discriminate.
Qed.

Lemma origin_equivalent_iff : forall rb a b, origin_equivalent rb a b = true <-> one_origin rb a b.
Proof.
  intros rb a b. unfold origin_equivalent, one_origin. destruct (origin_eq_dec a b) as [E|E]; [tauto|].
  destruct (dimension_eq_dec (o_dim a) (o_dim b)) as [D|D].
  - split.
    + intros H. apply andb_prop in H. destruct H as [H _]. apply andb_prop in H. destruct H as [H _].
      apply rebinds_to_same in H; auto.
    + intros [H|(H & _)]; contradiction.
  - rewrite !andb_true_iff, rebinds_to_iff, rebinds_to_iff; auto. split; [tauto|]. intros [H|H]; [contradiction|tauto].
Qed.

Lemma one_origin_sym : forall rb a b, one_origin rb a b -> one_origin rb b a.
Proof.
  intros rb a b [E|(D & X & N1 & N2)]; [now left|right]. split; [congruence|].
  split; [now rewrite (proj1 (proj2 dim_equivalent_equivalence))|auto].
Qed.
Lemma origin_equivalent_sym : forall rb a b, origin_equivalent rb a b = origin_equivalent rb b a.
Proof.
  intros. apply eq_true_iff_eq. rewrite !origin_equivalent_iff. split; apply one_origin_sym.
Qed.
Lemma one_origin_trans : forall rb, usual rb -> forall a b c, one_origin rb a b -> one_origin rb b c -> one_origin rb a c.
Proof.
  intros rb U a b c [E|(D1 & X1 & N1 & M1)]; [now subst|]. intros [E|(D2 & X2 & N2 & M2)]; [right; now subst|].
  assert (X : dim_equivalent (o_dim a) (o_dim c) = true) by (exact (proj2 (proj2 dim_equivalent_equivalence) _ _ _ X1 X2)).
  assert (K : (exists n, a = OUser n (o_dim a) /\ b = OUser n (o_dim b) /\ c = OUser n (o_dim c) /\ forall d e, rb n d e = Some (OUser n e)) \/
              (a = ODynamic (o_dim a) /\ b = ODynamic (o_dim b) /\ c = ODynamic (o_dim c))).
  { destruct b as [d|n d].
    - right. cbn [names o_dim] in *. destruct a as [da|na da]; cbn [o_dim names] in *; [auto|]. discriminate.
    - left. exists n. cbn [names o_dim] in *.
      destruct (U n) as [F|F]; [rewrite F in *; discriminate|]. rewrite F in M1, N2. inversion M1; inversion N2. cbn. auto. }
  destruct (dimension_eq_dec (o_dim a) (o_dim c)) as [E|E].
  - left. destruct K as [(n & Ka & _ & Kc & _)|(Ka & _ & Kc)]; rewrite Ka, Kc; cbn [o_dim]; congruence.
  - right. split; auto. split; auto. destruct K as [(n & Ka & _ & Kc & F)|(Ka & _ & Kc)]; rewrite Ka, Kc; cbn [names o_dim]; auto.
Qed.

Lemma rebind_same : forall rb o, rebind rb o (o_dim o) = Some o.
Proof. intros. unfold rebind. destruct (dimension_eq_dec (o_dim o) (o_dim o)); congruence. Qed.

(** ** Availability of the operations *)

Lemma diff_iff : forall rb est w a b d, p_diff rb est w a b = Ok d <->
  one_origin rb (p_origin (pt_type a)) (p_origin (pt_type b)) /\ q_sub est w (relative a) (relative b) = Ok d.
Proof.
  intros rb est w a b d. unfold p_diff. rewrite <- origin_equivalent_iff, origin_equivalent_sym.
  destruct (origin_equivalent rb (p_origin (pt_type a)) (p_origin (pt_type b))); cbn; split; try tauto; try discriminate.
  intros []; discriminate.
Qed.
Lemma compare_iff : forall rb est w a b d, p_compare rb est w a b = Ok d <->
  one_origin rb (p_origin (pt_type a)) (p_origin (pt_type b)) /\ q_compare est w (relative a) (relative b) = Ok d.
Proof.
  intros rb est w a b d. unfold p_compare. rewrite <- origin_equivalent_iff, origin_equivalent_sym.
  destruct (origin_equivalent rb (p_origin (pt_type a)) (p_origin (pt_type b))); cbn; split; try tauto; try discriminate.
  intros []; discriminate.
Qed.
Lemma eqb_iff : forall rb est w a b d, p_eqb rb est w a b = Ok d <->
  one_origin rb (p_origin (pt_type a)) (p_origin (pt_type b)) /\ q_eqb est w (relative a) (relative b) = Ok d.
Proof.
  intros rb est w a b d. unfold p_eqb. rewrite <- origin_equivalent_iff, origin_equivalent_sym.
  destruct (origin_equivalent rb (p_origin (pt_type a)) (p_origin (pt_type b))); cbn; split; try tauto; try discriminate.
  intros []; discriminate.
Qed.
Lemma to_iff : forall rb est t a r, p_to rb est t a = Ok r <->
  one_origin rb (p_origin (pt_type a)) (p_origin t) /\ pt_type r = t /\ q_to est (p_qtype t) (relative a) = Ok (relative r).
Proof.
  intros rb est t a r. unfold p_to, p_make, q_to. rewrite <- origin_equivalent_iff.
  destruct (origin_equivalent rb (p_origin (pt_type a)) (p_origin t)); cbn; [|split; [discriminate|intros []; discriminate]].
  destruct (q_convert est (p_qtype (pt_type a)) (p_qtype t) (pt_num a)); cbn; split; try discriminate; try (intros (_ & _ & ?); discriminate).
  - intros H; inversion H; subst. cbn. auto.
  - intros (_ & <- & H). inversion H. unfold relative. destruct r; auto.
Qed.

(** ** Adding a vector *)

Lemma q_convert_same : forall est t n, q_convert est t t n = Ok n.
Proof. intros. unfold q_convert. destruct (qtype_eq_dec t t); congruence. Qed.

Lemma p_addsub_quantity : forall o rb est w p v s, p_addsub o rb est w p v = Ok s ->
  exists q, q_addsub o est w (relative p) v = Ok q /\
    rebind rb (p_origin (pt_type p)) (q_dim (q_type q)) = Some (p_origin (pt_type s)) /\
    p_unit (pt_type s) = q_unit (q_type q) /\ p_rep (pt_type s) = q_rep (q_type q) /\
    (o_dim (p_origin (pt_type s)) = q_dim (q_type q) -> relative s = q).
Proof.
  intros o rb est w p v s H. unfold p_addsub in H. step H as q Eq. exists q. split; auto.
  destruct (rebind rb (p_origin (pt_type p)) (q_dim (q_type q))) as [orig|]; [|discriminate].
  step H as t Et. unfold mk_ptype in Et. step Et as u Eu. inversion Et; subst t. unfold p_make in H. step H as n En.
  inversion H; subst s. cbn [pt_type p_origin p_unit p_rep]. repeat (split; auto).
  intros D. unfold relative. cbn [pt_type pt_num].
  assert (T : p_qtype (PType orig (q_unit (q_type q)) (q_rep (q_type q))) = q_type q).
  { unfold p_qtype. cbn. rewrite D. now destruct (q_type q). }
  rewrite T in *. rewrite q_convert_same in En. inversion En. now destruct q.
Qed.

Section Laws.
Variables (rb : rebinding) (est : estimate) (w : world) (C : consistent w).

Lemma valued_sum : forall o a b x y s, sum_op o -> valued est a x -> valued est b y ->
  q_dim (q_type a) = q_dim (q_type b) -> q_addsub o est w a b = Ok s ->
  valued est s (exact_sum o x y) /\ q_dim (q_type s) = q_dim (q_type a).
Proof.
  intros o a b x y s O (na & ma & Ia & Sa & Va) (nb & mb & Ib & Sb & Vb) D H.
  destruct (add64 _ _ _ _ _ _ _ _ _ _ O C Ia Ib Sa Sb D H) as (m & z & S & _ & I & E & V).
  split; auto. exists z, m. split; auto. split; auto. rewrite V. destruct o; cbn [exact_sum]; rewrite Va, Vb; reflexivity.
Qed.

Lemma located_sum : forall o p v x y s, sum_op o -> located est p x -> valued est v y ->
  q_dim (q_type v) = o_dim (p_origin (pt_type p)) -> p_addsub o rb est w p v = Ok s ->
  located est s (exact_sum o x y) /\ p_origin (pt_type s) = p_origin (pt_type p).
Proof.
  intros o p v x y s O Lp Vv D H. destruct (p_addsub_quantity _ _ _ _ _ _ _ H) as (q & Hq & R & U & Re & E).
  destruct (valued_sum _ _ _ _ _ _ O Lp Vv (eq_sym D) Hq) as [V Dq].
  cbn [relative q_type p_qtype q_dim] in Dq. rewrite Dq, rebind_same in R. inversion R as [R'].
  split; auto. unfold located. rewrite E; [exact V|]. rewrite <- R'. congruence.
Qed.

Lemma located_diff : forall a b x y d, located est a x -> located est b y ->
  o_dim (p_origin (pt_type a)) = o_dim (p_origin (pt_type b)) -> p_diff rb est w a b = Ok d ->
  valued est d (x - y) /\ q_dim (q_type d) = o_dim (p_origin (pt_type a)).
Proof.
  intros a b x y d La Lb D H. apply diff_iff in H. destruct H as [_ H]. unfold q_sub in H.
  destruct (valued_sum OpSub _ _ _ _ _ (or_intror eq_refl) La Lb D H) as [V E]. split; auto.
Qed.

Lemma valued_ext : forall q x y, (x == y)%Q -> valued est q x -> valued est q y.
Proof. intros q x y E (n & m & I & S & V). exists n, m. split; auto. split; auto. now rewrite <- E. Qed.

Lemma valued_equal : forall a b x e, valued est a x -> valued est b x -> q_dim (q_type a) = q_dim (q_type b) ->
  q_eqb est w a b = Ok e -> e = true.
Proof.
  intros a b x e Va Vb D H. apply (valued_eqb est w C _ _ _ _ _ Va Vb (compatible_same _ _ D)) in H. apply H. reflexivity.
Qed.

Lemma sum_minus_point : forall p v x y s d e, located est p x -> valued est v y ->
  q_dim (q_type v) = o_dim (p_origin (pt_type p)) ->
  p_add rb est w p v = Ok s -> p_diff rb est w s p = Ok d -> q_eqb est w d v = Ok e -> e = true.
Proof.
  intros p v x y s d e Lp Vv D Hs Hd He. unfold p_add in Hs.
  destruct (located_sum _ _ _ _ _ _ (or_introl eq_refl) Lp Vv D Hs) as [Ls Os]. cbn [exact_sum] in Ls.
  assert (D' : o_dim (p_origin (pt_type s)) = o_dim (p_origin (pt_type p))) by congruence.
  destruct (located_diff _ _ _ _ _ Ls Lp D' Hd) as [Vd Dd].
  eapply valued_equal; [|exact Vv| |exact He]; [|congruence]. eapply valued_ext; [|exact Vd]. ring.
Qed.

Lemma point_plus_difference : forall p q x y d r e, located est p x -> located est q y ->
  o_dim (p_origin (pt_type p)) = o_dim (p_origin (pt_type q)) ->
  p_diff rb est w q p = Ok d -> p_add rb est w p d = Ok r -> p_eqb rb est w r q = Ok e -> e = true.
Proof.
  intros p q x y d r e Lp Lq D Hd Hr He. unfold p_add in Hr.
  destruct (located_diff _ _ _ _ _ Lq Lp (eq_sym D) Hd) as [Vd Dd].
  assert (D' : q_dim (q_type d) = o_dim (p_origin (pt_type p))) by congruence.
  destruct (located_sum _ _ _ _ _ _ (or_introl eq_refl) Lp Vd D' Hr) as [Lr Or]. cbn [exact_sum] in Lr.
  apply eqb_iff in He. destruct He as [_ He]. eapply valued_equal; [|exact Lq| |exact He].
  - eapply valued_ext; [|exact Lr]. ring.
  - cbn [relative q_type p_qtype q_dim]. congruence.
Qed.

Lemma point_associative : forall p u v x y z s1 s2 uv s3 e, located est p x -> valued est u y -> valued est v z ->
  q_dim (q_type u) = o_dim (p_origin (pt_type p)) -> q_dim (q_type v) = o_dim (p_origin (pt_type p)) ->
  p_add rb est w p u = Ok s1 -> p_add rb est w s1 v = Ok s2 ->
  q_add est w u v = Ok uv -> p_add rb est w p uv = Ok s3 -> p_eqb rb est w s2 s3 = Ok e -> e = true.
Proof.
  intros p u v x y z s1 s2 uv s3 e Lp Vu Vv Du Dv H1 H2 Huv H3 He. unfold p_add, q_add in *.
  assert (O : sum_op OpAdd) by now left.
  destruct (located_sum _ _ _ _ _ _ O Lp Vu Du H1) as [L1 O1].
  assert (D1 : q_dim (q_type v) = o_dim (p_origin (pt_type s1))) by congruence.
  destruct (located_sum _ _ _ _ _ _ O L1 Vv D1 H2) as [L2 O2].
  destruct (valued_sum _ _ _ _ _ _ O Vu Vv (eq_trans Du (eq_sym Dv)) Huv) as [Vuv Duv].
  assert (D3 : q_dim (q_type uv) = o_dim (p_origin (pt_type p))) by congruence.
  destruct (located_sum _ _ _ _ _ _ O Lp Vuv D3 H3) as [L3 O3]. cbn [exact_sum] in *.
  apply eqb_iff in He. destruct He as [_ He]. eapply valued_equal; [|exact L3| |exact He].
  - eapply valued_ext; [|exact L2]. ring.
  - cbn [relative q_type p_qtype q_dim]. congruence.
Qed.

Lemma valued_neg : forall v y n, valued est v y -> q_neg v = Ok n ->
  valued est n (- y) /\ q_type n = q_type v.
Proof.
  intros v y n (k & m & I & S & V) H.
  destruct (q_neg_values _ _ _ _ I eq_refl H) as (A & B & T).
  assert (E : q_type n = q_type v).
  { destruct I as (R & _), A as (R' & _). change (promote I64) with I64 in R'.
    destruct (q_type v), (q_type n); cbn in *; congruence. }
  split; auto. exists (- k), m. rewrite E. split; [exact A|]. split; auto. rewrite V, inject_Z_opp. ring.
Qed.

Lemma minus_is_plus_negated : forall p v x y a n b e, located est p x -> valued est v y ->
  q_dim (q_type v) = o_dim (p_origin (pt_type p)) ->
  p_sub rb est w p v = Ok a -> q_neg v = Ok n -> p_add rb est w p n = Ok b -> p_eqb rb est w a b = Ok e -> e = true.
Proof.
  intros p v x y a n b e Lp Vv D Ha Hn Hb He. unfold p_sub, p_add in *.
  destruct (located_sum _ _ _ _ _ _ (or_intror eq_refl) Lp Vv D Ha) as [La Oa].
  destruct (valued_neg _ _ _ Vv Hn) as [Vn Tn]. rewrite <- Tn in D.
  destruct (located_sum _ _ _ _ _ _ (or_introl eq_refl) Lp Vn D Hb) as [Lb Ob]. cbn [exact_sum] in *.
  apply eqb_iff in He. destruct He as [_ He]. eapply valued_equal; [|exact Lb| |exact He].
  - eapply valued_ext; [|exact La]. ring.
  - cbn [relative q_type p_qtype q_dim]. congruence.
Qed.

Lemma located_compare : forall a b x y c, located est a x -> located est b y ->
  compatible (p_qtype (pt_type a)) (p_qtype (pt_type b)) -> p_compare rb est w a b = Ok c -> c = Some (x ?= y)%Q.
Proof.
  intros a b x y c La Lb Co H. apply compare_iff in H. destruct H as [_ H].
  exact (valued_compare est w C _ _ _ _ _ La Lb Co H).
Qed.
Lemma located_eqb : forall a b x y c, located est a x -> located est b y ->
  compatible (p_qtype (pt_type a)) (p_qtype (pt_type b)) -> p_eqb rb est w a b = Ok c -> (c = true <-> (x == y)%Q).
Proof.
  intros a b x y c La Lb Co H. apply eqb_iff in H. destruct H as [_ H].
  exact (valued_eqb est w C _ _ _ _ _ La Lb Co H).
Qed.
End Laws.

(** ** Any integral representation, equivalent dimensions *)

Lemma usual_rebind : forall rb, usual rb -> forall o d o', rebind rb o d = Some o' -> o_dim o' = d.
Proof.
  intros rb U o d o' H. unfold rebind in H. destruct (dimension_eq_dec (o_dim o) d) as [X|X]; [congruence|].
  destruct o as [e|n e]; [inversion H; reflexivity|]. destruct (U n) as [F|F]; rewrite F in H; [discriminate|].
  inversion H; reflexivity.
Qed.
Lemma usual_one_origin : forall rb, usual rb -> forall o d o', rebind rb o d = Some o' ->
  dim_equivalent d (o_dim o) = true -> one_origin rb o o'.
Proof.
  intros rb U o d o' H E. unfold rebind in H. destruct (dimension_eq_dec (o_dim o) d) as [D|D]; [left; congruence|right].
  rewrite (proj1 (proj2 dim_equivalent_equivalence)) in E.
  destruct o as [e|n e].
  - inversion H; subst o'. cbn [o_dim names] in *. auto.
  - destruct (U n) as [F|F]; rewrite F in H; [discriminate|]. inversion H; subst o'. cbn [o_dim names] in *. auto.
Qed.

Lemma p_addsub_values : forall o rb est w p v ia ib na nb ma mb s, sum_op o -> usual rb -> consistent w ->
  integral (relative p) ia na -> integral v ib nb -> sized est (p_qtype (pt_type p)) ma -> sized est (q_type v) mb ->
  compatible (p_qtype (pt_type p)) (q_type v) ->
  both_convertible est w (RInt (arith_conv ia ib)) (relative p) v na nb ->
  p_addsub o rb est w p v = Ok s ->
  (isigned (arith_conv ia ib) = true \/
   forall m, common_magnitude ma mb m ->
   value_fits (RInt (arith_conv ia ib)) (exact_sum o (inject_Z na * ma) (inject_Z nb * mb) / m)) ->
  one_origin rb (p_origin (pt_type p)) (p_origin (pt_type s)) /\
  exists m z, sized est (p_qtype (pt_type s)) m /\ common_magnitude ma mb m /\ integral (relative s) (arith_conv ia ib) z /\
    (inject_Z z * m == exact_sum o (inject_Z na * ma) (inject_Z nb * mb))%Q.
Proof.
  intros o rb est w p v ia ib na nb ma mb s O U C Ip Iv Sp Sv Co B H F.
  destruct (p_addsub_quantity _ _ _ _ _ _ _ H) as (q & Hq & R & _ & _ & E).
  pose proof (usual_rebind _ U _ _ _ R) as D. specialize (E D).
  destruct (q_addsub_values o est w (relative p) v _ _ _ _ _ _ _ O C Ip Iv Sp Sv Co B Hq F) as (m & z & S & M & I & V).
  split.
  - eapply usual_one_origin; eauto. unfold q_addsub in Hq. cbv zeta in Hq. step Hq as t Et.
    destruct (common_quantity_sized _ _ _ _ _ _ _ _ C Sp Sv Co Et) as (m' & _ & _ & _ & _ & _ & X & _).
    step Hq as x Ex. step Hq as y Ey. step Hq as k Ek. step Hq as k' Ek'. inversion Hq; subst q. exact X.
  - exists m, z. rewrite <- E in S, I. auto.
Qed.

(** ** Histories *)

Lemma p_act_quantity : forall est p a p', p_act est p a = Ok p' ->
  pt_type p' = pt_type p /\ q_act est (relative p) (p_action a) = Ok (relative p').
Proof.
  intros est p a p' H. unfold p_act in H. step H as s Es. inversion H; subst p'. split; auto. rewrite Es. f_equal.
  unfold q_act in Es. cbv zeta in Es. step Es as n En. inversion Es; subst s. reflexivity.
Qed.
Lemma p_run_quantity : forall est l p p', p_run est p l = Ok p' ->
  pt_type p' = pt_type p /\ q_run est (relative p) (map p_action l) = Ok (relative p').
Proof.
  intros est l. induction l as [|a l IH]; intros p p' H; simpl in H.
  - inversion H; subst. auto.
  - step H as p1 E1. destruct (p_act_quantity _ _ _ _ E1) as [T1 Q1]. destruct (IH _ _ H) as [T Q].
    split; [congruence|]. cbn [map q_run]. rewrite Q1. exact Q.
Qed.

(** ** Casts *)

Lemma point_cast_quantity : forall est w c p r, point_cast est w c p = Ok r ->
  q_cast est w c (relative p) = Ok (relative r) /\ p_origin (pt_type r) = ODynamic (q_dim (q_type (relative r))).
Proof.
  intros est w c p r H. unfold point_cast in H. step H as q Eq. inversion H; subst r. rewrite Eq.
  destruct q as [[d u rr] n]. auto.
Qed.
Lemma point_cast_to_quantity : forall rb est t p r, point_cast_to rb est t p = Ok r ->
  one_origin rb (p_origin (pt_type p)) (p_origin t) /\
  quantity_cast est (p_qtype (pt_type p)) (p_qtype t) (pt_num p) = Ok (pt_num r) /\
  p_qtype (pt_type r) = p_qtype t /\ p_origin (pt_type r) = ODynamic (o_dim (p_origin t)).
Proof.
  intros rb est t p r H. unfold point_cast_to in H. step H as u Eu. step H as n En. inversion H; subst r. cbn.
  split; [|auto]. apply origin_equivalent_iff. unfold constrained in Eu. destruct (origin_equivalent _ _ _); [auto|discriminate].
Qed.
Lemma point_cast_dim_unit_quantity : forall rb est d u p r, point_cast_dim_unit rb est d u p = Ok r ->
  exists t, p_qtype t = QType d u (p_rep (pt_type p)) /\ point_cast_to rb est t p = Ok r.
Proof.
  intros rb est d u p r H. unfold point_cast_dim_unit in H. cbv zeta in H. step H as x Ex.
  unfold constrained in Ex. destruct (dim_equivalent d (o_dim (p_origin (pt_type p))) && unit_of u d &&
    rebindable rb (p_origin (pt_type p)) d) eqn:E; [|discriminate]. apply andb_prop in E. destruct E as [_ E].
  unfold rebindable in E. destruct (rebind rb (p_origin (pt_type p)) d) as [o|]; [|discriminate].
  destruct (dimension_eq_dec d (o_dim o)) as [D|D]; [|discriminate].
  step H as t Et. unfold mk_ptype in Et. step Et as y Ey. inversion Et; subst t. exists (PType o u (p_rep (pt_type p))).
  split; [|exact H]. unfold p_qtype. cbn. now rewrite D.
Qed.

Lemma user_not_dynamic : forall rb n d e, ~ one_origin rb (ODynamic e) (OUser n d).
Proof. intros rb n d e [H|(_ & _ & H & _)]; discriminate. Qed.

(** ** Availability of sums *)

Lemma p_addsub_available : forall o rb est w p v q, q_addsub o est w (relative p) v = Ok q ->
  q_dim (q_type q) = o_dim (p_origin (pt_type p)) ->
  exists s, p_addsub o rb est w p v = Ok s /\ relative s = q /\ p_origin (pt_type s) = p_origin (pt_type p).
Proof.
  intros o rb est w p v q H D.
  assert (U : unit_of (q_unit (q_type q)) (q_dim (q_type q)) = true).
  { unfold q_addsub in H. cbv zeta in H. step H as t Et. step H as x Ex. step H as y Ey. step H as k Ek.
    step H as k' Ek'. inversion H; subst q. cbn [q_type]. unfold common_quantity in Et. step Et as u Eu. step Et as du Edu.
    unfold mk_qtype in Et. step Et as z Ez. inversion Et; subst t. unfold constrained in Ez. cbn [q_unit q_dim].
    match type of Ez with context[unit_of ?a ?b] => destruct (unit_of a b) eqn:E; [reflexivity|discriminate] end. }
  assert (T : p_qtype (PType (p_origin (pt_type p)) (q_unit (q_type q)) (q_rep (q_type q))) = q_type q).
  { unfold p_qtype. cbn. rewrite <- D. now destruct (q_type q). }
  exists (Point (PType (p_origin (pt_type p)) (q_unit (q_type q)) (q_rep (q_type q))) (q_num q)). split; [|split].
  - unfold p_addsub. rewrite H. cbn [bind]. rewrite D, rebind_same. unfold mk_ptype, mk_qtype. rewrite <- D, U. cbn [constrained bind].
    unfold p_make. rewrite T, q_convert_same. reflexivity.
  - unfold relative. cbn [pt_type pt_num]. rewrite T. now destruct q.
  - reflexivity.
Qed.
