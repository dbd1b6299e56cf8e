(** Theorems about quantity points, kinds and points of kinds (C49-C53). *)

From Coq Require Import ZArith QArith String List Bool Lia Lqa.
From Verif Require Import Outcome CInt Pow Root Ratio SpecRatio FixedString Unit Downcast Dim DimOp
  Equivalent SpecDim SpecUnit Rep QuantityCast CommonQuantity Quantity SpecQuantity DimOpProofs MagnitudeProofs
  CastProofs QuantityProofs QuantityProofs2 QuantityProofs3 QuantityProofs4 QuantityProofs5 Samples
  Point Kind PointKind SpecPoint PointProofs KindProofs Props_Quantity.
Import ListNotations.
Local Open Scope string_scope.
Local Open Scope list_scope.
Local Open Scope Z_scope.
Local Open Scope res_scope.

(** Types used in the examples: two declared origins of lengths, no [rebind]. *)
Definition no_rebind : rebinding := fun _ _ _ => None.
Definition sea_level : origin := OUser "mean_sea_level" (DBase dim_L).
Definition ground_level : origin := OUser "ground_level" (DBase dim_L).
Definition at_height (o : origin) (u : cunit) (n : Z) : point := Point (PType o u (RInt I64)) (NInt n).
Definition len (u : cunit) (n : Z) : quantity := Quantity (lengths u I64) (NInt n).
Lemma valued_length : forall est u n, unit_good u -> u_ref u = "metre" -> in_range I64 n = true ->
  valued est (len u n) (inject_Z n * rval (u_ratio u)).
Proof.
  intros est u n G R I. exists n, (rval (u_ratio u)). split; [repeat split; auto|]. split; [now apply sized_length|]. reflexivity.
Qed.
Lemma no_rebind_usual : usual no_rebind.
Proof. intros n. left. reflexivity. Qed.

(** * C49: affine laws *)

(** Signed 64-bit points and vectors of one dimension, any units: wherever the sum is
    defined it is the exact one, and the origin is kept. *)
Theorem C49_sum : forall rb est w, consistent w -> forall o p v x y s, sum_op o -> located est p x -> valued est v y ->
  q_dim (q_type v) = o_dim (p_origin (pt_type p)) -> p_addsub o rb est w p v = Ok s ->
  located est s (exact_sum o x y) /\ p_origin (pt_type s) = p_origin (pt_type p).
Proof. exact located_sum. Qed.
Print Assumptions C49_sum.

(** The sum is defined whenever the sum of the relative quantity and the vector is. *)
Theorem C49_sum_defined : forall o rb est w p v q, q_addsub o est w (relative p) v = Ok q ->
  q_dim (q_type q) = o_dim (p_origin (pt_type p)) ->
  exists s, p_addsub o rb est w p v = Ok s /\ relative s = q /\ p_origin (pt_type s) = p_origin (pt_type p).
Proof. exact p_addsub_available. Qed.
Print Assumptions C49_sum_defined.

(** [(p + v) - p == v]. *)
Theorem C49_sum_minus_point : forall rb est w, consistent w -> forall p v x y s d e,
  located est p x -> valued est v y -> q_dim (q_type v) = o_dim (p_origin (pt_type p)) ->
  p_add rb est w p v = Ok s -> p_diff rb est w s p = Ok d -> q_eqb est w d v = Ok e -> e = true.
Proof. exact sum_minus_point. Qed.
Print Assumptions C49_sum_minus_point.

(** [p + (q - p) == q]. *)
Theorem C49_point_plus_difference : forall rb est w, consistent w -> forall p q x y d r e,
  located est p x -> located est q y -> o_dim (p_origin (pt_type p)) = o_dim (p_origin (pt_type q)) ->
  p_diff rb est w q p = Ok d -> p_add rb est w p d = Ok r -> p_eqb rb est w r q = Ok e -> e = true.
Proof. exact point_plus_difference. Qed.
Print Assumptions C49_point_plus_difference.

(** [(p + u) + v == p + (u + v)]. *)
Theorem C49_associative : forall rb est w, consistent w -> forall p u v x y z s1 s2 uv s3 e,
  located est p x -> valued est u y -> valued est v z ->
  q_dim (q_type u) = o_dim (p_origin (pt_type p)) -> q_dim (q_type v) = o_dim (p_origin (pt_type p)) ->
  p_add rb est w p u = Ok s1 -> p_add rb est w s1 v = Ok s2 ->
  q_add est w u v = Ok uv -> p_add rb est w p uv = Ok s3 -> p_eqb rb est w s2 s3 = Ok e -> e = true.
Proof. exact point_associative. Qed.
Print Assumptions C49_associative.

(** [p - v == p + (-v)]. *)
Theorem C49_minus_is_plus_negated : forall rb est w, consistent w -> forall p v x y a n b e,
  located est p x -> valued est v y -> q_dim (q_type v) = o_dim (p_origin (pt_type p)) ->
  p_sub rb est w p v = Ok a -> q_neg v = Ok n -> p_add rb est w p n = Ok b -> p_eqb rb est w a b = Ok e -> e = true.
Proof. exact minus_is_plus_negated. Qed.
Print Assumptions C49_minus_is_plus_negated.

(** [v + p] is [p + v]. *)
Theorem C49_vector_first : forall rb est w q p, q_plus_point rb est w q p = p_add rb est w p q.
Proof. reflexivity. Qed.
Print Assumptions C49_vector_first.

(** Order and equality are those of the distances from the origin. *)
Theorem C49_order : forall rb est w, consistent w -> forall a b x y c, located est a x -> located est b y ->
  compatible (p_qtype (pt_type a)) (p_qtype (pt_type b)) -> p_compare rb est w a b = Ok c -> c = Some (x ?= y)%Q.
Proof. exact located_compare. Qed.
Print Assumptions C49_order.
Theorem C49_equality : forall rb est w, consistent w -> forall a b x y c, located est a x -> located est b y ->
  compatible (p_qtype (pt_type a)) (p_qtype (pt_type b)) -> p_eqb rb est w a b = Ok c -> (c = true <-> (x == y)%Q).
Proof. exact located_eqb. Qed.
Print Assumptions C49_equality.

(** Any integral representations, equivalent dimensions. *)
Theorem C49_sum_any_integral : forall o rb est w p v ia ib na nb ma mb s, sum_op o -> usual rb -> consistent w ->
  integral (relative p) ia na -> integral v ib nb -> sized est (p_qtype (pt_type p)) ma -> sized est (q_type v) mb ->
  compatible (p_qtype (pt_type p)) (q_type v) ->
  both_convertible est w (RInt (arith_conv ia ib)) (relative p) v na nb ->
  p_addsub o rb est w p v = Ok s ->
  (isigned (arith_conv ia ib) = true \/
   forall m, common_magnitude ma mb m ->
   value_fits (RInt (arith_conv ia ib)) (exact_sum o (inject_Z na * ma) (inject_Z nb * mb) / m)) ->
  one_origin rb (p_origin (pt_type p)) (p_origin (pt_type s)) /\
  exists m z, sized est (p_qtype (pt_type s)) m /\ common_magnitude ma mb m /\ integral (relative s) (arith_conv ia ib) z /\
    (inject_Z z * m == exact_sum o (inject_Z na * ma) (inject_Z nb * mb))%Q.
Proof. exact p_addsub_values. Qed.
Print Assumptions C49_sum_any_integral.

(** Histories of [+=], [-=], [++] and [--]: the type (and with it the origin) is kept and the
    distance follows the exact history. *)
Theorem C49_histories : forall est l p i n m v v', integral (relative p) i n -> sized est (p_qtype (pt_type p)) m ->
  (v == inject_Z n * m)%Q -> history est (p_qtype (pt_type p)) m v (map pq_action l) v' ->
  forall p', p_run est p l = Ok p' ->
  pt_type p' = pt_type p /\ exists n', integral (relative p') i n' /\ (v' == inject_Z n' * m)%Q.
Proof.
  intros est l p i n m v v' I S V H p' R. destruct (p_run_quantity _ _ _ _ R) as [T Q]. split; auto.
  exact (proj2 (run_history _ _ _ _ _ _ _ _ I S V H _ Q)).
Qed.
Print Assumptions C49_histories.

(** 3 km above sea level + 50 m; back; and -120 m with units of its own. *)
Example C49_ex : forall est,
  p_add no_rebind est empty_world (at_height sea_level kilometre 3) (len metre 50) =
    Ok (Point (PType sea_level (CUnit None [] one_r "metre" false None "no_prefix") (RInt I64)) (NInt 3050)) /\
  (exists s d, p_add no_rebind est empty_world (at_height sea_level kilometre 3) (len metre 50) = Ok s /\
     p_diff no_rebind est empty_world s (at_height sea_level kilometre 3) = Ok d /\
     q_eqb est empty_world d (len metre 50) = Ok true) /\
  p_compare no_rebind est empty_world (at_height sea_level kilometre 3) (at_height sea_level metre 3001) = Ok (Some Lt) /\
  p_run est (at_height sea_level metre 5) [PAdd (len kilometre 1); PInc; PSub (len metre 10)] =
    Ok (at_height sea_level metre 996).
Proof.
  intros est. split; [reflexivity|]. split; [|split; reflexivity].
  exists (Point (PType sea_level (CUnit None [] one_r "metre" false None "no_prefix") (RInt I64)) (NInt 3050)).
  exists (Quantity (QType (DBase dim_L) (CUnit None [] one_r "metre" false None "no_prefix") (RInt I64)) (NInt 50)).
  split; [|split]; reflexivity.
Qed.
Example C49_ex_hypotheses : forall est, consistent empty_world /\
  located est (at_height sea_level kilometre 3) (inject_Z 3 * rval (u_ratio kilometre)) /\
  valued est (len metre 50) (inject_Z 50 * rval (u_ratio metre)) /\
  q_dim (q_type (len metre 50)) = o_dim (p_origin (pt_type (at_height sea_level kilometre 3))).
Proof.
  intros est. destruct good_units as (Gm & Gk & _). split; [exact empty_consistent|].
  split; [now apply (valued_length est kilometre)|]. split; [now apply valued_length|]. reflexivity.
Qed.

(** * C50: points of different origins do not mix *)

(** Difference, comparison, equality and conversion exist exactly if the origins stand for
    one point and the operation on the relative quantities exists, and give its result. *)
Theorem C50_difference : forall rb est w a b d, p_diff rb est w a b = Ok d <->
  one_origin rb (p_origin (pt_type a)) (p_origin (pt_type b)) /\ q_sub est w (relative a) (relative b) = Ok d.
Proof. exact diff_iff. Qed.
Print Assumptions C50_difference.
Theorem C50_comparison : forall rb est w a b c, p_compare rb est w a b = Ok c <->
  one_origin rb (p_origin (pt_type a)) (p_origin (pt_type b)) /\ q_compare est w (relative a) (relative b) = Ok c.
Proof. exact compare_iff. Qed.
Print Assumptions C50_comparison.
Theorem C50_equality : forall rb est w a b c, p_eqb rb est w a b = Ok c <->
  one_origin rb (p_origin (pt_type a)) (p_origin (pt_type b)) /\ q_eqb est w (relative a) (relative b) = Ok c.
Proof. exact eqb_iff. Qed.
Print Assumptions C50_equality.
Theorem C50_conversion : forall rb est t a r, p_to rb est t a = Ok r <->
  one_origin rb (p_origin (pt_type a)) (p_origin t) /\ pt_type r = t /\ q_to est (p_qtype t) (relative a) = Ok (relative r).
Proof. exact to_iff. Qed.
Print Assumptions C50_conversion.

(** Points of different declared origins, or of a declared and a dynamic one, do not mix. *)
Theorem C50_names_differ : forall rb n1 n2 d1 d2, usual rb -> one_origin rb (OUser n1 d1) (OUser n2 d2) -> n1 = n2.
Proof.
  intros rb n1 n2 d1 d2 U [E|(_ & _ & H & _)]; [congruence|]. cbn [names o_dim] in H.
  destruct (U n1) as [F|F]; rewrite F in H; congruence.
Qed.
Print Assumptions C50_names_differ.
Theorem C50_declared_not_dynamic : forall rb n d e, ~ one_origin rb (ODynamic e) (OUser n d).
Proof. exact user_not_dynamic. Qed.
Print Assumptions C50_declared_not_dynamic.

(** Standing for one point is an equivalence relation. *)
Theorem C50_one_origin_equivalence : forall rb,
  (forall a, one_origin rb a a) /\ (forall a b, one_origin rb a b -> one_origin rb b a) /\
  (usual rb -> forall a b c, one_origin rb a b -> one_origin rb b c -> one_origin rb a c).
Proof. intros rb. split; [now left|]. split; [apply one_origin_sym|]. intros U. apply one_origin_trans. exact U. Qed.
Print Assumptions C50_one_origin_equivalence.

(** Adding or subtracting a vector keeps the origin: the type itself if the dimension is
    kept, else the origin that stands for the same point in the dimension of the sum. *)
Theorem C50_sum_keeps_origin : forall o rb est w p v s, usual rb -> p_addsub o rb est w p v = Ok s ->
  dim_equivalent (o_dim (p_origin (pt_type s))) (o_dim (p_origin (pt_type p))) = true ->
  one_origin rb (p_origin (pt_type p)) (p_origin (pt_type s)) /\
  (o_dim (p_origin (pt_type s)) = o_dim (p_origin (pt_type p)) -> p_origin (pt_type s) = p_origin (pt_type p)).
Proof.
  intros o rb est w p v s U H E. destruct (p_addsub_quantity _ _ _ _ _ _ _ H) as (q & _ & R & _).
  pose proof (usual_rebind _ U _ _ _ R) as D. split.
  - eapply usual_one_origin; eauto. now rewrite <- D.
  - intros D'. rewrite <- D, D', rebind_same in R. congruence.
Qed.
Print Assumptions C50_sum_keeps_origin.

(** Heights above sea level and above ground do not mix. *)
Example C50_ex : forall est,
  p_diff no_rebind est empty_world (at_height sea_level metre 5) (at_height ground_level metre 3) = IllFormed /\
  p_compare no_rebind est empty_world (at_height sea_level metre 5) (at_height (ODynamic (DBase dim_L)) metre 3) = IllFormed /\
  p_to no_rebind est (PType ground_level metre (RInt I64)) (at_height sea_level metre 5) = IllFormed /\
  p_to no_rebind est (PType sea_level metre (RInt I64)) (at_height sea_level kilometre 5) = Ok (at_height sea_level metre 5000).
Proof. intros est. repeat split; reflexivity. Qed.

(** An origin that is a template over the dimension spans systems. *)
Definition templated : rebinding := fun n _ e => Some (OUser n e).
Example C50_ex_template : usual templated /\
  one_origin templated (OUser "earth" (DBase dim_L)) (OUser "earth" (DBase cgs_L)) /\
  OUser "earth" (DBase dim_L) <> OUser "earth" (DBase cgs_L) /\
  ~ one_origin templated (OUser "earth" (DBase dim_L)) (OUser "earth" (DBase dim_T)).
Proof.
  split; [intros n; right; reflexivity|]. split; [|split].
  - right. split; [discriminate|]. split; [reflexivity|]. split; reflexivity.
  - discriminate.
  - intros [H|(_ & H & _)]; discriminate.
Qed.

(** * C51: casting a point *)

(** The distance from the origin is cast as a quantity. *)
Theorem C51_relative_value : forall est w c p r, point_cast est w c p = Ok r -> q_cast est w c (relative p) = Ok (relative r).
Proof. intros est w c p r H. exact (proj1 (point_cast_quantity _ _ _ _ _ H)). Qed.
Print Assumptions C51_relative_value.
Theorem C51_relative_value_to_type : forall rb est t p r, point_cast_to rb est t p = Ok r ->
  one_origin rb (p_origin (pt_type p)) (p_origin t) /\ p_qtype (pt_type r) = p_qtype t /\
  quantity_cast est (p_qtype (pt_type p)) (p_qtype t) (pt_num p) = Ok (pt_num r).
Proof. intros rb est t p r H. destruct (point_cast_to_quantity _ _ _ _ _ H) as (A & B & D & _). auto. Qed.
Print Assumptions C51_relative_value_to_type.

(** So integral points are truncated towards the origin. *)
Theorem C51_truncates : forall est w u p r a m1 m2 n, sized est (p_qtype (pt_type p)) m1 ->
  p_rep (pt_type p) = RInt a -> a <> U64 -> pt_num p = NInt n -> in_range a n = true ->
  point_cast est w (ToUnit u) p = Ok r -> sized est (p_qtype (pt_type r)) m2 ->
  references_ok (p_qtype (pt_type p)) (p_qtype (pt_type r)) ->
  p_unit (pt_type r) = u /\ exists z, pt_num r = NInt (wrap a z) /\ trunc_of (inject_Z n * m1 / m2) z.
Proof.
  intros est w u p r a m1 m2 n S1 R N E I H S2 O. destruct (point_cast_quantity _ _ _ _ _ H) as [Q _].
  cbn [q_cast] in Q. step Q as x Ex. unfold quantity_cast_unit in Ex. step Ex as t Et. step Ex as y Ey.
  inversion Ex; subst x. cbn [fst snd] in Q.
  assert (T : p_qtype (pt_type r) = t) by (unfold relative in Q; congruence).
  assert (Y : pt_num r = y) by (unfold relative in Q; congruence).
  unfold mk_qtype in Et. step Et as c Ec.
  assert (T' : p_qtype (pt_type r) = QType (o_dim (p_origin (pt_type p))) u (p_rep (pt_type p))).
  { rewrite T. inversion Et. reflexivity. }
  assert (T2 : t = p_qtype (pt_type r)) by congruence. clear Et T. subst t.
  split; [unfold p_qtype in T'; congruence|].
  cbn [relative q_type q_num] in Ey. rewrite E in Ey.
  assert (R2 : q_rep (p_qtype (pt_type r)) = RInt a) by (rewrite T'; exact R).
  destruct (defined_truncates _ _ _ _ _ _ _ S1 S2 O R R2 N N _ _ I Ey) as (z & Hz & Tz).
  exists z. split; [congruence|exact Tz].
Qed.
Print Assumptions C51_truncates.

(** Every overload returns a point with the dynamic origin. *)
Theorem C51_dynamic_origin : forall rb est w p r,
  (exists c, point_cast est w c p = Ok r) \/ (exists t, point_cast_to rb est t p = Ok r) \/
  (exists d u, point_cast_dim_unit rb est d u p = Ok r) ->
  p_origin (pt_type r) = ODynamic (o_dim (p_origin (pt_type r))).
Proof.
  assert (T : forall rb est t p r, point_cast_to rb est t p = Ok r -> p_origin (pt_type r) = ODynamic (o_dim (p_origin (pt_type r)))).
  { intros rb est t p r H. destruct (point_cast_to_quantity _ _ _ _ _ H) as (_ & _ & _ & D). now rewrite D. }
  intros rb est w p r [[c H]|[[t H]|(d & u & H)]].
  - exact (proj2 (point_cast_quantity _ _ _ _ _ H)).
  - eauto.
  - destruct (point_cast_dim_unit_quantity _ _ _ _ _ _ H) as (t & _ & H'). eauto.
Qed.
Print Assumptions C51_dynamic_origin.

(** So a point with a declared origin cannot be compared with, subtracted from or converted
    back from any cast of itself. *)
Theorem C51_declared_origin_lost : forall rb est w p r n d, p_origin (pt_type p) = OUser n d ->
  (exists c, point_cast est w c p = Ok r) \/ (exists t, point_cast_to rb est t p = Ok r) \/
  (exists d u, point_cast_dim_unit rb est d u p = Ok r) ->
  p_diff rb est w r p = IllFormed /\ p_eqb rb est w r p = IllFormed /\ p_compare rb est w r p = IllFormed /\
  p_to rb est (pt_type p) r = IllFormed.
Proof.
  intros rb est w p r n d E H. apply (C51_dynamic_origin rb est w p r) in H.
  assert (N : origin_equivalent rb (p_origin (pt_type r)) (p_origin (pt_type p)) = false).
  { destruct (origin_equivalent rb (p_origin (pt_type r)) (p_origin (pt_type p))) eqn:X; auto.
    apply origin_equivalent_iff in X. rewrite E, H in X. exfalso. exact (user_not_dynamic _ _ _ _ X). }
  unfold p_diff, p_eqb, p_compare, p_to. rewrite (origin_equivalent_sym rb (p_origin (pt_type p))), N. auto.
Qed.
Print Assumptions C51_declared_origin_lost.

(** A point with the dynamic origin keeps its origin under a cast to a unit, a representation
    or a type of the same dimension. *)
Theorem C51_dynamic_kept : forall rb est w p r d, p_origin (pt_type p) = ODynamic d ->
  (exists u, point_cast est w (ToUnit u) p = Ok r) \/ (exists x, point_cast est w (ToRep x) p = Ok r) \/
  (exists t, o_dim (p_origin t) = d /\ point_cast_to rb est t p = Ok r) ->
  p_origin (pt_type r) = p_origin (pt_type p).
Proof.
  intros rb est w p r d E [[u H]|[[x H]|(t & D & H)]].
  - destruct (point_cast_quantity _ _ _ _ _ H) as [Q O]. rewrite O, E. cbn [q_cast] in Q. step Q as y Ey.
    unfold quantity_cast_unit in Ey. step Ey as t Et. step Ey as z Ez. inversion Ey; subst y. cbn in Q.
    unfold mk_qtype in Et. step Et as c Ec. inversion Et; subst t. inversion Q as [[Q']]. cbn. rewrite E in *. cbn in *. congruence.
  - destruct (point_cast_quantity _ _ _ _ _ H) as [Q O]. rewrite O, E. cbn [q_cast] in Q. step Q as y Ey.
    unfold quantity_cast_rep in Ey. cbv zeta in Ey. step Ey as z Ez. inversion Ey; subst y. cbn in Q. inversion Q as [[Q']].
    cbn. rewrite E in *. cbn in *. congruence.
  - destruct (point_cast_to_quantity _ _ _ _ _ H) as (_ & _ & _ & O). congruence.
Qed.
Print Assumptions C51_dynamic_kept.

(** 1999 m above sea level cast to kilometres is 1 km from a dynamic origin, also when the
    target type names the origin. *)
Example C51_ex : forall est,
  point_cast est empty_world (ToUnit kilometre) (at_height sea_level metre 1999) =
    Ok (at_height (ODynamic (DBase dim_L)) kilometre 1) /\
  point_cast_to no_rebind est (PType sea_level kilometre (RInt I64)) (at_height sea_level metre 1999) =
    Ok (at_height (ODynamic (DBase dim_L)) kilometre 1) /\
  point_cast_dim_unit no_rebind est (DBase dim_L) kilometre (at_height sea_level metre 1999) =
    Ok (at_height (ODynamic (DBase dim_L)) kilometre 1) /\
  point_cast est empty_world (ToUnit kilometre) (at_height (ODynamic (DBase dim_L)) metre (-1999)) =
    Ok (at_height (ODynamic (DBase dim_L)) kilometre (-1)).
Proof. intros est. repeat split; reflexivity. Qed.

(** * C52: kinds *)

Definition width : kind := Kind (Some "width") (BKind "width" (DBase dim_L)) (DBase dim_L).
Definition depth : kind := Kind (Some "depth") (BKind "depth" (DBase dim_L)) (DBase dim_L).
Definition of_kind (k : kind) (u : cunit) (n : Z) : qkind := QKind (KType k u (RInt I64)) (NInt n).

(** Operands of different base kinds: everything is ill-formed. *)
Theorem C52_kinds_do_not_mix : forall a b, k_base (qk_kind a) <> k_base (qk_kind b) -> forall o est w g,
  k_addsub o est w a b = IllFormed /\ k_rem est a b = IllFormed /\ k_compare est w a b = IllFormed /\
  k_eqb est w a b = IllFormed /\ k_times_k est w g a b = IllFormed /\ k_over_k est w g a b = IllFormed /\
  k_to est (qk_type a) b = IllFormed.
Proof. exact kinds_do_not_mix. Qed.
Print Assumptions C52_kinds_do_not_mix.

(** Sums, remainders, comparisons and conversions exist only for one kind, and agree with
    those of the underlying quantities. *)
Theorem C52_sum : forall o est w a b s, k_addsub o est w a b = Ok s ->
  one_kind_of (qk_kind a) (qk_kind b) /\ qk_kind s = qk_kind a /\
  exists q, q_addsub o est w (common a) (common b) = Ok q /\ kt_unit (qk_type s) = q_unit (q_type q) /\
    kt_rep (qk_type s) = q_rep (q_type q) /\ (q_dim (q_type q) = k_dim (qk_kind a) -> common s = q).
Proof. exact k_addsub_spec. Qed.
Print Assumptions C52_sum.
Theorem C52_sum_defined : forall o est w a b q, one_kind_of (qk_kind a) (qk_kind b) ->
  q_addsub o est w (common a) (common b) = Ok q -> q_dim (q_type q) = k_dim (qk_kind a) ->
  exists s, k_addsub o est w a b = Ok s /\ common s = q /\ qk_kind s = qk_kind a.
Proof. exact k_addsub_available. Qed.
Print Assumptions C52_sum_defined.
Theorem C52_order : forall est w a b c, k_compare est w a b = Ok c <->
  one_kind_of (qk_kind a) (qk_kind b) /\ q_compare est w (common a) (common b) = Ok c.
Proof. exact k_compare_iff. Qed.
Print Assumptions C52_order.
Theorem C52_equality : forall est w a b c, k_eqb est w a b = Ok c <->
  one_kind_of (qk_kind a) (qk_kind b) /\ q_eqb est w (common a) (common b) = Ok c.
Proof. exact k_eqb_iff. Qed.
Print Assumptions C52_equality.
Theorem C52_conversion : forall est t x r, k_to est t x = Ok r <->
  one_kind_of (qk_kind x) (kt_kind t) /\ qk_type r = t /\ q_to est (kt_qtype t) (common x) = Ok (common r).
Proof. exact k_to_iff. Qed.
Print Assumptions C52_conversion.
Theorem C52_remainder : forall est a b s, k_rem est a b = Ok s ->
  one_kind_of (qk_kind a) (qk_kind b) /\ qk_kind s = qk_kind a /\ q_rem (common a) (common b) = Ok (common s).
Proof. exact k_rem_spec. Qed.
Print Assumptions C52_remainder.

(** Being of one kind is an equivalence relation. *)
Theorem C52_one_kind_equivalence : (forall a, one_kind_of a a) /\ (forall a b, one_kind_of a b -> one_kind_of b a) /\
  (forall a b c, one_kind_of a b -> one_kind_of b c -> one_kind_of a c).
Proof. split; [apply one_kind_refl|]. split; [apply one_kind_sym|apply one_kind_trans]. Qed.
Print Assumptions C52_one_kind_equivalence.

(** Values of 64-bit kinds. *)
Theorem C52_sum_values : forall est w, consistent w -> forall o a b x y s, sum_op o ->
  valued est (common a) x -> valued est (common b) y ->
  k_dim (qk_kind a) = k_dim (qk_kind b) -> k_addsub o est w a b = Ok s ->
  valued est (common s) (exact_sum o x y) /\ qk_kind s = qk_kind a.
Proof. exact valued_ksum. Qed.
Print Assumptions C52_sum_values.
Theorem C52_order_values : forall est w, consistent w -> forall a b x y c, valued est (common a) x -> valued est (common b) y ->
  compatible (kt_qtype (qk_type a)) (kt_qtype (qk_type b)) -> k_compare est w a b = Ok c -> c = Some (x ?= y)%Q.
Proof. exact valued_kcompare. Qed.
Print Assumptions C52_order_values.
Theorem C52_equality_values : forall est w, consistent w -> forall a b x y c, valued est (common a) x -> valued est (common b) y ->
  compatible (kt_qtype (qk_type a)) (kt_qtype (qk_type b)) -> k_eqb est w a b = Ok c -> (c = true <-> (x == y)%Q).
Proof. exact valued_keqb. Qed.
Print Assumptions C52_equality_values.

(** Scaling by numbers and negation stay within the kind. *)
Theorem C52_scaling : forall est x r v s,
  (k_mul_value est x r v = Ok s -> qk_kind s = qk_kind x /\ q_mul_value (common x) r v = Ok (common s)) /\
  (value_mul_k est x r v = Ok s -> qk_kind s = qk_kind x /\ value_mul_q (common x) r v = Ok (common s)) /\
  (k_div_value est x r v = Ok s -> qk_kind s = qk_kind x /\ q_div_value (common x) r v = Ok (common s)) /\
  (k_rem_value est x r v = Ok s -> qk_kind s = qk_kind x /\ q_rem_value (common x) r v = Ok (common s)).
Proof.
  intros est x r v s. split; [|split; [|split]]; intros H; first [exact (k_scale_spec _ _ _ _ _ _ _ H)|exact (k_rem_value_spec _ _ _ _ _ H)].
Qed.
Print Assumptions C52_scaling.
Theorem C52_negation : forall est x s, k_neg est x = Ok s -> qk_kind s = qk_kind x /\ q_neg (common x) = Ok (common s).
Proof. exact k_neg_spec. Qed.
Print Assumptions C52_negation.

(** Products and quotients have the value and the dimension of those of the quantities, and
    the base kind of the kind operand; two kinds need one base kind. *)
Theorem C52_products : forall est w g x q r, kinds_declared g ->
  (k_times_q est w g x q = Ok r -> q_times w (common x) q = Ok (common r) /\ k_base (qk_kind r) = k_base (qk_kind x)) /\
  (q_times_k est w g q x = Ok r -> q_times w q (common x) = Ok (common r) /\ k_base (qk_kind r) = k_base (qk_kind x)) /\
  (k_over_q est w g x q = Ok r -> q_over w (common x) q = Ok (common r) /\ k_base (qk_kind r) = k_base (qk_kind x)) /\
  (q_over_k est w g q x = Ok r -> q_over w q (common x) = Ok (common r) /\ k_base (qk_kind r) = k_base (qk_kind x)).
Proof. exact k_products. Qed.
Print Assumptions C52_products.
Theorem C52_products_of_kinds : forall est w g a b r, kinds_declared g ->
  (k_times_k est w g a b = Ok r -> k_base (qk_kind a) = k_base (qk_kind b) /\
     q_times w (common a) (common b) = Ok (common r) /\ k_base (qk_kind r) = k_base (qk_kind a)) /\
  (k_over_k est w g a b = Ok r -> k_base (qk_kind a) = k_base (qk_kind b) /\
     q_over w (common a) (common b) = Ok (common r) /\ k_base (qk_kind r) = k_base (qk_kind a)).
Proof. exact k_products_k. Qed.
Print Assumptions C52_products_of_kinds.
Theorem C52_number_over_kind : forall est w g r v x s, kinds_declared g -> value_div_k est w g r v x = Ok s ->
  value_div_q w r v (common x) = Ok (common s) /\ k_base (qk_kind s) = k_base (qk_kind x).
Proof. exact value_div_k_spec. Qed.
Print Assumptions C52_number_over_kind.

(** Histories of member operators follow the underlying quantity. *)
Theorem C52_histories : forall est g l x x', k_run est g x l = Ok x' ->
  qk_type x' = qk_type x /\ q_run est (common x) (map kq_action l) = Ok (common x').
Proof. exact k_run_quantity. Qed.
Print Assumptions C52_histories.

(** [quantity_kind_cast]: the cast of the quantity. *)
Theorem C52_cast_to_type : forall est t x r, kind_cast_to est t x = Ok r ->
  qk_type r = t /\ quantity_cast est (kt_qtype (qk_type x)) (kt_qtype t) (qk_num x) = Ok (qk_num r).
Proof. exact kind_cast_to_spec. Qed.
Print Assumptions C52_cast_to_type.
Theorem C52_cast_to_kind : forall est k x r, kind_cast_kind est k x = Ok r ->
  qk_kind r = k /\ q_to est (QType (k_dim k) (kt_unit (qk_type x)) (kt_rep (qk_type x))) (common x) = Ok (common r).
Proof. exact kind_cast_kind_spec. Qed.
Print Assumptions C52_cast_to_kind.
Theorem C52_cast_to_unit : forall est w c x r, (forall t, c <> ToQuantity t) -> (forall d, c <> ToDim d) ->
  kind_cast est w (KTo c) x = Ok r -> qk_kind r = qk_kind x /\ q_cast est w c (common x) = Ok (common r).
Proof. exact kind_cast_unit_spec. Qed.
Print Assumptions C52_cast_to_unit.

(** The explicit cast to a full type is the one operation that crosses kinds. *)
Theorem C52_cast_crosses_kinds : forall est,
  kind_cast_to est (KType depth metre (RInt I64)) (of_kind width kilometre 2) = Ok (of_kind depth metre 2000) /\
  ~ one_kind_of width depth.
Proof. intros est. split; [reflexivity|]. intros [E _]. discriminate. Qed.
Print Assumptions C52_cast_crosses_kinds.

(** A width and a depth; the product of a width with a length is of a kind based on width. *)
Definition some_kinds : kinds :=
  match declare_kind Automatic "width" (DBase dim_L) empty_registry with Ok g => g | _ => empty_registry end.
Example C52_ex : forall est,
  k_add est empty_world (of_kind width kilometre 2) (of_kind width metre 30) =
    Ok (QKind (KType width (CUnit None [] one_r "metre" false None "no_prefix") (RInt I64)) (NInt 2030)) /\
  k_add est empty_world (of_kind width kilometre 2) (of_kind depth metre 30) = IllFormed /\
  k_compare est empty_world (of_kind width kilometre 2) (of_kind width metre 2001) = Ok (Some Lt) /\
  k_run est some_kinds (of_kind width metre 2) [KAdd (of_kind width kilometre 1); KMulV (RInt I32) (NInt 3); KDec] =
    Ok (of_kind width metre 3005) /\
  (exists r, k_times_q est empty_world some_kinds (of_kind width metre 6) (len metre 7) = Ok r /\
     qk_num r = NInt 42 /\ k_base (qk_kind r) = k_base width /\ k_name (qk_kind r) = None).
Proof.
  intros est. do 4 (split; [reflexivity|]).
  destruct (k_times_q est empty_world some_kinds (of_kind width metre 6) (len metre 7)) as [r| | | |] eqn:E; vm_compute in E; inversion E.
  exists r. subst r. repeat split; reflexivity.
Qed.
Example C52_ex_hypotheses : kinds_declared some_kinds /\ one_kind_of width width /\
  k_base width <> k_base depth.
Proof.
  split; [|split; [apply one_kind_refl|discriminate]]. apply kinds_base with Automatic "width" (DBase dim_L) empty_registry; [constructor|reflexivity].
Qed.

(** * C53: points of kinds *)

(** Sums have the value of the sum and the base kind of the point; their origin is always
    the dynamic one. *)
Theorem C53_sum : forall est w g, consistent w -> pkinds_declared g -> forall o x k u v s, sum_op o ->
  pk_located est x u -> valued est (common k) v ->
  k_dim (qk_kind k) = k_dim (pk_base (qpk_kind x)) -> pk_addsub o est w g x k = Ok s ->
  pk_located est s (exact_sum o u v) /\ pk_base (qpk_kind s) = pk_base (qpk_kind x) /\
  pk_origin (qpk_kind s) = ODynamic (k_dim (pk_base (qpk_kind x))).
Proof. exact pk_located_sum. Qed.
Print Assumptions C53_sum.

(** The affine laws; the hypotheses on the results can only hold for the dynamic origin
    (see [C53_named_origin_lost]). *)
Theorem C53_sum_minus_point : forall rb est w g, consistent w -> pkinds_declared g -> forall x k u v s d e,
  pk_located est x u -> valued est (common k) v -> k_dim (qk_kind k) = k_dim (pk_base (qpk_kind x)) ->
  pk_add est w g x k = Ok s -> pk_diff rb est w s x = Ok d -> k_eqb est w d k = Ok e -> e = true.
Proof. exact pk_sum_minus_point. Qed.
Print Assumptions C53_sum_minus_point.
Theorem C53_point_plus_difference : forall rb est w g, consistent w -> pkinds_declared g -> forall x y u v d r e,
  pk_located est x u -> pk_located est y v -> k_dim (pk_base (qpk_kind x)) = k_dim (pk_base (qpk_kind y)) ->
  pk_diff rb est w y x = Ok d -> pk_add est w g x d = Ok r -> pk_eqb rb est w r y = Ok e -> e = true.
Proof. exact pk_point_plus_difference. Qed.
Print Assumptions C53_point_plus_difference.
Theorem C53_associative : forall rb est w g, consistent w -> pkinds_declared g -> forall p a b u v z s1 s2 ab s3 e,
  pk_located est p u -> valued est (common a) v -> valued est (common b) z ->
  k_dim (qk_kind a) = k_dim (pk_base (qpk_kind p)) -> k_dim (qk_kind b) = k_dim (pk_base (qpk_kind p)) ->
  pk_add est w g p a = Ok s1 -> pk_add est w g s1 b = Ok s2 ->
  k_add est w a b = Ok ab -> pk_add est w g p ab = Ok s3 -> pk_eqb rb est w s2 s3 = Ok e -> e = true.
Proof. exact pk_associative. Qed.
Print Assumptions C53_associative.

(** A vector on the left: the value of the sum, but the kind of the vector. *)
Theorem C53_vector_first : forall est w g k x s, pkinds_declared g -> k_plus_pk est w g k x = Ok s ->
  k_add est w k (pk_relative x) = Ok (pk_relative s) /\
  pk_base (qpk_kind s) = qk_kind k /\ pk_origin (qpk_kind s) = ODynamic (k_dim (qk_kind k)).
Proof. exact k_plus_pk_spec. Qed.
Print Assumptions C53_vector_first.

(** Difference, comparison, equality and conversion exist only for one origin and one kind. *)
Theorem C53_difference : forall rb est w a b k, pk_diff rb est w a b = Ok k <->
  one_origin rb (pk_origin (qpk_kind a)) (pk_origin (qpk_kind b)) /\ k_sub est w (pk_relative a) (pk_relative b) = Ok k.
Proof. exact pk_diff_iff. Qed.
Print Assumptions C53_difference.
Theorem C53_order : forall rb est w a b c, pk_compare rb est w a b = Ok c <->
  one_origin rb (pk_origin (qpk_kind a)) (pk_origin (qpk_kind b)) /\ k_compare est w (pk_relative a) (pk_relative b) = Ok c.
Proof. exact pk_compare_iff. Qed.
Print Assumptions C53_order.
Theorem C53_equality : forall rb est w a b c, pk_eqb rb est w a b = Ok c <->
  one_origin rb (pk_origin (qpk_kind a)) (pk_origin (qpk_kind b)) /\ k_eqb est w (pk_relative a) (pk_relative b) = Ok c.
Proof. exact pk_eqb_iff. Qed.
Print Assumptions C53_equality.
Theorem C53_conversion : forall rb est t x r, pk_to rb est t x = Ok r <->
  one_origin rb (pk_origin (qpk_kind x)) (pk_origin (pkt_kind t)) /\ qpk_type r = t /\
  k_to est (pkt_ktype t) (pk_relative x) = Ok (pk_relative r).
Proof. exact pk_to_iff. Qed.
Print Assumptions C53_conversion.
Theorem C53_kinds_do_not_mix : forall a b, k_base (pk_base (qpk_kind a)) <> k_base (pk_base (qpk_kind b)) ->
  forall rb est w, pk_diff rb est w a b = IllFormed /\ pk_compare rb est w a b = IllFormed /\
  pk_eqb rb est w a b = IllFormed /\ pk_to rb est (qpk_type a) b = IllFormed.
Proof.
  intros a b N rb est w.
  assert (E : pkind_equivalent rb (qpk_kind b) (qpk_kind a) = false).
  { destruct (pkind_equivalent rb (qpk_kind b) (qpk_kind a)) eqn:X; auto. apply pkind_equivalent_iff in X.
    destruct X as [[X _] _]. congruence. }
  unfold pk_diff, pk_compare, pk_eqb, pk_to. change (pkt_kind (qpk_type a)) with (qpk_kind a). rewrite E. auto.
Qed.
Print Assumptions C53_kinds_do_not_mix.

(** Histories of [+=], [-=], [++], [--] keep the type, origin included. *)
Theorem C53_histories : forall est g l x x', pk_run est g x l = Ok x' ->
  qpk_type x' = qpk_type x /\ k_run est g (pk_relative x) (map pkk_action l) = Ok (pk_relative x').
Proof. exact pk_run_kind. Qed.
Print Assumptions C53_histories.

(** With a declared origin no sum [p + k] can be compared with, subtracted from or converted
    back to [p]: [(p + k) - p == k] does not even compile. *)
Theorem C53_named_origin_lost : forall o rb est w g x k n d s, pkinds_declared g -> pk_origin (qpk_kind x) = OUser n d ->
  pk_addsub o est w g x k = Ok s ->
  pk_diff rb est w s x = IllFormed /\ pk_compare rb est w s x = IllFormed /\ pk_eqb rb est w s x = IllFormed /\
  pk_to rb est (qpk_type x) s = IllFormed.
Proof. exact named_origin_lost. Qed.
Print Assumptions C53_named_origin_lost.

Definition altitude_from_sea : pkind := PKind (Some "altitude") width sea_level.
Definition floating : pkind := PKind None width (ODynamic (DBase dim_L)).
Definition pk_at (p : pkind) (u : cunit) (n : Z) : qpkind := QPKind (PKType p u (RInt I64)) (NInt n).
Definition metre_ : cunit := CUnit None [] one_r "metre" false None "no_prefix".
Example C53_ex : forall est,
  pk_add est empty_world empty_registry (pk_at floating kilometre 2) (of_kind width metre 30) = Ok (pk_at floating metre_ 2030) /\
  pk_diff no_rebind est empty_world (pk_at floating metre_ 2030) (pk_at floating kilometre 2) = Ok (of_kind width metre_ 30) /\
  k_eqb est empty_world (of_kind width metre_ 30) (of_kind width metre 30) = Ok true /\
  pk_add est empty_world empty_registry (pk_at altitude_from_sea metre 2) (of_kind width metre 30) = Ok (pk_at floating metre 32) /\
  pk_diff no_rebind est empty_world (pk_at floating metre 32) (pk_at altitude_from_sea metre 2) = IllFormed /\
  pk_run est empty_registry (pk_at altitude_from_sea metre 2) [PKAdd (of_kind width metre 30); PKInc] =
    Ok (pk_at altitude_from_sea metre 33).
Proof. intros est. repeat split; reflexivity. Qed.
Example C53_ex_hypotheses : forall est, pkinds_declared empty_registry /\
  pk_located est (pk_at floating kilometre 2) (inject_Z 2 * rval (u_ratio kilometre)) /\
  valued est (common (of_kind width metre 30)) (inject_Z 30 * rval (u_ratio metre)).
Proof.
  intros est. destruct good_units as (Gm & Gk & _). split; [constructor|].
  split; [now apply (valued_length est kilometre)|now apply (valued_length est metre)].
Qed.
