(** C83: whole expressions of quantities and points. *)

From Coq Require Import ZArith QArith String List Bool Lia Lqa.
From Verif Require Import Outcome CInt Root Ratio SpecRatio Unit Downcast Dim DimOp Equivalent SpecDim SpecUnit Rep QuantityCast CommonQuantity Quantity
  SpecQuantity DimOpProofs DimOpProofs3 EquivProofs MagnitudeProofs QuantityProofs2 QuantityProofs4 Point SpecPoint PointProofs Expr SpecExpr
  ExprProofs ExprProofs2 Affine SpecAffine AffineProofs Samples Props_Dim Props_Quantity Props_Expr.
Import ListNotations.
Local Open Scope string_scope.
Local Open Scope list_scope.
Local Open Scope Z_scope.
Local Open Scope res_scope.

(** * The rules *)

(** Whatever the representations, units, systems and origins: an expression that compiles and
    evaluates obeys the rules of affine dimensional analysis, and the rules tell whether it is
    a quantity or a point, and its dimension. *)
Theorem C83_typed : forall rb est w e v, reachable w -> aeval rb est w e = Ok v -> typed e (sort_of v) (value_exps v).
Proof. intros rb est w e v R. apply aeval_typed. now apply reachable_consistent. Qed.
Print Assumptions C83_typed.

(** The rules give an expression at most one sort and dimension. *)
Theorem C83_unique : forall e k f l g, typed e k f -> typed e l g -> k = l /\ same_exps f g.
Proof. intros e k f l g T T'. exact (typed_unique e k f T l g T'). Qed.
Print Assumptions C83_unique.

(** An expression against the rules has no value. *)
Theorem C83_rejected : forall rb est w e, reachable w -> (forall k f, ~ typed e k f) -> forall v, aeval rb est w e <> Ok v.
Proof. intros rb est w e R N v H. exact (N _ _ (C83_typed _ _ _ _ _ R H)). Qed.
Print Assumptions C83_rejected.

(** * The values *)

(** In one system of units, with signed 64-bit numbers, wherever the origins lie: the result
    is what plain arithmetic on the places of the points and the values of the quantities
    gives. *)
Theorem C83_value : forall U w rb est at_ e v r, symbols_identify U -> good_system U w ->
  aall_dims (in_system U w) e -> stands_for rb est w at_ e v -> aeval rb est w e = Ok r -> at_value est at_ r v.
Proof. intros U w rb est at_ e v r HU G A S H. exact (proj2 (aeval_exact U w HU G rb est at_ e v S A r H)). Qed.
Print Assumptions C83_value.

Lemma valued_unique : forall est q a b, valued est q a -> valued est q b -> (a == b)%Q.
Proof.
  intros est q a b (n & m & I & Z & X) (n' & m' & I' & Z' & X'). destruct I as (_ & N & _), I' as (_ & N' & _).
  assert (n = n') by congruence. subst n'. destruct Z as (_ & _ & _ & M), Z' as (_ & _ & _ & M').
  rewrite X, X', (magnitude_unique _ _ _ _ M M'). reflexivity.
Qed.

(** So a quantity computed from points does not depend on where the origins lie, and a point
    moves with its origin. *)
Theorem C83_frames : forall U w rb est at1 at2 e v1 v2 r, symbols_identify U -> good_system U w ->
  aall_dims (in_system U w) e -> stands_for rb est w at1 e v1 -> stands_for rb est w at2 e v2 -> aeval rb est w e = Ok r ->
  match r with
  | VQuantity _ => (v1 == v2)%Q
  | VPoint p => (v1 - v2 == at1 (p_origin (pt_type p)) - at2 (p_origin (pt_type p)))%Q
  end.
Proof.
  intros U w rb est at1 at2 e v1 v2 r HU G A S1 S2 H. pose proof (C83_value _ _ _ _ _ _ _ _ HU G A S1 H) as V1.
  pose proof (C83_value _ _ _ _ _ _ _ _ HU G A S2 H) as V2. destruct r as [q|p]; cbn in V1, V2.
  - eapply valued_unique; eauto.
  - destruct V1 as (x & V1 & E1), V2 as (y & V2 & E2). pose proof (valued_unique _ _ _ _ V1 V2) as E. rewrite <- E1, <- E2, E. ring.
Qed.
Print Assumptions C83_frames.

(** A program may write its points from other origins: the quantities it computes are the
    same, the points lie where they lay. *)
Theorem C83_origins : forall U w rb est at_ e e' v v' r r', symbols_identify U -> good_system U w ->
  aall_dims (in_system U w) e -> aall_dims (in_system U w) e' -> rewritten est at_ e e' ->
  stands_for rb est w at_ e v -> stands_for rb est w at_ e' v' -> aeval rb est w e = Ok r -> aeval rb est w e' = Ok r' ->
  at_value est at_ r v /\ at_value est at_ r' v.
Proof.
  intros U w rb est at_ e e' v v' r r' HU G A A' R S S' H H'. split; [exact (C83_value _ _ _ _ _ _ _ _ HU G A S H)|].
  apply (at_ext est at_ r' v' v); [|exact (C83_value _ _ _ _ _ _ _ _ HU G A' S' H')]. symmetry. exact (stands_rewritten w rb est at_ e e' R v v' S S').
Qed.
Print Assumptions C83_origins.

(** Comparison of points is comparison of places. *)
Theorem C83_comparison : forall U w rb est at_ e1 e2 v1 v2 p1 p2, symbols_identify U -> good_system U w ->
  aall_dims (in_system U w) e1 -> aall_dims (in_system U w) e2 -> stands_for rb est w at_ e1 v1 -> stands_for rb est w at_ e2 v2 ->
  aeval rb est w e1 = Ok (VPoint p1) -> aeval rb est w e2 = Ok (VPoint p2) ->
  (forall c, p_compare rb est w p1 p2 = Ok c -> c = Some (v1 ?= v2)%Q) /\
  (forall b, p_eqb rb est w p1 p2 = Ok b -> (b = true <-> (v1 == v2)%Q)).
Proof.
  intros U w rb est at_ e1 e2 v1 v2 p1 p2 HU G A1 A2 S1 S2 H1 H2. pose proof (proj1 G) as C.
  destruct (aeval_exact U w HU G rb est at_ e1 v1 S1 A1 _ H1) as [D1 (x & V1 & E1)].
  destruct (aeval_exact U w HU G rb est at_ e2 v2 S2 A2 _ H2) as [D2 (y & V2 & E2)]. cbn in D1, D2.
  split.
  - intros c H. pose proof H as H'. apply compare_iff in H'. destruct H' as [O _]. pose proof (origin_same U w HU rb _ _ D1 D2 O) as Oe.
    assert (Co : compatible (p_qtype (pt_type p1)) (p_qtype (pt_type p2))) by (apply compatible_same; cbn; now rewrite Oe).
    rewrite (located_compare rb est w C _ _ _ _ _ V1 V2 Co H). f_equal. rewrite Oe in E1.
    destruct (Qcompare_spec x y) as [E|E|E]; symmetry; [apply (proj1 (Qeq_alt _ _))|apply (proj1 (Qlt_alt _ _))|apply (proj1 (Qgt_alt _ _))]; lra.
  - intros b H. pose proof H as H'. apply eqb_iff in H'. destruct H' as [O _]. pose proof (origin_same U w HU rb _ _ D1 D2 O) as Oe.
    assert (Co : compatible (p_qtype (pt_type p1)) (p_qtype (pt_type p2))) by (apply compatible_same; cbn; now rewrite Oe).
    rewrite (located_eqb rb est w C _ _ _ _ _ V1 V2 Co H). rewrite Oe in E1. split; intros K; lra.
Qed.
Print Assumptions C83_comparison.

(** * Cases *)

(** Heights above the sea, and above a ground that lies at 500 m. *)
Definition above (name : string) (u : cunit) (n : Z) : point := Point (PType (OUser name (DBase dim_L)) u (RInt I64)) (NInt n).
Definition no_rebinding : rebinding := fun _ _ _ => None.
Definition map_of_places : frame := fun o => match o with OUser "ground" _ => inject_Z 500 | _ => inject_Z 0 end.
(** [p + (q - p) / 2] *)
Definition middle (p q : point) : aexpr :=
  ABinary BAdd (APoint p) (AUnary (UDivV (RInt I32) (NInt 2)) (ABinary BSub (APoint q) (APoint p))).

(** The origin, the number and the ratio of the unit of a result that is a point. *)
Definition point_result (r : res avalue) : option (origin * number * ratio) :=
  match r with Ok (VPoint p) => Some (p_origin (pt_type p), pt_num p, u_ratio (p_unit (pt_type p))) | _ => None end.

Lemma above_valued : forall est s u n, u = metre \/ u = kilometre -> in_range I64 n = true ->
  valued est (relative (above s u n)) (inject_Z n * rval (u_ratio u)).
Proof.
  intros est s u n Hu R. exists n, (rval (u_ratio u)). split; [split; [reflexivity|split; [reflexivity|exact R]]|].
  split; [now apply length_sized|reflexivity].
Qed.

(** The middle of 1 km and 3000 m above the sea is at 2000 m; of 500 m and 2500 m above the
    ground at 1500 m above the ground, which is the same place. *)
Example C83_ex : forall est, exists w, si_world = Ok w /\ symbols_identify si_base /\ good_system si_base w /\
  aall_dims (in_system si_base w) (middle (above "sea" kilometre 1) (above "sea" metre 3000)) /\
  rewritten est map_of_places (middle (above "sea" kilometre 1) (above "sea" metre 3000))
                              (middle (above "ground" metre 500) (above "ground" metre 2500)) /\
  (exists v, stands_for no_rebinding est w map_of_places (middle (above "sea" kilometre 1) (above "sea" metre 3000)) v /\ (v == 2000)%Q) /\
  (exists v, stands_for no_rebinding est w map_of_places (middle (above "ground" metre 500) (above "ground" metre 2500)) v /\ (v == 2000)%Q) /\
  point_result (aeval no_rebinding est w (middle (above "sea" kilometre 1) (above "sea" metre 3000))) =
    Some (OUser "sea" (DBase dim_L), NInt 2000, one_r) /\
  point_result (aeval no_rebinding est w (middle (above "ground" metre 500) (above "ground" metre 2500))) =
    Some (OUser "ground" (DBase dim_L), NInt 1500, one_r).
Proof.
  intros est. destruct si_world_reachable as (w & H & R). exists w. split; [exact H|]. split; [exact si_identify|].
  split; [now apply si_good|]. assert (L : in_system si_base w (DBase dim_L)) by (apply base_in_system; now left).
  split; [cbn; auto 10|].
  assert (K : forall u n, u = metre \/ u = kilometre -> in_range I64 n = true -> forall s, valued est (relative (above s u n)) (inject_Z n * rval (u_ratio u)))
    by (intros; now apply above_valued).
  assert (M : metre = metre \/ metre = kilometre) by now left. assert (M' : kilometre = metre \/ kilometre = kilometre) by now right.
  assert (W1 : rewritten est map_of_places (APoint (above "sea" kilometre 1)) (APoint (above "ground" metre 500))).
  { eapply rw_point; [now apply K|now apply K|vm_compute; reflexivity]. }
  assert (W2 : rewritten est map_of_places (APoint (above "sea" metre 3000)) (APoint (above "ground" metre 2500))).
  { eapply rw_point; [now apply K|now apply K|vm_compute; reflexivity]. }
  split; [repeat constructor; assumption|].
  assert (D1 : anumber no_rebinding est w (ABinary BSub (APoint (above "sea" metre 3000)) (APoint (above "sea" kilometre 1))) 2000).
  { vm_compute in H. injection H as <-. eexists. split; vm_compute; reflexivity. }
  assert (D2 : anumber no_rebinding est w (ABinary BSub (APoint (above "ground" metre 2500)) (APoint (above "ground" metre 500))) 2000).
  { vm_compute in H. injection H as <-. eexists. split; vm_compute; reflexivity. }
  split.
  { eexists. split.
    - apply sf_add; [apply sf_point; now apply K|]. eapply (sf_divv _ _ _ _ _ I32 2 _ 2000);
        [apply sf_sub; apply sf_point; now apply K|reflexivity|discriminate|exact D1|exists 1000; reflexivity].
    - vm_compute. reflexivity. }
  split.
  { eexists. split.
    - apply sf_add; [apply sf_point; now apply K|]. eapply (sf_divv _ _ _ _ _ I32 2 _ 2000);
        [apply sf_sub; apply sf_point; now apply K|reflexivity|discriminate|exact D2|exists 1000; reflexivity].
    - vm_compute. reflexivity. }
  vm_compute in H. injection H as <-. split; vm_compute; reflexivity.
Qed.

(** Two points have no sum, a point has no double, and a quantity less a point is nothing:
    neither for the rules nor for the library. *)
Example C83_ex_rejected : forall p q : point, forall d : quantity,
  (forall k f, ~ typed (ABinary BAdd (APoint p) (APoint q)) k f) /\
  (forall k f, ~ typed (AUnary (UMulV (RInt I32) (NInt 2)) (APoint p)) k f) /\
  (forall k f, ~ typed (ABinary BSub (AQuantity d) (APoint p)) k f) /\
  (forall k f, ~ typed (ABinary BAdd (ABinary BSub (APoint p) (APoint q)) (ABinary BAdd (APoint p) (APoint q))) k f).
Proof.
  assert (P : forall p k f, typed (APoint p) k f -> k = 1) by (intros p k f T; inversion T; reflexivity).
  assert (A : forall p q k f, ~ typed (ABinary BAdd (APoint p) (APoint q)) k f).
  { intros p q k f T. inversion T as [| | | | | | | | | | |a b k0 l0 f0 T1 T2 L| | | | | | | | |]; subst. apply P in T1, T2. lia. }
  intros p q d. split; [apply A|]. split; [|split].
  - intros k f T. inversion T; subst. match goal with H : typed (APoint _) _ _ |- _ => apply P in H; discriminate H end.
  - intros k f T. inversion T as [| | | | | | | | | | | |a b k0 l0 f0 T1 T2 L| | | | | | | |]; subst. apply P in T2. subst l0.
    inversion T1; subst. lia.
  - intros k f T. inversion T as [| | | | | | | | | | |a b k0 l0 f0 T1 T2 L| | | | | | | | |]; subst. exact (A _ _ _ _ T2).
Qed.

(** The distance of a point from its origin does depend on the origin: the same place gives
    1000 m from the sea and 500 m from the ground. *)
Theorem C83_relative_refuted : forall est w, exists p p' q q' v v',
  rewritten est map_of_places (APoint p) (APoint p') /\
  aeval no_rebinding est w (ARelative (APoint p)) = Ok (VQuantity q) /\ aeval no_rebinding est w (ARelative (APoint p')) = Ok (VQuantity q') /\
  valued est q v /\ valued est q' v' /\ ~ (v == v')%Q.
Proof.
  intros est w. exists (above "sea" metre 1000), (above "ground" metre 500). do 4 eexists.
  assert (M : metre = metre \/ metre = kilometre) by now left.
  split; [eapply rw_point; [apply above_valued; auto|apply above_valued; auto|vm_compute; reflexivity]|].
  split; [reflexivity|]. split; [reflexivity|]. split; [now apply above_valued|]. split; [now apply above_valued|].
  vm_compute. discriminate.
Qed.
Print Assumptions C83_relative_refuted.
