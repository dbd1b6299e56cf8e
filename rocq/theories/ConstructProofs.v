(** Proofs about the constructors. *)

From Coq Require Import ZArith QArith String List Bool Lia Lqa.
From Verif Require Import Outcome CInt Root Ratio SpecRatio Unit Downcast Dim DimOp Equivalent SpecDim SpecUnit DimProofs Rep QuantityCast
  CommonQuantity Quantity SpecQuantity DimOpProofs MagnitudeProofs CastProofs QuantityProofs QuantityProofs4 QuantityProofs5
  Point Kind PointKind SpecPoint PointProofs KindProofs EquivProofs Chrono ChronoProofs Plain SpecPlain PlainProofs Construct SpecConstruct Props_Quantity Props_Chrono.
Import ListNotations.
Local Open Scope Z_scope.

Lemma to_same : forall est t q, q_type q = t -> q_to est t q = Ok q.
Proof.
  intros est t [t' n] E. cbn [q_type] in E. subst t'. unfold q_to, q_convert. cbn [q_type q_num].
  destruct (qtype_eq_dec t t); [reflexivity|contradiction].
Qed.
Lemma to_dimension : forall est t q r, q_to est t q = Ok r -> dim_equivalent (q_dim t) (q_dim (q_type q)) = true.
Proof.
  intros est t q r H. unfold q_to in H. step H as n En. unfold q_convert in En. destruct (qtype_eq_dec (q_type q) t) as [E|E].
  - rewrite E. apply dim_equivalent_equivalence.
  - step En as b Eb. unfold safe_castable_to in Eb. destruct (dim_equivalent (q_dim t) (q_dim (q_type q))); auto.
    cbn [negb] in Eb. inversion Eb; subst b. discriminate En.
Qed.
Lemma narrow_I64 : forall i n, i <> U64 -> in_range i n = true -> in_range I64 n = true.
Proof.
  intros i n U H. apply in_range_spec in H. apply in_range_spec.
  assert (L : imin I64 <= imin i /\ imax i <= imax I64).
  { destruct i as [[| | |] [|]]; try (split; apply Z.leb_le; reflexivity). exfalso. now apply U. }
  lia.
Qed.

(** ** Values *)

Lemma quantity_value : forall est w t m q v r, sized est t m -> q_rep t = RInt I64 -> worth est w t m (AQuantity q) v ->
  q_to est t q = Ok r -> q_type r = t /\ valued est r v.
Proof.
  intros est w t m q v r S R W H. unfold q_to in H. step H as n En. inversion H; subst r. split; auto.
  inversion W as [|q' i z mq v' U [Rq [Nq Iq]] Sq Ref V| | | | |]; subst. rewrite Nq in En.
  destruct (C20_int64 est _ _ i mq m z n Sq S Ref Rq U R Iq En) as (y & -> & Iy & E). exists y, m. repeat split; auto; try apply S.
  rewrite V. exact E.
Qed.
Lemma duration_value : forall est w t m d v r, consistent w -> sized est t m -> q_rep t = RInt I64 -> worth est w t m (ADuration d) v ->
  q_from_duration est w t d = Ok r -> q_type r = t /\ valued est r v.
Proof.
  intros est w t m d v r C S R W H. inversion W as [| |d' i n v' U Rd Nd I P Ref V| | | |]; subst.
  destruct (C55_from est w t m d i n r C P S Rd U Nd I R Ref H) as (z & -> & Iz & E). split; auto.
  exists z, m. repeat split; auto; try apply S. rewrite V. exact E.
Qed.
Lemma number_value : forall est w t m a n v r, sized est t m -> q_rep t = RInt I64 -> worth est w t m (ANumber a n) v ->
  q_make t a n = Ok r -> q_type r = t /\ valued est r v.
Proof.
  intros est w t m a n v r S R W H. inversion W as [i z v' U I V| | | | | |]; subst.
  unfold q_make in H. rewrite R in H. cbn [safe_convertible floating negb orb constrained bind n_convert] in H.
  pose proof (narrow_I64 _ _ U I) as J. rewrite (wrap_id _ _ J) in H. inversion H; subst r. split; auto.
  exists z, m. repeat split; auto; apply S.
Qed.
Lemma q_new_value : forall est w t m x v r, consistent w -> sized est t m -> q_rep t = RInt I64 -> worth est w t m x v ->
  q_new est w t x = Ok r -> q_type r = t /\ valued est r v.
Proof.
  intros est w t m [a n|q|d|p|p|y|y] v r C S R W H; cbn [q_new] in H; try discriminate.
  - eapply number_value; eauto.
  - eapply quantity_value; eauto.
  - eapply duration_value; eauto.
Qed.
Lemma p_new_value : forall rb est w t m x v r, consistent w -> sized est (p_qtype t) m -> p_rep t = RInt I64 ->
  worth est w (p_qtype t) m x v -> p_new rb est w t x = Ok r -> pt_type r = t /\ located est r v.
Proof.
  intros rb est w t m x v r C S R W H. unfold located.
  assert (G : forall q, q_new est w (p_qtype t) x = Ok q -> r = Point t (q_num q) -> pt_type r = t /\ valued est (relative r) v).
  { intros q Eq ->. split; auto. destruct (q_new_value _ _ _ _ _ _ _ C S R W Eq) as [T V]. destruct q as [tq n]. cbn [q_type] in T. subst tq. exact V. }
  destruct x as [a n|q|d|p|p|y|y]; cbn [p_new] in H; try (step H as q' Eq; inversion H; subst r; eapply G; eauto; fail).
  - apply to_iff in H. destruct H as (_ & T & H). split; auto. inversion W; subst. eapply (quantity_value est w); eauto.
  - unfold p_from_time_point in H. step H as u Eu. step H as q Eq. inversion W; subst.
    destruct (duration_value est w _ _ _ _ _ C S R H1 Eq) as [T V]. inversion H; subst r. split; auto.
    destruct q as [tq n]. cbn [q_type] in T. subst tq. exact V.
Qed.
Lemma k_new_value : forall est w t m x v r, consistent w -> sized est (kt_qtype t) m -> kt_rep t = RInt I64 ->
  worth est w (kt_qtype t) m x v -> k_new est w t x = Ok r -> qk_type r = t /\ valued est (common r) v.
Proof.
  intros est w t m x v r C S R W H.
  assert (G : forall q, q_new est w (kt_qtype t) x = Ok q -> r = QKind t (q_num q) -> qk_type r = t /\ valued est (common r) v).
  { intros q Eq ->. split; auto. destruct (q_new_value _ _ _ _ _ _ _ C S R W Eq) as [T V]. destruct q as [tq n]. cbn [q_type] in T. subst tq. exact V. }
  destruct x as [a n|q|d|p|p|y|y]; cbn [k_new] in H; try (step H as q' Eq; inversion H; subst r; eapply G; eauto; fail).
  - step H as u Eu. step H as q' Eq. inversion H; subst r. eapply G; eauto.
  - apply k_to_iff in H. destruct H as (_ & T & H). split; auto. inversion W; subst. eapply (quantity_value est w); eauto.
Qed.
Lemma pk_new_value : forall rb est w t m x v r, consistent w -> is_point_kind (pkt_kind t) = true ->
  sized est (kt_qtype (pkt_ktype t)) m -> pkt_rep t = RInt I64 ->
  worth est w (kt_qtype (pkt_ktype t)) m x v -> pk_new rb est w t x = Ok r -> qpk_type r = t /\ pk_located est r v.
Proof.
  intros rb est w t m x v r C D S R W H. unfold pk_located.
  assert (Q : p_qtype (pkt_ptype t) = kt_qtype (pkt_ktype t)).
  { unfold is_point_kind in D. destruct (dimension_eq_dec (k_dim (pk_base (pkt_kind t))) (o_dim (pk_origin (pkt_kind t)))) as [E|E];
      [|discriminate]. unfold p_qtype, kt_qtype. cbn [pkt_ptype pkt_ktype p_origin p_unit p_rep kt_kind kt_unit kt_rep]. now rewrite E. }
  assert (GP : forall y z, (x = APoint y \/ exists c, x = ATime c) -> p_new rb est w (pkt_ptype t) x = Ok z -> r = QPKind t (pt_num z) ->
    qpk_type r = t /\ valued est (common (pk_relative r)) v).
  { intros _ z _ E ->. rewrite <- Q in *. destruct (p_new_value rb est w (pkt_ptype t) m x v z C S R W E) as [T V]. split; auto.
    destruct z as [tz n]. cbn [pt_type] in T. subst tz. unfold located, relative in V. cbn [pt_type pt_num] in V. rewrite Q in V. exact V. }
  assert (GK : forall z, k_new est w (pkt_ktype t) x = Ok z -> r = QPKind t (qk_num z) ->
    qpk_type r = t /\ valued est (common (pk_relative r)) v).
  { intros z E ->. destruct (k_new_value est w (pkt_ktype t) m x v z C S R W E) as [T V]. split; auto.
    destruct z as [tz n]. cbn [qk_type] in T. subst tz. exact V. }
  destruct x as [a n|q|d|p|p|y|y]; cbn [pk_new] in H; try (step H as k Ek; inversion H; subst r; eapply GK; eauto; fail).
  - unfold pk_of_point in H. step H as z Ez. inversion H; subst r. eapply (GP p); eauto.
  - step H as z Ez. inversion H; subst r. eapply GP; eauto.
    Unshelve. exact (Point (pkt_ptype t) (NInt 0)).
  - apply pk_to_iff in H. destruct H as (_ & T & H). split; auto. apply k_to_iff in H. destruct H as (_ & _ & H).
    inversion W; subst. eapply (quantity_value est w); eauto.
Qed.

(** ** Sources *)

Lemma q_new_source : forall est w t x r, q_new est w t x = Ok r -> quantity_source (q_dim t) x.
Proof.
  intros est w t [a n|q|d|p|p|y|y] r H; cbn [q_new] in H; try discriminate; cbn [quantity_source]; auto.
  - eapply to_dimension; eauto.
  - unfold q_from_duration in H. step H as l El. step H as b Eb. step H as u Eu. step H as q Eq. apply to_dimension in H.
    unfold q_make in Eq. step Eq as v Ev. step Eq as z Ez. inversion Eq; subst q. cbn [q_type] in H.
    unfold like_type, mk_qtype in El. step El as u' E'. step El as v' E''. inversion El; subst l. exact H.
Qed.
Lemma q_new_type : forall est w t x r, q_new est w t x = Ok r -> q_type r = t.
Proof.
  assert (T : forall est t q r, q_to est t q = Ok r -> q_type r = t) by (intros est t q r H; unfold q_to in H; step H as n En; inversion H; auto).
  intros est w t [a n|q|d|p|p|y|y] r H; cbn [q_new] in H; try discriminate; eauto.
  - unfold q_make in H. step H as v Ev. step H as z Ez. inversion H. auto.
  - unfold q_from_duration in H. step H as l El. step H as b Eb. step H as u Eu. step H as q Eq. eauto.
Qed.
(** As the quantity, for the arguments that are no points and no kinds. *)
Definition plain_argument (x : argument) : Prop :=
  match x with ANumber _ _ | AQuantity _ | ADuration _ => True | _ => False end.
Lemma p_new_quantity : forall rb est w t x r, plain_argument x ->
  (p_new rb est w t x = Ok r <-> pt_type r = t /\ q_new est w (p_qtype t) x = Ok (relative r)).
Proof.
  intros rb est w t x r A.
  assert (E : p_new rb est w t x = bind (q_new est w (p_qtype t) x) (fun q => Ok (Point t (q_num q)))) by (destruct x; try contradiction; reflexivity).
  rewrite E. split.
  - intros H. destruct (q_new est w (p_qtype t) x) as [q| | | |] eqn:Q; cbn [bind] in H; try discriminate. inversion H; subst r.
    pose proof (q_new_type _ _ _ _ _ Q) as T. split; auto. destruct q as [tq n]. cbn [q_type] in T. subst tq. reflexivity.
  - intros [T H]. rewrite H. cbn [bind]. destruct r as [tr n]. cbn [pt_type] in T. subst tr. reflexivity.
Qed.
Lemma k_new_quantity : forall est w t x r, plain_argument x ->
  (k_new est w t x = Ok r <-> kind_source (kt_kind t) x /\ qk_type r = t /\ q_new est w (kt_qtype t) x = Ok (common r)).
Proof.
  intros est w t x r A.
  assert (G : bind (q_new est w (kt_qtype t) x) (fun q => Ok (QKind t (q_num q))) = Ok r <-> qk_type r = t /\ q_new est w (kt_qtype t) x = Ok (common r)).
  { split.
    - intros H. destruct (q_new est w (kt_qtype t) x) as [q| | | |] eqn:Q; cbn [bind] in H; try discriminate. inversion H; subst r.
      pose proof (q_new_type _ _ _ _ _ Q) as T. split; auto. destruct q as [tq n]. cbn [q_type] in T. subst tq. reflexivity.
    - intros [T H]. rewrite H. cbn [bind]. destruct r as [tr n]. cbn [qk_type] in T. subst tr. reflexivity. }
  destruct x as [a n|q|d|p|p|y|y]; try contradiction; cbn [k_new kind_source].
  - rewrite constrained_iff. unfold dimensionless. cbn [q_new] in G. rewrite G. tauto.
  - rewrite G. split; [|tauto]. intros [T H]. split; auto. apply q_new_source in H. exact H.
  - rewrite G. split; [|tauto]. intros [T H]. split; auto. apply q_new_source in H. exact H.
Qed.
Lemma p_new_source : forall rb est w t x r, p_new rb est w t x = Ok r -> point_source rb (p_origin t) x.
Proof.
  intros rb est w t x r H. destruct x as [a n|q|d|p|p|y|y];
    try (apply p_new_quantity in H; [|exact I]; destruct H as [_ H]; apply q_new_source in H; exact H).
  - apply to_iff in H. apply H.
  - cbn [p_new] in H. unfold p_from_time_point in H. apply constrained_iff in H. destruct H as [H _]. now apply origin_equivalent_iff.
  - discriminate H.
  - discriminate H.
Qed.
Lemma k_new_source : forall est w t x r, k_new est w t x = Ok r -> kind_source (kt_kind t) x.
Proof.
  intros est w t x r H. destruct x as [a n|q|d|p|p|y|y]; try (apply k_new_quantity in H; [|exact I]; apply H); try discriminate H.
  apply k_to_iff in H. apply H.
Qed.
Lemma pk_new_kind : forall rb est w t x r, (plain_argument x \/ exists y, x = AKind y) ->
  (pk_new rb est w t x = Ok r <-> qpk_type r = t /\ k_new est w (pkt_ktype t) x = Ok (pk_relative r)).
Proof.
  intros rb est w t x r A.
  assert (E : pk_new rb est w t x = bind (k_new est w (pkt_ktype t) x) (fun k => Ok (QPKind t (qk_num k)))).
  { destruct A as [A|[y ->]]; [destruct x; try contradiction; reflexivity|reflexivity]. }
  assert (Ty : forall k, k_new est w (pkt_ktype t) x = Ok k -> qk_type k = pkt_ktype t).
  { intros k K. destruct A as [A|[y ->]]; [apply k_new_quantity in K; [apply K|exact A]|]. apply k_to_iff in K. apply K. }
  rewrite E. split.
  - intros H. destruct (k_new est w (pkt_ktype t) x) as [k| | | |] eqn:Q; cbn [bind] in H; try discriminate. inversion H; subst r.
    specialize (Ty k eq_refl). split; auto. destruct k as [tk n]. cbn [qk_type] in Ty. subst tk. reflexivity.
  - intros [T H]. rewrite H. cbn [bind]. destruct r as [tr n]. cbn [qpk_type] in T. subst tr. reflexivity.
Qed.
Lemma pk_new_source : forall rb est w t x r, pk_new rb est w t x = Ok r -> point_kind_source rb (pkt_kind t) x.
Proof.
  intros rb est w t x r H. destruct x as [a n|q|d|p|p|y|y];
    try (apply pk_new_kind in H; [|(left; exact I) || (right; eexists; reflexivity)]; destruct H as [_ H]; apply k_new_source in H; exact H).
  - cbn [pk_new] in H. unfold pk_of_point in H. step H as z Ez. apply to_iff in Ez. apply Ez.
  - cbn [pk_new] in H. step H as z Ez. unfold p_from_time_point in Ez. apply constrained_iff in Ez. destruct Ez as [Ez _]. now apply origin_equivalent_iff.
  - cbn [pk_new] in H. apply pk_to_iff in H. destruct H as (O & _ & K). apply k_to_iff in K. destruct K as (K & _). split; auto.
Qed.

(** ** Implicit conversions *)

Lemma q_implicit_iff : forall est w t x r, q_implicit est t x = Ok r <->
  q_new est w t x = Ok r /\ ((exists q, x = AQuantity q) \/ (exists a n, x = ANumber a n /\ q_dim t = dim_one /\ q_unit t = unit_one)).
Proof.
  intros est w t [a n|q|d|p|p|y|y] r; cbn [q_implicit q_new];
    try (split; [discriminate|intros [_ [[q' X]|(a' & n' & X & _)]]; discriminate X]).
  - unfold implicit_value. rewrite constrained_iff, <- plain_checked. unfold plain_type. split.
    + intros [[D U] H]. split; auto. right. exists a, n. auto.
    + intros [H [[q X]|(a' & n' & _ & D & U)]]; [discriminate X|auto].
  - split; [|tauto]. intros H. split; auto. left. now exists q.
Qed.
Lemma p_implicit_iff : forall rb est w t x r, p_implicit rb est t x = Ok r <-> p_new rb est w t x = Ok r /\ exists p, x = APoint p.
Proof.
  intros rb est w t [a n|q|d|p|p|y|y] r; cbn [p_implicit]; try (split; [discriminate|intros [_ [p' X]]; discriminate X]).
  cbn [p_new]. split; [|tauto]. intros H. split; auto. now exists p.
Qed.
Lemma k_implicit_iff : forall est w t x r, k_implicit est t x = Ok r <-> k_new est w t x = Ok r /\ exists y, x = AKind y.
Proof.
  intros est w t [a n|q|d|p|p|y|y] r; cbn [k_implicit]; try (split; [discriminate|intros [_ [p' X]]; discriminate X]).
  cbn [k_new]. split; [|tauto]. intros H. split; auto. now exists y.
Qed.
Lemma pk_implicit_iff : forall rb est w t x r, pk_implicit rb est t x = Ok r <-> pk_new rb est w t x = Ok r /\ exists y, x = APointKind y.
Proof.
  intros rb est w t [a n|q|d|p|p|y|y] r; cbn [pk_implicit]; try (split; [discriminate|intros [_ [p' X]]; discriminate X]).
  cbn [pk_new]. split; [|tauto]. intros H. split; auto. now exists y.
Qed.

(** ** Taking apart and rebuilding *)

Lemma q_new_copy : forall est w q, q_new est w (q_type q) (AQuantity q) = Ok q.
Proof. intros. cbn [q_new]. now apply to_same. Qed.
Lemma p_new_relative : forall rb est w p, p_new rb est w (pt_type p) (AQuantity (relative p)) = Ok p.
Proof. intros. apply p_new_quantity; [exact I|]. split; auto. cbn [q_new]. now apply to_same. Qed.
Lemma p_new_copy : forall rb est w p, p_new rb est w (pt_type p) (APoint p) = Ok p.
Proof. intros. cbn [p_new]. apply to_iff. split; [now left|]. split; auto. now apply to_same. Qed.
Lemma k_new_common : forall est w x, k_new est w (qk_type x) (AQuantity (common x)) = Ok x.
Proof.
  intros. apply k_new_quantity; [exact I|]. split; [apply dim_equivalent_equivalence|]. split; auto. cbn [q_new]. now apply to_same.
Qed.
Lemma k_new_copy : forall est w x, k_new est w (qk_type x) (AKind x) = Ok x.
Proof. intros. cbn [k_new]. apply k_to_iff. split; [apply one_kind_refl|]. split; auto. now apply to_same. Qed.
Lemma pk_new_relative : forall rb est w x, pk_new rb est w (qpk_type x) (AKind (pk_relative x)) = Ok x.
Proof.
  intros. apply pk_new_kind; [right; eexists; reflexivity|]. split; auto. apply (k_new_copy est w (pk_relative x)).
Qed.
Lemma pk_new_copy : forall rb est w x, pk_new rb est w (qpk_type x) (APointKind x) = Ok x.
Proof.
  intros. cbn [pk_new]. apply pk_to_iff. split; [now left|]. split; auto. apply (k_new_copy est empty_world (pk_relative x)).
Qed.

(** ** Deduced arguments *)

Lemma q_deduced_new : forall est w x r, consistent w -> a_good_number x -> q_deduced w x = Ok r -> q_new est w (q_type r) x = Ok r.
Proof.
  intros est w [a n|q|d|p|p|y|y] r C N H; cbn [q_deduced] in H; try discriminate.
  - cbn [a_good_number] in N. pose proof (make_same (QType dim_one unit_one a) n N) as M. cbn [q_rep] in M. rewrite M in H.
    inversion H; subst r. exact M.
  - inversion H; subst r. apply q_new_copy.
  - destruct N as [P N]. destruct (C55_duration est w d C P N) as (t & E & R & _). rewrite E in H. inversion H; subst r.
    cbn [q_new q_type]. apply like_to_self; auto. unfold q_of_duration in E. step E as l El.
    unfold q_make in E. step E as u Eu. step E as z Ez. inversion E; subst. exact El.
Qed.
Lemma p_deduced_new : forall rb est w x r, consistent w -> a_good_number x -> p_deduced_from est w x = Ok r -> p_new rb est w (pt_type r) x = Ok r.
Proof.
  intros rb est w x r C N H.
  assert (G : plain_argument x -> p_new rb est w (pt_type r) x = Ok r).
  { intros A. assert (E : p_deduced_from est w x = bind (q_deduced w x) (fun q => Ok (p_deduced q))) by (destruct x; try contradiction; reflexivity).
    rewrite E in H. step H as q Eq. inversion H; subst r. apply p_new_quantity; auto. split; auto.
    pose proof (q_deduced_new est w x q C N Eq) as M. destruct q as [[d u rp] n]. exact M. }
  destruct x as [a n|q|d|p|p|y|y]; try (apply G; exact I); try discriminate H.
  - inversion H; subst r. apply p_new_copy.
  - destruct N as [P N]. destruct (C55_time_point est w p C P N) as (t & E & O & _). cbn [p_deduced_from] in H. rewrite E in H.
    inversion H; subst r. cbn [p_new pt_type]. unfold p_from_time_point. rewrite O.
    assert (OE : origin_equivalent rb (clock_origin (tp_clock p)) (clock_origin (tp_clock p)) = true) by (apply origin_equivalent_iff; now left).
    rewrite OE. cbn [constrained bind]. unfold p_of_time_point in E. step E as u Eu. step E as t' Et. step E as q Eq.
    inversion E; subst t'. rewrite Eq. cbn [bind]. congruence.
Qed.
Lemma k_deduced_new : forall est w x r, k_deduced_from x = Ok r -> k_new est w (qk_type r) x = Ok r.
Proof. intros est w [a n|q|d|p|p|y|y] r H; try discriminate. inversion H; subst r. apply k_new_copy. Qed.
Lemma pk_deduced_new : forall rb est w g x r, pkinds_declared g -> pk_deduced_from g x = Ok r -> pk_new rb est w (qpk_type r) x = Ok r.
Proof.
  intros rb est w g [a n|q|d|p|p|y|y] r G H; try discriminate.
  - cbn [pk_deduced_from] in H. destruct (pk_deduced_spec _ _ _ G H) as [R _]. rewrite <- R. apply pk_new_relative.
  - inversion H; subst r. apply pk_new_copy.
Qed.
