(** Theorems about construction (C82): what quantities, points, kinds and points of kinds are
    made from, and what the object made holds. *)

From Coq Require Import ZArith QArith String List Lia Lqa Bool.
From Verif Require Import Outcome CInt Root Ratio SpecRatio Unit Downcast Dim DimOp Equivalent SpecDim SpecUnit DimProofs Rep QuantityCast
  CommonQuantity Quantity SpecQuantity DimOpProofs MagnitudeProofs CastProofs Point Kind PointKind SpecPoint PointProofs KindProofs
  Chrono ChronoProofs Plain Construct SpecConstruct ConstructProofs Samples Props_Quantity Props_Chrono Props_Point.
Import ListNotations.
Local Open Scope string_scope.
Local Open Scope Z_scope.

(** * The value *)

(** Whatever an object of 64-bit representation is made from, it has the physical value of the
    argument. *)
Theorem C82_quantity_value : forall est w t m x v r, consistent w -> sized est t m -> q_rep t = RInt I64 ->
  worth est w t m x v -> q_new est w t x = Ok r -> q_type r = t /\ valued est r v.
Proof. exact q_new_value. Qed.
Print Assumptions C82_quantity_value.
Theorem C82_point_value : forall rb est w t m x v r, consistent w -> sized est (p_qtype t) m -> p_rep t = RInt I64 ->
  worth est w (p_qtype t) m x v -> p_new rb est w t x = Ok r -> pt_type r = t /\ located est r v.
Proof. exact p_new_value. Qed.
Print Assumptions C82_point_value.
Theorem C82_kind_value : forall est w t m x v r, consistent w -> sized est (kt_qtype t) m -> kt_rep t = RInt I64 ->
  worth est w (kt_qtype t) m x v -> k_new est w t x = Ok r -> qk_type r = t /\ valued est (common r) v.
Proof. exact k_new_value. Qed.
Print Assumptions C82_kind_value.
Theorem C82_point_kind_value : forall rb est w t m x v r, consistent w -> is_point_kind (pkt_kind t) = true ->
  sized est (kt_qtype (pkt_ktype t)) m -> pkt_rep t = RInt I64 ->
  worth est w (kt_qtype (pkt_ktype t)) m x v -> pk_new rb est w t x = Ok r -> qpk_type r = t /\ pk_located est r v.
Proof. exact pk_new_value. Qed.
Print Assumptions C82_point_kind_value.

(** * The arguments *)

(** Nothing is made from something of another dimension, of another kind, or of another origin;
    no quantity from a point or a kind, no kind from a point, no point from a kind. *)
Theorem C82_quantity_source : forall est w t x r, q_new est w t x = Ok r -> quantity_source (q_dim t) x.
Proof. exact q_new_source. Qed.
Print Assumptions C82_quantity_source.
Theorem C82_point_source : forall rb est w t x r, p_new rb est w t x = Ok r -> point_source rb (p_origin t) x.
Proof. exact p_new_source. Qed.
Print Assumptions C82_point_source.
Theorem C82_kind_source : forall est w t x r, k_new est w t x = Ok r -> kind_source (kt_kind t) x.
Proof. exact k_new_source. Qed.
Print Assumptions C82_kind_source.
Theorem C82_point_kind_source : forall rb est w t x r, pk_new rb est w t x = Ok r -> point_kind_source rb (pkt_kind t) x.
Proof. exact pk_new_source. Qed.
Print Assumptions C82_point_kind_source.

(** From a number, a quantity or a duration a point is made exactly as its quantity is, and a
    kind too, but from a number only a kind without dimension; from these and from kinds a
    point of a kind is made exactly as its kind is. *)
Theorem C82_point_as_quantity : forall rb est w t x r,
  match x with ANumber _ _ | AQuantity _ | ADuration _ => True | _ => False end ->
  (p_new rb est w t x = Ok r <-> pt_type r = t /\ q_new est w (p_qtype t) x = Ok (relative r)).
Proof. exact p_new_quantity. Qed.
Print Assumptions C82_point_as_quantity.
Theorem C82_kind_as_quantity : forall est w t x r,
  match x with ANumber _ _ | AQuantity _ | ADuration _ => True | _ => False end ->
  (k_new est w t x = Ok r <->
   match x with ANumber _ _ => dim_equivalent (k_dim (kt_kind t)) dim_one = true | _ => True end /\
   qk_type r = t /\ q_new est w (kt_qtype t) x = Ok (common r)).
Proof.
  intros est w t x r A. rewrite (k_new_quantity est w t x r A). destruct x as [a n|q|d|p|p|y|y]; try contradiction; cbn [kind_source].
  - tauto.
  - split; [tauto|]. intros (_ & T & H). split; auto. now apply q_new_source in H.
  - split; [tauto|]. intros (_ & T & H). split; auto. now apply q_new_source in H.
Qed.
Print Assumptions C82_kind_as_quantity.
Theorem C82_point_kind_as_kind : forall rb est w t x r,
  match x with ANumber _ _ | AQuantity _ | ADuration _ | AKind _ => True | _ => False end ->
  (pk_new rb est w t x = Ok r <-> qpk_type r = t /\ k_new est w (pkt_ktype t) x = Ok (pk_relative r)).
Proof.
  intros rb est w t x r A. apply pk_new_kind. destruct x as [a n|q|d|p|p|y|y]; try contradiction; try (left; exact I).
  right. now exists y.
Qed.
Print Assumptions C82_point_kind_as_kind.

(** A point of any dimension is made from a bare number; a kind with a dimension and a point of
    such a kind never. *)
Theorem C82_number : forall rb est w r n,
  (forall t z, (Rep.floating (p_rep t) = true \/ Rep.floating r = false) -> n_convert (p_rep t) n = Ok z ->
    p_new rb est w t (ANumber r n) = Ok (Point t z)) /\
  (forall t, dim_equivalent (k_dim (kt_kind t)) dim_one = false -> k_new est w t (ANumber r n) = IllFormed) /\
  (forall t, dim_equivalent (k_dim (pk_base (pkt_kind t))) dim_one = false -> pk_new rb est w t (ANumber r n) = IllFormed).
Proof.
  intros rb est w r n. split; [|split].
  - intros t z S E. cbn [p_new q_new]. unfold q_make. change (q_rep (p_qtype t)) with (p_rep t).
    assert (C : safe_convertible r (p_rep t) = true) by (unfold safe_convertible; destruct S as [-> | ->]; destruct (Rep.floating (p_rep t)); reflexivity).
    rewrite C, E. reflexivity.
  - intros t D. cbn [k_new]. unfold dimensionless. now rewrite D.
  - intros t D. cbn [pk_new k_new]. unfold dimensionless. cbn [pkt_ktype kt_kind]. now rewrite D.
Qed.
Print Assumptions C82_number.

(** * Implicit conversions *)

(** They do what the constructor does; they exist from an object of the same class template
    and, for quantities without dimension and unit, from a number. *)
Theorem C82_implicit_quantity : forall est w t x r, q_implicit est t x = Ok r <->
  q_new est w t x = Ok r /\ ((exists q, x = AQuantity q) \/ (exists a n, x = ANumber a n /\ q_dim t = dim_one /\ q_unit t = unit_one)).
Proof. exact q_implicit_iff. Qed.
Print Assumptions C82_implicit_quantity.
Theorem C82_implicit_point : forall rb est w t x r, p_implicit rb est t x = Ok r <->
  p_new rb est w t x = Ok r /\ exists p, x = APoint p.
Proof. exact p_implicit_iff. Qed.
Print Assumptions C82_implicit_point.
Theorem C82_implicit_kind : forall est w t x r, k_implicit est t x = Ok r <->
  k_new est w t x = Ok r /\ exists y, x = AKind y.
Proof. exact k_implicit_iff. Qed.
Print Assumptions C82_implicit_kind.
Theorem C82_implicit_point_kind : forall rb est w t x r, pk_implicit rb est t x = Ok r <->
  pk_new rb est w t x = Ok r /\ exists y, x = APointKind y.
Proof. exact pk_implicit_iff. Qed.
Print Assumptions C82_implicit_point_kind.

(** * Taking apart and deducing *)

(** An object is rebuilt from its part: [T(x.common())], [T(x.relative())] and the copy [T(x)]
    are [x]. *)
Theorem C82_rebuilt : forall rb est w,
  (forall q, q_new est w (q_type q) (AQuantity q) = Ok q) /\
  (forall p, p_new rb est w (pt_type p) (AQuantity (relative p)) = Ok p /\ p_new rb est w (pt_type p) (APoint p) = Ok p) /\
  (forall x, k_new est w (qk_type x) (AQuantity (common x)) = Ok x /\ k_new est w (qk_type x) (AKind x) = Ok x) /\
  (forall x, pk_new rb est w (qpk_type x) (AKind (pk_relative x)) = Ok x /\ pk_new rb est w (qpk_type x) (APointKind x) = Ok x).
Proof.
  intros rb est w. split; [apply q_new_copy|]. split; [intros p; split; [apply p_new_relative|apply p_new_copy]|].
  split; intros x; split; [apply k_new_common|apply k_new_copy|apply pk_new_relative|apply pk_new_copy].
Qed.
Print Assumptions C82_rebuilt.

(** With the template arguments left out the object is the one made with the type it has. *)
Theorem C82_deduced : forall rb est w g x, consistent w -> pkinds_declared g -> a_good_number x ->
  (forall r, q_deduced w x = Ok r -> q_new est w (q_type r) x = Ok r) /\
  (forall r, p_deduced_from est w x = Ok r -> p_new rb est w (pt_type r) x = Ok r) /\
  (forall r, k_deduced_from x = Ok r -> k_new est w (qk_type r) x = Ok r) /\
  (forall r, pk_deduced_from g x = Ok r -> pk_new rb est w (qpk_type r) x = Ok r).
Proof.
  intros rb est w g x C G N. split; [|split; [|split]]; intros r H.
  - now apply q_deduced_new.
  - now apply p_deduced_new.
  - now apply k_deduced_new.
  - eapply pk_deduced_new; eauto.
Qed.
Print Assumptions C82_deduced.
(** It exists for: numbers, quantities and durations; these, points and time points; kinds;
    kinds and points of kinds.  The deduced unit, representation and number are those of the
    argument, the origin the dynamic one or that of the clock. *)
Theorem C82_deduced_from : forall est w g x, consistent w -> a_good_number x ->
  match x with
  | ANumber r n => q_deduced w x = Ok (Quantity (QType dim_one unit_one r) n) /\
      p_deduced_from est w x = Ok (Point (PType (ODynamic dim_one) unit_one r) n)
  | AQuantity q => q_deduced w x = Ok q /\
      p_deduced_from est w x = Ok (Point (PType (ODynamic (q_dim (q_type q))) (q_unit (q_type q)) (q_rep (q_type q))) (q_num q))
  | ADuration d => exists u, q_deduced w x = Ok (Quantity (QType (DBase si_dim_time) u (dur_rep (dur_type d))) (dur_count d)) /\
      p_deduced_from est w x = Ok (Point (PType (ODynamic (DBase si_dim_time)) u (dur_rep (dur_type d))) (dur_count d)) /\
      sized est (QType (DBase si_dim_time) u (dur_rep (dur_type d))) (period (dur_type d))
  | APoint p => q_deduced w x = IllFormed /\ p_deduced_from est w x = Ok p
  | ATime p => q_deduced w x = IllFormed /\
      exists u, p_deduced_from est w x =
        Ok (Point (PType (clock_origin (tp_clock p)) u (dur_rep (dur_type (tp_since_epoch p)))) (dur_count (tp_since_epoch p)))
  | AKind y => q_deduced w x = IllFormed /\ p_deduced_from est w x = IllFormed /\ k_deduced_from x = Ok y
  | APointKind y => q_deduced w x = IllFormed /\ p_deduced_from est w x = IllFormed /\ k_deduced_from x = IllFormed /\
      pk_deduced_from g x = Ok y
  end.
Proof.
  intros est w g [r n|q|d|p|p|y|y] C N; cbn [a_good_number] in N; try (repeat split; reflexivity).
  - pose proof (make_same (QType dim_one unit_one r) n N) as M. cbn [q_rep] in M. cbn [q_deduced p_deduced_from]. rewrite M. split; reflexivity.
  - destruct N as [P N]. destruct (C55_duration est w d C P N) as ([dt u rt] & E & R & D & S). cbn [q_rep q_dim] in *. subst dt rt.
    exists u. cbn [q_deduced p_deduced_from]. rewrite E. split; [reflexivity|]. split; [reflexivity|exact S].
  - destruct N as [P N]. destruct (C55_time_point est w p C P N) as ([o u rt] & E & O & R & _). cbn [p_origin p_rep] in *. subst o rt.
    split; [reflexivity|]. exists u. exact E.
Qed.
Print Assumptions C82_deduced_from.

(** * Cases *)

Definition of_metres : ktype := KType width metre (RInt I64).
Definition above_sea : pktype := PKType altitude_from_sea metre (RInt I64).
Definition apple : kind := Kind (Some "apple") (BKind "apple" dim_one) dim_one.
Example C82_ex : forall est w,
  q_new est w (lengths metre I64) (AQuantity (len kilometre 3)) = Ok (len metre 3000) /\
  q_new est w (lengths kilometre I64) (AQuantity (len metre 3)) = IllFormed /\
  q_new est w (lengths metre I64) (AKind (of_kind width metre 3)) = IllFormed /\
  k_new est w of_metres (AQuantity (len kilometre 3)) = Ok (of_kind width metre 3000) /\
  k_new est w of_metres (AKind (of_kind width kilometre 3)) = Ok (of_kind width metre 3000) /\
  k_new est w of_metres (AKind (of_kind depth metre 3)) = IllFormed /\
  k_new est w of_metres (ANumber (RInt I64) (NInt 3)) = IllFormed /\
  k_new est w (KType apple unit_one (RInt I64)) (ANumber (RInt I64) (NInt 3)) = Ok (of_kind apple unit_one 3) /\
  p_new no_rebind est w (pt_type (at_height sea_level metre 0)) (ANumber (RInt I64) (NInt 3)) = Ok (at_height sea_level metre 3) /\
  p_new no_rebind est w (pt_type (at_height sea_level metre 0)) (APoint (at_height ground_level metre 3)) = IllFormed /\
  p_implicit no_rebind est (pt_type (at_height sea_level metre 0)) (AQuantity (len metre 3)) = IllFormed /\
  pk_new no_rebind est w above_sea (AQuantity (len kilometre 3)) = Ok (pk_at altitude_from_sea metre 3000) /\
  pk_new no_rebind est w above_sea (APoint (at_height sea_level kilometre 3)) = Ok (pk_at altitude_from_sea metre 3000) /\
  pk_new no_rebind est w above_sea (APoint (at_height ground_level metre 3)) = IllFormed /\
  pk_new no_rebind est w above_sea (ANumber (RInt I64) (NInt 3)) = IllFormed.
Proof. intros est w. repeat split; reflexivity. Qed.
(** Arguments of each sort, with what they are worth. *)
Definition d_min : duration := Duration d_minutes (NInt 90).
Definition time_ms : qtype := QType (DBase si_dim_time) (CUnit None [] (Ratio 1 1 (-3)) "si::second" false None "no_prefix") (RInt I64).
Example C82_ex_worth : forall est,
  sized est (lengths metre I64) (rval (u_ratio metre)) /\
  worth est empty_world (lengths metre I64) (rval (u_ratio metre)) (AKind (of_kind width kilometre 3)) 3000 /\
  worth est empty_world (lengths metre I64) (rval (u_ratio metre)) (APoint (at_height sea_level kilometre 3)) 3000 /\
  worth est empty_world (lengths metre I64) (rval (u_ratio metre)) (ANumber (RInt I64) (NInt 3)) 3 /\
  worth est empty_world time_ms (1 # 1000) (ADuration d_min) 5400 /\
  q_new est empty_world time_ms (ADuration d_min) = Ok (Quantity time_ms (NInt 5400000)) /\
  a_good_number (ADuration d_min) /\ is_point_kind altitude_from_sea = true.
Proof.
  intros est. destruct good_units as (Gm & Gk & _).
  split; [now apply sized_length|].
  assert (Q : worth est empty_world (lengths metre I64) (rval (u_ratio metre)) (AQuantity (len kilometre 3)) 3000).
  { apply (worth_quantity _ _ _ _ _ I64 3 (rval (u_ratio kilometre))); [discriminate| |now apply sized_length|apply references_ok_refl; reflexivity|reflexivity].
    split; [|split]; reflexivity. }
  split; [apply worth_kind; exact Q|]. split; [apply worth_point; exact Q|].
  split; [apply worth_number; [discriminate|reflexivity|reflexivity]|].
  assert (P : period_ok (dur_type d_min)) by (vm_compute; repeat split; congruence).
  split; [|split; [vm_compute; reflexivity|split; [split; [exact P|reflexivity]|reflexivity]]].
  apply (worth_duration _ _ _ _ _ I64 90); try reflexivity; try discriminate; [exact P|].
  intros l El. apply references_ok_refl. unfold like_type, mk_qtype in El. step El as u Eu. step El as v Ev. inversion El. reflexivity.
Qed.
