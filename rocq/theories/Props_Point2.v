(** Further theorems about points, kinds and points of kinds (C49-C53): bounds, common types,
    operands of the member operators, declarations, and the casts to a kind and a unit. *)

From Coq Require Import ZArith QArith String List Bool.
From Verif Require Import Outcome CInt Root Ratio SpecRatio FixedString Unit Downcast Dim DimOp Equivalent SpecDim SpecUnit
  Rep QuantityCast CommonQuantity Quantity SpecQuantity DimOpProofs QuantityProofs QuantityProofs5 Samples
  Point Kind PointKind SpecPoint PointProofs KindProofs SpecReal IntProofs ChronoProofs Props_Quantity Props_Point Props_More.
Import ListNotations.
Local Open Scope string_scope.
Local Open Scope list_scope.
Local Open Scope Z_scope.
Local Open Scope res_scope.

(** * Bounds *)

(** A number of the representation: an integer in its range or a finite floating-point number. *)
Definition a_value (r : rep) (n : number) : Prop :=
  match r, n with
  | RInt i, NInt z => in_range i z = true
  | RFlt f, NFlt x => is_number f x
  | _, _ => False
  end.
Lemma quantity_bounds : forall est w t n, a_value (q_rep t) n ->
  exists c d, q_compare est w (q_min t) (Quantity t n) = Ok (Some c) /\ c <> Gt /\
    q_compare est w (Quantity t n) (q_max t) = Ok (Some d) /\ d <> Gt.
Proof.
  intros est w t n V. destruct (q_rep t) as [i|f] eqn:R, n as [z|x]; try contradiction.
  - apply (bounds_same_type est w (Quantity t (NInt z)) i z). repeat split; auto.
  - now apply (C33_floating_bounds est w t f x).
Qed.

(** Every point lies between [min()] and [max()] of its type. *)
Theorem C49_bounds : forall rb est w p, a_value (p_rep (pt_type p)) (pt_num p) ->
  exists c d, p_compare rb est w (p_min (pt_type p)) p = Ok (Some c) /\ c <> Gt /\
    p_compare rb est w p (p_max (pt_type p)) = Ok (Some d) /\ d <> Gt.
Proof.
  intros rb est w [t n] V. destruct (quantity_bounds est w (p_qtype t) n V) as (c & d & H1 & H2 & H3 & H4).
  exists c, d. repeat split; auto; apply compare_iff; (split; [now left|assumption]).
Qed.
Print Assumptions C49_bounds.
(** The same for kinds and for points of kinds. *)
Theorem C52_bounds : forall est w x, a_value (kt_rep (qk_type x)) (qk_num x) ->
  exists c d, k_compare est w (k_min (qk_type x)) x = Ok (Some c) /\ c <> Gt /\
    k_compare est w x (k_max (qk_type x)) = Ok (Some d) /\ d <> Gt.
Proof.
  intros est w [t n] V. destruct (quantity_bounds est w (kt_qtype t) n V) as (c & d & H1 & H2 & H3 & H4).
  exists c, d. repeat split; auto; apply k_compare_iff; (split; [apply one_kind_refl|assumption]).
Qed.
Print Assumptions C52_bounds.
Theorem C53_bounds : forall rb est w x, a_value (pkt_rep (qpk_type x)) (qpk_num x) ->
  exists c d, pk_compare rb est w (pk_min (qpk_type x)) x = Ok (Some c) /\ c <> Gt /\
    pk_compare rb est w x (pk_max (qpk_type x)) = Ok (Some d) /\ d <> Gt.
Proof.
  intros rb est w [t n] V. destruct (C52_bounds est w (QKind (pkt_ktype t) n) V) as (c & d & H1 & H2 & H3 & H4).
  exists c, d. repeat split; auto; apply pk_compare_iff; (split; [now left|assumption]).
Qed.
Print Assumptions C53_bounds.
(** [zero()] and [one()] of a kind are those of its quantity type. *)
Theorem C52_constants : forall t, common (k_zero t) = q_zero (kt_qtype t) /\ common (k_one t) = q_one (kt_qtype t) /\
  common (k_min t) = q_min (kt_qtype t) /\ common (k_max t) = q_max (kt_qtype t) /\
  qk_type (k_zero t) = t /\ qk_type (k_one t) = t /\ qk_type (k_min t) = t /\ qk_type (k_max t) = t.
Proof. intros t. repeat split. Qed.
Print Assumptions C52_constants.

Example C49_bounds_ex : forall est,
  p_min (PType sea_level metre (RInt I16)) = Point (PType sea_level metre (RInt I16)) (NInt (-32768)) /\
  pk_max (PKType altitude_from_sea metre (RInt I16)) = QPKind (PKType altitude_from_sea metre (RInt I16)) (NInt 32767) /\
  k_min (KType width metre (RInt I16)) = QKind (KType width metre (RInt I16)) (NInt (-32768)) /\
  p_compare no_rebind est empty_world (p_max (PType sea_level metre (RInt I16))) (at_height sea_level kilometre 33) = Ok (Some Lt) /\
  a_value (RInt I16) (NInt (-4)).
Proof. intros est. repeat split; reflexivity. Qed.

(** * C52: unary plus *)

(** The promotion of a number of the representation keeps it. *)
Lemma plus_same : forall q, num_ok (q_rep (q_type q)) (q_num q) = true ->
  q_plus q = Ok (Quantity (with_rep (q_type q) (promote_rep (q_rep (q_type q)))) (q_num q)).
Proof.
  intros [[d u r] n] V. unfold q_plus. cbn [q_type q_rep q_num] in *.
  assert (P : num_ok (promote_rep r) n = true).
  { destruct r as [i|f], n as [z|x]; try discriminate V; cbn in *; [|assumption].
    destruct i as [[] []]; try assumption; unfold in_range in *; cbn in *;
      apply andb_true_iff in V; destruct V as [V1 V2]; apply Z.leb_le in V1, V2; apply andb_true_iff; split; apply Z.leb_le; Lia.lia. }
  rewrite (convert_same _ _ P). reflexivity.
Qed.
(** Unary plus of a kind has the kind, the unit and the number of its operand; that of its
    quantity has the same unit and number, of the promoted representation: only the
    representations differ, and only for the integers narrower than [int]. *)
Theorem C52_plus : forall x, num_ok (kt_rep (qk_type x)) (qk_num x) = true ->
  exists s q, k_plus x = Ok s /\ q_plus (common x) = Ok q /\
    qk_type s = qk_type x /\ qk_num s = qk_num x /\
    q_num q = qk_num x /\ q_dim (q_type q) = q_dim (q_type (common x)) /\ q_unit (q_type q) = q_unit (q_type (common x)) /\
    (q = common s <-> ~ (exists i, kt_rep (qk_type x) = RInt i /\ wbits (iwidth i) < 32)).
Proof.
  intros [t n] V. cbn [qk_type qk_num] in *. exists (QKind t n), (Quantity (with_rep (kt_qtype t) (promote_rep (kt_rep t))) n).
  split; [reflexivity|]. split; [exact (plus_same (Quantity (kt_qtype t) n) V)|]. repeat split.
  - intros E (i & R & N). apply (f_equal q_type) in E. apply (f_equal q_rep) in E. cbn in E. rewrite R in E.
    destruct i as [[] []]; try discriminate E; cbn in N; Lia.lia.
  - intros N. destruct t as [k u [i|f]]; cbn [kt_rep] in *; [|reflexivity].
    destruct i as [[] []]; try reflexivity; exfalso; apply N; eexists; split; try reflexivity; cbn; Lia.lia.
Qed.
Print Assumptions C52_plus.
Example C52_plus_ex : exists s q, k_plus (QKind (KType width metre (RInt I16)) (NInt (-4))) = Ok s /\
  q_plus (common (QKind (KType width metre (RInt I16)) (NInt (-4)))) = Ok q /\
  qk_num s = NInt (-4) /\ q_num q = NInt (-4) /\ q_rep (q_type q) = RInt I32 /\ kt_rep (qk_type s) = RInt I16.
Proof. eexists. eexists. repeat split; reflexivity. Qed.

(** * C50: the common type of two points *)

(** It exists only for one origin.  It has the unit and representation of the common type of
    the quantities, and the first origin, rebound if the common dimension is another. *)
Theorem C50_common_type : forall rb est w a b t, common_point rb est w a b = Ok t ->
  one_origin rb (p_origin a) (p_origin b) /\
  exists q, common_quantity est w (p_qtype a) (p_qtype b) (common_rep (p_rep a) (p_rep b)) = Ok q /\
    p_unit t = q_unit q /\ p_rep t = common_rep (p_rep a) (p_rep b) /\
    (q_dim q = o_dim (p_origin a) -> p_origin t = p_origin a) /\
    (q_dim q <> o_dim (p_origin a) ->
      match p_origin a with ODynamic _ => p_origin t = ODynamic (q_dim q) | OUser n d => rb n d (q_dim q) = Some (p_origin t) end).
Proof.
  intros rb est w a b t H. unfold common_point in H. apply constrained_iff in H. destruct H as [O H].
  apply origin_equivalent_iff, one_origin_sym in O. split; [exact O|]. step H as q Eq. exists q. split; [exact Eq|].
  assert (R : q_rep q = common_rep (p_rep a) (p_rep b)).
  { unfold common_quantity in Eq. step Eq as c Ec. step Eq as du Edu. unfold mk_qtype in Eq. step Eq as c' Ec'. now inversion Eq. }
  unfold rebind in H. destruct (dimension_eq_dec (o_dim (p_origin a)) (q_dim q)) as [D|D].
  - unfold mk_ptype in H. step H as c Ec. inversion H; subst t. cbn [p_unit p_rep p_origin]. repeat split; auto. congruence.
  - destruct (p_origin a) as [d|n d] eqn:E; cbn [o_dim] in *.
    + unfold mk_ptype in H. step H as c Ec. inversion H; subst t. cbn [p_unit p_rep p_origin]. repeat split; auto. congruence.
    + destruct (rb n d (q_dim q)) as [o|] eqn:F; [|discriminate].
      unfold mk_ptype in H. step H as c Ec. inversion H; subst t. cbn [p_unit p_rep p_origin]. repeat split; auto. congruence.
Qed.
Print Assumptions C50_common_type.
(** With the usual origins its quantity type is the common one, and its origin stands for the
    same point as both. *)
Theorem C50_common_type_usual : forall rb est w a b t, usual rb -> common_point rb est w a b = Ok t ->
  common_quantity est w (p_qtype a) (p_qtype b) (common_rep (p_rep a) (p_rep b)) = Ok (p_qtype t) /\
  (dim_equivalent (o_dim (p_origin t)) (o_dim (p_origin a)) = true ->
   one_origin rb (p_origin a) (p_origin t) /\ one_origin rb (p_origin b) (p_origin t)).
Proof.
  intros rb est w a b t U H. destruct (C50_common_type _ _ _ _ _ _ H) as (O & q & Eq & Hu & Hr & Hs & Hd).
  assert (R : q_rep q = common_rep (p_rep a) (p_rep b)).
  { unfold common_quantity in Eq. step Eq as c Ec. step Eq as du Edu. unfold mk_qtype in Eq. step Eq as c' Ec'. now inversion Eq. }
  assert (Rb : rebind rb (p_origin a) (q_dim q) = Some (p_origin t)).
  { unfold rebind. destruct (dimension_eq_dec (o_dim (p_origin a)) (q_dim q)) as [D|D].
    - f_equal. symmetry. apply Hs. congruence.
    - assert (D' : q_dim q <> o_dim (p_origin a)) by congruence. specialize (Hd D'). destruct (p_origin a); congruence. }
  pose proof (usual_rebind _ U _ _ _ Rb) as D.
  assert (T : p_qtype t = q). { unfold p_qtype. rewrite Hu, Hr, <- R, D. now destruct q. }
  split; [now rewrite T|]. intros E.
  assert (X : one_origin rb (p_origin a) (p_origin t)) by (apply (usual_one_origin rb U _ _ _ Rb); rewrite <- D; exact E).
  split; [exact X|]. exact (one_origin_trans rb U _ _ _ (one_origin_sym _ _ _ O) X).
Qed.
Print Assumptions C50_common_type_usual.
Example C50_common_type_ex : forall est,
  common_point no_rebind est empty_world (PType sea_level kilometre (RInt I64)) (PType sea_level metre (RInt I32)) =
    Ok (PType sea_level metre_ (RInt I64)) /\
  common_point no_rebind est empty_world (PType sea_level kilometre (RInt I64)) (PType ground_level metre (RInt I32)) = IllFormed.
Proof. intros est. split; reflexivity. Qed.

(** * C52: operands, declarations and casts of kinds *)

(** A member operator takes only the operands its kind allows. *)
Theorem C52_member_operands : forall est g x a r, kinds_declared g -> k_act est g x a = Ok r -> operand_ok x a.
Proof.
  intros est g x a r G H. unfold k_act in H. cbv zeta in H. step H as q Eq. clear H.
  assert (One : forall y, one_kind g (qk_kind x) y = true ->
    k_base (qk_kind y) = k_base (qk_kind x) /\ k_dim (qk_kind y) = dim_one /\ kt_unit (qk_type y) = unit_one).
  { intros y E. unfold one_kind in E. apply andb_true_iff in E. destruct E as [K U].
    destruct (kind_eq_dec (qk_kind y) (downcast_kind g (qk_kind x) dim_one)) as [X|]; [|discriminate].
    destruct (downcast_kind_spec g (qk_kind x) dim_one G) as [B D]. rewrite X. split; [exact B|]. split; [exact D|].
    unfold is_unit_one in U. destruct (cunit_eq_dec (kt_unit (qk_type y)) unit_one); congruence. }
  destruct a; cbn [operand_ok]; auto.
  - step Eq as y Ey. apply k_to_iff in Ey. apply one_kind_sym. apply Ey.
  - step Eq as y Ey. apply k_to_iff in Ey. apply one_kind_sym. apply Ey.
  - apply constrained_iff in Eq. apply kind_equivalent_iff. apply Eq.
  - apply constrained_iff in Eq. apply One, Eq.
  - apply constrained_iff in Eq. apply One, Eq.
  - apply constrained_iff in Eq. apply One, Eq.
Qed.
Print Assumptions C52_member_operands.

(** A declared kind, base or derived, is what products of its base kind and dimension become. *)
Theorem C52_declared_base : forall mode n d g g', mode <> Off -> declare_kind mode n d g = Ok g' ->
  has_guide kind_key_eq_dec g (BKind n d, d) = false -> has_poison kind_key_eq_dec g (BKind n d, d) = false ->
  downcast_kind g' (Kind (Some n) (BKind n d) d) d = Kind (Some n) (BKind n d) d.
Proof.
  intros mode n d g g' M H N P. unfold declare_kind, declare in H. unfold has_guide, has_poison in *.
  destruct (find_guide kind_key_eq_dec (guides g) (BKind n d, d)) eqn:E; [discriminate|].
  destruct (in_dec kind_key_eq_dec (BKind n d, d) (poison g)) as [|I] eqn:E'; [discriminate|].
  destruct mode; [contradiction| |]; inversion H; subst g'; unfold downcast_kind, downcast, has_poison; cbn [guides poison find_guide k_base];
    (destruct (kind_key_eq_dec (BKind n d, d) (BKind n d, d)) as [_|X]; [|now contradiction X]);
    (destruct (in_dec kind_key_eq_dec (BKind n d, d) (poison g)); [contradiction|reflexivity]).
Qed.
Print Assumptions C52_declared_base.
Theorem C52_declared_derived : forall mode n d bk g g', mode <> Off -> declare_derived_kind mode n d bk g = Ok g' ->
  bk = base_kind bk /\
  (has_guide kind_key_eq_dec g (k_base bk, d) = false -> has_poison kind_key_eq_dec g (k_base bk, d) = false ->
   forall k, k_base k = k_base bk -> downcast_kind g' k d = Kind (Some n) (k_base bk) d).
Proof.
  intros mode n d bk g g' M H. unfold declare_derived_kind in H. apply constrained_iff in H. destruct H as [B H].
  split; [destruct (kind_eq_dec bk (base_kind bk)); congruence|]. intros N P k K.
  unfold declare in H. unfold has_guide, has_poison in *.
  destruct (find_guide kind_key_eq_dec (guides g) (k_base bk, d)) eqn:E; [discriminate|].
  destruct (in_dec kind_key_eq_dec (k_base bk, d) (poison g)) as [|I] eqn:E'; [discriminate|].
  destruct mode; [contradiction| |]; inversion H; subst g'; unfold downcast_kind, downcast, has_poison; rewrite K; cbn [guides poison find_guide k_base];
    (destruct (kind_key_eq_dec (k_base bk, d) (k_base bk, d)) as [_|X]; [|now contradiction X]);
    (destruct (in_dec kind_key_eq_dec (k_base bk, d) (poison g)); [contradiction|reflexivity]).
Qed.
Print Assumptions C52_declared_derived.

(** [%] with a quantity takes a dimensionless one. *)
Theorem C52_remainder_by_quantity : forall est x q s, k_rem_q est x q = Ok s ->
  dim_equivalent (q_dim (q_type q)) dim_one = true /\ qk_kind s = qk_kind x /\
  exists p, q_rem (common x) q = Ok p /\ kt_unit (qk_type s) = q_unit (q_type p) /\ kt_rep (qk_type s) = q_rep (q_type p) /\
    (q_dim (q_type p) = k_dim (qk_kind x) -> common s = p).
Proof.
  intros est x q s H. unfold k_rem_q in H. apply constrained_iff in H. destruct H as [D H]. step H as p Ep.
  destruct (k_make_spec _ _ _ _ H) as (K & U & R & E). split; auto. split; auto. exists p. repeat split; auto.
Qed.
Print Assumptions C52_remainder_by_quantity.

(** The cast to a kind and a unit stays within equivalent dimensions. *)
Theorem C52_cast_to_kind_and_unit : forall est k u x r, kind_cast_kind_unit est k u x = Ok r <->
  dim_equivalent (k_dim k) (k_dim (qk_kind x)) = true /\ unit_of u (k_dim k) = true /\
  qk_type r = KType k u (kt_rep (qk_type x)) /\
  quantity_cast est (kt_qtype (qk_type x)) (QType (k_dim k) u (kt_rep (qk_type x))) (qk_num x) = Ok (qk_num r).
Proof.
  intros est k u x r. unfold kind_cast_kind_unit. rewrite constrained_iff. unfold mk_ktype, mk_qtype.
  destruct (unit_of u (k_dim k)); cbn [constrained bind]; [|split; [intros []; discriminate|intros (_ & X & _); discriminate]].
  unfold kind_cast_to. change (kt_qtype (KType k u (kt_rep (qk_type x)))) with (QType (k_dim k) u (kt_rep (qk_type x))).
  destruct (quantity_cast est (kt_qtype (qk_type x)) (QType (k_dim k) u (kt_rep (qk_type x))) (qk_num x)) as [n| | | |];
    cbn [bind]; (split; [intros [D E]|intros (D & _ & T & E)]); try discriminate.
  - inversion E; subst r. auto.
  - split; auto. destruct r as [t m]. cbn [qk_type qk_num] in *. congruence.
Qed.
Print Assumptions C52_cast_to_kind_and_unit.

(** The common type of two kinds. *)
Theorem C52_common_type : forall est w a b t, common_ktype est w a b = Ok t ->
  one_kind_of (kt_kind a) (kt_kind b) /\ kt_kind t = kt_kind a /\
  exists q, common_quantity est w (kt_qtype a) (kt_qtype b) (common_rep (kt_rep a) (kt_rep b)) = Ok q /\
    kt_unit t = q_unit q /\ kt_rep t = q_rep q.
Proof.
  intros est w a b t H. unfold common_ktype in H. apply constrained_iff in H. destruct H as [K H].
  apply kind_equivalent_iff, one_kind_sym in K. split; auto. step H as q Eq. unfold mk_ktype in H. step H as c Ec.
  inversion H; subst t. split; auto. exists q. auto.
Qed.
Print Assumptions C52_common_type.

(** An area based on width; 7 m modulo a width-ratio; casts. *)
Definition area : dimension := DUnknown [BExp dim_L 2 1] [BExp dim_L 2 1].
Definition width_area : kind := Kind (Some "width_area") (k_base width) area.
Definition more_kinds : kinds :=
  match declare_derived_kind Automatic "width_area" area width some_kinds with Ok g => g | _ => empty_registry end.
Example C52_declared_ex :
  declare_derived_kind Automatic "width_area" area width some_kinds = Ok more_kinds /\
  has_guide kind_key_eq_dec some_kinds (k_base width, area) = false /\
  has_poison kind_key_eq_dec some_kinds (k_base width, area) = false /\
  downcast_kind more_kinds width area = width_area /\
  declare_derived_kind Automatic "wrong" area width_area some_kinds = IllFormed.
Proof. repeat split; reflexivity. Qed.
Definition width_ratio (n : Z) : qkind := QKind (KType (Kind None (k_base width) dim_one) unit_one (RInt I64)) (NInt n).
Example C52_operands_ex : forall est,
  k_act est some_kinds (of_kind width metre 6) (KMulK (width_ratio 7)) = Ok (of_kind width metre 42) /\
  k_act est some_kinds (of_kind width metre 6) (KMulK (of_kind width metre 7)) = IllFormed /\
  k_act est some_kinds (of_kind width metre 6) (KRem (of_kind width metre 4)) = Ok (of_kind width metre 2) /\
  k_act est some_kinds (of_kind width metre 6) (KRem (of_kind depth metre 4)) = IllFormed /\
  k_rem_q est (of_kind width metre 6) (Quantity (QType dim_one unit_one (RInt I64)) (NInt 4)) = Ok (of_kind width metre 2) /\
  k_rem_q est (of_kind width metre 6) (len metre 4) = IllFormed /\
  kind_cast_kind_unit est depth kilometre (of_kind width metre 6500) = Ok (of_kind depth kilometre 6) /\
  kind_cast_kind_unit est (Kind (Some "age") (BKind "age" (DBase dim_T)) (DBase dim_T)) second (of_kind width metre 6) = IllFormed.
Proof. intros est. repeat split; reflexivity. Qed.

(** * C53: constructors and casts of points of kinds *)

(** A point of a kind is made from a quantity point exactly if their origins stand for the
    same point and the quantity it holds is implicitly convertible; the number is converted
    as for the quantity, and kept if the units and representations agree. *)
Theorem C53_from_point : forall rb est t p r, pk_of_point rb est t p = Ok r <->
  one_origin rb (p_origin (pt_type p)) (pk_origin (pkt_kind t)) /\ qpk_type r = t /\
  q_convert est (p_qtype (pt_type p)) (QType (o_dim (pk_origin (pkt_kind t))) (pkt_unit t) (pkt_rep t)) (pt_num p) = Ok (qpk_num r).
Proof.
  intros rb est t p r. unfold pk_of_point, p_to. rewrite <- origin_equivalent_iff. cbn [pkt_ptype p_origin].
  destruct (origin_equivalent rb (p_origin (pt_type p)) (pk_origin (pkt_kind t))); cbn [constrained bind];
    [|split; [discriminate|intros [X _]; discriminate X]].
  unfold p_make. cbn [relative q_type q_num]. change (p_qtype (pkt_ptype t)) with (QType (o_dim (pk_origin (pkt_kind t))) (pkt_unit t) (pkt_rep t)).
  destruct (q_convert est (p_qtype (pt_type p)) _ (pt_num p)) as [n| | | |]; cbn [bind pt_num];
    (split; [intros E|intros (_ & T & E)]); try discriminate.
  - inversion E; subst r. auto.
  - destruct r as [t' m]. cbn [qpk_type qpk_num] in *. congruence.
Qed.
Print Assumptions C53_from_point.

(** Casts to a full type and to a point kind and a unit stay within one origin, the second
    also within equivalent dimensions; both keep the origin of the target. *)
Theorem C53_cast_to_type : forall rb est t x r, pk_cast_to rb est t x = Ok r <->
  one_origin rb (pk_origin (qpk_kind x)) (pk_origin (pkt_kind t)) /\ qpk_type r = t /\
  quantity_cast est (kt_qtype (pkt_ktype (qpk_type x))) (kt_qtype (pkt_ktype t)) (qpk_num x) = Ok (qpk_num r).
Proof.
  intros rb est t x r. unfold pk_cast_to. rewrite constrained_iff, origin_equivalent_iff. unfold kind_cast_to, pk_relative.
  cbn [qk_type qk_num].
  destruct (quantity_cast est (kt_qtype (pkt_ktype (qpk_type x))) (kt_qtype (pkt_ktype t)) (qpk_num x)) as [n| | | |];
    cbn [bind]; (split; [intros [D E]|intros (D & T & E)]); try discriminate.
  - inversion E; subst r. auto.
  - split; auto. destruct r as [t' m]. cbn [qpk_type qpk_num qk_num] in *. congruence.
Qed.
Print Assumptions C53_cast_to_type.
Theorem C53_cast_to_kind_and_unit : forall rb est p u x r, pk_cast_kind_unit rb est p u x = Ok r <->
  dim_equivalent (k_dim (pk_base p)) (k_dim (pk_base (qpk_kind x))) = true /\ unit_of u (k_dim (pk_base p)) = true /\
  one_origin rb (pk_origin (qpk_kind x)) (pk_origin p) /\ qpk_type r = PKType p u (pkt_rep (qpk_type x)) /\
  quantity_cast est (kt_qtype (pkt_ktype (qpk_type x))) (QType (k_dim (pk_base p)) u (pkt_rep (qpk_type x))) (qpk_num x) =
    Ok (qpk_num r).
Proof.
  intros rb est p u x r. unfold pk_cast_kind_unit. rewrite constrained_iff, andb_true_iff, C53_cast_to_type. cbn [pkt_kind]. tauto.
Qed.
Print Assumptions C53_cast_to_kind_and_unit.
(** The casts to a point kind and to anything a kind casts to: the cast of the kind, from the
    dynamic origin. *)
Theorem C53_cast_to_kind : forall est g p x r, pkinds_declared g -> pk_cast_kind est g p x = Ok r ->
  unit_of (pkt_unit (qpk_type x)) (k_dim (pk_base p)) = true /\
  kind_cast_kind est (pk_base p) (pk_relative x) = Ok (pk_relative r) /\
  pk_origin (qpk_kind r) = ODynamic (k_dim (pk_base (qpk_kind r))).
Proof.
  intros est g p x r G H. unfold pk_cast_kind in H. apply constrained_iff in H. destruct H as [U H]. step H as k Ek.
  destruct (pk_deduced_spec _ _ _ G H) as [R O]. rewrite R. split; auto. split; auto. rewrite O, <- R. reflexivity.
Qed.
Print Assumptions C53_cast_to_kind.
Theorem C53_cast_other : forall est w g c x r, pkinds_declared g -> pk_cast est w g c x = Ok r ->
  kind_cast est w c (pk_relative x) = Ok (pk_relative r) /\
  pk_origin (qpk_kind r) = ODynamic (k_dim (pk_base (qpk_kind r))).
Proof.
  intros est w g c x r G H. unfold pk_cast in H. step H as k Ek.
  destruct (pk_deduced_spec _ _ _ G H) as [R O]. rewrite R. split; auto. rewrite O, <- R. reflexivity.
Qed.
Print Assumptions C53_cast_other.

Definition depth_from_sea : pkind := PKind (Some "dive") depth sea_level.
Example C53_cast_ex : forall est,
  pk_of_point no_rebind est (PKType altitude_from_sea metre (RInt I64)) (at_height sea_level metre 7) = Ok (pk_at altitude_from_sea metre 7) /\
  pk_of_point no_rebind est (PKType altitude_from_sea metre (RInt I64)) (at_height sea_level kilometre 7) = Ok (pk_at altitude_from_sea metre 7000) /\
  pk_of_point no_rebind est (PKType altitude_from_sea kilometre (RInt I64)) (at_height sea_level metre 7) = IllFormed /\
  pk_of_point no_rebind est (PKType altitude_from_sea metre (RInt I64)) (at_height ground_level metre 7) = IllFormed /\
  pk_cast_kind_unit no_rebind est depth_from_sea kilometre (pk_at altitude_from_sea metre 7800) = Ok (pk_at depth_from_sea kilometre 7) /\
  pk_cast_kind_unit no_rebind est floating kilometre (pk_at altitude_from_sea metre 7800) = IllFormed /\
  pk_cast est empty_world empty_registry (KTo (ToUnit kilometre)) (pk_at altitude_from_sea metre 7800) = Ok (pk_at floating kilometre 7).
Proof. intros est. repeat split; reflexivity. Qed.
