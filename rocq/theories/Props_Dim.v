(** Theorems about dimensions, symbols and downcasting (C35-C42, C44, C48, C57). *)

From Coq Require Import ZArith QArith Qreduction String List Bool Lia Permutation Sorted.
From Verif Require Import Outcome CInt Pow Root Ratio SpecRatio FixedString TypeList Unit Downcast Dim DimOp
  Equivalent SpecDim SpecUnit TypeListProofs StringProofs DimProofs DimOpProofs DimOpProofs2 DimOpProofs3 EquivProofs Samples.
Import ListNotations.
Local Open Scope string_scope.
Local Open Scope list_scope.
Local Open Scope Z_scope.
Local Open Scope res_scope.

(** The base dimensions of the examples are identified by their symbols. *)
Lemma si_identify : symbols_identify si_base.
Proof.
  intros a b [-> | [-> | ->]] [-> | [-> | ->]]; simpl; intros H; auto; discriminate.
Qed.
Definition si_world : res world :=
  w <- declare_dimension On "dim_speed" metre_per_second speed_recipe empty_world;
  declare_dimension On "dim_area" square_metre [(DBase dim_L, (2, 1))] w.
Lemma si_world_reachable : exists w, si_world = Ok w /\ reachable w.
Proof.
  unfold si_world. destruct (declare_dimension On "dim_speed" metre_per_second speed_recipe empty_world) eqn:E1;
    try (vm_compute in E1; discriminate).
  cbn [bind]. destruct (declare_dimension On "dim_area" square_metre [(DBase dim_L, (2, 1))] a) eqn:E2;
    try (vm_compute in E1; injection E1 as <-; vm_compute in E2; discriminate).
  eexists; split; [reflexivity|]. eapply reach_dim; [|exact E2]. eapply reach_dim; [constructor|exact E1].
Qed.
Lemma speed_ndim : ndim si_base dim_speed.
Proof.
  split.
  - split; repeat constructor; vm_compute; discriminate.
  - intros e [<-|[<-|[]]]; unfold si_base; simpl; auto.
Qed.
Lemma L_ndim : ndim si_base (DBase dim_L).
Proof. split; [apply base_normal|]. intros e [<-|[]]; unfold si_base; simpl; auto. Qed.
Lemma T_ndim : ndim si_base (DBase dim_T).
Proof. split; [apply base_normal|]. intros e [<-|[]]; unfold si_base; simpl; auto. Qed.

(** * C35: order and grouping *)

Theorem C35_order_and_grouping : forall U, symbols_identify U -> forall w, reachable w ->
  forall x y lx ly dx dy, xgood U x -> xgood U y -> is_operation x -> is_operation y ->
  factors x = Some lx -> factors y = Some ly -> Permutation lx ly ->
  deval w x = Ok dx -> deval w y = Ok dy -> dx = dy.
Proof. exact product_order. Qed.
Print Assumptions C35_order_and_grouping.

(** More generally any two expressions with the same exponents denote the same type. *)
Theorem C35_same_exponents_same_type : forall U, symbols_identify U -> forall w, consistent w ->
  forall x y dx dy, xgood U x -> xgood U y -> is_operation x -> is_operation y ->
  (forall b, U b -> (xexpo x b == xexpo y b)%Q) ->
  deval w x = Ok dx -> deval w y = Ok dy -> dx = dy.
Proof. exact deval_unique. Qed.
Print Assumptions C35_same_exponents_same_type.

(** (L * T) * speed and (speed * T) * L: both [unknown_dimension<L^2>]'s named type, the area. *)
Example C35_ex : exists w, si_world = Ok w /\
  deval w (XMul (XMul (XDim (DBase dim_L)) (XDim (DBase dim_T))) (XDim dim_speed)) = Ok dim_area /\
  deval w (XMul (XMul (XDim dim_speed) (XDim (DBase dim_T))) (XDim (DBase dim_L))) = Ok dim_area.
Proof.
  destruct si_world_reachable as (w & H & _). exists w. split; auto.
  vm_compute in H. injection H as <-. vm_compute. auto.
Qed.

(** * C36: exponents add *)

Theorem C36_exponents_add : forall U, symbols_identify U -> forall w, consistent w ->
  forall x d, xgood U x -> deval w x = Ok d ->
  ndim U d /\ (forall b, (dim_expo d b == xexpo x b)%Q) /\
  (is_operation x -> to_dimension w (exponents d) = Ok d).
Proof. exact deval_ok. Qed.
Print Assumptions C36_exponents_add.

Theorem C36_defined : forall U, symbols_identify U -> forall w, reachable w ->
  forall x, xgood U x -> xint U x ->
  (forall b, U b -> (xabs x b <= inject_Z INTMAX_MAX)%Q) ->
  exists d, deval w x = Ok d.
Proof. exact deval_defined. Qed.
Print Assumptions C36_defined.

(** Rational exponents: defined as soon as the sums are representable. *)
Theorem C36_product_defined : forall U, symbols_identify U -> forall w d1 d2, consistent w ->
  ndim U d1 -> ndim U d2 ->
  (forall b, U b -> representable (dim_expo d1 b + dim_expo d2 b)) ->
  exists d, dimension_multiply w d1 d2 = Ok d.
Proof. exact dimension_multiply_complete. Qed.
Print Assumptions C36_product_defined.

Example C36_ex : xgood si_base (XDiv (XDim dim_speed) (XDim (DBase dim_T))) /\
  deval empty_world (XDiv (XDim dim_speed) (XDim (DBase dim_T))) =
  Ok (DUnknown [BExp dim_L 1 1; BExp dim_T (-2) 1] [BExp dim_L 1 1; BExp dim_T (-2) 1]).
Proof. split; [split; [exact speed_ndim|exact T_ndim]|vm_compute; reflexivity]. Qed.
(** L^(1/2) * L^(3/2) / L^2 is dimensionless: the entry disappears. *)
Example C36_ex_zero : deval empty_world
  (XMul (XDim (DUnknown [] [BExp dim_L 1 2])) (XDim (DUnknown [] [BExp dim_L (-1) 2]))) = Ok (DUnknown [] []).
Proof. vm_compute. reflexivity. Qed.

(** * C37: normal form *)

Theorem C37_make_dimension : forall U, symbols_identify U -> forall l es,
  Forall (recipe_item_ok U) l -> make_dimension l = Ok es ->
  normal es /\ over U es /\ forall b, (expo es b == recipe_expo l b)%Q.
Proof. exact make_dimension_ok. Qed.
Print Assumptions C37_make_dimension.

Theorem C37_normal_form_unique : forall U, symbols_identify U -> forall l1 l2,
  normal l1 -> normal l2 -> over U l1 -> over U l2 ->
  (forall b, U b -> (expo l1 b == expo l2 b)%Q) -> l1 = l2.
Proof. exact normal_unique. Qed.
Print Assumptions C37_normal_form_unique.

(** acceleration = speed / time, force = mass * acceleration, written as recipes. *)
Example C37_ex : make_dimension [(dim_speed, (2, 1)); (DBase dim_M, (1, 1)); (DBase dim_T, (-1, 1))]
  = Ok [BExp dim_L 2 1; BExp dim_M 1 1; BExp dim_T (-3) 1].
Proof. vm_compute. reflexivity. Qed.
Example C37_ex_hypothesis :
  Forall (recipe_item_ok si_base) [(dim_speed, (2, 1)); (DBase dim_M, (1, 1)); (DBase dim_T, (-1, 1))].
Proof.
  constructor; [|constructor; [|constructor; [|constructor]]].
  - split; [exact speed_ndim|].
    split; [lia|]. split; [lia|]. do 2 (split; [unfold INTMAX_MAX; lia|]).
    split; [split; vm_compute; congruence|].
    constructor; [|constructor; [|constructor]];
      (split; [split; vm_compute; congruence|split; split; vm_compute; congruence]).
  - split; [unfold si_base; auto|]. split; [discriminate|split; [reflexivity|split; [reflexivity|split; discriminate]]].
  - split; [unfold si_base; auto|]. split; [discriminate|split; [reflexivity|split; [reflexivity|split; discriminate]]].
Qed.

(** * C38: base dimensions sharing a symbol *)

(** The product of [L, cgs L] with [cgs L] depends on the order of the operands
    and mentions one base dimension twice. *)
Theorem C38_same_symbol_refuted :
  exists d e, dimension_multiply empty_world (DBase dim_L) (DBase cgs_L) = Ok d /\
  dimension_multiply empty_world (DBase cgs_L) (DBase dim_L) = Ok e /\ d <> e /\
  exists f, dimension_multiply empty_world e (DBase cgs_L) = Ok f /\
  exponents f = [BExp cgs_L 1 1; BExp dim_L 1 1; BExp cgs_L 1 1] .
Proof.
  exists (DUnknown [BExp cgs_L 1 1; BExp dim_L 1 1] [BExp dim_L 1 1; BExp cgs_L 1 1]),
    (DUnknown [BExp dim_L 1 1; BExp cgs_L 1 1] [BExp cgs_L 1 1; BExp dim_L 1 1]).
  split; [vm_compute; reflexivity|]. split; [vm_compute; reflexivity|].
  split; [discriminate|].
  exists (DUnknown [BExp cgs_L 1 1; BExp dim_L 1 1; BExp cgs_L 1 1] [BExp cgs_L 1 1; BExp dim_L 1 1; BExp cgs_L 1 1]).
  vm_compute; auto.
Qed.
Print Assumptions C38_same_symbol_refuted.

(** * C39: group laws *)

Theorem C39_divide_self : forall U, symbols_identify U -> forall w, reachable w -> forall d, ndim U d ->
  exists d', dimension_divide w d d = Ok d' /\ exponents d' = [].
Proof. exact divide_self. Qed.
Print Assumptions C39_divide_self.

Theorem C39_neutral : forall U, symbols_identify U -> forall w, reachable w -> forall d one,
  ndim U d -> canonical w d -> exponents one = [] ->
  dimension_multiply w d one = Ok d /\ dimension_multiply w one d = Ok d /\ dimension_divide w d one = Ok d.
Proof. exact multiply_one. Qed.
Print Assumptions C39_neutral.

Theorem C39_double_inverse : forall U w, reachable w -> forall d, ndim U d -> canonical w d ->
  exists i, dim_invert w d = Ok i /\ dim_invert w i = Ok d.
Proof. exact invert_twice. Qed.
Print Assumptions C39_double_inverse.

(** Base dimensions and results of operations are canonical. *)
Theorem C39_canonical : forall U, symbols_identify U -> forall w, reachable w ->
  (forall b, canonical w (DBase b)) /\
  (forall x d, xgood U x -> is_operation x -> deval w x = Ok d -> canonical w d).
Proof. intros U HU w R. split; [apply canonical_base|]. exact (canonical_result U HU w R). Qed.
Print Assumptions C39_canonical.

Example C39_ex : exists w i, si_world = Ok w /\ canonical w dim_speed /\
  dim_invert w dim_speed = Ok i /\ exponents i = [BExp dim_L (-1) 1; BExp dim_T 1 1] /\
  dim_invert w i = Ok dim_speed.
Proof.
  destruct si_world_reachable as (w & H & _). exists w.
  exists (DUnknown [BExp dim_L (-1) 1; BExp dim_T 1 1] [BExp dim_L (-1) 1; BExp dim_T 1 1]).
  vm_compute in H. injection H as <-. unfold canonical. vm_compute. auto.
Qed.

(** * C40: powers *)

Theorem C40_power : forall w d N D, consistent w ->
  D <> 0 -> Z.abs N <= INTMAX_MAX -> Z.abs D <= INTMAX_MAX ->
  ten_free (inject_Z N / inject_Z D) -> normal (exponents d) ->
  Forall (power_ok N D) (exponents d) ->
  exists d', dimension_pow w d N D = Ok d' /\
  forall b, (dim_expo d' b == dim_expo d b * (inject_Z N / inject_Z D))%Q.
Proof. exact dimension_pow_ok. Qed.
Print Assumptions C40_power.

Theorem C40_power_of_base : forall w b N D, consistent w ->
  exists d', dimension_pow w (DBase b) N D = Ok d' /\ exponents d' = [BExp b N D].
Proof. exact dimension_pow_base. Qed.
Print Assumptions C40_power_of_base.

(** A positive power in lowest terms gives the type a product would give. *)
Theorem C40_power_canonical : forall w d N D,
  0 < N -> 0 < D -> Z.gcd N D = 1 -> N <= INTMAX_MAX -> D <= INTMAX_MAX ->
  ten_free (inject_Z N / inject_Z D) -> normal (exponents d) ->
  Forall (power_ok N D) (exponents d) ->
  dimension_pow w d N D = to_dimension w (scaled (inject_Z N / inject_Z D) (exponents d)).
Proof. exact dimension_pow_canonical. Qed.
Print Assumptions C40_power_canonical.

Theorem C40_square_is_product : forall U, symbols_identify U -> forall w, reachable w ->
  forall d p q, ndim U d -> Forall (power_ok 2 1) (exponents d) ->
  dimension_pow w d 2 1 = Ok p -> dimension_multiply w d d = Ok q -> p = q.
Proof. exact pow_square. Qed.
Print Assumptions C40_square_is_product.

(** The tenth power of a derived dimension has exponents 1 instead of 10. *)
Theorem C40_tenth_power_refuted :
  exists d, dimension_pow empty_world dim_speed 10 1 = Ok d /\
  exponents d = [BExp dim_L 1 1; BExp dim_T (-1) 1].
Proof. exists (DUnknown [BExp dim_L 1 1; BExp dim_T (-1) 1] [BExp dim_L 1 1; BExp dim_T (-1) 1]). vm_compute; auto. Qed.
Print Assumptions C40_tenth_power_refuted.

(** Even when the resulting exponent has no factor of ten: (L^(3/2))^10 is L^(3/2), not L^15. *)
Theorem C40_cancelled_ten_refuted :
  exists d, dimension_pow empty_world (DUnknown [] [BExp dim_L 3 2]) 10 1 = Ok d /\
  exponents d = [BExp dim_L 3 2].
Proof. exists (DUnknown [BExp dim_L 3 2] [BExp dim_L 3 2]). vm_compute; auto. Qed.
Print Assumptions C40_cancelled_ten_refuted.

(** A negative power can produce a base dimension that is not the base dimension type:
    (1/T)^-1 is unknown_dimension<T^1>, not equivalent to T. *)
Theorem C40_negative_power_refuted :
  exists i p, dim_invert empty_world (DBase dim_T) = Ok i /\
  dimension_pow empty_world i (-1) 1 = Ok p /\ exponents p = exponents (DBase dim_T) /\
  dim_equivalent p (DBase dim_T) = false.
Proof.
  exists (DUnknown [BExp dim_T (-1) 1] [BExp dim_T (-1) 1]), (DUnknown [BExp dim_T 1 1] [BExp dim_T 1 1]).
  vm_compute. auto.
Qed.
Print Assumptions C40_negative_power_refuted.

(** An unreduced power: pow<2, 4> of an area is not the length type. *)
Theorem C40_unreduced_power_refuted :
  exists p, dimension_pow empty_world dim_area 2 4 = Ok p /\ exponents p = exponents (DBase dim_L) /\
  dim_equivalent p (DBase dim_L) = false.
Proof. exists (DUnknown [BExp dim_L 1 1] [BExp dim_L 1 1]). vm_compute. auto. Qed.
Print Assumptions C40_unreduced_power_refuted.

Example C40_ex : exists d, dimension_pow empty_world dim_speed 3 2 = Ok d /\
  exponents d = [BExp dim_L 3 2; BExp dim_T (-3) 2].
Proof. exists (DUnknown [BExp dim_L 3 2; BExp dim_T (-3) 2] [BExp dim_L 3 2; BExp dim_T (-3) 2]). vm_compute; auto. Qed.
Example C40_ex_hypothesis : Forall (power_ok 3 2) (exponents dim_speed) /\ ten_free (inject_Z 3 / inject_Z 2).
Proof. split; [repeat constructor|split]; vm_compute; congruence. Qed.

(** * C41: sort *)

Theorem C41_sort : forall (A : Type) (pred : A -> A -> bool),
  (forall x y z, pred x y = false -> pred y z = false -> pred x z = false) ->
  (forall x y, pred x y = true -> pred y x = false) ->
  forall l, Permutation (type_list_sort pred l) l /\
  StronglySorted (fun x y => pred y x = false) (type_list_sort pred l).
Proof. exact (fun A => @type_list_sort_spec A). Qed.
Print Assumptions C41_sort.

Example C41_ex : type_list_sort Z.ltb [5; 3; 9; 1; 3; 7] = [1; 3; 3; 5; 7; 9].
Proof. vm_compute. reflexivity. Qed.

(** * C42: equivalence of dimensions *)

Theorem C42_equivalence :
  (forall d, dim_equivalent d d = true) /\
  (forall d1 d2, dim_equivalent d1 d2 = dim_equivalent d2 d1) /\
  (forall d1 d2 d3, dim_equivalent d1 d2 = true -> dim_equivalent d2 d3 = true ->
     dim_equivalent d1 d3 = true).
Proof. exact dim_equivalent_equivalence. Qed.
Print Assumptions C42_equivalence.

(** Equivalent dimensions give every (symbol, reference) class the same exponent,
    and for two derived (or two base) dimensions in normal form the converse holds. *)
Theorem C42_same_exponents : forall d1 d2,
  (dim_equivalent d1 d2 = true ->
   forall s r, (class_expo (exponents d1) s r == class_expo (exponents d2) s r)%Q) /\
  (normal (exponents d1) -> normal (exponents d2) -> is_base d1 = is_base d2 ->
   (forall s r, (class_expo (exponents d1) s r == class_expo (exponents d2) s r)%Q) ->
   dim_equivalent d1 d2 = true).
Proof.
  intros d1 d2. split.
  - intros H. apply dim_equivalent_shape in H as [_ H]. now apply exps_equivalent_class.
  - intros N1 N2 B H. apply dim_equivalent_shape. split; auto. now apply class_equivalent.
Qed.
Print Assumptions C42_same_exponents.

(** Length in metres and in centimetres: different types, equivalent. *)
Example C42_ex : dim_equivalent (DBase dim_L) (DBase cgs_L) = true /\
  dim_equivalent dim_area (DUnknown [] [BExp cgs_L 2 1]) = true /\ DBase dim_L <> DBase cgs_L /\
  dim_equivalent (DBase dim_L) (DBase dim_T) = false.
Proof. repeat split; vm_compute; congruence. Qed.

(** * C44: base-unit ratio *)

Theorem C44_multiplicative : forall U, symbols_identify U -> forall est w d1 d2 d r1 r2 r,
  consistent w -> ndim U d1 -> ndim U d2 ->
  (forall b, U b -> base_good b) ->
  Forall (exact_root est) (exponents d1) -> Forall (exact_root est) (exponents d2) ->
  Forall (exact_root est) (exponents d) ->
  dimension_multiply w d1 d2 = Ok d ->
  base_units_ratio est (exponents d1) = Ok r1 -> base_units_ratio est (exponents d2) = Ok r2 ->
  base_units_ratio est (exponents d) = Ok r ->
  (rval r == rval r1 * rval r2)%Q.
Proof. exact bur_multiply. Qed.
Print Assumptions C44_multiplicative.

Theorem C44_inverse : forall U est w d d' r r',
  consistent w -> ndim U d -> (forall b, U b -> base_good b) ->
  Forall (exact_root est) (exponents d) -> Forall (exact_root est) (exponents d') ->
  dim_invert w d = Ok d' ->
  base_units_ratio est (exponents d) = Ok r -> base_units_ratio est (exponents d') = Ok r' ->
  (rval r' == / rval r)%Q.
Proof. exact bur_invert. Qed.
Print Assumptions C44_inverse.

(** The square of the ratio is the product of the base ratios to twice the exponents. *)
Theorem C44_product_of_powers : forall est es r,
  Forall (fun e => base_good (e_dim e) /\ exact_root est e) es ->
  base_units_ratio est es = Ok r ->
  Forall half_int es /\ (0 < rval r)%Q /\ (rval r ^ 2 == squared es)%Q /\ lowest r /\ storable r.
Proof. exact base_units_ratio_spec. Qed.
Print Assumptions C44_product_of_powers.

(** Whole exponents are always exact. *)
Theorem C44_whole_exponents_exact : forall est e, e_den e = 1 -> exact_root est e.
Proof. intros est e H E. congruence. Qed.
Print Assumptions C44_whole_exponents_exact.

(** kg m^2 s^-2 with base units kilogram, metre, second relative to gram, metre, second. *)
Example C44_ex : forall est, base_units_ratio est [BExp dim_L 2 1; BExp dim_M 1 1; BExp dim_T (-2) 1] = Ok (Ratio 1 1 3) /\
  base_units_ratio est [BExp cgs_L 2 1; BExp cgs_M 1 1; BExp dim_T (-2) 1] = Ok (Ratio 1 1 (-4)).
Proof. intros; vm_compute; auto. Qed.
Example C44_ex_hypothesis : base_good dim_M /\ base_good cgs_L /\ base_good dim_T.
Proof. repeat split; vm_compute; congruence. Qed.

(** * C48: downcasting *)

Theorem C48_meaning_preserved : forall w, reachable w ->
  (forall es d, downcast bexps_eq_dec (w_dims w) es = Some d -> exponents d = es) /\
  (forall r ref u, downcast ukey_eq_dec (w_units w) (r, ref) = Some u -> u_ratio u = r /\ u_ref u = ref).
Proof.
  intros w R. destruct (reachable_consistent w R) as [A B].
  split; intros; [eapply A|eapply B]; eapply downcast_in; eassumption.
Qed.
Print Assumptions C48_meaning_preserved.

Theorem C48_lookup_keeps_exponents : forall w es d, consistent w -> downcast_dimension w es = Ok d ->
  forall b, (dim_expo d b == expo es b)%Q.
Proof. exact downcast_dimension_expo. Qed.
Print Assumptions C48_lookup_keeps_exponents.

Theorem C48_order_irrelevant : forall (K T : Type) (keq : forall a b : K, {a = b} + {a <> b})
  mode (l1 l2 : list (K * T)), Permutation l1 l2 ->
  match declare_all keq mode l1 empty_registry, declare_all keq mode l2 empty_registry with
  | Ok g1, Ok g2 => forall k, downcast keq g1 k = downcast keq g2 k
  | IllFormed, IllFormed => True
  | _, _ => False
  end.
Proof. exact (fun K T => @downcast_order K T). Qed.
Print Assumptions C48_order_irrelevant.

(** Strict mode: duplicates are errors; otherwise exactly the declared child is found. *)
Theorem C48_strict_mode : forall (K T : Type) (keq : forall a b : K, {a = b} + {a <> b}) (l : list (K * T)),
  (NoDup (map fst l) /\ exists g, declare_all keq On l empty_registry = Ok g /\
     forall k t, downcast keq g k = Some t <-> In (k, t) l) \/
  (~ NoDup (map fst l) /\ declare_all keq On l empty_registry = IllFormed).
Proof. exact (fun K T => @on_downcast K T). Qed.
Print Assumptions C48_strict_mode.

(** Automatic mode: no errors; a child is found exactly when it is the only one. *)
Theorem C48_automatic_mode : forall (K T : Type) (keq : forall a b : K, {a = b} + {a <> b}) (l : list (K * T)),
  exists g, declare_all keq Automatic l empty_registry = Ok g /\
  forall k, downcast keq g k =
    match map snd (filter (fun x => if keq k (fst x) then true else false) l) with
    | [t] => Some t
    | _ => None
    end.
Proof. exact (fun K T => @auto_downcast K T). Qed.
Print Assumptions C48_automatic_mode.

Example C48_ex : exists g, declare_all Z.eq_dec Automatic [(1, "a"); (2, "b"); (1, "c")] empty_registry = Ok g /\
  downcast Z.eq_dec g 1 = None /\ downcast Z.eq_dec g 2 = Some "b" /\ downcast Z.eq_dec g 3 = None /\
  declare_all Z.eq_dec On [(1, "a"); (2, "b"); (1, "c")] empty_registry = IllFormed.
Proof. exists (Registry [(2, "b"); (1, "a")] [1]). vm_compute. auto. Qed.

(** * C57: fixed_string and symbol_text *)

Theorem C57_concatenation : forall a b c : fixed_string,
  fs_add a b = String.append a b /\
  fs_add (fs_add a b) c = fs_add a (fs_add b c) /\
  fs_add "" a = a /\ fs_add a "" = a /\
  fs_size (fs_add a b) = (fs_size a + fs_size b)%nat.
Proof.
  intros. rewrite !fs_add_append. repeat split.
  - apply append_assoc.
  - apply append_nil_r.
  - apply append_length.
Qed.
Print Assumptions C57_concatenation.

Theorem C57_equality : forall a b, fs_eqb a b = true <-> a = b.
Proof. exact fs_eqb_eq. Qed.
Print Assumptions C57_equality.

Theorem C57_total_order : forall a b c,
  (fs_compare a b = Eq <-> fs_eqb a b = true) /\ fs_compare a b = CompOpp (fs_compare b a) /\
  (fs_compare a b = Lt -> fs_compare b c = Lt -> fs_compare a c = Lt) /\
  (fs_compare a b = Lt <->
     (exists x r, b = String.append a (String x r)) \/
     (exists p x y ra rb, a = String.append p (String x ra) /\ b = String.append p (String y rb) /\
        (Ascii.nat_of_ascii x < Ascii.nat_of_ascii y)%nat)).
Proof.
  intros a b c. split; [now rewrite fs_compare_eq, fs_eqb_eq|]. split; [apply fs_compare_antisym|].
  split; [apply fs_lt_trans|apply fs_lt_lexicographic].
Qed.
Print Assumptions C57_total_order.

Theorem C57_symbol_text : forall a b c,
  st_standard (st_add a b) = String.append (st_standard a) (st_standard b) /\
  st_ascii (st_add a b) = String.append (st_ascii a) (st_ascii b) /\
  st_add (st_add a b) c = st_add a (st_add b c) /\
  (st_eqb a b = true <-> a = b) /\ (st_compare a b = Eq <-> st_eqb a b = true) /\
  st_compare a b = CompOpp (st_compare b a) /\
  (st_compare a b = Lt -> st_compare b c = Lt -> st_compare a c = Lt).
Proof.
  intros a b c. unfold st_add; simpl. rewrite !fs_add_append.
  repeat split.
  - rewrite !append_assoc. reflexivity.
  - apply st_eqb_eq.
  - apply st_eqb_eq.
  - intros H. apply st_eqb_eq. now apply st_compare_eq.
  - intros H. apply st_compare_eq. now apply st_eqb_eq.
  - apply st_compare_antisym.
  - apply st_lt_trans.
Qed.
Print Assumptions C57_symbol_text.

Example C57_ex : fs_add "kilo" "metre" = "kilometre" /\ fs_compare "km" "km/h" = Lt /\
  fs_compare "kn" "km/h" = Gt /\ st_compare (SymbolText "a" "b") (SymbolText "a" "c") = Lt.
Proof. vm_compute. auto. Qed.
