(** Theorems about casts, comparison, addition and common types (C17-C21, C23-C27). *)

From Coq Require Import ZArith QArith Qabs String List Bool Lia Lqa.
From Verif Require Import Outcome CInt Pow Root Ratio SpecRatio FixedString Unit Downcast Dim DimOp
  Equivalent SpecDim SpecUnit Rep QuantityCast CommonQuantity Quantity SpecQuantity DimOpProofs MagnitudeProofs
  CastProofs QuantityProofs QuantityProofs2 QuantityProofs3 QuantityProofs4 QuantityProofs5 Samples.
Import ListNotations.
Local Open Scope string_scope.
Local Open Scope list_scope.
Local Open Scope Z_scope.
Local Open Scope res_scope.

(** Types used in the examples. *)
Definition lengths (u : cunit) (t : ity) : qtype := QType (DBase dim_L) u (RInt t).
Definition times (u : cunit) (t : ity) : qtype := QType (DBase dim_T) u (RInt t).
Definition U32 := ITy W32 false.
Definition I16 := ITy W16 true.
Lemma sized_length : forall est u t, unit_good u -> u_ref u = "metre" -> sized est (lengths u t) (rval (u_ratio u)).
Proof.
  intros est u t G R. apply base_sized; auto.
  - vm_compute. repeat split; congruence.
  - unfold unit_of. rewrite R. reflexivity.
Qed.
Lemma sized_time : forall est u t, unit_good u -> u_ref u = "second" -> sized est (times u t) (rval (u_ratio u)).
Proof.
  intros est u t G R. apply base_sized; auto.
  - vm_compute. repeat split; congruence.
  - unfold unit_of. rewrite R. reflexivity.
Qed.
Lemma good_units : unit_good metre /\ unit_good kilometre /\ unit_good centimetre /\ unit_good second /\
  unit_good minute /\ unit_good hour /\ unit_good gram /\ unit_good kilogram.
Proof. repeat split; vm_compute; congruence. Qed.
Lemma empty_consistent : consistent empty_world.
Proof. split; intros; contradiction. Qed.

(** * C17: an integral cast truncates *)

Theorem C17_truncates : forall est from to a b m1 m2 n, sized est from m1 -> sized est to m2 ->
  references_ok from to -> q_rep from = RInt a -> q_rep to = RInt b ->
  dim_equivalent (q_dim to) (q_dim from) = true -> no_overflow est from to n ->
  exists z, quantity_cast est from to (NInt n) = Ok (NInt (wrap b z)) /\ trunc_of (inject_Z n * m1 / m2) z.
Proof. exact cast_fits. Qed.
Print Assumptions C17_truncates.

Theorem C17_value : forall est from to a b m1 m2 n, sized est from m1 -> sized est to m2 ->
  references_ok from to -> q_rep from = RInt a -> q_rep to = RInt b ->
  dim_equivalent (q_dim to) (q_dim from) = true -> no_overflow est from to n ->
  value_fits (q_rep to) (inject_Z n * m1 / m2) ->
  exists z, quantity_cast est from to (NInt n) = Ok (NInt z) /\ trunc_of (inject_Z n * m1 / m2) z /\ in_range b z = true.
Proof. exact cast_value. Qed.
Print Assumptions C17_value.

(** Unless a representation is the unsigned 64-bit type, every defined result is the
    truncated value (converted to the target type), and an overflow is undefined. *)
Theorem C17_every_defined_result : forall est from to a b m1 m2, sized est from m1 -> sized est to m2 ->
  references_ok from to -> q_rep from = RInt a -> q_rep to = RInt b -> a <> U64 -> b <> U64 ->
  forall n r, in_range a n = true -> quantity_cast est from to (NInt n) = Ok r ->
  exists z, r = NInt (wrap b z) /\ trunc_of (inject_Z n * m1 / m2) z.
Proof. exact defined_truncates. Qed.
Print Assumptions C17_every_defined_result.

Theorem C17_overflow_is_undefined : forall est from to a b m1 m2, sized est from m1 -> sized est to m2 ->
  references_ok from to -> q_rep from = RInt a -> q_rep to = RInt b -> a <> U64 -> b <> U64 ->
  forall n c, in_range a n = true -> dim_equivalent (q_dim to) (q_dim from) = true ->
  cast_ratio est (q_dim from) (q_unit from) (q_dim to) (q_unit to) = Ok c ->
  ~ products_fit I64 c n -> quantity_cast est from to (NInt n) = Undef.
Proof. exact not_fitting. Qed.
Print Assumptions C17_overflow_is_undefined.

(** -7199 s are -119 min (not -120); 90 min are 1 h; 2^62 km overflow on the way to m. *)
Example C17_ex : forall est,
  quantity_cast est (times second I64) (times minute I64) (NInt (-7199)) = Ok (NInt (-119)) /\
  quantity_cast est (times minute I64) (times hour I16) (NInt 90) = Ok (NInt 1) /\
  quantity_cast est (lengths kilometre I64) (lengths metre I64) (NInt (2 ^ 62)) = Undef.
Proof. intros est. vm_compute. auto. Qed.
Example C17_ex_hypotheses : forall est, sized est (times second I64) (rval one_r) /\
  sized est (times minute I64) (rval (Ratio 6 1 1)) /\ references_ok (times second I64) (times minute I64) /\
  no_overflow est (times second I64) (times minute I64) (-7199) /\
  value_fits (RInt I64) (inject_Z (-7199) * rval one_r / rval (Ratio 6 1 1)).
Proof.
  intros est. destruct good_units as (_ & _ & _ & Gs & Gm & _).
  split; [now apply (sized_time est second)|]. split; [now apply (sized_time est minute)|].
  split; [now apply references_ok_refl|]. split.
  - exists (Ratio 1 6 (-1)), I64. vm_compute. repeat split; congruence.
  - exists I64. split; [reflexivity|]. vm_compute. split; discriminate.
Qed.

(** With the unsigned 64-bit type the products wrap silently: 2^63 km are 0 m. *)
Theorem C17_unsigned_overflow_refuted : forall est,
  in_range U64 (2 ^ 63) = true /\
  quantity_cast est (lengths kilometre U64) (lengths metre U64) (NInt (2 ^ 63)) = Ok (NInt 0).
Proof. intros est. vm_compute. auto. Qed.
Print Assumptions C17_unsigned_overflow_refuted.

(** All unknown dimensions share one reference, although its size differs between systems:
    1 m^5 cast to cm^5 is 1 cm^5. *)
Definition m5 : qtype := QType (DUnknown [BExp dim_L 5 1] [BExp dim_L 5 1]) unknown_coherent_unit (RInt I64).
Definition cm5 : qtype := QType (DUnknown [BExp cgs_L 5 1] [BExp cgs_L 5 1]) unknown_coherent_unit (RInt I64).
Lemma m5_sized : forall est, sized est m5 1.
Proof.
  intros est. split; [|split; [reflexivity|split]].
  - split; [|repeat split; vm_compute; congruence]. split; [|repeat split; vm_compute; congruence].
    constructor; [|constructor]. split; [split; [discriminate|exists 10; reflexivity]|repeat split; vm_compute; congruence].
  - constructor; [intros E; discriminate E|constructor].
  - exists 1%Q. split; [split; [|split]|]; try (vm_compute; reflexivity).
    constructor; [split; [discriminate|exists 10; reflexivity]|constructor].
Qed.
Lemma cm5_sized : forall est, sized est cm5 (1 # 10000000000).
Proof.
  intros est. split; [|split; [reflexivity|split]].
  - split; [|repeat split; vm_compute; congruence]. split; [|repeat split; vm_compute; congruence].
    constructor; [|constructor]. split; [split; [discriminate|exists 10; reflexivity]|repeat split; vm_compute; congruence].
  - constructor; [intros E; discriminate E|constructor].
  - exists (1 # 10000000000)%Q. split; [split; [|split]|]; try (vm_compute; reflexivity).
    constructor; [split; [discriminate|exists 10; reflexivity]|constructor].
Qed.
Theorem C17_unknown_reference_refuted : forall est, sized est m5 1 /\ sized est cm5 (1 # 10000000000) /\
  dim_equivalent (q_dim cm5) (q_dim m5) = true /\
  quantity_cast est m5 cm5 (NInt 1) = Ok (NInt 1) /\ ~ trunc_of (inject_Z 1 * 1 / (1 # 10000000000)) 1.
Proof.
  intros est. split; [apply m5_sized|]. split; [apply cm5_sized|]. split; [vm_compute; reflexivity|].
  split; [vm_compute; reflexivity|]. intros [T _]. destruct T as [_ T]; [discriminate|]. vm_compute in T. discriminate.
Qed.
Print Assumptions C17_unknown_reference_refuted.

(** * C18: error and direction *)

Theorem C18_error_and_direction : forall est from to a b m1 m2, sized est from m1 -> sized est to m2 ->
  references_ok from to -> q_rep from = RInt a -> q_rep to = RInt b -> a <> U64 -> b <> U64 ->
  forall n z, in_range a n = true -> value_fits (q_rep to) (inject_Z n * m1 / m2) ->
  quantity_cast est from to (NInt n) = Ok (NInt z) ->
  (Qabs (inject_Z n * m1 / m2 - inject_Z z) < 1)%Q /\ (Qabs (inject_Z z) <= Qabs (inject_Z n * m1 / m2))%Q /\
  (0 <= n -> 0 <= z) /\ (n <= 0 -> z <= 0).
Proof.
  intros est from to a b m1 m2 S1 S2 Ref Ra Rb Ua Ub n z I F H.
  destruct (defined_value est from to a b m1 m2 S1 S2 Ref Ra Rb Ua Ub n z I F H) as [T _].
  destruct (trunc_bounds _ _ T) as (A & B & C & D). pose proof (sized_pos _ _ _ S1). pose proof (sized_pos _ _ _ S2).
  assert (K : (0 < m1 / m2)%Q) by (apply Qlt_shift_div_l; lra).
  assert (E : (inject_Z n * m1 / m2 == inject_Z n * (m1 / m2))%Q) by (field; lra).
  split; [exact A|]. split; [exact B|]. split; intros N.
  - apply C. rewrite E. apply Qmult_le_0_compat; [|lra]. change 0%Q with (inject_Z 0). now apply (proj1 (injZ_le _ _)).
  - apply D. rewrite E. assert (Y : (0 <= inject_Z (- n) * (m1 / m2))%Q).
    { apply Qmult_le_0_compat; [|lra]. change 0%Q with (inject_Z 0). apply (proj1 (injZ_le _ _)). lia. }
    rewrite inject_Z_opp in Y. lra.
Qed.
Print Assumptions C18_error_and_direction.

Theorem C18_monotone : forall est from to a b m1 m2, sized est from m1 -> sized est to m2 ->
  references_ok from to -> q_rep from = RInt a -> q_rep to = RInt b -> a <> U64 -> b <> U64 ->
  forall n n' z z', in_range a n = true -> in_range a n' = true ->
  value_fits (q_rep to) (inject_Z n * m1 / m2) -> value_fits (q_rep to) (inject_Z n' * m1 / m2) ->
  quantity_cast est from to (NInt n) = Ok (NInt z) -> quantity_cast est from to (NInt n') = Ok (NInt z') ->
  n <= n' -> z <= z'.
Proof.
  intros est from to a b m1 m2 S1 S2 Ref Ra Rb Ua Ub n n' z z' I I' F F' H H' L.
  destruct (defined_value est from to a b m1 m2 S1 S2 Ref Ra Rb Ua Ub n z I F H) as [T _].
  destruct (defined_value est from to a b m1 m2 S1 S2 Ref Ra Rb Ua Ub n' z' I' F' H') as [T' _].
  pose proof (sized_pos _ _ _ S1). pose proof (sized_pos _ _ _ S2).
  eapply trunc_mono; [|exact T|exact T']. unfold Qdiv. apply Qmult_le_compat_r; [|now apply Qlt_le_weak, Qinv_lt_0_compat].
  apply Qmult_le_compat_r; [|lra]. now apply (proj1 (injZ_le _ _)).
Qed.
Print Assumptions C18_monotone.
Example C18_ex : forall est,
  quantity_cast est (times second I64) (times hour I64) (NInt (-3601)) = Ok (NInt (-1)) /\
  quantity_cast est (times second I64) (times hour I64) (NInt (-3599)) = Ok (NInt 0).
Proof. intros est. vm_compute. auto. Qed.

(** * C19: to a finer unit and back *)

Theorem C19_exact_and_back : forall est from to a b m1 m2 n z r, sized est from m1 -> sized est to m2 ->
  references_ok from to -> q_rep from = RInt a -> q_rep to = RInt b -> a <> U64 -> b <> U64 ->
  in_range a n = true -> multiple_of m1 m2 -> value_fits (q_rep to) (inject_Z n * m1 / m2) ->
  quantity_cast est from to (NInt n) = Ok (NInt z) ->
  same_value n m1 z m2 /\ (quantity_cast est to from (NInt z) = Ok r -> r = NInt n).
Proof. exact cast_back. Qed.
Print Assumptions C19_exact_and_back.
Example C19_ex : forall est,
  quantity_cast est (times hour I64) (times minute I64) (NInt (-25)) = Ok (NInt (-1500)) /\
  quantity_cast est (times minute I64) (times hour I64) (NInt (-1500)) = Ok (NInt (-25)) /\
  multiple_of (rval (u_ratio hour)) (rval (u_ratio minute)).
Proof. intros est. split; [|split]; [vm_compute; reflexivity|vm_compute; reflexivity|]. exists 60. vm_compute. reflexivity. Qed.

(** * C20: implicit conversions *)

Theorem C20_exists_iff : forall est from to a b m1 m2 v, sized est from m1 -> sized est to m2 ->
  q_rep from = RInt a -> q_rep to = RInt b -> safe_castable_to est from to = Ok v ->
  (v = true <-> dim_equivalent (q_dim to) (q_dim from) = true /\ multiple_of m1 m2).
Proof. exact safe_castable_int. Qed.
Print Assumptions C20_exists_iff.

Theorem C20_lossless : forall est from to a b m1 m2 n r, sized est from m1 -> sized est to m2 ->
  references_ok from to -> q_rep from = RInt a -> q_rep to = RInt b -> in_range a n = true ->
  convertible est from to n -> q_convert est from to (NInt n) = Ok r ->
  exists z, r = NInt z /\ in_range b z = true /\ same_value n m1 z m2.
Proof. exact convert_exact. Qed.
Print Assumptions C20_lossless.

(** To the signed 64-bit type: every defined conversion is lossless. *)
Theorem C20_int64 : forall est from to a m1 m2 n r, sized est from m1 -> sized est to m2 ->
  references_ok from to -> q_rep from = RInt a -> a <> U64 -> q_rep to = RInt I64 -> in_range a n = true ->
  q_convert est from to (NInt n) = Ok r -> exists z, r = NInt z /\ in_range I64 z = true /\ same_value n m1 z m2.
Proof.
  intros est from to a m1 m2 n r S1 S2 Ref Ra U Rb I H. eapply convert_exact; eauto. eapply convert_int64; eauto.
Qed.
Print Assumptions C20_int64.
Example C20_ex : forall est, q_convert est (times hour I64) (times minute I64) (NInt 7) = Ok (NInt 420) /\
  q_convert est (times minute I64) (times hour I64) (NInt 60) = IllFormed.
Proof. intros est. vm_compute. auto. Qed.

(** Narrowing the representation is accepted, and so is scaling beyond its range. *)
Theorem C20_narrowing_refuted : forall est,
  q_convert est (lengths metre I64) (lengths metre I32) (NInt (2 ^ 32)) = Ok (NInt 0) /\
  in_range I32 (2 ^ 29) = true /\
  q_convert est (lengths kilometre I32) (lengths metre I32) (NInt (2 ^ 29)) = Ok (NInt 0).
Proof. intros est. vm_compute. auto. Qed.
Print Assumptions C20_narrowing_refuted.

(** * C21: chains of casts *)

Theorem C21_refining : forall est l t m n a to m', l <> [] -> chain est multiple_of t m n l to m' -> sized est t m ->
  q_rep t = RInt a -> references_ok t to -> no_overflow est t to n ->
  exists z, cast_through est t (NInt n) l = Ok (NInt z) /\ quantity_cast est t to (NInt n) = Ok (NInt z) /\
    trunc_of (inject_Z n * m / m') z.
Proof. exact refining_chain. Qed.
Print Assumptions C21_refining.

Theorem C21_coarsening : forall est l t m n a to m', l <> [] -> chain est (fun x y => multiple_of y x) t m n l to m' ->
  sized est t m -> q_rep t = RInt a -> references_ok t to -> no_overflow est t to n ->
  exists z, cast_through est t (NInt n) l = Ok (NInt z) /\ quantity_cast est t to (NInt n) = Ok (NInt z) /\
    trunc_of (inject_Z n * m / m') z.
Proof. exact coarsening_chain. Qed.
Print Assumptions C21_coarsening.

(** s -> min -> h. *)
Example C21_ex : forall est, chain est (fun x y => multiple_of y x) (times second I64) (rval one_r) 7261
    [times minute I64; times hour I64] (times hour I64) (rval (Ratio 36 1 2)) /\
  no_overflow est (times second I64) (times hour I64) 7261 /\
  cast_through est (times second I64) (NInt 7261) [times minute I64; times hour I64] = Ok (NInt 2).
Proof.
  intros est. destruct good_units as (_ & _ & _ & Gs & Gm & Gh & _). split; [|split].
  - apply chain_cons with (m1 := rval (Ratio 6 1 1)) (n1 := 121).
    + now apply (sized_time est minute).
    + exists 60. vm_compute. reflexivity.
    + now apply references_ok_refl.
    + reflexivity.
    + exists (Ratio 1 6 (-1)), I64. vm_compute. repeat split; congruence.
    + exists I64. split; [reflexivity|]. vm_compute. split; discriminate.
    + vm_compute. repeat split; try discriminate; intros X; now contradiction X.
    + apply chain_cons with (m1 := rval (Ratio 36 1 2)) (n1 := 2).
      * now apply (sized_time est hour).
      * exists 60. vm_compute. reflexivity.
      * now apply references_ok_refl.
      * reflexivity.
      * exists (Ratio 1 6 (-1)), I64. vm_compute. repeat split; congruence.
      * exists I64. split; [reflexivity|]. vm_compute. split; discriminate.
      * vm_compute. repeat split; try discriminate; intros X; now contradiction X.
      * constructor.
  - exists (Ratio 1 36 (-2)), I64. vm_compute. repeat split; congruence.
  - vm_compute. reflexivity.
Qed.
(** A detour through a coarser unit loses what it truncates. *)
Theorem C21_mixed_refuted : forall est,
  cast_through est (times minute I64) (NInt 90) [times hour I64; times minute I64] = Ok (NInt 60) /\
  quantity_cast est (times minute I64) (times minute I64) (NInt 90) = Ok (NInt 90).
Proof. intros est. vm_compute. auto. Qed.
Print Assumptions C21_mixed_refuted.

(** * C23: equality *)

Theorem C23_equal_iff_same_value : forall est w a b ia ib na nb ma mb v, consistent w ->
  integral a ia na -> integral b ib nb -> sized est (q_type a) ma -> sized est (q_type b) mb ->
  compatible (q_type a) (q_type b) ->
  both_convertible est w (common_rep (RInt ia) (RInt ib)) a b na nb ->
  q_eqb est w a b = Ok v -> (v = true <-> (inject_Z na * ma == inject_Z nb * mb)%Q).
Proof. exact q_eqb_values. Qed.
Print Assumptions C23_equal_iff_same_value.

(** Signed 64-bit representations: every defined comparison is right. *)
Theorem C23_int64 : forall est w, consistent w -> forall a b va vb v, valued est a va -> valued est b vb ->
  compatible (q_type a) (q_type b) -> q_eqb est w a b = Ok v -> (v = true <-> (va == vb)%Q).
Proof. exact valued_eqb. Qed.
Print Assumptions C23_int64.

(** It is defined when the common type exists, the conversions to it do and both numbers
    survive them. *)
Theorem C23_defined : forall est w a b ia ib na nb ma mb t, consistent w ->
  integral a ia na -> integral b ib nb -> sized est (q_type a) ma -> sized est (q_type b) mb ->
  compatible (q_type a) (q_type b) ->
  common_quantity est w (q_type a) (q_type b) (common_rep (RInt ia) (RInt ib)) = Ok t ->
  accepted est (q_type a) t -> accepted est (q_type b) t ->
  convertible est (q_type a) t na -> convertible est (q_type b) t nb ->
  (exists c, q_compare est w a b = Ok c) /\ (exists v, q_eqb est w a b = Ok v).
Proof. exact compare_defined. Qed.
Print Assumptions C23_defined.

Example C23_ex : forall est,
  q_eqb est empty_world (Quantity (times hour I64) (NInt 2)) (Quantity (times minute I64) (NInt 120)) = Ok true /\
  q_eqb est empty_world (Quantity (times hour I64) (NInt 2)) (Quantity (times second I64) (NInt 7201)) = Ok false.
Proof. intros est. vm_compute. auto. Qed.
Lemma valued_time : forall est u n, unit_good u -> u_ref u = "second" -> in_range I64 n = true ->
  valued est (Quantity (times u I64) (NInt n)) (inject_Z n * rval (u_ratio u)).
Proof.
  intros est u n G R I. exists n, (rval (u_ratio u)). split; [repeat split; auto|]. split; [now apply sized_time|]. reflexivity.
Qed.
Example C23_ex_hypotheses : forall est, consistent empty_world /\
  valued est (Quantity (times hour I64) (NInt 2)) (inject_Z 2 * rval (u_ratio hour)) /\
  valued est (Quantity (times second I64) (NInt 7201)) (inject_Z 7201 * rval (u_ratio second)) /\
  compatible (times hour I64) (times second I64).
Proof.
  intros est. destruct good_units as (_ & _ & _ & Gs & Gm & Gh & _). split; [exact empty_consistent|].
  split; [now apply valued_time|]. split; [now apply valued_time|]. now apply compatible_same.
Qed.

(** A narrower representation can wrap: 2^29 km == 0 m; and all unknown dimensions share one
    reference: 1 cm^5 == 1 m^5 holds, and the operands in the other order do not compile. *)
Theorem C23_narrow_refuted : forall est,
  q_eqb est empty_world (Quantity (lengths kilometre I32) (NInt (2 ^ 29))) (Quantity (lengths metre I32) (NInt 0)) = Ok true.
Proof. intros est. vm_compute. auto. Qed.
Print Assumptions C23_narrow_refuted.
Theorem C23_unknown_reference_refuted : forall est, sized est m5 1 /\ sized est cm5 (1 # 10000000000) /\
  q_eqb est empty_world (Quantity cm5 (NInt 1)) (Quantity m5 (NInt 1)) = Ok true /\
  q_eqb est empty_world (Quantity m5 (NInt 1)) (Quantity cm5 (NInt 1)) = IllFormed.
Proof. intros est. split; [apply m5_sized|]. split; [apply cm5_sized|]. vm_compute. auto. Qed.
Print Assumptions C23_unknown_reference_refuted.

(** * C24: ordering *)

Theorem C24_order_of_values : forall est w a b ia ib na nb ma mb c, consistent w ->
  integral a ia na -> integral b ib nb -> sized est (q_type a) ma -> sized est (q_type b) mb ->
  compatible (q_type a) (q_type b) ->
  both_convertible est w (common_rep (RInt ia) (RInt ib)) a b na nb ->
  q_compare est w a b = Ok c -> c = Some (inject_Z na * ma ?= inject_Z nb * mb)%Q.
Proof. exact q_compare_values. Qed.
Print Assumptions C24_order_of_values.

Theorem C24_int64 : forall est w, consistent w -> forall a b va vb c, valued est a va -> valued est b vb ->
  compatible (q_type a) (q_type b) -> q_compare est w a b = Ok c -> c = Some (va ?= vb)%Q.
Proof. exact valued_compare. Qed.
Print Assumptions C24_int64.

(** Antisymmetric, compatible with [==] and transitive, for any three units. *)
Theorem C24_total_order : forall est w, consistent w -> forall a b c va vb vc,
  valued est a va -> valued est b vb -> valued est c vc ->
  compatible (q_type a) (q_type b) -> compatible (q_type b) (q_type a) -> compatible (q_type b) (q_type c) ->
  compatible (q_type a) (q_type c) ->
  forall x y z u e, q_compare est w a b = Ok x -> q_compare est w b c = Ok y -> q_compare est w a c = Ok z ->
  q_compare est w b a = Ok u -> q_eqb est w a b = Ok e ->
  (u = option_map CompOpp x) /\ (e = true <-> x = Some Eq) /\
  (x = Some Lt -> y <> Some Gt -> z = Some Lt) /\ (x <> Some Gt -> y = Some Lt -> z = Some Lt) /\
  (x = Some Eq -> z = y).
Proof.
  intros est w C a b c va vb vc Va Vb Vc Cab Cba Cbc Cac x y z u e Hx Hy Hz Hu He.
  apply (valued_compare est w C _ _ _ _ _ Va Vb Cab) in Hx. apply (valued_compare est w C _ _ _ _ _ Vb Vc Cbc) in Hy.
  apply (valued_compare est w C _ _ _ _ _ Va Vc Cac) in Hz. apply (valued_compare est w C _ _ _ _ _ Vb Va Cba) in Hu.
  pose proof (valued_eqb est w C _ _ _ _ _ Va Vb Cab He) as E. subst x y z u.
  split; [|split; [|split; [|split]]].
  - cbn. f_equal. symmetry. apply Qcompare_antisym.
  - rewrite E, Qeq_alt. split; congruence.
  - intros X Y. assert (X' : (va < vb)%Q) by (apply Qlt_alt; congruence).
    assert (Y' : (vb <= vc)%Q) by (apply Qle_alt; congruence). f_equal. apply (proj1 (Qlt_alt _ _)). lra.
  - intros X Y. assert (X' : (va <= vb)%Q) by (apply Qle_alt; congruence).
    assert (Y' : (vb < vc)%Q) by (apply Qlt_alt; congruence). f_equal. apply (proj1 (Qlt_alt _ _)). lra.
  - intros X. assert (X' : (va == vb)%Q) by (apply Qeq_alt; congruence). now rewrite X'.
Qed.
Print Assumptions C24_total_order.
Example C24_ex : forall est,
  q_compare est empty_world (Quantity (times minute I64) (NInt 119)) (Quantity (times hour I64) (NInt 2)) = Ok (Some Lt) /\
  q_compare est empty_world (Quantity (times hour I64) (NInt 2)) (Quantity (times second I64) (NInt 7201)) = Ok (Some Lt) /\
  q_compare est empty_world (Quantity (times minute I64) (NInt 119)) (Quantity (times second I64) (NInt 7201)) = Ok (Some Lt).
Proof. intros est. vm_compute. auto. Qed.

(** * C25: addition and subtraction *)

Theorem C25_exact : forall o est w a b ia ib na nb ma mb s, sum_op o -> consistent w ->
  integral a ia na -> integral b ib nb -> sized est (q_type a) ma -> sized est (q_type b) mb ->
  compatible (q_type a) (q_type b) ->
  both_convertible est w (RInt (arith_conv ia ib)) a b na nb ->
  q_addsub o est w a b = Ok s ->
  (isigned (arith_conv ia ib) = true \/
   forall m, common_magnitude ma mb m ->
   value_fits (RInt (arith_conv ia ib)) (exact_sum o (inject_Z na * ma) (inject_Z nb * mb) / m)) ->
  exists m z, sized est (q_type s) m /\ common_magnitude ma mb m /\ integral s (arith_conv ia ib) z /\
    (inject_Z z * m == exact_sum o (inject_Z na * ma) (inject_Z nb * mb))%Q.
Proof. exact q_addsub_values. Qed.
Print Assumptions C25_exact.

(** Signed 64-bit quantities of one dimension: no overflow hypothesis is needed. *)
Theorem C25_int64 : forall o est w a b na nb ma mb s, sum_op o -> consistent w ->
  integral a I64 na -> integral b I64 nb -> sized est (q_type a) ma -> sized est (q_type b) mb ->
  q_dim (q_type a) = q_dim (q_type b) -> q_addsub o est w a b = Ok s ->
  exists m z, sized est (q_type s) m /\ common_magnitude ma mb m /\ integral s I64 z /\
    q_dim (q_type s) = q_dim (q_type a) /\
    (inject_Z z * m == exact_sum o (inject_Z na * ma) (inject_Z nb * mb))%Q.
Proof. exact add64. Qed.
Print Assumptions C25_int64.

Theorem C25_commutative : forall est w a b na nb ma mb s1 s2, consistent w ->
  integral a I64 na -> integral b I64 nb -> sized est (q_type a) ma -> sized est (q_type b) mb ->
  q_dim (q_type a) = q_dim (q_type b) ->
  q_add est w a b = Ok s1 -> q_add est w b a = Ok s2 -> s1 = s2.
Proof. exact add_commutative. Qed.
Print Assumptions C25_commutative.

Theorem C25_associative : forall est w a b c na nb nc ma mb mc s1 s2 s3 s4, consistent w ->
  integral a I64 na -> integral b I64 nb -> integral c I64 nc ->
  sized est (q_type a) ma -> sized est (q_type b) mb -> sized est (q_type c) mc ->
  q_dim (q_type a) = q_dim (q_type b) -> q_dim (q_type b) = q_dim (q_type c) ->
  q_add est w a b = Ok s1 -> q_add est w s1 c = Ok s2 -> q_add est w b c = Ok s3 -> q_add est w a s3 = Ok s4 ->
  forall v, (v == inject_Z na * ma + inject_Z nb * mb + inject_Z nc * mc)%Q -> denotes s2 v /\ denotes s4 v.
Proof. exact add_associative. Qed.
Print Assumptions C25_associative.

(** 1 h + 1 min = 61 min; 1 min - 1 s = 59 s; a third of a yard-like unit and a metre meet in
    an unnamed finer unit. *)
Definition third : cunit := mk_sample_unit "third" "th" (Ratio 2 3 0) "metre".
Example C25_ex : forall est,
  q_add est empty_world (Quantity (times hour I64) (NInt 1)) (Quantity (times minute I64) (NInt 1)) =
    Ok (Quantity (times (CUnit None [] (Ratio 6 1 1) "second" false None "no_prefix") I64) (NInt 61)) /\
  q_sub est empty_world (Quantity (lengths metre I64) (NInt 1)) (Quantity (lengths third I64) (NInt 2)) =
    Ok (Quantity (lengths (CUnit None [] (Ratio 1 3 0) "metre" false None "no_prefix") I64) (NInt (-1))).
Proof. intros est. vm_compute. auto. Qed.

(** * C26: the common unit *)

Theorem C26_coarsest_common_divisor : forall est w t1 t2 r t m1 m2, consistent w -> sized est t1 m1 -> sized est t2 m2 ->
  q_dim t1 = q_dim t2 -> common_quantity est w t1 t2 r = Ok t ->
  exists m, sized est t m /\ common_magnitude m1 m2 m /\ q_rep t = r /\ q_dim t = q_dim t1.
Proof.
  intros est w t1 t2 r t m1 m2 C S1 S2 D H.
  destruct (common_quantity_sized _ _ _ _ _ _ _ _ C S1 S2 (compatible_same _ _ D) H) as (m & S & M & R & _ & _ & _ & _ & X).
  exists m. split; auto. split; auto. split; auto. destruct X; congruence.
Qed.
Print Assumptions C26_coarsest_common_divisor.

Theorem C26_symmetric : forall est w t1 t2 r t t', q_dim t1 = q_dim t2 -> unit_good (q_unit t1) -> unit_good (q_unit t2) ->
  common_quantity est w t1 t2 r = Ok t -> common_quantity est w t2 t1 r = Ok t' -> t = t'.
Proof. exact common_quantity_sym. Qed.
Print Assumptions C26_symmetric.
Example C26_ex : forall est,
  common_quantity est empty_world (lengths kilometre I64) (lengths third I64) (RInt I64) =
    Ok (lengths (CUnit None [] (Ratio 2 3 0) "metre" false None "no_prefix") I64) /\
  common_quantity est empty_world (lengths metre I64) (lengths third I64) (RInt I64) =
    Ok (lengths (CUnit None [] (Ratio 1 3 0) "metre" false None "no_prefix") I64).
Proof. intros est. vm_compute. auto. Qed.

(** * C27: across systems of units *)

Theorem C27_equivalent_dimensions : forall est w t1 t2 r t m1 m2, consistent w -> sized est t1 m1 -> sized est t2 m2 ->
  compatible t1 t2 -> common_quantity est w t1 t2 r = Ok t ->
  exists m, sized est t m /\ common_magnitude m1 m2 m /\ q_rep t = r /\
    references_ok t1 t /\ references_ok t2 t /\ dim_equivalent (q_dim t) (q_dim t1) = true /\
    dim_equivalent (q_dim t) (q_dim t2) = true /\ (q_dim t = q_dim t1 \/ q_dim t = q_dim t2).
Proof. exact common_quantity_sized. Qed.
Print Assumptions C27_equivalent_dimensions.

(** Speed in m/s and in cm/s of the CGS system. *)
Definition cgs_speed : dimension :=
  DDerived "cgs_dim_speed" [BExp cgs_L 1 1; BExp dim_T (-1) 1]
    (CUnit (Some "centimetre_per_second") [] one_r "centimetre_per_second" false None "no_prefix")
    [(DBase cgs_L, (1, 1)); (DBase dim_T, (-1, 1))].
Example C27_ex : forall est,
  common_quantity est empty_world (QType dim_speed metre_per_second (RInt I64))
      (QType cgs_speed (dimension_unit cgs_speed) (RInt I64)) (RInt I64) =
    Ok (QType dim_speed (CUnit None [] (Ratio 1 1 (-2)) "metre_per_second" false None "no_prefix") (RInt I64)) /\
  compatible (QType dim_speed metre_per_second (RInt I64)) (QType cgs_speed (dimension_unit cgs_speed) (RInt I64)).
Proof.
  intros est. split; [vm_compute; reflexivity|]. split; [intros E; discriminate E|]. intros _. reflexivity.
Qed.

(** A coherent unit of ratio 1000: the common unit (1 m/s) does not divide 1 mm/s. *)
Definition kilo_speed : dimension :=
  DDerived "kilo_dim_speed" [BExp dim_L 1 1; BExp dim_T (-1) 1]
    (CUnit (Some "metre_per_second_2") [] (Ratio 1 1 3) "millimetre_per_second" false None "no_prefix")
    [(DBase dim_L, (1, 1)); (DBase dim_T, (-1, 1))].
Definition mm_per_s : cunit := CUnit (Some "millimetre_per_second") [] one_r "millimetre_per_second" false None "no_prefix".
Theorem C27_coherent_ratio_refuted : forall est, exists t,
  common_quantity est empty_world (QType dim_speed metre_per_second (RInt I64)) (QType kilo_speed mm_per_s (RInt I64)) (RInt I64) = Ok t /\
  magnitude (q_dim t) (q_unit t) 1 /\ magnitude kilo_speed mm_per_s (1 # 1000) /\ ~ multiple_of (1 # 1000) 1.
Proof.
  intros est. exists (QType dim_speed (CUnit None [] one_r "metre_per_second" false None "no_prefix") (RInt I64)).
  assert (F : Forall half_int [BExp dim_L 1 1; BExp dim_T (-1) 1]).
  { constructor; [split; [discriminate|exists 2; reflexivity]|]. constructor; [split; [discriminate|exists (-2); reflexivity]|]. constructor. }
  split; [vm_compute; reflexivity|]. split; [|split].
  - exists 1%Q. split; [split; [exact F|split; vm_compute; reflexivity]|vm_compute; reflexivity].
  - exists 1%Q. split; [split; [exact F|split; vm_compute; reflexivity]|vm_compute; reflexivity].
  - intros (k & Hk). unfold Qeq in Hk. cbn in Hk. lia.
Qed.
Print Assumptions C27_coherent_ratio_refuted.
