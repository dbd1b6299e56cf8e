(** The functions of the average speed example compute the plain integers and doubles. *)

From Coq Require Import ZArith String List Bool Lia Reals Lra SpecFloat.
From Flocq Require Import Core IEEE754.BinarySingleNaN.
From Verif Require Import Outcome CInt Pow Root Ratio RatioProofs Unit Downcast Dim DimOp Equivalent Rep Reference QuantityCast CommonQuantity
  Quantity Point System Catalogue Includes Names AvgSpeed SpecReal SpecGlide
  FloatProofs FloatCastProofs FloatAddProofs FloatOrderProofs CastProofs GlideProofs Props_ConversionFactor CapacitorProofs.
Import ListNotations.
Local Open Scope Z_scope.
Local Open Scope list_scope.
Local Open Scope res_scope.

Definition avg_env_of (est : estimate) : aenv :=
  ltac:(let x := eval vm_compute in (avg_speed_setup est) in match x with Ok ?e => exact e end).
Lemma avg_setup_env : forall est, avg_speed_setup est = Ok (avg_env_of est).
Proof. intros est. vm_compute. reflexivity. Qed.

Lemma int32 : forall z, in_range I32 z = true <-> -2147483648 <= z <= 2147483647.
Proof. intros z. rewrite in_range_spec. reflexivity. Qed.
Lemma int64 : forall z, in_range I64 z = true <-> -9223372036854775808 <= z <= 9223372036854775807.
Proof. intros z. rewrite in_range_spec. reflexivity. Qed.

(** Casts of [int] by a whole factor. *)
Lemma scaled_int : forall n x p z, 0 < x -> ipow10 x = Ok p -> 0 < n -> 0 < p -> n * p <= 1000000 -> in_range I32 z = true ->
  cast_number (Ratio n 1 x) (RInt I32) (RInt I32) (NInt z) = Ok (NInt (wrap I32 (z * (n * p)))).
Proof.
  intros n x p z X P N Pp B Z. apply int32 in Z. unfold cast_number. cbv zeta. change (cast_rep (RInt I32) (RInt I32)) with (RInt I64). cbn [n_convert rnum rden rexp bind].
  assert (B1 : n <= 1000000) by nia. assert (B2 : p <= 1000000) by nia.
  assert (Hx : (0 <? x) = true) by now apply Z.ltb_lt. rewrite Hx, P. cbn [bind n_convert].
  rewrite !wrap_id by (apply int64; lia). cbn [op_in int_op]. unfold cmul, arith.
  rewrite (proj2 (int64 (n * p))) by nia. cbn [isigned I64 bind op_in int_op]. unfold cmul, arith.
  rewrite (proj2 (int64 (z * (n * p)))) by nia. cbn [bind op_in int_op]. unfold cdiv, arith. cbn [Z.eqb]. rewrite Z.quot_1_r.
  rewrite (proj2 (int64 (z * (n * p)))) by nia. cbn [bind n_convert]. reflexivity.
Qed.

(** Conversions of [int] to [double]. *)
Lemma int_converted : forall est from to c z, q_rep from = RInt I32 -> q_rep to = RFlt F64 -> dim_equivalent (q_dim to) (q_dim from) = true ->
  cast_ratio est (q_dim from) (q_unit from) (q_dim to) (q_unit to) = Ok c ->
  q_convert est from to (NInt z) = Ok (NFlt (int z * cast_factor F64 c)%D).
Proof.
  intros est from to c z Rf Rt De Hc. unfold q_convert. destruct (qtype_eq_dec from to) as [E|_]; [rewrite E in Rf; congruence|].
  rewrite (safe_to_float est from to F64 Rt De). cbn [bind constrained]. unfold quantity_cast. rewrite De, Hc. cbn [bind constrained]. rewrite Rf, Rt.
  rewrite (cast_number_eq _ _ _ F64 _ (int z)) by reflexivity. cbn [n_convert]. rewrite conv; [reflexivity|]. apply dbl_mul; [apply dbl_int|apply (factor_valid F64)].
Qed.

(** [int] and [double] quotients. *)
Lemma quotient_int : forall w a b r y z, reference_divide w a b = Ok r -> in_range I32 y = true -> in_range I32 z = true ->
  q_over w (qi a y) (qi b z) = if z =? 0 then Undef else if in_range I32 (Z.quot y z) then Ok (qi r (Z.quot y z)) else Undef.
Proof.
  intros w [a1 a2] [b1 b2] r y z H Y Z. unfold q_over, qi. cbv zeta. cbn [q_type q_dim q_unit q_rep q_num ref_dim ref_unit]. rewrite H. cbn [bind].
  unfold n_op. cbv zeta. change (arith_rep (RInt I32) (RInt I32)) with (RInt I32). cbn [n_convert bind]. rewrite !wrap_id by assumption.
  cbn [op_in int_op]. unfold cdiv, arith. destruct (z =? 0); [reflexivity|]. destruct (in_range I32 (Z.quot y z)) eqn:R; [|reflexivity].
  cbn [isigned I32 bind]. rewrite ?wrap_id by exact R. reflexivity.
Qed.
Lemma quotient_dbl : forall w a b r x y, reference_divide w a b = Ok r -> is_double x -> is_double y -> q_over w (qf a x) (qf b y) = Ok (qf r (x / y)%D).
Proof.
  intros w [a1 a2] [b1 b2] r x y H X Y. unfold q_over, qf. cbv zeta. cbn [q_type q_dim q_unit q_rep q_num ref_dim ref_unit]. rewrite H. cbn [bind].
  unfold n_op. cbv zeta. change (arith_rep (RFlt F64) (RFlt F64)) with (RFlt F64). cbn [n_convert bind].
  rewrite !conv by assumption. reflexivity.
Qed.

Section Functions.
Variable est : estimate.
Let e := avg_env_of est.

Lemma metre_second : reference_divide (a_world e) (a_metre e) (a_second e) = Ok (a_mps e).
Proof using. unfold e. vm_compute. reflexivity. Qed.
Lemma km_h : reference_divide (a_world e) (a_km e) (a_h e) = Ok (a_kmph e).
Proof using. unfold e. vm_compute. reflexivity. Qed.

Ltac differ := intros Q; apply (f_equal (fun y => u_name (q_unit y))) in Q; revert Q; clear; vm_compute; discriminate.

Lemma to_metres_int : forall z, in_range I32 z = true -> q_to est (of_ref (a_metre e) (RInt I32)) (qi (a_km e) z) = Ok (qi (a_metre e) (wrap I32 (z * 1000))).
Proof using.
  intros z Z. unfold q_to, q_convert. cbn [q_type q_num qi]. destruct (qtype_eq_dec _ _) as [Q|_]; [exfalso; revert Q; differ|].
  match goal with |- context [safe_castable_to ?a ?b ?c] => assert (S : safe_castable_to a b c = Ok true) by (clear; vm_compute; reflexivity); rewrite S end.
  cbn [bind constrained]. unfold quantity_cast.
  match goal with |- context [dim_equivalent ?a ?b] => assert (D : dim_equivalent a b = true) by (clear; vm_compute; reflexivity); rewrite D end. cbn [bind constrained].
  match goal with |- context [cast_ratio ?x ?a ?b ?c ?d] => assert (C : cast_ratio x a b c d = Ok (Ratio 1 1 3)) by (clear; vm_compute; reflexivity); rewrite C end. cbn [bind q_rep of_ref].
  rewrite (scaled_int 1 3 1000 z) by (try exact Z; try reflexivity; lia). reflexivity.
Qed.
Lemma to_seconds_int : forall z, in_range I32 z = true -> q_to est (of_ref (a_second e) (RInt I32)) (qi (a_h e) z) = Ok (qi (a_second e) (wrap I32 (z * 3600))).
Proof using.
  intros z Z. unfold q_to, q_convert. cbn [q_type q_num qi]. destruct (qtype_eq_dec _ _) as [Q|_]; [exfalso; revert Q; differ|].
  match goal with |- context [safe_castable_to ?a ?b ?c] => assert (S : safe_castable_to a b c = Ok true) by (clear; vm_compute; reflexivity); rewrite S end.
  cbn [bind constrained]. unfold quantity_cast.
  match goal with |- context [dim_equivalent ?a ?b] => assert (D : dim_equivalent a b = true) by (clear; vm_compute; reflexivity); rewrite D end. cbn [bind constrained].
  match goal with |- context [cast_ratio ?x ?a ?b ?c ?d] => assert (C : cast_ratio x a b c d = Ok (Ratio 36 1 2)) by (clear; vm_compute; reflexivity); rewrite C end. cbn [bind q_rep of_ref].
  rewrite (scaled_int 36 2 100 z) by (try exact Z; try reflexivity; lia). reflexivity.
Qed.
Lemma same_type : forall r n, q_to est (of_ref r (RInt I32)) (qi r n) = Ok (qi r n).
Proof using. clear. intros r n. unfold q_to, q_convert. cbn [q_type q_num qi]. change (QType (ref_dim r) (ref_unit r) (RInt I32)) with (of_ref r (RInt I32)). destruct (qtype_eq_dec _ _) as [_|N]; [reflexivity|now elim N]. Qed.
Lemma same_type_dbl : forall r x, q_to est (of_ref r (RFlt F64)) (qf r x) = Ok (qf r x).
Proof using. clear. intros r n. unfold q_to, q_convert. cbn [q_type q_num qf]. change (QType (ref_dim r) (ref_unit r) (RFlt F64)) with (of_ref r (RFlt F64)). destruct (qtype_eq_dec _ _) as [_|N]; [reflexivity|now elim N]. Qed.

Lemma fixed_int : forall d t, in_range I32 d = true -> in_range I32 t = true ->
  fixed_avg_speed e (RInt I32) (qi (a_km e) d) (qi (a_h e) t) =
    let d := wrap I32 (d * 1000) in let t := wrap I32 (t * 3600) in
    if t =? 0 then Undef else if in_range I32 (Z.quot d t) then Ok (qi (a_mps e) (Z.quot d t)) else Undef.
Proof using.
  intros d t D T. cbv zeta. unfold fixed_avg_speed. change (a_est e) with est. rewrite to_metres_int by exact D. cbn [bind]. rewrite to_seconds_int by exact T. cbn [bind].
  rewrite (quotient_int _ _ _ _ _ _ metre_second) by apply wrap_in_range. destruct (_ =? 0); [reflexivity|]. destruct (in_range I32 (Z.quot _ _)); [|reflexivity]. cbn [bind]. apply same_type.
Qed.

Ltac dbl_to := match goal with |- context [q_convert est ?a ?b (NFlt ?x)] =>
    rewrite (converted est F64 a b x); [|reflexivity|reflexivity|clear; vm_compute; reflexivity|assumption|differ] end;
  match goal with |- context [cast_ratio ?x ?a ?b ?c ?d] => let v := eval vm_compute in (cast_ratio x a b c d) in
    assert (C : cast_ratio x a b c d = v) by (clear; vm_compute; reflexivity); rewrite C end; cbn [bind].
Lemma to_metres_dbl : forall x, is_double x -> q_to est (of_ref (a_metre e) (RFlt F64)) (qf (a_km e) x) = Ok (qf (a_metre e) (x * int 1000)%D).
Proof using.
  intros x X. unfold q_to. cbn [q_type q_num qf]. dbl_to.
  match goal with |- context [cast_factor F64 ?c] => assert (Fc : cast_factor F64 c = int 1000) by (vm_compute; reflexivity); rewrite Fc end. reflexivity.
Qed.
Lemma to_seconds_dbl : forall x, is_double x -> q_to est (of_ref (a_second e) (RFlt F64)) (qf (a_h e) x) = Ok (qf (a_second e) (x * int 3600)%D).
Proof using.
  intros x X. unfold q_to. cbn [q_type q_num qf]. dbl_to.
  match goal with |- context [cast_factor F64 ?c] => assert (Fc : cast_factor F64 c = int 3600) by (vm_compute; reflexivity); rewrite Fc end. reflexivity.
Qed.
Lemma fixed_double : forall d t, is_double d -> is_double t ->
  fixed_avg_speed e (RFlt F64) (qf (a_km e) d) (qf (a_h e) t) = Ok (qf (a_mps e) ((d * int 1000) / (t * int 3600))%D).
Proof using.
  intros d t D T. unfold fixed_avg_speed. change (a_est e) with est. rewrite to_metres_dbl by exact D. cbn [bind]. rewrite to_seconds_dbl by exact T. cbn [bind].
  rewrite (quotient_dbl _ _ _ _ _ _ metre_second) by auto with dbl. cbn [bind]. apply same_type_dbl.
Qed.
Ltac int_to := match goal with |- context [q_convert est ?a ?b (NInt ?z)] =>
    erewrite (int_converted est a b _ z); [|reflexivity|reflexivity|clear; vm_compute; reflexivity|clear; vm_compute; reflexivity] end; cbn [bind].
Lemma fixed_double_int : forall d t,
  fixed_avg_speed e (RFlt F64) (qi (a_km e) d) (qi (a_h e) t) = Ok (qf (a_mps e) ((int d * int 1000) / (int t * int 3600))%D).
Proof using.
  intros d t. unfold fixed_avg_speed. change (a_est e) with est. unfold q_to at 1. cbn [q_type q_num qi]. int_to. unfold q_to at 1. cbn [q_type q_num qi]. int_to.
  repeat match goal with |- context [cast_factor F64 ?c] => let v := eval vm_compute in (rexp c) in
    match v with 3%Z => assert (Fc : cast_factor F64 c = int 1000) by (vm_compute; reflexivity) | _ => assert (Fc : cast_factor F64 c = int 3600) by (vm_compute; reflexivity) end; rewrite Fc; clear Fc end.
  change (Quantity (of_ref (a_metre e) (RFlt F64)) (NFlt (int d * int 1000)%D)) with (qf (a_metre e) (int d * int 1000)%D).
  change (Quantity (of_ref (a_second e) (RFlt F64)) (NFlt (int t * int 3600)%D)) with (qf (a_second e) (int t * int 3600)%D).
  rewrite (quotient_dbl _ _ _ _ _ _ metre_second) by auto with dbl. cbn [bind]. apply same_type_dbl.
Qed.

(** The generic functions. *)
Lemma generic_eq : forall d t, q_dim (q_type d) = ref_dim (a_km e) -> q_dim (q_type t) = ref_dim (a_h e) ->
  si_avg_speed e d t = q_over (a_world e) d t /\ avg_speed e d t = q_over (a_world e) d t.
Proof using.
  intros d t D T. unfold si_avg_speed, avg_speed. rewrite D, T. split.
  - assert (A : (if dimension_eq_dec (ref_dim (a_km e)) (ref_dim (a_metre e)) then true else false) = true) by (clear; vm_compute; reflexivity). rewrite A.
    assert (B : (if dimension_eq_dec (ref_dim (a_h e)) (ref_dim (a_second e)) then true else false) = true) by (clear; vm_compute; reflexivity). rewrite B. reflexivity.
  - assert (A : dim_equivalent (ref_dim (a_km e)) (ref_dim (a_metre e)) = true) by (clear; vm_compute; reflexivity). rewrite A.
    assert (B : dim_equivalent (ref_dim (a_h e)) (ref_dim (a_second e)) = true) by (clear; vm_compute; reflexivity). rewrite B. reflexivity.
Qed.

(** What is printed. *)
Lemma printed_flt : forall v n x c, q_num v = n -> cast_rep (q_rep (q_type v)) (RFlt F64) = RFlt F64 -> n_convert (RFlt F64) n = Ok (NFlt x) -> is_double x ->
  dim_equivalent (ref_dim (a_kmph e)) (q_dim (q_type v)) = true ->
  cast_ratio est (q_dim (q_type v)) (q_unit (q_type v)) (ref_dim (a_kmph e)) (ref_unit (a_kmph e)) = Ok c ->
  print_result e v = Ok (qf (a_kmph e) (x * cast_factor F64 c)%D).
Proof using.
  intros v n x c Nv R Cv X De Hc. unfold print_result, q_cast. change (a_est e) with est. unfold quantity_cast. cbn [q_dim q_unit q_rep of_ref]. rewrite De, Hc. cbn [bind constrained].
  rewrite Nv. rewrite (cast_number_eq _ _ _ F64 _ x R Cv). cbn [n_convert]. rewrite conv; [reflexivity|]. apply dbl_mul; [exact X|apply (factor_valid F64)].
Qed.
Lemma print_mps_int : forall z, print_result e (qi (a_mps e) z) = Ok (qf (a_kmph e) (int z * (int 36 / int 10))%D).
Proof using.
  intros z. erewrite (printed_flt _ (NInt z) (int z)); [|reflexivity|reflexivity|reflexivity|apply dbl_int|clear; vm_compute; reflexivity|clear; vm_compute; reflexivity].
  match goal with |- context [cast_factor F64 ?c] => assert (Fc : cast_factor F64 c = (int 36 / int 10)%D) by (vm_compute; reflexivity); rewrite Fc end. reflexivity.
Qed.
Lemma print_mps : forall x, is_double x -> print_result e (qf (a_mps e) x) = Ok (qf (a_kmph e) (x * (int 36 / int 10))%D).
Proof using.
  intros x X. erewrite (printed_flt _ (NFlt x) x); [|reflexivity|reflexivity|cbn [n_convert]; now rewrite conv|exact X|clear; vm_compute; reflexivity|clear; vm_compute; reflexivity].
  match goal with |- context [cast_factor F64 ?c] => assert (Fc : cast_factor F64 c = (int 36 / int 10)%D) by (vm_compute; reflexivity); rewrite Fc end. reflexivity.
Qed.
Lemma print_kmph_int : forall z, print_result e (qi (a_kmph e) z) = Ok (qf (a_kmph e) (int z)).
Proof using.
  intros z. erewrite (printed_flt _ (NInt z) (int z)); [|reflexivity|reflexivity|reflexivity|apply dbl_int|clear; vm_compute; reflexivity|clear; vm_compute; reflexivity].
  match goal with |- context [cast_factor F64 ?c] => assert (Fc : cast_factor F64 c = int 1) by (vm_compute; reflexivity); rewrite Fc end. rewrite times_one by apply dbl_int. reflexivity.
Qed.
Lemma print_kmph : forall x, is_double x -> print_result e (qf (a_kmph e) x) = Ok (qf (a_kmph e) x).
Proof using.
  intros x X. erewrite (printed_flt _ (NFlt x) x); [|reflexivity|reflexivity|cbn [n_convert]; now rewrite conv|exact X|clear; vm_compute; reflexivity|clear; vm_compute; reflexivity].
  match goal with |- context [cast_factor F64 ?c] => assert (Fc : cast_factor F64 c = int 1) by (vm_compute; reflexivity); rewrite Fc end. rewrite times_one by exact X. reflexivity.
Qed.
End Functions.
