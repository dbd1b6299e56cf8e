(** C107: the intermediate unknown dimension of the examples. *)

From Coq Require Import ZArith String List Bool Lia Reals Lra SpecFloat.
From Flocq Require Import Core IEEE754.BinarySingleNaN.
From Verif Require Import Props_Rounding Outcome CInt Root Unit Dim Equivalent Rep Reference QuantityCast Quantity Point Names AvgSpeed UnknownDim SpecReal SpecGlide SpecCapacitor SpecAvgSpeed
  FloatProofs FloatCastProofs FloatOrderProofs RoundingProofs CancelProofs GlideProofs BoxProofs CapacitorProofs AvgSpeedProofs Props_AvgSpeed.
Import ListNotations.
Local Open Scope list_scope.
Local Open Scope R_scope.
Local Open Scope res_scope.

Definition unknown_env_of (est : estimate) : uenv :=
  ltac:(let x := eval vm_compute in (unknown_setup est) in match x with Ok ?e => exact e end).
Lemma unknown_setup_env : forall est, unknown_setup est = Ok (unknown_env_of est).
Proof. intros est. vm_compute. reflexivity. Qed.
Ltac env H := rewrite unknown_setup_env in H; injection H as <-.

(** The headers and the references compile. *)
Theorem C107_setup : forall est, exists e, unknown_setup est = Ok e.
Proof. intros est. eexists. apply unknown_setup_env. Qed.
Print Assumptions C107_setup.

Lemma times_int : forall w a b r y z, reference_multiply w a b = Ok r -> in_range I32 y = true -> in_range I32 z = true ->
  q_times w (qi a y) (qi b z) = if in_range I32 (y * z) then Ok (qi r (y * z)) else Undef.
Proof.
  intros w [a1 a2] [b1 b2] r y z H Y Z. unfold q_times, qi. cbv zeta. cbn [q_type q_dim q_unit q_rep q_num ref_dim ref_unit]. rewrite H. cbn [bind].
  unfold n_op. cbv zeta. change (arith_rep (RInt I32) (RInt I32)) with (RInt I32). cbn [n_convert bind]. rewrite !wrap_id by assumption.
  cbn [op_in int_op]. unfold cmul, arith. cbn [isigned I32]. destruct (in_range I32 (y * z)); reflexivity.
Qed.

(** The references along the way: metres per second, an unknown dimension whose unit has no name of
    its own, metres per second again, and metres. *)
Lemma way : forall est, let e := unknown_env_of est in exists r,
  reference_divide (x_world e) (x_m e) (x_s e) = Ok (x_mps e) /\ reference_multiply (x_world e) (x_mps e) (x_m e) = Ok r /\
  reference_divide (x_world e) r (x_m e) = Ok (x_mps e) /\ reference_multiply (x_world e) (x_mps e) (x_s e) = Ok (x_m e) /\
  (exists args es, ref_dim r = DUnknown args es) /\
  dim_equivalent (ref_dim (x_m e)) (ref_dim (x_m e)) = true /\ dim_equivalent (ref_dim (x_s e)) (ref_dim (x_s e)) = true /\ dim_equivalent (ref_dim (x_mps e)) (ref_dim (x_mps e)) = true.
Proof.
  intros est. cbv zeta. eexists. split; [vm_compute; reflexivity|]. split; [vm_compute; reflexivity|]. split; [vm_compute; reflexivity|]. split; [vm_compute; reflexivity|].
  split; [eexists; eexists; reflexivity|]. repeat split; vm_compute; reflexivity.
Qed.

(** For all doubles the program compiles and runs: the product of a speed and a length has an unknown
    dimension, the quotient is a speed again and not another dimension of the same exponents, and no
    conversion takes place. *)
Theorem C107_double : forall est e d t a b u, unknown_setup est = Ok e -> is_double d -> is_double t -> is_double a -> is_double b -> is_double u ->
  exists r, (exists args es, ref_dim r = DUnknown args es) /\
  unknown_example e (RFlt F64) (NFlt d) (NFlt t) (NFlt a) (NFlt b) (NFlt u) =
    Ok (doubles (x_mps e) (d / t)%D, doubles r (d / t * a)%D, doubles (x_mps e) (d / t * a / b)%D, doubles (x_m e) (d / t * a / b * u)%D).
Proof.
  intros est e d t a b u S D T A B U. env S. destruct (way est) as (r & H1 & H2 & H3 & H4 & Hu & E1 & E2 & E3). exists r. split; [exact Hu|].
  change (doubles ?x ?z) with (qf x z). unfold unknown_example, like. rewrite !make_flt by assumption. cbn [bind q_type qf q_dim]. rewrite E1. cbn [constrained bind]. try rewrite make_flt by assumption. cbn [bind q_type qf q_dim]. rewrite E2. cbn [constrained bind].
  rewrite (quotient_dbl _ _ _ _ _ _ H1 D T). cbn [bind q_type qf q_dim]. rewrite E3. cbn [constrained bind]. try rewrite make_flt by assumption. cbn [bind].
  rewrite (times_flt _ _ _ _ _ _ H2) by auto with dbl. cbn [bind]. try rewrite make_flt by assumption. cbn [bind].
  rewrite (quotient_dbl _ _ _ _ _ _ H3) by auto with dbl. cbn [bind q_type qf q_dim]. rewrite E3. cbn [constrained bind]. try rewrite make_flt by assumption. cbn [bind].
  rewrite (times_flt _ _ _ _ _ _ H4) by auto with dbl. cbn [bind q_type qf q_dim]. rewrite E1. reflexivity.
Qed.
Print Assumptions C107_double.

(** For all ints the numbers are divided and multiplied in this order; what does not fit, and a
    division by zero, is undefined. *)
Theorem C107_int : forall est e d t a b u, unknown_setup est = Ok e -> an_int d -> an_int t -> an_int a -> an_int b -> an_int u ->
  let v1 := Z.quot d t in let p := (v1 * a)%Z in let v2 := Z.quot p b in let s := (v2 * u)%Z in
  let x := unknown_example e (RInt I32) (NInt d) (NInt t) (NInt a) (NInt b) (NInt u) in
  (t <> 0%Z -> b <> 0%Z -> an_int v1 -> an_int p -> an_int v2 -> an_int s ->
    exists r, (exists args es, ref_dim r = DUnknown args es) /\ x = Ok (ints (x_mps e) v1, ints r p, ints (x_mps e) v2, ints (x_m e) s)) /\
  (t = 0%Z \/ ~ an_int v1 \/ ~ an_int p \/ b = 0%Z \/ ~ an_int v2 \/ ~ an_int s -> x = Undef).
Proof.
  intros est e d t a b u S D T A B U. env S. destruct (way est) as (r & H1 & H2 & H3 & H4 & Hu & E1 & E2 & E3). cbv zeta.
  assert (R : forall z, (an_int z /\ in_range I32 z = true) \/ (~ an_int z /\ in_range I32 z = false)).
  { intros z. destruct (in_range I32 z) eqn:E; [left; split; [now apply int32|reflexivity]|right; split; [|reflexivity]; intros Z; apply range_int in Z; congruence]. }
  assert (X : unknown_example (unknown_env_of est) (RInt I32) (NInt d) (NInt t) (NInt a) (NInt b) (NInt u) =
    if (t =? 0)%Z then Undef else if in_range I32 (Z.quot d t) then if in_range I32 (Z.quot d t * a) then if (b =? 0)%Z then Undef else
    if in_range I32 (Z.quot (Z.quot d t * a) b) then if in_range I32 (Z.quot (Z.quot d t * a) b * u) then
      Ok (qi (x_mps (unknown_env_of est)) (Z.quot d t), qi r (Z.quot d t * a), qi (x_mps (unknown_env_of est)) (Z.quot (Z.quot d t * a) b), qi (x_m (unknown_env_of est)) (Z.quot (Z.quot d t * a) b * u))
    else Undef else Undef else Undef else Undef).
  { unfold unknown_example, like. rewrite make_int by now apply range_int. cbn [bind q_type qi q_dim]. rewrite E1. cbn [constrained bind]. rewrite make_int by now apply range_int. cbn [bind q_type qi q_dim]. rewrite E2. cbn [constrained bind].
    rewrite (quotient_int _ _ _ _ _ _ H1) by now apply range_int. destruct (t =? 0)%Z; [reflexivity|]. destruct (in_range I32 (Z.quot d t)) eqn:R1; [|reflexivity]. cbn [bind q_type qi q_dim]. rewrite E3. cbn [constrained bind].
    rewrite make_int by now apply range_int. cbn [bind]. rewrite (times_int _ _ _ _ _ _ H2 R1) by now apply range_int. destruct (in_range I32 (Z.quot d t * a)) eqn:R2; [|reflexivity]. cbn [bind].
    rewrite make_int by now apply range_int. cbn [bind]. rewrite (quotient_int _ _ _ _ _ _ H3 R2) by now apply range_int. destruct (b =? 0)%Z; [reflexivity|]. destruct (in_range I32 (Z.quot (Z.quot d t * a) b)) eqn:R3; [|reflexivity]. cbn [bind q_type qi q_dim]. rewrite E3. cbn [constrained bind].
    rewrite make_int by now apply range_int. cbn [bind]. rewrite (times_int _ _ _ _ _ _ H4 R3) by now apply range_int. destruct (in_range I32 (Z.quot (Z.quot d t * a) b * u)); [|reflexivity]. cbn [bind q_type qi q_dim]. rewrite E1. reflexivity. }
  rewrite X. split.
  - intros Nt Nb V1 P V2 Q. apply Z.eqb_neq in Nt, Nb. rewrite Nt, Nb, !range_int by assumption. exists r. split; [exact Hu|reflexivity].
  - intros F. destruct (Z.eqb_spec t 0) as [|Nt]; [reflexivity|]. destruct (R (Z.quot d t)) as [[? ->]|[? ->]]; [|reflexivity]. destruct (R (Z.quot d t * a)%Z) as [[? ->]|[? ->]]; [|reflexivity].
    destruct (Z.eqb_spec b 0) as [|Nb]; [reflexivity|]. destruct (R (Z.quot (Z.quot d t * a) b)) as [[? ->]|[? ->]]; [|reflexivity]. destruct (R (Z.quot (Z.quot d t * a) b * u)%Z) as [[? ->]|[? ->]]; [|reflexivity]. tauto.
Qed.
Print Assumptions C107_int.

(** The final length in doubles is within four roundings of the exact one. *)
Theorem C107_accuracy : forall d t a b u, usual_size d -> usual_size t -> usual_size a -> usual_size b -> usual_size u ->
  is_number F64 (d / t * a / b * u)%D /\ within F64 4 (fval (d / t * a / b * u)%D) (fval d / fval t * fval a / fval b * fval u).
Proof.
  intros d t a b u [Nd Md] [Nt Mt] [Na Ma] [Nb Mb] [Nu Mu]. change (medium 60 (fval d)) in Md. change (medium 60 (fval t)) in Mt. change (medium 60 (fval a)) in Ma. change (medium 60 (fval b)) in Mb. change (medium 60 (fval u)) in Mu.
  pose proof (medium_pos _ _ Mt) as Pt. pose proof (medium_pos _ _ Mb) as Pb. pose proof (medium_div _ _ _ _ Md Mt) as M1. pose proof (medium_mul _ _ _ _ M1 Ma) as M2. pose proof (medium_div _ _ _ _ M2 Mb) as M3. pose proof (medium_mul _ _ _ _ M3 Mu) as M4.
  destruct (div_near F64 0 0 d t _ _ Nd Nt (near_refl _ _) (near_refl _ _)) as [N1 A1]; [lra|vm_compute; discriminate|now apply (medium_mid (60 + 60))|].
  destruct (mul_near F64 1 0 _ a _ _ N1 Na A1 (near_refl _ _)) as [N2 A2]; [vm_compute; discriminate|now apply (medium_mid (60 + 60 + 60))|].
  destruct (div_near F64 2 0 _ b _ _ N2 Nb A2 (near_refl _ _)) as [N3 A3]; [lra|vm_compute; discriminate|now apply (medium_mid (60 + 60 + 60 + 60))|].
  destruct (mul_near F64 3 0 _ u _ _ N3 Nu A3 (near_refl _ _)) as [N4 A4]; [vm_compute; discriminate|now apply (medium_mid (60 + 60 + 60 + 60 + 60))|].
  split; [exact N4|]. apply near_within; [apply few; vm_compute; discriminate|exact A4].
Qed.
Print Assumptions C107_accuracy.

(** The numbers of the example: 123 m in 10 s are 12 m/s, times 50 m are 600, over 100 m are 6 m/s,
    and 360 m in 60 s. *)
Example C107_ex_int : forall est e, unknown_setup est = Ok e -> exists r,
  unknown_example e (RInt I32) (NInt 123) (NInt 10) (NInt 50) (NInt 100) (NInt 60) = Ok (ints (x_mps e) 12, ints r 600, ints (x_mps e) 6, ints (x_m e) 360).
Proof.
  intros est e S. destruct (C107_int est e 123 10 50 100 60 S) as [H _]; try (unfold an_int; lia).
  destruct H as (r & _ & H); [lia|lia|vm_compute; split; discriminate|vm_compute; split; discriminate|vm_compute; split; discriminate|vm_compute; split; discriminate|]. exists r. exact H.
Qed.
Example C107_ex_undef : forall est e, unknown_setup est = Ok e ->
  unknown_example e (RInt I32) (NInt 2147483647) (NInt 1) (NInt 2) (NInt 100) (NInt 60) = Undef.
Proof. intros est e S. destruct (C107_int est e 2147483647 1 2 100 60 S) as [_ H]; try (unfold an_int; lia). apply H. right. right. left. vm_compute. intros [_ N]. now apply N. Qed.
Example C107_ex_usual : usual_size (int 123) /\ usual_size (int 10) /\ usual_size (int 50).
Proof.
  assert (U : forall z, (1 <= z <= 1000)%Z -> usual_size (int z)) by (intros z Z; destruct (constant_medium z 60) as (A & B & C); [lia..|]; split; [exact A|rewrite B; exact C]).
  split; [|split]; apply U; lia.
Qed.
