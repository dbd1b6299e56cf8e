(** The loop of the capacitor example computes the plain doubles of [SpecCapacitor]. *)

From Coq Require Import ZArith String List Bool Lia Reals Lra SpecFloat.
From Flocq Require Import Core IEEE754.BinarySingleNaN.
From Verif Require Import Outcome CInt Root Ratio RatioProofs Unit Downcast Dim DimOp Equivalent Rep Reference QuantityCast CommonQuantity
  Quantity Point System Catalogue Includes Names Math Capacitor SpecReal SpecGlide SpecCapacitor
  FloatProofs FloatCastProofs FloatAddProofs FloatOrderProofs CastProofs GlideProofs Props_ConversionFactor.
Import ListNotations.
Local Open Scope list_scope.
Local Open Scope res_scope.

Definition capacitor_env_of (est : estimate) (l : libm) : cenv :=
  ltac:(let x := eval vm_compute in (capacitor_setup est l) in match x with Ok ?e => exact e end).
Lemma capacitor_setup_env : forall est l, capacitor_setup est l = Ok (capacitor_env_of est l).
Proof. intros est l. vm_compute. reflexivity. Qed.

Lemma thousand_bits : SFdiv 53 1024 (SFmul 53 1024 (float_of_int F64 1) (fpow10 F64 3)) (float_of_int F64 1) = int 1000.
Proof. vm_compute. reflexivity. Qed.
Lemma million_bits : SFdiv 53 1024 (SFmul 53 1024 (float_of_int F64 1) (fpow10 F64 6)) (float_of_int F64 1) = int 1000000.
Proof. vm_compute. reflexivity. Qed.
Lemma billion_bits : SFdiv 53 1024 (SFmul 53 1024 (float_of_int F64 1) (fpow10 F64 9)) (float_of_int F64 1) = int 1000000000.
Proof. vm_compute. reflexivity. Qed.
Lemma trillion_bits : SFdiv 53 1024 (SFmul 53 1024 (float_of_int F64 1) (fpow10 F64 12)) (float_of_int F64 1) = int 1000000000000.
Proof. vm_compute. reflexivity. Qed.
Lemma unit_bits : SFdiv 53 1024 (SFmul 53 1024 (float_of_int F64 1) (fpow10 F64 0)) (float_of_int F64 1) = int 1.
Proof. vm_compute. reflexivity. Qed.
Lemma times_one : forall x, is_double x -> SFmul 53 1024 x (int 1) = x.
Proof. exact (mul_one F64). Qed.

(** Doubles and ints of a unit. *)
Definition qf (r : reference) (x : spec_float) : quantity := Quantity (QType (ref_dim r) (ref_unit r) (RFlt F64)) (NFlt x).
Definition qi (r : reference) (z : Z) : quantity := Quantity (QType (ref_dim r) (ref_unit r) (RInt I32)) (NInt z).
Definition volts (e : cenv) (x : spec_float) : quantity := qf (r_V e) x.
Definition millis (e : cenv) (z : Z) : quantity := qi (r_ms e) z.

Lemma make_flt : forall r x, is_double x -> times_reference (RFlt F64) (NFlt x) r = Ok (qf r x).
Proof. intros r x X. unfold times_reference, q_make. cbn [q_rep safe_convertible floating orb constrained bind n_convert]. now rewrite conv. Qed.
Lemma make_int : forall r z, in_range I32 z = true -> times_reference (RInt I32) (NInt z) r = Ok (qi r z).
Proof. intros r z X. unfold times_reference, q_make. cbn [q_rep safe_convertible floating orb negb constrained bind n_convert]. now rewrite wrap_id. Qed.
Lemma times_flt : forall w a b r x y, reference_multiply w a b = Ok r -> is_double x -> is_double y -> q_times w (qf a x) (qf b y) = Ok (qf r (x * y)%D).
Proof.
  intros w [a1 a2] [b1 b2] r x y H X Y. unfold q_times, qf. cbv zeta. cbn [q_type q_dim q_unit q_rep q_num ref_dim ref_unit]. rewrite H. cbn [bind].
  unfold n_op. cbv zeta. change (arith_rep (RFlt F64) (RFlt F64)) with (RFlt F64). cbn [n_convert bind].
  rewrite !conv by assumption. reflexivity.
Qed.
Lemma over_int : forall w a b r z y, reference_divide w a b = Ok r -> is_double y -> q_over w (qi a z) (qf b y) = Ok (qf r (int z / y)%D).
Proof.
  intros w [a1 a2] [b1 b2] r z y H Y. unfold q_over, qf, qi. cbv zeta. cbn [q_type q_dim q_unit q_rep q_num ref_dim ref_unit]. rewrite H. cbn [bind].
  unfold n_op. cbv zeta. change (arith_rep (RInt I32) (RFlt F64)) with (RFlt F64). cbn [n_convert bind]. rewrite conv by assumption. reflexivity.
Qed.

Section Functions.
Variables (est : estimate) (l : libm).
Hypothesis exp_dbl : forall x, is_double (m_exp l F64 x).
Let e := capacitor_env_of est l.

Let one_ref := Reference dim_one unit_one.

Lemma rc_ref : reference_multiply (c_world e) (r_kR e) (r_uF e) = Ok (r_ms e).
Proof using. clear - e. unfold e. vm_compute. reflexivity. Qed.
Lemma quotient_ref : reference_divide (c_world e) (r_ms e) (r_ms e) = Ok one_ref.
Proof using. clear - e one_ref. unfold e, one_ref. vm_compute. reflexivity. Qed.
Lemma voltage_ref : reference_multiply (c_world e) (r_V e) one_ref = Ok (r_V e).
Proof using. clear - e one_ref. unfold e, one_ref. vm_compute. reflexivity. Qed.

Lemma one_cast : forall x, is_double x ->
  quantity_cast est (QType dim_one unit_one (RFlt F64)) (QType dim_one unit_one (RFlt F64)) (NFlt x) = Ok (NFlt x).
Proof using.
  clear. intros x X. unfold quantity_cast. cbn [q_dim q_unit q_rep]. change (dim_equivalent dim_one dim_one) with true. cbn [constrained bind].
  change (cast_ratio est dim_one unit_one dim_one unit_one) with (Ok (Ratio 1 1 0)). cbn [bind].
  rewrite (cast_number_eq _ (RFlt F64) (RFlt F64) F64 (NFlt x) x eq_refl) by (cbn [n_convert]; now rewrite conv).
  rewrite factor_one, mul_one by exact X. cbn [n_convert]. now rewrite conv.
Qed.
Lemma exp_one : forall x, is_double x -> q_exp est l (qf one_ref x) = Ok (qf one_ref (m_exp l F64 x)).
Proof using exp_dbl.
  clear - exp_dbl one_ref. intros x X. unfold q_exp, qf, one_ref. cbv zeta. cbn [q_type q_dim q_unit q_rep q_num ref_dim ref_unit cmath_fty].
  destruct (dimension_eq_dec dim_one dim_one) as [_|N]; [|now elim N]. cbn [constrained bind].
  unfold quantity_cast_unit. cbn [q_dim q_rep]. change (mk_qtype dim_one unit_one (RFlt F64)) with (Ok (QType dim_one unit_one (RFlt F64))). cbn [bind].
  rewrite one_cast by exact X. cbn [bind snd to_float]. unfold q_make. cbn [q_rep safe_convertible floating orb constrained bind n_convert q_type q_num].
  rewrite !conv by auto. rewrite one_cast by auto. reflexivity.
Qed.

Lemma voltage_plain : forall c v r t, is_double c -> is_double v -> is_double r -> in_range I32 t = true -> in_range I32 (- t) = true ->
  voltage_at e (NFlt c) (NFlt v) (NFlt r) (millis e t) = Ok (volts e (plain_voltage (m_exp l F64) c v r t)).
Proof using exp_dbl.
  intros c v r t C V R T T'. unfold voltage_at. rewrite !make_flt by assumption. cbn [bind].
  assert (N : q_neg (millis e t) = Ok (millis e (- t))).
  { unfold q_neg, millis, qi. cbv zeta. cbn [q_type q_rep q_num promote_rep n_neg]. change (promote I32) with I32.
    assert (E : cneg I32 t = Ok (- t)%Z) by (unfold cneg, arith; rewrite T', ?andb_false_r; cbn [isigned I32 negb andb]; now rewrite ?wrap_id by exact T'). rewrite E. reflexivity. }
  rewrite N. cbn [bind]. rewrite (times_flt _ _ _ _ r c rc_ref R C). cbn [bind]. unfold millis.
  rewrite (over_int _ _ _ _ (- t) (r * c)%D quotient_ref) by auto with dbl. cbn [bind].
  change (c_est e) with est. change (c_libm e) with l. rewrite exp_one by auto with dbl. cbn [bind].
  rewrite (times_flt _ _ _ _ v _ voltage_ref V (exp_dbl _)). reflexivity.
Qed.

(** The comparisons with one volt and its fractions. *)
Let VT := QType (ref_dim (r_V e)) (ref_unit (r_V e)) (RFlt F64).
Lemma one_volt : forall x, at_least_one e (volts e x) (r_V e) = Ok (reaches_one x).
Proof using.
  intros x. unfold at_least_one. rewrite make_int by reflexivity. cbn [bind]. unfold q_compare.
  assert (H : common_quantity est (c_world e) VT (q_type (qi (r_V e) 1)) (RFlt F64) = Ok VT) by (clear; vm_compute; reflexivity).
  change (c_est e) with est. rewrite (common_converts est (c_world e) (volts e x) (qi (r_V e) 1) F64 VT eq_refl H).
  change (q_type (volts e x)) with VT. unfold q_convert at 1. destruct (qtype_eq_dec VT VT) as [_|N]; [|now elim N]. cbn [bind].
  assert (O : q_convert est (q_type (qi (r_V e) 1)) VT (q_num (qi (r_V e) 1)) = Ok (NFlt (int 1))) by (clear; vm_compute; reflexivity).
  rewrite O. reflexivity.
Qed.
Lemma one_part : forall r T k x, is_double x -> is_double (int k) ->
  common_quantity est (c_world e) VT (q_type (qi r 1)) (RFlt F64) = Ok T -> q_rep T = RFlt F64 -> dim_equivalent (q_dim T) (q_dim VT) = true -> VT <> T ->
  (exists c, cast_ratio est (q_dim VT) (q_unit VT) (q_dim T) (q_unit T) = Ok c /\ cast_factor F64 c = int k) ->
  q_convert est (q_type (qi r 1)) T (NInt 1) = Ok (NFlt (int 1)) ->
  at_least_one e (volts e x) r = Ok (reaches_one (x * int k)%D).
Proof using.
  intros r T k x X K H R De Ne (c & Hc & Fc) O. unfold at_least_one. rewrite make_int by reflexivity. cbn [bind]. unfold q_compare.
  change (c_est e) with est. rewrite (common_converts est (c_world e) (volts e x) (qi r 1) F64 T eq_refl H).
  change (q_type (volts e x)) with VT. change (q_num (volts e x)) with (NFlt x). rewrite (converted est F64 VT T x eq_refl R De X Ne), Hc. cbn [bind]. rewrite Fc.
  change (q_num (qi r 1)) with (NInt 1). rewrite O. reflexivity.
Qed.

Ltac part t := apply (one_part _ t); [assumption|apply dbl_int|clear; vm_compute; reflexivity|reflexivity|clear; vm_compute; reflexivity|
  intros Q; apply (f_equal (fun y => u_name (q_unit y))) in Q; revert Q; clear; vm_compute; discriminate|
  eexists; split; [clear; vm_compute; reflexivity|clear; vm_compute; reflexivity]|clear; vm_compute; reflexivity].
Ltac common r := let x := eval vm_compute in (common_quantity est (c_world e) VT (q_type (qi r 1)) (RFlt F64)) in match x with Ok ?t => t end.

Lemma one_millivolt : forall x, is_double x -> at_least_one e (volts e x) (r_mV e) = Ok (reaches_one (x * int 1000)%D).
Proof using. intros x X. let t := common (r_mV e) in part t. Qed.
Lemma one_microvolt : forall x, is_double x -> at_least_one e (volts e x) (r_uV e) = Ok (reaches_one (x * int 1000000)%D).
Proof using. intros x X. let t := common (r_uV e) in part t. Qed.
Lemma one_nanovolt : forall x, is_double x -> at_least_one e (volts e x) (r_nV e) = Ok (reaches_one (x * int 1000000000)%D).
Proof using. intros x X. let t := common (r_nV e) in part t. Qed.

(** A cast to a fraction of the volt. *)
Definition in_volts (u : cunit) (x : spec_float) : quantity := Quantity (QType (ref_dim (r_V e)) u (RFlt F64)) (NFlt x).
Lemma cast_part : forall u k x, is_double x -> is_double (int k) -> unit_of u (q_dim VT) = true ->
  (exists c, cast_ratio est (q_dim VT) (q_unit VT) (q_dim VT) u = Ok c /\ cast_factor F64 c = int k) ->
  q_cast est (c_world e) (ToUnit u) (volts e x) = Ok (in_volts u (x * int k)%D).
Proof using.
  intros u k x X K U (c & Hc & Fc). unfold q_cast, quantity_cast_unit. change (q_type (volts e x)) with VT. change (q_num (volts e x)) with (NFlt x).
  unfold mk_qtype. rewrite U. cbn [constrained bind]. unfold quantity_cast. cbn [q_dim q_unit q_rep].
  assert (De : dim_equivalent (q_dim VT) (q_dim VT) = true) by (clear; vm_compute; reflexivity). rewrite De. cbn [constrained bind]. rewrite Hc. cbn [bind].
  change (q_rep VT) with (RFlt F64). rewrite (cast_number_eq _ (RFlt F64) (RFlt F64) F64 (NFlt x) x eq_refl) by (cbn [n_convert]; now rewrite conv).
  rewrite Fc. cbn [n_convert]. rewrite conv by (now apply dbl_mul). reflexivity.
Qed.
Ltac castp := apply cast_part; [assumption|apply dbl_int|clear; vm_compute; reflexivity|eexists; split; [clear; vm_compute; reflexivity|clear; vm_compute; reflexivity]].
Lemma to_milli : forall x, is_double x -> q_cast est (c_world e) (ToUnit (u_millivolt e)) (volts e x) = Ok (in_volts (u_millivolt e) (x * int 1000)%D).
Proof using. intros x X. castp. Qed.
Lemma to_micro : forall x, is_double x -> q_cast est (c_world e) (ToUnit (u_microvolt e)) (volts e x) = Ok (in_volts (u_microvolt e) (x * int 1000000)%D).
Proof using. intros x X. castp. Qed.
Lemma to_nano : forall x, is_double x -> q_cast est (c_world e) (ToUnit (u_nanovolt e)) (volts e x) = Ok (in_volts (u_nanovolt e) (x * int 1000000000)%D).
Proof using. intros x X. castp. Qed.
Lemma to_pico : forall x, is_double x -> q_cast est (c_world e) (ToUnit (u_picovolt e)) (volts e x) = Ok (in_volts (u_picovolt e) (x * int 1000000000000)%D).
Proof using. intros x X. castp. Qed.

Lemma shown_plain : forall x, is_double x -> exists q, shown e (volts e x) = Ok q /\
  q_dim (q_type q) = ref_dim (r_V e) /\ u_name (q_unit (q_type q)) = step_name (plain_step x) /\ q_rep (q_type q) = RFlt F64 /\ q_num q = NFlt (plain_shown x).
Proof using.
  intros x X. unfold shown. change (c_est e) with est. rewrite one_volt. cbn [bind].
  unfold plain_shown, plain_step. change (in_step x 1) with (x * int 1000)%D. change (in_step x 2) with (x * int 1000000)%D. change (in_step x 3) with (x * int 1000000000)%D.
  destruct (reaches_one x); [eexists; split; [reflexivity|]; repeat split|].
  rewrite one_millivolt by exact X. cbn [bind]. destruct (reaches_one (x * int 1000)%D); [rewrite to_milli by exact X; eexists; split; [reflexivity|]; repeat split|].
  rewrite one_microvolt by exact X. cbn [bind]. destruct (reaches_one (x * int 1000000)%D); [rewrite to_micro by exact X; eexists; split; [reflexivity|]; repeat split|].
  rewrite one_nanovolt by exact X. cbn [bind]. destruct (reaches_one (x * int 1000000000)%D); [rewrite to_nano by exact X; eexists; split; [reflexivity|]; repeat split|].
  rewrite to_pico by exact X. eexists. split; [reflexivity|]. repeat split.
Qed.

(** The loop. *)
Lemma next_time : forall t, in_range I32 t = true -> q_act est (millis e t) AInc =
  if in_range I32 (t + 1) then Ok (millis e (t + 1)) else Undef.
Proof using.
  intros t T. unfold q_act, millis, qi. cbv zeta. cbn [q_type q_rep q_num]. unfold n_assign, n_op. cbv zeta.
  change (arith_rep (RInt I32) (RInt I32)) with (RInt I32). cbn [n_convert bind]. rewrite wrap_id by exact T. change (wrap I32 1) with 1%Z.
  cbn [op_in int_op]. assert (E : cadd I32 t 1 = if in_range I32 (t + 1) then Ok (t + 1)%Z else Undef) by reflexivity. rewrite E.
  destruct (in_range I32 (t + 1)) eqn:R; [|reflexivity]. cbn [bind n_convert]. rewrite wrap_id by exact R. reflexivity.
Qed.
Lemma time_order : forall t s, q_compare est (c_world e) (millis e t) (millis e s) = Ok (Some (t ?= s)%Z).
Proof using.
  intros t s. unfold q_compare, q_common. change (q_type (millis e t)) with (q_type (millis e s)). destruct (qtype_eq_dec _ _) as [_|N]; [|now elim N]. reflexivity.
Qed.

(** What is printed in the turn of the time [t]. *)
Definition printed (c v r : spec_float) (t : Z) (p : quantity * quantity) : Prop :=
  let x := plain_voltage (m_exp l F64) c v r t in
  fst p = millis e t /\ q_dim (q_type (snd p)) = ref_dim (r_V e) /\ u_name (q_unit (q_type (snd p))) = step_name (plain_step x) /\
  q_rep (q_type (snd p)) = RFlt F64 /\ q_num (snd p) = NFlt (plain_shown x).

Lemma i32_range : forall z, in_range I32 z = true <-> (-2147483648 <= z <= 2147483647)%Z.
Proof using. clear. intros z. rewrite in_range_spec. reflexivity. Qed.

Section Loop.
Variables (c v r : spec_float).
Hypotheses (C : is_double c) (V : is_double v) (R : is_double r).

(** One turn. *)
Lemma turn : forall n last t, (0 <= t <= 2147483647)%Z -> in_range I32 last = true ->
  exists p, printed c v r t p /\
  curve (S n) e (NFlt c) (NFlt v) (NFlt r) last (millis e t) =
    if (t <=? last)%Z then (t' <- (if in_range I32 (t + 1) then Ok (millis e (t + 1)) else Undef);
                            rest <- curve n e (NFlt c) (NFlt v) (NFlt r) last t'; Ok (p :: rest)) else Ok [].
Proof using exp_dbl C V R.
  intros n last t T L. assert (It : in_range I32 t = true) by (apply i32_range; lia). assert (In : in_range I32 (- t) = true) by (apply i32_range; lia).
  assert (X : is_double (plain_voltage (m_exp l F64) c v r t)) by (unfold plain_voltage; auto with dbl).
  destruct (shown_plain _ X) as (q & Q & A). exists (millis e t, q). split; [split; [reflexivity|exact A]|].
  cbn [curve]. rewrite (make_int _ last L). cbn [bind]. change (c_est e) with est. change (qi (r_ms e) last) with (millis e last). rewrite time_order. cbn [bind].
  rewrite voltage_plain by assumption. cbn [bind]. rewrite Q. cbn [bind]. rewrite (next_time t It).
  unfold Z.leb. destruct (t ?= last)%Z; reflexivity.
Qed.

Lemma curve_plain : forall n last t, (0 <= t)%Z -> (t <= last + 1)%Z -> (last < 2147483647)%Z -> (last + 1 - t < Z.of_nat n)%Z ->
  exists ps, curve n e (NFlt c) (NFlt v) (NFlt r) last (millis e t) = Ok ps /\ Forall2 (printed c v r) (times_from t (Z.to_nat (last + 1 - t))) ps.
Proof using exp_dbl C V R.
  induction n as [|n IH]; intros last t T L M N; [lia|]. assert (Il : in_range I32 last = true) by (apply i32_range; lia).
  destruct (turn n last t) as (p & P & E); [lia|exact Il|]. rewrite E. destruct (t <=? last)%Z eqn:Le.
  - apply Z.leb_le in Le. assert (It : in_range I32 (t + 1) = true) by (apply i32_range; lia). rewrite It. cbn [bind].
    destruct (IH last (t + 1)%Z) as (ps & Eq & F); [lia..|]. rewrite Eq. cbn [bind]. eexists. split; [reflexivity|].
    replace (Z.to_nat (last + 1 - t)) with (S (Z.to_nat (last + 1 - (t + 1)))) by lia. cbn [times_from]. now constructor.
  - apply Z.leb_gt in Le. eexists. split; [reflexivity|]. replace (Z.to_nat (last + 1 - t)) with 0%nat by lia. constructor.
Qed.
Lemma curve_overflows : forall n t, (0 <= t <= 2147483647)%Z -> forall ps, curve n e (NFlt c) (NFlt v) (NFlt r) 2147483647 (millis e t) <> Ok ps.
Proof using exp_dbl C V R.
  induction n as [|n IH]; intros t T ps H; [discriminate|].
  destruct (turn n 2147483647 t) as (p & P & E); [lia|reflexivity|]. rewrite E in H. rewrite (proj2 (Z.leb_le t 2147483647)) in H by lia.
  destruct (in_range I32 (t + 1)) eqn:It; [|discriminate H]. cbn [bind] in H. apply i32_range in It. step H as rest Er. revert Er. apply IH. lia.
Qed.
End Loop.
End Functions.
