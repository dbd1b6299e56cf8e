(** The functions of the glide computer, run by the library's operators, compute the plain
    expressions of [SpecGlide]. *)

From Coq Require Import ZArith String List Bool Lia SpecFloat.
From Flocq Require Import IEEE754.BinarySingleNaN.
From Verif Require Import Outcome CInt Root Ratio Unit Downcast Dim DimOp Equivalent Rep Reference QuantityCast CommonQuantity
  Quantity Math Point Kind PointKind Chrono System Catalogue Includes Glide SpecGlide FloatProofs FloatCastProofs FloatAddProofs.
Import ListNotations.
Local Open Scope list_scope.
Local Open Scope res_scope.

(** Operations on doubles yield doubles. *)
Lemma dbl_add : forall x y, is_double x -> is_double y -> is_double (SFadd 53 1024 x y).
Proof. exact (add_valid F64). Qed.
Lemma dbl_sub : forall x y, is_double x -> is_double y -> is_double (SFsub 53 1024 x y).
Proof. exact (sub_valid F64). Qed.
Lemma dbl_mul : forall x y, is_double x -> is_double y -> is_double (SFmul 53 1024 x y).
Proof.
  intros x y X Y. destruct (B_of F64 x X) as [a <-], (B_of F64 y Y) as [b <-].
  unfold is_double. rewrite (mul_equiv F64). apply valid_binary_B2SF.
Qed.
Lemma dbl_div : forall x y, is_double x -> is_double y -> is_double (SFdiv 53 1024 x y).
Proof.
  intros x y X Y. destruct (B_of F64 x X) as [a <-], (B_of F64 y Y) as [b <-].
  unfold is_double. rewrite (div_equiv F64). apply valid_binary_B2SF.
Qed.
Lemma dbl_opp : forall x, is_double x -> is_double (SFopp x).
Proof. intros [| | |s m e] X; exact X. Qed.
Lemma dbl_int : forall z, is_double (int z).
Proof. intros z. unfold is_double, int. rewrite (normalize_equiv F64). apply valid_binary_B2SF. Qed.
Lemma dbl_of_int : forall z, is_double (float_of_int F64 z).
Proof. exact dbl_int. Qed.
Lemma conv : forall x, is_double x -> float_conv F64 x = x.
Proof. exact (conv_same F64). Qed.
Lemma dbl_conv : forall x, is_double x -> is_double (float_conv F64 x).
Proof. intros x X. now rewrite (conv x X). Qed.
Lemma dbl_zero : is_double zero.
Proof. reflexivity. Qed.
Lemma dbl_sqrt : forall x, is_double x -> is_double (SFsqrt 53 1024 x).
Proof.
  intros x X. destruct (B_of F64 x X) as [a <-]. unfold is_double. rewrite (sqrt_equiv F64). apply valid_binary_B2SF.
Qed.
#[export] Hint Resolve dbl_add dbl_sub dbl_mul dbl_div dbl_opp dbl_int dbl_of_int dbl_conv dbl_zero dbl_sqrt : dbl.

(** The environment that [setup] builds. *)
Definition env_of (est : estimate) (l : libm) (angle : position -> position -> spec_float) : genv :=
  ltac:(let x := eval vm_compute in (setup est l angle) in match x with Ok ?e => exact e end).
Lemma setup_env : forall est l angle, setup est l angle = Ok (env_of est l angle).
Proof. intros est l angle. vm_compute. reflexivity. Qed.

Lemma factor_3600 : SFdiv 53 1024 (SFmul 53 1024 (float_of_int F64 36) (fpow10 F64 2)) (float_of_int F64 1) = int 3600.
Proof. vm_compute. reflexivity. Qed.
Lemma factor_million : SFdiv 53 1024 (SFmul 53 1024 (float_of_int F64 1) (fpow10 F64 6)) (float_of_int F64 1) = int 1000000.
Proof. vm_compute. reflexivity. Qed.
Lemma factor_milli : SFdiv 53 1024 (SFmul 53 1024 (float_of_int F64 1) (fpow10 F64 (-3))) (float_of_int F64 1) = SFdiv 53 1024 (int 1) (int 1000).
Proof. vm_compute. reflexivity. Qed.
Lemma factor_minute : SFdiv 53 1024 (SFmul 53 1024 (float_of_int F64 1) (fpow10 F64 (-1))) (float_of_int F64 6) = SFdiv 53 1024 (int 1) (int 60).
Proof. vm_compute. reflexivity. Qed.
Lemma int_of : forall z, float_of_int F64 z = int z.
Proof. reflexivity. Qed.

(** Evaluation of the types; the arithmetic of the numbers is left. *)
Ltac run := cbv -[SFadd SFsub SFmul SFdiv SFsqrt SFopp SFcompare SFltb float_conv float_of_int fpow10 int m_pow iroot];
  rewrite ?factor_3600, ?factor_million, ?factor_milli, ?factor_minute, ?int_of;
  repeat (rewrite conv by (auto 12 with dbl)).

Section Functions.
Variables (est : estimate) (l : libm) (angle : position -> position -> spec_float).
Hypothesis root_1 : iroot est 2 1 = Ok 1%Z.
Hypothesis pow_dbl : forall x y, is_double (m_pow l F64 x y).
Hypothesis angle_dbl : forall p q, is_double (angle p q).
Let e := env_of est l angle.

Lemma agl_plain : forall a b, is_double a -> is_double b -> agl e a b = Ok (a - b)%D.
Proof using. clear - e. intros a b A B. unfold e. run. reflexivity. Qed.
Lemma later_plain : forall a b, is_double a -> is_double b -> later e a b = Ok (a + b)%D.
Proof using. clear - e. intros a b A B. unfold e. run. reflexivity. Qed.
Lemma higher_plain : forall a b, is_double a -> is_double b -> higher e a b = Ok (a + b)%D.
Proof using. clear - e. intros a b A B. unfold e. run. reflexivity. Qed.
Lemma minutes_plain : forall a b, is_double a -> is_double b -> minutes e a b = Ok ((a - b) * (int 1 / int 60))%D.
Proof using. clear - e. intros a b A B. unfold e. run. reflexivity. Qed.
Lemma sub_distance : forall a b, is_double a -> is_double b ->
  k_sub est (g_world e) (v_distance e a) (v_distance e b) = Ok (v_distance e (a - b)%D).
Proof using. clear - e. intros a b A B. unfold e. run. reflexivity. Qed.
Lemma add_distance : forall a b, is_double a -> is_double b ->
  k_add est (g_world e) (v_distance e a) (v_distance e b) = Ok (v_distance e (a + b)%D).
Proof using. clear - e. intros a b A B. unfold e. run. reflexivity. Qed.
Lemma sub_height : forall a b, is_double a -> is_double b ->
  k_sub est (g_world e) (v_height e a) (v_height e b) = Ok (v_height e (a - b)%D).
Proof using. clear - e. intros a b A B. unfold e. run. reflexivity. Qed.
Lemma diff_altitude : forall a b, is_double a -> is_double b ->
  pk_diff no_rebind est (g_world e) (v_altitude e a) (v_altitude e b) = Ok (v_height e (a - b)%D).
Proof using. clear - e. intros a b A B. unfold e. run. reflexivity. Qed.
Lemma add_altitude : forall a b, is_double a -> is_double b ->
  pk_add est (g_world e) (g_pkinds e) (v_altitude e a) (v_height e b) = Ok (v_altitude e (a + b)%D).
Proof using. clear - e. intros a b A B. unfold e. run. reflexivity. Qed.
Lemma to_distance_plain : forall a, to_distance e (v_distance e a) = Ok a.
Proof using. clear - e. intros a. unfold e. run. reflexivity. Qed.
Lemma to_height_plain : forall a, to_height e (v_height e a) = Ok a.
Proof using. clear - e. intros a. unfold e. run. reflexivity. Qed.
Lemma to_altitude_plain : forall a, to_altitude e (v_altitude e a) = Ok a.
Proof using. clear - e. intros a. unfold e. run. reflexivity. Qed.
Lemma less_distance : forall a b, k_less e (v_distance e a) (v_distance e b) = Ok (a <? b)%D.
Proof using. clear - e. intros a b. unfold e. run. reflexivity. Qed.
Lemma less_height : forall a b, k_less e (v_height e a) (v_height e b) = Ok (a <? b)%D.
Proof using. clear - e. intros a b. unfold e. run. reflexivity. Qed.
Lemma climb_time : forall a b, is_double a -> is_double b ->
  (q <- k_over_k est (g_world e) (g_kinds e) (v_height e a) (v_climb e b); to_duration e (common q)) = Ok (a / b)%D.
Proof using. clear - e. intros a b A B. unfold e. run. reflexivity. Qed.
Lemma rate_plain : forall a b, is_double a -> is_double b ->
  (r <- k_add est (g_world e) (v_climb e a) (v_climb e b); to_climb e r) = Ok (a + b)%D.
Proof using. clear - e. intros a b A B. unfold e. run. reflexivity. Qed.
Lemma less_gain : forall a b, is_double a -> is_double b ->
  (h <- k_act est (g_kinds e) (v_height e a) (KSub (v_height e b)); as_double (qk_num h)) = Ok (a - b)%D.
Proof using. clear - e. intros a b A B. unfold e. run. reflexivity. Qed.
Lemma min_plain : forall a b, std_min e (v_height e a) (v_height e b) = Ok (v_height e (if (b <? a)%D then b else a)).
Proof using.
  intros a b. unfold std_min. rewrite less_height.
  assert (C : (if kind_eq_dec (qk_kind (v_height e a)) (qk_kind (v_height e b)) then
    if qtype_eq_dec (kt_qtype (qk_type (v_height e a))) (kt_qtype (qk_type (v_height e b))) then true else false else false) = true)
    by (vm_compute; reflexivity).
  rewrite C. cbn [constrained bind]. now destruct (b <? a)%D.
Qed.
Lemma sphere_plain : forall p q, spherical_distance e p q = Ok (int 6371 * angle p q)%D.
Proof using angle_dbl. intros p q. unfold e. pose proof (angle_dbl p q) as A. run. reflexivity. Qed.
Lemma terrain_numbers : forall a b d o n, is_double a -> is_double b -> is_double d -> is_double o -> is_double n ->
  (x <- pk_diff no_rebind est (g_world e) (v_altitude e b) (v_altitude e a);
   y <- to_height e x;
   z <- k_sub est (g_world e) (v_distance e d) (v_distance e o);
   q <- k_over_k est (g_world e) (g_kinds e) z (v_distance e n);
   h <- k_times_q est (g_world e) (g_kinds e) (v_height e y) (common q);
   p <- pk_add est (g_world e) (g_pkinds e) (v_altitude e a) h;
   to_altitude e p) = Ok (a + (b - a) * ((d - o) / n))%D.
Proof using. clear - e. intros a b d o n A B D O N. unfold e. run. reflexivity. Qed.
Lemma glide_numbers : forall n v c g m a f d, is_double n -> is_double v -> is_double c -> is_double g -> is_double m -> is_double a -> is_double f -> is_double d ->
  (dist_to_finish <- k_sub est (g_world e) (v_distance e n) (v_distance e d);
   p <- pk_add est (g_world e) (g_pkinds e) (v_altitude e g) (v_height e m);
   x <- pk_diff no_rebind est (g_world e) p (v_altitude e a);
   h <- pk_diff no_rebind est (g_world e) (v_altitude e g) (v_altitude e f);
   y <- ratio_of_kinds e h dist_to_finish;
   r <- glide_ratio e (Polar v c);
   b <- value_div_q (g_world e) (RInt I32) (NInt 1) r;
   d <- q_sub est (g_world e) y b;
   q <- q_over (g_world e) (common x) d;
   k <- k_construct est (t_distance e) q;
   as_double (qk_num k)) =
  Ok (((g + m) - a) / ((g - f) / (n - d) - (int 1 / (v / - c)) * int 3600))%D.
Proof using. clear - e. intros n v c g m a f d N V C G M A F D. unfold e. run. reflexivity. Qed.
Lemma time_numbers : forall x v, is_double x -> is_double v ->
  gliding_time e (Quantity (t_kilometres e) (NFlt x)) (Polar v v) = Ok (x / v * int 3600)%D.
Proof using. clear - e. intros x v X V. unfold e. run. reflexivity. Qed.
Lemma final_alt : forall n v c f, is_double n -> is_double v -> is_double c -> is_double f ->
  (r <- glide_ratio e (Polar v c);
   q <- q_over (g_world e) (common (v_distance e n)) r;
   h <- k_construct est (t_height e) q;
   p <- pk_add est (g_world e) (g_pkinds e) (v_altitude e f) h;
   to_altitude e p) = Ok (f + (n / (v / - c)) * int 3600)%D.
Proof using. clear - e. intros n v c f N V C F. unfold e. run. reflexivity. Qed.

Let sq (x : spec_float) := m_pow l F64 x (int 2).
Lemma root_of_one : rsqrt est (Ratio 1 1 0) = Ok (Ratio 1 1 0).
Proof using root_1.
  assert (R : rroot est 2 (Ratio 1 1 0) = Ok (Ratio 1 1 0)).
  { unfold rroot. replace (make_exp_align (Ratio 1 1 0) 2) with (Ok (1, 1, 0)%Z) by (vm_compute; reflexivity).
    cbv [bind]. rewrite root_1. vm_compute. reflexivity. }
  cbv -[rroot]. rewrite R. reflexivity.
Qed.
Lemma slant_plain : forall d h, is_double d -> is_double h ->
  length_3d e (v_distance e d) (v_height e h) =
  Ok (Quantity (t_kilometres e) (NFlt (SFsqrt 53 1024 (sq d * int 1000000 + sq h) * (int 1 / int 1000))%D)).
Proof using root_1 pow_dbl.
  intros d h D H. unfold length_3d. rewrite to_distance_plain, to_height_plain. cbn [bind].
  assert (P : is_double (sq d) /\ is_double (sq h)) by (split; apply pow_dbl). destruct P as [P1 P2].
  eassert (A : pow2 e (common (v_distance e d)) = Ok (Quantity _ (NFlt (sq d)))).
  { unfold e, sq in *. cbv -[SFadd SFsub SFmul SFdiv SFsqrt SFopp float_conv float_of_int fpow10 int m_pow iroot].
    rewrite ?int_of. replace (int 2 / int 1)%D with (int 2) by (vm_compute; reflexivity).
    repeat (rewrite conv by (auto 12 with dbl)). reflexivity. }
  rewrite A. clear A.
  eassert (B : pow2 e (common (v_height e h)) = Ok (Quantity _ (NFlt (sq h)))).
  { unfold e, sq in *. cbv -[SFadd SFsub SFmul SFdiv SFsqrt SFopp float_conv float_of_int fpow10 int m_pow iroot].
    rewrite ?int_of. replace (int 2 / int 1)%D with (int 2) by (vm_compute; reflexivity).
    repeat (rewrite conv by (auto 12 with dbl)). reflexivity. }
  rewrite B. clear B. cbv [bind]. generalize dependent (sq d). generalize dependent (sq h). intros y Y x X.
  match goal with |- context [q_add ?a ?b ?c ?d] => eassert (S : q_add a b c d = Ok (Quantity _ (NFlt (x * int 1000000 + y)%D))) end.
  { unfold e. run. reflexivity. }
  rewrite S. clear S. assert (Z : is_double (x * int 1000000 + y)%D) by auto with dbl. revert Z. generalize (x * int 1000000 + y)%D. intros z Z.
  unfold q_sqrt. change (g_est e) with est. cbn [q_type q_unit u_ratio q_num q_dim q_rep]. rewrite root_of_one. unfold e. run. reflexivity.
Qed.
End Functions.
