(** Lemmas about the operators with plain numbers. *)

From Coq Require Import ZArith Reals Lia Lra Bool SpecFloat.
From Flocq Require Import Core.
From Verif Require Import Outcome CInt RatioMaths Root Ratio FixedString Unit Dim DimOp Equivalent Rep Reference
  QuantityCast CommonQuantity Quantity Plain SpecReal SpecOrder SpecPlain IntProofs FloatProofs FloatCastProofs FloatAddProofs FloatOrderProofs.
Local Open Scope R_scope.
Local Open Scope res_scope.

Lemma kept_safe : forall a b, kept_kind a b <-> safe_convertible a b = true.
Proof. intros [i|f] [j|g]; unfold kept_kind, safe_convertible; cbn; intuition congruence. Qed.
Lemma plain_checked : forall t, plain_type t <-> is_dim_one (q_dim t) && is_unit_one (q_unit t) = true.
Proof.
  intros t. unfold plain_type, is_dim_one, is_unit_one. destruct (dimension_eq_dec (q_dim t) dim_one), (cunit_eq_dec (q_unit t) unit_one);
    cbn [andb]; intuition congruence.
Qed.

(** When the conversion is ill-formed. *)
Lemma implicit_ill_formed : forall t r v, ~ (plain_type t /\ kept_kind r (q_rep t)) -> implicit_value t r v = IllFormed.
Proof.
  intros t r v H. unfold implicit_value. destruct (is_dim_one (q_dim t) && is_unit_one (q_unit t)) eqn:P; [|reflexivity].
  cbn [constrained bind]. unfold q_make. destruct (safe_convertible r (q_rep t)) eqn:S; [|reflexivity].
  exfalso. apply H. split; [now apply plain_checked|now apply kept_safe].
Qed.

(** Otherwise it is the conversion of the number. *)
Lemma implicit_is : forall t r v, plain_type t -> kept_kind r (q_rep t) ->
  implicit_value t r v = (x <- n_convert (q_rep t) v; Ok (Quantity t x)).
Proof.
  intros t r v P K. unfold implicit_value. apply plain_checked in P. rewrite P. cbn [constrained bind]. unfold q_make.
  apply kept_safe in K. now rewrite K.
Qed.
Lemma implicit_int : forall t i r v z, plain_type t -> q_rep t = RInt i -> kept_kind r (RInt i) -> is_value r v -> v = NInt z ->
  implicit_value t r v = Ok (Quantity t (NInt (wrap i z))).
Proof. intros t i r v z P R K V ->. rewrite implicit_is by (auto; now rewrite R). rewrite R. reflexivity. Qed.

Lemma kept_int : forall r i v, kept_kind r (RInt i) -> is_value r v -> exists z j, v = NInt z /\ r = RInt j.
Proof. intros [j|f] i [z|x] [K|K] V; try discriminate K; try contradiction V; eauto. Qed.

(** A number in the format, or not too large, is converted to the nearest one. *)
Lemma implicit_float : forall t f r v, plain_type t -> q_rep t = RFlt f -> is_value r v ->
  Rabs (nearest f (nval v)) < bpow radix2 (femax f) ->
  exists x, implicit_value t r v = Ok (Quantity t (NFlt x)) /\ is_number f x /\ fval x = nearest f (nval v).
Proof.
  intros t f r v P R V L. rewrite nearest_frnd in *. rewrite implicit_is by (auto; rewrite R; now left). rewrite R.
  destruct v as [z|x]; cbn [nval] in *.
  - exists (float_of_int f z). destruct (of_int_rounds f z L). cbn [n_convert bind]. auto.
  - exists (float_conv f x). destruct r as [j|g]; [contradiction|]. destruct (conv_rounds f x (proj2 V) L). cbn [n_convert bind]. auto.
Qed.

(** A number that fits is kept. *)
Lemma implicit_fits : forall t r v, plain_type t -> kept_kind r (q_rep t) -> is_value r v -> fits (q_rep t) v ->
  exists x, implicit_value t r v = Ok (Quantity t x) /\ is_value (q_rep t) x /\ nval x = nval v.
Proof.
  intros t r v P K V (y & Y & E). destruct (q_rep t) as [i|f] eqn:R.
  - destruct (kept_int r i v K V) as (z & j & -> & ->). destruct y as [w|y]; [|contradiction]. cbn [nval] in E. apply eq_IZR in E. subst w.
    exists (NInt z). rewrite (implicit_int t i (RInt j) (NInt z) z P R K V eq_refl). cbn [is_value] in *. now rewrite wrap_id.
  - destruct y as [w|y]; [contradiction|]. cbn [nval is_value] in *.
    assert (F : nearest f (nval v) = nval v) by (rewrite nearest_frnd, <- E; apply frnd_id, number_format, Y).
    destruct (implicit_float t f r v P R V) as (x & A & B & C).
    + rewrite F, <- E. now apply number_lt_emax.
    + exists (NFlt x). cbn [is_value nval]. rewrite C, F. auto.
Qed.

(** ** Comparison *)

Lemma n_compare_real : forall r x y, is_value r x -> is_value r y -> n_compare x y = Ok (Some (Rcompare (nval x) (nval y))).
Proof.
  intros [t|f] [a|u] [b|v] X Y; try contradiction; cbn [n_compare nval].
  - now rewrite Rcompare_IZR.
  - now rewrite (compare_numbers f) by auto.
Qed.
Definition is_eq (c : comparison) : bool := match c with Eq => true | _ => false end.
Lemma n_eqb_real : forall r x y, is_value r x -> is_value r y -> n_eqb x y = Ok (is_eq (Rcompare (nval x) (nval y))).
Proof.
  intros [t|f] [a|u] [b|v] X Y; try contradiction; cbn [n_eqb nval].
  - rewrite Rcompare_IZR. unfold is_eq. f_equal. apply Z.eqb_compare.
  - unfold SFeqb. now rewrite (compare_numbers f) by auto.
Qed.
Lemma n_compare_swap : forall x y c, n_compare x y = Ok c -> n_compare y x = Ok (option_map CompOpp c).
Proof.
  intros [a|u] [b|v] c H; try discriminate H; cbn [n_compare] in *; inversion H; subst c; cbn [option_map].
  - now rewrite Z.compare_antisym.
  - destruct u as [s|s| |s m e], v as [s'|s'| |s' m' e']; try destruct s; try destruct s'; try reflexivity;
      cbn [SFcompare option_map CompOpp]; do 2 f_equal; rewrite Z.compare_antisym; destruct (e ?= e')%Z eqn:E; cbn [CompOpp]; try reflexivity;
      change (Pos.compare_cont Eq m' m) with (m' ?= m)%positive; change (Pos.compare_cont Eq m m') with (m ?= m')%positive;
      rewrite (Pos.compare_antisym m m'), ?CompOpp_involutive; reflexivity.
Qed.
Lemma n_eqb_swap : forall x y, n_eqb x y = n_eqb y x.
Proof.
  intros [a|u] [b|v]; try reflexivity; cbn [n_eqb].
  - now rewrite Z.eqb_sym.
  - f_equal. unfold SFeqb. pose proof (n_compare_swap (NFlt u) (NFlt v) (SFcompare u v) eq_refl) as H. cbn [n_compare] in H.
    inversion H as [E]. rewrite E. now destruct (SFcompare u v) as [[]|].
Qed.
