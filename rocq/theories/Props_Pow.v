(** C13 for the template [pow_impl] itself (bits/pow.h:61-75), at any type and for all exponents. *)

From Coq Require Import ZArith QArith Qpower Lia.
From Verif Require Import Outcome CInt Pow Ratio SpecRatio RatioProofs2.
Local Open Scope res_scope.
Local Open Scope Q_scope.

(** Whenever the product and the inverse of the type are exact on the values [val], so is the
    power, for positive, negative and zero exponents. *)
Theorem C13_template : forall (A : Type) (val : A -> Q) one inv (mul : A -> A -> res A),
  val one == 1 -> (forall a b c, mul a b = Ok c -> val c == val a * val b) -> (forall a c, inv a = Ok c -> val c == / val a) ->
  forall n v x, pow_impl one inv mul n v = Ok x -> val x == val v ^ n.
Proof.
  intros A val one inv mul H1 Hm Hi.
  assert (P : forall p v x, pow_impl_pos mul p v = Ok x -> val x == val v ^ Zpos p).
  { induction p as [p IH|p IH|]; intros v x H; cbn [pow_impl_pos] in H.
    - step H as vv E. step H as y Y. rewrite (Hm _ _ _ H), (IH _ _ Y), (Hm _ _ _ E), Qmult_power.
      change (val v ^ Zpos p~1) with (val v * (Qpower_positive (val v) p * Qpower_positive (val v) p)). reflexivity.
    - step H as vv E. rewrite (IH _ _ H), (Hm _ _ _ E), Qmult_power.
      change (val v ^ Zpos p~0) with (Qpower_positive (val v) p * Qpower_positive (val v) p). reflexivity.
    - inversion H; subst x. reflexivity. }
  intros [|p|p] v x H; cbn [pow_impl] in H.
  - inversion H; subst x. exact H1.
  - exact (P _ _ _ H).
  - step H as y Y. rewrite (Hi _ _ H), (P _ _ _ Y). reflexivity.
Qed.
Print Assumptions C13_template.

(** It is defined whenever the products and the inverse are. *)
Theorem C13_template_defined : forall (A : Type) one (inv : A -> res A) (mul : A -> A -> res A) (good : A -> Prop),
  good one -> (forall a b, good a -> good b -> exists c, mul a b = Ok c /\ good c) -> (forall a, good a -> exists c, inv a = Ok c /\ good c) ->
  forall n v, good v -> exists x, pow_impl one inv mul n v = Ok x /\ good x.
Proof.
  intros A one inv mul good H1 Hm Hi.
  assert (P : forall p v, good v -> exists x, pow_impl_pos mul p v = Ok x /\ good x).
  { induction p as [p IH|p IH|]; intros v G; cbn [pow_impl_pos].
    - destruct (Hm v v G G) as (vv & E & Gv). rewrite E. cbn [bind]. destruct (IH vv Gv) as (y & Y & Gy). rewrite Y. cbn [bind]. exact (Hm v y G Gy).
    - destruct (Hm v v G G) as (vv & E & Gv). rewrite E. cbn [bind]. exact (IH vv Gv).
    - eauto. }
  intros [|p|p] v G; cbn [pow_impl]; [eauto|exact (P p v G)|]. destruct (P p v G) as (y & Y & Gy). rewrite Y. cbn [bind]. exact (Hi y Gy).
Qed.
Print Assumptions C13_template_defined.

(** Exact fractions: (2/3)^-5 = 243/32, computed with four products and one quotient; and the
    products of plain rational numbers meet all hypotheses. *)
Example C13_ex_template :
  pow_impl (1 # 1) (fun a => Ok (Qred (/ a))) (fun a b => Ok (Qred (a * b))) (-5) (2 # 3) = Ok (243 # 32) /\
  (forall a b c, (fun a b => Ok (Qred (a * b))) a b = Ok c -> c == a * b) /\ (forall a c, (fun a => Ok (Qred (/ a))) a = Ok c -> c == / a).
Proof.
  split; [vm_compute; reflexivity|]. split.
  - intros a b c H. cbv beta in H. assert (E : Qred (a * b) = c) by congruence. rewrite <- E. apply Qred_correct.
  - intros a c H. cbv beta in H. assert (E : Qred (/ a) = c) by congruence. rewrite <- E. apply Qred_correct.
Qed.
