(** Rational arithmetic with powers of ten: helper lemmas only. *)

From Coq Require Import ZArith QArith Qpower Qfield Lia Znumtheory.
From Verif Require Import SpecRatio.
Local Open Scope Z_scope.

Lemma ten_nz : ~ (10 # 1 == 0)%Q.
Proof. intros H; discriminate. Qed.
#[global] Hint Resolve ten_nz : core.

Lemma p10_nz : forall e, ~ ((10 # 1) ^ e == 0)%Q.
Proof. intros e; apply Qpower_not_0; auto. Qed.
#[global] Hint Resolve p10_nz : core.

Lemma p10_pos : forall e, (0 < (10 # 1) ^ e)%Q.
Proof. intros e; apply Qpower_0_lt; reflexivity. Qed.

Lemma injZ_nz : forall z, z <> 0 -> ~ (inject_Z z == 0)%Q.
Proof. intros z H C. apply H. apply (inject_Z_injective z 0). exact C. Qed.

Lemma injZ_pow10 : forall k, 0 <= k -> (inject_Z (10 ^ k) == (10 # 1) ^ k)%Q.
Proof. intros k H. rewrite Zpower_Qpower by auto. reflexivity. Qed.

Lemma p10_plus : forall a b, ((10 # 1) ^ (a + b) == (10 # 1) ^ a * (10 # 1) ^ b)%Q.
Proof. intros; apply Qpower_plus; auto. Qed.

Lemma p10_opp : forall a, ((10 # 1) ^ (- a) == / (10 # 1) ^ a)%Q.
Proof. intros; apply Qpower_opp. Qed.

Lemma p10_0 : ((10 # 1) ^ 0 == 1)%Q.
Proof. reflexivity. Qed.

Lemma frac_zero : forall d e, (frac 0 d e == 0)%Q.
Proof. intros; unfold frac, Qdiv. change (inject_Z 0) with 0%Q. ring. Qed.

Lemma frac_nz : forall n d e, n <> 0 -> d <> 0 -> ~ (frac n d e == 0)%Q.
Proof.
  intros n d e Hn Hd C. unfold frac in C.
  apply Qmult_integral in C. destruct C as [C|C]; [|now apply p10_nz in C].
  unfold Qdiv in C. apply Qmult_integral in C. destruct C as [C|C].
  - now apply injZ_nz in C.
  - assert (X : (inject_Z d * / inject_Z d == 0)%Q) by (rewrite C; ring).
    rewrite Qmult_inv_r in X by (apply injZ_nz; auto). discriminate.
Qed.

(** Cancelling a common factor and moving powers of ten into the exponent. *)
Lemma frac_scale : forall n d e g, g <> 0 -> d <> 0 ->
  (frac (n * g) (d * g) e == frac n d e)%Q.
Proof.
  intros n d e g Hg Hd. unfold frac. rewrite !inject_Z_mult.
  field. split; apply injZ_nz; auto.
Qed.

Lemma frac_num10 : forall n d e k, 0 <= k -> d <> 0 ->
  (frac (n * 10 ^ k) d e == frac n d (e + k))%Q.
Proof.
  intros n d e k Hk Hd. unfold frac. rewrite inject_Z_mult, injZ_pow10, p10_plus by auto.
  field. apply injZ_nz; auto.
Qed.

Lemma frac_den10 : forall n d e k, 0 <= k -> d <> 0 ->
  (frac n (d * 10 ^ k) e == frac n d (e - k))%Q.
Proof.
  intros n d e k Hk Hd. unfold frac, Z.sub.
  rewrite inject_Z_mult, injZ_pow10, p10_plus, p10_opp by auto.
  field. split; auto. apply injZ_nz; auto.
Qed.

Lemma frac_mult : forall n1 d1 e1 n2 d2 e2, d1 <> 0 -> d2 <> 0 ->
  (frac (n1 * n2) (d1 * d2) (e1 + e2) == frac n1 d1 e1 * frac n2 d2 e2)%Q.
Proof.
  intros. unfold frac. rewrite !inject_Z_mult, p10_plus.
  field. split; apply injZ_nz; auto.
Qed.

Lemma frac_inv : forall n d e, n <> 0 -> d <> 0 -> (frac d n (- e) == / frac n d e)%Q.
Proof.
  intros. unfold frac. rewrite p10_opp. field.
  repeat split; auto; apply injZ_nz; auto.
Qed.

(** Equal fractions, cross-multiplied. *)
Lemma frac_eq_iff : forall n1 d1 n2 d2 e, d1 <> 0 -> d2 <> 0 ->
  ((frac n1 d1 e == frac n2 d2 e)%Q <-> n1 * d2 = n2 * d1).
Proof.
  intros n1 d1 n2 d2 e H1 H2. unfold frac. split; intros H.
  - assert (X : (inject_Z (n1 * d2) == inject_Z (n2 * d1))%Q).
    { rewrite !inject_Z_mult.
      transitivity (inject_Z n1 / inject_Z d1 * (10 # 1) ^ e * (inject_Z d1 * inject_Z d2 / (10 # 1) ^ e))%Q.
      - field. split; auto; apply injZ_nz; auto.
      - rewrite H. field. split; auto; apply injZ_nz; auto. }
    apply inject_Z_injective; exact X.
  - assert (X : (inject_Z (n1 * d2) == inject_Z (n2 * d1))%Q) by (now rewrite H).
    rewrite !inject_Z_mult in X.
    transitivity (inject_Z n1 * inject_Z d2 / (inject_Z d1 * inject_Z d2) * (10 # 1) ^ e)%Q.
    + field. split; apply injZ_nz; auto.
    + rewrite X. field. split; apply injZ_nz; auto.
Qed.

Lemma frac_pos : forall n d e, 0 < n -> 0 < d -> (0 < frac n d e)%Q.
Proof.
  intros n d e Hn Hd. unfold frac. apply Qmult_lt_0_compat; [|apply p10_pos].
  unfold Qdiv. apply Qmult_lt_0_compat.
  - change 0%Q with (inject_Z 0). now rewrite <- Zlt_Qlt.
  - apply Qinv_lt_0_compat. change 0%Q with (inject_Z 0). now rewrite <- Zlt_Qlt.
Qed.
