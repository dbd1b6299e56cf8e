(** Floating-point addition and subtraction of the model are correctly rounded (through Flocq). *)

From Coq Require Import ZArith Reals Lia Lra Psatz Bool SpecFloat.
From Flocq Require Import Core BinarySingleNaN.
From Verif Require Import Outcome CInt Rep SpecReal FloatProofs FloatCastProofs.
Local Open Scope Z_scope.

Lemma add_equiv : forall f x y, SFadd (fprec f) (femax f) (B2SF x) (B2SF y) =
  B2SF (@Bplus (fprec f) (femax f) (fprec_pos f) (fprec_lt_emax f) mode_NE x y).
Proof.
  intros f x y. case x as [sx|sx| |sx mx ex Bx]; case y as [sy|sy| |sy my ey By]; try reflexivity;
    try (cbn; now case Bool.eqb). apply normalize_equiv.
Qed.
Lemma sub_equiv : forall f x y, SFsub (fprec f) (femax f) (B2SF x) (B2SF y) =
  B2SF (@Bminus (fprec f) (femax f) (fprec_pos f) (fprec_lt_emax f) mode_NE x y).
Proof.
  intros f x y. case x as [sx|sx| |sx mx ex Bx]; case y as [sy|sy| |sy my ey By]; try reflexivity;
    try (cbn; now case Bool.eqb).
  cbn [B2SF SFsub Bminus]. rewrite normalize_equiv. f_equal. f_equal. unfold Fplus_naive. destruct sy; reflexivity.
Qed.

Lemma add_valid : forall f x y, valid_binary (fprec f) (femax f) x = true -> valid_binary (fprec f) (femax f) y = true ->
  valid_binary (fprec f) (femax f) (SFadd (fprec f) (femax f) x y) = true.
Proof.
  intros f x y Vx Vy. destruct (B_of f x Vx) as [bx <-]. destruct (B_of f y Vy) as [b_y <-]. rewrite add_equiv.
  apply valid_binary_B2SF.
Qed.
Lemma sub_valid : forall f x y, valid_binary (fprec f) (femax f) x = true -> valid_binary (fprec f) (femax f) y = true ->
  valid_binary (fprec f) (femax f) (SFsub (fprec f) (femax f) x y) = true.
Proof.
  intros f x y Vx Vy. destruct (B_of f x Vx) as [bx <-]. destruct (B_of f y Vy) as [b_y <-]. rewrite sub_equiv.
  apply valid_binary_B2SF.
Qed.

Local Open Scope R_scope.
Lemma add_rounds : forall f x y, is_number f x -> is_number f y -> Rabs (frnd f (fval x + fval y)) < bpow radix2 (femax f) ->
  is_number f (SFadd (fprec f) (femax f) x y) /\ fval (SFadd (fprec f) (femax f) x y) = frnd f (fval x + fval y).
Proof.
  intros f x y Hx Hy L. destruct (number_B f x Hx) as (bx & <- & Vx & Fx). destruct (number_B f y Hy) as (b_y & <- & Vy & Fy).
  rewrite add_equiv. pose proof (Bplus_correct (fprec f) (femax f) _ _ mode_NE bx b_y Fx Fy) as C.
  rewrite Vx, Vy in C. rewrite Rlt_bool_true in C by exact L. destruct C as (C1 & C2 & _).
  split; [now apply B_number|]. rewrite B_val. exact C1.
Qed.
Lemma sub_rounds : forall f x y, is_number f x -> is_number f y -> Rabs (frnd f (fval x - fval y)) < bpow radix2 (femax f) ->
  is_number f (SFsub (fprec f) (femax f) x y) /\ fval (SFsub (fprec f) (femax f) x y) = frnd f (fval x - fval y).
Proof.
  intros f x y Hx Hy L. destruct (number_B f x Hx) as (bx & <- & Vx & Fx). destruct (number_B f y Hy) as (b_y & <- & Vy & Fy).
  rewrite sub_equiv. pose proof (Bminus_correct (fprec f) (femax f) _ _ mode_NE bx b_y Fx Fy) as C.
  rewrite Vx, Vy in C. rewrite Rlt_bool_true in C by exact L. destruct C as (C1 & C2 & _).
  split; [now apply B_number|]. rewrite B_val. exact C1.
Qed.
