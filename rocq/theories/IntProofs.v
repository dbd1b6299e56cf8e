(** Arithmetic of mixed integer types. *)

From Coq Require Import ZArith Bool Lia.
From Verif Require Import Outcome CInt Rep.
Local Open Scope Z_scope.
Local Open Scope res_scope.

(** [t] is a type arithmetic is done in. *)
Definition arith_type (t : ity) : Prop := promote t = t.

Lemma arith_conv_type : forall a b, arith_type (arith_conv a b).
Proof. intros [[] []] [[] []]; reflexivity. Qed.
Lemma arith_conv_self : forall t, arith_type t -> arith_conv t t = t.
Proof. intros [[] []] H; try discriminate H; reflexivity. Qed.

Lemma arith_conv_wide : forall a b, wbits (iwidth a) <= wbits (iwidth (arith_conv a b)) /\
  wbits (iwidth b) <= wbits (iwidth (arith_conv a b)).
Proof. intros [[] []] [[] []]; cbn; lia. Qed.

(** Every value is representable there, except negative values when the type is unsigned. *)
Lemma arith_conv_holds_l : forall a b x, in_range a x = true ->
  isigned (arith_conv a b) = true \/ 0 <= x -> in_range (arith_conv a b) x = true.
Proof.
  intros a b x. rewrite !in_range_spec. intros H S.
  destruct a as [[] []], b as [[] []]; cbn in *; destruct S as [S|S]; try discriminate S; lia.
Qed.
Lemma arith_conv_sym : forall a b, arith_conv a b = arith_conv b a.
Proof. intros [[] []] [[] []]; reflexivity. Qed.
Lemma arith_conv_holds_r : forall a b x, in_range b x = true ->
  isigned (arith_conv a b) = true \/ 0 <= x -> in_range (arith_conv a b) x = true.
Proof. intros a b x. rewrite arith_conv_sym. apply arith_conv_holds_l. Qed.

(** ** Reduction modulo 2^w *)

Lemma wrap_mod : forall t z, (wrap t z) mod 2 ^ wbits (iwidth t) = z mod 2 ^ wbits (iwidth t).
Proof.
  intros t z. pose proof (modulus_pos t). unfold wrap.
  rewrite Zplus_mod_idemp_l. f_equal. lia.
Qed.

Lemma wrap_eq : forall t z e, in_range t e = true ->
  z mod 2 ^ wbits (iwidth t) = e mod 2 ^ wbits (iwidth t) -> wrap t z = e.
Proof.
  intros t z e R E. rewrite <- (wrap_id t e R). unfold wrap. f_equal.
  rewrite <- (Zminus_mod_idemp_l z), E, Zminus_mod_idemp_l. reflexivity.
Qed.

Lemma mod_smaller : forall a b z e, wbits a <= wbits b ->
  z mod 2 ^ wbits b = e mod 2 ^ wbits b -> z mod 2 ^ wbits a = e mod 2 ^ wbits a.
Proof.
  intros a b z e L H.
  assert (D : (2 ^ wbits a | 2 ^ wbits b)).
  { exists (2 ^ (wbits b - wbits a)). rewrite <- Z.pow_add_r by (destruct a, b; cbn in *; lia). f_equal. lia. }
  assert (P : forall w, 0 < 2 ^ wbits w) by (intros []; reflexivity).
  rewrite (Znumtheory.Zmod_div_mod (2 ^ wbits a) (2 ^ wbits b) z) by auto.
  rewrite (Znumtheory.Zmod_div_mod (2 ^ wbits a) (2 ^ wbits b) e) by auto. now rewrite H.
Qed.

(** ** Operations *)

(** The exact result. *)
Definition exact_op (o : arith_op) (x y : Z) : Z :=
  match o with
  | OpAdd => x + y | OpSub => x - y | OpMul => x * y | OpDiv => Z.quot x y | OpRem => Z.rem x y
  end.
Definition ring_op (o : arith_op) : bool := match o with OpAdd | OpSub | OpMul => true | _ => false end.
Definition divides_op (o : arith_op) : bool := negb (ring_op o).

(** In a signed type a defined result is exact. *)
Lemma int_op_signed : forall o t x y z, isigned t = true -> int_op o t x y = Ok z ->
  z = exact_op o x y /\ (divides_op o = true -> y <> 0) /\ (o <> OpRem -> in_range t z = true).
Proof.
  intros o t x y z S H. destruct o; unfold int_op, cadd, csub, cmul, cdiv, crem in H; cbn [exact_op].
  - apply arith_ok_signed in H as [-> R]; auto. repeat split; auto. discriminate.
  - apply arith_ok_signed in H as [-> R]; auto. repeat split; auto. discriminate.
  - apply arith_ok_signed in H as [-> R]; auto. repeat split; auto. discriminate.
  - destruct (Z.eqb_spec y 0); [discriminate|]. apply arith_ok_signed in H as [-> R]; auto.
  - destruct (Z.eqb_spec y 0); [discriminate|]. destruct (_ && _); [discriminate|].
    inversion H. repeat split; auto; congruence.
Qed.

Lemma int_op_in_range : forall o t x y, in_range t (exact_op o x y) = true ->
  (divides_op o = true -> y <> 0) -> (o = OpRem -> isigned t = true -> in_range t (Z.quot x y) = true) ->
  int_op o t x y = Ok (exact_op o x y).
Proof.
  intros o t x y R D Q. destruct o; unfold int_op, cadd, csub, cmul, cdiv, crem; cbn [exact_op] in *;
    try (now apply arith_in_range).
  - destruct (Z.eqb_spec y 0); [now elim D|]. now apply arith_in_range.
  - destruct (Z.eqb_spec y 0); [now elim D|]. destruct (isigned t) eqn:S; cbn [andb]; auto.
    rewrite Q by auto. reflexivity.
Qed.

(** Unsigned arithmetic is arithmetic modulo 2^w. *)
Lemma int_op_unsigned : forall o t x y z, isigned t = false -> ring_op o = true -> int_op o t x y = Ok z ->
  z mod 2 ^ wbits (iwidth t) = (exact_op o x y) mod 2 ^ wbits (iwidth t).
Proof.
  intros o t x y z S R H. destruct o; try discriminate R;
    unfold int_op, cadd, csub, cmul, arith in H; rewrite S in H; inversion H; apply wrap_mod.
Qed.

Lemma n_op_int : forall o a b x y, n_op o (RInt a) (RInt b) (NInt x) (NInt y) =
  (z <- int_op o (arith_conv a b) (wrap (arith_conv a b) x) (wrap (arith_conv a b) y); Ok (NInt z)).
Proof. reflexivity. Qed.

(** The operands are representable in the type of the operation. *)
Definition operands_fit (a b : ity) (x y : Z) : Prop :=
  isigned (arith_conv a b) = true \/ (0 <= x /\ 0 <= y).

Lemma operands_wrap : forall a b x y, in_range a x = true -> in_range b y = true -> operands_fit a b x y ->
  wrap (arith_conv a b) x = x /\ wrap (arith_conv a b) y = y.
Proof.
  intros a b x y Rx Ry O. split; apply wrap_id.
  - apply arith_conv_holds_l; auto. destruct O as [O|[O _]]; auto.
  - apply arith_conv_holds_r; auto. destruct O as [O|[_ O]]; auto.
Qed.

(** A defined result is the exact one when the operands and the result are representable;
    in a signed type the latter goes without saying. *)
Lemma n_op_exact : forall o a b x y r, in_range a x = true -> in_range b y = true -> operands_fit a b x y ->
  n_op o (RInt a) (RInt b) (NInt x) (NInt y) = Ok r ->
  isigned (arith_conv a b) = true \/ in_range (arith_conv a b) (exact_op o x y) = true ->
  r = NInt (exact_op o x y) /\ (divides_op o = true -> y <> 0) /\
  in_range (arith_conv a b) (exact_op o x y) = true.
Proof.
  intros o a b x y r Rx Ry O H F. rewrite n_op_int in H. destruct (operands_wrap a b x y Rx Ry O) as [Wx Wy].
  rewrite Wx, Wy in H. step H as z E. inversion H; subst r. clear H.
  assert (D : divides_op o = true -> y <> 0).
  { intros D. destruct o; try discriminate D; unfold int_op, cdiv, crem in E; destruct (Z.eqb_spec y 0); congruence. }
  destruct (isigned (arith_conv a b)) eqn:S.
  - destruct (int_op_signed _ _ _ _ _ S E) as (-> & _ & I). split; auto. split; auto.
    destruct o; try (apply I; discriminate).
    (* remainder: bounded by the divisor *)
    cbn [exact_op]. assert (Ry' : in_range (arith_conv a b) y = true) by (apply arith_conv_holds_r; auto).
    rewrite in_range_spec in *. specialize (D eq_refl).
    assert (B : Z.abs (Z.rem x y) < Z.abs y) by (apply Z.rem_bound_abs; auto).
    assert (M : imin (arith_conv a b) = - (imax (arith_conv a b) + 1)).
    { destruct a as [[] []], b as [[] []]; try discriminate S; reflexivity. }
    lia.
  - destruct F as [F|F]; [discriminate|]. split; auto. f_equal.
    rewrite (int_op_in_range o (arith_conv a b) x y) in E; auto; [now inversion E|].
    intros -> X. congruence.
Qed.

(** ... and it exists. *)
Lemma n_op_total : forall o a b x y, in_range a x = true -> in_range b y = true -> operands_fit a b x y ->
  in_range (arith_conv a b) (exact_op o x y) = true -> (divides_op o = true -> y <> 0) ->
  (o = OpRem -> isigned (arith_conv a b) = true -> in_range (arith_conv a b) (Z.quot x y) = true) ->
  n_op o (RInt a) (RInt b) (NInt x) (NInt y) = Ok (NInt (exact_op o x y)).
Proof.
  intros o a b x y Rx Ry O F D Q. rewrite n_op_int. destruct (operands_wrap a b x y Rx Ry O) as [Wx Wy].
  rewrite Wx, Wy. rewrite int_op_in_range; auto.
Qed.

(** ** Compound assignment *)

(** For [+=], [-=], [*=] it is enough that the exact result is representable. *)
Lemma assign_ring : forall o a b x y r, ring_op o = true -> in_range a x = true -> in_range b y = true ->
  n_assign o (RInt a) (RInt b) (NInt x) (NInt y) = Ok r -> in_range a (exact_op o x y) = true ->
  r = NInt (exact_op o x y).
Proof.
  intros o a b x y r RO Rx Ry H F. unfold n_assign in H. step H as z E. rewrite n_op_int in E.
  step E as k Ek. inversion E; subst z. cbn [n_convert] in H. inversion H; subst r. f_equal.
  apply wrap_eq; auto. apply (mod_smaller _ (iwidth (arith_conv a b))); [apply arith_conv_wide|].
  set (t := arith_conv a b) in *.
  assert (M : exact_op o (wrap t x) (wrap t y) mod 2 ^ wbits (iwidth t) = exact_op o x y mod 2 ^ wbits (iwidth t)).
  { destruct o; try discriminate RO; cbn [exact_op].
    - rewrite (Zplus_mod (wrap t x)), !wrap_mod, <- Zplus_mod. reflexivity.
    - rewrite (Zminus_mod (wrap t x)), !wrap_mod, <- Zminus_mod. reflexivity.
    - rewrite (Zmult_mod (wrap t x)), !wrap_mod, <- Zmult_mod. reflexivity. }
  destruct (isigned t) eqn:S.
  - destruct (int_op_signed _ _ _ _ _ S Ek) as (-> & _). exact M.
  - rewrite (int_op_unsigned _ _ _ _ _ S RO Ek). exact M.
Qed.

(** For [/=] and [%=] the operands must be representable, too. *)
Lemma assign_div : forall o a b x y r, divides_op o = true -> in_range a x = true -> in_range b y = true ->
  operands_fit a b x y ->
  n_assign o (RInt a) (RInt b) (NInt x) (NInt y) = Ok r -> in_range a (exact_op o x y) = true ->
  r = NInt (exact_op o x y) /\ y <> 0.
Proof.
  intros o a b x y r DO Rx Ry O H F. unfold n_assign in H. step H as z E.
  assert (Y : y <> 0).
  { rewrite n_op_int in E. step E as k Ek. destruct (operands_wrap a b x y Rx Ry O) as [_ Wy]. rewrite Wy in Ek.
    destruct o; try discriminate DO; unfold int_op, cdiv, crem in Ek; destruct (Z.eqb_spec y 0); congruence. }
  apply n_op_exact in E as (-> & D & R); auto.
  - cbn [n_convert] in H. inversion H. rewrite wrap_id by auto. auto.
  - destruct O as [O|[Ox Oy]]; auto. right. apply arith_conv_holds_l; auto. right.
    destruct o; try discriminate DO; cbn [exact_op].
    + apply Z.quot_pos; lia.
    + apply Z.rem_nonneg; auto.
Qed.
