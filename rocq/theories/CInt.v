(** C++20 integer types and their arithmetic.

    Models the language rules the library relies on, not a file of the library:
    two's complement ranges, integral promotion, the usual arithmetic
    conversions, signed overflow as undefined behaviour, unsigned wrap-around.
    Simplification: the platform is LP64-like ([int] 32 bits, [intmax_t] =
    [std::int64_t] 64 bits, [std::uint64_t] 64 bits); character and bool types
    are not distinguished from the integer type of the same width. *)

From Coq Require Import ZArith Lia Bool.
From Verif Require Import Outcome.
Local Open Scope Z_scope.
Local Open Scope res_scope.

Inductive width := W8 | W16 | W32 | W64.

Record ity := ITy { iwidth : width; isigned : bool }.

Definition wbits (w : width) : Z :=
  match w with W8 => 8 | W16 => 16 | W32 => 32 | W64 => 64 end.

Definition imin (t : ity) : Z :=
  if isigned t then - 2 ^ (wbits (iwidth t) - 1) else 0.
Definition imax (t : ity) : Z :=
  if isigned t then 2 ^ (wbits (iwidth t) - 1) - 1 else 2 ^ wbits (iwidth t) - 1.

Definition in_range (t : ity) (z : Z) : bool := (imin t <=? z) && (z <=? imax t).

(** Conversion of an integer value to the type [t]: modulo 2^w (C++20). *)
Definition wrap (t : ity) (z : Z) : Z :=
  (z - imin t) mod 2 ^ wbits (iwidth t) + imin t.

(** Result of an arithmetic operation with exact result [z] in type [t]. *)
Definition arith (t : ity) (z : Z) : res Z :=
  if isigned t then (if in_range t z then Ok z else Undef) else Ok (wrap t z).

Definition cadd (t : ity) (a b : Z) : res Z := arith t (a + b).
Definition csub (t : ity) (a b : Z) : res Z := arith t (a - b).
Definition cmul (t : ity) (a b : Z) : res Z := arith t (a * b).
Definition cneg (t : ity) (a : Z) : res Z := arith t (- a).

(** Integer division truncates toward zero; INT_MIN / -1 and INT_MIN % -1 are
    undefined (the quotient is not representable). *)
Definition cdiv (t : ity) (a b : Z) : res Z :=
  if b =? 0 then Undef else arith t (Z.quot a b).
Definition crem (t : ity) (a b : Z) : res Z :=
  if b =? 0 then Undef
  else if isigned t && negb (in_range t (Z.quot a b)) then Undef else Ok (Z.rem a b).

Definition I32 := ITy W32 true.
Definition I64 := ITy W64 true.
Definition U64 := ITy W64 false.

(** Integral promotion: everything narrower than [int] becomes [int]. *)
Definition promote (t : ity) : ity :=
  match iwidth t with W8 | W16 => I32 | _ => t end.

(** Usual arithmetic conversions on two integer types = [std::common_type_t]
    of the promoted types.  (For two identical narrow types
    [std::common_type_t] does not promote; see [common_ity].) *)
Definition arith_conv (a b : ity) : ity :=
  let a := promote a in let b := promote b in
  match iwidth a, iwidth b with
  | W64, W64 => ITy W64 (isigned a && isigned b)
  | W64, _ => a          (* 64-bit signed holds every 32-bit value *)
  | _, W64 => b
  | _, _ => ITy W32 (isigned a && isigned b)
  end.

(** [std::common_type_t<A, B>] for integer types: [decltype(false ? a : b)],
    so equal types are kept, different types undergo the conversions. *)
Definition width_eqb (a b : width) : bool :=
  match a, b with W8, W8 | W16, W16 | W32, W32 | W64, W64 => true | _, _ => false end.
Definition ity_eqb (a b : ity) : bool :=
  width_eqb (iwidth a) (iwidth b) && Bool.eqb (isigned a) (isigned b).
Definition common_ity (a b : ity) : ity := if ity_eqb a b then a else arith_conv a b.

(** ** [std::gcd] on two [intmax_t]: undefined if an absolute value is not
    representable ([numeric.ops.gcd]). *)
Definition cgcd (a b : Z) : res Z :=
  if in_range I64 (Z.abs a) && in_range I64 (Z.abs b) then Ok (Z.gcd a b) else Undef.

(** ** Basic facts *)

Definition INTMAX_MAX : Z := 2 ^ 63 - 1.
Definition INTMAX_MIN : Z := - 2 ^ 63.

Lemma width_eqb_eq : forall a b, width_eqb a b = true <-> a = b.
Proof. intros [] []; simpl; split; congruence. Qed.

Lemma ity_eqb_eq : forall a b, ity_eqb a b = true <-> a = b.
Proof.
  intros [wa sa] [wb sb]; unfold ity_eqb; simpl.
  rewrite andb_true_iff, width_eqb_eq, Bool.eqb_true_iff. split.
  - intros [-> ->]; reflexivity.
  - intros H; inversion H; auto.
Qed.

Lemma in_range_spec : forall t z, in_range t z = true <-> imin t <= z <= imax t.
Proof. intros; unfold in_range; rewrite andb_true_iff, !Z.leb_le; tauto. Qed.

Lemma range_size : forall t, imax t = imin t + 2 ^ wbits (iwidth t) - 1.
Proof. intros [[] []]; vm_compute; reflexivity. Qed.

Lemma modulus_pos : forall t, 0 < 2 ^ wbits (iwidth t).
Proof. intros [[] []]; vm_compute; reflexivity. Qed.

Lemma wrap_in_range : forall t z, in_range t (wrap t z) = true.
Proof.
  intros. apply in_range_spec. unfold wrap.
  pose proof (modulus_pos t). pose proof (range_size t).
  pose proof (Z.mod_pos_bound (z - imin t) (2 ^ wbits (iwidth t)) H). lia.
Qed.

Lemma wrap_id : forall t z, in_range t z = true -> wrap t z = z.
Proof.
  intros t z H. apply in_range_spec in H. unfold wrap.
  rewrite Z.mod_small; [lia|]. pose proof (range_size t). lia.
Qed.

Lemma arith_ok_signed : forall t z v, isigned t = true ->
  arith t z = Ok v -> v = z /\ in_range t z = true.
Proof.
  intros t z v S; unfold arith; rewrite S.
  destruct (in_range t z); intros H; inversion H; auto.
Qed.

Lemma arith_in_range : forall t z, in_range t z = true -> arith t z = Ok z.
Proof.
  intros t z H; unfold arith. rewrite H.
  destruct (isigned t); [reflexivity|]. now rewrite wrap_id.
Qed.

Lemma arith_result_in_range : forall t z v, arith t z = Ok v -> in_range t v = true.
Proof.
  intros t z v; unfold arith. destruct (isigned t).
  - destruct (in_range t z) eqn:E; intros H; inversion H; subst; auto.
  - intros H; inversion H; apply wrap_in_range.
Qed.

Lemma in_range_I64 : forall z, in_range I64 z = true <-> INTMAX_MIN <= z <= INTMAX_MAX.
Proof. intros; apply in_range_spec. Qed.

Lemma cadd_ok : forall a b v, cadd I64 a b = Ok v -> v = a + b /\ in_range I64 v = true.
Proof. intros a b v H; apply arith_ok_signed in H; [|reflexivity]; destruct H; subst; auto. Qed.
Lemma csub_ok : forall a b v, csub I64 a b = Ok v -> v = a - b /\ in_range I64 v = true.
Proof. intros a b v H; apply arith_ok_signed in H; [|reflexivity]; destruct H; subst; auto. Qed.
Lemma cmul_ok : forall a b v, cmul I64 a b = Ok v -> v = a * b /\ in_range I64 v = true.
Proof. intros a b v H; apply arith_ok_signed in H; [|reflexivity]; destruct H; subst; auto. Qed.
Lemma cneg_ok : forall a v, cneg I64 a = Ok v -> v = - a /\ in_range I64 v = true.
Proof. intros a v H; apply arith_ok_signed in H; [|reflexivity]; destruct H; subst; auto. Qed.
Lemma cdiv_ok : forall a b v, cdiv I64 a b = Ok v ->
  b <> 0 /\ v = Z.quot a b /\ in_range I64 v = true.
Proof.
  intros a b v; unfold cdiv. destruct (Z.eqb_spec b 0); [discriminate|].
  intros H; apply arith_ok_signed in H; [|reflexivity]; destruct H; subst; auto.
Qed.
Lemma crem_ok : forall a b v, crem I64 a b = Ok v -> b <> 0 /\ v = Z.rem a b.
Proof.
  intros a b v; unfold crem. destruct (Z.eqb_spec b 0); [discriminate|].
  destruct (_ && _); intros H; inversion H; auto.
Qed.
Lemma cgcd_ok : forall a b v, cgcd a b = Ok v ->
  v = Z.gcd a b /\ Z.abs a <= INTMAX_MAX /\ Z.abs b <= INTMAX_MAX.
Proof.
  intros a b v; unfold cgcd.
  destruct (in_range I64 (Z.abs a) && in_range I64 (Z.abs b)) eqn:E; [|discriminate].
  apply andb_true_iff in E; destruct E as [E1 E2].
  apply in_range_I64 in E1, E2. intros H; inversion H. intuition.
Qed.
