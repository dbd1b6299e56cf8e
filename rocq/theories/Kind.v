(** Model of [src/core/include/units/kind.h] (kinds), [quantity_kind.h], the concept [Kind]
    (bits/basic_concepts.h) and [quantity_kind_cast] (quantity_cast.h). *)

From Coq Require Import ZArith String List Bool.
From Verif Require Import Outcome CInt Root Ratio Unit Downcast Dim DimOp Equivalent Rep QuantityCast CommonQuantity Quantity Point.
Import ListNotations.
Local Open Scope Z_scope.
Local Open Scope res_scope.

(** A base kind, [struct name : kind<name, D>], kind.h:58-59. *)
Record bkind := BKind { bk_name : string; bk_dim : dimension }.

(** A kind: the base kind and the dimension of its [_kind_base], kind.h:35-39, and the name
    of the struct derived from it ([None] for [_kind_base] itself, which is a [Kind] too). *)
Record kind := Kind { k_name : option string; k_base : bkind; k_dim : dimension }.

(** [T::base_kind], as a kind (basic_concepts.h:276-280: its own base kind). *)
Definition base_kind (k : kind) : kind := Kind (Some (bk_name (k_base k))) (k_base k) (bk_dim (k_base k)).

Definition bkind_eq_dec : forall a b : bkind, {a = b} + {a <> b}.
Proof.
  intros [n1 d1] [n2 d2]. destruct (string_dec n1 n2); [|right; congruence].
  destruct (dimension_eq_dec d1 d2); [left; now subst|right; congruence].
Defined.
Definition kind_key_eq_dec : forall a b : bkind * dimension, {a = b} + {a <> b}.
Proof.
  intros [k1 d1] [k2 d2]. destruct (bkind_eq_dec k1 k2); [|right; congruence].
  destruct (dimension_eq_dec d1 d2); [left; now subst|right; congruence].
Defined.
Definition kind_eq_dec : forall a b : kind, {a = b} + {a <> b}.
Proof.
  intros [n1 b1 d1] [n2 b2 d2].
  assert (D : {n1 = n2} + {n1 <> n2}) by (decide equality; apply string_dec).
  destruct D; [|right; congruence]. destruct (bkind_eq_dec b1 b2); [|right; congruence].
  destruct (dimension_eq_dec d1 d2); [left; now subst|right; congruence].
Defined.

(** The kinds declared so far, by base kind and dimension. *)
Definition kinds := registry (bkind * dimension) kind.

(** [struct name : kind<name, D>] and [struct name : derived_kind<name, D, BK>],
    kind.h:58-63. *)
Definition declare_kind (mode : downcast_mode) (name : string) (d : dimension) (g : kinds) : res kinds :=
  declare kind_key_eq_dec mode (BKind name d, d) (Kind (Some name) (BKind name d) d) g.
Definition declare_derived_kind (mode : downcast_mode) (name : string) (d : dimension) (bk : kind) (g : kinds) : res kinds :=
  _ <- constrained (if kind_eq_dec bk (base_kind bk) then true else false);
  declare kind_key_eq_dec mode (k_base bk, d) (Kind (Some name) (k_base bk) d) g.

(** [downcast_kind<K, D>], kind.h:50-52. *)
Definition downcast_kind (g : kinds) (k : kind) (d : dimension) : kind :=
  match downcast kind_key_eq_dec g (k_base k, d) with
  | Some t => t
  | None => Kind None (k_base k) d
  end.

(** [equivalent] for kinds, bits/equivalent.h:37-39, 99-102. *)
Definition kind_equivalent (a b : kind) : bool :=
  if kind_eq_dec a b then true
  else (if bkind_eq_dec (k_base a) (k_base b) then true else false) && dim_equivalent (k_dim a) (k_dim b).

(** The type [quantity_kind<K, U, Rep>], quantity_kind.h:78-86, and its objects. *)
Record ktype := KType { kt_kind : kind; kt_unit : cunit; kt_rep : rep }.
Definition kt_qtype (t : ktype) : qtype := QType (k_dim (kt_kind t)) (kt_unit t) (kt_rep t).
Definition mk_ktype (k : kind) (u : cunit) (r : rep) : res ktype :=
  _ <- mk_qtype (k_dim k) u r; Ok (KType k u r).
Record qkind := QKind { qk_type : ktype; qk_num : number }.
Definition qk_kind (x : qkind) : kind := kt_kind (qk_type x).

(** [common()], quantity_kind.h:111-114. *)
Definition common (x : qkind) : quantity := Quantity (kt_qtype (qk_type x)) (qk_num x).

(** The explicit constructor from a quantity, quantity_kind.h:96-102. *)
Definition k_construct (est : estimate) (t : ktype) (q : quantity) : res qkind :=
  n <- q_convert est (q_type q) (kt_qtype t) (q_num q); Ok (QKind t n).

(** [make_quantity_kind_fn<K>], quantity_kind.h:39-46. *)
Definition k_make (est : estimate) (k : kind) (q : quantity) : res qkind :=
  t <- mk_ktype k (q_unit (q_type q)) (q_rep (q_type q)); k_construct est t q.

(** [downcasted_kind<QK>], quantity_kind.h:48-55. *)
Definition k_downcasted (est : estimate) (g : kinds) (x : qkind) (q : quantity) : res qkind :=
  k_make est (downcast_kind g (base_kind (qk_kind x)) (q_dim (q_type q))) q.

(** The converting constructor, quantity_kind.h:104-106. *)
Definition k_to (est : estimate) (t : ktype) (x : qkind) : res qkind :=
  _ <- constrained (kind_equivalent (qk_kind x) (kt_kind t));
  k_construct est t (common x).

(** zero, one, min, max, quantity_kind.h:116-138. *)
Definition k_zero (t : ktype) : qkind := QKind t (q_num (q_zero (kt_qtype t))).
Definition k_one (t : ktype) : qkind := QKind t (q_num (q_one (kt_qtype t))).
Definition k_min (t : ktype) : qkind := QKind t (q_num (q_min (kt_qtype t))).
Definition k_max (t : ktype) : qkind := QKind t (q_num (q_max (kt_qtype t))).

(** Unary operators, quantity_kind.h:140-150: unary plus returns the object itself. *)
Definition k_plus (x : qkind) : res qkind := Ok x.
Definition k_neg (est : estimate) (x : qkind) : res qkind :=
  q <- q_neg (common x); k_make est (qk_kind x) q.

(** [+] and [-], quantity_kind.h:291-303. *)
Definition k_addsub (o : arith_op) (est : estimate) (w : world) (a b : qkind) : res qkind :=
  _ <- constrained (kind_equivalent (qk_kind b) (qk_kind a));
  q <- q_addsub o est w (common a) (common b);
  k_make est (qk_kind a) q.
Definition k_add := k_addsub OpAdd.
Definition k_sub := k_addsub OpSub.

(** [qk * v], [v * qk], [qk / v], [qk % v], quantity_kind.h:244-264, 274-280. *)
Definition k_scale (o : arith_op) (swap : bool) (est : estimate) (x : qkind) (r : rep) (v : number) : res qkind :=
  q <- q_scale o swap (common x) r v; k_make est (qk_kind x) q.
Definition k_mul_value := k_scale OpMul false.
Definition value_mul_k := k_scale OpMul true.
Definition k_div_value := k_scale OpDiv false.
Definition k_rem_value (est : estimate) (x : qkind) (r : rep) (v : number) : res qkind :=
  q <- q_rem_value (common x) r v; k_make est (qk_kind x) q.
(** [v / qk], quantity_kind.h:266-272. *)
Definition value_div_k (est : estimate) (w : world) (g : kinds) (r : rep) (v : number) (x : qkind) : res qkind :=
  q <- value_div_q w r v (common x); k_downcasted est g x q.

(** [*] and [/] with a quantity on either side, quantity_kind.h:305-317, 326-340. *)
Definition k_times_q (est : estimate) (w : world) (g : kinds) (x : qkind) (q : quantity) : res qkind :=
  p <- q_times w (common x) q; k_downcasted est g x p.
Definition q_times_k (est : estimate) (w : world) (g : kinds) (q : quantity) (x : qkind) : res qkind :=
  p <- q_times w q (common x); k_downcasted est g x p.
Definition k_over_q (est : estimate) (w : world) (g : kinds) (x : qkind) (q : quantity) : res qkind :=
  p <- q_over w (common x) q; k_downcasted est g x p.
Definition q_over_k (est : estimate) (w : world) (g : kinds) (q : quantity) (x : qkind) : res qkind :=
  p <- q_over w q (common x); k_downcasted est g x p.

(** [*] and [/] of two quantity kinds ([QuantityKindRelatedTo], :64-66), :319-324, 342-347. *)
Definition related (a b : qkind) : bool := kind_equivalent (base_kind (qk_kind a)) (base_kind (qk_kind b)).
Definition k_times_k (est : estimate) (w : world) (g : kinds) (a b : qkind) : res qkind :=
  _ <- constrained (related b a);
  p <- q_times w (common a) (common b); k_downcasted est g a p.
Definition k_over_k (est : estimate) (w : world) (g : kinds) (a b : qkind) : res qkind :=
  _ <- constrained (related b a);
  p <- q_over w (common a) (common b); k_downcasted est g a p.

(** [%] with a dimensionless quantity and with an equivalent kind, quantity_kind.h:349-363. *)
Definition k_rem_q (est : estimate) (x : qkind) (q : quantity) : res qkind :=
  _ <- constrained (dim_equivalent (q_dim (q_type q)) dim_one);
  p <- q_rem (common x) q; k_make est (qk_kind x) p.
Definition k_rem (est : estimate) (a b : qkind) : res qkind :=
  _ <- constrained (kind_equivalent (qk_kind b) (qk_kind a));
  p <- q_rem (common a) (common b); k_make est (qk_kind a) p.

(** [<=>] and [==], quantity_kind.h:282-288, 365-377 (with the simplification of [p_compare]). *)
Definition k_compare (est : estimate) (w : world) (a b : qkind) : res (option comparison) :=
  _ <- constrained (kind_equivalent (qk_kind b) (qk_kind a));
  q_compare est w (common a) (common b).
Definition k_eqb (est : estimate) (w : world) (a b : qkind) : res bool :=
  _ <- constrained (kind_equivalent (qk_kind b) (qk_kind a));
  q_eqb est w (common a) (common b).

(** Member operators, quantity_kind.h:152-240.  The operand of [+=] and [-=] is first
    converted to the type of the left operand; [*=], [/=] and [%=] accept a dimensionless
    kind of the same base ([KMulK], [KDivK], [KRemOne]), of which the number is used. *)
Inductive kaction :=
| KInc | KDec
| KAdd (x : qkind) | KSub (x : qkind) | KRem (x : qkind)
| KMulV (r : rep) (v : number) | KDivV (r : rep) (v : number) | KRemV (r : rep) (v : number)
| KMulK (x : qkind) | KDivK (x : qkind) | KRemOne (x : qkind).

Definition one_kind (g : kinds) (k : kind) (x : qkind) : bool :=
  (if kind_eq_dec (qk_kind x) (downcast_kind g k dim_one) then true else false) && is_unit_one (kt_unit (qk_type x)).
Definition k_act (est : estimate) (g : kinds) (x : qkind) (a : kaction) : res qkind :=
  let t := qk_type x in
  q <- match a with
       | KInc => q_act est (common x) AInc
       | KDec => q_act est (common x) ADec
       | KAdd y => y' <- k_to est t y; q_act est (common x) (AAdd (common y'))
       | KSub y => y' <- k_to est t y; q_act est (common x) (ASub (common y'))
       | KRem y => _ <- constrained (kind_equivalent (qk_kind x) (qk_kind y));
                   q_act est (common x) (ARem (common y))
       | KMulV r v => q_act est (common x) (AMulV r v)
       | KDivV r v => q_act est (common x) (ADivV r v)
       | KRemV r v => q_act est (common x) (ARemV r v)
       | KMulK y => _ <- constrained (one_kind g (qk_kind x) y); q_act est (common x) (AMulV (kt_rep (qk_type y)) (qk_num y))
       | KDivK y => _ <- constrained (one_kind g (qk_kind x) y); q_act est (common x) (ADivV (kt_rep (qk_type y)) (qk_num y))
       | KRemOne y => _ <- constrained (one_kind g (qk_kind x) y); q_act est (common x) (ARemV (kt_rep (qk_type y)) (qk_num y))
       end;
  Ok (QKind t (q_num q)).
Fixpoint k_run (est : estimate) (g : kinds) (x : qkind) (l : list kaction) : res qkind :=
  match l with
  | [] => Ok x
  | a :: r => y <- k_act est g x a; k_run est g y r
  end.

(** [std::common_type] of two quantity kinds, bits/common_quantity.h:108-114. *)
Definition common_ktype (est : estimate) (w : world) (a b : ktype) : res ktype :=
  _ <- constrained (kind_equivalent (kt_kind b) (kt_kind a));
  t <- common_quantity est w (kt_qtype a) (kt_qtype b) (common_rep (kt_rep a) (kt_rep b));
  mk_ktype (kt_kind a) (q_unit t) (q_rep t).

(** [quantity_kind_cast], quantity_cast.h:290-306: to a full type, to a kind, to anything
    that works for [quantity_cast]; and to a kind and a unit, :323-328. *)
Definition kind_cast_to (est : estimate) (t : ktype) (x : qkind) : res qkind :=
  n <- quantity_cast est (kt_qtype (qk_type x)) (kt_qtype t) (qk_num x); Ok (QKind t n).
Definition kind_cast_kind (est : estimate) (k : kind) (x : qkind) : res qkind :=
  t <- mk_ktype k (kt_unit (qk_type x)) (kt_rep (qk_type x)); k_construct est t (common x).
Inductive kcastspec := KToType (t : ktype) | KToKind (k : kind) | KTo (c : castspec).
Definition kind_cast (est : estimate) (w : world) (c : kcastspec) (x : qkind) : res qkind :=
  match c with
  | KToType t => kind_cast_to est t x
  | KToKind k => kind_cast_kind est k x
  | KTo c => q <- q_cast est w c (common x); k_make est (qk_kind x) q
  end.
Definition kind_cast_kind_unit (est : estimate) (k : kind) (u : cunit) (x : qkind) : res qkind :=
  _ <- constrained (dim_equivalent (k_dim k) (k_dim (qk_kind x)));
  t <- mk_ktype k u (kt_rep (qk_type x)); kind_cast_to est t x.
