(** Model of [src/core/include/units/quantity_point_kind.h], of point kinds (kind.h) and of
    [quantity_point_kind_cast] (quantity_cast.h). *)

From Coq Require Import ZArith String List Bool.
From Verif Require Import Outcome CInt Root Ratio Unit Downcast Dim DimOp Equivalent Rep QuantityCast CommonQuantity Quantity Point Kind.
Import ListNotations.
Local Open Scope Z_scope.
Local Open Scope res_scope.

(** A point kind: base kind and origin of its [_point_kind_base], kind.h:41-46, and the name
    of the struct derived from it ([None] for [_point_kind_base] itself). *)
Record pkind := PKind { pk_name : option string; pk_base : kind; pk_origin : origin }.

(** The concept [PointKind], bits/basic_concepts.h:294-300: one dimension. *)
Definition is_point_kind (k : pkind) : bool :=
  if dimension_eq_dec (k_dim (pk_base k)) (o_dim (pk_origin k)) then true else false.

Definition pkind_key_eq_dec : forall a b : kind * origin, {a = b} + {a <> b}.
Proof.
  intros [k1 o1] [k2 o2]. destruct (kind_eq_dec k1 k2); [|right; congruence].
  destruct (origin_eq_dec o1 o2); [left; now subst|right; congruence].
Defined.
Definition pkind_eq_dec : forall a b : pkind, {a = b} + {a <> b}.
Proof.
  intros [n1 b1 o1] [n2 b2 o2].
  assert (D : {n1 = n2} + {n1 <> n2}) by (decide equality; apply string_dec).
  destruct D; [|right; congruence]. destruct (kind_eq_dec b1 b2); [|right; congruence].
  destruct (origin_eq_dec o1 o2); [left; now subst|right; congruence].
Defined.

(** The point kinds declared so far, by base kind and origin. *)
Definition pkinds := registry (kind * origin) pkind.

(** [struct name : point_kind<name, BK, O>], kind.h:65-66. *)
Definition declare_point_kind (mode : downcast_mode) (name : string) (k : kind) (o : origin) (g : pkinds) : res pkinds :=
  declare pkind_key_eq_dec mode (k, o) (PKind (Some name) k o) g.

(** [downcast_point_kind<K, O>], kind.h:54-56. *)
Definition downcast_point_kind (g : pkinds) (k : kind) (o : origin) : res pkind :=
  let p := match downcast pkind_key_eq_dec g (k, o) with Some t => t | None => PKind None k o end in
  _ <- constrained (is_point_kind p); Ok p.

(** [equivalent] for point kinds, bits/equivalent.h:37-39, 104-107. *)
Definition pkind_equivalent (rb : rebinding) (a b : pkind) : bool :=
  if pkind_eq_dec a b then true
  else kind_equivalent (pk_base a) (pk_base b) && origin_equivalent rb (pk_origin a) (pk_origin b).

(** The type [quantity_point_kind<PK, U, Rep>], quantity_point_kind.h:43-54, and its objects. *)
Record pktype := PKType { pkt_kind : pkind; pkt_unit : cunit; pkt_rep : rep }.
Definition pkt_ktype (t : pktype) : ktype := KType (pk_base (pkt_kind t)) (pkt_unit t) (pkt_rep t).
Record qpkind := QPKind { qpk_type : pktype; qpk_num : number }.
Definition qpk_kind (x : qpkind) : pkind := pkt_kind (qpk_type x).

(** [relative()], quantity_point_kind.h:82-85. *)
Definition pk_relative (x : qpkind) : qkind := QKind (pkt_ktype (qpk_type x)) (qpk_num x).

(** Constructors: from a quantity kind (explicit, :64-66); from a quantity point (:68-69), a
    point of another type being first converted to the one of the parameter; converting
    (:75-77). *)
Definition pk_construct (est : estimate) (t : pktype) (k : qkind) : res qpkind :=
  x <- k_to est (pkt_ktype t) k; Ok (QPKind t (qk_num x)).
Definition pkt_ptype (t : pktype) : ptype := PType (pk_origin (pkt_kind t)) (pkt_unit t) (pkt_rep t).
Definition pk_of_point (rb : rebinding) (est : estimate) (t : pktype) (p : point) : res qpkind :=
  x <- p_to rb est (pkt_ptype t) p; Ok (QPKind t (pt_num x)).
Definition pk_to (rb : rebinding) (est : estimate) (t : pktype) (x : qpkind) : res qpkind :=
  _ <- constrained (pkind_equivalent rb (qpk_kind x) (pkt_kind t));
  pk_construct est t (pk_relative x).

(** [quantity_point_kind(qk)] with deduced arguments, quantity_point_kind.h:186-188: the
    point kind [downcast_point_kind<K>], whose origin is the dynamic one. *)
Definition pk_deduced (g : pkinds) (k : qkind) : res qpkind :=
  p <- downcast_point_kind g (qk_kind k) (ODynamic (k_dim (qk_kind k)));
  Ok (QPKind (PKType p (kt_unit (qk_type k)) (kt_rep (qk_type k))) (qk_num k)).

(** min and max, quantity_point_kind.h:87-97. *)
Definition pk_min (t : pktype) : qpkind := QPKind t (qk_num (k_min (pkt_ktype t))).
Definition pk_max (t : pktype) : qpkind := QPKind t (qk_num (k_max (pkt_ktype t))).

(** [+] and [-] with a quantity kind, quantity_point_kind.h:142-161. *)
Definition pk_addsub (o : arith_op) (est : estimate) (w : world) (g : pkinds) (x : qpkind) (k : qkind) : res qpkind :=
  s <- k_addsub o est w (pk_relative x) k; pk_deduced g s.
Definition pk_add := pk_addsub OpAdd.
Definition pk_sub := pk_addsub OpSub.
Definition k_plus_pk (est : estimate) (w : world) (g : pkinds) (k : qkind) (x : qpkind) : res qpkind :=
  s <- k_add est w k (pk_relative x); pk_deduced g s.

(** [-], [<=>] and [==] of two, quantity_point_kind.h:163-182. *)
Definition pk_diff (rb : rebinding) (est : estimate) (w : world) (a b : qpkind) : res qkind :=
  _ <- constrained (pkind_equivalent rb (qpk_kind b) (qpk_kind a));
  k_sub est w (pk_relative a) (pk_relative b).
Definition pk_compare (rb : rebinding) (est : estimate) (w : world) (a b : qpkind) : res (option comparison) :=
  _ <- constrained (pkind_equivalent rb (qpk_kind b) (qpk_kind a));
  k_compare est w (pk_relative a) (pk_relative b).
Definition pk_eqb (rb : rebinding) (est : estimate) (w : world) (a b : qpkind) : res bool :=
  _ <- constrained (pkind_equivalent rb (qpk_kind b) (qpk_kind a));
  k_eqb est w (pk_relative a) (pk_relative b).

(** Member operators, quantity_point_kind.h:99-137. *)
Inductive pkaction := PKInc | PKDec | PKAdd (x : qkind) | PKSub (x : qkind).
Definition pk_action (a : pkaction) : kaction :=
  match a with PKInc => KInc | PKDec => KDec | PKAdd x => KAdd x | PKSub x => KSub x end.
Definition pk_act (est : estimate) (g : kinds) (x : qpkind) (a : pkaction) : res qpkind :=
  s <- k_act est g (pk_relative x) (pk_action a); Ok (QPKind (qpk_type x) (qk_num s)).
Fixpoint pk_run (est : estimate) (g : kinds) (x : qpkind) (l : list pkaction) : res qpkind :=
  match l with
  | [] => Ok x
  | a :: r => y <- pk_act est g x a; pk_run est g y r
  end.

(** [quantity_point_kind_cast], quantity_cast.h:348-364: to a full type (kept), to a point
    kind and to anything that works for [quantity_kind_cast] (deduced); to a point kind and a
    unit, :379-385. *)
Definition pk_cast_to (rb : rebinding) (est : estimate) (t : pktype) (x : qpkind) : res qpkind :=
  _ <- constrained (origin_equivalent rb (pk_origin (qpk_kind x)) (pk_origin (pkt_kind t)));
  k <- kind_cast_to est (pkt_ktype t) (pk_relative x); Ok (QPKind t (qk_num k)).
Definition pk_cast_kind (est : estimate) (g : pkinds) (p : pkind) (x : qpkind) : res qpkind :=
  _ <- constrained (unit_of (pkt_unit (qpk_type x)) (k_dim (pk_base p)));
  k <- kind_cast_kind est (pk_base p) (pk_relative x); pk_deduced g k.
Definition pk_cast (est : estimate) (w : world) (g : pkinds) (c : kcastspec) (x : qpkind) : res qpkind :=
  k <- kind_cast est w c (pk_relative x); pk_deduced g k.
Definition pk_cast_kind_unit (rb : rebinding) (est : estimate) (p : pkind) (u : cunit) (x : qpkind) : res qpkind :=
  _ <- constrained (dim_equivalent (k_dim (pk_base p)) (k_dim (pk_base (qpk_kind x))) && unit_of u (k_dim (pk_base p)));
  pk_cast_to rb est (PKType p u (pkt_rep (qpk_type x))) x.
