(** The constructors of quantities, quantity points, quantity kinds and points of kinds, by the
    kind of argument they are given: model of the overloads of [quantity.h], [quantity_point.h],
    [quantity_kind.h], [quantity_point_kind.h] and of [chrono.h].  [.._new] is the construction
    [T(x)], [.._implicit] the implicit conversion of [x] to [T]. *)

From Coq Require Import ZArith String List Bool.
From Verif Require Import Outcome CInt Root Ratio Unit Downcast Dim DimOp Equivalent Rep QuantityCast CommonQuantity Quantity
  Point Kind PointKind Plain Chrono.
Import ListNotations.
Local Open Scope Z_scope.
Local Open Scope res_scope.

(** What a constructor may be given: a number and its type, an object of one of the four class
    templates, a duration, a time point. *)
Inductive argument :=
| ANumber (r : rep) (n : number)
| AQuantity (q : quantity)
| ADuration (d : duration)
| APoint (p : point)
| ATime (p : time_point)
| AKind (x : qkind)
| APointKind (x : qpkind).

(** [quantity], quantity.h:150-160: from a number (the dimension does not matter), from a
    quantity, from a quantity-like object.  Implicit are the conversion of a quantity and, for
    [dimensionless<one>], that of a number. *)
Definition q_new (est : estimate) (w : world) (t : qtype) (x : argument) : res quantity :=
  match x with
  | ANumber r n => q_make t r n
  | AQuantity q => q_to est t q
  | ADuration d => q_from_duration est w t d
  | _ => IllFormed
  end.
Definition q_implicit (est : estimate) (t : qtype) (x : argument) : res quantity :=
  match x with
  | ANumber r n => implicit_value t r n
  | AQuantity q => q_to est t q
  | _ => IllFormed
  end.

(** [quantity_point], quantity_point.h:77-89: from whatever its quantity is constructed from,
    from a point, from a quantity-point-like object.  Only the conversion of a point is
    implicit. *)
Definition p_new (rb : rebinding) (est : estimate) (w : world) (t : ptype) (x : argument) : res point :=
  match x with
  | APoint p => p_to rb est t p
  | ATime p => p_from_time_point rb est w t p
  | _ => q <- q_new est w (p_qtype t) x; Ok (Point t (q_num q))
  end.
Definition p_implicit (rb : rebinding) (est : estimate) (t : ptype) (x : argument) : res point :=
  match x with APoint p => p_to rb est t p | _ => IllFormed end.

(** [Dimensionless<quantity_type>], generic/dimensionless.h:44-45 ([QuantityOf<T, dim_one>]): the
    dimension is equivalent to [dim_one]. *)
Definition dimensionless (d : dimension) : bool := dim_equivalent d dim_one.

(** [quantity_kind], quantity_kind.h:96-106: from a quantity, a quantity-like object and, if the
    kind is dimensionless, a number; from a quantity kind.  Only the last is implicit. *)
Definition k_new (est : estimate) (w : world) (t : ktype) (x : argument) : res qkind :=
  match x with
  | AKind y => k_to est t y
  | ANumber r n => _ <- constrained (dimensionless (k_dim (kt_kind t))); q <- q_make (kt_qtype t) r n; Ok (QKind t (q_num q))
  | _ => q <- q_new est w (kt_qtype t) x; Ok (QKind t (q_num q))
  end.
Definition k_implicit (est : estimate) (t : ktype) (x : argument) : res qkind :=
  match x with AKind y => k_to est t y | _ => IllFormed end.

(** [quantity_point_kind], quantity_point_kind.h:64-77: from whatever its quantity kind is
    constructed from, from a quantity point and a quantity-point-like object, from a point of a
    kind.  Only the last is implicit. *)
Definition pk_new (rb : rebinding) (est : estimate) (w : world) (t : pktype) (x : argument) : res qpkind :=
  match x with
  | APointKind y => pk_to rb est t y
  | APoint p => pk_of_point rb est t p
  | ATime p => y <- p_from_time_point rb est w (pkt_ptype t) p; Ok (QPKind t (pt_num y))
  | _ => k <- k_new est w (pkt_ktype t) x; Ok (QPKind t (qk_num k))
  end.
Definition pk_implicit (rb : rebinding) (est : estimate) (t : pktype) (x : argument) : res qpkind :=
  match x with APointKind y => pk_to rb est t y | _ => IllFormed end.

(** Construction with deduced arguments: [quantity(x)] (quantity.h:392-396), [quantity_point(x)]
    (quantity_point.h:203-216), [quantity_kind(x)] (the copy), [quantity_point_kind(x)]
    (quantity_point_kind.h:186-188, and the copy). *)
Definition q_deduced (w : world) (x : argument) : res quantity :=
  match x with
  | ANumber r n => q_make (QType dim_one unit_one r) r n
  | AQuantity q => Ok q
  | ADuration d => q_of_duration w d
  | _ => IllFormed
  end.
Definition p_deduced_from (est : estimate) (w : world) (x : argument) : res point :=
  match x with
  | APoint p => Ok p
  | ATime p => p_of_time_point est w p
  | _ => q <- q_deduced w x; Ok (p_deduced q)
  end.
Definition k_deduced_from (x : argument) : res qkind :=
  match x with AKind y => Ok y | _ => IllFormed end.
Definition pk_deduced_from (g : pkinds) (x : argument) : res qpkind :=
  match x with
  | APointKind y => Ok y
  | AKind k => pk_deduced g k
  | _ => IllFormed
  end.
