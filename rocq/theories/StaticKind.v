(** What the compiler computes of an expression of quantities, quantity kinds and quantity point
    kinds before the program runs: the type of every subexpression, from the types of the
    objects in it alone.

    As in Static.v: the constraints, the ratios, the downcast kinds and the result types of
    [src/core/include/units/quantity_kind.h], [quantity_point_kind.h] and of the casts of
    [quantity_cast.h], without the numbers. *)

From Coq Require Import ZArith String List Bool.
From Verif Require Import Outcome CInt Root Ratio Unit Downcast Dim DimOp Equivalent Rep Reference QuantityCast CommonQuantity Quantity Point Affine Static
  Kind PointKind KindExpr.
Local Open Scope res_scope.

(** ** Quantity kinds *)

(** The explicit constructor from a quantity, quantity_kind.h:96-102. *)
Definition t_k_construct (est : estimate) (t : ktype) (q : qtype) : res ktype := _ <- t_convert est q (kt_qtype t); Ok t.
(** [make_quantity_kind_fn<K>] and [downcasted_kind<QK>], quantity_kind.h:39-55. *)
Definition t_k_make (est : estimate) (k : kind) (q : qtype) : res ktype :=
  t <- mk_ktype k (q_unit q) (q_rep q); t_k_construct est t q.
Definition t_k_downcasted (est : estimate) (g : kinds) (x : ktype) (q : qtype) : res ktype :=
  t_k_make est (downcast_kind g (base_kind (kt_kind x)) (q_dim q)) q.
(** The converting constructor, quantity_kind.h:104-106. *)
Definition t_k_to (est : estimate) (t x : ktype) : res ktype :=
  _ <- constrained (kind_equivalent (kt_kind x) (kt_kind t));
  t_k_construct est t (kt_qtype x).
(** [+] and [-], quantity_kind.h:291-303. *)
Definition t_k_addsub (est : estimate) (w : world) (a b : ktype) : res ktype :=
  _ <- constrained (kind_equivalent (kt_kind b) (kt_kind a));
  q <- t_addsub est w (kt_qtype a) (kt_qtype b);
  t_k_make est (kt_kind a) q.
(** The operators with one operand, quantity_kind.h:140-150, 244-280. *)
Definition t_unary_kind (est : estimate) (w : world) (g : kinds) (o : unary) (x : ktype) : res ktype :=
  match o with
  | UPos => Ok x
  | UNeg | UMulV _ _ | UVMul _ _ | UDivV _ _ | URemV _ _ => q <- t_unary est w o (kt_qtype x); t_k_make est (kt_kind x) q
  | UVDiv r _ => q <- t_value_over w r (kt_qtype x); t_k_downcasted est g x q
  | UConv _ | UCast _ => IllFormed
  end.
(** [*] and [/] of two quantity kinds, quantity_kind.h:319-324, 342-347. *)
Definition t_related (a b : ktype) : bool := kind_equivalent (base_kind (kt_kind a)) (base_kind (kt_kind b)).
Definition t_k_times (est : estimate) (w : world) (g : kinds) (a b : ktype) : res ktype :=
  _ <- constrained (t_related b a);
  q <- t_times w (kt_qtype a) (kt_qtype b); t_k_downcasted est g a q.
Definition t_k_over (est : estimate) (w : world) (g : kinds) (a b : ktype) : res ktype :=
  _ <- constrained (t_related b a);
  q <- t_over w (kt_qtype a) (kt_qtype b); t_k_downcasted est g a q.
(** [%], quantity_kind.h:349-363. *)
Definition t_k_rem_q (est : estimate) (x : ktype) (q : qtype) : res ktype :=
  _ <- constrained (dim_equivalent (q_dim q) dim_one);
  p <- t_rem (kt_qtype x) q; t_k_make est (kt_kind x) p.
Definition t_k_rem (est : estimate) (a b : ktype) : res ktype :=
  _ <- constrained (kind_equivalent (kt_kind b) (kt_kind a));
  p <- t_rem (kt_qtype a) (kt_qtype b); t_k_make est (kt_kind a) p.
(** [quantity_kind_cast], quantity_cast.h:290-306. *)
Definition t_kcast (est : estimate) (w : world) (c : kcastspec) (x : ktype) : res ktype :=
  match c with
  | KToType t => _ <- t_cast est (kt_qtype x) (kt_qtype t); Ok t
  | KToKind k => t <- mk_ktype k (kt_unit x) (kt_rep x); t_k_construct est t (kt_qtype x)
  | KTo c => q <- t_qcast est w c (kt_qtype x); t_k_make est (kt_kind x) q
  end.

(** ** Quantity point kinds *)

(** The explicit and the converting constructor, quantity_point_kind.h:64-66, 75-77. *)
Definition t_pk_construct (est : estimate) (t : pktype) (x : ktype) : res pktype := _ <- t_k_to est (pkt_ktype t) x; Ok t.
Definition t_pk_to (rb : rebinding) (est : estimate) (t x : pktype) : res pktype :=
  _ <- constrained (pkind_equivalent rb (pkt_kind x) (pkt_kind t));
  t_pk_construct est t (pkt_ktype x).
(** The deduced type, quantity_point_kind.h:186-188. *)
Definition t_pk_deduced (g : pkinds) (x : ktype) : res pktype :=
  p <- downcast_point_kind g (kt_kind x) (ODynamic (k_dim (kt_kind x)));
  Ok (PKType p (kt_unit x) (kt_rep x)).
(** [+] and [-] with a quantity kind and the difference, quantity_point_kind.h:142-167. *)
Definition t_pk_addsub (est : estimate) (w : world) (g : pkinds) (a b : ktype) : res pktype :=
  s <- t_k_addsub est w a b; t_pk_deduced g s.
Definition t_pk_diff (rb : rebinding) (est : estimate) (w : world) (a b : pktype) : res ktype :=
  _ <- constrained (pkind_equivalent rb (pkt_kind b) (pkt_kind a));
  t_k_addsub est w (pkt_ktype a) (pkt_ktype b).
(** [quantity_point_kind_cast], quantity_cast.h:348-364. *)
Definition t_pk_cast_to (rb : rebinding) (est : estimate) (t x : pktype) : res pktype :=
  _ <- constrained (origin_equivalent rb (pk_origin (pkt_kind x)) (pk_origin (pkt_kind t)));
  _ <- t_cast est (kt_qtype (pkt_ktype x)) (kt_qtype (pkt_ktype t)); Ok t.
Definition t_pk_cast (est : estimate) (w : world) (g : pkinds) (c : kcastspec) (x : pktype) : res pktype :=
  k <- t_kcast est w c (pkt_ktype x); t_pk_deduced g k.

(** ** Expressions *)

(** The types of expressions. *)
Inductive ktyp := TyQuantity (t : qtype) | TyKind (t : ktype) | TyPoint (t : pktype).

Definition t_kunary (est : estimate) (w : world) (g : kinds) (o : unary) (t : ktyp) : res ktyp :=
  match t with
  | TyQuantity q => s <- t_unary est w o q; Ok (TyQuantity s)
  | TyKind x => s <- t_unary_kind est w g o x; Ok (TyKind s)
  | TyPoint _ => IllFormed
  end.
(** Overloads: as [kbinary]; quantity_kind.h:305-317, 326-340 with a quantity on either side. *)
Definition t_kbinary (rb : rebinding) (est : estimate) (w : world) (g : kinds) (gp : pkinds) (o : binary) (x y : ktyp) : res ktyp :=
  match o, x, y with
  | _, TyQuantity a, TyQuantity b => s <- t_binary_quantity est w o a b; Ok (TyQuantity s)
  | BAdd, TyKind a, TyKind b | BSub, TyKind a, TyKind b => s <- t_k_addsub est w a b; Ok (TyKind s)
  | BMul, TyKind a, TyKind b => s <- t_k_times est w g a b; Ok (TyKind s)
  | BDiv, TyKind a, TyKind b => s <- t_k_over est w g a b; Ok (TyKind s)
  | BRem, TyKind a, TyKind b => s <- t_k_rem est a b; Ok (TyKind s)
  | BMul, TyKind a, TyQuantity b => p <- t_times w (kt_qtype a) b; s <- t_k_downcasted est g a p; Ok (TyKind s)
  | BDiv, TyKind a, TyQuantity b => p <- t_over w (kt_qtype a) b; s <- t_k_downcasted est g a p; Ok (TyKind s)
  | BRem, TyKind a, TyQuantity b => s <- t_k_rem_q est a b; Ok (TyKind s)
  | BMul, TyQuantity a, TyKind b => p <- t_times w a (kt_qtype b); s <- t_k_downcasted est g b p; Ok (TyKind s)
  | BDiv, TyQuantity a, TyKind b => p <- t_over w a (kt_qtype b); s <- t_k_downcasted est g b p; Ok (TyKind s)
  | BAdd, TyPoint a, TyKind b | BSub, TyPoint a, TyKind b => s <- t_pk_addsub est w gp (pkt_ktype a) b; Ok (TyPoint s)
  | BAdd, TyKind a, TyPoint b => s <- t_pk_addsub est w gp a (pkt_ktype b); Ok (TyPoint s)
  | BSub, TyPoint a, TyPoint b => s <- t_pk_diff rb est w a b; Ok (TyKind s)
  | _, _, _ => IllFormed
  end.

Definition t_as_quantity (t : ktyp) : res qtype := match t with TyQuantity q => Ok q | _ => IllFormed end.
Definition t_as_kind (t : ktyp) : res ktype := match t with TyKind x => Ok x | _ => IllFormed end.
Definition t_as_point (t : ktyp) : res pktype := match t with TyPoint x => Ok x | _ => IllFormed end.

(** [decltype(e)]. *)
Fixpoint ktype_of (rb : rebinding) (est : estimate) (w : world) (g : kinds) (gp : pkinds) (e : kexpr) : res ktyp :=
  match e with
  | KQuantity q => Ok (TyQuantity (q_type q))
  | KKind x => Ok (TyKind (qk_type x))
  | KPoint x => Ok (TyPoint (qpk_type x))
  | KUnary o a => t <- ktype_of rb est w g gp a; t_kunary est w g o t
  | KBinary o a b => x <- ktype_of rb est w g gp a; y <- ktype_of rb est w g gp b; t_kbinary rb est w g gp o x y
  | KMake t a => v <- ktype_of rb est w g gp a; q <- t_as_quantity v; s <- t_k_construct est t q; Ok (TyKind s)
  | KConvert t a => v <- ktype_of rb est w g gp a; x <- t_as_kind v; s <- t_k_to est t x; Ok (TyKind s)
  | KCommon a => v <- ktype_of rb est w g gp a; x <- t_as_kind v; Ok (TyQuantity (kt_qtype x))
  | KCast c a => v <- ktype_of rb est w g gp a; x <- t_as_kind v; s <- t_kcast est w c x; Ok (TyKind s)
  | KPMake t a => v <- ktype_of rb est w g gp a; x <- t_as_kind v; s <- t_pk_construct est t x; Ok (TyPoint s)
  | KPDeduce a => v <- ktype_of rb est w g gp a; x <- t_as_kind v; s <- t_pk_deduced gp x; Ok (TyPoint s)
  | KPConvert t a => v <- ktype_of rb est w g gp a; x <- t_as_point v; s <- t_pk_to rb est t x; Ok (TyPoint s)
  | KRelative a => v <- ktype_of rb est w g gp a; x <- t_as_point v; Ok (TyKind (pkt_ktype x))
  | KPCast c a => v <- ktype_of rb est w g gp a; x <- t_as_point v; s <- t_pk_cast est w gp c x; Ok (TyPoint s)
  | KPCastTo t a => v <- ktype_of rb est w g gp a; x <- t_as_point v; s <- t_pk_cast_to rb est t x; Ok (TyPoint s)
  end.

(** [a < b], [a == b] and their relatives: what must compile, quantity_kind.h:365-377 and
    quantity_point_kind.h:169-182. *)
Definition t_kcompare (rb : rebinding) (est : estimate) (w : world) (x y : ktyp) : res unit :=
  match x, y with
  | TyQuantity a, TyQuantity b => t_common est w a b
  | TyKind a, TyKind b => _ <- constrained (kind_equivalent (kt_kind b) (kt_kind a)); t_common est w (kt_qtype a) (kt_qtype b)
  | TyPoint a, TyPoint b =>
      _ <- constrained (pkind_equivalent rb (pkt_kind b) (pkt_kind a));
      _ <- constrained (kind_equivalent (pk_base (pkt_kind b)) (pk_base (pkt_kind a)));
      t_common est w (kt_qtype (pkt_ktype a)) (kt_qtype (pkt_ktype b))
  | _, _ => IllFormed
  end.
