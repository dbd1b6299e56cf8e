(** Specification vocabulary for quantity points and kinds. *)

From Coq Require Import ZArith QArith String List.
From Verif Require Import Outcome CInt Root Ratio Unit Downcast Dim DimOp Equivalent Rep QuantityCast CommonQuantity Quantity
  SpecUnit SpecQuantity Point Kind PointKind.
Local Open Scope Z_scope.

(** The member template [rebind] of [o], applied to the dimension of [t], is [t]. *)
Definition names (rb : rebinding) (o t : origin) : Prop :=
  match o with
  | ODynamic _ => t = ODynamic (o_dim t)
  | OUser n d => rb n d (o_dim t) = Some t
  end.

(** Two origins stand for the same point: one type, or types of different but equivalent
    dimensions that name each other. *)
Definition one_origin (rb : rebinding) (a b : origin) : Prop :=
  a = b \/
  (o_dim a <> o_dim b /\ dim_equivalent (o_dim a) (o_dim b) = true /\ names rb a b /\ names rb b a).

(** Origins written the usual way: a plain struct has no [rebind]; a class template over the
    dimension rebinds to itself. *)
Definition usual (rb : rebinding) : Prop :=
  forall n, (forall d e, rb n d e = None) \/ (forall d e, rb n d e = Some (OUser n e)).

(** A point of signed 64-bit representation at the distance [x] from its origin. *)
Definition located (est : estimate) (p : point) (x : Q) : Prop := valued est (relative p) x.

(** Two kinds of one base kind and equivalent dimensions. *)
Definition one_kind_of (a b : kind) : Prop :=
  k_base a = k_base b /\ dim_equivalent (k_dim a) (k_dim b) = true.

(** A point of a kind, of signed 64-bit representation, at the distance [x] from its origin. *)
Definition pk_located (est : estimate) (p : qpkind) (x : Q) : Prop := valued est (common (pk_relative p)) x.

(** The member operator of the underlying quantity. *)
Definition kq_action (a : kaction) : action :=
  match a with
  | KInc => AInc | KDec => ADec
  | KAdd y => AAdd (common y) | KSub y => ASub (common y) | KRem y => ARem (common y)
  | KMulV r v => AMulV r v | KDivV r v => ADivV r v | KRemV r v => ARemV r v
  | KMulK y => AMulV (kt_rep (qk_type y)) (qk_num y)
  | KDivK y => ADivV (kt_rep (qk_type y)) (qk_num y)
  | KRemOne y => ARemV (kt_rep (qk_type y)) (qk_num y)
  end.

(** The same for a point and for a point of a kind. *)
Definition pq_action (a : paction) : action :=
  match a with PInc => AInc | PDec => ADec | PAdd q => AAdd q | PSub q => ASub q end.
Definition pkk_action (a : pkaction) : kaction :=
  match a with PKInc => KInc | PKDec => KDec | PKAdd x => KAdd x | PKSub x => KSub x end.

(** What may stand on the right of a member operator of a kind: an object of one kind with the
    left operand for [+=], [-=] and [%=]; for [*=], [/=] and the other [%=] an object of the
    same base kind, of dimension one and unit one. *)
Definition operand_ok (x : qkind) (a : kaction) : Prop :=
  match a with
  | KAdd y | KSub y | KRem y => one_kind_of (qk_kind x) (qk_kind y)
  | KMulK y | KDivK y | KRemOne y =>
      k_base (qk_kind y) = k_base (qk_kind x) /\ k_dim (qk_kind y) = dim_one /\ kt_unit (qk_type y) = unit_one
  | _ => True
  end.

(** The declarations of a program. *)
Inductive kinds_declared : kinds -> Prop :=
| kinds_none : kinds_declared empty_registry
| kinds_base : forall mode n d g g', kinds_declared g -> declare_kind mode n d g = Ok g' -> kinds_declared g'
| kinds_derived : forall mode n d bk g g', kinds_declared g -> declare_derived_kind mode n d bk g = Ok g' -> kinds_declared g'.
Inductive pkinds_declared : pkinds -> Prop :=
| pkinds_none : pkinds_declared empty_registry
| pkinds_one : forall mode n k o g g', pkinds_declared g -> declare_point_kind mode n k o g = Ok g' -> pkinds_declared g'.
