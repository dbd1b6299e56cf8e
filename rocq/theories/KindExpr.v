(** Expressions of quantities, quantity kinds and quantity point kinds: how a program composes
    the operators of [src/core/include/units/quantity.h], [quantity_kind.h] and
    [quantity_point_kind.h] and the casts of [quantity_cast.h].

    As in Affine.v, an expression is a tree and [keval] selects the overload of each node from
    the sorts of the operands; where the headers declare no overload (a kind and a quantity
    added, a point kind scaled) the expression does not compile.  Quantity points, the operators
    that change an object and the operators with a plain number that needs unit one are not part
    of the trees. *)

From Coq Require Import ZArith String List Bool.
From Verif Require Import Outcome CInt Root Unit Downcast Dim DimOp Equivalent Rep Reference QuantityCast CommonQuantity Quantity Point Kind PointKind
  Affine.
Local Open Scope res_scope.

Inductive kexpr :=
| KQuantity (q : quantity) | KKind (x : qkind) | KPoint (x : qpkind)      (* objects *)
| KUnary (o : unary) (a : kexpr)
| KBinary (o : binary) (a b : kexpr)
| KMake (t : ktype) (a : kexpr)                    (* a kind from a quantity, quantity_kind.h:96-102 *)
| KConvert (t : ktype) (a : kexpr)                 (* to another type of kinds, quantity_kind.h:104-106 *)
| KCommon (a : kexpr)                              (* quantity_kind.h:111-114 *)
| KCast (c : kcastspec) (a : kexpr)                (* quantity_cast.h:290-306 *)
| KPMake (t : pktype) (a : kexpr)                  (* a point kind from a kind, quantity_point_kind.h:64-66 *)
| KPDeduce (a : kexpr)                             (* quantity_point_kind(qk), quantity_point_kind.h:186-188 *)
| KPConvert (t : pktype) (a : kexpr)               (* to another type of point kinds, quantity_point_kind.h:75-77 *)
| KRelative (a : kexpr)                            (* quantity_point_kind.h:82-85 *)
| KPCast (c : kcastspec) (a : kexpr)               (* quantity_cast.h:348-364, to anything that works for quantity_kind_cast *)
| KPCastTo (t : pktype) (a : kexpr).               (* quantity_cast.h:348-364, to a full type *)

(** What an expression can be. *)
Inductive kvalue := WQuantity (q : quantity) | WKind (x : qkind) | WPoint (x : qpkind).

(** The operators with one operand, quantity_kind.h:140-150, 244-280; a kind is no quantity, so
    the converting constructor and the cast of quantities do not accept it. *)
Definition unary_kind (est : estimate) (w : world) (g : kinds) (o : unary) (x : qkind) : res qkind :=
  match o with
  | UPos => k_plus x
  | UNeg => k_neg est x
  | UMulV r v => k_mul_value est x r v
  | UVMul r v => value_mul_k est x r v
  | UDivV r v => k_div_value est x r v
  | UVDiv r v => value_div_k est w g r v x
  | URemV r v => k_rem_value est x r v
  | UConv _ | UCast _ => IllFormed
  end.
Definition kunary (est : estimate) (w : world) (g : kinds) (o : unary) (v : kvalue) : res kvalue :=
  match v with
  | WQuantity q => s <- unary_quantity est w o q; Ok (WQuantity s)
  | WKind x => s <- unary_kind est w g o x; Ok (WKind s)
  | WPoint _ => IllFormed
  end.
(** The operators with two operands: quantity.h:399-439 for two quantities, quantity_kind.h:291-363
    where a kind and quantity_point_kind.h:142-167 where a point kind takes part. *)
Definition kbinary (rb : rebinding) (est : estimate) (w : world) (g : kinds) (gp : pkinds) (o : binary) (x y : kvalue) : res kvalue :=
  match o, x, y with
  | _, WQuantity a, WQuantity b => s <- binary_quantity est w o a b; Ok (WQuantity s)
  | BAdd, WKind a, WKind b => s <- k_add est w a b; Ok (WKind s)
  | BSub, WKind a, WKind b => s <- k_sub est w a b; Ok (WKind s)
  | BMul, WKind a, WKind b => s <- k_times_k est w g a b; Ok (WKind s)
  | BDiv, WKind a, WKind b => s <- k_over_k est w g a b; Ok (WKind s)
  | BRem, WKind a, WKind b => s <- k_rem est a b; Ok (WKind s)
  | BMul, WKind a, WQuantity b => s <- k_times_q est w g a b; Ok (WKind s)
  | BDiv, WKind a, WQuantity b => s <- k_over_q est w g a b; Ok (WKind s)
  | BRem, WKind a, WQuantity b => s <- k_rem_q est a b; Ok (WKind s)
  | BMul, WQuantity a, WKind b => s <- q_times_k est w g a b; Ok (WKind s)
  | BDiv, WQuantity a, WKind b => s <- q_over_k est w g a b; Ok (WKind s)
  | BAdd, WPoint a, WKind b => s <- pk_add est w gp a b; Ok (WPoint s)
  | BSub, WPoint a, WKind b => s <- pk_sub est w gp a b; Ok (WPoint s)
  | BAdd, WKind a, WPoint b => s <- k_plus_pk est w gp a b; Ok (WPoint s)
  | BSub, WPoint a, WPoint b => s <- pk_diff rb est w a b; Ok (WKind s)
  | _, _, _ => IllFormed
  end.

Definition as_quantity (v : kvalue) : res quantity := match v with WQuantity q => Ok q | _ => IllFormed end.
Definition as_kind (v : kvalue) : res qkind := match v with WKind x => Ok x | _ => IllFormed end.
Definition as_point (v : kvalue) : res qpkind := match v with WPoint x => Ok x | _ => IllFormed end.

Fixpoint keval (rb : rebinding) (est : estimate) (w : world) (g : kinds) (gp : pkinds) (e : kexpr) : res kvalue :=
  match e with
  | KQuantity q => Ok (WQuantity q)
  | KKind x => Ok (WKind x)
  | KPoint x => Ok (WPoint x)
  | KUnary o a => v <- keval rb est w g gp a; kunary est w g o v
  | KBinary o a b => x <- keval rb est w g gp a; y <- keval rb est w g gp b; kbinary rb est w g gp o x y
  | KMake t a => v <- keval rb est w g gp a; q <- as_quantity v; s <- k_construct est t q; Ok (WKind s)
  | KConvert t a => v <- keval rb est w g gp a; x <- as_kind v; s <- k_to est t x; Ok (WKind s)
  | KCommon a => v <- keval rb est w g gp a; x <- as_kind v; Ok (WQuantity (common x))
  | KCast c a => v <- keval rb est w g gp a; x <- as_kind v; s <- kind_cast est w c x; Ok (WKind s)
  | KPMake t a => v <- keval rb est w g gp a; x <- as_kind v; s <- pk_construct est t x; Ok (WPoint s)
  | KPDeduce a => v <- keval rb est w g gp a; x <- as_kind v; s <- pk_deduced gp x; Ok (WPoint s)
  | KPConvert t a => v <- keval rb est w g gp a; x <- as_point v; s <- pk_to rb est t x; Ok (WPoint s)
  | KRelative a => v <- keval rb est w g gp a; x <- as_point v; Ok (WKind (pk_relative x))
  | KPCast c a => v <- keval rb est w g gp a; x <- as_point v; s <- pk_cast est w gp c x; Ok (WPoint s)
  | KPCastTo t a => v <- keval rb est w g gp a; x <- as_point v; s <- pk_cast_to rb est t x; Ok (WPoint s)
  end.

(** [a <=> b] and [a == b] by the sorts of the operands: quantity.h:378-388, 441-455,
    quantity_kind.h:365-377 and quantity_point_kind.h:169-182. *)
Definition w_compare (rb : rebinding) (est : estimate) (w : world) (x y : kvalue) : res (option comparison) :=
  match x, y with
  | WQuantity a, WQuantity b => q_compare est w a b
  | WKind a, WKind b => k_compare est w a b
  | WPoint a, WPoint b => pk_compare rb est w a b
  | _, _ => IllFormed
  end.
Definition w_eqb (rb : rebinding) (est : estimate) (w : world) (x y : kvalue) : res bool :=
  match x, y with
  | WQuantity a, WQuantity b => q_eqb est w a b
  | WKind a, WKind b => k_eqb est w a b
  | WPoint a, WPoint b => pk_eqb rb est w a b
  | _, _ => IllFormed
  end.
