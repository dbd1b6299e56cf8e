(** Expressions of quantities and points: how a program composes the operators of
    [src/core/include/units/quantity.h] and [quantity_point.h] and the casts of
    [quantity_cast.h].

    An expression is a tree; C++ selects the overload of each node from the types of the
    operands, and so does [aeval].  Where the headers declare no overload for the sorts of the
    operands (a point and a point added, a point scaled, negated or subtracted from a quantity)
    the expression does not compile.  Adding a plain number (quantity.h:289-317) and the
    operators that change an object are not part of the trees. *)

From Coq Require Import ZArith String List Bool.
From Verif Require Import Outcome CInt Root Unit Dim DimOp Equivalent Rep Reference QuantityCast CommonQuantity Quantity Point.
Local Open Scope res_scope.

(** The operators with one operand. *)
Inductive unary :=
| UPos | UNeg                                      (* quantity.h:172-184 *)
| UMulV (r : rep) (v : number)                     (* q * v, quantity.h:319-327 *)
| UVMul (r : rep) (v : number)                     (* v * q, quantity.h:329-336 *)
| UDivV (r : rep) (v : number)                     (* q / v, quantity.h:338-345 *)
| UVDiv (r : rep) (v : number)                     (* v / q, quantity.h:347-357 *)
| URemV (r : rep) (v : number)                     (* q % v, quantity.h:359-367 *)
| UConv (t : qtype)                                (* quantity.h:155-156 *)
| UCast (c : castspec).                            (* quantity_cast.h:114-219 *)
(** The operators with two operands. *)
Inductive binary := BAdd | BSub | BMul | BDiv | BRem.

Inductive aexpr :=
| AQuantity (q : quantity) | APoint (p : point)    (* objects *)
| AUnary (o : unary) (a : aexpr)
| ABinary (o : binary) (a b : aexpr)
| AMove (t : ptype) (a : aexpr)                    (* to another type of points, quantity_point.h:81-83 *)
| APointCast (c : castspec) (a : aexpr)            (* quantity_cast.h:237-248 *)
| APointCastTo (t : ptype) (a : aexpr)             (* quantity_cast.h:237-248 *)
| ARelative (a : aexpr)                            (* quantity_point.h:94-97 *)
| AMake (t : ptype) (a : aexpr).                   (* a point from a quantity, quantity_point.h:77-79 *)

(** What an expression can be. *)
Inductive avalue := VQuantity (q : quantity) | VPoint (p : point).

Definition unary_quantity (est : estimate) (w : world) (o : unary) (x : quantity) : res quantity :=
  match o with
  | UPos => q_plus x
  | UNeg => q_neg x
  | UMulV r v => q_mul_value x r v
  | UVMul r v => value_mul_q x r v
  | UDivV r v => q_div_value x r v
  | UVDiv r v => value_div_q w r v x
  | URemV r v => q_rem_value x r v
  | UConv t => q_to est t x
  | UCast c => q_cast est w c x
  end.
(** quantity.h:399-439. *)
Definition binary_quantity (est : estimate) (w : world) (o : binary) (x y : quantity) : res quantity :=
  match o with
  | BAdd => q_add est w x y
  | BSub => q_sub est w x y
  | BMul => q_times w x y
  | BDiv => q_over w x y
  | BRem => q_rem x y
  end.
(** The overloads of the binary operators: quantity.h:399-439 for two quantities,
    quantity_point.h:154-186 where a point takes part. *)
Definition binary_value (rb : rebinding) (est : estimate) (w : world) (o : binary) (x y : avalue) : res avalue :=
  match o, x, y with
  | _, VQuantity a, VQuantity b => s <- binary_quantity est w o a b; Ok (VQuantity s)
  | BAdd, VPoint a, VQuantity b => s <- p_add rb est w a b; Ok (VPoint s)
  | BAdd, VQuantity a, VPoint b => s <- q_plus_point rb est w a b; Ok (VPoint s)
  | BSub, VPoint a, VQuantity b => s <- p_sub rb est w a b; Ok (VPoint s)
  | BSub, VPoint a, VPoint b => s <- p_diff rb est w a b; Ok (VQuantity s)
  | _, _, _ => IllFormed
  end.

Definition want_quantity (v : avalue) : res quantity := match v with VQuantity q => Ok q | VPoint _ => IllFormed end.
Definition want_point (v : avalue) : res point := match v with VPoint p => Ok p | VQuantity _ => IllFormed end.

(** The value of the expression; an operand that does not compile or is undefined makes the
    whole expression so. *)
Fixpoint aeval (rb : rebinding) (est : estimate) (w : world) (e : aexpr) : res avalue :=
  match e with
  | AQuantity q => Ok (VQuantity q)
  | APoint p => Ok (VPoint p)
  | AUnary o a => x <- aeval rb est w a; q <- want_quantity x; s <- unary_quantity est w o q; Ok (VQuantity s)
  | ABinary o a b => x <- aeval rb est w a; y <- aeval rb est w b; binary_value rb est w o x y
  | AMove t a => x <- aeval rb est w a; p <- want_point x; s <- p_to rb est t p; Ok (VPoint s)
  | APointCast c a => x <- aeval rb est w a; p <- want_point x; s <- point_cast est w c p; Ok (VPoint s)
  | APointCastTo t a => x <- aeval rb est w a; p <- want_point x; s <- point_cast_to rb est t p; Ok (VPoint s)
  | ARelative a => x <- aeval rb est w a; p <- want_point x; Ok (VQuantity (relative p))
  | AMake t a => x <- aeval rb est w a; q <- want_quantity x; s <- p_make est t q; Ok (VPoint s)
  end.
