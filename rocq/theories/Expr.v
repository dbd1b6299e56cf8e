(** Expressions of quantities: how a program composes the operators of
    [src/core/include/units/quantity.h] and the casts of [quantity_cast.h].

    An expression is a tree of the operators modelled in [Quantity.v] and [QuantityCast.v];
    C++ selects the overload of each node from the types of the operands, and so does [eval].
    Adding a plain number (quantity.h:289-317) is a leaf operation of its own, [q_addsub_value],
    and is not part of the trees. *)

From Coq Require Import ZArith String List Bool SpecFloat.
From Verif Require Import Outcome CInt Root Unit Dim DimOp Equivalent Rep Reference QuantityCast CommonQuantity Quantity Point.
Local Open Scope res_scope.

Inductive qexpr :=
| ELit (q : quantity)                              (* an object *)
| EPos (a : qexpr) | ENeg (a : qexpr)              (* quantity.h:172-184 *)
| EAdd (a b : qexpr) | ESub (a b : qexpr)          (* quantity.h:399-413 *)
| EMul (a b : qexpr) | EDiv (a b : qexpr)          (* quantity.h:415-428 *)
| ERem (a b : qexpr)                               (* quantity.h:369-376, 430-439 *)
| EMulV (a : qexpr) (r : rep) (v : number)         (* quantity.h:319-327 *)
| EVMul (r : rep) (v : number) (a : qexpr)         (* quantity.h:329-336 *)
| EDivV (a : qexpr) (r : rep) (v : number)         (* quantity.h:338-345 *)
| EVDiv (r : rep) (v : number) (a : qexpr)         (* quantity.h:347-357 *)
| ERemV (a : qexpr) (r : rep) (v : number)         (* quantity.h:359-367 *)
| EConv (t : qtype) (a : qexpr)                    (* quantity.h:155-156 *)
| ECast (c : castspec) (a : qexpr).                (* quantity_cast.h:114-219 *)

(** The value of the expression; an operand that does not compile or is undefined makes the
    whole expression so. *)
Fixpoint eval (est : estimate) (w : world) (e : qexpr) : res quantity :=
  match e with
  | ELit q => Ok q
  | EPos a => x <- eval est w a; q_plus x
  | ENeg a => x <- eval est w a; q_neg x
  | EAdd a b => x <- eval est w a; y <- eval est w b; q_add est w x y
  | ESub a b => x <- eval est w a; y <- eval est w b; q_sub est w x y
  | EMul a b => x <- eval est w a; y <- eval est w b; q_times w x y
  | EDiv a b => x <- eval est w a; y <- eval est w b; q_over w x y
  | ERem a b => x <- eval est w a; y <- eval est w b; q_rem x y
  | EMulV a r v => x <- eval est w a; q_mul_value x r v
  | EVMul r v a => x <- eval est w a; value_mul_q x r v
  | EDivV a r v => x <- eval est w a; q_div_value x r v
  | EVDiv r v a => x <- eval est w a; value_div_q w r v x
  | ERemV a r v => x <- eval est w a; q_rem_value x r v
  | EConv t a => x <- eval est w a; q_to est t x
  | ECast c a => x <- eval est w a; q_cast est w c x
  end.
