(** Specification for C93: the plain quantities behind wrapped ones. *)

From Coq Require Import ZArith List Bool.
From Verif Require Import Outcome CInt Root Ratio SpecRatio Unit Dim DimOp Rep SpecUnit QuantityCast Quantity Point Expr Wrapper.
Local Open Scope Z_scope.

(** The same object without the wrapper. *)
Definition unwrap (q : wquantity) : quantity := Quantity (number_type (wq_type q)) (wq_num q).
Definition unwrapped (r : res wquantity) : res quantity := bind r (fun q => Ok (unwrap q)).
Definition unwrap_cast (c : wcast) : castspec :=
  match c with
  | WToQuantity t => ToQuantity (number_type t)
  | WToDim d => ToDim d
  | WToUnit u => ToUnit u
  | WToRep r => ToRep (value_type r)
  end.
Definition unwrap_action (a : waction) : action :=
  match a with
  | WInc => AInc | WDec => ADec
  | WAddTo q => AAdd (unwrap q) | WSubFrom q => ASub (unwrap q) | WRemBy q => ARem (unwrap q)
  | WMulBy v => AMulV (value_type (wv_rep v)) (wv_num v)
  | WDivBy v => ADivV (value_type (wv_rep v)) (wv_num v)
  | WRemByValue v => ARemV (value_type (wv_rep v)) (wv_num v)
  end.

(** The same expression of plain numbers. *)
Fixpoint unwrap_expr (e : wexpr) : qexpr :=
  match e with
  | WLit q => ELit (unwrap q)
  | WPos a => EPos (unwrap_expr a)
  | WNeg a => ENeg (unwrap_expr a)
  | WAdd a b => EAdd (unwrap_expr a) (unwrap_expr b)
  | WSub a b => ESub (unwrap_expr a) (unwrap_expr b)
  | WMul a b => EMul (unwrap_expr a) (unwrap_expr b)
  | WDiv a b => EDiv (unwrap_expr a) (unwrap_expr b)
  | WRem a b => ERem (unwrap_expr a) (unwrap_expr b)
  | WMulV a v => EMulV (unwrap_expr a) (value_type (wv_rep v)) (wv_num v)
  | WVMul v a => EVMul (value_type (wv_rep v)) (wv_num v) (unwrap_expr a)
  | WDivV a v => EDivV (unwrap_expr a) (value_type (wv_rep v)) (wv_num v)
  | WVDiv v a => EVDiv (value_type (wv_rep v)) (wv_num v) (unwrap_expr a)
  | WRemV a v => ERemV (unwrap_expr a) (value_type (wv_rep v)) (wv_num v)
  | WConv t a => EConv (number_type t) (unwrap_expr a)
  | WCast c a => ECast (unwrap_cast c) (unwrap_expr a)
  end.

Definition is_wrapped (t : wtype) : Prop := match wt_rep t with Wrapped _ => True | Bare _ => False end.

(** A type there is (the unit is one of the dimension), of which the compiler can compute the
    size. *)
Definition invertible (r : ratio) : Prop := ratio_good r /\ rexp r <> INTMAX_MIN.
Definition has_size (est : estimate) (t : qtype) : Prop :=
  unit_of (q_unit t) (q_dim t) = true /\ invertible (u_ratio (q_unit t)) /\
  exists s, quantity_ratio est (q_dim t) (q_unit t) = Ok s /\ invertible s.

(** The wrapped objects of an expression have types with a size and numbers of their types. *)
Fixpoint wrapped_sized (est : estimate) (w : world) (e : wexpr) : Prop :=
  match e with
  | WLit q => num_ok (value_type (wt_rep (wq_type q))) (wq_num q) = true /\
              (is_wrapped (wq_type q) -> has_size est (number_type (wq_type q)))
  | WPos a | WNeg a | WMulV a _ | WVMul _ a | WDivV a _ | WVDiv _ a | WRemV a _ => wrapped_sized est w a
  | WAdd a b | WSub a b | WMul a b | WDiv a b | WRem a b => wrapped_sized est w a /\ wrapped_sized est w b
  | WConv t a => wrapped_sized est w a /\ (is_wrapped t -> has_size est (number_type t))
  | WCast c a => wrapped_sized est w a /\
      (forall q, weval est w (WCast c a) = Ok q -> is_wrapped (wq_type q) -> has_size est (number_type (wq_type q)))
  end.

(** The expression ends in an operator, so that its result is a plain number. *)
Definition ends_in_operator (e : wexpr) : Prop :=
  match e with WLit _ | WConv _ _ | WCast _ _ => False | _ => True end.
