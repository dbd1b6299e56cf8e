(** What the compiler computes of an expression of quantities and points before the program
    runs: the type of every subexpression, from the types of the objects in it alone.

    The headers interleave this with the arithmetic; here are the constraints, the ratios, the
    result types of [src/core/include/units/quantity.h], [quantity_point.h] and
    [quantity_cast.h], without the numbers.  An outcome other than [Ok] is a program that does
    not compile (a constant expression that overflows is one). *)

From Coq Require Import ZArith String List Bool.
From Verif Require Import Outcome CInt Root Ratio Unit Downcast Dim DimOp Equivalent Rep Reference QuantityCast CommonQuantity Quantity Point Affine.
Local Open Scope res_scope.

(** The constraint and the [constexpr] ratio of [quantity_cast<To>], quantity_cast.h:114-120. *)
Definition t_cast (est : estimate) (from to : qtype) : res unit :=
  _ <- constrained (dim_equivalent (q_dim to) (q_dim from));
  _ <- cast_ratio est (q_dim from) (q_unit from) (q_dim to) (q_unit to);
  Ok tt.
(** The constraint of the converting constructor, quantity.h:155-156. *)
Definition t_convert (est : estimate) (from to : qtype) : res unit :=
  if qtype_eq_dec from to then Ok tt
  else
    b <- safe_castable_to est from to;
    _ <- constrained b;
    t_cast est from to.
(** Result type of [+] and [-], quantity.h:399-413. *)
Definition t_addsub (est : estimate) (w : world) (a b : qtype) : res qtype :=
  t <- common_quantity est w a b (arith_rep (q_rep a) (q_rep b));
  _ <- t_convert est a t;
  _ <- t_convert est b t;
  Ok t.
(** Result types of [*] and [/], quantity.h:415-428. *)
Definition t_times (w : world) (a b : qtype) : res qtype :=
  r <- reference_multiply w (Reference (q_dim a) (q_unit a)) (Reference (q_dim b) (q_unit b));
  Ok (QType (ref_dim r) (ref_unit r) (arith_rep (q_rep a) (q_rep b))).
Definition t_over (w : world) (a b : qtype) : res qtype :=
  r <- reference_divide w (Reference (q_dim a) (q_unit a)) (Reference (q_dim b) (q_unit b));
  Ok (QType (ref_dim r) (ref_unit r) (arith_rep (q_rep a) (q_rep b))).
(** Result type of [%], quantity.h:369-376, 430-439. *)
Definition t_rem (a b : qtype) : res qtype :=
  _ <- constrained (negb (floating (q_rep a)) && negb (floating (q_rep b)) &&
                    (dim_equivalent (q_dim a) (q_dim b) || dim_equivalent (q_dim b) dim_one));
  Ok (with_rep a (arith_rep (q_rep a) (q_rep b))).
(** [q * v], [v * q], [q / v], quantity.h:319-345. *)
Definition t_scale (a : qtype) (r : rep) : res qtype :=
  _ <- constrained (safe_convertible (q_rep a) (arith_rep (q_rep a) r));
  Ok (with_rep a (arith_rep (q_rep a) r)).
(** [v / q], quantity.h:347-357. *)
Definition t_value_over (w : world) (r : rep) (a : qtype) : res qtype :=
  _ <- constrained (safe_convertible (q_rep a) (arith_rep r (q_rep a)));
  d <- dim_invert w (q_dim a);
  i <- rinv (u_ratio (q_unit a));
  u <- downcast_unit w d i;
  Ok (QType d u (arith_rep r (q_rep a))).
(** [quantity_cast] with each kind of argument, quantity_cast.h:114-219. *)
Definition t_qcast (est : estimate) (w : world) (c : castspec) (a : qtype) : res qtype :=
  to <- match c with
        | ToQuantity t => Ok t
        | ToDim d =>
            _ <- constrained (dim_equivalent d (q_dim a));
            u <- downcast_unit w d (u_ratio (q_unit a));
            mk_qtype d u (q_rep a)
        | ToUnit u => mk_qtype (q_dim a) u (q_rep a)
        | ToRep r => Ok (QType (q_dim a) (q_unit a) r)
        end;
  _ <- t_cast est a to;
  Ok to.

Definition t_unary (est : estimate) (w : world) (o : unary) (a : qtype) : res qtype :=
  match o with
  | UPos | UNeg => Ok (with_rep a (promote_rep (q_rep a)))      (* quantity.h:172-184 *)
  | UMulV r _ | UVMul r _ | UDivV r _ => t_scale a r
  | UVDiv r _ => t_value_over w r a
  | URemV r _ =>                                                (* quantity.h:359-367 *)
      _ <- constrained (negb (floating (q_rep a)) && negb (floating r));
      t_scale a r
  | UConv t => _ <- t_convert est a t; Ok t
  | UCast c => t_qcast est w c a
  end.
Definition t_binary_quantity (est : estimate) (w : world) (o : binary) (a b : qtype) : res qtype :=
  match o with
  | BAdd | BSub => t_addsub est w a b
  | BMul => t_times w a b
  | BDiv => t_over w a b
  | BRem => t_rem a b
  end.

(** Result type of [point + quantity] and [point - quantity], quantity_point.h:154-179. *)
Definition t_point_addsub (rb : rebinding) (est : estimate) (w : world) (p : ptype) (q : qtype) : res ptype :=
  s <- t_addsub est w (p_qtype p) q;
  match rebind rb (p_origin p) (q_dim s) with
  | Some orig => t <- mk_ptype orig (q_unit s) (q_rep s); _ <- t_convert est s (p_qtype t); Ok t
  | None => IllFormed
  end.
(** [point - point], quantity_point.h:181-186. *)
Definition t_point_diff (rb : rebinding) (est : estimate) (w : world) (a b : ptype) : res qtype :=
  _ <- constrained (origin_equivalent rb (p_origin b) (p_origin a));
  t_addsub est w (p_qtype a) (p_qtype b).
(** The converting constructor of points, quantity_point.h:81-83. *)
Definition t_move (rb : rebinding) (est : estimate) (from to : ptype) : res unit :=
  _ <- constrained (origin_equivalent rb (p_origin from) (p_origin to));
  t_convert est (p_qtype from) (p_qtype to).
(** The type of [quantity_point(q)], quantity_point.h:206-207. *)
Definition t_deduced (t : qtype) : ptype := PType (ODynamic (q_dim t)) (q_unit t) (q_rep t).

(** The types of expressions. *)
Inductive atype := TQuantity (t : qtype) | TPoint (t : ptype).

Definition t_binary (rb : rebinding) (est : estimate) (w : world) (o : binary) (x y : atype) : res atype :=
  match o, x, y with
  | _, TQuantity a, TQuantity b => s <- t_binary_quantity est w o a b; Ok (TQuantity s)
  | BAdd, TPoint a, TQuantity b => s <- t_point_addsub rb est w a b; Ok (TPoint s)
  | BAdd, TQuantity a, TPoint b => s <- t_point_addsub rb est w b a; Ok (TPoint s)
  | BSub, TPoint a, TQuantity b => s <- t_point_addsub rb est w a b; Ok (TPoint s)
  | BSub, TPoint a, TPoint b => s <- t_point_diff rb est w a b; Ok (TQuantity s)
  | _, _, _ => IllFormed
  end.
Definition t_want_quantity (v : atype) : res qtype := match v with TQuantity q => Ok q | TPoint _ => IllFormed end.
Definition t_want_point (v : atype) : res ptype := match v with TPoint p => Ok p | TQuantity _ => IllFormed end.
Definition t_on_quantity (x : res atype) (f : qtype -> res atype) : res atype := t <- x; q <- t_want_quantity t; f q.
Definition t_on_point (x : res atype) (f : ptype -> res atype) : res atype := t <- x; p <- t_want_point t; f p.

(** [decltype(e)]. *)
Fixpoint type_of (rb : rebinding) (est : estimate) (w : world) (e : aexpr) : res atype :=
  match e with
  | AQuantity q => Ok (TQuantity (q_type q))
  | APoint p => Ok (TPoint (pt_type p))
  | AUnary o a => t_on_quantity (type_of rb est w a) (fun q => s <- t_unary est w o q; Ok (TQuantity s))
  | ABinary o a b => x <- type_of rb est w a; y <- type_of rb est w b; t_binary rb est w o x y
  | AMove t a => t_on_point (type_of rb est w a) (fun p => _ <- t_move rb est p t; Ok (TPoint t))
  | APointCast c a => t_on_point (type_of rb est w a) (fun p => q <- t_qcast est w c (p_qtype p); Ok (TPoint (t_deduced q)))
  | APointCastTo t a => t_on_point (type_of rb est w a) (fun p =>
      _ <- constrained (origin_equivalent rb (p_origin p) (p_origin t));
      _ <- t_cast est (p_qtype p) (p_qtype t);
      Ok (TPoint (t_deduced (p_qtype t))))
  | ARelative a => t_on_point (type_of rb est w a) (fun p => Ok (TQuantity (p_qtype p)))
  | AMake t a => t_on_quantity (type_of rb est w a) (fun q => _ <- t_convert est q (p_qtype t); Ok (TPoint t))
  end.

(** [a < b], [a == b] and their relatives: what must compile, quantity.h:378-388, 441-455 and
    quantity_point.h:188-200. *)
Definition t_common (est : estimate) (w : world) (a b : qtype) : res unit :=
  if qtype_eq_dec a b then Ok tt
  else
    t <- common_quantity est w a b (common_rep (q_rep a) (q_rep b));
    _ <- t_convert est a t;
    t_convert est b t.
Definition t_compare (rb : rebinding) (est : estimate) (w : world) (x y : atype) : res unit :=
  match x, y with
  | TQuantity a, TQuantity b => t_common est w a b
  | TPoint a, TPoint b =>
      _ <- constrained (origin_equivalent rb (p_origin b) (p_origin a));
      t_common est w (p_qtype a) (p_qtype b)
  | _, _ => IllFormed
  end.
