(** Programs with variables of quantity and point types: assignments, the operators that change
    an object, conditions and loops, on top of the expressions of [Affine].

    The language stands for the C++ around the library: a variable has the type it was
    declared with; [x = e] converts implicitly to it.  The calls into the library are those of
    [src/core/include/units/quantity.h:155-285, 378-388, 441-455] and
    [quantity_point.h:81-83, 111-149, 188-200]. *)

From Coq Require Import ZArith String List Bool.
From Verif Require Import Outcome CInt Root Ratio Unit Downcast Dim DimOp Equivalent Rep Reference QuantityCast CommonQuantity Quantity Point Affine Static.
Import ListNotations.
Local Open Scope res_scope.

(** Expressions with variables. *)
Inductive pexpr :=
| EVar (x : nat)
| EConst (v : avalue)
| EUnary (o : unary) (a : pexpr)
| EBinary (o : binary) (a b : pexpr)
| EMove (t : ptype) (a : pexpr)
| EPointCast (c : castspec) (a : pexpr)
| EPointCastTo (t : ptype) (a : pexpr)
| ERelative (a : pexpr)
| EMake (t : ptype) (a : pexpr).

(** [a < b], [a <= b], [a > b], [a >= b], [a == b], [a != b]. *)
Inductive relop := RLt | RLe | RGt | RGe | REq | RNe.
Inductive pcond := CRel (o : relop) (a b : pexpr) | CNot (c : pcond) | CAnd (c d : pcond) | COr (c d : pcond).

(** What changes a variable besides assignment: [++x], [--x], [x += e], [x -= e], [x %= e]
    and [x *= v], [x /= v], [x %= v], quantity.h:186-285, quantity_point.h:111-149. *)
Inductive change :=
| HInc | HDec
| HAdd (e : pexpr) | HSub (e : pexpr) | HRem (e : pexpr)
| HMulV (r : rep) (v : number) | HDivV (r : rep) (v : number) | HRemV (r : rep) (v : number).

Inductive pstmt :=
| SSkip
| SSeq (a b : pstmt)
| SAssign (x : nat) (e : pexpr)
| SChange (x : nat) (h : change)
| SIf (c : pcond) (a b : pstmt)
| SWhile (c : pcond) (a : pstmt).

(** ** Running *)

Definition store := list avalue.

(** The expression with the values of the variables in place. *)
Definition object (v : avalue) : aexpr := match v with VQuantity q => AQuantity q | VPoint p => APoint p end.
Fixpoint close (m : store) (e : pexpr) : option aexpr :=
  match e with
  | EVar x => option_map object (nth_error m x)
  | EConst v => Some (object v)
  | EUnary o a => option_map (AUnary o) (close m a)
  | EBinary o a b => match close m a, close m b with Some a, Some b => Some (ABinary o a b) | _, _ => None end
  | EMove t a => option_map (AMove t) (close m a)
  | EPointCast c a => option_map (APointCast c) (close m a)
  | EPointCastTo t a => option_map (APointCastTo t) (close m a)
  | ERelative a => option_map ARelative (close m a)
  | EMake t a => option_map (AMake t) (close m a)
  end.
Definition peval (rb : rebinding) (est : estimate) (w : world) (m : store) (e : pexpr) : res avalue :=
  match close m e with Some a => aeval rb est w a | None => IllFormed end.

(** [a <=> b] and [a == b] by the sorts of the operands. *)
Definition v_compare (rb : rebinding) (est : estimate) (w : world) (x y : avalue) : res (option comparison) :=
  match x, y with
  | VQuantity a, VQuantity b => q_compare est w a b
  | VPoint a, VPoint b => p_compare rb est w a b
  | _, _ => IllFormed
  end.
Definition v_eqb (rb : rebinding) (est : estimate) (w : world) (x y : avalue) : res bool :=
  match x, y with
  | VQuantity a, VQuantity b => q_eqb est w a b
  | VPoint a, VPoint b => p_eqb rb est w a b
  | _, _ => IllFormed
  end.
(** The rewritten candidates of C++20: [a < b] is [(a <=> b) < 0], [a != b] is [!(a == b)]. *)
Definition relation (rb : rebinding) (est : estimate) (w : world) (o : relop) (x y : avalue) : res bool :=
  match o with
  | RLt => c <- v_compare rb est w x y; Ok (match c with Some Lt => true | _ => false end)
  | RLe => c <- v_compare rb est w x y; Ok (match c with Some Lt | Some Eq => true | _ => false end)
  | RGt => c <- v_compare rb est w x y; Ok (match c with Some Gt => true | _ => false end)
  | RGe => c <- v_compare rb est w x y; Ok (match c with Some Gt | Some Eq => true | _ => false end)
  | REq => v_eqb rb est w x y
  | RNe => b <- v_eqb rb est w x y; Ok (negb b)
  end.
Fixpoint holds (rb : rebinding) (est : estimate) (w : world) (m : store) (c : pcond) : res bool :=
  match c with
  | CRel o a b => x <- peval rb est w m a; y <- peval rb est w m b; relation rb est w o x y
  | CNot c => b <- holds rb est w m c; Ok (negb b)
  | CAnd c d => b <- holds rb est w m c; if b then holds rb est w m d else Ok false
  | COr c d => b <- holds rb est w m c; if b then Ok true else holds rb est w m d
  end.

Definition lookup (m : store) (x : nat) : res avalue := match nth_error m x with Some v => Ok v | None => IllFormed end.
Fixpoint update (m : store) (x : nat) (v : avalue) : store :=
  match m, x with
  | [], _ => []
  | _ :: r, O => v :: r
  | a :: r, S n => a :: update r n v
  end.

(** [x = e] for [x] holding [old]: the converting constructors quantity.h:155-156 and
    quantity_point.h:81-83; a quantity does not convert implicitly to a point
    (quantity_point.h:77-79 is explicit). *)
Definition assigned (rb : rebinding) (est : estimate) (old new : avalue) : res avalue :=
  match old, new with
  | VQuantity a, VQuantity b => q <- q_to est (q_type a) b; Ok (VQuantity q)
  | VPoint a, VPoint b => p <- p_to rb est (pt_type a) b; Ok (VPoint p)
  | _, _ => IllFormed
  end.
(** The operator on the object, its operand evaluated. *)
Definition action_of (rb : rebinding) (est : estimate) (w : world) (m : store) (h : change) : res action :=
  match h with
  | HInc => Ok AInc
  | HDec => Ok ADec
  | HAdd e => x <- peval rb est w m e; q <- want_quantity x; Ok (AAdd q)
  | HSub e => x <- peval rb est w m e; q <- want_quantity x; Ok (ASub q)
  | HRem e => x <- peval rb est w m e; q <- want_quantity x; Ok (ARem q)
  | HMulV r v => Ok (AMulV r v)
  | HDivV r v => Ok (ADivV r v)
  | HRemV r v => Ok (ARemV r v)
  end.
(** Points have only [++], [--], [+=] and [-=]. *)
Definition point_action (a : action) : res paction :=
  match a with AInc => Ok PInc | ADec => Ok PDec | AAdd q => Ok (PAdd q) | ASub q => Ok (PSub q) | _ => IllFormed end.
Definition changed (est : estimate) (old : avalue) (a : action) : res avalue :=
  match old with
  | VQuantity q => s <- q_act est q a; Ok (VQuantity s)
  | VPoint p => pa <- point_action a; s <- p_act est p pa; Ok (VPoint s)
  end.

(** The program from the store [m]; [Stuck] when it takes more than [fuel] steps. *)
Fixpoint run (rb : rebinding) (est : estimate) (w : world) (fuel : nat) (s : pstmt) (m : store) {struct fuel} : res store :=
  match fuel with
  | O => Stuck
  | S n =>
      match s with
      | SSkip => Ok m
      | SSeq a b => m' <- run rb est w n a m; run rb est w n b m'
      | SAssign x e => old <- lookup m x; v <- peval rb est w m e; v <- assigned rb est old v; Ok (update m x v)
      | SChange x h => old <- lookup m x; a <- action_of rb est w m h; v <- changed est old a; Ok (update m x v)
      | SIf c a b => t <- holds rb est w m c; if t then run rb est w n a m else run rb est w n b m
      | SWhile c a => t <- holds rb est w m c; if t then m' <- run rb est w n a m; run rb est w n (SWhile c a) m' else Ok m
      end
  end.

(** ** Compiling *)

Definition declared := list atype.

(** [decltype] of an expression with variables. *)
Fixpoint ptype_of (rb : rebinding) (est : estimate) (w : world) (g : declared) (e : pexpr) : res atype :=
  match e with
  | EVar x => match nth_error g x with Some t => Ok t | None => IllFormed end
  | EConst (VQuantity q) => Ok (TQuantity (q_type q))
  | EConst (VPoint p) => Ok (TPoint (pt_type p))
  | EUnary o a => t_on_quantity (ptype_of rb est w g a) (fun q => s <- t_unary est w o q; Ok (TQuantity s))
  | EBinary o a b => x <- ptype_of rb est w g a; y <- ptype_of rb est w g b; t_binary rb est w o x y
  | EMove t a => t_on_point (ptype_of rb est w g a) (fun p => _ <- t_move rb est p t; Ok (TPoint t))
  | EPointCast c a => t_on_point (ptype_of rb est w g a) (fun p => q <- t_qcast est w c (p_qtype p); Ok (TPoint (t_deduced q)))
  | EPointCastTo t a => t_on_point (ptype_of rb est w g a) (fun p =>
      _ <- constrained (origin_equivalent rb (p_origin p) (p_origin t));
      _ <- t_cast est (p_qtype p) (p_qtype t);
      Ok (TPoint (t_deduced (p_qtype t))))
  | ERelative a => t_on_point (ptype_of rb est w g a) (fun p => Ok (TQuantity (p_qtype p)))
  | EMake t a => t_on_quantity (ptype_of rb est w g a) (fun q => _ <- t_convert est q (p_qtype t); Ok (TPoint t))
  end.
Fixpoint compiles_cond (rb : rebinding) (est : estimate) (w : world) (g : declared) (c : pcond) : res unit :=
  match c with
  | CRel _ a b => x <- ptype_of rb est w g a; y <- ptype_of rb est w g b; t_compare rb est w x y
  | CNot c => compiles_cond rb est w g c
  | CAnd c d | COr c d => _ <- compiles_cond rb est w g c; compiles_cond rb est w g d
  end.
Definition declared_type (g : declared) (x : nat) : res atype := match nth_error g x with Some t => Ok t | None => IllFormed end.
Definition t_assigned (rb : rebinding) (est : estimate) (old new : atype) : res unit :=
  match old, new with
  | TQuantity a, TQuantity b => t_convert est b a
  | TPoint a, TPoint b => t_move rb est b a
  | _, _ => IllFormed
  end.
(** The constraints of quantity.h:186-285 and quantity_point.h:111-149. *)
Definition t_changed (rb : rebinding) (est : estimate) (w : world) (g : declared) (t : atype) (h : change) : res unit :=
  match t with
  | TQuantity q =>
      match h with
      | HInc | HDec | HMulV _ _ | HDivV _ _ => Ok tt
      | HAdd e | HSub e => x <- ptype_of rb est w g e; o <- t_want_quantity x; t_convert est o q
      | HRem e => x <- ptype_of rb est w g e; o <- t_want_quantity x; _ <- constrained (negb (floating (q_rep q))); t_convert est o q
      | HRemV r _ => constrained (negb (floating (q_rep q)) && negb (floating r))
      end
  | TPoint p =>
      match h with
      | HInc | HDec => Ok tt
      | HAdd e | HSub e => x <- ptype_of rb est w g e; o <- t_want_quantity x; t_convert est o (p_qtype p)
      | _ => IllFormed
      end
  end.
(** The whole program compiles, also the branches that are not taken. *)
Fixpoint compiles (rb : rebinding) (est : estimate) (w : world) (g : declared) (s : pstmt) : res unit :=
  match s with
  | SSkip => Ok tt
  | SSeq a b => _ <- compiles rb est w g a; compiles rb est w g b
  | SAssign x e => old <- declared_type g x; new <- ptype_of rb est w g e; t_assigned rb est old new
  | SChange x h => old <- declared_type g x; t_changed rb est w g old h
  | SIf c a b => _ <- compiles_cond rb est w g c; _ <- compiles rb est w g a; compiles rb est w g b
  | SWhile c a => _ <- compiles_cond rb est w g c; compiles rb est w g a
  end.
