(** Specification vocabulary for what is left of units when a program runs: a language of plain
    numbers, without units, dimensions, origins or types of quantities.

    An expression of it is what a compiler makes of an expression of built-in C++ arithmetic:
    the implicit conversions are written out ([NCast]), every operator works on operands of one
    type. *)

From Coq Require Import ZArith List Bool Arith.
From Verif Require Import Outcome CInt Root Ratio Unit Downcast Dim DimOp Equivalent Rep Reference QuantityCast CommonQuantity Quantity Point Affine Static Program.
Import ListNotations.
Local Open Scope res_scope.

Inductive nexpr :=
| NVar (x : nat)
| NLit (v : number)
| NUndef                                              (* an operation that is undefined, as [1 / 0] *)
| NCast (from to : rep) (a : nexpr)                   (* [static_cast<to>(a)], [a] of type [from] *)
| NNegate (r : rep) (a : nexpr)
| NOp (o : arith_op) (r : rep) (a b : nexpr).         (* both operands of type [r] *)
Inductive ncond := NRel (o : relop) (a b : nexpr) | NNot (c : ncond) | NAnd (c d : ncond) | NOr (c d : ncond).
Inductive nstmt :=
| NSkip
| NSeq (a b : nstmt)
| NAssign (x : nat) (e : nexpr)
| NIf (c : ncond) (a b : nstmt)
| NWhile (c : ncond) (a : nstmt).

Fixpoint neval (m : list number) (e : nexpr) : res number :=
  match e with
  | NVar x => match nth_error m x with Some v => Ok v | None => IllFormed end
  | NLit v => Ok v
  | NUndef => Undef
  | NCast _ to a => v <- neval m a; n_convert to v
  | NNegate r a => v <- neval m a; n_neg r v
  | NOp o r a b => x <- neval m a; y <- neval m b; op_in o r x y
  end.
Definition nrelation (o : relop) (x y : number) : res bool :=
  match o with
  | RLt => c <- n_compare x y; Ok (match c with Some Lt => true | _ => false end)
  | RLe => c <- n_compare x y; Ok (match c with Some Lt | Some Eq => true | _ => false end)
  | RGt => c <- n_compare x y; Ok (match c with Some Gt => true | _ => false end)
  | RGe => c <- n_compare x y; Ok (match c with Some Gt | Some Eq => true | _ => false end)
  | REq => n_eqb x y
  | RNe => b <- n_eqb x y; Ok (negb b)
  end.
Fixpoint nholds (m : list number) (c : ncond) : res bool :=
  match c with
  | NRel o a b => x <- neval m a; y <- neval m b; nrelation o x y
  | NNot c => b <- nholds m c; Ok (negb b)
  | NAnd c d => b <- nholds m c; if b then nholds m d else Ok false
  | NOr c d => b <- nholds m c; if b then Ok true else nholds m d
  end.
Fixpoint nupdate (m : list number) (x : nat) (v : number) : list number :=
  match m, x with
  | [], _ => []
  | _ :: r, O => v :: r
  | a :: r, S n => a :: nupdate r n v
  end.
Fixpoint nrun (fuel : nat) (s : nstmt) (m : list number) {struct fuel} : res (list number) :=
  match fuel with
  | O => Stuck
  | S n =>
      match s with
      | NSkip => Ok m
      | NSeq a b => m' <- nrun n a m; nrun n b m'
      | NAssign x e => v <- neval m e; Ok (nupdate m x v)
      | NIf c a b => t <- nholds m c; if t then nrun n a m else nrun n b m
      | NWhile c a => t <- nholds m c; if t then m' <- nrun n a m; nrun n (NWhile c a) m' else Ok m
      end
  end.

(** The numbers in the objects, and the objects of declared types with given numbers. *)
Definition number_in (v : avalue) : number := match v with VQuantity q => q_num q | VPoint p => pt_num p end.
Definition numbers (m : store) : list number := map number_in m.
Definition of_type (t : atype) (n : number) : avalue :=
  match t with TQuantity q => VQuantity (Quantity q n) | TPoint p => VPoint (Point p n) end.
Fixpoint of_types (d : declared) (l : list number) : store :=
  match d, l with t :: d, n :: l => of_type t n :: of_types d l | _, _ => [] end.
(** The outcome with the types put back. *)
Definition typed_as (d : declared) (r : res (list number)) : res store := l <- r; Ok (of_types d l).

(** ** Operations *)

(** The operations of the numbers: arithmetic, comparisons and conversions between different
    types. *)
Fixpoint nops (e : nexpr) : nat :=
  match e with
  | NVar _ | NLit _ | NUndef => 0
  | NCast from to a => (if rep_eq_dec from to then 0 else 1) + nops a
  | NNegate _ a => 1 + nops a
  | NOp _ _ a b => 1 + nops a + nops b
  end.
Fixpoint nops_cond (c : ncond) : nat :=
  match c with
  | NRel _ a b => 1 + nops a + nops b
  | NNot c => nops_cond c
  | NAnd c d | NOr c d => nops_cond c + nops_cond d
  end.
Fixpoint nops_stmt (s : nstmt) : nat :=
  match s with
  | NSkip => 0
  | NSeq a b => nops_stmt a + nops_stmt b
  | NAssign _ e => nops e
  | NIf c a b => nops_cond c + nops_stmt a + nops_stmt b
  | NWhile c a => nops_cond c + nops_stmt a
  end.
(** The operators in the text of a program: those of expressions, casts and conversions
    included, comparisons, assignments and [++], [+=] and the like. *)
Fixpoint operators (e : pexpr) : nat :=
  match e with
  | EVar _ | EConst _ => 0
  | EUnary _ a => 1 + operators a
  | EBinary _ a b => 1 + operators a + operators b
  | EMove _ a | EPointCast _ a | EPointCastTo _ a | EMake _ a => 1 + operators a
  | ERelative a => operators a
  end.
Fixpoint operators_cond (c : pcond) : nat :=
  match c with
  | CRel _ a b => 1 + operators a + operators b
  | CNot c => operators_cond c
  | CAnd c d | COr c d => operators_cond c + operators_cond d
  end.
Definition operators_change (h : change) : nat :=
  match h with HAdd e | HSub e | HRem e => 1 + operators e | _ => 1 end.
Fixpoint operators_stmt (s : pstmt) : nat :=
  match s with
  | SSkip => 0
  | SSeq a b => operators_stmt a + operators_stmt b
  | SAssign _ e => 1 + operators e
  | SChange _ h => operators_change h
  | SIf c a b => operators_cond c + operators_stmt a + operators_stmt b
  | SWhile c a => operators_cond c + operators_stmt a
  end.

(** ** Programs without conversions *)

(** The quantity type of an object: for a point that of its distance from the origin. *)
Definition qtype_of (t : atype) : qtype := match t with TQuantity q => q | TPoint p => p_qtype p end.

Section Direct.
Variables (rb : rebinding) (est : estimate) (w : world) (d : declared).
(** [e] has the quantity type [t]. *)
Definition is_of (e : pexpr) (t : qtype) : Prop := exists a, ptype_of rb est w d e = Ok a /\ qtype_of a = t.
(** Arithmetic of the types [r] and [s] is arithmetic in [r]: no integral promotion, no
    conversion of the first operand. *)
Definition works_in (r s : rep) : Prop := arith_rep r s = r.
(** The operands that [+] and [-] bring together have the same type, those of [*], [/] and [%]
    the same representation; no casts, no conversions to another type. *)
Fixpoint direct (e : pexpr) : Prop :=
  match e with
  | EVar _ | EConst _ => True
  | EUnary o a =>
      direct a /\
      exists t, is_of a t /\
        match o with
        | UPos | UNeg => works_in (q_rep t) (q_rep t)
        | UMulV r _ | UVMul r _ | UDivV r _ | UVDiv r _ | URemV r _ => works_in (q_rep t) r
        | UConv t' => t' = t
        | UCast _ => False
        end
  | EBinary o a b =>
      direct a /\ direct b /\
      exists t u, is_of a t /\ is_of b u /\ works_in (q_rep t) (q_rep u) /\ q_rep t = q_rep u /\
        match o with BAdd | BSub => t = u | BMul | BDiv | BRem => True end
  | EMove t a | EMake t a => direct a /\ is_of a (p_qtype t)
  | EPointCast _ _ | EPointCastTo _ _ => False
  | ERelative a => direct a
  end.
Fixpoint direct_cond (c : pcond) : Prop :=
  match c with
  | CRel _ a b => direct a /\ direct b /\ exists t, is_of a t /\ is_of b t
  | CNot c => direct_cond c
  | CAnd c e | COr c e => direct_cond c /\ direct_cond e
  end.
Definition direct_change (t : qtype) (h : change) : Prop :=
  match h with
  | HInc | HDec => works_in (q_rep t) (RInt I32)
  | HAdd e | HSub e | HRem e => direct e /\ is_of e t /\ works_in (q_rep t) (q_rep t)
  | HMulV r _ | HDivV r _ | HRemV r _ => works_in (q_rep t) r
  end.
Fixpoint direct_stmt (s : pstmt) : Prop :=
  match s with
  | SSkip => True
  | SSeq a b => direct_stmt a /\ direct_stmt b
  | SAssign x e => direct e /\ exists t, nth_error d x = Some t /\ is_of e (qtype_of t)
  | SChange x h => exists t, nth_error d x = Some t /\ direct_change (qtype_of t) h
  | SIf c a b => direct_cond c /\ direct_stmt a /\ direct_stmt b
  | SWhile c a => direct_cond c /\ direct_stmt a
  end.
End Direct.
