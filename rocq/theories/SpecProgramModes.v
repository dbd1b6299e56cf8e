(** Specification vocabulary: programs whose types belong to one system, and stores that differ
    only in the names of the types of the variables. *)

From Coq Require Import ZArith List.
From Verif Require Import Outcome CInt Root Ratio Unit Downcast Dim DimOp Rep QuantityCast Quantity Point Expr Affine Static SpecStatic Program SpecModes.
Import ListNotations.

(** The types and the literals written in a program are of the system [U]. *)
Definition plain_value (U : bdim -> Prop) (v : avalue) : Prop :=
  match v with VQuantity q => plain_type U (q_type q) | VPoint p => plain_type U (p_qtype (pt_type p)) end.
Fixpoint plain_pexpr (U : bdim -> Prop) (e : pexpr) : Prop :=
  match e with
  | EVar _ => True
  | EConst v => plain_value U v
  | EUnary o a => plain_unary U o /\ plain_pexpr U a
  | EBinary _ a b => plain_pexpr U a /\ plain_pexpr U b
  | EMove t a | EPointCastTo t a | EMake t a => plain_type U (p_qtype t) /\ plain_pexpr U a
  | EPointCast c a => plain_cast U c /\ plain_pexpr U a
  | ERelative a => plain_pexpr U a
  end.
Fixpoint plain_cond (U : bdim -> Prop) (c : pcond) : Prop :=
  match c with
  | CRel _ a b => plain_pexpr U a /\ plain_pexpr U b
  | CNot c => plain_cond U c
  | CAnd c d | COr c d => plain_cond U c /\ plain_cond U d
  end.
Definition plain_change (U : bdim -> Prop) (h : change) : Prop :=
  match h with HAdd e | HSub e | HRem e => plain_pexpr U e | _ => True end.
Fixpoint plain_stmt (U : bdim -> Prop) (s : pstmt) : Prop :=
  match s with
  | SSkip => True
  | SSeq a b => plain_stmt U a /\ plain_stmt U b
  | SAssign _ e => plain_pexpr U e
  | SChange _ h => plain_change U h
  | SIf c a b => plain_cond U c /\ plain_stmt U a /\ plain_stmt U b
  | SWhile c a => plain_cond U c /\ plain_stmt U a
  end.

(** Two outcomes of the program: the variables hold the same numbers, in types that differ only
    in names; or the arithmetic is undefined in both; or both need more steps. *)
Definition same_outcome (r r' : res store) : Prop :=
  match r, r' with
  | Ok m, Ok m' => Forall2 same_value m m'
  | Undef, Undef | Stuck, Stuck => True
  | _, _ => False
  end.
