(** Specification vocabulary: types that differ only in names, and the programs in which an
    expression may be written. *)

From Coq Require Import ZArith QArith String List.
From Verif Require Import Outcome CInt Root Ratio SpecRatio Unit Downcast Dim DimOp Equivalent SpecDim SpecUnit Rep QuantityCast Quantity SpecQuantity Point
  Expr SpecExpr Affine SpecStatic DimOpProofs EquivProofs UnitProofs.
Local Open Scope Z_scope.

(** The base units of the system [U] are powers of ten of their references (metre, kilogram,
    centimetre, gram, second, ...). *)
Definition decimal (U : bdim -> Prop) : Prop :=
  forall b, U b -> base_good b /\ exists k, base_ratio b = Ratio 1 1 k.

(** Of whatever the program declares, and in whatever mode, the derived dimensions of the system
    [U] have coherent units that are their own references. *)
Definition plain_program (U : bdim -> Prop) (w : world) : Prop :=
  reachable w /\ forall es d, In (es, d) (guides (w_dims w)) -> over U es -> u_ratio (dimension_unit d) = Ratio 1 1 0.

(** A type of the system, declared or not. *)
Definition plain_dim (U : bdim -> Prop) (d : dimension) : Prop :=
  ndim U d /\ whole d /\ (is_base d = false -> u_ratio (dimension_unit d) = Ratio 1 1 0).
Definition plain_type (U : bdim -> Prop) (t : qtype) : Prop :=
  plain_dim U (q_dim t) /\ unit_good (q_unit t) /\ unit_of (q_unit t) (q_dim t) = true.

(** The types written in an expression are of the system. *)
Definition plain_cast (U : bdim -> Prop) (c : castspec) : Prop :=
  match c with
  | ToQuantity t => plain_type U t
  | ToDim d => plain_dim U d
  | ToUnit u => unit_good u
  | ToRep _ => True
  end.
Definition plain_unary (U : bdim -> Prop) (o : unary) : Prop :=
  match o with
  | UConv t => plain_type U t
  | UCast c => plain_cast U c
  | _ => True
  end.
Fixpoint plain_expr (U : bdim -> Prop) (e : aexpr) : Prop :=
  match e with
  | AQuantity q => plain_type U (q_type q)
  | APoint p => plain_type U (p_qtype (pt_type p))
  | AUnary o a => plain_unary U o /\ plain_expr U a
  | ABinary _ a b => plain_expr U a /\ plain_expr U b
  | AMove t a | APointCastTo t a | AMake t a => plain_type U (p_qtype t) /\ plain_expr U a
  | APointCast c a => plain_cast U c /\ plain_expr U a
  | ARelative a => plain_expr U a
  end.

(** An origin rebound to a dimension has that dimension. *)
Definition honest (rb : rebinding) : Prop := forall n d d' o, rb n d d' = Some o -> o_dim o = d'.

(** Two types that differ only in names: the same exponents of the same base dimensions, the
    same ratio to the coherent unit, the same representation. *)
Definition same_dim (d d' : dimension) : Prop := exponents d = exponents d' /\ is_base d = is_base d'.
Definition same_but_names (t t' : qtype) : Prop :=
  same_dim (q_dim t) (q_dim t') /\ u_ratio (q_unit t) = u_ratio (q_unit t') /\ q_rep t = q_rep t'.

(** Two results that differ only in the names of their types. *)
Definition same_value (v v' : avalue) : Prop :=
  match v, v' with
  | VQuantity q, VQuantity q' => same_but_names (q_type q) (q_type q') /\ q_num q = q_num q'
  | VPoint p, VPoint p' => same_but_names (p_qtype (pt_type p)) (p_qtype (pt_type p')) /\ pt_num p = pt_num p'
  | _, _ => False
  end.

(** A unit declared by the program, or a [scaled_unit] that no struct is derived from. *)
Definition stated (env : list cunit) (u : cunit) : Prop := In u env \/ UnitProofs.anonymous u.
