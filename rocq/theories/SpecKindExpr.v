(** Specification vocabulary for expressions of kinds: the discipline of kinds, and the
    expression of quantities an expression of kinds stands for. *)

From Coq Require Import ZArith QArith String List.
From Verif Require Import Outcome CInt Root Ratio Unit Dim DimOp Equivalent SpecDim SpecUnit Rep QuantityCast Quantity Point Kind PointKind
  DimOpProofs DimOpProofs3 EquivProofs Expr SpecExpr Affine SpecAffine KindExpr.
Local Open Scope Z_scope.

(** What an expression is, apart from its dimension, unit and representation: a quantity; a
    kind, which is known by its base kind; a point of a kind, known by its base kind and the name
    of its origin (none for the dynamic one). *)
Inductive ksort := IsQuantity | IsKind (b : bkind) | IsPoint (b : bkind) (o : option string).
Definition origin_name (o : origin) : option string := match o with ODynamic _ => None | OUser n _ => Some n end.
Definition ksort_of (v : kvalue) : ksort :=
  match v with
  | WQuantity _ => IsQuantity
  | WKind x => IsKind (k_base (qk_kind x))
  | WPoint x => IsPoint (k_base (pk_base (qpk_kind x))) (origin_name (pk_origin (qpk_kind x)))
  end.
(** The quantity under a value: of a kind what [common()] returns, of a point its distance from
    the origin. *)
Definition under (v : kvalue) : quantity :=
  match v with WQuantity q => q | WKind x => common x | WPoint x => common (pk_relative x) end.

(** [reads e s x]: by the discipline of kinds [e] is of sort [s], and without the kinds it is the
    expression of quantities [x].  Kinds are added, subtracted and divided with remainder by
    their own kind only, multiplied and divided by their own kind and by quantities, scaled by
    numbers; points of a kind are moved by that kind and subtracted when they have one origin. *)
Inductive scaling : unary -> Prop :=
| sc_neg : scaling UNeg | sc_mulv : forall r v, scaling (UMulV r v) | sc_vmul : forall r v, scaling (UVMul r v)
| sc_divv : forall r v, scaling (UDivV r v) | sc_vdiv : forall r v, scaling (UVDiv r v) | sc_remv : forall r v, scaling (URemV r v).
Inductive product : binary -> Prop := pr_mul : product BMul | pr_div : product BDiv.

(** A cast keeps the kind unless its target names another. *)
Inductive cast_reads (b : bkind) (x : aexpr) : kcastspec -> bkind -> aexpr -> Prop :=
| cr_type : forall t, cast_reads b x (KToType t) (k_base (kt_kind t)) (AUnary (UCast (ToQuantity (kt_qtype t))) x)
| cr_kind : forall k, typed x 0 (dim_exps (k_dim k)) -> cast_reads b x (KToKind k) (k_base k) x
| cr_other : forall c, cast_reads b x (KTo c) b (AUnary (UCast c) x).

Inductive reads : kexpr -> ksort -> aexpr -> Prop :=
| rd_quantity : forall q, reads (KQuantity q) IsQuantity (AQuantity q)
| rd_kind : forall x, reads (KKind x) (IsKind (k_base (qk_kind x))) (AQuantity (common x))
| rd_point : forall x, reads (KPoint x) (IsPoint (k_base (pk_base (qpk_kind x))) (origin_name (pk_origin (qpk_kind x))))
    (AQuantity (common (pk_relative x)))
| rd_unary : forall o a x, reads a IsQuantity x -> reads (KUnary o a) IsQuantity (AUnary o x)
| rd_plus : forall a b x, reads a (IsKind b) x -> reads (KUnary UPos a) (IsKind b) x
| rd_scale : forall o a b x, scaling o -> reads a (IsKind b) x -> reads (KUnary o a) (IsKind b) (AUnary o x)
| rd_binary : forall o a b x y, reads a IsQuantity x -> reads b IsQuantity y -> reads (KBinary o a b) IsQuantity (ABinary o x y)
| rd_same : forall o a b k x y, o <> BRem -> reads a (IsKind k) x -> reads b (IsKind k) y ->
    reads (KBinary o a b) (IsKind k) (ABinary o x y)
| rd_rem : forall a b k x y f, reads a (IsKind k) x -> reads b (IsKind k) y -> typed x 0 f -> typed y 0 f ->
    reads (KBinary BRem a b) (IsKind k) (ABinary BRem x y)
| rd_times : forall o a b k x y, product o -> reads a (IsKind k) x -> reads b IsQuantity y ->
    reads (KBinary o a b) (IsKind k) (ABinary o x y)
| rd_timed : forall o a b k x y, product o -> reads a IsQuantity x -> reads b (IsKind k) y ->
    reads (KBinary o a b) (IsKind k) (ABinary o x y)
| rd_rem_number : forall a b k x y, reads a (IsKind k) x -> reads b IsQuantity y -> typed y 0 no_exps ->
    reads (KBinary BRem a b) (IsKind k) (ABinary BRem x y)
| rd_forward : forall a b k o x y, reads a (IsPoint k o) x -> reads b (IsKind k) y ->
    reads (KBinary BAdd a b) (IsPoint k None) (ABinary BAdd x y)
| rd_added : forall a b k o x y, reads a (IsKind k) x -> reads b (IsPoint k o) y ->
    reads (KBinary BAdd a b) (IsPoint k None) (ABinary BAdd x y)
| rd_back : forall a b k o x y, reads a (IsPoint k o) x -> reads b (IsKind k) y ->
    reads (KBinary BSub a b) (IsPoint k None) (ABinary BSub x y)
| rd_difference : forall a b k o x y, reads a (IsPoint k o) x -> reads b (IsPoint k o) y ->
    reads (KBinary BSub a b) (IsKind k) (ABinary BSub x y)
| rd_make : forall t a x, reads a IsQuantity x -> reads (KMake t a) (IsKind (k_base (kt_kind t))) (AUnary (UConv (kt_qtype t)) x)
| rd_convert : forall t a x, reads a (IsKind (k_base (kt_kind t))) x ->
    reads (KConvert t a) (IsKind (k_base (kt_kind t))) (AUnary (UConv (kt_qtype t)) x)
| rd_common : forall a k x, reads a (IsKind k) x -> reads (KCommon a) IsQuantity x
| rd_cast : forall c a k k' x x', reads a (IsKind k) x -> cast_reads k x c k' x' -> reads (KCast c a) (IsKind k') x'
| rd_pmake : forall t a x, reads a (IsKind (k_base (pk_base (pkt_kind t)))) x ->
    reads (KPMake t a) (IsPoint (k_base (pk_base (pkt_kind t))) (origin_name (pk_origin (pkt_kind t)))) (AUnary (UConv (kt_qtype (pkt_ktype t))) x)
| rd_deduce : forall a k x, reads a (IsKind k) x -> reads (KPDeduce a) (IsPoint k None) x
| rd_pconvert : forall t a x, reads a (IsPoint (k_base (pk_base (pkt_kind t))) (origin_name (pk_origin (pkt_kind t)))) x ->
    reads (KPConvert t a) (IsPoint (k_base (pk_base (pkt_kind t))) (origin_name (pk_origin (pkt_kind t)))) (AUnary (UConv (kt_qtype (pkt_ktype t))) x)
| rd_relative : forall a k o x, reads a (IsPoint k o) x -> reads (KRelative a) (IsKind k) x
| rd_pcast : forall c a k o k' x x', reads a (IsPoint k o) x -> cast_reads k x c k' x' -> reads (KPCast c a) (IsPoint k' None) x'
| rd_pcastto : forall t a k x, reads a (IsPoint k (origin_name (pk_origin (pkt_kind t)))) x ->
    reads (KPCastTo t a) (IsPoint (k_base (pk_base (pkt_kind t))) (origin_name (pk_origin (pkt_kind t))))
      (AUnary (UCast (ToQuantity (kt_qtype (pkt_ktype t)))) x).

(** The types written in the expression exist (quantity.h:110-118, quantity_kind.h:78-86,
    quantity_point_kind.h:43-54), and their dimensions satisfy [P]. *)
Definition legal_ktype (P : dimension -> Prop) (t : ktype) : Prop :=
  P (k_dim (kt_kind t)) /\ unit_of (kt_unit t) (k_dim (kt_kind t)) = true.
Definition legal_pktype (P : dimension -> Prop) (t : pktype) : Prop :=
  legal_ktype P (pkt_ktype t) /\ o_dim (pk_origin (pkt_kind t)) = k_dim (pk_base (pkt_kind t)).
Definition legal_qtype (P : dimension -> Prop) (t : qtype) : Prop := P (q_dim t) /\ unit_of (q_unit t) (q_dim t) = true.
Definition legal_cast (P : dimension -> Prop) (c : castspec) : Prop :=
  match c with ToQuantity t => legal_qtype P t | ToDim d => P d | _ => True end.
Fixpoint legal (P : dimension -> Prop) (e : kexpr) : Prop :=
  match e with
  | KQuantity q => legal_qtype P (q_type q)
  | KKind x => legal_ktype P (qk_type x)
  | KPoint x => legal_pktype P (qpk_type x)
  | KUnary o a => match o with UConv t => legal_qtype P t | UCast c => legal_cast P c | _ => True end /\ legal P a
  | KBinary _ a b => legal P a /\ legal P b
  | KMake t a | KConvert t a => legal_ktype P t /\ legal P a
  | KPMake t a | KPConvert t a | KPCastTo t a => legal_pktype P t /\ legal P a
  | KCast c a | KPCast c a =>
      match c with KToType t => legal_ktype P t | KToKind k => P (k_dim k) | KTo c => legal_cast P c end /\ legal P a
  | KCommon a | KPDeduce a | KRelative a => legal P a
  end.

(** A dimension as the library writes it in the system of units [U] (fractional exponents
    included). *)
Definition of_system (U : bdim -> Prop) (w : world) (d : dimension) : Prop := ndim U d /\ canonical w d.

(** The base kinds of the objects and types written in the expression. *)
Fixpoint mentions (b : bkind) (e : kexpr) : Prop :=
  match e with
  | KQuantity _ => False
  | KKind x => k_base (qk_kind x) = b
  | KPoint x => k_base (pk_base (qpk_kind x)) = b
  | KBinary _ a c => mentions b a \/ mentions b c
  | KMake t a | KConvert t a => k_base (kt_kind t) = b \/ mentions b a
  | KPMake t a | KPConvert t a | KPCastTo t a => k_base (pk_base (pkt_kind t)) = b \/ mentions b a
  | KUnary _ a | KCommon a | KPDeduce a | KRelative a => mentions b a
  | KCast c a | KPCast c a =>
      match c with KToType t => k_base (kt_kind t) = b | KToKind k => k_base k = b | KTo _ => False end \/ mentions b a
  end.
(** The expression neither leaves the kinds ([common()]) nor casts to a named kind. *)
Fixpoint keeps_kind (e : kexpr) : Prop :=
  match e with
  | KQuantity _ | KKind _ | KPoint _ => True
  | KBinary _ a c => keeps_kind a /\ keeps_kind c
  | KMake _ a | KConvert _ a | KPMake _ a | KPConvert _ a | KUnary _ a | KPDeduce a | KRelative a => keeps_kind a
  | KCast c a | KPCast c a => (exists c', c = KTo c') /\ keeps_kind a
  | KCommon _ | KPCastTo _ _ => False
  end.
Definition sort_base (s : ksort) : option bkind := match s with IsQuantity => None | IsKind b => Some b | IsPoint b _ => Some b end.
