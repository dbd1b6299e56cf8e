(** Specification vocabulary for expressions of quantities and points: affine dimensional
    analysis, and the arithmetic of values and positions. *)

From Coq Require Import ZArith QArith String List.
From Verif Require Import Outcome CInt Root Ratio SpecRatio Unit Dim DimOp Equivalent SpecDim SpecUnit Rep QuantityCast Quantity SpecQuantity Point
  Expr SpecExpr Affine.
Local Open Scope Z_scope.

(** ** The rules of affine dimensional analysis *)

(** [typed e k f]: the expression stands for a difference ([k = 0]) or a position ([k = 1]),
    and its dimension has the exponents [f].  Sums and differences join equal dimensions and
    add and subtract the [k]; everything else works on differences. *)
Inductive typed : aexpr -> Z -> exps -> Prop :=
| ty_quantity : forall q f, same_exps (dim_exps (q_dim (q_type q))) f -> typed (AQuantity q) 0 f
| ty_point : forall p f, same_exps (dim_exps (o_dim (p_origin (pt_type p)))) f -> typed (APoint p) 1 f
| ty_pos : forall a f, typed a 0 f -> typed (AUnary UPos a) 0 f
| ty_neg : forall a f, typed a 0 f -> typed (AUnary UNeg a) 0 f
| ty_mulv : forall a r v f, typed a 0 f -> typed (AUnary (UMulV r v) a) 0 f
| ty_vmul : forall a r v f, typed a 0 f -> typed (AUnary (UVMul r v) a) 0 f
| ty_divv : forall a r v f, typed a 0 f -> typed (AUnary (UDivV r v) a) 0 f
| ty_vdiv : forall a r v f g, typed a 0 f -> same_exps (fun s t => - f s t)%Q g -> typed (AUnary (UVDiv r v) a) 0 g
| ty_remv : forall a r v f, typed a 0 f -> typed (AUnary (URemV r v) a) 0 f
| ty_conv : forall t a f, typed a 0 f -> same_exps (dim_exps (q_dim t)) f -> typed (AUnary (UConv t) a) 0 f
| ty_cast : forall c a f, typed a 0 f -> asks_for c f -> typed (AUnary (UCast c) a) 0 f
| ty_add : forall a b k l f, typed a k f -> typed b l f -> k + l <= 1 -> typed (ABinary BAdd a b) (k + l) f
| ty_sub : forall a b k l f, typed a k f -> typed b l f -> 0 <= k - l -> typed (ABinary BSub a b) (k - l) f
| ty_mul : forall a b f g h, typed a 0 f -> typed b 0 g -> same_exps (fun s r => f s r + g s r)%Q h -> typed (ABinary BMul a b) 0 h
| ty_div : forall a b f g h, typed a 0 f -> typed b 0 g -> same_exps (fun s r => f s r - g s r)%Q h -> typed (ABinary BDiv a b) 0 h
| ty_rem : forall a b f g, typed a 0 f -> typed b 0 g -> same_exps g f \/ same_exps g no_exps -> typed (ABinary BRem a b) 0 f
| ty_move : forall t a f, typed a 1 f -> same_exps (dim_exps (o_dim (p_origin t))) f -> typed (AMove t a) 1 f
| ty_pcast : forall c a f, typed a 1 f -> asks_for c f -> typed (APointCast c a) 1 f
| ty_pcastto : forall t a f, typed a 1 f -> same_exps (dim_exps (o_dim (p_origin t))) f -> typed (APointCastTo t a) 1 f
| ty_relative : forall a f, typed a 1 f -> typed (ARelative a) 0 f
| ty_make : forall t a f, typed a 0 f -> same_exps (dim_exps (o_dim (p_origin t))) f -> typed (AMake t a) 1 f.

Definition sort_of (v : avalue) : Z := match v with VQuantity _ => 0 | VPoint _ => 1 end.
Definition value_exps (v : avalue) : exps :=
  match v with VQuantity q => dim_exps (q_dim (q_type q)) | VPoint p => dim_exps (o_dim (p_origin (pt_type p))) end.

(** ** Values and positions *)

(** A frame says where every origin lies.  A point at a distance [v] from its origin [o] then
    lies at [at_ o + v]. *)
Definition frame := origin -> Q.

Definition anumber (rb : rebinding) (est : estimate) (w : world) (e : aexpr) (n : Z) : Prop :=
  exists q, aeval rb est w e = Ok (VQuantity q) /\ q_num q = NInt n.
Definition same_aunits (rb : rebinding) (est : estimate) (w : world) (a b : aexpr) : Prop :=
  forall x y, aeval rb est w a = Ok (VQuantity x) -> aeval rb est w b = Ok (VQuantity y) ->
  q_dim (q_type x) = q_dim (q_type y) /\ q_unit (q_type x) = q_unit (q_type y).
Definition inverse_acoherent (rb : rebinding) (est : estimate) (w : world) (e : aexpr) : Prop :=
  forall x d, aeval rb est w e = Ok (VQuantity x) -> dim_invert w (q_dim (q_type x)) = Ok d ->
  (rval (u_ratio (dimension_unit (q_dim (q_type x)))) * rval (u_ratio (dimension_unit d)) == 1)%Q.

(** What an expression stands for in a frame, by the arithmetic of rational numbers: the value
    of a quantity, the place of a point.  The operators are those of the numbers, whatever
    stands on their sides.  A division is exact only if it comes out even, which the rule
    requires of the numbers divided.  Casts (which may truncate), the distance of a point from
    its origin and points made from quantities have no rule. *)
Inductive stands_for (rb : rebinding) (est : estimate) (w : world) (at_ : frame) : aexpr -> Q -> Prop :=
| sf_quantity : forall q v, valued est q v -> stands_for rb est w at_ (AQuantity q) v
| sf_point : forall p v, valued est (relative p) v -> stands_for rb est w at_ (APoint p) (at_ (p_origin (pt_type p)) + v)
| sf_pos : forall a v, stands_for rb est w at_ a v -> stands_for rb est w at_ (AUnary UPos a) v
| sf_neg : forall a v, stands_for rb est w at_ a v -> stands_for rb est w at_ (AUnary UNeg a) (- v)
| sf_add : forall a b x y, stands_for rb est w at_ a x -> stands_for rb est w at_ b y -> stands_for rb est w at_ (ABinary BAdd a b) (x + y)
| sf_sub : forall a b x y, stands_for rb est w at_ a x -> stands_for rb est w at_ b y -> stands_for rb est w at_ (ABinary BSub a b) (x - y)
| sf_mul : forall a b x y, stands_for rb est w at_ a x -> stands_for rb est w at_ b y -> stands_for rb est w at_ (ABinary BMul a b) (x * y)
| sf_div : forall a b x y n k, stands_for rb est w at_ a x -> stands_for rb est w at_ b y ->
    anumber rb est w a n -> anumber rb est w b k -> (k | n) -> stands_for rb est w at_ (ABinary BDiv a b) (x / y)
| sf_rem : forall a b x y k, stands_for rb est w at_ a x -> stands_for rb est w at_ b y -> same_aunits rb est w a b ->
    trunc_of (x / y) k -> stands_for rb est w at_ (ABinary BRem a b) (x - inject_Z k * y)
| sf_mulv : forall a i z x, stands_for rb est w at_ a x -> in_range i z = true -> i <> U64 ->
    stands_for rb est w at_ (AUnary (UMulV (RInt i) (NInt z)) a) (x * inject_Z z)
| sf_vmul : forall a i z x, stands_for rb est w at_ a x -> in_range i z = true -> i <> U64 ->
    stands_for rb est w at_ (AUnary (UVMul (RInt i) (NInt z)) a) (inject_Z z * x)
| sf_divv : forall a i z x n, stands_for rb est w at_ a x -> in_range i z = true -> i <> U64 -> anumber rb est w a n -> (z | n) ->
    stands_for rb est w at_ (AUnary (UDivV (RInt i) (NInt z)) a) (x / inject_Z z)
| sf_vdiv : forall a i z x k, stands_for rb est w at_ a x -> in_range i z = true -> i <> U64 -> anumber rb est w a k -> (k | z) ->
    inverse_acoherent rb est w a -> stands_for rb est w at_ (AUnary (UVDiv (RInt i) (NInt z)) a) (inject_Z z / x)
| sf_conv : forall t a x, stands_for rb est w at_ a x -> q_rep t = RInt I64 -> (exists m, sized est t m) ->
    stands_for rb est w at_ (AUnary (UConv t) a) x
| sf_move : forall t a x, stands_for rb est w at_ a x -> p_rep t = RInt I64 -> (exists m, sized est (p_qtype t) m) ->
    stands_for rb est w at_ (AMove t a) x.

(** The dimensions written in the expression. *)
Fixpoint aall_dims (P : dimension -> Prop) (e : aexpr) : Prop :=
  match e with
  | AQuantity q => P (q_dim (q_type q))
  | APoint p => P (o_dim (p_origin (pt_type p)))
  | AUnary o a => match o with
      | UConv t | UCast (ToQuantity t) => P (q_dim t)
      | UCast (ToDim d) => P d
      | _ => True
      end /\ aall_dims P a
  | ABinary _ a b => aall_dims P a /\ aall_dims P b
  | AMove t a | APointCastTo t a | AMake t a => P (o_dim (p_origin t)) /\ aall_dims P a
  | APointCast c a => match c with ToQuantity t => P (q_dim t) | ToDim d => P d | _ => True end /\ aall_dims P a
  | ARelative a => aall_dims P a
  end.

(** The result is the value of the expression: a quantity of that value, or a point at that
    place. *)
Definition at_value (est : estimate) (at_ : frame) (r : avalue) (v : Q) : Prop :=
  match r with
  | VQuantity q => valued est q v
  | VPoint p => exists x, valued est (relative p) x /\ (at_ (p_origin (pt_type p)) + x == v)%Q
  end.

(** The same expression with points written from other origins: in the frame, every point
    object of one lies where that of the other lies. *)
Inductive rewritten (est : estimate) (at_ : frame) : aexpr -> aexpr -> Prop :=
| rw_quantity : forall q, rewritten est at_ (AQuantity q) (AQuantity q)
| rw_point : forall p p' v v', valued est (relative p) v -> valued est (relative p') v' ->
    (at_ (p_origin (pt_type p)) + v == at_ (p_origin (pt_type p')) + v')%Q -> rewritten est at_ (APoint p) (APoint p')
| rw_unary : forall o a a', rewritten est at_ a a' -> rewritten est at_ (AUnary o a) (AUnary o a')
| rw_binary : forall o a a' b b', rewritten est at_ a a' -> rewritten est at_ b b' -> rewritten est at_ (ABinary o a b) (ABinary o a' b')
| rw_move : forall t t' a a', rewritten est at_ a a' -> rewritten est at_ (AMove t a) (AMove t' a').
