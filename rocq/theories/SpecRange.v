(** Specification vocabulary for ranges: bounds of the numbers of an expression, from the bounds
    of the numbers in it, under which no arithmetic leaves its type. *)

From Coq Require Import ZArith QArith String List.
From Verif Require Import Outcome CInt Root Ratio SpecRatio Unit Dim DimOp Equivalent SpecDim SpecUnit Rep IntProofs QuantityCast Quantity SpecQuantity Point
  SpecPoint Expr SpecExpr Affine SpecAffine Static SpecStatic.
Local Open Scope Z_scope.

(** The dimension, unit and representation of what the compiler makes of an expression (of a
    point: those of its distance from the origin). *)
Definition distance_type (t : atype) : qtype := match t with TQuantity q => q | TPoint p => p_qtype p end.
Definition has_type (rb : rebinding) (est : estimate) (w : world) (e : aexpr) (t : qtype) : Prop :=
  exists T, type_of rb est w e = Ok T /\ distance_type T = t.

(** An operation on numbers of the types [i] and [j] between the given bounds: the operands are
    values of the type it is computed in, so is the result, which is between [lo] and [hi];
    nothing is divided by zero. *)
Definition op_stays (o : arith_op) (i j : ity) (la ha lb hb lo hi : Z) : Prop :=
  forall x y, la <= x <= ha -> lb <= y <= hb ->
  operands_fit i j x y /\ in_range (arith_conv i j) (exact_op o x y) = true /\ (divides_op o = true -> y <> 0) /\
  (o = OpRem -> in_range (arith_conv i j) (Z.quot x y) = true) /\ lo <= exact_op o x y <= hi.
(** A conversion of numbers between [lo] and [hi]: the products it computes fit, and the numbers
    in the new unit are between [lo'] and [hi']. *)
Definition conversion_stays (est : estimate) (from to : qtype) (lo hi lo' hi' : Z) : Prop :=
  forall n, lo <= n <= hi -> convertible est from to n /\
  forall m1 m2, magnitude (q_dim from) (q_unit from) m1 -> magnitude (q_dim to) (q_unit to) m2 ->
  (inject_Z lo' <= inject_Z n * m1 / m2 <= inject_Z hi')%Q.
(** The same for a cast, which truncates. *)
Definition cast_stays (est : estimate) (from to : qtype) (lo hi lo' hi' : Z) : Prop :=
  forall n, lo <= n <= hi -> no_overflow est from to n /\
  forall m1 m2, magnitude (q_dim from) (q_unit from) m1 -> magnitude (q_dim to) (q_unit to) m2 ->
  value_fits (q_rep to) (inject_Z n * m1 / m2) /\ forall z, trunc_of (inject_Z n * m1 / m2) z -> lo' <= z <= hi'.

(** The operators with one operand of the type [t], whose result has the type [t']. *)
Definition unary_stays (est : estimate) (o : unary) (t t' : qtype) (lo hi lo' hi' : Z) : Prop :=
  match o with
  | UPos => lo' <= lo /\ hi <= hi'
  | UNeg => exists i, q_rep t' = RInt i /\ forall x, lo <= x <= hi -> in_range i (- x) = true /\ lo' <= - x <= hi'
  | UMulV (RInt j) (NInt z) => exists i, q_rep t = RInt i /\ in_range j z = true /\ op_stays OpMul i j lo hi z z lo' hi'
  | UVMul (RInt j) (NInt z) => exists i, q_rep t = RInt i /\ in_range j z = true /\ op_stays OpMul j i z z lo hi lo' hi'
  | UDivV (RInt j) (NInt z) => exists i, q_rep t = RInt i /\ in_range j z = true /\ op_stays OpDiv i j lo hi z z lo' hi'
  | UVDiv (RInt j) (NInt z) => exists i, q_rep t = RInt i /\ in_range j z = true /\ op_stays OpDiv j i z z lo hi lo' hi'
  | URemV (RInt j) (NInt z) => exists i, q_rep t = RInt i /\ in_range j z = true /\ op_stays OpRem i j lo hi z z lo' hi'
  | UConv _ => (exists m, sized est t' m) /\ (exists i, q_rep t' = RInt i) /\ conversion_stays est t t' lo hi lo' hi'
  | UCast _ => (exists m, sized est t' m) /\ (exists i, q_rep t' = RInt i) /\ cast_stays est t t' lo hi lo' hi'
  | _ => False
  end.
Definition op_of (o : binary) : arith_op :=
  match o with BAdd => OpAdd | BSub => OpSub | BMul => OpMul | BDiv => OpDiv | BRem => OpRem end.

(** [stays e lo hi]: by the bounds of its parts, the number of [e] is between [lo] and [hi], and
    nothing on the way overflows. *)
Inductive stays (rb : rebinding) (est : estimate) (w : world) : aexpr -> Z -> Z -> Prop :=
| st_quantity : forall q i n m lo hi, integral q i n -> sized est (q_type q) m -> lo <= n <= hi -> stays rb est w (AQuantity q) lo hi
| st_point : forall p i n m lo hi, integral (relative p) i n -> sized est (q_type (relative p)) m -> lo <= n <= hi ->
    stays rb est w (APoint p) lo hi
| st_unary : forall o a t t' lo hi lo' hi', stays rb est w a lo hi -> has_type rb est w a t -> has_type rb est w (AUnary o a) t' ->
    unary_stays est o t t' lo hi lo' hi' -> stays rb est w (AUnary o a) lo' hi'
| st_sum : forall o a b ta tb t i la ha lb hb la' ha' lb' hb' lo hi, o = BAdd \/ o = BSub ->
    stays rb est w a la ha -> stays rb est w b lb hb ->
    has_type rb est w a ta -> has_type rb est w b tb -> has_type rb est w (ABinary o a b) t -> q_rep t = RInt i ->
    conversion_stays est ta t la ha la' ha' -> conversion_stays est tb t lb hb lb' hb' ->
    op_stays (op_of o) i i la' ha' lb' hb' lo hi -> stays rb est w (ABinary o a b) lo hi
| st_product : forall o a b ta tb i j la ha lb hb lo hi, o = BMul \/ o = BDiv \/ o = BRem ->
    stays rb est w a la ha -> stays rb est w b lb hb ->
    has_type rb est w a ta -> has_type rb est w b tb -> q_rep ta = RInt i -> q_rep tb = RInt j ->
    op_stays (op_of o) i j la ha lb hb lo hi -> stays rb est w (ABinary o a b) lo hi
| st_move : forall t a ta i m lo hi lo' hi', stays rb est w a lo hi -> has_type rb est w a ta -> sized est (p_qtype t) m -> p_rep t = RInt i ->
    conversion_stays est ta (p_qtype t) lo hi lo' hi' -> stays rb est w (AMove t a) lo' hi'
| st_make : forall t a ta i m lo hi lo' hi', stays rb est w a lo hi -> has_type rb est w a ta -> sized est (p_qtype t) m -> p_rep t = RInt i ->
    conversion_stays est ta (p_qtype t) lo hi lo' hi' -> stays rb est w (AMake t a) lo' hi'
| st_relative : forall a lo hi, stays rb est w a lo hi -> stays rb est w (ARelative a) lo hi
| st_pcast : forall c a t t' i m lo hi lo' hi', stays rb est w a lo hi -> has_type rb est w a t -> has_type rb est w (APointCast c a) t' ->
    sized est t' m -> q_rep t' = RInt i -> cast_stays est t t' lo hi lo' hi' -> stays rb est w (APointCast c a) lo' hi'
| st_pcastto : forall t a ta i m lo hi lo' hi', stays rb est w a lo hi -> has_type rb est w a ta -> sized est (p_qtype t) m -> p_rep t = RInt i ->
    cast_stays est ta (p_qtype t) lo hi lo' hi' -> stays rb est w (APointCastTo t a) lo' hi'.

(** What an expression of integral quantities of any types is worth in a frame, by the arithmetic
    of rational numbers.  Divisions and casts are exact where they come out even; a remainder is
    what its integral quotient leaves; point casts, which forget the origin, have no rule. *)
Inductive worth (rb : rebinding) (est : estimate) (w : world) (at_ : frame) : aexpr -> Q -> Prop :=
| wo_quantity : forall q v, denotes q v -> worth rb est w at_ (AQuantity q) v
| wo_point : forall p v, denotes (relative p) v -> worth rb est w at_ (APoint p) (at_ (p_origin (pt_type p)) + v)
| wo_pos : forall a v, worth rb est w at_ a v -> worth rb est w at_ (AUnary UPos a) v
| wo_neg : forall a v, worth rb est w at_ a v -> worth rb est w at_ (AUnary UNeg a) (- v)
| wo_add : forall a b x y, worth rb est w at_ a x -> worth rb est w at_ b y -> worth rb est w at_ (ABinary BAdd a b) (x + y)
| wo_sub : forall a b x y, worth rb est w at_ a x -> worth rb est w at_ b y -> worth rb est w at_ (ABinary BSub a b) (x - y)
| wo_mul : forall a b x y, worth rb est w at_ a x -> worth rb est w at_ b y -> worth rb est w at_ (ABinary BMul a b) (x * y)
| wo_div : forall a b x y n k, worth rb est w at_ a x -> worth rb est w at_ b y ->
    anumber rb est w a n -> anumber rb est w b k -> (k | n) -> worth rb est w at_ (ABinary BDiv a b) (x / y)
| wo_rem : forall a b x y k, worth rb est w at_ a x -> worth rb est w at_ b y -> same_aunits rb est w a b ->
    trunc_of (x / y) k -> worth rb est w at_ (ABinary BRem a b) (x - inject_Z k * y)
| wo_mulv : forall a r z x, worth rb est w at_ a x -> worth rb est w at_ (AUnary (UMulV r (NInt z)) a) (x * inject_Z z)
| wo_vmul : forall a r z x, worth rb est w at_ a x -> worth rb est w at_ (AUnary (UVMul r (NInt z)) a) (inject_Z z * x)
| wo_divv : forall a r z x n, worth rb est w at_ a x -> anumber rb est w a n -> (z | n) ->
    worth rb est w at_ (AUnary (UDivV r (NInt z)) a) (x / inject_Z z)
| wo_vdiv : forall a r z x k, worth rb est w at_ a x -> anumber rb est w a k -> (k | z) -> inverse_acoherent rb est w a ->
    worth rb est w at_ (AUnary (UVDiv r (NInt z)) a) (inject_Z z / x)
| wo_remv : forall a r z x t m k, worth rb est w at_ a x -> has_type rb est w a t -> magnitude (q_dim t) (q_unit t) m ->
    trunc_of (x / (inject_Z z * m)) k -> worth rb est w at_ (AUnary (URemV r (NInt z)) a) (x - inject_Z k * (inject_Z z * m))
| wo_conv : forall t a x, worth rb est w at_ a x -> worth rb est w at_ (AUnary (UConv t) a) x
| wo_cast : forall c a x t m, worth rb est w at_ a x -> has_type rb est w (AUnary (UCast c) a) t -> magnitude (q_dim t) (q_unit t) m ->
    is_int (x / m) -> worth rb est w at_ (AUnary (UCast c) a) x
| wo_move : forall t a x, worth rb est w at_ a x -> worth rb est w at_ (AMove t a) x
| wo_make : forall t a x, worth rb est w at_ a x -> worth rb est w at_ (AMake t a) (at_ (p_origin t) + x)
| wo_relative : forall a p x, worth rb est w at_ a x -> type_of rb est w a = Ok (TPoint p) ->
    worth rb est w at_ (ARelative a) (x - at_ (p_origin p)).

(** The quantity in a result: itself, or the distance of a point from its origin. *)
Definition distance (v : avalue) : quantity := match v with VQuantity q => q | VPoint p => relative p end.
(** The place of the origin of a result. *)
Definition place (at_ : frame) (v : avalue) : Q := match v with VQuantity _ => 0 | VPoint p => at_ (p_origin (pt_type p)) end.

(** [z] is between the least and the greatest of four numbers. *)
Definition least4 (a b c d : Z) : Z := Z.min (Z.min a b) (Z.min c d).
Definition greatest4 (a b c d : Z) : Z := Z.max (Z.max a b) (Z.max c d).
(** The operands of an operation are values of the type it is computed in: that type is signed,
    or neither is negative. *)
Definition ends_fit (i j : ity) (la lb : Z) : Prop := isigned (arith_conv i j) = true \/ (0 <= la /\ 0 <= lb).
