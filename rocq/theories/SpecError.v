(** Specification vocabulary for expressions whose casts and divisions truncate: the value in
    exact arithmetic and how far from it the result may be. *)

From Coq Require Import ZArith QArith Qabs String List.
From Verif Require Import Outcome CInt Root Ratio SpecRatio Unit Dim DimOp Equivalent SpecDim SpecUnit Rep QuantityCast Quantity SpecQuantity Point
  Expr SpecExpr Affine SpecAffine.
Local Open Scope Q_scope.

(** The result of the expression is a number of units of the magnitude [m]. *)
Definition counted_in (rb : rebinding) (est : estimate) (w : world) (e : aexpr) (m : Q) : Prop :=
  (forall q, aeval rb est w e = Ok (VQuantity q) -> q_rep (q_type q) = RInt I64 /\ sized est (q_type q) m) /\
  (forall p, aeval rb est w e = Ok (VPoint p) -> p_rep (pt_type p) = RInt I64 /\ sized est (p_qtype (pt_type p)) m).
(** The points the two expressions give have origins at one place. *)
Definition same_place (rb : rebinding) (est : estimate) (w : world) (at_ : frame) (a b : aexpr) : Prop :=
  forall p s, aeval rb est w a = Ok (VPoint p) -> aeval rb est w b = Ok (VPoint s) ->
  at_ (p_origin (pt_type p)) == at_ (p_origin (pt_type s)).
Definition origin_at (rb : rebinding) (est : estimate) (w : world) (at_ : frame) (e : aexpr) (o : Q) : Prop :=
  forall p, aeval rb est w e = Ok (VPoint p) -> at_ (p_origin (pt_type p)) == o.

(** The error of a product and of a quotient whose operands [x] and [y] are known up to [e] and [f]. *)
Definition product_error (x e y f : Q) : Q := Qabs x * f + Qabs y * e + e * f.
Definition quotient_error (x e y f : Q) : Q := (Qabs x * f + Qabs y * e) / (Qabs y * (Qabs y - f)).

(** [near e v d]: in exact arithmetic the expression has the value [v], and what the library
    computes is at most [d] away.  Conversions, sums and products add no error of their own; a
    cast and a division add one unit of their result.  The divisor must not be lost in its
    error.  Remainders, which jump, have no rule. *)
Inductive near (rb : rebinding) (est : estimate) (w : world) (at_ : frame) : aexpr -> Q -> Q -> Prop :=
| nr_quantity : forall q v, valued est q v -> near rb est w at_ (AQuantity q) v 0
| nr_point : forall p v, valued est (relative p) v -> near rb est w at_ (APoint p) (at_ (p_origin (pt_type p)) + v) 0
| nr_pos : forall a v d, near rb est w at_ a v d -> near rb est w at_ (AUnary UPos a) v d
| nr_neg : forall a v d, near rb est w at_ a v d -> near rb est w at_ (AUnary UNeg a) (- v) d
| nr_add : forall a b x y e f, near rb est w at_ a x e -> near rb est w at_ b y f -> near rb est w at_ (ABinary BAdd a b) (x + y) (e + f)
| nr_sub : forall a b x y e f, near rb est w at_ a x e -> near rb est w at_ b y f -> near rb est w at_ (ABinary BSub a b) (x - y) (e + f)
| nr_mul : forall a b x y e f, near rb est w at_ a x e -> near rb est w at_ b y f ->
    near rb est w at_ (ABinary BMul a b) (x * y) (product_error x e y f)
| nr_div : forall a b x y e f m, near rb est w at_ a x e -> near rb est w at_ b y f -> f < Qabs y ->
    counted_in rb est w (ABinary BDiv a b) m -> near rb est w at_ (ABinary BDiv a b) (x / y) (quotient_error x e y f + m)
| nr_mulv : forall a i z x e, near rb est w at_ a x e -> in_range i z = true -> i <> U64 ->
    near rb est w at_ (AUnary (UMulV (RInt i) (NInt z)) a) (x * inject_Z z) (e * Qabs (inject_Z z))
| nr_vmul : forall a i z x e, near rb est w at_ a x e -> in_range i z = true -> i <> U64 ->
    near rb est w at_ (AUnary (UVMul (RInt i) (NInt z)) a) (inject_Z z * x) (e * Qabs (inject_Z z))
| nr_divv : forall a i z x e m, near rb est w at_ a x e -> in_range i z = true -> i <> U64 ->
    counted_in rb est w (AUnary (UDivV (RInt i) (NInt z)) a) m ->
    near rb est w at_ (AUnary (UDivV (RInt i) (NInt z)) a) (x / inject_Z z) (e / Qabs (inject_Z z) + m)
| nr_conv : forall t a x e, near rb est w at_ a x e -> q_rep t = RInt I64 -> (exists m, sized est t m) ->
    near rb est w at_ (AUnary (UConv t) a) x e
| nr_cast : forall c a x e m, near rb est w at_ a x e -> counted_in rb est w (AUnary (UCast c) a) m ->
    near rb est w at_ (AUnary (UCast c) a) x (e + m)
| nr_move : forall t a x e, near rb est w at_ a x e -> p_rep t = RInt I64 -> (exists m, sized est (p_qtype t) m) ->
    near rb est w at_ (AMove t a) x e
| nr_pcast : forall c a x e m, near rb est w at_ a x e -> counted_in rb est w (APointCast c a) m ->
    same_place rb est w at_ a (APointCast c a) -> near rb est w at_ (APointCast c a) x (e + m)
| nr_pcastto : forall t a x e m, near rb est w at_ a x e -> counted_in rb est w (APointCastTo t a) m ->
    same_place rb est w at_ a (APointCastTo t a) -> near rb est w at_ (APointCastTo t a) x (e + m)
| nr_relative : forall a x e o, near rb est w at_ a x e -> origin_at rb est w at_ a o -> near rb est w at_ (ARelative a) (x - o) e
| nr_make : forall t a x e, near rb est w at_ a x e -> p_rep t = RInt I64 -> (exists m, sized est (p_qtype t) m) ->
    near rb est w at_ (AMake t a) (at_ (p_origin t) + x) e.

(** The result is within [d] of [v]. *)
Definition within (est : estimate) (at_ : frame) (r : avalue) (v d : Q) : Prop :=
  exists v', at_value est at_ r v' /\ Qabs (v' - v) <= d.
