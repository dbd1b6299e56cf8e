(** Specification vocabulary for expressions of quantities: dimensional analysis and the
    arithmetic of physical values. *)

From Coq Require Import ZArith QArith Qabs String List SpecFloat.
From Verif Require Import Outcome CInt Root Ratio SpecRatio Unit Dim DimOp Equivalent SpecDim SpecUnit Rep QuantityCast Quantity SpecQuantity Point
  DimOpProofs DimOpProofs3 EquivProofs Expr.
Local Open Scope Z_scope.

(** ** Dimensional analysis *)

(** What a dimension is in physics: an exponent for every kind of base quantity, which is known
    by the symbol of the base dimension and the unit its units are multiples of. *)
Definition exps := string -> string -> Q.
Definition same_exps (f g : exps) : Prop := forall s r, (f s r == g s r)%Q.
Definition dim_exps (d : dimension) : exps := class_expo (exponents d).
Definition no_exps : exps := fun _ _ => 0%Q.

(** The dimension a cast or conversion asks for, if it names one. *)
Definition asks_for (c : castspec) (f : exps) : Prop :=
  match c with
  | ToQuantity t => same_exps (dim_exps (q_dim t)) f
  | ToDim d => same_exps (dim_exps d) f
  | ToUnit _ | ToRep _ => True
  end.

(** The rules of dimensional analysis: sums, differences and conversions join equal dimensions,
    the exponents of products and quotients are sums and differences, numbers have none. *)
Inductive has_dim : qexpr -> exps -> Prop :=
| hd_lit : forall q f, same_exps (dim_exps (q_dim (q_type q))) f -> has_dim (ELit q) f
| hd_pos : forall a f, has_dim a f -> has_dim (EPos a) f
| hd_neg : forall a f, has_dim a f -> has_dim (ENeg a) f
| hd_add : forall a b f, has_dim a f -> has_dim b f -> has_dim (EAdd a b) f
| hd_sub : forall a b f, has_dim a f -> has_dim b f -> has_dim (ESub a b) f
| hd_mul : forall a b f g h, has_dim a f -> has_dim b g -> same_exps (fun s r => f s r + g s r)%Q h -> has_dim (EMul a b) h
| hd_div : forall a b f g h, has_dim a f -> has_dim b g -> same_exps (fun s r => f s r - g s r)%Q h -> has_dim (EDiv a b) h
| hd_rem : forall a b f g, has_dim a f -> has_dim b g -> same_exps g f \/ same_exps g no_exps -> has_dim (ERem a b) f
| hd_mulv : forall a r v f, has_dim a f -> has_dim (EMulV a r v) f
| hd_vmul : forall a r v f, has_dim a f -> has_dim (EVMul r v a) f
| hd_divv : forall a r v f, has_dim a f -> has_dim (EDivV a r v) f
| hd_vdiv : forall a r v f g, has_dim a f -> same_exps (fun s t => - f s t)%Q g -> has_dim (EVDiv r v a) g
| hd_remv : forall a r v f, has_dim a f -> has_dim (ERemV a r v) f
| hd_conv : forall t a f, has_dim a f -> same_exps (dim_exps (q_dim t)) f -> has_dim (EConv t a) f
| hd_cast : forall c a f, has_dim a f -> asks_for c f -> has_dim (ECast c a) f.

(** ** Physical values *)

(** The exact value of an expression, by the arithmetic of rational numbers.  A division is
    exact only if it comes out even, which the rule requires of the numbers divided. *)
Definition number_of (est : estimate) (w : world) (e : qexpr) (n : Z) : Prop :=
  exists q, eval est w e = Ok q /\ q_num q = NInt n.
(** Both expressions have results of one dimension and unit. *)
Definition same_units (est : estimate) (w : world) (a b : qexpr) : Prop :=
  forall x y, eval est w a = Ok x -> eval est w b = Ok y ->
  q_dim (q_type x) = q_dim (q_type y) /\ q_unit (q_type x) = q_unit (q_type y).
(** The coherent units of the result and of its inverse are inverse to each other (not so for
    mass: the coherent unit kilogram is 10^3 times the reference). *)
Definition inverse_coherent (est : estimate) (w : world) (e : qexpr) : Prop :=
  forall x d, eval est w e = Ok x -> dim_invert w (q_dim (q_type x)) = Ok d ->
  (rval (u_ratio (dimension_unit (q_dim (q_type x)))) * rval (u_ratio (dimension_unit d)) == 1)%Q.
Inductive means (est : estimate) (w : world) : qexpr -> Q -> Prop :=
| mn_lit : forall q v, valued est q v -> means est w (ELit q) v
| mn_pos : forall a v, means est w a v -> means est w (EPos a) v
| mn_neg : forall a v, means est w a v -> means est w (ENeg a) (- v)
| mn_add : forall a b x y, means est w a x -> means est w b y -> means est w (EAdd a b) (x + y)
| mn_sub : forall a b x y, means est w a x -> means est w b y -> means est w (ESub a b) (x - y)
| mn_mul : forall a b x y, means est w a x -> means est w b y -> means est w (EMul a b) (x * y)
| mn_div : forall a b x y n k, means est w a x -> means est w b y -> number_of est w a n -> number_of est w b k -> (k | n) ->
    means est w (EDiv a b) (x / y)
| mn_mulv : forall a i z x, means est w a x -> in_range i z = true -> i <> U64 -> means est w (EMulV a (RInt i) (NInt z)) (x * inject_Z z)
| mn_vmul : forall a i z x, means est w a x -> in_range i z = true -> i <> U64 -> means est w (EVMul (RInt i) (NInt z) a) (inject_Z z * x)
| mn_divv : forall a i z x n, means est w a x -> in_range i z = true -> i <> U64 -> number_of est w a n -> (z | n) ->
    means est w (EDivV a (RInt i) (NInt z)) (x / inject_Z z)
| mn_vdiv : forall a i z x k, means est w a x -> in_range i z = true -> i <> U64 -> number_of est w a k -> (k | z) ->
    inverse_coherent est w a -> means est w (EVDiv (RInt i) (NInt z) a) (inject_Z z / x)
| mn_rem : forall a b x y k, means est w a x -> means est w b y -> same_units est w a b -> trunc_of (x / y) k ->
    means est w (ERem a b) (x - inject_Z k * y)
| mn_conv : forall t a x, means est w a x -> q_rep t = RInt I64 -> (exists m, sized est t m) -> means est w (EConv t a) x.

(** A dimension as the library writes it in the system of units [U]: known to the program [w]
    under its exponents, which are whole numbers. *)
Definition whole (d : dimension) : Prop := Forall (fun e => e_den e = 1) (exponents d).
Definition in_system (U : bdim -> Prop) (w : world) (d : dimension) : Prop :=
  ndim U d /\ canonical w d /\ whole d.

(** The dimensions written in the expression. *)
Fixpoint all_dims (P : dimension -> Prop) (e : qexpr) : Prop :=
  match e with
  | ELit q => P (q_dim (q_type q))
  | EAdd a b | ESub a b | EMul a b | EDiv a b | ERem a b => all_dims P a /\ all_dims P b
  | EPos a | ENeg a | EMulV a _ _ | EVMul _ _ a | EDivV a _ _ | EVDiv _ _ a | ERemV a _ _ => all_dims P a
  | EConv t a => P (q_dim t) /\ all_dims P a
  | ECast c a => match c with ToQuantity t => P (q_dim t) | ToDim d => P d | _ => True end /\ all_dims P a
  end.

(** The units of the base dimensions and of the dimensions the program has declared carry good
    ratios. *)
Definition good_system (U : bdim -> Prop) (w : world) : Prop :=
  consistent w /\ (forall b, U b -> base_good b) /\
  (forall es d, In (es, d) (Downcast.guides (w_dims w)) -> unit_good (dimension_unit d)).

(** ** Formulas in coherent units *)

(** The unit of the type is the coherent unit of its dimension, under whatever name. *)
Definition coherent (t : qtype) : Prop :=
  unit_of (q_unit t) (q_dim t) = true /\ u_ratio (q_unit t) = u_ratio (dimension_unit (q_dim t)).

(** All quantities are numbers of the floating type [f] in coherent units; numbers that scale
    them do not widen the type. *)
Fixpoint formula (f : fty) (e : qexpr) : Prop :=
  match e with
  | ELit q => coherent (q_type q) /\ q_rep (q_type q) = RFlt f /\ num_ok (RFlt f) (q_num q) = true
  | EPos a | ENeg a => formula f a
  | EAdd a b | ESub a b | EMul a b | EDiv a b => formula f a /\ formula f b
  | EMulV a r v | EVMul r v a | EDivV a r v => arith_rep (RFlt f) r = RFlt f /\ num_ok r v = true /\ formula f a
  | EConv t a => coherent t /\ q_rep t = RFlt f /\ formula f a
  | _ => False
  end.

(** The same formula on bare numbers. *)
Definition as_float (f : fty) (n : number) : spec_float :=
  match n with NInt z => float_of_int f z | NFlt x => float_conv f x end.
Fixpoint bare (f : fty) (e : qexpr) : spec_float :=
  match e with
  | ELit q => as_float f (q_num q)
  | EPos a | EConv _ a => bare f a
  | ENeg a => SFopp (bare f a)
  | EAdd a b => SFadd (fprec f) (femax f) (bare f a) (bare f b)
  | ESub a b => SFsub (fprec f) (femax f) (bare f a) (bare f b)
  | EMul a b => SFmul (fprec f) (femax f) (bare f a) (bare f b)
  | EDiv a b => SFdiv (fprec f) (femax f) (bare f a) (bare f b)
  | EMulV a _ v => SFmul (fprec f) (femax f) (bare f a) (as_float f v)
  | EVMul _ v a => SFmul (fprec f) (femax f) (as_float f v) (bare f a)
  | EDivV a _ v => SFdiv (fprec f) (femax f) (bare f a) (as_float f v)
  | _ => S754_nan
  end.

(** The sum of the absolute exponents of a base dimension in the quantities of the formula: no
    exponent on the way can be larger. *)
Fixpoint weight (e : qexpr) (b : bdim) : Q :=
  match e with
  | ELit q => Qabs (dim_expo (q_dim (q_type q)) b)
  | EAdd x y | ESub x y | EMul x y | EDiv x y | ERem x y => (weight x b + weight y b)%Q
  | EPos a | ENeg a | EMulV a _ _ | EVMul _ _ a | EDivV a _ _ | EVDiv _ _ a | ERemV a _ _ | EConv _ a | ECast _ a => weight a b
  end.

(** No coherent unit has the smallest exponent of ten there is (it has no inverse). *)
Definition ordinary_system (U : bdim -> Prop) (w : world) : Prop :=
  (forall b, U b -> rexp (base_ratio b) <> INTMAX_MIN) /\
  (forall es d, In (es, d) (Downcast.guides (w_dims w)) -> rexp (u_ratio (dimension_unit d)) <> INTMAX_MIN).
