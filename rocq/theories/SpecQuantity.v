(** Specification vocabulary for quantities with integral representations: physical
    values, truncation and the products a cast computes. *)

From Coq Require Import ZArith QArith Qpower List.
From Verif Require Import Outcome CInt Root Ratio SpecRatio Unit Dim DimOp Equivalent SpecUnit Rep QuantityCast CommonQuantity Quantity.
Local Open Scope Z_scope.

(** [z] is [q] with the fractional part removed. *)
Definition trunc_of (q : Q) (z : Z) : Prop :=
  ((0 <= q)%Q -> (inject_Z z <= q < inject_Z z + 1)%Q) /\
  ((q <= 0)%Q -> (inject_Z z - 1 < q <= inject_Z z)%Q).

(** [z] times a unit of size [m2] is [n] times a unit of size [m1]. *)
Definition same_value (n : Z) (m1 : Q) (z : Z) (m2 : Q) : Prop :=
  (inject_Z n * m1 == inject_Z z * m2)%Q.

(** The quantity [q] has the physical value [v]. *)
Definition denotes (q : quantity) (v : Q) : Prop :=
  exists n m, q_num q = NInt n /\ magnitude (q_dim (q_type q)) (q_unit (q_type q)) m /\
    (v == inject_Z n * m)%Q.

(** A type whose dimension and unit carry good ratios. *)
Definition qtype_good (t : qtype) : Prop := dim_good (q_dim t) /\ unit_good (q_unit t).

(** The reference unit has the same magnitude seen from either dimension.  (A unit knows
    its reference only by name; the library assumes that a reference means one size.) *)
Definition reference_agrees (d1 d2 : dimension) : Prop :=
  forall b1 b2, coherent_magnitude (exponents d1) b1 -> coherent_magnitude (exponents d2) b2 ->
  (b1 / rval (u_ratio (dimension_unit d1)) == b2 / rval (u_ratio (dimension_unit d2)))%Q.
Definition references_ok (t1 t2 : qtype) : Prop :=
  u_ref (q_unit t1) = u_ref (q_unit t2) -> reference_agrees (q_dim t1) (q_dim t2).

(** The integers a cast by the factor [c] multiplies out are values of the type [t]. *)
Definition products_fit (t : ity) (c : ratio) (n : Z) : Prop :=
  let '(p, q) := if 0 <? rexp c then (10 ^ rexp c, 1) else (1, 10 ^ (- rexp c)) in
  in_range t n = true /\ Z.abs (rexp c) <= 18 /\
  in_range t (rnum c * p) = true /\ in_range t (n * (rnum c * p)) = true /\ in_range t (rden c * q) = true.

(** No product computed by [quantity_cast] leaves the type the cast computes in. *)
Definition no_overflow (est : estimate) (from to : qtype) (n : Z) : Prop :=
  exists c t, cast_ratio est (q_dim from) (q_unit from) (q_dim to) (q_unit to) = Ok c /\
    cast_rep (q_rep from) (q_rep to) = RInt t /\ products_fit t c n.

(** The value [q] is a value of the integer type [r]. *)
Definition value_fits (r : rep) (q : Q) : Prop :=
  exists t, r = RInt t /\ (inject_Z (imin t) <= q <= inject_Z (imax t))%Q.

(** The type [t] is one the library accepts, and its unit has the magnitude [m]. *)
Definition sized (est : estimate) (t : qtype) (m : Q) : Prop :=
  qtype_good t /\ unit_of (q_unit t) (q_dim t) = true /\ Forall (exact_root est) (exponents (q_dim t)) /\
  magnitude (q_dim t) (q_unit t) m.

(** The number [n] of the type [from] survives the conversion to [to]: the products fit,
    and so does the value in the new unit. *)
Definition convertible (est : estimate) (from to : qtype) (n : Z) : Prop :=
  from = to \/
  (no_overflow est from to n /\
   forall m1 m2, magnitude (q_dim from) (q_unit from) m1 -> magnitude (q_dim to) (q_unit to) m2 ->
   value_fits (q_rep to) (inject_Z n * m1 / m2)).

(** Two types the common type of which is meaningful: equal references are one unit, and
    coherent units of different references have the same ratio (in practice 1). *)
Definition compatible (t1 t2 : qtype) : Prop :=
  references_ok t1 t2 /\
  (u_ref (q_unit t1) <> u_ref (q_unit t2) ->
   (rval (u_ratio (dimension_unit (q_dim t1))) == rval (u_ratio (dimension_unit (q_dim t2))))%Q).

(** An integral quantity: the number is a value of its representation. *)
Definition integral (q : quantity) (a : ity) (n : Z) : Prop :=
  q_rep (q_type q) = RInt a /\ q_num q = NInt n /\ in_range a n = true.

(** A signed 64-bit quantity with the physical value [v]. *)
Definition valued (est : estimate) (q : quantity) (v : Q) : Prop :=
  exists n m, integral q I64 n /\ sized est (q_type q) m /\ (v == inject_Z n * m)%Q.

(** [m] is the coarsest magnitude dividing both. *)
Definition common_magnitude (m1 m2 m : Q) : Prop :=
  (0 < m)%Q /\ multiple_of m1 m /\ multiple_of m2 m /\
  (forall h, multiple_of m1 h -> multiple_of m2 h -> multiple_of m h).

(** Both operands survive the conversion to their common type with representation [r]. *)
Definition both_convertible (est : estimate) (w : world) (r : rep) (a b : quantity) (na nb : Z) : Prop :=
  forall t, common_quantity est w (q_type a) (q_type b) r = Ok t ->
  convertible est (q_type a) t na /\ convertible est (q_type b) t nb.

(** The operand of a compound assignment: a quantity with the value [x] that survives the
    conversion to the type [t]. *)
Inductive operand (est : estimate) (t : qtype) (b : quantity) (x : Q) : Prop :=
| operand_intro : forall i n mb, integral b i n -> sized est (q_type b) mb -> references_ok (q_type b) t ->
    convertible est (q_type b) t n -> (x == inject_Z n * mb)%Q -> operand est t b x.

(** Division by a number: both operands are representable in the type of the division. *)
Inductive scalar_fits (t : qtype) (i : ity) (n : Q) (y : Z) : Prop :=
| fits_signed : forall a, q_rep t = RInt a -> isigned (arith_conv a i) = true -> scalar_fits t i n y
| fits_positive : (0 <= n)%Q -> 0 <= y -> scalar_fits t i n y.

(** The exact effect of a member operator on the physical value [v] of a quantity of the
    type [t] with the unit magnitude [m] (integral operands). *)
Inductive effect (est : estimate) (t : qtype) (m : Q) (v : Q) : action -> Q -> Prop :=
| eff_inc : forall v', (v' == v + m)%Q -> effect est t m v AInc v'
| eff_dec : forall v', (v' == v - m)%Q -> effect est t m v ADec v'
| eff_add : forall b x v', operand est t b x -> (v' == v + x)%Q -> effect est t m v (AAdd b) v'
| eff_sub : forall b x v', operand est t b x -> (v' == v - x)%Q -> effect est t m v (ASub b) v'
| eff_rem : forall b x k v', operand est t b x -> ~ (x == 0)%Q -> trunc_of (v / x) k -> (v' == v - inject_Z k * x)%Q ->
    effect est t m v (ARem b) v'
| eff_mulv : forall i y v', in_range i y = true -> (v' == v * inject_Z y)%Q -> effect est t m v (AMulV (RInt i) (NInt y)) v'
| eff_divv : forall i y k v', in_range i y = true -> y <> 0 -> scalar_fits t i (v / m) y ->
    trunc_of (v / m / inject_Z y) k -> (v' == inject_Z k * m)%Q -> effect est t m v (ADivV (RInt i) (NInt y)) v'
| eff_remv : forall i y k v', in_range i y = true -> y <> 0 -> scalar_fits t i (v / m) y ->
    trunc_of (v / m / inject_Z y) k -> (v' == v - inject_Z k * inject_Z y * m)%Q ->
    effect est t m v (ARemV (RInt i) (NInt y)) v'.

(** A history: every value on the way is a value of the type. *)
Inductive history (est : estimate) (t : qtype) (m : Q) : Q -> list action -> Q -> Prop :=
| hist_nil : forall v, history est t m v nil v
| hist_cons : forall v a v1 l v2, effect est t m v a v1 -> value_fits (q_rep t) (v1 / m) ->
    history est t m v1 l v2 -> history est t m v (a :: l) v2.

(** Casting through a list of types, one after the other. *)
Fixpoint cast_through (est : estimate) (from : qtype) (n : number) (l : list qtype) : res number :=
  match l with
  | nil => Ok n
  | cons t r => bind (quantity_cast est from t n) (fun x => cast_through est t x r)
  end.

(** A chain of types from [from] (number [n], magnitude [m]) to [to] with the magnitude
    [m'], successive magnitudes in the relation [R]; nothing overflows on the way. *)
Inductive chain (est : estimate) (R : Q -> Q -> Prop) : qtype -> Q -> Z -> list qtype -> qtype -> Q -> Prop :=
| chain_nil : forall t m n, chain est R t m n nil t m
| chain_cons : forall t m n t1 m1 n1 l to m', sized est t1 m1 -> R m m1 -> references_ok t t1 ->
    dim_equivalent (q_dim t1) (q_dim t) = true -> no_overflow est t t1 n ->
    value_fits (q_rep t1) (inject_Z n * m / m1) -> trunc_of (inject_Z n * m / m1) n1 ->
    chain est R t1 m1 n1 l to m' -> chain est R t m n (cons t1 l) to m'.

(** The conversion exists: the types coincide or the constraint of the converting
    constructor holds. *)
Definition accepted (est : estimate) (from to : qtype) : Prop :=
  from = to \/ safe_castable_to est from to = Ok true.

(** The operation on plain numbers that a member operator performs. *)
Inductive plain (est : estimate) (t : qtype) : action -> arith_op * rep * number -> Prop :=
| plain_inc : plain est t AInc (OpAdd, RInt I32, NInt 1)
| plain_dec : plain est t ADec (OpSub, RInt I32, NInt 1)
| plain_add : forall b x, q_to est t b = Ok (Quantity t x) -> plain est t (AAdd b) (OpAdd, q_rep t, x)
| plain_sub : forall b x, q_to est t b = Ok (Quantity t x) -> plain est t (ASub b) (OpSub, q_rep t, x)
| plain_rem : forall b x, q_to est t b = Ok (Quantity t x) -> plain est t (ARem b) (OpRem, q_rep t, x)
| plain_mulv : forall r v, plain est t (AMulV r v) (OpMul, r, v)
| plain_divv : forall r v, plain est t (ADivV r v) (OpDiv, r, v)
| plain_remv : forall r v, plain est t (ARemV r v) (OpRem, r, v).
Fixpoint plain_run (r : rep) (n : number) (l : list (arith_op * rep * number)) : res number :=
  match l with
  | nil => Ok n
  | cons (o, r2, v) k => bind (n_assign o r r2 n v) (fun x => plain_run r x k)
  end.
