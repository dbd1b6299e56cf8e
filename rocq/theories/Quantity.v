(** Model of [src/core/include/units/quantity.h]: construction, operators and
    comparison of quantities.

    [gsl_ExpectsAudit] is off by default (gsl-lite), so a zero divisor reaches the
    division of the representation. *)

From Coq Require Import ZArith String List Bool SpecFloat.
From Verif Require Import Outcome CInt RatioMaths Root Ratio FixedString Unit Dim DimOp Equivalent Rep Reference
  QuantityCast CommonQuantity.
Import ListNotations.
Local Open Scope string_scope.
Local Open Scope Z_scope.
Local Open Scope res_scope.

(** A quantity object: its type and its number. *)
Record quantity := Quantity { q_type : qtype; q_num : number }.

(** [units::one] and [dim_one], generic/dimensionless.h:34-43.  (The ratio is the value
    of [ratio(1)].) *)
Definition unit_one : cunit :=
  CUnit (Some "one") [] (Ratio 1 1 0) "one" true (Some (st_of_ascii "")) no_prefix.
Definition dim_one : dimension := DDerived "dim_one" [] unit_one [].

(** [safe_convertible_to_<From, To>], quantity.h:55-60, on representations. *)
Definition safe_convertible (from to : rep) : bool := floating to || negb (floating from).

(** The constructor from a value, quantity.h:150-153. *)
Definition q_make (t : qtype) (r : rep) (v : number) : res quantity :=
  _ <- constrained (safe_convertible r (q_rep t));
  x <- n_convert (q_rep t) v;
  Ok (Quantity t x).

(** zero, one, min, max, quantity.h:121-143. *)
Definition q_zero (t : qtype) : quantity := Quantity t (rep_zero (q_rep t)).
Definition q_one (t : qtype) : quantity := Quantity t (rep_one (q_rep t)).
Definition q_min (t : qtype) : quantity := Quantity t (rep_min (q_rep t)).
Definition q_max (t : qtype) : quantity := Quantity t (rep_max (q_rep t)).

(** Implicit conversion to the type [t], quantity.h:155-156. *)
Definition q_to (est : estimate) (t : qtype) (q : quantity) : res quantity :=
  n <- q_convert est (q_type q) t (q_num q); Ok (Quantity t n).

Definition with_rep (t : qtype) (r : rep) : qtype := QType (q_dim t) (q_unit t) r.

(** Unary operators, quantity.h:172-184. *)
Definition q_plus (q : quantity) : res quantity :=
  let r := promote_rep (q_rep (q_type q)) in
  x <- n_convert r (q_num q); Ok (Quantity (with_rep (q_type q) r) x).
Definition q_neg (q : quantity) : res quantity :=
  let r := promote_rep (q_rep (q_type q)) in
  x <- n_neg (q_rep (q_type q)) (q_num q); Ok (Quantity (with_rep (q_type q) r) x).

(** [+] and [-] of two quantities, quantity.h:399-413.  The result type uses the
    representation [decltype(a op b)]. *)
Definition q_addsub (o : arith_op) (est : estimate) (w : world) (a b : quantity) : res quantity :=
  let r := arith_rep (q_rep (q_type a)) (q_rep (q_type b)) in
  t <- common_quantity est w (q_type a) (q_type b) r;
  x <- q_convert est (q_type a) t (q_num a);
  y <- q_convert est (q_type b) t (q_num b);
  z <- n_op o r r x y;
  z <- n_convert r z;
  Ok (Quantity t z).
Definition q_add := q_addsub OpAdd.
Definition q_sub := q_addsub OpSub.

(** [+] and [-] with a plain number, quantity.h:289-317.  Only the unit is
    checked to be [one]; the result is [units::quantity(number)], of dimension [dim_one]. *)
Definition is_unit_one (u : cunit) : bool := if cunit_eq_dec u unit_one then true else false.
Definition q_addsub_value (o : arith_op) (swap : bool) (q : quantity) (r : rep) (v : number) : res quantity :=
  let rq := q_rep (q_type q) in
  let ret := arith_rep rq r in
  _ <- constrained (is_unit_one (q_unit (q_type q)) && safe_convertible rq ret);
  x <- (if swap then n_op o r rq v (q_num q) else n_op o rq r (q_num q) v);
  Ok (Quantity (QType dim_one unit_one ret) x).

(** [*] and [/] of two quantities, quantity.h:415-428. *)
Definition q_times (w : world) (a b : quantity) : res quantity :=
  let ta := q_type a in let tb := q_type b in
  r <- reference_multiply w (Reference (q_dim ta) (q_unit ta)) (Reference (q_dim tb) (q_unit tb));
  x <- n_op OpMul (q_rep ta) (q_rep tb) (q_num a) (q_num b);
  Ok (Quantity (QType (ref_dim r) (ref_unit r) (arith_rep (q_rep ta) (q_rep tb))) x).
Definition q_over (w : world) (a b : quantity) : res quantity :=
  let ta := q_type a in let tb := q_type b in
  r <- reference_divide w (Reference (q_dim ta) (q_unit ta)) (Reference (q_dim tb) (q_unit tb));
  x <- n_op OpDiv (q_rep ta) (q_rep tb) (q_num a) (q_num b);
  Ok (Quantity (QType (ref_dim r) (ref_unit r) (arith_rep (q_rep ta) (q_rep tb))) x).

(** [q * v], [v * q], [q / v], quantity.h:319-345: [invoke_result_convertible_to_]
    asks that the representation converts safely to the result's. *)
Definition q_scale (o : arith_op) (swap : bool) (q : quantity) (r : rep) (v : number) : res quantity :=
  let rq := q_rep (q_type q) in
  let ret := arith_rep rq r in
  _ <- constrained (safe_convertible rq ret);
  x <- (if swap then n_op o r rq v (q_num q) else n_op o rq r (q_num q) v);
  Ok (Quantity (with_rep (q_type q) ret) x).
Definition q_mul_value := q_scale OpMul false.
Definition value_mul_q := q_scale OpMul true.
Definition q_div_value := q_scale OpDiv false.

(** [v / q], quantity.h:347-357: dimension [dim_invert<D>], unit [inverse(U::ratio)]. *)
Definition value_div_q (w : world) (r : rep) (v : number) (q : quantity) : res quantity :=
  let t := q_type q in
  let ret := arith_rep r (q_rep t) in
  _ <- constrained (safe_convertible (q_rep t) ret);
  d <- dim_invert w (q_dim t);
  i <- rinv (u_ratio (q_unit t));
  u <- downcast_unit w d i;
  x <- n_op OpDiv r (q_rep t) v (q_num q);
  Ok (Quantity (QType d u ret) x).

(** [q % v], quantity.h:359-367. *)
Definition q_rem_value (q : quantity) (r : rep) (v : number) : res quantity :=
  _ <- constrained (negb (floating (q_rep (q_type q))) && negb (floating r));
  q_scale OpRem false q r v.
(** [q1 % q2]: same type, quantity.h:369-376, and the free operator, :430-439.  Both
    take the remainder of the numbers and keep the unit of the first operand. *)
Definition q_rem (a b : quantity) : res quantity :=
  let ta := q_type a in let tb := q_type b in
  _ <- constrained (negb (floating (q_rep ta)) && negb (floating (q_rep tb)) &&
                    (dim_equivalent (q_dim ta) (q_dim tb) || dim_equivalent (q_dim tb) dim_one));
  x <- n_op OpRem (q_rep ta) (q_rep tb) (q_num a) (q_num b);
  Ok (Quantity (with_rep ta (arith_rep (q_rep ta) (q_rep tb))) x).

(** [<=>] and [==], same type: quantity.h:378-388; different types: :441-455. *)
Definition q_common (est : estimate) (w : world) (a b : quantity) : res (number * number) :=
  if qtype_eq_dec (q_type a) (q_type b) then Ok (q_num a, q_num b)
  else
    t <- common_quantity est w (q_type a) (q_type b) (common_rep (q_rep (q_type a)) (q_rep (q_type b)));
    x <- q_convert est (q_type a) t (q_num a);
    y <- q_convert est (q_type b) t (q_num b);
    Ok (x, y).
Definition q_compare (est : estimate) (w : world) (a b : quantity) : res (option comparison) :=
  p <- q_common est w a b; n_compare (fst p) (snd p).
Definition q_eqb (est : estimate) (w : world) (a b : quantity) : res bool :=
  p <- q_common est w a b; n_eqb (fst p) (snd p).

(** Member operators that change the quantity, quantity.h:186-285.  The operand of
    [+=], [-=] and [%=] with a quantity is first converted to the type of the left
    operand (implicit conversion of the argument).  The overloads of [*=], [/=] and [%=]
    for a [dimensionless<one>] (:233-239, :249-256, :268-276) take its number; the
    postfix operators return the old value and have the same effect. *)
Inductive action :=
| AInc | ADec
| AAdd (q : quantity) | ASub (q : quantity) | ARem (q : quantity)
| AMulV (r : rep) (v : number) | ADivV (r : rep) (v : number) | ARemV (r : rep) (v : number).

Definition q_act (est : estimate) (q : quantity) (a : action) : res quantity :=
  let t := q_type q in
  let r := q_rep t in
  n <- match a with
       | AInc => n_assign OpAdd r (RInt I32) (q_num q) (NInt 1)
       | ADec => n_assign OpSub r (RInt I32) (q_num q) (NInt 1)
       | AAdd b => x <- q_convert est (q_type b) t (q_num b); n_assign OpAdd r r (q_num q) x
       | ASub b => x <- q_convert est (q_type b) t (q_num b); n_assign OpSub r r (q_num q) x
       | ARem b => _ <- constrained (negb (floating r));
                   x <- q_convert est (q_type b) t (q_num b); n_assign OpRem r r (q_num q) x
       | AMulV r2 v => n_assign OpMul r r2 (q_num q) v
       | ADivV r2 v => n_assign OpDiv r r2 (q_num q) v
       | ARemV r2 v => _ <- constrained (negb (floating r) && negb (floating r2));
                       n_assign OpRem r r2 (q_num q) v
       end;
  Ok (Quantity t n).
Fixpoint q_run (est : estimate) (q : quantity) (l : list action) : res quantity :=
  match l with
  | [] => Ok q
  | a :: r => q' <- q_act est q a; q_run est q' r
  end.
