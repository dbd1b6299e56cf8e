(** Quantities whose representation is a transparent wrapper of a number: a class with implicit
    conversions from and to its [value_type] and nothing else, such as [min_impl<T>] of
    [test/unit_test/static/custom_rep_test_min_impl.cpp:31-57].  Model of
    [src/core/include/units/quantity.h:121-455] and [quantity_cast.h:80-219] on such types and
    on mixtures of them with plain numbers.

    The class has no operators, so every operator of the language applies the conversion to
    [value_type] first, and [std::common_type] of the wrapper with anything is that of the
    [value_type]s (custom_rep_test_min_impl.cpp:52-57).  Simplification: the conversion of a
    wrapper to a wrapper of another type is the conversion of the numbers.  (In the class of the
    test this constructor names a private member of another class and would not compile if it
    were used; only the declaration is tested.) *)

From Coq Require Import ZArith String List Bool SpecFloat.
From Verif Require Import Outcome CInt Root Ratio Unit Dim DimOp Equivalent Rep Reference QuantityCast CommonQuantity Quantity Point.
Local Open Scope Z_scope.
Local Open Scope res_scope.

(** A plain number type, or the wrapper of one. *)
Inductive wrep := Bare (r : rep) | Wrapped (r : rep).
Definition value_type (r : wrep) : rep := match r with Bare r => r | Wrapped r => r end.

(** [quantity<D, U, Rep>] and its objects. *)
Record wtype := WType { wt_dim : dimension; wt_unit : cunit; wt_rep : wrep }.
Record wquantity := WQuantity { wq_type : wtype; wq_num : number }.
Definition number_type (t : wtype) : qtype := QType (wt_dim t) (wt_unit t) (value_type (wt_rep t)).
Definition bare_type (t : qtype) : wtype := WType (q_dim t) (q_unit t) (Bare (q_rep t)).
Definition wrep_eq_dec : forall a b : wrep, {a = b} + {a <> b}.
Proof. intros [a|a] [b|b]; try (right; discriminate); destruct (rep_eq_dec a b) as [E|E]; ((left; now subst) || (right; congruence)). Defined.
Definition wtype_eq_dec : forall a b : wtype, {a = b} + {a <> b}.
Proof.
  intros [d1 u1 r1] [d2 u2 r2].
  destruct (dimension_eq_dec d1 d2) as [A|A]; [|right; congruence].
  destruct (cunit_eq_dec u1 u2) as [B|B]; [|right; congruence].
  destruct (wrep_eq_dec r1 r2) as [C|C]; [left; now subst|right; congruence].
Defined.

(** [To(q)], quantity.h:155-156: the copy constructor if the types are the same, otherwise the
    converting constructor; [floating_point_] follows [value_type]
    (customization_points.h:43-45), and [cast_traits] (quantity_cast.h:83-88) finds the common
    type of the [value_type]s and [std::intmax_t]. *)
Definition w_convert (est : estimate) (from to : wtype) (n : number) : res number :=
  if wtype_eq_dec from to then Ok n
  else
    b <- safe_castable_to est (number_type from) (number_type to);
    _ <- constrained b;
    quantity_cast est (number_type from) (number_type to) n.
Definition w_to (est : estimate) (t : wtype) (q : wquantity) : res wquantity :=
  n <- w_convert est (wq_type q) t (wq_num q); Ok (WQuantity t n).

(** A number or a wrapped number as an operand. *)
Record wvalue := WValue { wv_rep : wrep; wv_num : number }.

(** The constructor from a value, quantity.h:150-153: explicit unless the quantity is a
    [dimensionless<one>]. *)
Definition w_make (t : wtype) (v : wvalue) : res wquantity :=
  _ <- constrained (safe_convertible (value_type (wv_rep v)) (value_type (wt_rep t)));
  x <- n_convert (value_type (wt_rep t)) (wv_num v);
  Ok (WQuantity t x).
Definition w_implicit (t : wtype) (v : wvalue) : res wquantity :=
  _ <- constrained ((if dimension_eq_dec (wt_dim t) dim_one then true else false) && is_unit_one (wt_unit t));
  w_make t v.

(** zero, one, quantity.h:121-131: [Rep(0)] and [Rep(1)].  min, max, quantity.h:133-143: for a
    class [std::numeric_limits] is the primary template, whose [lowest()] and [max()] are [Rep()]:
    the wrapped number is zero. *)
Definition w_zero (t : wtype) : wquantity := WQuantity t (rep_zero (value_type (wt_rep t))).
Definition w_one (t : wtype) : wquantity := WQuantity t (rep_one (value_type (wt_rep t))).
Definition w_min (t : wtype) : wquantity :=
  WQuantity t (match wt_rep t with Bare r => rep_min r | Wrapped r => rep_zero r end).
Definition w_max (t : wtype) : wquantity :=
  WQuantity t (match wt_rep t with Bare r => rep_max r | Wrapped r => rep_zero r end).

(** The type of a result: [D], [U] and a plain number. *)
Definition with_bare (t : wtype) (r : rep) : wtype := WType (wt_dim t) (wt_unit t) (Bare r).
Definition w_vt (q : wquantity) : rep := value_type (wt_rep (wq_type q)).

(** Unary operators, quantity.h:172-184. *)
Definition w_plus (q : wquantity) : res wquantity :=
  let r := promote_rep (w_vt q) in
  x <- n_convert r (wq_num q); Ok (WQuantity (with_bare (wq_type q) r) x).
Definition w_neg (q : wquantity) : res wquantity :=
  let r := promote_rep (w_vt q) in
  x <- n_neg (w_vt q) (wq_num q); Ok (WQuantity (with_bare (wq_type q) r) x).

(** [+] and [-], quantity.h:399-413: the representation of the result is [decltype(a op b)]. *)
Definition w_addsub (o : arith_op) (est : estimate) (w : world) (a b : wquantity) : res wquantity :=
  let r := arith_rep (w_vt a) (w_vt b) in
  t <- common_quantity est w (number_type (wq_type a)) (number_type (wq_type b)) r;
  x <- w_convert est (wq_type a) (bare_type t) (wq_num a);
  y <- w_convert est (wq_type b) (bare_type t) (wq_num b);
  z <- n_op o r r x y;
  z <- n_convert r z;
  Ok (WQuantity (bare_type t) z).

(** [*] and [/], quantity.h:415-428. *)
Definition w_times (w : world) (a b : wquantity) : res wquantity :=
  r <- reference_multiply w (Reference (wt_dim (wq_type a)) (wt_unit (wq_type a)))
                            (Reference (wt_dim (wq_type b)) (wt_unit (wq_type b)));
  x <- n_op OpMul (w_vt a) (w_vt b) (wq_num a) (wq_num b);
  Ok (WQuantity (WType (ref_dim r) (ref_unit r) (Bare (arith_rep (w_vt a) (w_vt b)))) x).
Definition w_over (w : world) (a b : wquantity) : res wquantity :=
  r <- reference_divide w (Reference (wt_dim (wq_type a)) (wt_unit (wq_type a)))
                          (Reference (wt_dim (wq_type b)) (wt_unit (wq_type b)));
  x <- n_op OpDiv (w_vt a) (w_vt b) (wq_num a) (wq_num b);
  Ok (WQuantity (WType (ref_dim r) (ref_unit r) (Bare (arith_rep (w_vt a) (w_vt b)))) x).

(** [q * v], [v * q], [q / v], quantity.h:319-345. *)
Definition w_scale (o : arith_op) (swap : bool) (q : wquantity) (v : wvalue) : res wquantity :=
  let rv := value_type (wv_rep v) in
  let ret := arith_rep (w_vt q) rv in
  _ <- constrained (safe_convertible (w_vt q) ret);
  x <- (if swap then n_op o rv (w_vt q) (wv_num v) (wq_num q) else n_op o (w_vt q) rv (wq_num q) (wv_num v));
  Ok (WQuantity (with_bare (wq_type q) ret) x).
(** [v / q], quantity.h:347-357. *)
Definition w_value_div (w : world) (v : wvalue) (q : wquantity) : res wquantity :=
  let rv := value_type (wv_rep v) in
  let ret := arith_rep rv (w_vt q) in
  _ <- constrained (safe_convertible (w_vt q) ret);
  d <- dim_invert w (wt_dim (wq_type q));
  i <- rinv (u_ratio (wt_unit (wq_type q)));
  u <- downcast_unit w d i;
  x <- n_op OpDiv rv (w_vt q) (wv_num v) (wq_num q);
  Ok (WQuantity (WType d u (Bare ret)) x).
(** [q % v] and [q1 % q2], quantity.h:359-376, :430-439. *)
Definition w_rem_value (q : wquantity) (v : wvalue) : res wquantity :=
  _ <- constrained (negb (floating (w_vt q)) && negb (floating (value_type (wv_rep v))));
  w_scale OpRem false q v.
Definition w_rem (a b : wquantity) : res wquantity :=
  _ <- constrained (negb (floating (w_vt a)) && negb (floating (w_vt b)) &&
         (dim_equivalent (wt_dim (wq_type a)) (wt_dim (wq_type b)) || dim_equivalent (wt_dim (wq_type b)) dim_one));
  x <- n_op OpRem (w_vt a) (w_vt b) (wq_num a) (wq_num b);
  Ok (WQuantity (with_bare (wq_type a) (arith_rep (w_vt a) (w_vt b))) x).

(** [<=>] and [==]: same type, quantity.h:378-388; different types, :441-455.  The numbers are
    compared after conversion to [value_type]. *)
Definition w_common (est : estimate) (w : world) (a b : wquantity) : res (number * number) :=
  if wtype_eq_dec (wq_type a) (wq_type b) then Ok (wq_num a, wq_num b)
  else
    t <- common_quantity est w (number_type (wq_type a)) (number_type (wq_type b)) (common_rep (w_vt a) (w_vt b));
    x <- w_convert est (wq_type a) (bare_type t) (wq_num a);
    y <- w_convert est (wq_type b) (bare_type t) (wq_num b);
    Ok (x, y).
Definition w_compare (est : estimate) (w : world) (a b : wquantity) : res (option comparison) :=
  p <- w_common est w a b; n_compare (fst p) (snd p).
Definition w_eqb (est : estimate) (w : world) (a b : wquantity) : res bool :=
  p <- w_common est w a b; n_eqb (fst p) (snd p).

(** The casts, quantity_cast.h:114-219.  Those that name a dimension or a unit keep the
    representation, wrapper or not. *)
Inductive wcast := WToQuantity (t : wtype) | WToDim (d : dimension) | WToUnit (u : cunit) | WToRep (r : wrep).
Definition rewrap (r : wrep) (t : qtype) : wtype :=
  WType (q_dim t) (q_unit t) (match r with Bare _ => Bare (q_rep t) | Wrapped _ => Wrapped (q_rep t) end).
Definition w_cast (est : estimate) (w : world) (c : wcast) (q : wquantity) : res wquantity :=
  let from := number_type (wq_type q) in
  match c with
  | WToQuantity t => n <- quantity_cast est from (number_type t) (wq_num q); Ok (WQuantity t n)
  | WToDim d => x <- quantity_cast_dim est w d from (wq_num q); Ok (WQuantity (rewrap (wt_rep (wq_type q)) (fst x)) (snd x))
  | WToUnit u => x <- quantity_cast_unit est u from (wq_num q); Ok (WQuantity (rewrap (wt_rep (wq_type q)) (fst x)) (snd x))
  | WToRep r => x <- quantity_cast_rep est (value_type r) from (wq_num q); Ok (WQuantity (rewrap r (fst x)) (snd x))
  end.

(** Member operators that change the quantity, quantity.h:186-285.  They ask for
    [++v], [a += b], ... of type [rep&]: the wrapper has none of them.  A plain representation
    takes wrapped operands. *)
Inductive waction :=
| WInc | WDec
| WAddTo (q : wquantity) | WSubFrom (q : wquantity) | WRemBy (q : wquantity)
| WMulBy (v : wvalue) | WDivBy (v : wvalue) | WRemByValue (v : wvalue).
Definition w_act (est : estimate) (q : wquantity) (a : waction) : res wquantity :=
  let t := wq_type q in
  match wt_rep t with
  | Wrapped _ => IllFormed
  | Bare r =>
    n <- match a with
         | WInc => n_assign OpAdd r (RInt I32) (wq_num q) (NInt 1)
         | WDec => n_assign OpSub r (RInt I32) (wq_num q) (NInt 1)
         | WAddTo b => x <- w_convert est (wq_type b) t (wq_num b); n_assign OpAdd r r (wq_num q) x
         | WSubFrom b => x <- w_convert est (wq_type b) t (wq_num b); n_assign OpSub r r (wq_num q) x
         | WRemBy b => _ <- constrained (negb (floating r));
                       x <- w_convert est (wq_type b) t (wq_num b); n_assign OpRem r r (wq_num q) x
         | WMulBy v => n_assign OpMul r (value_type (wv_rep v)) (wq_num q) (wv_num v)
         | WDivBy v => n_assign OpDiv r (value_type (wv_rep v)) (wq_num q) (wv_num v)
         | WRemByValue v => _ <- constrained (negb (floating r) && negb (floating (value_type (wv_rep v))));
                            n_assign OpRem r (value_type (wv_rep v)) (wq_num q) (wv_num v)
         end;
    Ok (WQuantity t n)
  end.

(** Expressions, as in [Expr]. *)
Inductive wexpr :=
| WLit (q : wquantity)
| WPos (a : wexpr) | WNeg (a : wexpr)
| WAdd (a b : wexpr) | WSub (a b : wexpr) | WMul (a b : wexpr) | WDiv (a b : wexpr) | WRem (a b : wexpr)
| WMulV (a : wexpr) (v : wvalue) | WVMul (v : wvalue) (a : wexpr) | WDivV (a : wexpr) (v : wvalue)
| WVDiv (v : wvalue) (a : wexpr) | WRemV (a : wexpr) (v : wvalue)
| WConv (t : wtype) (a : wexpr) | WCast (c : wcast) (a : wexpr).
Fixpoint weval (est : estimate) (w : world) (e : wexpr) : res wquantity :=
  match e with
  | WLit q => Ok q
  | WPos a => x <- weval est w a; w_plus x
  | WNeg a => x <- weval est w a; w_neg x
  | WAdd a b => x <- weval est w a; y <- weval est w b; w_addsub OpAdd est w x y
  | WSub a b => x <- weval est w a; y <- weval est w b; w_addsub OpSub est w x y
  | WMul a b => x <- weval est w a; y <- weval est w b; w_times w x y
  | WDiv a b => x <- weval est w a; y <- weval est w b; w_over w x y
  | WRem a b => x <- weval est w a; y <- weval est w b; w_rem x y
  | WMulV a v => x <- weval est w a; w_scale OpMul false x v
  | WVMul v a => x <- weval est w a; w_scale OpMul true x v
  | WDivV a v => x <- weval est w a; w_scale OpDiv false x v
  | WVDiv v a => x <- weval est w a; w_value_div w v x
  | WRemV a v => x <- weval est w a; w_rem_value x v
  | WConv t a => x <- weval est w a; w_to est t x
  | WCast c a => x <- weval est w a; w_cast est w c x
  end.
