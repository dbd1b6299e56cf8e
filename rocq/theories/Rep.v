(** Representation types of quantities: the standard integer and floating-point
    types, their conversions and arithmetic.

    Models the language rules and the traits of
    [src/core/include/units/customization_points.h].  Floating-point numbers are
    those of [Coq.Floats.SpecFloat] (IEEE 754, round to nearest even, one NaN).
    Simplifications: classes of the user as representations are modelled apart, in
    [Custom]; [long double] is the x87 extended format; the rounding mode is not changed. *)

From Coq Require Import ZArith Bool Lia SpecFloat.
From Verif Require Import Outcome CInt.
Local Open Scope Z_scope.
Local Open Scope res_scope.

Inductive fty := F32 | F64 | F80.
Definition fprec (f : fty) : Z := match f with F32 => 24 | F64 => 53 | F80 => 64 end.
Definition femax (f : fty) : Z := match f with F32 => 128 | F64 => 1024 | F80 => 16384 end.

Inductive rep := RInt (t : ity) | RFlt (f : fty).

(** [treat_as_floating_point], customization_points.h:40-41. *)
Definition floating (r : rep) : bool := match r with RInt _ => false | RFlt _ => true end.

(** A value of a representation type. *)
Inductive number := NInt (z : Z) | NFlt (x : spec_float).

(** [x] is a value of type [r]. *)
Definition num_ok (r : rep) (x : number) : bool :=
  match r, x with
  | RInt t, NInt z => in_range t z
  | RFlt f, NFlt s => valid_binary (fprec f) (femax f) s
  | _, _ => false
  end.

(** Usual arithmetic conversions: the type of [a + b]. *)
Definition fty_max (a b : fty) : fty :=
  match a, b with
  | F80, _ | _, F80 => F80
  | F64, _ | _, F64 => F64
  | F32, F32 => F32
  end.
Definition arith_rep (a b : rep) : rep :=
  match a, b with
  | RInt s, RInt t => RInt (arith_conv s t)
  | RFlt f, RFlt g => RFlt (fty_max f g)
  | RFlt f, RInt _ | RInt _, RFlt f => RFlt f
  end.
(** [std::common_type_t<A, B>]. *)
Definition common_rep (a b : rep) : rep :=
  match a, b with
  | RInt s, RInt t => RInt (common_ity s t)
  | _, _ => arith_rep a b
  end.
(** The type of [+a] and [-a]. *)
Definition promote_rep (a : rep) : rep := match a with RInt t => RInt (promote t) | RFlt f => RFlt f end.

(** Integer to floating point: correctly rounded. *)
Definition float_of_int (f : fty) (z : Z) : spec_float :=
  binary_normalize (fprec f) (femax f) z 0 false.
(** Floating point to floating point: correctly rounded. *)
Definition float_conv (f : fty) (x : spec_float) : spec_float :=
  match x with
  | S754_finite s m e => binary_normalize (fprec f) (femax f) (if s then Zneg m else Zpos m) e s
  | _ => x
  end.
(** Floating point to integer: the fractional part is discarded. *)
Definition float_trunc (x : spec_float) : option Z :=
  match x with
  | S754_zero _ => Some 0
  | S754_finite s m e =>
      let a := if 0 <=? e then Zpos m * 2 ^ e else Zpos m / 2 ^ (- e) in
      Some (if s then - a else a)
  | _ => None
  end.

(** [static_cast<to>(x)]: integers are reduced modulo 2^w (C++20), a floating value
    that does not fit an integer type is undefined behaviour. *)
Definition n_convert (to : rep) (x : number) : res number :=
  match to, x with
  | RInt t, NInt z => Ok (NInt (wrap t z))
  | RFlt f, NInt z => Ok (NFlt (float_of_int f z))
  | RFlt f, NFlt v => Ok (NFlt (float_conv f v))
  | RInt t, NFlt v =>
      match float_trunc v with
      | Some z => if in_range t z then Ok (NInt z) else Undef
      | None => Undef
      end
  end.

(** Arithmetic on two values of one (promoted) type. *)
Inductive arith_op := OpAdd | OpSub | OpMul | OpDiv | OpRem.
Definition int_op (o : arith_op) (t : ity) (a b : Z) : res Z :=
  match o with
  | OpAdd => cadd t a b | OpSub => csub t a b | OpMul => cmul t a b
  | OpDiv => cdiv t a b | OpRem => crem t a b
  end.
Definition float_op (o : arith_op) (f : fty) (a b : spec_float) : res spec_float :=
  match o with
  | OpAdd => Ok (SFadd (fprec f) (femax f) a b)
  | OpSub => Ok (SFsub (fprec f) (femax f) a b)
  | OpMul => Ok (SFmul (fprec f) (femax f) a b)
  | OpDiv => Ok (SFdiv (fprec f) (femax f) a b)
  | OpRem => IllFormed
  end.
Definition op_in (o : arith_op) (r : rep) (x y : number) : res number :=
  match r, x, y with
  | RInt t, NInt a, NInt b => z <- int_op o t a b; Ok (NInt z)
  | RFlt f, NFlt a, NFlt b => z <- float_op o f a b; Ok (NFlt z)
  | _, _, _ => IllFormed
  end.

(** [x op y] for [x] of type [a] and [y] of type [b]: convert, then operate. *)
Definition n_op (o : arith_op) (a b : rep) (x y : number) : res number :=
  let r := arith_rep a b in
  x' <- n_convert r x;
  y' <- n_convert r y;
  op_in o r x' y'.

(** [x op= y], [x] of type [a]: the result is converted back to [a]. *)
Definition n_assign (o : arith_op) (a b : rep) (x y : number) : res number :=
  z <- n_op o a b x y; n_convert a z.

(** [-x] and [+x]. *)
Definition n_neg (a : rep) (x : number) : res number :=
  match a, x with
  | RInt t, NInt z => r <- cneg (promote t) z; Ok (NInt r)
  | RFlt _, NFlt v => Ok (NFlt (SFopp v))
  | _, _ => IllFormed
  end.

(** [x <=> y] and [x == y] on two values of the same type; [None]: unordered. *)
Definition n_compare (x y : number) : res (option comparison) :=
  match x, y with
  | NInt a, NInt b => Ok (Some (Z.compare a b))
  | NFlt a, NFlt b => Ok (SFcompare a b)
  | _, _ => IllFormed
  end.
Definition n_eqb (x y : number) : res bool :=
  match x, y with
  | NInt a, NInt b => Ok (Z.eqb a b)
  | NFlt a, NFlt b => Ok (SFeqb a b)
  | _, _ => IllFormed
  end.

(** [quantity_values<Rep>], customization_points.h:60-76. *)
Definition rep_zero (r : rep) : number :=
  match r with RInt _ => NInt 0 | RFlt _ => NFlt (S754_zero false) end.
Definition rep_one (r : rep) : number :=
  match r with RInt _ => NInt 1 | RFlt f => NFlt (float_of_int f 1) end.
Definition float_max (f : fty) : spec_float :=
  S754_finite false (Z.to_pos (2 ^ fprec f - 1)) (femax f - fprec f).
Definition rep_min (r : rep) : number :=
  match r with RInt t => NInt (imin t) | RFlt f => NFlt (SFopp (float_max f)) end.
Definition rep_max (r : rep) : number :=
  match r with RInt t => NInt (imax t) | RFlt f => NFlt (float_max f) end.
