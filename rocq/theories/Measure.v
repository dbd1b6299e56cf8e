(** Expressions of quantities whose representation is a class of the user, in particular of
    measurements with an uncertainty, as in example/measurement.cpp:122-139: model of the
    operators of [src/core/include/units/quantity.h:415-428] on two such quantities and of the casts
    of [src/core/include/units/quantity_cast.h:153-219].

    Simplifications: those of [Custom]; the operators between a number and a measurement are those
    the class declares; [value / quantity] is left out. *)

From Coq Require Import ZArith String List Bool SpecFloat.
From Verif Require Import Outcome CInt RatioMaths Pow Root Ratio FixedString Unit Dim DimOp Equivalent Rep Reference
  QuantityCast CommonQuantity Quantity Point Custom.
Local Open Scope res_scope.

(** [q1 * q2] and [q1 / q2], quantity.h:415-428, both of quantities of the class. *)
Definition class_product (cl : repclass) (w : world) (a b : cquantity cl) : res (cquantity cl) :=
  let ta := cq_type a in let tb := cq_type b in
  r <- reference_multiply w (Reference (q_dim ta) (q_unit ta)) (Reference (q_dim tb) (q_unit tb));
  v <- rc_op cl OpMul (q_rep ta) (q_rep tb) (cq_val a) (cq_val b);
  Ok (CQuantity (QType (ref_dim r) (ref_unit r) (rc_result cl OpMul (q_rep ta) (q_rep tb))) v).
Definition class_quotient (cl : repclass) (w : world) (a b : cquantity cl) : res (cquantity cl) :=
  let ta := cq_type a in let tb := cq_type b in
  r <- reference_divide w (Reference (q_dim ta) (q_unit ta)) (Reference (q_dim tb) (q_unit tb));
  v <- rc_op cl OpDiv (q_rep ta) (q_rep tb) (cq_val a) (cq_val b);
  Ok (CQuantity (QType (ref_dim r) (ref_unit r) (rc_result cl OpDiv (q_rep ta) (q_rep tb))) v).

(** The type a cast specification names, quantity_cast.h:153-219, as in [QuantityCast]. *)
Definition cast_target (w : world) (c : castspec) (from : qtype) : res qtype :=
  match c with
  | ToQuantity t => Ok t
  | ToDim d =>
      _ <- constrained (dim_equivalent d (q_dim from));
      u <- downcast_unit w d (u_ratio (q_unit from));
      mk_qtype d u (q_rep from)
  | ToUnit u => mk_qtype (q_dim from) u (q_rep from)
  | ToRep r => Ok (QType (q_dim from) (q_unit from) r)
  end.
Definition class_cast (cl : repclass) (est : estimate) (w : world) (c : castspec) (q : cquantity cl) : res (cquantity cl) :=
  t <- cast_target w c (cq_type q);
  v <- class_quantity_cast cl est (cq_type q) t (cq_val q);
  Ok (CQuantity t v).

(** [measurement(val, err)], measurement.cpp:41-47: the uncertainty is the absolute value. *)
Definition measurement_of (x e : number) : res (number * number) :=
  match e with NFlt v => Ok (x, NFlt (SFabs v)) | NInt _ => IllFormed end.

Inductive mexpr :=
| MLit (t : qtype) (x e : number)                  (* quantity<D, U, measurement<T>>(measurement(x, e)) *)
| MNeg (a : mexpr)
| MAdd (a b : mexpr) | MSub (a b : mexpr)
| MMul (a b : mexpr) | MDiv (a b : mexpr)
| MMulV (a : mexpr) (r : rep) (v : number)
| MVMul (r : rep) (v : number) (a : mexpr)
| MDivV (a : mexpr) (r : rep) (v : number)
| MConv (t : qtype) (a : mexpr)
| MCast (c : castspec) (a : mexpr).

(** The value of the expression; [hyp] stands for [std::hypot]. *)
Fixpoint meval (hyp : fty -> number -> number -> res spec_float) (est : estimate) (w : world) (e : mexpr) : res (cquantity (measurement_class hyp)) :=
  let cl := measurement_class hyp in
  match e with
  | MLit t x e => v <- measurement_of x e; Ok (@CQuantity (measurement_class hyp) t v)
  | MNeg a => x <- meval hyp est w a; class_neg cl x
  | MAdd a b => x <- meval hyp est w a; y <- meval hyp est w b; class_addsub cl OpAdd est w x y
  | MSub a b => x <- meval hyp est w a; y <- meval hyp est w b; class_addsub cl OpSub est w x y
  | MMul a b => x <- meval hyp est w a; y <- meval hyp est w b; class_product cl w x y
  | MDiv a b => x <- meval hyp est w a; y <- meval hyp est w b; class_quotient cl w x y
  | MMulV a r v => x <- meval hyp est w a; class_scale cl OpMul x r v
  | MVMul r v a => x <- meval hyp est w a; class_scale_left cl r v x
  | MDivV a r v => x <- meval hyp est w a; class_scale cl OpDiv x r v
  | MConv t a => x <- meval hyp est w a; class_to cl est t x
  | MCast c a => x <- meval hyp est w a; class_cast cl est w c x
  end.

(** [std::hypot] as the textbook has it; any other implementation may be taken. *)
Definition plain_hypot (f : fty) (x y : number) : res spec_float :=
  match x, y with
  | NFlt a, NFlt b => Ok (SFsqrt (fprec f) (femax f) (SFadd (fprec f) (femax f) (SFmul (fprec f) (femax f) a a) (SFmul (fprec f) (femax f) b b)))
  | _, _ => IllFormed
  end.
