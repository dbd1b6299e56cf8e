(** Quantities whose representation is a class of the user: model of the traits and the
    code of [src/core/include/units/quantity_cast.h:80-139] and
    [src/core/include/units/quantity.h:150-455] on such representations.

    A class template [V] of the user gives one class [V<T>] for every standard arithmetic
    type [T], the [value_type] of [V<T>] (customization_points.h:43-45).  The record
    below lists what the library asks of it; the theorems hold for every such record.
    Simplifications: [std::common_type_t<V<T1>, V<T2>>] is [V] of the common type of [T1]
    and [T2] and the conversion between them that the class offers is implicit; classes
    whose common type with each other is not an instance of [V] are not modelled. *)

From Coq Require Import ZArith String List Bool SpecFloat.
From Verif Require Import Outcome CInt RatioMaths Pow Root Ratio FixedString Unit Dim DimOp Equivalent Rep Reference
  QuantityCast CommonQuantity Quantity.
Import ListNotations.
Local Open Scope Z_scope.
Local Open Scope res_scope.

Record repclass := RepClass {
  rc_val : Type;                                            (* the values of all [V<T>] *)
  (* [static_cast<V<to>>(v)] of a [v] of type [V<from>]: from, to, v *)
  rc_convert : rep -> rep -> rc_val -> res rc_val;
  (* is [std::common_type_t<V<T>, std::intmax_t>] an instance of [V]? *)
  rc_mixes : bool;
  (* [static_cast<V<to>>(n)] of a number [n] of type [from]: from, to, n *)
  rc_inject : rep -> rep -> number -> res rc_val;
  (* the [value_type] of [v op k] and of [v op w] *)
  rc_result : arith_op -> rep -> rep -> rep;
  (* [v op k] and [k * v] of a [v] of type [V<a>] and a number [k] of type [b] *)
  rc_scale : arith_op -> rep -> rep -> rc_val -> number -> res rc_val;
  rc_scale_left : rep -> rep -> number -> rc_val -> res rc_val;
  (* [v op w] of values of types [V<a>] and [V<b>] *)
  rc_op : arith_op -> rep -> rep -> rc_val -> rc_val -> res rc_val;
  (* [-v] and the [value_type] of its result is that of [-x] *)
  rc_neg : rep -> rc_val -> res rc_val;
  (* [v == w] of two values of one type *)
  rc_eqb : rep -> rc_val -> rc_val -> res bool }.

(** [cast_traits<From, To>], quantity_cast.h:83-101: the [value_type] of [ratio_type].  If the
    common type has a common type with [std::intmax_t], [rep_type] is that too; otherwise
    [rep_type] is the common type of the two representations: [class_cast_mixed] and
    [class_cast_scaled] below. *)
Definition class_ratio_type (from to : rep) : rep := common_rep (common_rep from to) (RInt I64).

(** [1.0] and [10.0], bits/pow.h:45-50. *)
Definition f_one : number := NFlt (float_of_int F64 1).
Definition f_ten : number := NFlt (float_of_int F64 10).

(** [fpow10<V<r>>], bits/pow.h:42-60. *)
Definition class_fpow10 (cl : repclass) (r : rep) (exp : Z) : res (rc_val cl) :=
  let one := rc_inject cl (RFlt F64) r f_one in
  let step o v := v <- v; ten <- rc_inject cl (RFlt F64) r f_ten; rc_op cl o r r v ten in
  match exp with
  | Z0 => one
  | Zneg p => Pos.iter (step OpDiv) one p
  | Zpos p => Pos.iter (step OpMul) one p
  end.

(** The computation of [quantity_cast], quantity_cast.h:120-138, if [ratio_type] and
    [rep_type] are the class [V<rt>]. *)
Definition class_cast_mixed (cl : repclass) (c : ratio) (from to : rep) (v : rc_val cl) : res (rc_val cl) :=
  let rt := class_ratio_type from to in
  let i64 := RInt I64 in
  match rt with
  | RFlt _ =>
      x <- rc_convert cl from rt v;
      num <- rc_inject cl i64 rt (NInt (rnum c));
      p <- class_fpow10 cl rt (rexp c);
      k <- rc_op cl OpMul rt rt num p;
      den <- rc_inject cl i64 rt (NInt (rden c));
      k <- rc_op cl OpDiv rt rt k den;
      y <- rc_op cl OpMul rt rt x k;
      rc_convert cl rt to y
  | RInt _ =>
      x <- rc_convert cl from rt v;
      num <- rc_inject cl i64 rt (NInt (rnum c));
      den <- rc_inject cl i64 rt (NInt (rden c));
      if 0 <? rexp c then
        p <- ipow10 (rexp c);
        p <- rc_inject cl i64 rt (NInt p);
        k <- rc_op cl OpMul rt rt num p;
        y <- rc_op cl OpMul rt rt x k;
        z <- rc_op cl OpDiv rt rt y den;
        rc_convert cl rt to z
      else
        y <- rc_op cl OpMul rt rt x num;
        e <- cneg I64 (rexp c);
        p <- ipow10 e;
        p <- rc_inject cl i64 rt (NInt p);
        k <- rc_op cl OpMul rt rt den p;
        z <- rc_op cl OpDiv rt rt y k;
        rc_convert cl rt to z
  end.

(** The same if [ratio_type] is the arithmetic type [rt] and [rep_type] the class
    [V<cm>] of the common [value_type]. *)
Definition class_cast_scaled (cl : repclass) (c : ratio) (from to : rep) (v : rc_val cl) : res (rc_val cl) :=
  let cm := common_rep from to in
  let rt := class_ratio_type from to in
  match rt with
  | RFlt f =>
      x <- rc_convert cl from cm v;
      let k := SFmul (fprec f) (femax f) (float_of_int f (rnum c)) (fpow10 f (rexp c)) in
      let k := SFdiv (fprec f) (femax f) k (float_of_int f (rden c)) in
      y <- rc_scale cl OpMul cm rt x (NFlt k);
      rc_convert cl (rc_result cl OpMul cm rt) to y
  | RInt t =>
      let ym := rc_result cl OpMul cm rt in
      let zm := rc_result cl OpDiv ym rt in
      x <- rc_convert cl from cm v;
      num <- n_convert rt (NInt (rnum c));
      den <- n_convert rt (NInt (rden c));
      if 0 <? rexp c then
        p <- ipow10 (rexp c);
        p <- n_convert rt (NInt p);
        k <- op_in OpMul rt num p;
        y <- rc_scale cl OpMul cm rt x k;
        z <- rc_scale cl OpDiv ym rt y den;
        rc_convert cl zm to z
      else
        y <- rc_scale cl OpMul cm rt x num;
        e <- cneg I64 (rexp c);
        p <- ipow10 e;
        p <- n_convert rt (NInt p);
        k <- op_in OpMul rt den p;
        z <- rc_scale cl OpDiv ym rt y k;
        rc_convert cl zm to z
  end.

Definition class_cast_number (cl : repclass) (c : ratio) (from to : rep) (v : rc_val cl) : res (rc_val cl) :=
  if rc_mixes cl then class_cast_mixed cl c from to v else class_cast_scaled cl c from to v.

(** [quantity_cast<To>(q)], quantity_cast.h:114-139.  A [qtype] whose [q_rep] is [T] stands
    for the type [quantity<D, U, V<T>>]. *)
Definition class_quantity_cast (cl : repclass) (est : estimate) (from to : qtype) (v : rc_val cl) : res (rc_val cl) :=
  _ <- constrained (dim_equivalent (q_dim to) (q_dim from));
  c <- cast_ratio est (q_dim from) (q_unit from) (q_dim to) (q_unit to);
  class_cast_number cl c (q_rep from) (q_rep to) v.

(** [To(q)], quantity.h:155-156; [safe_castable_to_], quantity.h:69-74, looks at the class
    only through [treat_as_floating_point], which follows the [value_type]. *)
Definition class_convert (cl : repclass) (est : estimate) (from to : qtype) (v : rc_val cl) : res (rc_val cl) :=
  if qtype_eq_dec from to then Ok v
  else
    b <- safe_castable_to est from to;
    _ <- constrained b;
    class_quantity_cast cl est from to v.

(** A quantity of a class. *)
Record cquantity (cl : repclass) := CQuantity { cq_type : qtype; cq_val : rc_val cl }.
Arguments CQuantity {cl}. Arguments cq_type {cl}. Arguments cq_val {cl}.

(** Conversion to another type, quantity.h:155-156. *)
Definition class_to (cl : repclass) (est : estimate) (t : qtype) (q : cquantity cl) : res (cquantity cl) :=
  v <- class_convert cl est (cq_type q) t (cq_val q); Ok (CQuantity t v).

(** Unary [-], quantity.h:179-184. *)
Definition class_neg (cl : repclass) (q : cquantity cl) : res (cquantity cl) :=
  let r := q_rep (cq_type q) in
  v <- rc_neg cl r (cq_val q); Ok (CQuantity (with_rep (cq_type q) (promote_rep r)) v).

(** [+] and [-], quantity.h:399-413. *)
Definition class_addsub (cl : repclass) (o : arith_op) (est : estimate) (w : world) (a b : cquantity cl)
  : res (cquantity cl) :=
  let r := rc_result cl o (q_rep (cq_type a)) (q_rep (cq_type b)) in
  t <- common_quantity est w (cq_type a) (cq_type b) r;
  x <- class_convert cl est (cq_type a) t (cq_val a);
  y <- class_convert cl est (cq_type b) t (cq_val b);
  z <- rc_op cl o r r x y;
  z <- rc_convert cl (rc_result cl o r r) r z;
  Ok (CQuantity t z).

(** [q * k], [q / k] and [k * q] with a number, quantity.h:319-345. *)
Definition class_scale (cl : repclass) (o : arith_op) (q : cquantity cl) (r : rep) (k : number) : res (cquantity cl) :=
  let ret := rc_result cl o (q_rep (cq_type q)) r in
  _ <- constrained (safe_convertible (q_rep (cq_type q)) ret);
  v <- rc_scale cl o (q_rep (cq_type q)) r (cq_val q) k;
  Ok (CQuantity (with_rep (cq_type q) ret) v).
Definition class_scale_left (cl : repclass) (r : rep) (k : number) (q : cquantity cl) : res (cquantity cl) :=
  let ret := rc_result cl OpMul (q_rep (cq_type q)) r in
  _ <- constrained (safe_convertible (q_rep (cq_type q)) ret);
  v <- rc_scale_left cl r (q_rep (cq_type q)) k (cq_val q);
  Ok (CQuantity (with_rep (cq_type q) ret) v).

(** [q1 * q2] and [q1 / q2] where [q2] is a quantity of numbers, quantity.h:415-428. *)
Definition class_times (cl : repclass) (w : world) (a : cquantity cl) (b : quantity) : res (cquantity cl) :=
  let ta := cq_type a in let tb := q_type b in
  r <- reference_multiply w (Reference (q_dim ta) (q_unit ta)) (Reference (q_dim tb) (q_unit tb));
  v <- rc_scale cl OpMul (q_rep ta) (q_rep tb) (cq_val a) (q_num b);
  Ok (CQuantity (QType (ref_dim r) (ref_unit r) (rc_result cl OpMul (q_rep ta) (q_rep tb))) v).
Definition class_over (cl : repclass) (w : world) (a : cquantity cl) (b : quantity) : res (cquantity cl) :=
  let ta := cq_type a in let tb := q_type b in
  r <- reference_divide w (Reference (q_dim ta) (q_unit ta)) (Reference (q_dim tb) (q_unit tb));
  v <- rc_scale cl OpDiv (q_rep ta) (q_rep tb) (cq_val a) (q_num b);
  Ok (CQuantity (QType (ref_dim r) (ref_unit r) (rc_result cl OpDiv (q_rep ta) (q_rep tb))) v).

(** [==], quantity.h:388 and :449-455. *)
Definition class_eqb (cl : repclass) (est : estimate) (w : world) (a b : cquantity cl) : res bool :=
  if qtype_eq_dec (cq_type a) (cq_type b) then rc_eqb cl (q_rep (cq_type a)) (cq_val a) (cq_val b)
  else
    let r := common_rep (q_rep (cq_type a)) (q_rep (cq_type b)) in
    t <- common_quantity est w (cq_type a) (cq_type b) r;
    x <- class_convert cl est (cq_type a) t (cq_val a);
    y <- class_convert cl est (cq_type b) t (cq_val b);
    rc_eqb cl r x y.

(** ** Three classes *)

Fixpoint collect {A : Type} (l : list (res A)) : res (list A) :=
  match l with
  | [] => Ok []
  | x :: r => a <- x; s <- collect r; Ok (a :: s)
  end.
Fixpoint zip_with {A B : Type} (f : A -> A -> res B) (l m : list A) : res (list B) :=
  match l, m with
  | [], [] => Ok []
  | x :: l', y :: m' => z <- f x y; s <- zip_with f l' m'; Ok (z :: s)
  | _, _ => IllFormed
  end.
Fixpoint all_equal (l m : list number) : res bool :=
  match l, m with
  | [], [] => Ok true
  | x :: l', y :: m' => b <- n_eqb x y; if b then all_equal l' m' else Ok false
  | _, _ => IllFormed
  end.

(** A vector as in example/references/linear_algebra.cpp:67 and :208-212 (quantities of
    vectors): every operation works on the elements and deduces its element type; no
    common type with a number, no [*] and [/] of two vectors that yields a vector.  Vectors
    of different sizes are different types. *)
Definition vector_op (o : arith_op) (a b : rep) (v w : list number) : res (list number) :=
  match o with OpAdd | OpSub => zip_with (n_op o a b) v w | _ => IllFormed end.
Definition vector_scale (o : arith_op) (a b : rep) (v : list number) (k : number) : res (list number) :=
  match o with OpMul | OpDiv => collect (map (fun x => n_op o a b x k) v) | _ => IllFormed end.
Definition vector_class : repclass := {|
  rc_val := list number;
  rc_convert := fun _ to v => collect (map (n_convert to) v);
  rc_mixes := false;
  rc_inject := fun _ _ _ => IllFormed;
  rc_result := fun _ a b => arith_rep a b;
  rc_scale := vector_scale;
  rc_scale_left := fun b a k v => collect (map (fun x => n_op OpMul b a k x) v);
  rc_op := vector_op;
  rc_neg := fun a v => collect (map (n_neg a) v);
  rc_eqb := fun _ => all_equal |}.

(** [measurement<T>], example/measurement.cpp:36-112, for floating-point [T]: a value and
    its uncertainty.  A number operand is converted to [T] first (the operators take
    [const value_type&]); [measurement<T>] converts to itself only.  [hyp] stands for
    [std::hypot], [SFabs] for [std::abs]; [==] compares the members. *)
Definition meas_scale (o : arith_op) (a : rep) (v : number * number) (k : number) : res (number * number) :=
  match a with
  | RInt _ => IllFormed
  | RFlt _ =>
    k <- n_convert a k;
    val <- op_in o a (fst v) k;
    rel <- op_in OpDiv a (snd v) (fst v);
    err <- op_in OpMul a val rel;
    match err with NFlt e => Ok (val, NFlt (SFabs e)) | NInt _ => IllFormed end
  end.
Definition meas_op (hyp : fty -> number -> number -> res spec_float) (o : arith_op) (a b : rep) (v w : number * number)
  : res (number * number) :=
  match a with
  | RInt _ => IllFormed
  | RFlt f =>
    if rep_eq_dec a b then
      match o with
      | OpAdd | OpSub =>
          val <- op_in o a (fst v) (fst w);
          err <- hyp f (snd v) (snd w);
          Ok (val, NFlt (SFabs err))
      | OpMul | OpDiv =>
          val <- op_in o a (fst v) (fst w);
          rv <- op_in OpDiv a (snd v) (fst v);
          rw <- op_in OpDiv a (snd w) (fst w);
          h <- hyp f rv rw;
          err <- op_in OpMul a val (NFlt h);
          match err with NFlt e => Ok (val, NFlt (SFabs e)) | NInt _ => IllFormed end
      | OpRem => IllFormed
      end
    else IllFormed
  end.
Definition measurement_class (hyp : fty -> number -> number -> res spec_float) : repclass := {|
  rc_val := number * number;
  rc_convert := fun from to v => if rep_eq_dec from to then Ok v else IllFormed;
  rc_mixes := false;
  rc_inject := fun _ _ _ => IllFormed;
  rc_result := fun _ a _ => a;
  rc_scale := fun o a _ v k => match o with OpMul | OpDiv => meas_scale o a v k | _ => IllFormed end;
  rc_scale_left := fun _ a k v => meas_scale OpMul a v k;
  rc_op := meas_op hyp;
  rc_neg := fun a v => x <- n_neg a (fst v); Ok (x, snd v);
  rc_eqb := fun _ v w => b <- n_eqb (fst v) (fst w); c <- n_eqb (snd v) (snd w); Ok (b && c) |}.

(** [min_expl<>], test/unit_test/static/custom_rep_test_min_expl.cpp:40-83: an
    [std::intmax_t] with [*], [/] and [==] only; its common type with [std::intmax_t] is
    itself.  (A class without [value_type]: here the [value_type] is [std::intmax_t].) *)
Definition min_expl : repclass := {|
  rc_val := number;
  rc_convert := fun from to v => if rep_eq_dec from to then if rep_eq_dec to (RInt I64) then Ok v else IllFormed else IllFormed;
  rc_mixes := true;
  rc_inject := fun from to n => if rep_eq_dec to (RInt I64) then n_convert to n else IllFormed;
  rc_result := fun _ a _ => a;
  rc_scale := fun _ _ _ _ _ => IllFormed;
  rc_scale_left := fun _ _ _ _ => IllFormed;
  rc_op := fun o a b v w =>
    match o with
    | OpMul | OpDiv => if rep_eq_dec a (RInt I64) then if rep_eq_dec b (RInt I64) then op_in o a v w else IllFormed else IllFormed
    | _ => IllFormed
    end;
  rc_neg := fun _ _ => IllFormed;
  rc_eqb := fun _ => n_eqb |}.
