(** Model of [src/core/include/units/quantity_cast.h] for quantities and of
    [fpow10] in [src/core/include/units/bits/pow.h]. *)

From Coq Require Import ZArith String List Bool SpecFloat.
From Verif Require Import Outcome CInt RatioMaths Pow Root Ratio Unit Dim DimOp Equivalent Rep.
Import ListNotations.
Local Open Scope Z_scope.
Local Open Scope res_scope.

(** [fpow10<Rep>], bits/pow.h:42-60, for a floating-point type. *)
Definition fpow10 (f : fty) (exp : Z) : spec_float :=
  let one := float_of_int f 1 in
  let ten := float_of_int f 10 in
  match exp with
  | Z0 => one
  | Zneg p => Pos.iter (fun r => SFdiv (fprec f) (femax f) r ten) one p
  | Zpos p => Pos.iter (fun r => SFmul (fprec f) (femax f) r ten) one p
  end.

(** The type [quantity<D, U, Rep>], quantity.h:110-118, with its constraint. *)
Record qtype := QType { q_dim : dimension; q_unit : cunit; q_rep : rep }.
Definition mk_qtype (d : dimension) (u : cunit) (r : rep) : res qtype :=
  _ <- constrained (unit_of u d); Ok (QType d u r).

(** Decidable equality of types. *)
Fixpoint dimension_eq_dec (a b : dimension) {struct a} : {a = b} + {a <> b}.
Proof.
  destruct a as [x|n1 e1 c1 r1|p1 q1]; destruct b as [y|n2 e2 c2 r2|p2 q2]; try (right; discriminate).
  - destruct (bdim_eq_dec x y) as [E|E]; [left; now subst|right; congruence].
  - destruct (string_dec n1 n2) as [A|A]; [|right; congruence].
    destruct (bexps_eq_dec e1 e2) as [B|B]; [|right; congruence].
    destruct (cunit_eq_dec c1 c2) as [C|C]; [|right; congruence].
    assert (D : {r1 = r2} + {r1 <> r2}).
    { apply list_eq_dec. intros [u1 p1] [u2 p2]. destruct (dimension_eq_dec u1 u2) as [U|U]; [|right; congruence].
      destruct p1 as [a1 b1], p2 as [a2 b2].
      destruct (Z.eq_dec a1 a2) as [V|V]; [|right; congruence].
      destruct (Z.eq_dec b1 b2) as [W|W]; [left; now subst|right; congruence]. }
    destruct D as [D|D]; [left; now subst|right; congruence].
  - destruct (bexps_eq_dec p1 p2) as [A|A]; [|right; congruence].
    destruct (bexps_eq_dec q1 q2) as [B|B]; [left; now subst|right; congruence].
Defined.
Definition rep_eq_dec : forall a b : rep, {a = b} + {a <> b}.
Proof. repeat decide equality. Defined.
Definition qtype_eq_dec : forall a b : qtype, {a = b} + {a <> b}.
Proof.
  intros [d1 u1 r1] [d2 u2 r2].
  destruct (dimension_eq_dec d1 d2) as [A|A]; [|right; congruence].
  destruct (cunit_eq_dec u1 u2) as [B|B]; [|right; congruence].
  destruct (rep_eq_dec r1 r2) as [C|C]; [left; now subst|right; congruence].
Defined.

(** [quantity_ratio], quantity_cast.h:53-65. *)
Definition quantity_ratio (est : estimate) (d : dimension) (u : cunit) : res ratio :=
  match d with
  | DBase _ => Ok (u_ratio u)
  | _ =>
      b <- base_units_ratio est (exponents d);
      x <- rmul b (u_ratio u);
      rdiv x (u_ratio (dimension_unit d))
  end.

(** [cast_ratio], quantity_cast.h:67-78. *)
Definition cast_ratio (est : estimate) (d1 : dimension) (u1 : cunit) (d2 : dimension) (u2 : cunit) : res ratio :=
  if same_unit_reference u1 u2 then rdiv (u_ratio u1) (u_ratio u2)
  else
    a <- quantity_ratio est d1 u1;
    b <- quantity_ratio est d2 u2;
    rdiv a b.

(** [cast_traits<From, To>], quantity_cast.h:80-88: [ratio_type] and [rep_type]
    coincide for standard arithmetic types. *)
Definition cast_rep (from to : rep) : rep := common_rep (common_rep from to) (RInt I64).

(** [quantity_cast<To>(q)], the computation of quantity_cast.h:118-138 on the number. *)
Definition cast_number (c : ratio) (from to : rep) (n : number) : res number :=
  let rt := cast_rep from to in
  match rt with
  | RFlt f =>
      x <- n_convert rt n;
      let k := SFmul (fprec f) (femax f) (float_of_int f (rnum c)) (fpow10 f (rexp c)) in
      let k := SFdiv (fprec f) (femax f) k (float_of_int f (rden c)) in
      y <- op_in OpMul rt x (NFlt k);
      n_convert to y
  | RInt t =>
      x <- n_convert rt n;
      num <- n_convert rt (NInt (rnum c));
      den <- n_convert rt (NInt (rden c));
      if 0 <? rexp c then
        p <- ipow10 (rexp c);
        p <- n_convert rt (NInt p);
        k <- op_in OpMul rt num p;
        y <- op_in OpMul rt x k;
        z <- op_in OpDiv rt y den;
        n_convert to z
      else
        y <- op_in OpMul rt x num;
        e <- cneg I64 (rexp c);
        p <- ipow10 e;
        p <- n_convert rt (NInt p);
        k <- op_in OpMul rt den p;
        z <- op_in OpDiv rt y k;
        n_convert to z
  end.

(** [quantity_cast<To>(q)], quantity_cast.h:114-139: [QuantityOf<To, D>]. *)
Definition quantity_cast (est : estimate) (from to : qtype) (n : number) : res number :=
  _ <- constrained (dim_equivalent (q_dim to) (q_dim from));
  c <- cast_ratio est (q_dim from) (q_unit from) (q_dim to) (q_unit to);
  cast_number c (q_rep from) (q_rep to) n.

(** The overloads that name only a part of the target, quantity_cast.h:153-219. *)
Definition quantity_cast_dim (est : estimate) (w : world) (d : dimension) (from : qtype) (n : number)
  : res (qtype * number) :=
  _ <- constrained (dim_equivalent d (q_dim from));
  u <- downcast_unit w d (u_ratio (q_unit from));
  to <- mk_qtype d u (q_rep from);
  x <- quantity_cast est from to n; Ok (to, x).
Definition quantity_cast_unit (est : estimate) (u : cunit) (from : qtype) (n : number) : res (qtype * number) :=
  to <- mk_qtype (q_dim from) u (q_rep from);
  x <- quantity_cast est from to n; Ok (to, x).
Definition quantity_cast_dim_unit (est : estimate) (d : dimension) (u : cunit) (from : qtype) (n : number)
  : res (qtype * number) :=
  to <- mk_qtype d u (q_rep from);
  x <- quantity_cast est from to n; Ok (to, x).
Definition quantity_cast_rep (est : estimate) (r : rep) (from : qtype) (n : number) : res (qtype * number) :=
  let to := QType (q_dim from) (q_unit from) r in
  x <- quantity_cast est from to n; Ok (to, x).

(** [harmonic_], quantity.h:63-67. *)
Definition harmonic (est : estimate) (from to : qtype) : res bool :=
  a <- quantity_ratio est (q_dim from) (q_unit from);
  b <- quantity_ratio est (q_dim to) (q_unit to);
  c <- rdiv a b;
  is_integral c.

(** [safe_castable_to_], quantity.h:69-74.  A constraint whose evaluation is not a
    constant expression is not satisfied as a program either: the outcome is kept. *)
Definition safe_castable_to (est : estimate) (from to : qtype) : res bool :=
  if negb (dim_equivalent (q_dim to) (q_dim from)) then Ok false
  else if floating (q_rep to) then Ok true
  else if floating (q_rep from) then Ok false
  else harmonic est from to.

(** [To(q)]: the copy constructor when the types coincide, otherwise the
    converting constructor, quantity.h:155-156. *)
Definition q_convert (est : estimate) (from to : qtype) (n : number) : res number :=
  if qtype_eq_dec from to then Ok n
  else
    b <- safe_castable_to est from to;
    _ <- constrained b;
    quantity_cast est from to n.
