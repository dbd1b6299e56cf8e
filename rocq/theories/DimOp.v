(** Model of [src/core/include/units/bits/dimension_op.h] and
    [src/core/include/units/bits/base_units_ratio.h]. *)

From Coq Require Import ZArith String List Bool.
From Verif Require Import Outcome CInt Pow Root Ratio TypeList Unit Downcast Dim.
Import ListNotations.
Local Open Scope Z_scope.
Local Open Scope res_scope.

(** The user types declared so far: named derived dimensions by exponent list and
    named units by (ratio, reference). *)
Definition ratio_eq_dec : forall a b : ratio, {a = b} + {a <> b}.
Proof. repeat decide equality. Defined.
Definition ukey_eq_dec : forall a b : ratio * string, {a = b} + {a <> b}.
Proof. repeat decide equality. Defined.
Record world := World {
  w_dims : registry (list bexp) dimension;
  w_units : registry (ratio * string) cunit
}.

(** [downcast_dimension<derived_dimension_base<es...>>] with [check_unknown],
    dimension_op.h:49-76.  Simplification: the guide that instantiating
    [unknown_dimension<es...>] itself adds is not recorded (it leads back to the
    same type). *)
Definition downcast_dimension (w : world) (es : list bexp) : res dimension :=
  match downcast bexps_eq_dec (w_dims w) es with
  | Some d => Ok d
  | None => mk_unknown_dimension es
  end.

(** [dim_invert], dimension_op.h:79-106. *)
Definition is_minus_one (e : bexp) : bool := (e_num e =? -1) && (e_den e =? 1).
Definition dim_invert (w : world) (d : dimension) : res dimension :=
  match d with
  | DBase b => downcast_dimension w [BExp b (-1) 1]
  | _ =>
      match exponents d with
      | [e] => if is_minus_one e then Ok (DBase (e_dim e))
               else i <- map_res exponent_invert [e]; downcast_dimension w i
      | es => i <- map_res exponent_invert es; downcast_dimension w i
      end
  end.

(** [to_dimension], dimension_op.h:111-122, followed by [downcast_dimension]. *)
Definition is_plus_one (e : bexp) : bool := (e_num e =? 1) && (e_den e =? 1).
Definition to_dimension (w : world) (es : list bexp) : res dimension :=
  match es with
  | [e] => if is_plus_one e then Ok (DBase (e_dim e)) else downcast_dimension w [e]
  | _ => downcast_dimension w es
  end.

(** [merge_dimension] and the downcast of its result, dimension_op.h:133-142. *)
Definition merge_dimension (w : world) (l1 l2 : list bexp) : res dimension :=
  es <- dim_consolidate (merge_sorted exponent_less l1 l2);
  to_dimension w es.

(** [dimension_multiply], dimension_op.h:136-162. *)
Definition dimension_multiply (w : world) (d1 d2 : dimension) : res dimension :=
  match d1, d2 with
  | DBase _, _ => merge_dimension w (exponents d1) (exponents d2)
  | _, DBase _ => merge_dimension w (exponents d2) (exponents d1)
  | _, _ => merge_dimension w (exponents d1) (exponents d2)
  end.

(** [dimension_divide], dimension_op.h:164-165. *)
Definition dimension_divide (w : world) (d1 d2 : dimension) : res dimension :=
  i <- dim_invert w d2; dimension_multiply w d1 i.

(** [dimension_pow], dimension_op.h:170-201. *)
Definition dimension_pow (w : world) (d : dimension) (Num Den : Z) : res dimension :=
  match d with
  | DBase b =>
      if (Num =? 1) && (Den =? 1) then Ok d
      else downcast_dimension w [BExp b Num Den]
  | _ =>
      match exponents d with
      | [e] => if (e_num e =? Den) && (e_den e =? Num) then Ok (DBase (e_dim e))
               else m <- map_res (exponent_multiply Num Den) [e]; downcast_dimension w m
      | es => m <- map_res (exponent_multiply Num Den) es; downcast_dimension w m
      end
  end.

(** [dimension_sqrt], dimension_op.h:203-204. *)
Definition dimension_sqrt (w : world) (d : dimension) : res dimension := dimension_pow w d 1 2.

(** [exp_ratio<E>], base_units_ratio.h:31-40. *)
Definition exp_ratio (est : estimate) (e : bexp) : res ratio :=
  _ <- constrained ((e_den e =? 1) || (e_den e =? 2));
  let base := u_ratio (bd_unit (e_dim e)) in
  s <- cmul I64 (e_num e) (e_den e);
  positive <- (if s <? 0 then
                 x <- cneg I64 (rexp base); mk_ratio (rden base) (rnum base) x
               else Ok base);
  N <- (if s <? 0 then cneg I64 (e_num e) else Ok (e_num e));
  p <- rpow est N 1 positive;
  if e_den e =? 2 then rsqrt est p else Ok p.

(** [base_units_ratio], base_units_ratio.h:45-49: right fold ending in [ratio(1)]. *)
Fixpoint base_units_ratio (est : estimate) (es : list bexp) : res ratio :=
  match es with
  | [] => mk_ratio 1 1 0
  | e :: r => x <- exp_ratio est e; y <- base_units_ratio est r; rmul x y
  end.

(** [downcast_unit<D, R>], unit.h:60-63. *)
Definition downcast_unit (w : world) (d : dimension) (r : ratio) : res cunit :=
  _ <- constrained (unit_ratio_ok r);
  let ref := u_ref (dimension_unit d) in
  match downcast ukey_eq_dec (w_units w) (r, ref) with
  | Some u => Ok u
  | None => scaled_unit r ref
  end.

(** [UnitOf<U, D>], bits/basic_concepts.h:202-206. *)
Definition unit_of (u : cunit) (d : dimension) : bool :=
  String.eqb (u_ref u) (u_ref (dimension_unit d)).

(** Declarations of a program: [struct name : derived_dimension<name, cu, recipe...>]
    (derived_dimension.h:83-84) and a struct inheriting from [unit], [named_unit],
    [named_scaled_unit], [prefixed_unit], [derived_unit] or [named_derived_unit]
    (unit.h), each through [downcast_dispatch].  (Alias units register nothing.) *)
Definition declare_dimension (mode : downcast_mode) (name : string) (cu : cunit)
    (recipe : list (dimension * (Z * Z))) (w : world) : res world :=
  d <- mk_derived_dimension name cu recipe;
  g <- declare bexps_eq_dec mode (exponents d) d (w_dims w);
  Ok (World g (w_units w)).
Definition declare_unit (mode : downcast_mode) (u : cunit) (w : world) : res world :=
  g <- declare ukey_eq_dec mode (u_ratio u, u_ref u) u (w_units w);
  Ok (World (w_dims w) g).
Definition empty_world : world := World empty_registry empty_registry.
