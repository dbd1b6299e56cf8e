(** Model of [src/core/include/units/bits/derived_unit.h] and of [derived_unit],
    [named_derived_unit] in [src/core/include/units/unit.h]. *)

From Coq Require Import ZArith String List Bool.
From Verif Require Import Outcome CInt RatioMaths Pow Root Ratio FixedString Unit Dim DimOp TextTools DerivedSymbol.
Import ListNotations.
Local Open Scope Z_scope.
Local Open Scope res_scope.

(** [same_scaled_units], derived_unit.h:30-35.  Packs of different length do not
    expand together. *)
Fixpoint same_scaled_units (recipe : list (dimension * (Z * Z))) (us : list cunit) : bool :=
  match recipe, us with
  | [], [] => true
  | (d, _) :: r, u :: us' => unit_of u d && same_scaled_units r us'
  | _, _ => false
  end.

(** [inverse_if_negative], derived_unit.h:39-46. *)
Definition inverse_if_negative (num den : Z) (r : ratio) : res ratio :=
  s <- cmul I64 num den;
  if 0 <? s then Ok r else rinv r.

(** One element of the fold of [derived_ratio], derived_unit.h:50. *)
Definition derived_factor (est : estimate) (d : dimension) (num den : Z) (u : cunit) : res ratio :=
  a <- iabs num;
  p <- rpow est a 1 (u_ratio u);
  q <- rdiv p (u_ratio (dimension_unit d));
  inverse_if_negative num den q.

(** [derived_ratio], derived_unit.h:48-52: a left fold without initial value. *)
Fixpoint derived_ratio_from (est : estimate) (acc : ratio) (recipe : list (dimension * (Z * Z))) (us : list cunit)
  : res ratio :=
  match recipe, us with
  | [], [] => Ok acc
  | (d, (n, m)) :: r, u :: us' =>
      f <- derived_factor est d n m u;
      x <- rmul acc f;
      derived_ratio_from est x r us'
  | _, _ => IllFormed
  end.
Definition derived_ratio (est : estimate) (recipe : list (dimension * (Z * Z))) (us : list cunit) : res ratio :=
  match recipe, us with
  | (d, (n, m)) :: r, u :: us' => f <- derived_factor est d n m u; derived_ratio_from est f r us'
  | _, _ => IllFormed
  end.

(** [detail::derived_unit<D, Us...>], derived_unit.h:54-55: the ratio and reference
    of the [scaled_unit]. *)
Definition is_derived (d : dimension) : bool := match d with DBase _ => false | _ => true end.
Definition derived_scaled (est : estimate) (d : dimension) (us : list cunit) : res cunit :=
  _ <- constrained (is_derived d);
  r <- derived_ratio est (recipe_of d) us;
  scaled_unit r (u_ref (dimension_unit d)).

(** The symbols of the units, all of which must exist. *)
Fixpoint symbols_of (us : list cunit) : res (list symbol_text) :=
  match us with
  | [] => Ok []
  | u :: r => match u_symbol u with
              | Some s => t <- symbols_of r; Ok (s :: t)
              | None => IllFormed
              end
  end.

(** [derived_unit<Child, Dim, U, URest...>], unit.h:155-162. *)
Definition mk_derived_unit (est : estimate) (child : string) (d : dimension) (us : list cunit) : res cunit :=
  _ <- constrained (same_scaled_units (recipe_of d) us && forallb u_named us);
  b <- derived_scaled est d us;
  ss <- symbols_of us;
  t <- derived_symbol_text (combine (map snd (recipe_of d)) ss);
  Ok (CUnit (Some child) [] (u_ratio b) (u_ref b) false (Some t) no_prefix).

(** [named_derived_unit<Child, Dim, Symbol, PF, U, URest...>], unit.h:179-185. *)
Definition mk_named_derived_unit (est : estimate) (child : string) (d : dimension) (sym : symbol_text)
    (pf : string) (us : list cunit) : res cunit :=
  _ <- constrained (same_scaled_units (recipe_of d) us);
  b <- derived_scaled est d us;
  Ok (CUnit (Some child) [] (u_ratio b) (u_ref b) true (Some sym) pf).
