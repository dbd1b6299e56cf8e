(** Model of the dimension types and of the type-level functions on exponent
    lists: [src/core/include/units/base_dimension.h], [exponent.h],
    [derived_dimension.h], [bits/derived_dimension_base.h],
    [bits/dim_unpack.h], [bits/dim_consolidate.h]. *)

From Coq Require Import ZArith String List Bool.
From Verif Require Import Outcome CInt Ratio FixedString TypeList Unit.
Import ListNotations.
Local Open Scope string_scope.
Local Open Scope Z_scope.
Local Open Scope res_scope.

(** A struct inheriting from [base_dimension<Symbol, U>], base_dimension.h:53-58.
    [bd_name] is the name of the struct. *)
Record bdim := BDim { bd_name : string; bd_symbol : fixed_string; bd_unit : cunit }.

Definition bdim_eq_dec : forall a b : bdim, {a = b} + {a <> b}.
Proof. repeat decide equality. Defined.

(** [requires U::is_named], base_dimension.h:54. *)
Definition mk_base_dimension (name : string) (sym : fixed_string) (u : cunit) : res bdim :=
  _ <- constrained (u_named u); Ok (BDim name sym u).

(** [base_dimension_less], base_dimension.h:61-65.  The second comparison is
    written with [D1] on both sides, as in the source. *)
Definition base_dimension_less (d1 d2 : bdim) : bool :=
  fs_ltb (bd_symbol d1) (bd_symbol d2) ||
  (fs_eqb (bd_symbol d1) (bd_symbol d2) &&
   match u_symbol (bd_unit d1), u_symbol (bd_unit d1) with
   | Some s1, Some s2 => st_ltb s1 s2
   | _, _ => false      (* not reached: a named unit has a symbol *)
   end).

(** [exponent<Dim, Num, Den>] over a base dimension, exponent.h:37-42. *)
Record bexp := BExp { e_dim : bdim; e_num : Z; e_den : Z }.

Definition bexp_eq_dec : forall a b : bexp, {a = b} + {a <> b}.
Proof. repeat decide equality. Defined.
Definition bexps_eq_dec : forall a b : list bexp, {a = b} + {a <> b} := list_eq_dec bexp_eq_dec.

(** [exponent_less], exponent.h:53-55. *)
Definition exponent_less (e1 e2 : bexp) : bool := base_dimension_less (e_dim e1) (e_dim e2).

(** [exponent_invert], exponent.h:58-66. *)
Definition exponent_invert (e : bexp) : res bexp :=
  n <- cneg I64 (e_num e); Ok (BExp (e_dim e) n (e_den e)).

(** [exponent_multiply], exponent.h:71-80: only [r.num] and [r.den] of the
    product ratio are used, [r.exp] is not. *)
Definition exponent_multiply (Num Den : Z) (e : bexp) : res bexp :=
  a <- mk_ratio (e_num e) (e_den e) 0;
  b <- mk_ratio Num Den 0;
  r <- rmul a b;
  Ok (BExp (e_dim e) (rnum r) (rden r)).

(** Applying a type function to every element of a parameter pack. *)
Fixpoint map_res {A B : Type} (f : A -> res B) (l : list A) : res (list B) :=
  match l with
  | [] => Ok []
  | x :: r => y <- f x; s <- map_res f r; Ok (y :: s)
  end.

(** [std::ratio<N, D>] (C++ [ratio.ratio]): lowest terms with positive
    denominator; the absolute values of both arguments must be representable. *)
Definition std_ratio (n d : Z) : res (Z * Z) :=
  _ <- constrained (negb (d =? 0) && (Z.abs n <=? INTMAX_MAX) && (Z.abs d <=? INTMAX_MAX));
  let g := Z.gcd n d in
  Ok (Z.sgn d * (n / g), Z.abs d / g).

(** [std::ratio_add] (C++ [ratio.arithmetic]): the exact sum in lowest terms;
    ill-formed if it is not representable. *)
Definition std_ratio_add (a b : Z * Z) : res (Z * Z) :=
  let n := fst a * snd b + fst b * snd a in
  let d := snd a * snd b in
  let g := Z.gcd n d in
  std_ratio (n / g) (d / g).

(** [dim_consolidate], bits/dim_consolidate.h:39-65.  [consolidate_from e l] is
    [dim_consolidate<exponent_list<e, l...>>].  Simplification: C++ instantiates
    both branches of [conditional], the model only the selected one. *)
Fixpoint consolidate_from (e : bexp) (l : list bexp) : res (list bexp) :=
  match l with
  | [] => Ok [e]
  | f :: rest =>
      if bdim_eq_dec (e_dim e) (e_dim f) then
        r1 <- std_ratio (e_num e) (e_den e);
        r2 <- std_ratio (e_num f) (e_den f);
        r <- std_ratio_add r1 r2;
        if fst r =? 0 then
          match rest with
          | [] => Ok []
          | g :: rest' => consolidate_from g rest'
          end
        else consolidate_from (BExp (e_dim e) (fst r) (snd r)) rest
      else
        t <- consolidate_from f rest;
        Ok (push_front t [e])
  end.
Definition dim_consolidate (l : list bexp) : res (list bexp) :=
  match l with [] => Ok [] | e :: r => consolidate_from e r end.

(** The dimension types.
    - [DBase b]: a base dimension;
    - [DDerived name es cu recipe]: a user struct inheriting from
      [derived_dimension<name, cu, recipe...>] (derived_dimension.h:83-88); [es] are
      the exponents of its [derived_dimension_base], computed by
      [make_dimension] from the recipe;
    - [DUnknown args es]: [unknown_dimension<args...>] (bits/dimension_op.h:44-45), [es]
      again computed by [make_dimension].
    An exponent of a recipe is a dimension with a numerator and a denominator. *)
Inductive dimension :=
| DBase (b : bdim)
| DDerived (name : string) (es : list bexp) (cu : cunit) (recipe : list (dimension * (Z * Z)))
| DUnknown (args : list bexp) (es : list bexp).

(** [exponents] of a derived dimension, bits/derived_dimension_base.h:49; for a
    base dimension the list [exponent<D, 1>] the callers build. *)
Definition exponents (d : dimension) : list bexp :=
  match d with
  | DBase b => [BExp b 1 1]
  | DDerived _ es _ _ => es
  | DUnknown _ es => es
  end.

(** [dimension_unit], bits/basic_concepts.h:164-184. *)
Definition dimension_unit (d : dimension) : cunit :=
  match d with
  | DBase b => bd_unit b
  | DDerived _ _ cu _ => cu
  | DUnknown _ _ => unknown_coherent_unit
  end.

(** [recipe], derived_dimension.h:85. *)
Definition recipe_of (d : dimension) : list (dimension * (Z * Z)) :=
  match d with
  | DBase _ => []
  | DDerived _ _ _ r => r
  | DUnknown args _ => map (fun e => (DBase (e_dim e), (e_num e, e_den e))) args
  end.

(** [dim_unpack], bits/dim_unpack.h:36-57. *)
Fixpoint dim_unpack (l : list (dimension * (Z * Z))) : res (list bexp) :=
  match l with
  | [] => Ok []
  | (DBase b, (n, d)) :: rest =>
      t <- dim_unpack rest; Ok (push_front t [BExp b n d])
  | (dd, (n, d)) :: rest =>
      m <- map_res (exponent_multiply n d) (exponents dd);
      t <- dim_unpack rest; Ok (push_front t m)
  end.

(** [make_dimension], derived_dimension.h:51-52. *)
Definition make_dimension (l : list (dimension * (Z * Z))) : res (list bexp) :=
  u <- dim_unpack l;
  dim_consolidate (type_list_sort exponent_less u).

(** Declaring [struct name : derived_dimension<name, cu, recipe...>]. *)
Definition mk_derived_dimension (name : string) (cu : cunit) (recipe : list (dimension * (Z * Z)))
  : res dimension :=
  es <- make_dimension recipe; Ok (DDerived name es cu recipe).

(** [unknown_dimension<args...>]. *)
Definition mk_unknown_dimension (args : list bexp) : res dimension :=
  es <- make_dimension (map (fun e => (DBase (e_dim e), (e_num e, e_den e))) args);
  Ok (DUnknown args es).
