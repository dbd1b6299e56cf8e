(** Model of the operators of [src/core/include/units/quantity.h] that take a plain number
    by the implicit conversion of the constructor (:150-153): the hidden friends and members
    whose parameters are [const quantity&] are the only candidates for [==], [<=>], [v % q],
    [+=], [-=] and [=] with a value that is not a quantity (the free templates, :399-455,
    constrain both operands to be quantities).  The relational operators and [!=] are the
    rewritten ones (C++20). *)

From Coq Require Import ZArith String List Bool SpecFloat.
From Verif Require Import Outcome CInt RatioMaths Root Ratio FixedString Unit Dim DimOp Equivalent Rep Reference
  QuantityCast CommonQuantity Quantity.
Local Open Scope Z_scope.
Local Open Scope res_scope.

(** The implicit conversion of a value [v] of the type [r] to the quantity type [t]: the
    constructor, quantity.h:150-153, is explicit unless the dimension is [dim_one] and the
    unit is [one]. *)
Definition is_dim_one (d : dimension) : bool := if dimension_eq_dec d dim_one then true else false.
Definition implicit_value (t : qtype) (r : rep) (v : number) : res quantity :=
  _ <- constrained (is_dim_one (q_dim t) && is_unit_one (q_unit t));
  q_make t r v.

(** [q <=> v], [q == v]: hidden friends, quantity.h:378-389. *)
Definition q_compare_value (q : quantity) (r : rep) (v : number) : res (option comparison) :=
  b <- implicit_value (q_type q) r v; n_compare (q_num q) (q_num b).
Definition q_eqb_value (q : quantity) (r : rep) (v : number) : res bool :=
  b <- implicit_value (q_type q) r v; n_eqb (q_num q) (q_num b).
(** [v <=> q], [v == q]: the same functions, the first argument converted (preferred to
    the candidate with reversed arguments). *)
Definition value_compare_q (r : rep) (v : number) (q : quantity) : res (option comparison) :=
  a <- implicit_value (q_type q) r v; n_compare (q_num a) (q_num q).
Definition value_eqb_q (r : rep) (v : number) (q : quantity) : res bool :=
  a <- implicit_value (q_type q) r v; n_eqb (q_num a) (q_num q).

(** [v % q]: hidden friend of two quantities of one type, quantity.h:369-376. *)
Definition value_rem_q (r : rep) (v : number) (q : quantity) : res quantity :=
  a <- implicit_value (q_type q) r v; q_rem a q.

(** [q = v] (:162), [q += v] (:212-217), [q -= v] (:219-224). *)
Definition q_assign_value (q : quantity) (r : rep) (v : number) : res quantity :=
  implicit_value (q_type q) r v.
Definition q_add_assign_value (est : estimate) (q : quantity) (r : rep) (v : number) : res quantity :=
  b <- implicit_value (q_type q) r v; q_act est q (AAdd b).
Definition q_sub_assign_value (est : estimate) (q : quantity) (r : rep) (v : number) : res quantity :=
  b <- implicit_value (q_type q) r v; q_act est q (ASub b).
