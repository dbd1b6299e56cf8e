(** Model of [src/core/include/units/random.h]: the distributions of quantities. *)

From Coq Require Import ZArith String List Bool.
From Verif Require Import Outcome CInt Root Ratio FixedString Unit Dim DimOp Equivalent Rep QuantityCast Quantity.
Import ListNotations.
Local Open Scope Z_scope.
Local Open Scope res_scope.

(** A distribution of the standard library, used by random.h only through its members: the
    constructor from numbers, the parameters, [min], [max], and [operator()], which yields a
    number and changes the state of the distribution and of the generator.  The class is a
    parameter of the model. *)
Record base_dist (S G : Type) := BaseDist {
  b_new : list number -> S;
  b_params : S -> list number;
  b_min : S -> number;
  b_max : S -> number;
  b_draw : S -> G -> number * S * G
}.
Arguments BaseDist {S G}. Arguments b_new {S G}. Arguments b_params {S G}. Arguments b_min {S G}.
Arguments b_max {S G}. Arguments b_draw {S G}.

Fixpoint map_res {A B : Type} (f : A -> res B) (l : list A) : res (list B) :=
  match l with
  | [] => Ok []
  | x :: r => y <- f x; ys <- map_res f r; Ok (y :: ys)
  end.

(** An object of a class such as [uniform_int_distribution<Q>], random.h:74-92: the type [Q]
    and the state of the base class. *)
Record dist (S : Type) := Dist { d_type : qtype; d_state : S }.
Arguments Dist {S}. Arguments d_type {S}. Arguments d_state {S}.

(** The constructors from quantities, e.g. random.h:82, 102, 122, 141, 264, 284, 321: arguments of
    other types are converted to [const Q&] first; the base gets the numbers. *)
Definition d_new {S G : Type} (bd : base_dist S G) (est : estimate) (t : qtype) (ps : list quantity) : res (dist S) :=
  qs <- map_res (q_to est t) ps;
  Ok (Dist t (b_new bd (map q_num qs))).

(** [Q(base::operator()(g))], e.g. random.h:84-85. *)
Definition d_draw {S G : Type} (bd : base_dist S G) (d : dist S) (g : G) : res (quantity * dist S * G) :=
  let '(x, s, g') := b_draw bd (d_state d) g in
  q <- q_make (d_type d) (q_rep (d_type d)) x;
  Ok (q, Dist (d_type d) s, g').

(** [a()], [b()], [mean()] and the like, [min()], [max()], e.g. random.h:87-91. *)
Definition d_params {S G : Type} (bd : base_dist S G) (d : dist S) : res (list quantity) :=
  map_res (q_make (d_type d) (q_rep (d_type d))) (b_params bd (d_state d)).
Definition d_min {S G : Type} (bd : base_dist S G) (d : dist S) : res quantity :=
  q_make (d_type d) (q_rep (d_type d)) (b_min bd (d_state d)).
Definition d_max {S G : Type} (bd : base_dist S G) (d : dist S) : res quantity :=
  q_make (d_type d) (q_rep (d_type d)) (b_max bd (d_state d)).

(** Several draws in a row. *)
Fixpoint d_draws {S G : Type} (bd : base_dist S G) (n : nat) (d : dist S) (g : G) : res (list quantity * dist S * G) :=
  match n with
  | O => Ok ([], d, g)
  | Datatypes.S m =>
      x <- d_draw bd d g;
      let '(q, d', g') := x in
      y <- d_draws bd m d' g';
      let '(qs, d'', g'') := y in
      Ok (q :: qs, d'', g'')
  end.

(** [i_qty_to_rep], random.h:32-39: the iterator is not constrained, so the quantities may
    have any type; [push_back] converts the number to the representation of [Q]. *)
Definition i_qty_to_rep (t : qtype) (l : list quantity) : res (list number) :=
  map_res (fun q => n_convert (q_rep t) (q_num q)) l.
(** [bl_qty_to_rep], random.h:41-48: an [initializer_list<Q>], whose elements have been
    converted to [Q]. *)
Definition bl_qty_to_rep (est : estimate) (t : qtype) (l : list quantity) : res (list number) :=
  qs <- map_res (q_to est t) l; Ok (map q_num qs).

(** [fw_bl_pwc], random.h:50-62.  The function returns values of the representation.  The
    bound of the loop is computed in the unsigned type [size_t]; an access beyond the end of
    the vector is undefined.  Every iteration accesses two elements, so a number of
    iterations above the length is never reached ([pwc_fuel]). *)
Fixpoint pwc_loop (fuel : nat) (r : rep) (w : list number) (i bound : Z) : res (list number) :=
  match fuel with
  | O => Stuck
  | Datatypes.S f =>
      if i <? bound then
        match nth_error w (Z.to_nat i), nth_error w (Z.to_nat (i + 1)) with
        | Some x, Some y =>
            z <- n_op OpAdd r r x y;
            s <- n_convert r z;
            l <- pwc_loop f r w (i + 1) bound;
            Ok (s :: l)
        | _, _ => Undef
        end
      else Ok []
  end.
Definition pwc_fuel (w : list number) : nat := Datatypes.S (length w).
Definition fw_bl_pwc (t : qtype) (fw : quantity -> number) (bl : list quantity) : res (list number) :=
  let w := map fw bl in
  l <- pwc_loop (pwc_fuel w) (q_rep t) w 0 (wrap U64 (Z.of_nat (length bl) - 1));
  z <- n_convert (q_rep t) (NInt 0);
  Ok (l ++ [z]).

(** [fw_bl_pwl], random.h:64-71. *)
Definition fw_bl_pwl (fw : quantity -> number) (bl : list quantity) : list number := map fw bl.

(** [intervals()], random.h:424-431, 469-476, of the boundaries the base class holds. *)
Definition d_intervals (t : qtype) (bs : list number) : res (list quantity) :=
  map_res (q_make t (q_rep t)) bs.
