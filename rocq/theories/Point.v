(** Model of [src/core/include/units/quantity_point.h], of point origins
    (bits/basic_concepts.h, bits/equivalent.h), and of the casts of quantity points
    (quantity_cast.h). *)

From Coq Require Import ZArith String List Bool.
From Verif Require Import Outcome CInt Root Ratio Unit Dim DimOp Equivalent Rep QuantityCast CommonQuantity Quantity.
Import ListNotations.
Local Open Scope Z_scope.
Local Open Scope res_scope.

(** Point origins: [dynamic_origin<D>], quantity_point.h:44-48, and the types a program
    derives from [point_origin<D>] (point_origin.h:29-32). *)
Inductive origin :=
| ODynamic (d : dimension)
| OUser (name : string) (d : dimension).

Definition o_dim (o : origin) : dimension := match o with ODynamic d => d | OUser _ d => d end.

Definition origin_eq_dec : forall a b : origin, {a = b} + {a <> b}.
Proof.
  intros [d1|n1 d1] [d2|n2 d2]; try (right; discriminate).
  - destruct (dimension_eq_dec d1 d2); [left; now subst|right; congruence].
  - destruct (string_dec n1 n2); [|right; congruence].
    destruct (dimension_eq_dec d1 d2); [left; now subst|right; congruence].
Defined.

(** The member templates [rebind] of the origins of the program: the type
    [O::rebind<D>] of the origin with a given name and dimension, if there is one. *)
Definition rebinding := string -> dimension -> dimension -> option origin.

(** [rebind_point_origin_dimension<O, D>], bits/basic_concepts.h:230-241. *)
Definition rebind (rb : rebinding) (o : origin) (d : dimension) : option origin :=
  if dimension_eq_dec (o_dim o) d then Some o
  else match o with ODynamic _ => Some (ODynamic d) | OUser n od => rb n od d end.

(** [RebindablePointOriginFor], bits/basic_concepts.h:248-252. *)
Definition rebindable (rb : rebinding) (o : origin) (d : dimension) : bool :=
  match rebind rb o d with
  | Some o' => if dimension_eq_dec d (o_dim o') then true else false
  | None => false
  end.

(** [EquivalentPointOrigins] and [equivalent] for origins, bits/equivalent.h:37-39, 86-95. *)
Definition rebinds_to (rb : rebinding) (o t : origin) : bool :=
  rebindable rb o (o_dim t) &&
  match rebind rb o (o_dim t) with
  | Some o' => if origin_eq_dec t o' then true else false
  | None => false
  end.
Definition origin_equivalent (rb : rebinding) (a b : origin) : bool :=
  if origin_eq_dec a b then true
  else rebinds_to rb a b && rebinds_to rb b a && dim_equivalent (o_dim a) (o_dim b).

(** The type [quantity_point<O, U, Rep>], quantity_point.h:59-66; its constraint is the one
    of its quantity type. *)
Record ptype := PType { p_origin : origin; p_unit : cunit; p_rep : rep }.
Definition p_qtype (t : ptype) : qtype := QType (o_dim (p_origin t)) (p_unit t) (p_rep t).
Definition mk_ptype (o : origin) (u : cunit) (r : rep) : res ptype :=
  _ <- mk_qtype (o_dim o) u r; Ok (PType o u r).

(** A point object: its type and the number of the quantity it holds. *)
Record point := Point { pt_type : ptype; pt_num : number }.

(** [relative()], quantity_point.h:94-97. *)
Definition relative (p : point) : quantity := Quantity (p_qtype (pt_type p)) (pt_num p).

(** The explicit constructor from a quantity, quantity_point.h:77-79. *)
Definition p_make (est : estimate) (t : ptype) (q : quantity) : res point :=
  n <- q_convert est (q_type q) (p_qtype t) (q_num q); Ok (Point t n).

(** [quantity_point(q)] with the template arguments deduced, quantity_point.h:206-207. *)
Definition p_deduced (q : quantity) : point :=
  Point (PType (ODynamic (q_dim (q_type q))) (q_unit (q_type q)) (q_rep (q_type q))) (q_num q).

(** The converting constructor, quantity_point.h:81-83 (and the copy constructor). *)
Definition p_to (rb : rebinding) (est : estimate) (t : ptype) (p : point) : res point :=
  _ <- constrained (origin_equivalent rb (p_origin (pt_type p)) (p_origin t));
  p_make est t (relative p).

(** min and max, quantity_point.h:99-109. *)
Definition p_min (t : ptype) : point := Point t (q_num (q_min (p_qtype t))).
Definition p_max (t : ptype) : point := Point t (q_num (q_max (p_qtype t))).

(** [point + quantity] and [point - quantity], quantity_point.h:154-179. *)
Definition p_addsub (o : arith_op) (rb : rebinding) (est : estimate) (w : world) (p : point) (q : quantity) : res point :=
  s <- q_addsub o est w (relative p) q;
  match rebind rb (p_origin (pt_type p)) (q_dim (q_type s)) with
  | Some orig =>
      t <- mk_ptype orig (q_unit (q_type s)) (q_rep (q_type s));
      p_make est t s
  | None => IllFormed
  end.
Definition p_add := p_addsub OpAdd.
Definition p_sub := p_addsub OpSub.
(** [quantity + point], quantity_point.h:164-169. *)
Definition q_plus_point (rb : rebinding) (est : estimate) (w : world) (q : quantity) (p : point) : res point :=
  p_add rb est w p q.

(** [point - point], quantity_point.h:181-186 ([QuantityPointOf<origin>]). *)
Definition p_diff (rb : rebinding) (est : estimate) (w : world) (a b : point) : res quantity :=
  _ <- constrained (origin_equivalent rb (p_origin (pt_type b)) (p_origin (pt_type a)));
  q_sub est w (relative a) (relative b).

(** [<=>] and [==], quantity_point.h:188-200.  Simplification: of the standard concepts
    [three_way_comparable_with] and [equality_comparable_with] only the comparison itself is
    required. *)
Definition p_compare (rb : rebinding) (est : estimate) (w : world) (a b : point) : res (option comparison) :=
  _ <- constrained (origin_equivalent rb (p_origin (pt_type b)) (p_origin (pt_type a)));
  q_compare est w (relative a) (relative b).
Definition p_eqb (rb : rebinding) (est : estimate) (w : world) (a b : point) : res bool :=
  _ <- constrained (origin_equivalent rb (p_origin (pt_type b)) (p_origin (pt_type a)));
  q_eqb est w (relative a) (relative b).

(** Member operators, quantity_point.h:111-149. *)
Inductive paction := PInc | PDec | PAdd (q : quantity) | PSub (q : quantity).
Definition p_action (a : paction) : action :=
  match a with PInc => AInc | PDec => ADec | PAdd q => AAdd q | PSub q => ASub q end.
Definition p_act (est : estimate) (p : point) (a : paction) : res point :=
  s <- q_act est (relative p) (p_action a); Ok (Point (pt_type p) (q_num s)).
Fixpoint p_run (est : estimate) (p : point) (l : list paction) : res point :=
  match l with
  | [] => Ok p
  | a :: r => p' <- p_act est p a; p_run est p' r
  end.

(** [std::common_type] of two points, bits/common_quantity.h:98-106. *)
Definition common_point (rb : rebinding) (est : estimate) (w : world) (a b : ptype) : res ptype :=
  _ <- constrained (origin_equivalent rb (p_origin b) (p_origin a));
  t <- common_quantity est w (p_qtype a) (p_qtype b) (common_rep (p_rep a) (p_rep b));
  match rebind rb (p_origin a) (q_dim t) with
  | Some o => mk_ptype o (q_unit t) (q_rep t)
  | None => IllFormed
  end.

(** What [quantity_cast] and [quantity_point_cast] may be given: a full quantity type, a
    dimension, a unit or a representation. *)
Inductive castspec := ToQuantity (t : qtype) | ToDim (d : dimension) | ToUnit (u : cunit) | ToRep (r : rep).
Definition q_cast (est : estimate) (w : world) (c : castspec) (q : quantity) : res quantity :=
  match c with
  | ToQuantity t => n <- quantity_cast est (q_type q) t (q_num q); Ok (Quantity t n)
  | ToDim d => x <- quantity_cast_dim est w d (q_type q) (q_num q); Ok (Quantity (fst x) (snd x))
  | ToUnit u => x <- quantity_cast_unit est u (q_type q) (q_num q); Ok (Quantity (fst x) (snd x))
  | ToRep r => x <- quantity_cast_rep est r (q_type q) (q_num q); Ok (Quantity (fst x) (snd x))
  end.

(** [quantity_point_cast<CastSpec>], quantity_cast.h:237-248: with a quantity point type and
    with anything else.  Both return [quantity_point(...)] with deduced arguments. *)
Definition point_cast_to (rb : rebinding) (est : estimate) (t : ptype) (p : point) : res point :=
  _ <- constrained (origin_equivalent rb (p_origin (pt_type p)) (p_origin t));
  n <- quantity_cast est (p_qtype (pt_type p)) (p_qtype t) (pt_num p);
  Ok (p_deduced (Quantity (p_qtype t) n)).
Definition point_cast (est : estimate) (w : world) (c : castspec) (p : point) : res point :=
  q <- q_cast est w c (relative p); Ok (p_deduced q).
(** [quantity_point_cast<ToD, ToU>], quantity_cast.h:266-271. *)
Definition point_cast_dim_unit (rb : rebinding) (est : estimate) (d : dimension) (u : cunit) (p : point) : res point :=
  let o := p_origin (pt_type p) in
  _ <- constrained (dim_equivalent d (o_dim o) && unit_of u d && rebindable rb o d);
  match rebind rb o d with
  | Some o' => t <- mk_ptype o' u (p_rep (pt_type p)); point_cast_to rb est t p
  | None => IllFormed
  end.
