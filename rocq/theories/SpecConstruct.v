(** Specification vocabulary for the constructors of quantities, points, kinds and points of
    kinds. *)

From Coq Require Import ZArith QArith String List.
From Verif Require Import Outcome CInt Root Ratio Unit Downcast Dim DimOp Equivalent Rep QuantityCast CommonQuantity Quantity
  SpecUnit SpecQuantity Point Kind PointKind SpecPoint Chrono ChronoProofs Construct.
Local Open Scope Z_scope.

(** The physical value [v] an integral argument stands for when an object of the quantity type
    [t] is made from it: a bare number counts units of [t] (of the size [m]); everything else
    has a unit of its own. *)
Inductive worth (est : estimate) (w : world) (t : qtype) (m : Q) : argument -> Q -> Prop :=
| worth_number : forall i n v, i <> U64 -> in_range i n = true -> (v == inject_Z n * m)%Q ->
    worth est w t m (ANumber (RInt i) (NInt n)) v
| worth_quantity : forall q i n mq v, i <> U64 -> integral q i n -> sized est (q_type q) mq -> references_ok (q_type q) t ->
    (v == inject_Z n * mq)%Q -> worth est w t m (AQuantity q) v
| worth_duration : forall d i n v, i <> U64 -> dur_rep (dur_type d) = RInt i -> dur_count d = NInt n -> in_range i n = true ->
    period_ok (dur_type d) -> (forall l, like_type w (dur_type d) = Ok l -> references_ok l t) ->
    (v == inject_Z n * period (dur_type d))%Q -> worth est w t m (ADuration d) v
| worth_point : forall p v, worth est w t m (AQuantity (relative p)) v -> worth est w t m (APoint p) v
| worth_time : forall p v, worth est w t m (ADuration (tp_since_epoch p)) v -> worth est w t m (ATime p) v
| worth_kind : forall x v, worth est w t m (AQuantity (common x)) v -> worth est w t m (AKind x) v
| worth_point_kind : forall x v, worth est w t m (AQuantity (common (pk_relative x))) v -> worth est w t m (APointKind x) v.

(** The arguments an object of each class template may be made from: [d] is its dimension. *)
Definition quantity_source (d : dimension) (x : argument) : Prop :=
  match x with
  | ANumber _ _ => True
  | AQuantity q => dim_equivalent d (q_dim (q_type q)) = true
  | ADuration _ => dim_equivalent d (DBase si_dim_time) = true
  | _ => False
  end.
Definition point_source (rb : rebinding) (o : origin) (x : argument) : Prop :=
  match x with
  | APoint p => one_origin rb (p_origin (pt_type p)) o
  | ATime p => one_origin rb o (clock_origin (tp_clock p))
  | _ => quantity_source (o_dim o) x
  end.
Definition kind_source (k : kind) (x : argument) : Prop :=
  match x with
  | AKind y => one_kind_of (qk_kind y) k
  | ANumber _ _ => dim_equivalent (k_dim k) dim_one = true
  | _ => quantity_source (k_dim k) x
  end.
Definition point_kind_source (rb : rebinding) (k : pkind) (x : argument) : Prop :=
  match x with
  | APointKind y => one_kind_of (pk_base (qpk_kind y)) (pk_base k) /\ one_origin rb (pk_origin (qpk_kind y)) (pk_origin k)
  | APoint _ | ATime _ => point_source rb (pk_origin k) x
  | _ => kind_source (pk_base k) x
  end.

(** The number an argument holds is a value of its representation. *)
Definition a_good_number (x : argument) : Prop :=
  match x with
  | ANumber r n => num_ok r n = true
  | ADuration d => period_ok (dur_type d) /\ num_ok (dur_rep (dur_type d)) (dur_count d) = true
  | ATime p => period_ok (dur_type (tp_since_epoch p)) /\
      num_ok (dur_rep (dur_type (tp_since_epoch p))) (dur_count (tp_since_epoch p)) = true
  | _ => True
  end.
