(** Model of [src/core/include/units/bits/equivalent.h], quantities, quantity points and their
    kinds: the predicate [equivalent<T, U>] that the unit tests of the library use in place of
    the identity of types when downcasting is off (test/unit_test/static/test_tools.h:36-38). *)

From Coq Require Import ZArith String List Bool.
From Verif Require Import Outcome CInt Root Ratio Unit Dim DimOp Equivalent Rep QuantityCast Quantity Point Kind PointKind.
Local Open Scope res_scope.

(** [std::conjunction]: the second trait is instantiated only if the first holds. *)
Definition and_then (a b : res bool) : res bool := x <- a; if x then b else Ok false.

(** Quantities, equivalent.h:37-39 and 112-115.  The representation does not count. *)
Definition qtype_equivalent (a b : qtype) : res bool :=
  if qtype_eq_dec a b then Ok true
  else and_then (Ok (dim_equivalent (q_dim a) (q_dim b))) (equivalent_unit (q_unit a) (q_dim a) (q_unit b) (q_dim b)).

(** Quantity points, equivalent.h:37-39 and 117-119. *)
Definition ptype_eq_dec : forall a b : ptype, {a = b} + {a <> b}.
Proof.
  intros [o1 u1 r1] [o2 u2 r2]. destruct (origin_eq_dec o1 o2) as [A|A]; [|right; congruence].
  destruct (cunit_eq_dec u1 u2) as [B|B]; [|right; congruence].
  destruct (rep_eq_dec r1 r2) as [C|C]; [left; now subst|right; congruence].
Defined.
Definition ptype_equivalent (rb : rebinding) (a b : ptype) : res bool :=
  if ptype_eq_dec a b then Ok true
  else and_then (qtype_equivalent (p_qtype a) (p_qtype b)) (Ok (origin_equivalent rb (p_origin a) (p_origin b))).

(** Quantity kinds, equivalent.h:37-39 and 121-123. *)
Definition ktype_eq_dec : forall a b : ktype, {a = b} + {a <> b}.
Proof.
  intros [k1 u1 r1] [k2 u2 r2]. destruct (kind_eq_dec k1 k2) as [A|A]; [|right; congruence].
  destruct (cunit_eq_dec u1 u2) as [B|B]; [|right; congruence].
  destruct (rep_eq_dec r1 r2) as [C|C]; [left; now subst|right; congruence].
Defined.
Definition ktype_equivalent (a b : ktype) : res bool :=
  if ktype_eq_dec a b then Ok true
  else and_then (Ok (kind_equivalent (kt_kind a) (kt_kind b))) (qtype_equivalent (kt_qtype a) (kt_qtype b)).

(** Quantity point kinds, equivalent.h:37-39 and 125-127. *)
Definition pktype_eq_dec : forall a b : pktype, {a = b} + {a <> b}.
Proof.
  intros [k1 u1 r1] [k2 u2 r2]. destruct (pkind_eq_dec k1 k2) as [A|A]; [|right; congruence].
  destruct (cunit_eq_dec u1 u2) as [B|B]; [|right; congruence].
  destruct (rep_eq_dec r1 r2) as [C|C]; [left; now subst|right; congruence].
Defined.
Definition pktype_equivalent (rb : rebinding) (a b : pktype) : res bool :=
  if pktype_eq_dec a b then Ok true
  else and_then (ktype_equivalent (pkt_ktype a) (pkt_ktype b))
                (Ok (origin_equivalent rb (pk_origin (pkt_kind a)) (pk_origin (pkt_kind b)))).
