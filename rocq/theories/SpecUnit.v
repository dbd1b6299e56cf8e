(** Specification vocabulary for units: the physical magnitude of a unit.

    The reference units of the base dimensions (metre, gram, second, ...) are the
    measuring sticks.  A dimension fixes the magnitude of its default unit through
    the ratios of the base units and the exponents; a unit is a multiple of the
    default unit.  Exponents may be halves, so the magnitude is characterised by
    its square. *)

From Coq Require Import ZArith QArith Qpower List.
From Verif Require Import Outcome CInt Root Ratio SpecRatio Unit Dim DimOp.
Import ListNotations.
Local Open Scope Z_scope.

(** The ratio of the unit of a base dimension to its reference. *)
Definition base_ratio (b : bdim) : ratio := u_ratio (bd_unit b).

(** A positive ratio as the library stores it. *)
Definition ratio_good (r : ratio) : Prop := lowest r /\ storable r /\ 0 < rnum r.
Definition base_good (b : bdim) : Prop := ratio_good (base_ratio b).
Definition unit_good (u : cunit) : Prop := ratio_good (u_ratio u).

(** Twice the exponent of an entry, for whole and half exponents. *)
Definition twice (e : bexp) : Z := (2 * e_num e) / e_den e.
Definition half_int (e : bexp) : Prop := e_den e <> 0 /\ (e_den e | 2 * e_num e).

(** The square of the product of the base ratios raised to the exponents. *)
Fixpoint squared (es : list bexp) : Q :=
  match es with
  | [] => 1%Q
  | e :: r => (rval (base_ratio (e_dim e)) ^ twice e * squared r)%Q
  end.

(** [m] is the magnitude of the coherent unit of the dimension with exponents [es]. *)
Definition coherent_magnitude (es : list bexp) (m : Q) : Prop :=
  Forall half_int es /\ (0 < m)%Q /\ (m ^ 2 == squared es)%Q.

(** [m] is the magnitude of the unit [u] of the dimension [d]. *)
Definition magnitude (d : dimension) (u : cunit) (m : Q) : Prop :=
  exists b, coherent_magnitude (exponents d) b /\
    (m == b * (rval (u_ratio u) / rval (u_ratio (dimension_unit d))))%Q.

(** The parts of a dimension that enter a magnitude are good ratios. *)
Definition dim_good (d : dimension) : Prop :=
  Forall (fun e => half_int e /\ base_good (e_dim e)) (exponents d) /\ unit_good (dimension_unit d).

(** The ratio an entry contributes is exact: automatic for whole exponents; for
    half exponents the square root is the true one. *)
Definition exact_root (est : estimate) (e : bexp) : Prop :=
  e_den e = 2 -> forall p, exp_ratio est e = Ok p ->
  (0 < rval p)%Q /\ (rval p ^ 2 == rval (base_ratio (e_dim e)) ^ e_num e)%Q.
