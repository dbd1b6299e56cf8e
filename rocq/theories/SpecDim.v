(** Specification vocabulary for dimensions: a dimension assigns to every base
    dimension a rational exponent. *)

From Coq Require Import ZArith QArith Qreduction String List Sorted.
From Verif Require Import CInt Ratio Unit Dim.
Import ListNotations.
Local Open Scope Z_scope.

(** The exponent written in one entry of the list. *)
Definition equot (e : bexp) : Q := (inject_Z (e_num e) / inject_Z (e_den e))%Q.

(** The exponent a list gives to the base dimension [b]: the sum over its entries. *)
Fixpoint expo (es : list bexp) (b : bdim) : Q :=
  match es with
  | [] => 0%Q
  | e :: r => ((if bdim_eq_dec (e_dim e) b then equot e else 0) + expo r b)%Q
  end.

(** The exponent of the base dimension [b] in the dimension [d]. *)
Definition dim_expo (d : dimension) (b : bdim) : Q := expo (exponents d) b.

(** Symbol order of the standard library (lexicographic on characters). *)
Definition symbol_lt (a b : bdim) : Prop := String.compare (bd_symbol a) (bd_symbol b) = Lt.

(** Within the set [U] of base dimensions the symbol identifies the dimension. *)
Definition symbols_identify (U : bdim -> Prop) : Prop :=
  forall a b, U a -> U b -> bd_symbol a = bd_symbol b -> a = b.

(** Only base dimensions of [U] occur. *)
Definition over (U : bdim -> Prop) (es : list bexp) : Prop :=
  forall e, In e es -> U (e_dim e).

(** An exponent in lowest terms, not zero, representable. *)
Definition proper (e : bexp) : Prop :=
  e_num e <> 0 /\ 0 < e_den e /\ Z.gcd (e_num e) (e_den e) = 1 /\
  Z.abs (e_num e) <= INTMAX_MAX /\ e_den e <= INTMAX_MAX.

(** Normal form: strictly increasing symbols, proper exponents. *)
Definition normal (es : list bexp) : Prop :=
  StronglySorted (fun e f => symbol_lt (e_dim e) (e_dim f)) es /\ Forall proper es.

(** A rational that fits [std::ratio]. *)
Definition representable (q : Q) : Prop :=
  Z.abs (Qnum (Qred q)) <= INTMAX_MAX /\ Zpos (Qden (Qred q)) <= INTMAX_MAX.

(** A rational whose lowest-terms numerator and denominator have no factor ten. *)
Definition ten_free (q : Q) : Prop :=
  (Qnum (Qred q) <> 0 -> Qnum (Qred q) mod 10 <> 0) /\ Zpos (Qden (Qred q)) mod 10 <> 0.
