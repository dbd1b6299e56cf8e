(** Model of [example/references/capacitor_time_curve.cpp]: the loop of [main].

    Simplifications: the literals of [main] (the capacitance in microfarads, the voltage in volts,
    the resistance in kiloohms, the last time in milliseconds) are arguments; the streams are left
    out, the loop yields the quantities it prints. *)

From Coq Require Import ZArith String List Bool SpecFloat.
From Verif Require Import Outcome CInt Root Ratio Unit Downcast Dim DimOp Equivalent Rep Reference QuantityCast CommonQuantity
  Quantity Point Chrono System Catalogue Includes Names Math.
Import ListNotations.
Local Open Scope string_scope.
Local Open Scope list_scope.
Local Open Scope res_scope.

(** The headers included, capacitor_time_curve.cpp:23-28; [isq/dimensions/electric_current.h]
    declares a template only, which the catalogue always has. *)
Definition capacitor_headers := ["generic/dimensionless.h"; "isq/si/capacitance.h"; "isq/si/resistance.h"; "isq/si/time.h"; "isq/si/voltage.h"].

(** The references and units named in capacitor_time_curve.cpp:45-63. *)
Record cenv := CEnv {
  c_est : estimate; c_world : world; c_libm : libm;
  r_uF : reference; r_V : reference; r_kR : reference; r_ms : reference;
  r_mV : reference; r_uV : reference; r_nV : reference;
  u_millivolt : cunit; u_microvolt : cunit; u_nanovolt : cunit; u_picovolt : cunit }.

Definition capacitor_setup (est : estimate) (l : libm) : res cenv :=
  e <- compile est On capacitor_headers;
  let ref d u := (x <- find_dim e d; y <- find_unit e u; t <- mk_qtype (snd x) y (RFlt F64); Ok (Reference (q_dim t) (q_unit t))) in
  uF <- ref "si::dim_capacitance" "si::microfarad"; V <- ref "si::dim_voltage" "si::volt";
  kR <- ref "si::dim_resistance" "si::kiloohm"; ms <- ref "si::dim_time" "si::millisecond";
  mV <- ref "si::dim_voltage" "si::millivolt"; uV <- ref "si::dim_voltage" "si::microvolt"; nV <- ref "si::dim_voltage" "si::nanovolt";
  pV <- find_unit e "si::picovolt";
  Ok (CEnv est (en_world e) l uF V kR ms mV uV nV (ref_unit mV) (ref_unit uV) (ref_unit nV) pV).

(** The voltage at the time [t], capacitor_time_curve.cpp:45-50. *)
Definition voltage_at (e : cenv) (capacitance voltage resistance : number) (t : quantity) : res quantity :=
  C <- times_reference (RFlt F64) capacitance (r_uF e);
  V0 <- times_reference (RFlt F64) voltage (r_V e);
  RR <- times_reference (RFlt F64) resistance (r_kR e);
  nt <- q_neg t;
  rc <- q_times (c_world e) RR C;
  x <- q_over (c_world e) nt rc;
  y <- q_exp (c_est e) (c_libm e) x;
  q_times (c_world e) V0 y.

(** [Vt >= 1 * r], capacitor_time_curve.cpp:54-60. *)
Definition at_least_one (e : cenv) (v : quantity) (r : reference) : res bool :=
  one <- times_reference (RInt I32) (NInt 1) r;
  c <- q_compare (c_est e) (c_world e) v one;
  Ok (match c with Some Gt | Some Eq => true | _ => false end).

(** The quantity printed for a voltage, capacitor_time_curve.cpp:54-63. *)
Definition shown (e : cenv) (v : quantity) : res quantity :=
  let to u := q_cast (c_est e) (c_world e) (ToUnit u) v in
  b <- at_least_one e v (r_V e);
  if b : bool then Ok v else
  b <- at_least_one e v (r_mV e);
  if b : bool then to (u_millivolt e) else
  b <- at_least_one e v (r_uV e);
  if b : bool then to (u_microvolt e) else
  b <- at_least_one e v (r_nV e);
  if b : bool then to (u_nanovolt e) else to (u_picovolt e).

(** The loop, capacitor_time_curve.cpp:49-65: the time and the quantity printed in each turn.
    [turns] bounds the turns followed; [Stuck] if they do not suffice. *)
Fixpoint curve (turns : nat) (e : cenv) (capacitance voltage resistance : number) (last : Z) (t : quantity) : res (list (quantity * quantity)) :=
  match turns with
  | O => Stuck
  | S turns =>
      end_ <- times_reference (RInt I32) (NInt last) (r_ms e);
      c <- q_compare (c_est e) (c_world e) t end_;
      match c with
      | Some Lt | Some Eq =>
          v <- voltage_at e capacitance voltage resistance t;
          s <- shown e v;
          t' <- q_act (c_est e) t AInc;
          rest <- curve turns e capacitance voltage resistance last t';
          Ok ((t, s) :: rest)
      | _ => Ok []
      end
  end.
Definition capacitor_main (turns : nat) (e : cenv) (capacitance voltage resistance : number) (last : Z) : res (list (quantity * quantity)) :=
  t <- times_reference (RInt I32) (NInt 0) (r_ms e);
  curve turns e capacitance voltage resistance last t.
