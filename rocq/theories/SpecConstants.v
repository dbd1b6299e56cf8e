(** Specification side of the physical constants: the defining constants of the SI (SI
    Brochure, 9th edition, table 1), the standard acceleration of gravity (3rd CGPM, 1901) and
    what it means that a quantity holds one. *)

From Coq Require Import ZArith QArith Qpower Qabs String List SpecFloat.
From Verif Require Import Outcome CInt Root Rep Dim QuantityCast Quantity SpecQuantity.
Import ListNotations.
Local Open Scope string_scope.
Local Open Scope Z_scope.

(** Name, dimension and value in coherent SI units. *)
Definition constants_table : list (string * list (string * Z) * Q) := [
  ("planck_constant", [("si::dim_length", 2); ("si::dim_mass", 1); ("si::dim_time", -1)], 662607015 # 10 ^ 42);
  ("elementary_charge", [("si::dim_electric_current", 1); ("si::dim_time", 1)], 1602176634 # 10 ^ 28);
  ("boltzmann_constant", [("si::dim_length", 2); ("si::dim_mass", 1); ("si::dim_time", -2);
     ("si::dim_thermodynamic_temperature", -1)], 1380649 # 10 ^ 29);
  ("avogadro_constant", [("si::dim_amount_of_substance", -1)], inject_Z (602214076 * 10 ^ 15));
  ("speed_of_light", [("si::dim_length", 1); ("si::dim_time", -1)], inject_Z 299792458);
  ("hyperfine_structure_transition_frequency", [("si::dim_time", -1)], inject_Z 9192631770);
  ("standard_gravity", [("si::dim_length", 1); ("si::dim_time", -2)], 980665 # 10 ^ 5)].

(** The number a floating-point value stands for. *)
Definition sf_value (x : spec_float) : Q :=
  match x with
  | S754_finite s m e => (if s then -1 else 1) * inject_Z (Zpos m) * inject_Z 2 ^ e
  | _ => 0
  end.

(** Relative error of the literal, a double, and of its conversion to [f]. *)
Definition accuracy (f : fty) : Q := inject_Z 2 ^ (-53) + inject_Z 2 ^ (- fprec f).

(** The magnitude of the coherent SI unit in metres, grams, seconds ... *)
Fixpoint si_factor (es : list (string * Z)) : Q :=
  match es with
  | [] => 1
  | (b, n) :: r => (if String.eqb b "si::dim_mass" then inject_Z 1000 ^ n else 1) * si_factor r
  end.

(** [q] holds [v] (in coherent SI units) of the dimension [es] in the floating-point type [f], up
    to the accuracy of its literal. *)
Definition measures (est : estimate) (f : fty) (es : list (string * Z)) (v : Q) (q : quantity) : Prop :=
  q_rep (q_type q) = RFlt f /\
  map (fun x => (bd_name (e_dim x), e_num x, e_den x)) (exponents (q_dim (q_type q))) = map (fun x => (fst x, snd x, 1)) es /\
  exists x m, q_num q = NFlt x /\ sized est (q_type q) m /\
    (Qabs (sf_value x * m - v * si_factor es) <= accuracy f * (v * si_factor es))%Q.
