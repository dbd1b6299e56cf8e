(** Specification for C108: the table a ship is printed as, in exact numbers. *)

From Coq Require Import String List Reals SpecFloat.
From Verif Require Import Rep Unit QuantityCast Quantity Ship SpecReal.
Import ListNotations.
Local Open Scope string_scope.
Local Open Scope R_scope.

(** The unit and the exact value of a quantity. *)
Definition entry : Type := string * R.
(** The foot is 0.3048 m, the pound 0.45359237 kg, the knot 2000 yards per hour, the long ton 2240 pounds,
    the pound-force 32.174049 poundals and the horse power 550 feet times pounds-force per second. *)
Definition ship_table (water : spec_float) (s : ship) : list (string * entry * list entry) :=
  let foot x := [("si::fps::yard", x / 3); ("si::metre", x * 0.3048)] in
  let vol := fval (s_mass s) / fval water in
  [("length", ("si::fps::foot", fval (s_length s)), foot (fval (s_length s)));
   ("draft", ("si::fps::foot", fval (s_draft s)), foot (fval (s_draft s)));
   ("beam", ("si::fps::foot", fval (s_beam s)), foot (fval (s_beam s)));
   ("mass", ("si::fps::pound", fval (s_mass s)), [("si::fps::long_ton", fval (s_mass s) / 2240); ("si::tonne", fval (s_mass s) * 0.45359237 / 1000)]);
   ("speed", ("si::fps::foot_per_second", fval (s_speed s)), [("si::fps::knot", fval (s_speed s) * 3600 / 6000); ("si::kilometre_per_hour", fval (s_speed s) * 0.3048 * 3600 / 1000)]);
   ("power", ("si::fps::foot_poundal_per_second", fval (s_power s)),
      [("si::fps::horse_power", fval (s_power s) / 32.174049 / 550); ("si::kilowatt", fval (s_power s) * 0.3048 * (0.45359237 * 0.3048) / 1000)]);
   ("main guns", ("si::fps::inch", fval (s_guns s)), [("si::fps::inch", fval (s_guns s)); ("si::millimetre", fval (s_guns s) / 12 * 304.8)]);
   ("fire shells weighing", ("si::fps::pound", fval (s_shell_mass s)), [("si::fps::long_ton", fval (s_shell_mass s) / 2240); ("si::kilogram", fval (s_shell_mass s) * 0.45359237)]);
   ("fire shells at", ("si::fps::foot_per_second", fval (s_shell_speed s)), [("si::fps::mile_per_hour", fval (s_shell_speed s) * 3600 / 5280); ("si::kilometre_per_hour", fval (s_shell_speed s) * 0.3048 * 3600 / 1000)]);
   ("volume underwater", ("si::fps::cubic_foot", vol), [("si::cubic_metre", vol * (0.3048 * 0.3048 * 0.3048)); ("si::litre", vol * (0.3048 * 0.3048 * 0.3048) * 1000)])].

(** A double quantity in the unit of an entry, within [k] roundings of its value. *)
Definition shows (k : nat) (x : entry) (q : quantity) : Prop :=
  u_name (q_unit (q_type q)) = Some (fst x) /\ q_rep (q_type q) = RFlt F64 /\
  exists y, q_num q = NFlt y /\ is_number F64 y /\ within F64 k (fval y) (snd x).

(** A printed line for a row of the table. *)
Definition row_shown (row : string * entry * list entry) (l : string * (quantity * list quantity)) : Prop :=
  fst l = fst (fst row) /\ shows 1 (snd (fst row)) (fst (snd l)) /\ Forall2 (shows 20) (snd row) (snd (snd l)).
