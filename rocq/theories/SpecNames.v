(** What the name of a unit says: a reader of symbols of units in ASCII, written down from
    the SI Brochure (prefixes and symbols; products with "_", quotients with "_per_",
    squares and cubes with a digit), and from the customary abbreviations of the units
    outside the SI.  The symbol of the ohm is written R.

    A reading is a list of exponents of base quantities (added up if one occurs twice) and
    a value in the coherent SI unit (kilogram, metre, ...) of the quantity. *)

From Coq Require Import ZArith QArith Qpower String Ascii List Bool.
From Verif Require Import FixedString Unit Dim SpecDim System SpecCatalogue.
Import ListNotations.
Local Open Scope string_scope.
Local Open Scope Z_scope.

(** ** The exponents of a quantity, those of IEC 80000-13 included *)

Definition information : string := "iec80000::dim_storage_capacity".
Definition traffic : string := "iec80000::dim_traffic_intensity".
Definition quantity_row (q : string) : list (string * Z) :=
  match assoc quantity_table q with
  | Some row => row
  | None => if String.eqb q "iec80000::dim_transfer_rate" then [(information, 1); ("dim_time", -1)] else [(q, 1)]
  end.
Definition base_quantities : list string :=
  ["dim_length"; "dim_mass"; "dim_time"; "dim_electric_current"; "dim_thermodynamic_temperature";
   "dim_amount_of_substance"; "dim_luminous_intensity"; "dim_angle"; information; traffic].
Fixpoint total (row : list (string * Z)) (k : string) : Z :=
  match row with
  | [] => 0
  | (k', z) :: r => (if String.eqb k k' then z else 0) + total r k
  end.
Definition same_row (a b : list (string * Z)) : bool :=
  forallb (fun k => total a k =? total b k) base_quantities.

(** ** Symbols *)

(** Those that take the prefixes of the SI. *)
Definition metric_symbols : list (string * string * Q) := [
  ("m", "dim_length", 1%Q); ("g", "dim_mass", (1 # 1000)%Q); ("s", "dim_time", 1%Q);
  ("A", "dim_electric_current", 1%Q); ("K", "dim_thermodynamic_temperature", 1%Q);
  ("mol", "dim_amount_of_substance", 1%Q); ("cd", "dim_luminous_intensity", 1%Q); ("rad", "dim_angle", 1%Q);
  ("Hz", "dim_frequency", 1%Q); ("N", "dim_force", 1%Q); ("Pa", "dim_pressure", 1%Q); ("J", "dim_energy", 1%Q);
  ("W", "dim_power", 1%Q); ("C", "dim_electric_charge", 1%Q); ("V", "dim_voltage", 1%Q);
  ("F", "dim_capacitance", 1%Q); ("R", "dim_resistance", 1%Q); ("S", "dim_conductance", 1%Q);
  ("Wb", "dim_magnetic_flux", 1%Q); ("T", "dim_magnetic_induction", 1%Q); ("H", "dim_inductance", 1%Q);
  ("Bq", "dim_radioactivity", 1%Q); ("Gy", "dim_absorbed_dose", 1%Q); ("kat", "dim_catalytic_activity", 1%Q);
  ("l", "dim_volume", (1 # 1000)%Q); ("t", "dim_mass", 1000%Q);
  ("eV", "dim_energy", ((1602176634 # 1000000000) * ten_to (-19))%Q);
  ("G", "dim_magnetic_induction", (1 # 10000)%Q); ("Bd", "dim_frequency", 1%Q);
  ("bit", information, 1%Q); ("B", information, 8%Q)].
(** Those that also take the binary prefixes. *)
Definition binary_symbols : list (string * string * Q) := [("bit", information, 1%Q); ("B", information, 8%Q)].

(** Those that take none. *)
Definition other_symbols : list (string * string * Q) := [
  ("min", "dim_time", 60%Q); ("h", "dim_time", 3600%Q); ("d", "dim_time", 86400%Q);
  ("au", "dim_length", 149597870700%Q); ("ha", "dim_area", 10000%Q);
  ("Da", "dim_mass", ((166053906660 # 100000000000) * ten_to (-27))%Q);
  ("U", "dim_catalytic_activity", (ten_to (-6) / 60)%Q); ("E", traffic, 1%Q);
  (* centimetre, gram, second *)
  ("Gal", "dim_acceleration", (1 # 100)%Q); ("dyn", "dim_force", ten_to (-5)); ("erg", "dim_energy", ten_to (-7));
  ("Ba", "dim_pressure", (1 # 10)%Q);
  (* astronomy *)
  ("ly", "dim_length", ((1461 # 4) * 86400 * 299792458)%Q); ("pc", "dim_length", 30856775814913673%Q);
  ("angstrom", "dim_length", ten_to (-10));
  (* yard and pound *)
  ("thou", "dim_length", (inch_value / 1000)%Q); ("mil", "dim_length", (inch_value / 1000)%Q);
  ("in", "dim_length", inch_value); ("ft", "dim_length", foot_value); ("yd", "dim_length", yard_value);
  ("ftm", "dim_length", (2 * yard_value)%Q); ("fathom", "dim_length", (2 * yard_value)%Q);
  ("rd", "dim_length", ((11 # 2) * yard_value)%Q); ("ch", "dim_length", (22 * yard_value)%Q);
  ("kyd", "dim_length", (1000 * yard_value)%Q); ("mile", "dim_length", (1760 * yard_value)%Q);
  ("mi", "dim_length", (1760 * yard_value)%Q); ("mph", "dim_speed", (1760 * yard_value / 3600)%Q);
  ("knot", "dim_speed", (1852 # 3600)%Q);
  ("gr", "dim_mass", (pound_value / 7000)%Q); ("dr", "dim_mass", (pound_value / 256)%Q);
  ("oz", "dim_mass", (pound_value / 16)%Q); ("lb", "dim_mass", pound_value); ("st", "dim_mass", (14 * pound_value)%Q);
  ("qr", "dim_mass", (28 * pound_value)%Q); ("cwt", "dim_mass", (112 * pound_value)%Q);
  ("ston", "dim_mass", (2000 * pound_value)%Q); ("lton", "dim_mass", (2240 * pound_value)%Q);
  ("pdl", "dim_force", (pound_value * foot_value)%Q); ("lbf", "dim_force", pound_force_value);
  ("klbf", "dim_force", (1000 * pound_force_value)%Q); ("hp", "dim_power", (550 * foot_value * pound_force_value)%Q);
  ("psi", "dim_pressure", (pound_force_value / inch_value ^ 2)%Q);
  ("kpsi", "dim_pressure", (1000 * pound_force_value / inch_value ^ 2)%Q)].

(** Names of more than one word. *)
Definition phrases : list (string * string * Q) := [
  ("naut_mi", "dim_length", 1852%Q); ("mi_naut", "dim_length", 1852%Q);
  ("pica_comp", "dim_length", (inch_value / 6)%Q); ("point_comp", "dim_length", (inch_value / 72)%Q);
  ("pica_prn", "dim_length", ((4217518 # 1000000) * ten_to (-3))%Q);
  ("point_prn", "dim_length", ((3514598 # 1000000) * ten_to (-4))%Q);
  ("ft_us", "dim_length", survey_foot_value); ("fathom_us", "dim_length", (6 * survey_foot_value)%Q);
  ("mi_us", "dim_length", (5280 * survey_foot_value)%Q)].

(** In namespace [uscs] the plain names are those of the survey units. *)
Definition survey_symbols : list (string * string * Q) := [
  ("ft", "dim_length", survey_foot_value); ("fathom", "dim_length", (6 * survey_foot_value)%Q);
  ("mi", "dim_length", (5280 * survey_foot_value)%Q)].

(** ** The reader *)

Definition reading : Type := (list (string * Z) * Q)%type.
Definition read_in (t : list (string * string * Q)) (s : string) : list reading :=
  map (fun x => (quantity_row (snd (fst x)), snd x)) (filter (fun x => String.eqb (fst (fst x)) s) t).
(** [s] without [p] in front. *)
Fixpoint after (p s : string) : option string :=
  match p, s with
  | EmptyString, _ => Some s
  | String a p', String b s' => if Ascii.eqb a b then after p' s' else None
  | _, EmptyString => None
  end.
Definition scaled_by (f : Q) (r : reading) : reading := (fst r, (f * snd r)%Q).
Definition read_prefixed (s : string) : list reading :=
  flat_map (fun '(_, (_, p), k) => match after p s with
                                   | Some r => map (scaled_by (ten_to k)) (read_in metric_symbols r)
                                   | None => []
                                   end) si_prefixes ++
  flat_map (fun '(_, p, k) => match after p s with
                              | Some r => map (scaled_by (inject_Z 1024 ^ k)) (read_in binary_symbols r)
                              | None => []
                              end) iec_prefixes.
Definition read_symbol (ns s : string) : list reading :=
  match (if String.prefix "si::uscs" ns then read_in survey_symbols s else []) with
  | [] => read_in metric_symbols s ++ read_in other_symbols s ++ read_prefixed s
  | l => l
  end.

(** A symbol to the power [n], possibly negative. *)
Definition power_of (n : Z) (r : reading) : reading :=
  (map (fun x => (fst x, n * snd x)) (fst r), (snd r ^ n)%Q).
(** A digit 2 or 3 at the end. *)
Fixpoint split_power (s : string) : string * Z :=
  match s with
  | EmptyString => (EmptyString, 1)
  | String "2" EmptyString => (EmptyString, 2)
  | String "3" EmptyString => (EmptyString, 3)
  | String a r => let '(b, n) := split_power r in (String a b, n)
  end.
Definition read_factor (ns s : string) : list reading :=
  let '(b, n) := split_power s in map (power_of n) (read_symbol ns b).

(** The words between the underscores. *)
Fixpoint words (s : string) : list string :=
  match s with
  | EmptyString => [EmptyString]
  | String a r => let l := words r in
      if Ascii.eqb a "_" then EmptyString :: l
      else match l with w :: l' => String a w :: l' | [] => [String a EmptyString] end
  end.
Fixpoint read_product (ns : string) (sign : Z) (ws : list string) : list reading :=
  match ws with
  | [] => [([], 1%Q)]
  | w :: r =>
      if String.eqb w "per" then read_product ns (-1) r
      else flat_map (fun a => map (fun b => ((fst (power_of sign a) ++ fst b)%list, (snd (power_of sign a) * snd b)%Q))
                                (read_product ns sign r)) (read_factor ns w)
  end.

(** All the readings of a name. *)
Definition readings (ns s : string) : list reading :=
  match read_in phrases s with [] => read_product ns 1 (words s) | l => l end.
(** Those as a unit of the quantity [q]: their values. *)
Definition readings_as (q ns s : string) : list Q :=
  map (fun r => snd r) (filter (fun r => same_row (fst r) (quantity_row q)) (readings ns s)).

(** In the natural system: the power of the gigaelectronvolt. *)
Definition natural_readings : list (string * Z) := [("GeV", 1); ("inv_GeV", -1); ("GeV2", 2)].

(** The namespace around a namespace. *)
Fixpoint before_last (s acc : string) (found : string) : string :=
  match s with
  | EmptyString => found
  | String ":" (String ":" r) => before_last r (acc ++ "::") acc
  | String a r => before_last r (acc ++ String a EmptyString) found
  end.
Definition enclosing (s : string) : string := before_last s EmptyString EmptyString.
