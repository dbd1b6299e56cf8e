(** What the printed symbol of a unit says: a reader of such texts, written down from the SI
    Brochure and the customary abbreviations (the tables of [SpecNames]), on top of the
    notation for products, powers and factors of [SpecText].

    A reading is, as in [SpecNames], a list of exponents of base quantities and a value in
    the coherent SI unit of the quantity. *)

From Coq Require Import ZArith QArith Qpower String Ascii List Bool.
From Verif Require Import FixedString Unit Dim SpecDim System SpecCatalogue SpecText SpecNames.
Import ListNotations.
Local Open Scope string_scope.
Local Open Scope Z_scope.

(** ** Symbols *)

(** The ohm is written R in names only. *)
Definition printed_metric : list (string * string * Q) :=
  ("Ω", "dim_resistance", 1%Q) :: ("ohm", "dim_resistance", 1%Q) ::
  filter (fun x => negb (String.eqb (fst (fst x)) "R")) metric_symbols.
(** Units outside the SI with which its prefixes are used as well: kilopound, millierg, ... *)
Definition also_prefixed : list (string * string * Q) :=
  filter (fun x => existsb (String.eqb (fst (fst x))) ["dyn"; "erg"; "Gal"; "Ba"; "ft"; "lb"]) other_symbols.
Definition printed_prefixes : list (string * Z) := ("u", -6) :: map (fun '(_, (s, _), k) => (s, k)) si_prefixes.
(** Symbols with a qualification in parentheses, and the percent sign. *)
Definition qualified_symbols : list (string * string * Q) := [
  ("mi(naut)", "dim_length", 1852%Q);
  ("pica(comp)", "dim_length", (inch_value / 6)%Q); ("point(comp)", "dim_length", (inch_value / 72)%Q);
  ("pica(prn)", "dim_length", ((4217518 # 1000000) * ten_to (-3))%Q);
  ("point(prn)", "dim_length", ((3514598 # 1000000) * ten_to (-4))%Q);
  ("ft(us)", "dim_length", survey_foot_value); ("fathom(us)", "dim_length", (6 * survey_foot_value)%Q);
  ("mi(us)", "dim_length", (5280 * survey_foot_value)%Q)].
(** Those that contain a space. *)
Definition spaced_symbols : list (string * string * Q) := [
  ("ton (short)", "dim_mass", (2000 * pound_value)%Q); ("ton (long)", "dim_mass", (2240 * pound_value)%Q)].

Definition one_symbol (s : string) : list reading :=
  read_in printed_metric s ++ read_in other_symbols s ++ read_in qualified_symbols s ++
  (if String.eqb s "%" then [([], (1 # 100)%Q)] else []) ++
  flat_map (fun '(p, k) => match after p s with
                           | Some r => map (scaled_by (ten_to k)) (read_in (printed_metric ++ also_prefixed) r)
                           | None => []
                           end) printed_prefixes ++
  flat_map (fun '(_, p, k) => match after p s with
                              | Some r => map (scaled_by (inject_Z 1024 ^ k)) (read_in binary_symbols r)
                              | None => []
                              end) iec_prefixes.

(** ** Products of powers *)

Section Products.
Variable symbol : string -> list reading.
Fixpoint read_powers (l : list (string * (Z * Z))) : list reading :=
  match l with
  | [] => [([], 1%Q)]
  | (s, (n, d)) :: r =>
      if d =? 1 then
        flat_map (fun a => map (fun b => ((fst (power_of n a) ++ fst b)%list, (snd (power_of n a) * snd b)%Q)) (read_powers r)) (symbol s)
      else []
  end.
Definition unit_readings (c : string) : list reading :=
  if String.eqb c "" then [([], 1%Q)]
  else match read_in spaced_symbols c with
       | [] => match SpecText.read_symbol c with Some l => read_powers l | None => [] end
       | l => l
       end.

(** ** The factor in front *)

(** A bracket up to its end, or a power of ten up to the space; then the rest. *)
Definition front (mult s : string) : string * string :=
  match s with
  | "" => ("", "")
  | String c r =>
      if Ascii.eqb c "[" then
        let (body, rest) := cut_at "]" r in
        ("[" ++ body ++ "]", match strip " " rest with Some x => x | None => rest end)
      else
        match strip mult s with
        | Some x => let (e, rest) := cut_at " " x in (mult ++ e, rest)
        | None => ("", s)
        end
  end.
Definition text_readings (mult : string) (read : string -> option Z) (s : string) : list reading :=
  let (f, c) := front mult s in
  match read_ratio_with mult read f with
  | Some (n, d, e) => map (scaled_by (inject_Z n / inject_Z d * ten_to e)) (unit_readings c)
  | None => []
  end.
End Products.

(** All readings of a text in Unicode and in ASCII. *)
Definition unicode_readings : string -> list reading := text_readings one_symbol "× 10" read_superscript.
Definition ascii_readings : string -> list reading := text_readings one_symbol "x 10^" read_int.
(** The values of those as a unit of the quantity [q].  ("dim_one": no exponents.) *)
Definition printed_row (q : string) : list (string * Z) := if String.eqb q "dim_one" then [] else quantity_row q.
Definition values_as (q : string) (l : list reading) : list Q :=
  map (fun r => snd r) (filter (fun r => same_row (fst r) (printed_row q)) l).
Definition reads_as (q : string) (t : symbol_text) (v : Q) : Prop :=
  exists a b, values_as q (unicode_readings (st_standard t)) = [a] /\ values_as q (ascii_readings (st_ascii t)) = [b] /\
    (a == v)%Q /\ (b == v)%Q.

(** ** The natural system: powers of the gigaelectronvolt *)

Definition natural_symbol (s : string) : list reading :=
  if String.eqb s "GeV" then [([("energy", 1)], 1%Q)]
  else if String.eqb s "eV" then [([("energy", 1)], ten_to (-9))]
  else if String.eqb s "%" then [([], (1 # 100)%Q)] else [].
Definition natural_reads (t : symbol_text) (k : Z) (v : Q) : Prop :=
  exists a b, text_readings natural_symbol "× 10" read_superscript (st_standard t) = [a] /\
    text_readings natural_symbol "x 10^" read_int (st_ascii t) = [b] /\
    total (fst a) "energy" = k /\ total (fst b) "energy" = k /\ (snd a == v)%Q /\ (snd b == v)%Q.

(** The units whose text does not say what they are, and the text. *)
Definition misprinted : list (string * symbol_text) := [
  ("si::radian_per_second", SymbolText "ω" "w"); ("si::joule_per_metre_cub", SymbolText "J ⋅ m³" "J m^3");
  ("si::fps::poundal_per_foot_sq", SymbolText "pdl ⋅ ft²" "pdl ft^2");
  ("si::fps::pound_force_per_foot_sq", SymbolText "lbf ft2" "lbf ft2")].
(** The coherent units that have a prefix already. *)
Definition prefixed_coherent : list string := ["si::kilogram"; "si::centimetre"].
