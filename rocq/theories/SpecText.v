(** Specification side of the texts: decimal notation, and readers of the texts the library
    produces. *)

From Coq Require Import ZArith Ascii String List Bool.
Import ListNotations.
Local Open Scope string_scope.
Local Open Scope Z_scope.

(** * Decimal notation *)

(** The number a list of decimal digits denotes, most significant digit first. *)
Definition digits_value (ds : list Z) : Z := fold_left (fun acc d => 10 * acc + d) ds 0.
(** [ds] is the usual decimal notation of [n]: digits, no leading zero. *)
Definition decimal (ds : list Z) (n : Z) : Prop :=
  Forall (fun d => 0 <= d <= 9) ds /\ digits_value ds = n /\ (ds = [0] \/ exists d r, ds = d :: r /\ d <> 0).

(** The digits as characters, and as superscripts (in UTF-8). *)
Definition char_of_digit (d : Z) : string :=
  nth (Z.to_nat d) ["0"; "1"; "2"; "3"; "4"; "5"; "6"; "7"; "8"; "9"] "?".
Definition superscript_of_digit (d : Z) : string :=
  nth (Z.to_nat d) ["⁰"; "¹"; "²"; "³"; "⁴"; "⁵"; "⁶"; "⁷"; "⁸"; "⁹"] "?".
Definition write (f : Z -> string) (ds : list Z) : string := String.concat "" (map f ds).

(** * Reading decimal numbers *)

Definition digit_of (c : ascii) : option Z :=
  let n := Z.of_nat (nat_of_ascii c) in
  if (48 <=? n) && (n <=? 57) then Some (n - 48) else None.
(** All of the text is digits, at least one. *)
Fixpoint read_digits (acc : Z) (s : string) : option Z :=
  match s with
  | EmptyString => Some acc
  | String c r => match digit_of c with Some d => read_digits (10 * acc + d) r | None => None end
  end.
Definition read_nat (s : string) : option Z :=
  match s with EmptyString => None | _ => read_digits 0 s end.
Definition read_int (s : string) : option Z :=
  match s with
  | String "-" r => option_map Z.opp (read_nat r)
  | _ => read_nat s
  end.

(** Superscript digits are two (U+00B9, U+00B2, U+00B3) or three bytes (U+2070, U+2074 to
    U+2079) long in UTF-8; the superscript minus is U+207B. *)
Definition byte (c : ascii) : Z := Z.of_nat (nat_of_ascii c).
Definition short_superscript (b : Z) : option Z :=
  if b =? 185 then Some 1 else if b =? 178 then Some 2 else if b =? 179 then Some 3 else None.
Definition long_superscript (c : Z) : option Z :=
  if c =? 176 then Some 0 else if (180 <=? c) && (c <=? 185) then Some (c - 176) else None.
Fixpoint read_superscripts (acc : Z) (s : string) : option Z :=
  match s with
  | EmptyString => Some acc
  | String a (String b r) =>
      if byte a =? 194 then
        match short_superscript (byte b) with Some d => read_superscripts (10 * acc + d) r | None => None end
      else
        match r with
        | String c r' =>
            if (byte a =? 226) && (byte b =? 129) then
              match long_superscript (byte c) with Some d => read_superscripts (10 * acc + d) r' | None => None end
            else None
        | EmptyString => None
        end
  | _ => None
  end.
Definition read_superscript_nat (s : string) : option Z :=
  match s with EmptyString => None | _ => read_superscripts 0 s end.
Definition read_superscript (s : string) : option Z :=
  match s with
  | String a (String b (String c r)) =>
      if (byte a =? 226) && (byte b =? 129) && (byte c =? 187) then option_map Z.opp (read_superscript_nat r)
      else read_superscript_nat s
  | _ => read_superscript_nat s
  end.

(** * Reading the symbol of a derived unit *)

(** The part before the first occurrence of a character, and the part after it. *)
Fixpoint cut_at (c : ascii) (s : string) : string * string :=
  match s with
  | EmptyString => ("", "")
  | String x r => if Ascii.eqb x c then ("", r) else let (a, b) := cut_at c r in (String x a, b)
  end.

(** An exponent: nothing (one), [^n], [^(n/d)], or superscripts. *)
Definition whole (n : Z) : Z * Z := (n, 1).
Definition read_exponent (e : string) : option (Z * Z) :=
  match e with
  | EmptyString => Some (1, 1)
  | String "^" (String "(" r) =>
      let (a, r1) := cut_at "/" r in
      let (b, r2) := cut_at ")" r1 in
      match read_nat a, read_nat b, r2 with Some n, Some d, "" => Some (n, d) | _, _, _ => None end
  | String "^" r => option_map whole (read_int r)
  | _ => option_map whole (read_superscript e)
  end.

(** A superscript digit or minus begins here. *)
Definition superscript_begins (s : string) : bool :=
  match s with
  | String a (String b r) =>
      ((byte a =? 194) && ((byte b =? 185) || (byte b =? 178) || (byte b =? 179))) ||
      match r with
      | String c _ => (byte a =? 226) && (byte b =? 129) &&
          ((byte c =? 176) || ((180 <=? byte c) && (byte c <=? 185)) || (byte c =? 187))
      | EmptyString => false
      end
  | _ => false
  end.
Definition exponent_begins (s : string) : bool :=
  match s with String "^" _ => true | _ => superscript_begins s end.
(** The symbol, and the exponent. *)
Fixpoint cut_exponent (s : string) : string * string :=
  if exponent_begins s then ("", s)
  else match s with
       | EmptyString => ("", "")
       | String c r => let (a, b) := cut_exponent r in (String c a, b)
       end.

(** The factors, each with the separator before it: a space or a slash, outside parentheses. *)
Definition add_char (s : string) (c : ascii) : string := s ++ String c "".
Fixpoint split (par : bool) (sep : ascii) (cur : string) (s : string) : list (ascii * string) :=
  match s with
  | EmptyString => [(sep, cur)]
  | String c r =>
      if par then split (negb (Ascii.eqb c ")")) sep (add_char cur c) r
      else if Ascii.eqb c " " || Ascii.eqb c "/" then (sep, cur) :: split false c "" r
      else split (Ascii.eqb c "(") sep (add_char cur c) r
  end.
Definition read_factor (t : ascii * string) : option (string * (Z * Z)) :=
  let (sym, e) := cut_exponent (snd t) in
  match read_exponent e with
  | Some (n, d) => Some (sym, (if Ascii.eqb (fst t) "/" then (- n, d) else (n, d)))
  | None => None
  end.
Fixpoint read_factors (l : list (ascii * string)) : option (list (string * (Z * Z))) :=
  match l with
  | [] => Some []
  | x :: r => match read_factor x, read_factors r with Some a, Some b => Some (a :: b) | _, _ => None end
  end.
(** The dot between factors is dropped, and so is a leading [1] before a slash. *)
Definition no_dot (t : ascii * string) : bool := negb (String.eqb (snd t) "⋅").
Definition slash_first (l : list (ascii * string)) : bool :=
  match l with (c, _) :: _ => Ascii.eqb c "/" | [] => false end.
Definition read_symbol (s : string) : option (list (string * (Z * Z))) :=
  match filter no_dot (split false " " "" s) with
  | [] => None
  | x :: r => if String.eqb (snd x) "1" && slash_first r then read_factors r else read_factors (x :: r)
  end.

(** A symbol that cannot be confused with the notation of products and powers; the last two
    conditions exclude broken UTF-8 at the end. *)
Definition plain_char (c : ascii) : bool :=
  negb (Ascii.eqb c " " || Ascii.eqb c "/" || Ascii.eqb c "^" || Ascii.eqb c "(" || Ascii.eqb c ")").
Fixpoint all_chars (p : ascii -> bool) (s : string) : bool :=
  match s with EmptyString => true | String c r => p c && all_chars p r end.
Fixpoint superscript_free (s : string) : bool :=
  match s with
  | EmptyString => true
  | String a r => negb (superscript_begins s) && superscript_free r &&
      match r with
      | EmptyString => negb (byte a =? 194) && negb (byte a =? 226)
      | String b EmptyString => negb ((byte a =? 226) && (byte b =? 129))
      | _ => true
      end
  end.
Definition plain_symbol (s : string) : bool :=
  negb (String.eqb s "") && negb (String.eqb s "1") && negb (String.eqb s "⋅") &&
  all_chars plain_char s && superscript_free s.

Fixpoint has_char (c : ascii) (s : string) : bool :=
  match s with EmptyString => false | String a r => Ascii.eqb a c || has_char c r end.

(** * Reading the ratio in front of a unit *)

Fixpoint strip (p s : string) : option string :=
  match p, s with
  | EmptyString, _ => Some s
  | String a p', String b s' => if Ascii.eqb a b then strip p' s' else None
  | _, _ => None
  end.
Definition read_fraction (s : string) : option (Z * Z) :=
  if has_char "/" s then
    let (a, b) := cut_at "/" s in match read_nat a, read_nat b with Some n, Some d => Some (n, d) | _, _ => None end
  else option_map whole (read_nat s).
(** A power of ten, written with the multiplication sign [mult]. *)
Definition read_power (mult : string) (read : string -> option Z) (s : string) : option Z :=
  match strip mult s with Some e => read e | None => None end.
(** [""], ["x 10^e"], ["[n]"], ["[n/d]"], ["[n x 10^e]"] or ["[n/d x 10^e]"]: numerator,
    denominator and exponent. *)
Definition read_ratio_with (mult : string) (read : string -> option Z) (s : string) : option (Z * Z * Z) :=
  match s with
  | EmptyString => Some (1, 1, 0)
  | String c r =>
      if Ascii.eqb c "[" then
        let (body, rest) := cut_at "]" r in
        if negb (String.eqb rest "") then None
        else if has_char " " body then
          let (f, p) := cut_at " " body in
          match read_fraction f, read_power mult read p with Some (n, d), Some e => Some (n, d, e) | _, _ => None end
        else match read_fraction body with Some (n, d) => Some (n, d, 0) | None => None end
      else option_map (fun e => (1, 1, e)) (read_power mult read s)
  end.
(** ASCII and Unicode notation. *)
Definition read_ratio : string -> option (Z * Z * Z) := read_ratio_with "x 10^" read_int.
Definition read_ratio_unicode : string -> option (Z * Z * Z) := read_ratio_with "× 10" read_superscript.
