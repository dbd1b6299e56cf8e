(** Specification side of the formatting of quantities: the grammar documented at
    format.h:40-53 and docs/framework/text_output.rst, how it is spelled, and what it means. *)

From Coq Require Import ZArith Ascii String List Bool DecimalString.
From Verif Require Import SpecText.
Import ListNotations.
Local Open Scope string_scope.
Local Open Scope Z_scope.

(** * The grammar *)

Inductive sign_mod := Plus | Minus | Space.
(** units-rep-modifier; the precision is given by its digits. *)
Record rep_mod := RepMod { m_sign : option sign_mod; m_alt : bool; m_precision : option string; m_locale : bool; m_type : option ascii }.
(** A literal character or a conversion; [Symbol true] is [%Aq]. *)
Inductive item := Literal (c : ascii) | Percent | Newline | Tab | Value (m : rep_mod) | Symbol (ascii_only : bool).
Inductive alignment := Left | Right | Center.
Record field := Field { d_fill : option string; d_align : option alignment; d_width : option string; d_items : list item }.

(** * Spelling *)

Definition one (c : ascii) : string := String c "".
Definition spell_sign (x : option sign_mod) : string := match x with None => "" | Some Plus => "+" | Some Minus => "-" | Some Space => " " end.
Definition spell_rep (m : rep_mod) : string :=
  spell_sign (m_sign m) ++ (if m_alt m then "#" else "")
  ++ (match m_precision m with Some d => "." ++ d | None => "" end)
  ++ (if m_locale m then "L" else "") ++ (match m_type m with Some c => one c | None => "" end).
Definition spell_item (i : item) : string :=
  match i with
  | Literal c => one c
  | Percent => "%%"
  | Newline => "%n"
  | Tab => "%t"
  | Value m => "%" ++ spell_rep m ++ "Q"
  | Symbol a => if a then "%Aq" else "%q"
  end.
Fixpoint spell (l : list item) : string := match l with [] => "" | i :: r => spell_item i ++ spell r end.
Definition spell_align (a : option alignment) : string := match a with None => "" | Some Left => "<" | Some Right => ">" | Some Center => "^" end.
Definition optional (d : option string) : string := match d with Some s => s | None => "" end.
Definition spell_field (f : field) : string :=
  optional (d_fill f) ++ spell_align (d_align f) ++ optional (d_width f) ++ spell (d_items f).

(** * What is documented *)

(** The types, and the numbers that fit in an [int]. *)
Definition rep_type (c : ascii) : Prop := In c ["a"; "A"; "b"; "B"; "d"; "e"; "E"; "f"; "F"; "g"; "G"; "o"; "x"; "X"]%char.
Definition int_digits (d : string) : Prop := exists n, read_nat d = Some n /\ n <= 2147483647.
(** A precision is documented only for floating-point representations. *)
Definition documented_rep (floating : bool) (m : rep_mod) : Prop :=
  (forall d, m_precision m = Some d -> floating = true /\ int_digits d) /\ (forall c, m_type m = Some c -> rep_type c).
Definition documented_item (floating : bool) (i : item) : Prop :=
  match i with
  | Literal c => c <> "{"%char /\ c <> "}"%char /\ c <> "%"%char
  | Value m => documented_rep floating m
  | _ => True
  end.
(** One code point of UTF-8: its first byte gives the number of bytes. *)
Definition code_point (s : string) : Prop :=
  exists c r, s = String c r /\ c <> "{"%char /\ c <> "}"%char /\
    let b := nat_of_ascii c in
    (b < 128 /\ r = "" \/ 192 <= b < 224 /\ String.length r = 1 \/ 224 <= b < 240 /\ String.length r = 2 \/ 240 <= b < 248 /\ String.length r = 3)%nat.
Definition conversion (i : item) : Prop := match i with Literal _ => False | _ => True end.
(** There is no fill without an alignment, and the items begin with a conversion. *)
Definition documented (floating : bool) (f : field) : Prop :=
  (forall s, d_fill f = Some s -> code_point s /\ d_align f <> None) /\
  (forall d, d_width f = Some d -> int_digits d) /\
  Forall (documented_item floating) (d_items f) /\
  (forall i r, d_items f = i :: r -> conversion i).

(** * What it means *)

(** The usual decimal notation. *)
Definition notation (n : Z) : string := NilZero.string_of_int (Z.to_int n).
Definition number_of (d : string) : Z := match read_nat d with Some n => n | None => 0 end.
(** The format string of the C++ standard (and fmt) for the number: the modifiers in the order
    of the standard; [f] is the default type after a precision and [g] for other floating-point
    numbers. *)
Definition value_format (floating : bool) (m : rep_mod) : string :=
  "{:" ++ spell_sign (m_sign m) ++ (if m_alt m then "#" else "")
  ++ (match m_precision m with Some d => "." ++ notation (number_of d) | None => "" end)
  ++ (if m_locale m then "L" else "")
  ++ (match m_type m with
      | Some c => one c
      | None => match m_precision m with Some _ => "f" | None => if floating then "g" else "" end
      end) ++ "}".

(** The text of one item; [value] writes the number with a format string, the unit has a
    Unicode and an ASCII symbol. *)
Definition item_text (value : string -> string) (floating : bool) (unicode ascii_symbol : string) (i : item) : string :=
  match i with
  | Literal c => one c
  | Percent => "%"
  | Newline => one (ascii_of_nat 10)
  | Tab => one (ascii_of_nat 9)
  | Value m => value (value_format floating m)
  | Symbol a => if a then ascii_symbol else unicode
  end.
Definition items_text (value : string -> string) (floating : bool) (unicode ascii_symbol : string) (l : list item) : string :=
  String.concat "" (map (item_text value floating unicode ascii_symbol) l).

(** A field without items shows the number and, unless it is empty, the symbol after a space. *)
Definition default_text (value : string -> string) (floating : bool) (unicode : string) : string :=
  let t := value (if floating then "{:g}" else "{:}") in
  if String.eqb unicode "" then t else t ++ " " ++ unicode.
Definition field_text (value : string -> string) (floating : bool) (unicode ascii_symbol : string) (f : field) : string :=
  match d_items f with
  | [] => default_text value floating unicode
  | l => items_text value floating unicode ascii_symbol l
  end.

Fixpoint copies (n : nat) (s : string) : string := match n with O => "" | S k => s ++ copies k s end.
(** [out] is [s] with fills on the sides up to a width. *)
Definition aligned (fill : string) (a : alignment) (width : Z) (columns : string -> nat) (s out : string) : Prop :=
  exists l r, out = copies l fill ++ s ++ copies r fill /\ Z.of_nat (l + r) = Z.max 0 (width - Z.of_nat (columns s)) /\
    match a with Left => l = 0%nat | Right => r = 0%nat | Center => (l <= r <= S l)%nat end.
(** Texts that show nothing but the unit are aligned to the left, others like numbers. *)
Definition is_value (i : item) : bool := match i with Value _ => true | _ => false end.
Definition is_symbol (i : item) : bool := match i with Symbol _ => true | _ => false end.
Definition default_alignment (l : list item) : alignment := if existsb is_symbol l && negb (existsb is_value l) then Left else Right.
Definition field_alignment (f : field) : alignment := match d_align f with Some a => a | None => default_alignment (d_items f) end.
Definition field_fill (f : field) : string := match d_fill f with Some s => s | None => " " end.
Definition field_width (f : field) : Z := match d_width f with Some d => number_of d | None => 0 end.

(** All values have the same modifiers, and all symbols too (for example, one of each). *)
Definition uniform (l : list item) : Prop :=
  (forall m m', In (Value m) l -> In (Value m') l -> m = m') /\ (forall a a', In (Symbol a) l -> In (Symbol a') l -> a = a').
(** No value with a locale and a type, written or assumed. *)
Definition locale_free (floating : bool) (m : rep_mod) : Prop := m_locale m = true -> floating = false /\ m_type m = None.

(** A format string of the standard for a number. *)
Definition standard_format (floating : bool) (s : string) : Prop := exists m, documented_rep floating m /\ s = "{:" ++ spell_rep m ++ "}".

(** * What is not documented *)

Definition contains_q (s : string) : Prop := In "Q"%char (list_ascii_of_string s) \/ In "q"%char (list_ascii_of_string s).
Definition special (c : ascii) : Prop := In c ["Q"; "q"; "}"; "%"; "+"; "-"; " "; "#"; "."; "L"; "<"; ">"; "^"; "n"; "t"]%char.
(** After a field, one of: a value with an unknown type, a value of an integral representation
    with a precision, a conversion that does not end. *)
Inductive erroneous (floating : bool) : string -> Prop :=
| bad_type : forall m c x t, documented_rep floating m -> m_type m = None -> ~ rep_type c -> ~ special c ->
    (digit_of c <> None -> m_precision m = None \/ m_locale m = true) -> ~ contains_q x ->
    erroneous floating ("%" ++ spell_rep m ++ String c (x ++ "Q" ++ t))
| bad_precision : forall m x t, floating = false -> m_precision m = None -> m_locale m = false -> m_type m = None -> ~ contains_q x ->
    erroneous floating ("%" ++ spell_rep m ++ "." ++ x ++ "Q" ++ t)
| bad_end : forall x, ~ contains_q x -> (forall c r, x = String c r -> ~ special c) -> erroneous floating ("%" ++ x).
