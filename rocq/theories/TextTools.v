(** Model of [src/core/include/units/bits/external/text_tools.h].

    Simplification: the narrow execution character set is UTF-8, so an escape
    such as [⁰] contributes its UTF-8 bytes. *)

From Coq Require Import ZArith Ascii String List Bool.
From Verif Require Import Outcome CInt FixedString.
Import ListNotations.
Local Open Scope string_scope.
Local Open Scope Z_scope.
Local Open Scope res_scope.

(** [superscript_number<Value>], text_tools.h:30-44. *)
Definition superscript_number (v : Z) : res fixed_string :=
  match v with
  | 0 => Ok "⁰" | 1 => Ok "¹" | 2 => Ok "²" | 3 => Ok "³" | 4 => Ok "⁴"
  | 5 => Ok "⁵" | 6 => Ok "⁶" | 7 => Ok "⁷" | 8 => Ok "⁸" | 9 => Ok "⁹"
  | _ => IllFormed
  end.

(** [superscript_minus], text_tools.h:46; [superscript_prefix], :48. *)
Definition superscript_minus : symbol_text := SymbolText "⁻" "-".
Definition superscript_prefix : symbol_text := SymbolText "" "^".

(** [static_cast<char>('0' + Value)] as a one-character string. *)
Definition digit_char (v : Z) : fixed_string := String (ascii_of_nat (Z.to_nat (48 + v))) "".

(** [superscript_helper], text_tools.h:50-59.  Template recursion: a decimal digit
    (or the sign) is removed at each level, so [fuel_digits] levels suffice. *)
Definition fuel_digits : nat := 21.
Fixpoint superscript_helper (fuel : nat) (v : Z) : res symbol_text :=
  match fuel with
  | O => Stuck
  | S k =>
      if v <? 0 then
        n <- cneg I64 v; t <- superscript_helper k n; Ok (st_add superscript_minus t)
      else if v <? 10 then
        s <- superscript_number v; Ok (SymbolText s (digit_char v))
      else
        a <- superscript_helper k (Z.quot v 10);
        b <- superscript_helper k (Z.rem v 10);
        Ok (st_add a b)
  end.

(** [superscript], text_tools.h:61-65. *)
Definition superscript (v : Z) : res symbol_text :=
  t <- superscript_helper fuel_digits v; Ok (st_add superscript_prefix t).

(** [regular], text_tools.h:67-76.  A negative value continues with
    [superscript_helper], as in the source. *)
Fixpoint regular_loop (fuel : nat) (v : Z) : res symbol_text :=
  match fuel with
  | O => Stuck
  | S k =>
      if v <? 0 then
        n <- cneg I64 v; t <- superscript_helper k n; Ok (st_add (st_of_ascii "-") t)
      else if v <? 10 then Ok (st_of_ascii (digit_char v))
      else
        a <- regular_loop k (Z.quot v 10);
        b <- regular_loop k (Z.rem v 10);
        Ok (st_add a b)
  end.
Definition regular (v : Z) : res symbol_text := regular_loop fuel_digits v.
