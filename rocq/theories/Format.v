(** Model of [src/core-fmt/include/units/format.h].

    A pointer into the format string is the rest of the string; reading at its end is the
    outcome [FOverrun].  A [fmt::format_error] is [FError].  The functions of the fmt library
    that are used ([parse_align], [parse_width], [parse_precision], padding of a string) are
    not part of the repository; they follow the documentation of fmt 7.  Simplification:
    dynamic width and precision (a nested [{}]) are the outcome [FDynamic].  How fmt writes a
    number with a given format string is a parameter. *)

From Coq Require Import ZArith Ascii String List Bool DecimalString.
From Verif Require Import Outcome FixedString Unit Dim Rep QuantityCast Quantity UnitText QuantityIo.
Import ListNotations.
Local Open Scope string_scope.
Local Open Scope Z_scope.

Inductive fres (A : Type) := FOk (a : A) | FError | FOverrun | FDynamic | FStuck.
Arguments FOk {A} _.
Arguments FError {A}.
Arguments FOverrun {A}.
Arguments FDynamic {A}.
Arguments FStuck {A}.
Definition fbind {A B : Type} (x : fres A) (f : A -> fres B) : fres B :=
  match x with FOk a => f a | FError => FError | FOverrun => FOverrun | FDynamic => FDynamic | FStuck => FStuck end.
Declare Scope fres_scope.
Notation "x <-- a ; b" := (fbind a (fun x => b)) (at level 100, a at level 99, b at level 200, right associativity) : fres_scope.
Local Open Scope fres_scope.

(** [*begin]. *)
Definition deref (s : string) : fres ascii := match s with String c _ => FOk c | EmptyString => FOverrun end.
(** [begin + 1]. *)
Definition tail (s : string) : string := match s with String _ r => r | EmptyString => "" end.

(** ** Specifications, format.h:86-109 *)
Inductive fsign := SNone | SPlus | SMinus | SSpace.
Inductive falign := ANone | ALeft | ARight | ACenter.
Record rep_specs := RepSpecs { s_sign : fsign; s_precision : Z; s_type : ascii; s_alt : bool; s_locale : bool }.
Definition no_rep_specs : rep_specs := RepSpecs SNone (-1) zero false false.
Record fspecs := FSpecs {
  f_fill : string;
  f_align : falign;
  f_width : Z;
  f_rep : rep_specs;
  f_modifier : ascii;
  f_value : bool;         (* quantity_value *)
  f_unit : bool           (* quantity_unit *)
}.
Definition no_fspecs : fspecs := FSpecs " " ANone 0 no_rep_specs zero false false.

(** ** Parts of fmt *)
Definition is_digit_char (c : ascii) : bool := let n := nat_of_ascii c in Nat.leb 48 n && Nat.leb n 57.
Definition int_max : Z := 2147483647.
(** [parse_nonnegative_int]: the digits at [s], of which at most [n] are within the range;
    the value, the rest and the number of characters left. *)
Fixpoint parse_int (acc : Z) (s : string) (n : Z) : fres (Z * string * Z) :=
  if n =? 0 then FOk (acc, s, n)
  else match s with
       | EmptyString => FOverrun
       | String c r =>
           if is_digit_char c then
             let v := 10 * acc + (Z.of_nat (nat_of_ascii c) - 48) in
             if int_max <? v then FError else parse_int v r (n - 1)
           else FOk (acc, s, n)
       end.
(** [parse_precision], at the dot. *)
Definition parse_precision (s : string) (n : Z) : fres (Z * string * Z) :=
  let s := tail s in
  let n := n - 1 in
  if n =? 0 then FError
  else
    c <-- deref s;
    if is_digit_char c then parse_int 0 s n
    else if Ascii.eqb c "{" then FDynamic
    else FError.
(** [parse_align], with the number of characters of the first code point. *)
Definition code_point_length (c : ascii) : nat :=
  let n := nat_of_ascii c in
  if Nat.ltb n 192 then 1 else if Nat.ltb n 224 then 2 else if Nat.ltb n 240 then 3 else if Nat.ltb n 248 then 4 else 1.
Definition align_of (c : ascii) : falign :=
  if Ascii.eqb c "<" then ALeft else if Ascii.eqb c ">" then ARight else if Ascii.eqb c "^" then ACenter
  else ANone.
Definition is_align (c : ascii) : bool := match align_of c with ANone => false | _ => true end.
Fixpoint drop (n : nat) (s : string) : string := match n, s with O, _ => s | S k, String _ r => drop k r | _, _ => "" end.
Fixpoint take (n : nat) (s : string) : string := match n, s with S k, String c r => String c (take k r) | _, _ => "" end.
(** The fill, the alignment and the rest. *)
Definition parse_align (s : string) : fres (string * falign * string) :=
  match s with
  | EmptyString => FOverrun
  | String c r =>
      let l := code_point_length c in
      match drop l s with
      | String a r' =>
          if is_align a then
            if Ascii.eqb c "{" then FError else FOk (take l s, align_of a, r')
          else if is_align c then FOk (" ", align_of c, r) else FOk (" ", ANone, s)
      | EmptyString => if is_align c then FOk (" ", align_of c, r) else FOk (" ", ANone, s)
      end
  end.
(** [parse_width]: 0 if there is none. *)
Definition parse_width (s : string) : fres (Z * string) :=
  c <-- deref s;
  if is_digit_char c then
    x <-- parse_int 0 s (Z.of_nat (String.length s)); FOk (fst (fst x), snd (fst x))
  else if Ascii.eqb c "{" then FDynamic
  else FOk (0, s).

(** ** [parse_units_rep], format.h:111-157, over the [n] characters at [s] *)

(** [on_type], format.h:383-391. *)
Fixpoint mem_char (c : ascii) (s : string) : bool := match s with EmptyString => false | String a r => Ascii.eqb a c || mem_char c r end.
Definition valid_rep_types : string := "aAbBdeEfFgGoxX".
Definition on_type (sp : rep_specs) (c : ascii) : fres rep_specs :=
  if mem_char c valid_rep_types then FOk (RepSpecs (s_sign sp) (s_precision sp) c (s_alt sp) (s_locale sp)) else FError.
Definition with_sign (sp : rep_specs) (x : fsign) := RepSpecs x (s_precision sp) (s_type sp) (s_alt sp) (s_locale sp).
Definition with_alt (sp : rep_specs) := RepSpecs (s_sign sp) (s_precision sp) (s_type sp) true (s_locale sp).
Definition with_precision (sp : rep_specs) (p : Z) := RepSpecs (s_sign sp) p (s_type sp) (s_alt sp) (s_locale sp).
Definition with_locale (sp : rep_specs) := RepSpecs (s_sign sp) (s_precision sp) (s_type sp) (s_alt sp) true.

(** The type, format.h:153-156. *)
Definition parse_type (sp : rep_specs) (s : string) (n : Z) : fres rep_specs :=
  if n =? 0 then FOk sp
  else
    c <-- deref s;
    if negb (Ascii.eqb c "}") && negb (Ascii.eqb c "%") then on_type sp c else FOk sp.
(** The locale and the rest, format.h:147-156: [*begin] is read without comparing with [end]. *)
Definition parse_locale (sp : rep_specs) (s : string) (n : Z) : fres rep_specs :=
  c <-- deref s;
  if Ascii.eqb c "L" then parse_type (with_locale sp) (tail s) (n - 1) else parse_type sp s n.
(** The precision and the rest, format.h:139-156. *)
Definition parse_dot (floating : bool) (sp : rep_specs) (s : string) (n : Z) : fres rep_specs :=
  c <-- deref s;
  if Ascii.eqb c "." then
    if floating then
      x <-- parse_precision s n;
      parse_locale (with_precision sp (fst (fst x))) (snd (fst x)) (snd x)
    else FError
  else parse_locale sp s n.
(** The alternative form and the rest, format.h:133-156. *)
Definition parse_alt (floating : bool) (sp : rep_specs) (s : string) (n : Z) : fres rep_specs :=
  if n =? 0 then FOk sp
  else
    c <-- deref s;
    if Ascii.eqb c "#" then
      if n - 1 =? 0 then FOk (with_alt sp) else parse_dot floating (with_alt sp) (tail s) (n - 1)
    else parse_dot floating sp s n.
Definition parse_units_rep (floating : bool) (sp : rep_specs) (s : string) (n : Z) : fres rep_specs :=
  c <-- deref s;
  if Ascii.eqb c "+" then parse_alt floating (with_sign sp SPlus) (tail s) (n - 1)
  else if Ascii.eqb c "-" then parse_alt floating (with_sign sp SMinus) (tail s) (n - 1)
  else if Ascii.eqb c " " then parse_alt floating (with_sign sp SSpace) (tail s) (n - 1)
  else parse_alt floating sp s n.

(** ** [parse_units_format], format.h:159-212 *)

(** The calls of the handler, in order; [OnValue s n]: [on_quantity_value(begin, end)] with the
    [n] characters at [s]. *)
Inductive call := OnText (t : string) | OnValue (s : string) (n : Z) | OnUnit (c : ascii).
Definition flush (t : string) (l : list call) : list call := match t with EmptyString => l | _ => OnText t :: l end.
(** [std::find_first_of(begin, end, "Qq")]: the number of characters before it, and the place. *)
Fixpoint find_first (s : string) : option (Z * string) :=
  match s with
  | EmptyString => None
  | String c r =>
      if Ascii.eqb c "Q" || Ascii.eqb c "q" then Some (0, s)
      else match find_first r with Some (k, x) => Some (k + 1, x) | None => None end
  end.
Definition newline : string := String (ascii_of_nat 10) "".
Definition tab : string := String (ascii_of_nat 9) "".
Definition prepend (l : list call) (x : fres (list call * string)) : fres (list call * string) :=
  y <-- x; FOk ((l ++ fst y)%list, snd y).
(** [pending] is the text between [begin] and [ptr]. *)
Fixpoint parse_loop (fuel : nat) (pending ptr : string) : fres (list call * string) :=
  match fuel with
  | O => FStuck
  | S k =>
      match ptr with
      | EmptyString => FOk (flush pending [], ptr)
      | String c r =>
          if Ascii.eqb c "}" then FOk (flush pending [], ptr)
          else if negb (Ascii.eqb c "%") then parse_loop k (pending ++ String c "") r
          else
            match r with
            | EmptyString => FError
            | String d r2 =>
                if Ascii.eqb d "%" then prepend (flush pending [OnText "%"]) (parse_loop k "" r2)
                else if Ascii.eqb d "n" then prepend (flush pending [OnText newline]) (parse_loop k "" r2)
                else if Ascii.eqb d "t" then prepend (flush pending [OnText tab]) (parse_loop k "" r2)
                else
                  match find_first r with
                  | None => FError
                  | Some (n, at_type) =>
                      x <-- deref at_type;
                      prepend (flush pending [if Ascii.eqb x "Q" then OnValue r n else OnUnit d])
                              (parse_loop k "" (tail at_type))
                  end
            end
      end
  end.
(** Every round consumes a character. *)
Definition parse_units_format (s : string) : fres (list call * string) := parse_loop (S (String.length s)) "" s.

(** ** The handler that fills in the specifications, format.h:350-430 *)

(** [on_modifier], format.h:392-399, is never called, so it has no counterpart here. *)
Definition handle (floating : bool) (f : fspecs) (x : call) : fres fspecs :=
  match x with
  | OnText _ => FOk f
  | OnValue s n =>
      r <-- (if n =? 0 then FOk (f_rep f) else parse_units_rep floating (f_rep f) s n);
      FOk (FSpecs (f_fill f) (f_align f) (f_width f) r (f_modifier f) true (f_unit f))
  | OnUnit c =>
      FOk (FSpecs (f_fill f) (f_align f) (f_width f) (f_rep f) (if Ascii.eqb c "q" then f_modifier f else c) (f_value f) true)
  end.
Fixpoint handle_all (floating : bool) (f : fspecs) (l : list call) : fres fspecs :=
  match l with [] => FOk f | x :: r => g <-- handle floating f x; handle_all floating g r end.

(** [do_parse] and [parse], format.h:432-472: the specifications, [format_str], and what is left. *)
Definition consumed (s rest : string) : string := take (String.length s - String.length rest) s.
Definition parse (floating : bool) (s : string) : fres (fspecs * string * string) :=
  match s with
  | EmptyString => FOk (no_fspecs, "", s)
  | String c _ =>
      if Ascii.eqb c "}" then FOk (no_fspecs, "", s)
      else
        a <-- parse_align s;
        let '(fill, al, s1) := a in
        if String.eqb s1 "" then FOk (FSpecs fill al 0 no_rep_specs zero false false, "", s1)
        else
          w <-- parse_width s1;
          let s2 := snd w in
          if String.eqb s2 "" then FOk (FSpecs fill al (fst w) no_rep_specs zero false false, "", s2)
          else
            p <-- parse_units_format s2;
            f <-- handle_all floating (FSpecs fill al (fst w) no_rep_specs zero false false) (fst p);
            let al' := match f_align f with ANone => if negb (f_unit f) || f_value f then ARight else ANone | x => x end in
            FOk (FSpecs (f_fill f) al' (f_width f) (f_rep f) (f_modifier f) (f_value f) (f_unit f), consumed s2 (snd p), snd p)
  end.

(** ** Formatting *)

Definition decimal_text (z : Z) : string := NilZero.string_of_int (Z.to_int z).
Definition char_text (c : ascii) : string := String c "".
(** The format string for the number, format.h:214-257. *)
Definition number_format (floating : bool) (sp : rep_specs) : string :=
  "{:" ++ (match s_sign sp with SNone => "" | SPlus => "+" | SMinus => "-" | SSpace => " " end)
  ++ (if s_alt sp then "#" else "")
  ++ (if 0 <=? s_precision sp then
        "." ++ decimal_text (s_precision sp) ++ char_text (if Ascii.eqb (s_type sp) zero then "f"%char else s_type sp)
      else if floating then char_text (if Ascii.eqb (s_type sp) zero then "g"%char else s_type sp)
      else if negb (Ascii.eqb (s_type sp) zero) then char_text (s_type sp) else "")
  ++ (if s_locale sp then "L" else "") ++ "}".

(** [units_formatter], format.h:287-327. *)
Definition emit (put : string -> number -> fres string) (floating : bool) (f : fspecs) (x : number) (symbol : symbol_text) (c : call) : fres string :=
  match c with
  | OnText t => FOk t
  | OnValue _ _ => put (number_format floating (f_rep f)) x
  | OnUnit _ => FOk (if Ascii.eqb (f_modifier f) "A" then st_ascii symbol else st_standard symbol)
  end.
Fixpoint emit_all (put : string -> number -> fres string) (floating : bool) (f : fspecs) (x : number) (symbol : symbol_text) (l : list call) : fres string :=
  match l with
  | [] => FOk ""
  | c :: r => a <-- emit put floating f x symbol c; b <-- emit_all put floating f x symbol r; FOk (a ++ b)
  end.

(** [format_global_buffer], format.h:259-285, and what fmt makes of the string it builds: the
    alignment is to the left by default, and a fill may have several bytes. *)
Fixpoint repeated (n : nat) (s : string) : string := match n with O => "" | S k => s ++ repeated k s end.
Definition pad_text (f : fspecs) (columns : string -> nat) (s : string) : string :=
  let n := Z.to_nat (f_width f - Z.of_nat (columns s)) in
  match f_align f with
  | ALeft | ANone => s ++ repeated n (f_fill f)
  | ARight => repeated n (f_fill f) ++ s
  | ACenter => repeated (Nat.div2 n) (f_fill f) ++ s ++ repeated (n - Nat.div2 n) (f_fill f)
  end.

(** [format], format.h:474-514; [columns] is how fmt measures a text. *)
Definition format (put : string -> number -> fres string) (columns : string -> nat) (floating : bool) (f : fspecs) (format_str : string)
    (x : number) (symbol : symbol_text) : fres string :=
  b <-- (match format_str with
         | EmptyString =>
             t <-- put (number_format floating (f_rep f)) x;
             FOk (if String.eqb (st_standard symbol) "" then t else t ++ " " ++ st_standard symbol)
         | String c _ =>
             if Ascii.eqb c "}" then
               t <-- put (number_format floating (f_rep f)) x;
               FOk (if String.eqb (st_standard symbol) "" then t else t ++ " " ++ st_standard symbol)
             else
               p <-- parse_units_format format_str;
               emit_all put floating f x symbol (fst p)
         end);
  FOk (pad_text f columns b).
