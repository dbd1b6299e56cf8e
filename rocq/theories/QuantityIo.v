(** Model of [src/core-io/include/units/quantity_io.h].

    A stream is the text written so far and the state insertions read.  How the standard
    library writes a number is a parameter, [put]: the text of a number under the format
    state [F] (flags, precision, locale).  Simplification: the stream does not fail, and
    [internal] adjustment pads on the left (a number is only written with width zero here). *)

From Coq Require Import ZArith Ascii String List Bool.
From Verif Require Import Outcome FixedString Unit Dim Rep QuantityCast Quantity UnitText.
Import ListNotations.
Local Open Scope string_scope.
Local Open Scope Z_scope.
Local Open Scope res_scope.

Record stream (F : Type) := Stream { os_width : Z; os_fill : ascii; os_left : bool; os_format : F; os_out : string }.
Arguments Stream {F}.
Arguments os_width {F}.
Arguments os_fill {F}.
Arguments os_left {F}.
Arguments os_format {F}.
Arguments os_out {F}.

Fixpoint fill_chars (n : nat) (c : ascii) : string := match n with O => "" | S k => String c (fill_chars k c) end.
(** Padding to [width()] characters (C++ [ostream.formatted.reqmts], [facet.num.put.virtuals]). *)
Definition padded (width : Z) (c : ascii) (left : bool) (s : string) : string :=
  let n := Z.to_nat (width - Z.of_nat (String.length s)) in
  if left then s ++ fill_chars n c else fill_chars n c ++ s.

(** Inserting a text, or a number, resets the width. *)
Definition insert_text {F} (os : stream F) (s : string) : stream F :=
  Stream 0 (os_fill os) (os_left os) (os_format os) (os_out os ++ padded (os_width os) (os_fill os) (os_left os) s).
Definition insert_number {F} (put : F -> number -> string) (os : stream F) (x : number) : stream F :=
  insert_text os (put (os_format os) x).

(** [to_stream], quantity_io.h:38-46, with the text of the unit. *)
Definition to_stream {F} (put : F -> number -> string) (os : stream F) (x : number) (symbol : symbol_text) : stream F :=
  let os := insert_number put os x in
  if negb (String.eqb (st_standard symbol) "") then insert_text (insert_text os " ") (st_standard symbol) else os.

(** A new [std::basic_ostringstream]: default format, width zero. *)
Definition new_stream {F} (default : F) : stream F := Stream 0 " " false default "".

(** [operator<<], quantity_io.h:50-63. *)
Definition put_quantity {F} (put : F -> number -> string) (default : F) (os : stream F) (x : number) (symbol : symbol_text) : stream F :=
  if negb (os_width os =? 0) then
    insert_text os (os_out (to_stream put (new_stream default) x symbol))
  else to_stream put os x symbol.
Definition output {F} (put : F -> number -> string) (default : F) (g : prefix_registry) (env : list cunit)
    (os : stream F) (q : quantity) : res (stream F) :=
  symbol <- unit_text g env (q_dim (q_type q)) (q_unit (q_type q));
  Ok (put_quantity put default os (q_num q) symbol).

(** [os << q1 << q2 << ...]. *)
Fixpoint outputs {F} (put : F -> number -> string) (default : F) (g : prefix_registry) (env : list cunit)
    (os : stream F) (l : list quantity) : res (stream F) :=
  match l with
  | [] => Ok os
  | q :: r => os' <- output put default g env os q; outputs put default g env os' r
  end.
