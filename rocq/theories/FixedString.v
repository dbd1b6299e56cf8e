(** Model of [src/core/include/units/bits/external/fixed_string.h] and of the
    comparison and concatenation operators of
    [src/core/include/units/symbol_text.h].

    A [basic_fixed_string<CharT, N>] is a string of length N (the terminating
    zero is not stored).  Simplification: characters are the 256 byte values
    compared as unsigned numbers (what [char8_t] does; plain [char] agrees on
    ASCII, the only characters the library puts into plain [char] strings). *)

From Coq Require Import Ascii String Arith Bool List.
Import ListNotations.
Local Open Scope string_scope.

Definition fixed_string := string.

(** [size], fixed_string.h:60, and [operator[]], :63-64 (reading at or beyond
    [size()] yields the terminating zero / is not done by the library). *)
Definition fs_size (s : fixed_string) : nat := String.length s.
Definition fs_get (s : fixed_string) (i : nat) : ascii :=
  match String.get i s with Some c => c | None => zero end.

(** An array [CharT txt[n] = {}] and assignment to one of its elements. *)
Definition zeros (n : nat) : list ascii := repeat zero n.
Fixpoint set_nth (i : nat) (c : ascii) (l : list ascii) : list ascii :=
  match l, i with
  | [], _ => []
  | _ :: r, O => c :: r
  | x :: r, S j => x :: set_nth j c r
  end.

(** The constructor from an array, fixed_string.h:53-57. *)
Definition fs_of_array (l : list ascii) : fixed_string := string_of_list_ascii l.

(** [for (i = 0; i != n; ++i) txt[base + i] = s[i]], with [k] iterations left. *)
Fixpoint copy_loop (k : nat) (i base : nat) (s : fixed_string) (txt : list ascii) : list ascii :=
  match k with
  | O => txt
  | S k' => copy_loop k' (S i) base s (set_nth (base + i) (fs_get s i) txt)
  end.

(** [operator+], fixed_string.h:71-81. *)
Definition fs_add (lhs rhs : fixed_string) : fixed_string :=
  let n := fs_size lhs in
  let n2 := fs_size rhs in
  let txt := zeros (n + n2) in
  let txt := copy_loop n 0 0 lhs txt in
  let txt := copy_loop n2 0 n rhs txt in
  fs_of_array txt.

(** [operator==], fixed_string.h:83-93 (same size) and :95-96 (different sizes). *)
Fixpoint eq_loop (k i : nat) (a b : fixed_string) : bool :=
  match k with
  | O => true
  | S k' => if Ascii.eqb (fs_get a i) (fs_get b i) then eq_loop k' (S i) a b else false
  end.
Definition fs_eqb (a b : fixed_string) : bool :=
  if Nat.eqb (fs_size a) (fs_size b) then eq_loop (fs_size a) 0 a b else false.

(** [operator<=>], fixed_string.h:98-115: the two iterators advance together. *)
Fixpoint fs_compare (a b : fixed_string) : comparison :=
  match a, b with
  | String x a', String y b' =>
      match Nat.compare (nat_of_ascii x) (nat_of_ascii y) with
      | Eq => fs_compare a' b'
      | c => c
      end
  | String _ _, EmptyString => Gt
  | EmptyString, String _ _ => Lt
  | EmptyString, EmptyString => Eq
  end.
Definition fs_ltb (a b : fixed_string) : bool :=
  match fs_compare a b with Lt => true | _ => false end.

(** [basic_symbol_text], symbol_text.h:64-67. *)
Record symbol_text := SymbolText { st_standard : fixed_string; st_ascii : fixed_string }.

(** [operator+], symbol_text.h:81-87.  The other overloads (89-127) first convert
    the second operand with [st_of_ascii]. *)
Definition st_add (l r : symbol_text) : symbol_text :=
  SymbolText (fs_add (st_standard l) (st_standard r)) (fs_add (st_ascii l) (st_ascii r)).

(** Constructors taking one text, symbol_text.h:69-72.  Their validation that the
    text is ASCII is a separate predicate. *)
Definition st_of_ascii (s : fixed_string) : symbol_text := SymbolText s s.

(** [operator<=>], symbol_text.h:129-135, and [operator==], 137-142. *)
Definition st_compare (l r : symbol_text) : comparison :=
  match fs_compare (st_standard l) (st_standard r) with
  | Eq => fs_compare (st_ascii l) (st_ascii r)
  | c => c
  end.
Definition st_ltb (l r : symbol_text) : bool :=
  match st_compare l r with Lt => true | _ => false end.
Definition st_eqb (l r : symbol_text) : bool :=
  fs_eqb (st_standard l) (st_standard r) && fs_eqb (st_ascii l) (st_ascii r).
