(** Model of [src/core/include/units/bits/derived_symbol_text.h]. *)

From Coq Require Import ZArith String List Bool.
From Verif Require Import Outcome CInt RatioMaths FixedString TextTools.
Import ListNotations.
Local Open Scope string_scope.
Local Open Scope Z_scope.
Local Open Scope res_scope.

(** [operator_text<Divide, NegativeExpCount, Idx>], derived_symbol_text.h:32-50. *)
Definition operator_text (divide : bool) (neg : Z) (idx : nat) : symbol_text :=
  match idx with
  | O => if divide && (neg =? 1) then st_of_ascii "1/" else st_of_ascii ""
  | S _ => if divide && (neg =? 1) then st_of_ascii "/" else SymbolText " ⋅ " " "
  end.

(** [exp_text<E, Symbol, NegativeExpCount, Idx>], derived_symbol_text.h:52-76, with
    [E = exponent<_, num, den>]. *)
Definition exp_text (num den : Z) (sym : symbol_text) (neg : Z) (idx : nat) : res symbol_text :=
  let txt := st_add (operator_text (num <? 0) neg idx) sym in
  if negb (den =? 1) then
    a <- iabs num;
    rn <- regular a;
    rd <- regular den;
    Ok (st_add (st_add (st_add (st_add (st_add txt (st_of_ascii "^(")) rn) (st_of_ascii "/")) rd) (st_of_ascii ")"))
  else if negb (num =? 1) then
    if 1 <? neg then s <- superscript num; Ok (st_add txt s)
    else if negb (num =? -1) then a <- iabs num; s <- superscript a; Ok (st_add txt s)
    else Ok txt
  else Ok txt.

(** [negative_exp_count], derived_symbol_text.h:78-79, of the numerators. *)
Definition negative_exp_count (nums : list Z) : Z :=
  fold_right (fun n acc => (if n <? 0 then 1 else 0) + acc) 0 nums.

(** [(exp_text<Es, symbols, neg, Idxs>() + ...)], derived_symbol_text.h:81-86: a
    right fold without initial value, hence ill-formed for an empty pack. *)
Fixpoint exp_texts (neg : Z) (idx : nat) (l : list ((Z * Z) * symbol_text)) : res symbol_text :=
  match l with
  | [] => IllFormed
  | [((n, d), s)] => exp_text n d s neg idx
  | ((n, d), s) :: rest =>
      a <- exp_text n d s neg idx;
      b <- exp_texts neg (S idx) rest;
      Ok (st_add a b)
  end.
Definition derived_symbol_text (l : list ((Z * Z) * symbol_text)) : res symbol_text :=
  exp_texts (negative_exp_count (map (fun x => fst (fst x)) l)) 0 l.
