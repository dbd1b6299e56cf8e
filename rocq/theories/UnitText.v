(** Model of [src/core/include/units/bits/unit_text.h]. *)

From Coq Require Import ZArith String List Bool.
From Verif Require Import Outcome CInt Ratio FixedString Unit UnitDecl Downcast Dim DimOp TextTools DerivedSymbol.
Import ListNotations.
Local Open Scope string_scope.
Local Open Scope Z_scope.
Local Open Scope res_scope.

(** [base_multiplier], unit_text.h:32. *)
Definition base_multiplier : symbol_text := SymbolText "× 10" "x 10".

(** [ratio_text<R>], unit_text.h:34-66. *)
Definition ratio_text (r : ratio) : res symbol_text :=
  if (rnum r =? 1) && (rden r =? 1) && negb (rexp r =? 0) then
    e <- superscript (rexp r); Ok (st_add base_multiplier e)
  else if negb (rnum r =? 1) || negb (rden r =? 1) || negb (rexp r =? 0) then
    n <- regular (rnum r);
    let txt := st_add (st_of_ascii "[") n in
    if rden r =? 1 then
      if rexp r =? 0 then Ok (st_add txt (st_of_ascii "]"))
      else
        e <- superscript (rexp r);
        Ok (st_add (st_add (st_add (st_add txt (st_of_ascii " ")) base_multiplier) e) (st_of_ascii "]"))
    else
      d <- regular (rden r);
      if rexp r =? 0 then Ok (st_add (st_add (st_add txt (st_of_ascii "/")) d) (st_of_ascii "]"))
      else
        e <- superscript (rexp r);
        Ok (st_add (st_add (st_add (st_add (st_add (st_add txt (st_of_ascii "/")) d) (st_of_ascii " ")) base_multiplier) e) (st_of_ascii "]"))
  else Ok (st_of_ascii "").

(** The prefixes declared so far: [prefix<Child, PF, Symbol, R>] is a
    [downcast_dispatch<Child, prefix_base<PF, R>, downcast_mode::on>], prefix.h:76. *)
Definition prefix_key_eq_dec : forall a b : string * ratio, {a = b} + {a <> b}.
Proof. repeat decide equality. Defined.
Definition prefix_key (p : prefix) : string * ratio := (p_family p, p_ratio p).
Definition prefix_registry : Type := registry (string * ratio) prefix.
Definition declare_prefixes (l : list prefix) : res prefix_registry :=
  declare_all prefix_key_eq_dec On (map (fun p => (prefix_key p, p)) l) empty_registry.

(** [txt] followed by a space if neither it nor the symbol is empty, unit_text.h:88-92 and 96-100. *)
Definition spaced (txt : symbol_text) (symbol_len : nat) : symbol_text :=
  if Nat.ltb 0 symbol_len && Nat.ltb 0 (fs_size (st_standard txt)) then st_add txt (st_of_ascii " ") else txt.

(** [prefix_or_ratio_text<R, PrefixFamily, SymbolLen>], unit_text.h:68-104. *)
Definition prefix_or_ratio_text (g : prefix_registry) (r : ratio) (pf : string) (symbol_len : nat) : res symbol_text :=
  if (rnum r =? 1) && (rden r =? 1) && (rexp r =? 0) then Ok (st_of_ascii "")
  else if negb (String.eqb pf no_prefix) then
    match downcast prefix_key_eq_dec g (pf, r) with
    | Some p => Ok (p_symbol p)
    | None => txt <- ratio_text r; Ok (spaced txt symbol_len)
    end
  else txt <- ratio_text r; Ok (spaced txt symbol_len).

(** [exponent_list_with_named_units], unit_text.h:118-143: [expand_named d] is its value for
    the recipe of [d].  An unnamed unit of a base dimension has no recipe.  The exponent of an
    unnamed dimension is not used, as in the source. *)
Fixpoint expand_named (d : dimension) : res (list (dimension * (Z * Z))) :=
  match d with
  | DBase _ => IllFormed
  | DDerived _ _ _ recipe =>
      (fix go (l : list (dimension * (Z * Z))) : res (list (dimension * (Z * Z))) :=
         match l with
         | [] => Ok []
         | (x, e) :: rest =>
             a <- (if u_named (dimension_unit x) then Ok [(x, e)] else expand_named x);
             b <- go rest;
             Ok (a ++ b)%list
         end) recipe
  | DUnknown args _ =>
      _ <- constrained (forallb (fun e => u_named (bd_unit (e_dim e))) args);
      Ok (map (fun e => (DBase (e_dim e), (e_num e, e_den e))) args)
  end.

(** The exponents with the symbols of the coherent units, [dimension_unit<Dim>::symbol]. *)
Fixpoint with_symbols (l : list (dimension * (Z * Z))) : res (list ((Z * Z) * symbol_text)) :=
  match l with
  | [] => Ok []
  | (x, e) :: rest =>
      match u_symbol (dimension_unit x) with
      | Some s => t <- with_symbols rest; Ok ((e, s) :: t)
      | None => IllFormed
      end
  end.

(** [derived_dimension_unit_text] for a list, unit_text.h:106-116: a right fold that ends with
    the empty text. *)
Fixpoint unit_texts (neg : Z) (idx : nat) (l : list ((Z * Z) * symbol_text)) : res symbol_text :=
  match l with
  | [] => Ok (st_of_ascii "")
  | ((n, d), s) :: rest =>
      a <- exp_text n d s neg idx;
      b <- unit_texts neg (S idx) rest;
      Ok (st_add a b)
  end.

(** [derived_dimension_unit_text<Dim>], unit_text.h:145-150. *)
Definition derived_dimension_unit_text (d : dimension) : res symbol_text :=
  l <- expand_named d;
  s <- with_symbols l;
  unit_texts (negative_exp_count (map (fun x => fst (fst x)) s)) 0 s.

(** [U::reference], a named struct: looked up among the units declared so far. *)
Definition reference_of (env : list cunit) (u : cunit) : res cunit :=
  if String.eqb (u_ref u) "unknown_coherent_unit" then Ok unknown_coherent_unit else unit_lookup env (u_ref u).

(** [unit_text<Dim, U>], unit_text.h:156-179. *)
Definition unit_text (g : prefix_registry) (env : list cunit) (d : dimension) (u : cunit) : res symbol_text :=
  match u_symbol u with
  | Some s => Ok s
  | None =>
      let coherent := dimension_unit d in
      symbol <- (match u_symbol coherent with Some s => Ok s | None => derived_dimension_unit_text d end);
      r <- rdiv (u_ratio u) (u_ratio coherent);
      f <- reference_of env u;
      p <- prefix_or_ratio_text g r (u_prefixes f) (fs_size (st_standard symbol));
      Ok (st_add p symbol)
  end.
