(** Model of the unit types of [src/core/include/units/unit.h] and
    [src/core/include/units/prefix.h].

    A C++ unit type is a record of the members the library reads.  [u_name] is
    the name of the user's struct ([None] for an instance of [scaled_unit]
    itself).  Two unit types are the same type when all components agree; in a
    C++ program the name alone decides, and a name has one definition. *)

From Coq Require Import ZArith String List Bool.
From Verif Require Import Outcome CInt Ratio FixedString.
Import ListNotations.
Local Open Scope string_scope.
Local Open Scope Z_scope.
Local Open Scope res_scope.

Record cunit := CUnit {
  u_name : option string;            (* struct name; None: scaled_unit<R, U> *)
  u_bases : list string;             (* named units it inherits from (aliases) *)
  u_ratio : ratio;                   (* U::ratio, unit.h:56 *)
  u_ref : string;                    (* U::reference, unit.h:57 *)
  u_named : bool;                    (* U::is_named *)
  u_symbol : option symbol_text;     (* U::symbol, if the type has one *)
  u_prefixes : string                (* U::prefix_family *)
}.

Definition no_prefix : string := "no_prefix".

Definition cunit_eq_dec : forall a b : cunit, {a = b} + {a <> b}.
Proof.
  repeat decide equality.
Defined.

(** Concept [UnitRatio], bits/basic_concepts.h:75-76. *)
Definition unit_ratio_ok (r : ratio) : bool := (0 <? rnum r) && (0 <? rden r).

(** [scaled_unit<R, U>], unit.h:53-58. *)
Definition scaled_unit (r : ratio) (ref : string) : res cunit :=
  _ <- constrained (unit_ratio_ok r);
  Ok (CUnit None [] r ref false None no_prefix).

(** [unit<Child>], unit.h:76-80; [named_unit], :94-99. *)
Definition mk_unit (child : string) : res cunit :=
  r <- mk_ratio 1 1 0;
  Ok (CUnit (Some child) [] r child false None no_prefix).
Definition mk_named_unit (child : string) (sym : symbol_text) (pf : string) : res cunit :=
  r <- mk_ratio 1 1 0;
  Ok (CUnit (Some child) [] r child true (Some sym) pf).

(** [named_scaled_unit], unit.h:115-121. *)
Definition mk_named_scaled_unit (child : string) (sym : symbol_text) (pf : string)
    (r : ratio) (u : cunit) : res cunit :=
  _ <- constrained (unit_ratio_ok r);
  x <- rmul r (u_ratio u);
  _ <- constrained (unit_ratio_ok x);
  Ok (CUnit (Some child) [] x (u_ref u) true (Some sym) pf).

(** [prefix<Child, PF, Symbol, R>], prefix.h:48-78. *)
Record prefix := Prefix { p_name : string; p_family : string; p_symbol : symbol_text; p_ratio : ratio }.
Definition mk_prefix (child pf : string) (sym : symbol_text) (r : ratio) : res prefix :=
  _ <- constrained (negb (String.eqb pf no_prefix));
  Ok (Prefix child pf sym r).

(** [prefixed_unit], unit.h:134-140. *)
Definition mk_prefixed_unit (child : string) (p : prefix) (u : cunit) : res cunit :=
  _ <- constrained (u_named u && String.eqb (p_family p) (u_prefixes u));
  x <- rmul (p_ratio p) (u_ratio u);
  _ <- constrained (unit_ratio_ok x);
  match u_symbol u with
  | Some s => Ok (CUnit (Some child) [] x (u_ref u) true (Some (st_add (p_symbol p) s)) no_prefix)
  | None => IllFormed
  end.

(** A struct inheriting from [alias_unit<U, Symbol, PF>], unit.h:200-205: it
    inherits ratio and reference from [U], so [U] and the bases of [U] are its
    base classes.  (The intermediate class [alias_unit<...>] is not listed.) *)
Definition bases_of (u : cunit) : list string :=
  match u_name u with Some n => n :: u_bases u | None => u_bases u end.
Definition mk_alias_unit (child : string) (u : cunit) (sym : symbol_text) (pf : string) : cunit :=
  CUnit (Some child) (bases_of u) (u_ratio u) (u_ref u) true (Some sym) pf.

(** [prefixed_alias_unit<U, P, AU>], unit.h:222-228. *)
Definition mk_prefixed_alias_unit (child : string) (u : cunit) (p : prefix) (au : cunit) : res cunit :=
  _ <- constrained (u_named au && String.eqb (p_family p) (u_prefixes au));
  match u_symbol au with
  | Some s => Ok (CUnit (Some child) (bases_of u) (u_ratio u) (u_ref u) true (Some (st_add (p_symbol p) s)) no_prefix)
  | None => IllFormed
  end.

(** [unknown_coherent_unit], unit.h:235. *)
Definition unknown_coherent_unit : cunit :=
  CUnit (Some "unknown_coherent_unit") [] (Ratio 1 1 0) "unknown_coherent_unit" false None no_prefix.

(** [same_unit_reference], unit.h:65-66. *)
Definition same_unit_reference (a b : cunit) : bool := String.eqb (u_ref a) (u_ref b).
