(** The unit definitions of a program, in order: every form of unit definition of
    [src/core/include/units/unit.h], referring to earlier units by name.  A struct
    name has one definition. *)

From Coq Require Import ZArith String List Bool.
From Verif Require Import Outcome Root Ratio FixedString Unit Dim DerivedUnit.
Import ListNotations.
Local Open Scope res_scope.

Inductive unit_decl :=
| UUnit (name : string)                                                    (* unit.h:76-80 *)
| UNamed (name : string) (sym : symbol_text) (pf : string)                 (* unit.h:94-99 *)
| UScaled (name : string) (sym : symbol_text) (pf : string) (r : ratio) (u : string) (* unit.h:115-121 *)
| UPrefixed (name : string) (p : prefix) (u : string)                      (* unit.h:134-140 *)
| UDerived (name : string) (d : dimension) (us : list string)              (* unit.h:155-162 *)
| UNamedDerived (name : string) (d : dimension) (sym : symbol_text) (pf : string) (us : list string) (* unit.h:179-185 *)
| UAlias (name : string) (u : string) (sym : symbol_text) (pf : string)    (* unit.h:200-205 *)
| UPrefixedAlias (name : string) (u : string) (p : prefix) (au : string).  (* unit.h:222-228 *)

Definition decl_name (x : unit_decl) : string :=
  match x with
  | UUnit n | UNamed n _ _ | UScaled n _ _ _ _ | UPrefixed n _ _ | UDerived n _ _
  | UNamedDerived n _ _ _ _ | UAlias n _ _ _ | UPrefixedAlias n _ _ _ => n
  end.

(** Name lookup; an undeclared name does not compile. *)
Definition has_name (n : string) (u : cunit) : bool :=
  match u_name u with Some m => String.eqb n m | None => false end.
Definition unit_lookup (env : list cunit) (n : string) : res cunit :=
  match find (has_name n) env with Some u => Ok u | None => IllFormed end.

Definition unit_elaborate (est : estimate) (env : list cunit) (x : unit_decl) : res cunit :=
  match x with
  | UUnit n => mk_unit n
  | UNamed n s pf => mk_named_unit n s pf
  | UScaled n s pf r b => u <- unit_lookup env b; mk_named_scaled_unit n s pf r u
  | UPrefixed n p b => u <- unit_lookup env b; mk_prefixed_unit n p u
  | UDerived n d bs => us <- map_res (unit_lookup env) bs; mk_derived_unit est n d us
  | UNamedDerived n d s pf bs => us <- map_res (unit_lookup env) bs; mk_named_derived_unit est n d s pf us
  | UAlias n b s pf => u <- unit_lookup env b; Ok (mk_alias_unit n u s pf)
  | UPrefixedAlias n b p a =>
      u <- unit_lookup env b; au <- unit_lookup env a; mk_prefixed_alias_unit n u p au
  end.

(** One declaration: the name must be new. *)
Definition unit_declare (est : estimate) (env : list cunit) (x : unit_decl) : res (list cunit) :=
  _ <- constrained (negb (existsb (has_name (decl_name x)) env));
  u <- unit_elaborate est env x;
  Ok (u :: env).

(** A sequence of declarations. *)
Fixpoint unit_program (est : estimate) (env : list cunit) (l : list unit_decl) : res (list cunit) :=
  match l with
  | [] => Ok env
  | x :: r => e <- unit_declare est env x; unit_program est e r
  end.
