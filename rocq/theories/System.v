(** The declarations in the headers of a system of quantities
    ([src/systems/*/include/units/isq/...] and [src/core/include/units/generic])
    as a program: prefixes, units and dimensions, each referring to earlier ones by
    qualified name, elaborated by the models of the core library.

    Simplifications.  A namespace-qualified name stands for the struct; lookups
    through enclosing namespaces and using-declarations are resolved when the
    program is written down.  Of concept [DimensionOfT] (bits/quantity_of.h:54-59)
    only [is_derived_from_specialization_of] is needed: the other disjunct
    concerns [unknown_dimension], which has no name here (it is in [Concepts]).  The alias templates of
    the headers are not part of the program; its literals, references and aliases
    of units are in [Names]. *)

From Coq Require Import ZArith String List Bool.
From Verif Require Import Outcome Root Ratio FixedString Unit Downcast Dim DimOp DerivedUnit UnitDecl UnitText.
Import ListNotations.
Local Open Scope string_scope.
Local Open Scope Z_scope.
Local Open Scope res_scope.

(** A class template of [src/systems/isq/include/units/isq/dimensions/*.h]:
    - [TBase t s]: [template<Unit U> struct t : base_dimension<s, U>];
    - [TDerived t ps r]: [template<typename Child, Unit U, DimensionOfT<p> D...>
      struct t<Child, U, D...> : derived_dimension<Child, U, exponent<D_i, n>...>],
      [ps] the templates constraining the parameters [D...], [r] the pairs [(i, n)].
    A template with two partial specialisations appears twice. *)
Inductive template :=
| TBase (t : string) (sym : fixed_string)
| TDerived (t : string) (params : list string) (recipe : list (nat * Z)).

(** A declaration of a header. *)
Inductive entry :=
| EPrefix (name family : string) (sym : symbol_text) (n d e : Z)             (* prefix.h:74-78 *)
| EUnit (name : string)                                                      (* unit.h:76-80 *)
| ENamed (name : string) (sym : symbol_text) (pf : string)                   (* unit.h:94-99 *)
| EScaled (name : string) (sym : symbol_text) (pf : string) (n d e : Z) (u : string) (* unit.h:115-121 *)
| EPrefixed (name p u : string)                                              (* unit.h:134-140 *)
| EDerived (name dim : string) (us : list string)                            (* unit.h:155-162 *)
| ENamedDerived (name dim : string) (sym : symbol_text) (pf : string) (us : list string) (* unit.h:179-185 *)
| EAlias (name u : string) (sym : symbol_text) (pf : string)                 (* unit.h:200-205 *)
| EPrefixedAlias (name u p au : string)                                      (* unit.h:222-228 *)
| EBase (name : string) (sym : fixed_string) (u : string)                    (* base_dimension.h:53-58 *)
| EBaseOf (name t u : string)                           (* struct name : t<u> *)
| EDim (name u : string) (recipe : list (string * Z))   (* derived_dimension.h:83-88 *)
| EDimOf (name t u : string) (args : list string).      (* struct name : t<name, u, args...> *)

Definition entry_name (x : entry) : string :=
  match x with
  | EPrefix n _ _ _ _ _ | EUnit n | ENamed n _ _ | EScaled n _ _ _ _ _ _ | EPrefixed n _ _
  | EDerived n _ _ | ENamedDerived n _ _ _ _ | EAlias n _ _ _ | EPrefixedAlias n _ _ _
  | EBase n _ _ | EBaseOf n _ _ | EDim n _ _ | EDimOf n _ _ _ => n
  end.

(** What has been declared so far; a dimension comes with the template it
    specialises ([None]: none). *)
Record env := Env {
  en_prefixes : list prefix;
  en_units : list cunit;
  en_dims : list (option string * dimension);
  en_guides : prefix_registry;     (* the downcast guides of the prefixes *)
  en_world : world                 (* those of dimensions and units *)
}.
Definition empty_env : env := Env [] [] [] empty_registry empty_world.

Definition dim_name (d : dimension) : string :=
  match d with DBase b => bd_name b | DDerived n _ _ _ => n | DUnknown _ _ => "" end.

Definition find_prefix (e : env) (n : string) : res prefix :=
  match find (fun p => String.eqb n (p_name p)) (en_prefixes e) with
  | Some p => Ok p | None => IllFormed
  end.
Definition find_dim (e : env) (n : string) : res (option string * dimension) :=
  match find (fun d => String.eqb n (dim_name (snd d))) (en_dims e) with
  | Some d => Ok d | None => IllFormed
  end.
Definition find_unit (e : env) (n : string) : res cunit := unit_lookup (en_units e) n.

(** One struct per name. *)
Definition taken (e : env) (n : string) : bool :=
  existsb (fun p => String.eqb n (p_name p)) (en_prefixes e) ||
  existsb (has_name n) (en_units e) ||
  existsb (fun d => String.eqb n (dim_name (snd d))) (en_dims e).

(** The partial specialisation for arguments specialising the templates [ks]: the
    one whose constraints hold; none, or more than one, does not compile. *)
Fixpoint params_match (ps : list string) (ks : list (option string)) : bool :=
  match ps, ks with
  | [], [] => true
  | p :: ps', Some k :: ks' => String.eqb p k && params_match ps' ks'
  | _, _ => false
  end.
Definition matches (t : string) (ks : list (option string)) (x : template) : bool :=
  match x with
  | TDerived t' ps _ => String.eqb t t' && params_match ps ks
  | TBase _ _ => false
  end.
Definition specialisation (ts : list template) (t : string) (ks : list (option string)) : res (list (nat * Z)) :=
  match filter (matches t ks) ts with
  | [TDerived _ _ r] => Ok r
  | _ => IllFormed
  end.
Definition base_symbol (ts : list template) (t : string) : res fixed_string :=
  match find (fun x => match x with TBase t' _ => String.eqb t t' | _ => false end) ts with
  | Some (TBase _ s) => Ok s
  | _ => IllFormed
  end.

(** [exponent<D_i, n>] with the arguments substituted. *)
Definition substitute (args : list dimension) (r : list (nat * Z)) : res (list (dimension * (Z * Z))) :=
  map_res (fun x => match nth_error args (fst x) with
                    | Some d => Ok (d, (snd x, 1))
                    | None => IllFormed
                    end) r.

(** The unit declaration an entry stands for, its prefixes and dimensions looked up. *)
Definition unit_entry (e : env) (x : entry) : res (option unit_decl) :=
  match x with
  | EUnit n => Ok (Some (UUnit n))
  | ENamed n s pf => Ok (Some (UNamed n s pf))
  | EScaled n s pf a b c u => r <- mk_ratio a b c; Ok (Some (UScaled n s pf r u))
  | EPrefixed n p u => q <- find_prefix e p; Ok (Some (UPrefixed n q u))
  | EDerived n d us => dd <- find_dim e d; Ok (Some (UDerived n (snd dd) us))
  | ENamedDerived n d s pf us => dd <- find_dim e d; Ok (Some (UNamedDerived n (snd dd) s pf us))
  | EAlias n u s pf => Ok (Some (UAlias n u s pf))
  | EPrefixedAlias n u p au => q <- find_prefix e p; Ok (Some (UPrefixedAlias n u q au))
  | _ => Ok None
  end.

(** Alias units do not go through [downcast_dispatch] (unit.h:200-205, 222-228). *)
Definition registers (x : unit_decl) : bool :=
  match x with UAlias _ _ _ _ | UPrefixedAlias _ _ _ _ => false | _ => true end.

Definition declare_unit_entry (est : estimate) (mode : downcast_mode) (e : env) (x : unit_decl) : res env :=
  us <- unit_declare est (en_units e) x;
  match us with
  | u :: _ =>
      w <- (if registers x then declare_unit mode u (en_world e) else Ok (en_world e));
      Ok (Env (en_prefixes e) us (en_dims e) (en_guides e) w)
  | [] => Stuck
  end.

Definition declare_base_entry (e : env) (t : option string) (n : string) (s : fixed_string) (u : string) : res env :=
  cu <- find_unit e u;
  b <- mk_base_dimension n s cu;
  Ok (Env (en_prefixes e) (en_units e) ((t, DBase b) :: en_dims e) (en_guides e) (en_world e)).

Definition declare_dim_entry (mode : downcast_mode) (e : env) (t : option string) (n u : string)
    (recipe : list (dimension * (Z * Z))) : res env :=
  cu <- find_unit e u;
  d <- mk_derived_dimension n cu recipe;
  w <- declare_dimension mode n cu recipe (en_world e);
  Ok (Env (en_prefixes e) (en_units e) ((t, d) :: en_dims e) (en_guides e) w).

Definition elaborate_entry (est : estimate) (mode : downcast_mode) (ts : list template) (e : env) (x : entry) : res env :=
  _ <- constrained (negb (taken e (entry_name x)));
  match x with
  | EPrefix n pf s a b c =>
      r <- mk_ratio a b c;
      p <- mk_prefix n pf s r;
      g <- declare prefix_key_eq_dec On (prefix_key p) p (en_guides e);
      Ok (Env (p :: en_prefixes e) (en_units e) (en_dims e) g (en_world e))
  | EBase n s u => declare_base_entry e None n s u
  | EBaseOf n t u => s <- base_symbol ts t; declare_base_entry e (Some t) n s u
  | EDim n u r =>
      rec <- map_res (fun y => d <- find_dim e (fst y); Ok (snd d, (snd y, 1))) r;
      declare_dim_entry mode e None n u rec
  | EDimOf n t u args =>
      ds <- map_res (find_dim e) args;
      r <- specialisation ts t (map fst ds);
      rec <- substitute (map snd ds) r;
      declare_dim_entry mode e (Some t) n u rec
  | _ =>
      o <- unit_entry e x;
      match o with
      | Some ud => declare_unit_entry est mode e ud
      | None => Stuck   (* not reached: the other entries are above *)
      end
  end.

(** A program: the declarations of the included headers in order. *)
Fixpoint elaborate (est : estimate) (mode : downcast_mode) (ts : list template) (e : env) (l : list entry) : res env :=
  match l with
  | [] => Ok e
  | x :: r => e' <- elaborate_entry est mode ts e x; elaborate est mode ts e' r
  end.
