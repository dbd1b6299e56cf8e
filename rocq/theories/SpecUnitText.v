(** Specification side of the texts of units without symbol: the constituents of a derived
    dimension. *)

From Coq Require Import ZArith QArith List.
From Verif Require Import Outcome Unit Dim SpecDim DimOpProofs2.
Import ListNotations.
Local Open Scope Z_scope.

Definition exponent_value (e : Z * Z) : Q := (inject_Z (fst e) / inject_Z (snd e))%Q.

(** The dimensions with a named unit that a dimension is made of when every dimension whose
    unit is unnamed is replaced by its own recipe.  Each comes with the exponent it has in the
    innermost recipe, and the product of the exponents of the replaced dimensions around it. *)
Fixpoint constituents (outer : Q) (d : dimension) : list ((dimension * (Z * Z)) * Q) :=
  match d with
  | DBase _ => []
  | DDerived _ _ _ recipe =>
      flat_map (fun x : dimension * (Z * Z) =>
        let (y, e) := x in
        if u_named (dimension_unit y) then [((y, e), outer)] else constituents (outer * exponent_value e)%Q y) recipe
  | DUnknown args _ => map (fun e => ((DBase (e_dim e), (e_num e, e_den e)), outer)) args
  end.

(** The exponent of the base dimension [b] in the product of the constituents. *)
Fixpoint total (l : list ((dimension * (Z * Z)) * Q)) (b : bdim) : Q :=
  match l with
  | [] => 0
  | ((x, e), p) :: r => p * exponent_value e * dim_expo x b + total r b
  end%Q.

(** A dimension whose exponents, and those of every dimension in its recipe, come from
    [make_dimension]; the units of base dimensions are named. *)
Inductive built (U : bdim -> Prop) : dimension -> Prop :=
| BuiltBase : forall b, u_named (bd_unit b) = true -> built U (DBase b)
| BuiltDerived : forall name es cu recipe,
    Forall (fun x => built U (fst x)) recipe -> Forall (recipe_item_ok U) recipe ->
    make_dimension recipe = Ok es -> built U (DDerived name es cu recipe)
| BuiltUnknown : forall args es,
    Forall (recipe_item_ok U) (map (fun e => (DBase (e_dim e), (e_num e, e_den e))) args) ->
    make_dimension (map (fun e => (DBase (e_dim e), (e_num e, e_den e))) args) = Ok es -> built U (DUnknown args es).

(** Every dimension with an unnamed unit occurs with the exponent one, at any depth. *)
Inductive plainly_nested : dimension -> Prop :=
| PlainBase : forall b, plainly_nested (DBase b)
| PlainUnknown : forall args es, plainly_nested (DUnknown args es)
| PlainDerived : forall name es cu recipe,
    Forall (fun x => u_named (dimension_unit (fst x)) = true \/
                     (exponent_value (snd x) == 1)%Q /\ plainly_nested (fst x)) recipe ->
    plainly_nested (DDerived name es cu recipe).
