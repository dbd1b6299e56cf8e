(** Specification side of the concepts of the quantities: which quantity a concept is named
    after, and which of them can be recognised without downcasting. *)

From Coq Require Import ZArith QArith Ascii String List.
From Verif Require Import Dim DimOp SpecDim System SpecCatalogue SpecSystems.
Import ListNotations.
Local Open Scope string_scope.

(** "SurfaceChargeDensity" reads "surface_charge_density". *)
Definition upper (c : ascii) : bool := (Nat.leb 65 (nat_of_ascii c) && Nat.leb (nat_of_ascii c) 90)%bool.
Definition lower (c : ascii) : ascii := if upper c then ascii_of_nat (nat_of_ascii c + 32) else c.
Fixpoint words (s : string) : string :=
  match s with
  | EmptyString => ""
  | String c r => if upper c then String "_" (String (lower c) (words r)) else String c (words r)
  end.
(** The quantity a concept is named after; quantities are named "dim_..." in [quantity_table]. *)
Definition quantity_called (concept : string) : string := "dim" ++ words concept.

(** A dimension of the program: declared, or the product of base dimensions with exponents an
    operator has made. *)
Definition of_program (e : env) (d : dimension) : Prop :=
  (exists o, In (o, d) (en_dims e)) \/
  (exists es, mk_unknown_dimension es = Outcome.Ok d /\ forall x, In x es -> exists o, In (o, DBase (e_dim x)) (en_dims e)).

(** A dimension the operators make of the declared ones of the system [s]. *)
Inductive obtained (e : env) (s : list string) : dimension -> Prop :=
| ob_declared : forall o d, In (o, d) (en_dims e) -> built_on s d -> obtained e s d
| ob_multiply : forall x y d, obtained e s x -> obtained e s y -> dimension_multiply (en_world e) x y = Outcome.Ok d -> obtained e s d
| ob_divide : forall x y d, obtained e s x -> obtained e s y -> dimension_divide (en_world e) x y = Outcome.Ok d -> obtained e s d
| ob_invert : forall x d, obtained e s x -> dim_invert (en_world e) x = Outcome.Ok d -> obtained e s d.

(** It has the exponents ISO 80000 gives to the quantity. *)
Definition has_exponents (e : env) (d : dimension) (row : list (string * Z)) : Prop :=
  forall k, (quantity_expo (quantity_of e) k (exponents d) == inject_Z (exponent_in row k))%Q.

(** The derived quantities whose class template takes base dimensions only, in the order of
    their symbols. *)
Definition plain_concepts : list string :=
  ["Acceleration"; "AngularVelocity"; "Area"; "CurrentDensity"; "Frequency"; "Luminance"; "Radioactivity"; "Speed"; "Volume"].
