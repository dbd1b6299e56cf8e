(** Specification of what [#include] lines of a program bring in. *)

From Coq Require Import String List.
From Verif Require Import Downcast Unit Dim DimOp UnitText System Catalogue.
Import ListNotations.
Local Open Scope string_scope.

(** The files a program includes, directly or through other files. *)
Inductive included (paths : list string) : string -> Prop :=
| included_directly : forall p, In p paths -> included paths p
| included_through : forall h q, included paths (h_path h) -> In h headers -> In q (h_includes h) -> included paths q.

(** Every [#include] line of the program names a header of the library. *)
Definition known (paths : list string) : Prop := forall p, In p paths -> In p (map h_path headers).

(** The headers that both declare a type with one downcasting target. *)
Definition clashes : list (string * string) := [
  ("isq/si/frequency.h", "isq/si/radioactivity.h");
  ("isq/si/pressure.h", "isq/si/energy_density.h");
  ("isq/si/international/length.h", "isq/si/fps/length.h")].
Definition clash_free (paths : list string) : Prop :=
  forall a b, In (a, b) clashes -> ~ (included paths a /\ included paths b).

(** Two programs with the same declarations and the same downcasting. *)
Definition same_set {A : Type} (l l' : list A) : Prop := forall x, In x l <-> In x l'.
Definition interchangeable (e e' : env) : Prop :=
  same_set (en_prefixes e) (en_prefixes e') /\ same_set (en_units e) (en_units e') /\ same_set (en_dims e) (en_dims e') /\
  (forall n, find_prefix e n = find_prefix e' n) /\ (forall n, find_unit e n = find_unit e' n) /\
  (forall n, find_dim e n = find_dim e' n) /\
  (forall k, downcast prefix_key_eq_dec (en_guides e) k = downcast prefix_key_eq_dec (en_guides e') k) /\
  (forall k, downcast ukey_eq_dec (w_units (en_world e)) k = downcast ukey_eq_dec (w_units (en_world e')) k) /\
  (forall k, downcast bexps_eq_dec (w_dims (en_world e)) k = downcast bexps_eq_dec (w_dims (en_world e')) k).
