(** Model of [src/core/include/units/bits/external/downcasting.h].

    The C++ implementation injects friend functions: declaring a struct
    [Child : downcast_dispatch<Child, T>] defines [downcast_guide] for the base
    type [T]; [downcast<T>] asks whether a guide is visible.  The model is a
    registry of the guides and poison pills defined so far; a declaration is a
    registry transformer.  Simplification: a lookup sees exactly the
    declarations made before it (C++ may cache the answer of a concept). *)

From Coq Require Import List Bool.
From Verif Require Import Outcome.
Import ListNotations.
Local Open Scope res_scope.

(** [downcast_mode], downcasting.h:71-75. *)
Inductive downcast_mode := Off | On | Automatic.

Section Downcast.
Context {K T : Type} (keq : forall a b : K, {a = b} + {a <> b}).

Record registry := Registry { guides : list (K * T); poison : list K }.

Definition empty_registry : registry := Registry [] [].

Fixpoint find_guide (l : list (K * T)) (k : K) : option T :=
  match l with
  | [] => None
  | (k', t) :: r => if keq k k' then Some t else find_guide r k
  end.

(** [has_downcast_guide], downcasting.h:53-54. *)
Definition has_guide (g : registry) (k : K) : bool :=
  match find_guide (guides g) k with Some _ => true | None => false end.

(** [has_downcast_poison_pill], downcasting.h:56-57. *)
Definition has_poison (g : registry) (k : K) : bool :=
  if in_dec keq k (poison g) then true else false.

(** [downcast_dispatch<Target, T, mode>], downcasting.h:78-85: declaring the
    struct [t] with base type [k].  A second [downcast_child] for the same base
    redefines the friend function: ill-formed.  [downcast_poison<T>] is one class
    per base, so a third declaration defines nothing new. *)
Definition declare (mode : downcast_mode) (k : K) (t : T) (g : registry) : res registry :=
  match mode with
  | Off => Ok g
  | On => if has_guide g k then IllFormed
          else Ok (Registry ((k, t) :: guides g) (poison g))
  | Automatic =>
      if has_guide g k then Ok (Registry (guides g) (k :: poison g))
      else Ok (Registry ((k, t) :: guides g) (poison g))
  end.

(** A translation unit: a sequence of declarations. *)
Fixpoint declare_all (mode : downcast_mode) (l : list (K * T)) (g : registry) : res registry :=
  match l with
  | [] => Ok g
  | (k, t) :: r => g' <- declare mode k t g; declare_all mode r g'
  end.

(** [downcast<T>], downcasting.h:89-101; [None] stands for [T] itself. *)
Definition downcast (g : registry) (k : K) : option T :=
  match find_guide (guides g) k with
  | Some t => if has_poison g k then None else Some t
  | None => None
  end.

End Downcast.

Arguments registry : clear implicits.
Arguments empty_registry {K T}.
