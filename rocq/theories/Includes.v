(** Translation units: what the [#include] lines of a program bring in, in which order.

    Every header of the library starts with [#pragma once], and its [#include] lines stand
    before its declarations (e.g. src/systems/si/include/units/isq/si/force.h:23-31), so a
    header contributes its declarations after those of the headers it includes, once.
    Simplification: headers that declare no unit, dimension or prefix (the rest of
    [src/core], the dimension templates of [units/isq/dimensions]) are left out of the
    lists in [Catalogue.headers]. *)

From Coq Require Import ZArith String List Bool.
From Verif Require Import Outcome Root Downcast Dim System Catalogue.
Import ListNotations.
Local Open Scope string_scope.
Local Open Scope res_scope.

(** [#include <units/path>]: a file that does not exist is an error. *)
Definition find_header (p : string) : res header :=
  match find (fun h => String.eqb p (h_path h)) headers with
  | Some h => Ok h
  | None => IllFormed
  end.

(** The preprocessor: the paths opened so far, and the headers whose text has been output. *)
Record output_text := Output { opened : list string; text : list header }.
Definition nothing : output_text := Output [] [].

(** One [#include], nested at most [fuel] deep. *)
Fixpoint include (fuel : nat) (p : string) (o : output_text) : res output_text :=
  match fuel with
  | O => Stuck
  | S k =>
      if existsb (String.eqb p) (opened o) then Ok o
      else
        h <- find_header p;
        o' <- fold_left (fun r q => x <- r; include k q x) (h_includes h) (Ok (Output (p :: opened o) (text o)));
        Ok (Output (opened o') (text o' ++ [h]))
  end.

(** The [#include] lines of the program, in order.  No file opens itself again, so the
    nesting is at most the number of files. *)
Definition preprocess (paths : list string) : res (list header) :=
  o <- fold_left (fun r p => x <- r; include (S (length headers)) p x) paths (Ok nothing);
  Ok (text o).

(** The declarations of the program, compiled in the given mode. *)
Definition declarations (paths : list string) : res (list entry) :=
  hs <- preprocess paths; Ok (flat_map h_entries hs).
Definition compile (est : estimate) (mode : downcast_mode) (paths : list string) : res env :=
  l <- declarations paths; elaborate est mode isq_templates empty_env l.
