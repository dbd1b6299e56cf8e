(** Model of [example/references/unknown_dimension.cpp]: [example].

    Simplifications: the literals are arguments of the representation [r]; the streams are left out,
    [example] yields the quantities it prints. *)

From Coq Require Import ZArith String List Bool SpecFloat.
From Verif Require Import Outcome CInt Root Ratio Unit Downcast Dim DimOp Equivalent Rep Reference QuantityCast CommonQuantity
  Quantity Point Chrono System Catalogue Includes Names.
Import ListNotations.
Local Open Scope string_scope.
Local Open Scope list_scope.
Local Open Scope res_scope.

(** The headers included, unknown_dimension.cpp:23-25. *)
Definition unknown_headers := ["isq/si/length.h"; "isq/si/speed.h"; "isq/si/time.h"].

(** The references named in unknown_dimension.cpp:43-49 and the dimension of the concept [Speed]. *)
Record uenv := UEnv { x_world : world; x_m : reference; x_s : reference; x_mps : reference }.
Definition unknown_setup (est : estimate) : res uenv :=
  e <- compile est On unknown_headers;
  let ref d u := (x <- find_dim e d; y <- find_unit e u; t <- mk_qtype (snd x) y (RFlt F64); Ok (Reference (q_dim t) (q_unit t))) in
  m <- ref "si::dim_length" "si::metre"; s <- ref "si::dim_time" "si::second"; mps <- ref "si::dim_speed" "si::metre_per_second";
  Ok (UEnv (en_world e) m s mps).

(** [Length auto], [Time auto] and [Speed auto]. *)
Definition like (x : reference) (q : quantity) : res unit := constrained (dim_equivalent (q_dim (q_type q)) (ref_dim x)).

(** [example], unknown_dimension.cpp:32-49: [v1], [temp1], [v2] and [d2]. *)
Definition unknown_example (e : uenv) (r : rep) (d t a b u : number) : res (quantity * quantity * quantity * quantity) :=
  d1 <- times_reference r d (x_m e); _ <- like (x_m e) d1;
  t1 <- times_reference r t (x_s e); _ <- like (x_s e) t1;
  v1 <- q_over (x_world e) d1 t1; _ <- like (x_mps e) v1;
  a <- times_reference r a (x_m e);
  temp1 <- q_times (x_world e) v1 a;
  b <- times_reference r b (x_m e);
  v2 <- q_over (x_world e) temp1 b; _ <- like (x_mps e) v2;
  u <- times_reference r u (x_s e);
  d2 <- q_times (x_world e) v2 u; _ <- like (x_m e) d2;
  Ok (v1, temp1, v2, d2).
