(** Model of [example/references/avg_speed.cpp]: the four functions that compute an average speed and
    [print_result].

    Simplifications: the texts are left out, [print_result] yields the speed it prints. *)

From Coq Require Import ZArith String List Bool SpecFloat.
From Verif Require Import Outcome CInt Root Ratio Unit Downcast Dim DimOp Equivalent Rep Reference QuantityCast CommonQuantity
  Quantity Point Chrono System Catalogue Includes Names.
Import ListNotations.
Local Open Scope string_scope.
Local Open Scope list_scope.
Local Open Scope res_scope.

(** The headers included, avg_speed.cpp:23-29. *)
Definition avg_speed_headers := ["isq/si/cgs/length.h"; "isq/si/cgs/speed.h"; "isq/si/international/length.h"; "isq/si/international/speed.h";
  "isq/si/length.h"; "isq/si/time.h"; "isq/si/speed.h"].

(** The units named in avg_speed.cpp:38-67 and the references of [example], avg_speed.cpp:77-165. *)
Record aenv := AEnv {
  a_est : estimate; a_world : world;
  a_metre : reference; a_second : reference; a_mps : reference; a_kmph : reference;
  a_km : reference; a_h : reference; a_mi : reference; a_cm : reference }.

Definition avg_speed_setup (est : estimate) : res aenv :=
  e <- compile est On avg_speed_headers;
  let ref d u := (x <- find_dim e d; y <- find_unit e u; t <- mk_qtype (snd x) y (RFlt F64); Ok (Reference (q_dim t) (q_unit t))) in
  m <- ref "si::dim_length" "si::metre"; s <- ref "si::dim_time" "si::second";
  mps <- ref "si::dim_speed" "si::metre_per_second"; kmph <- ref "si::dim_speed" "si::kilometre_per_hour";
  km <- ref "si::dim_length" "si::kilometre"; h <- ref "si::dim_time" "si::hour";
  mi <- ref "si::dim_length" "si::international::mile"; cm <- ref "si::cgs::dim_length" "si::centimetre";
  Ok (AEnv est (en_world e) m s mps kmph km h mi cm).

Definition of_ref (x : reference) (r : rep) : qtype := QType (ref_dim x) (ref_unit x) r.

(** [fixed_int_si_avg_speed] and [fixed_double_si_avg_speed], avg_speed.cpp:38-50, for the
    representation [r]: the arguments and the result are converted implicitly. *)
Definition fixed_avg_speed (e : aenv) (r : rep) (d t : quantity) : res quantity :=
  d <- q_to (a_est e) (of_ref (a_metre e) r) d;
  t <- q_to (a_est e) (of_ref (a_second e) r) t;
  v <- q_over (a_world e) d t;
  q_to (a_est e) (of_ref (a_mps e) r) v.

(** [si_avg_speed], avg_speed.cpp:52-57: the dimensions are deduced, only those of the SI match. *)
Definition si_avg_speed (e : aenv) (d t : quantity) : res quantity :=
  _ <- constrained (if dimension_eq_dec (q_dim (q_type d)) (ref_dim (a_metre e)) then true else false);
  _ <- constrained (if dimension_eq_dec (q_dim (q_type t)) (ref_dim (a_second e)) then true else false);
  q_over (a_world e) d t.

(** [avg_speed], avg_speed.cpp:59-62; the concepts ask for equivalent dimensions. *)
Definition avg_speed (e : aenv) (d t : quantity) : res quantity :=
  _ <- constrained (dim_equivalent (q_dim (q_type d)) (ref_dim (a_metre e)));
  _ <- constrained (dim_equivalent (q_dim (q_type t)) (ref_dim (a_second e)));
  q_over (a_world e) d t.

(** [print_result], avg_speed.cpp:64-70: the speed printed. *)
Definition print_result (e : aenv) (v : quantity) : res quantity :=
  q_cast (a_est e) (a_world e) (ToQuantity (of_ref (a_kmph e) (RFlt F64))) v.
