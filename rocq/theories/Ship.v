(** Model of [example/references/foot_pound_second.cpp]: the conversions of [print_details].

    Simplifications: a ship is the doubles of its members; the texts and their widths are left out,
    [print_details] yields the quantity of each line and the quantities it is cast to. *)

From Coq Require Import ZArith String List Bool SpecFloat.
From Verif Require Import Outcome CInt Root Ratio Unit Downcast Dim DimOp Equivalent Rep Reference QuantityCast CommonQuantity
  Quantity Point Chrono System Catalogue Includes Names.
Import ListNotations.
Local Open Scope string_scope.
Local Open Scope list_scope.
Local Open Scope res_scope.

(** The headers included, foot_pound_second.cpp:24-36. *)
Definition ship_headers := ["isq/si/fps/density.h"; "isq/si/fps/length.h"; "isq/si/fps/mass.h"; "isq/si/fps/power.h"; "isq/si/fps/speed.h";
  "isq/si/fps/time.h"; "isq/si/fps/volume.h"; "isq/si/length.h"; "isq/si/mass.h"; "isq/si/power.h"; "isq/si/speed.h"; "isq/si/time.h"; "isq/si/volume.h"].

(** [Ship], foot_pound_second.cpp:44-56: the numbers of its members, in the units noted. *)
Record ship := Ship {
  s_length : spec_float; s_draft : spec_float; s_beam : spec_float;   (* feet *)
  s_speed : spec_float;                                               (* feet per second *)
  s_mass : spec_float;                                                (* pounds *)
  s_guns : spec_float;                                                (* inches *)
  s_shell_mass : spec_float;                                          (* pounds *)
  s_shell_speed : spec_float;                                         (* feet per second *)
  s_power : spec_float }.                                             (* foot-poundals per second *)

(** The types named in foot_pound_second.cpp:45-55 and 71-80. *)
Record senv := SEnv {
  s_est : estimate; s_world : world;
  t_foot : qtype; t_inch : qtype; t_yard : qtype; t_metre : qtype; t_millimetre : qtype;
  t_pound : qtype; t_long_ton : qtype; t_tonne : qtype; t_kilogram : qtype;
  t_fps : qtype; t_knot : qtype; t_mph : qtype; t_kmph : qtype;
  t_poundal : qtype; t_horse : qtype; t_kilowatt : qtype;
  t_cubic_metre : qtype; t_litre : qtype; r_lb : reference; r_ft3 : reference }.

Definition ship_setup (est : estimate) : res senv :=
  e <- compile est On ship_headers;
  let ty d u := (x <- find_dim e d; y <- find_unit e u; mk_qtype (snd x) y (RFlt F64)) in
  foot <- ty "si::fps::dim_length" "si::fps::foot"; inch <- ty "si::fps::dim_length" "si::fps::inch"; yard <- ty "si::fps::dim_length" "si::fps::yard";
  metre <- ty "si::dim_length" "si::metre"; mm <- ty "si::dim_length" "si::millimetre";
  lb <- ty "si::fps::dim_mass" "si::fps::pound"; lton <- ty "si::fps::dim_mass" "si::fps::long_ton";
  tonne <- ty "si::dim_mass" "si::tonne"; kg <- ty "si::dim_mass" "si::kilogram";
  fps <- ty "si::fps::dim_speed" "si::fps::foot_per_second"; knot <- ty "si::fps::dim_speed" "si::fps::knot"; mph <- ty "si::fps::dim_speed" "si::fps::mile_per_hour";
  kmph <- ty "si::dim_speed" "si::kilometre_per_hour";
  pdl <- ty "si::fps::dim_power" "si::fps::foot_poundal_per_second"; hp <- ty "si::fps::dim_power" "si::fps::horse_power"; kW <- ty "si::dim_power" "si::kilowatt";
  m3 <- ty "si::dim_volume" "si::cubic_metre"; l <- ty "si::dim_volume" "si::litre"; ft3 <- ty "si::fps::dim_volume" "si::fps::cubic_foot";
  Ok (SEnv est (en_world e) foot inch yard metre mm lb lton tonne kg fps knot mph kmph pdl hp kW m3 l
        (Reference (q_dim lb) (q_unit lb)) (Reference (q_dim ft3) (q_unit ft3))).

(** [fmt_line<Args...>(a)], foot_pound_second.cpp:58-63: the quantity and its casts. *)
Definition fmt_line (e : senv) (targets : list qtype) (a : quantity) : res (quantity * list quantity) :=
  xs <- map_res (fun t => q_cast (s_est e) (s_world e) (ToQuantity t) a) targets; Ok (a, xs).

(** [print_details], foot_pound_second.cpp:66-81, for water of [water] pounds per cubic foot. *)
Definition print_details (e : senv) (water : spec_float) (s : ship) : res (list (string * (quantity * list quantity))) :=
  density <- reference_divide (s_world e) (r_lb e) (r_ft3 e);
  waterDensity <- times_reference (RFlt F64) (NFlt water) density;
  let line label t x targets := (y <- fmt_line e targets (Quantity t (NFlt x)); Ok (label, y)) in
  l1 <- line "length" (t_foot e) (s_length s) [t_yard e; t_metre e];
  l2 <- line "draft" (t_foot e) (s_draft s) [t_yard e; t_metre e];
  l3 <- line "beam" (t_foot e) (s_beam s) [t_yard e; t_metre e];
  l4 <- line "mass" (t_pound e) (s_mass s) [t_long_ton e; t_tonne e];
  l5 <- line "speed" (t_fps e) (s_speed s) [t_knot e; t_kmph e];
  l6 <- line "power" (t_poundal e) (s_power s) [t_horse e; t_kilowatt e];
  l7 <- line "main guns" (t_inch e) (s_guns s) [t_inch e; t_millimetre e];
  l8 <- line "fire shells weighing" (t_pound e) (s_shell_mass s) [t_long_ton e; t_kilogram e];
  l9 <- line "fire shells at" (t_fps e) (s_shell_speed s) [t_mph e; t_kmph e];
  v <- q_over (s_world e) (Quantity (t_pound e) (NFlt (s_mass s))) waterDensity;
  y <- fmt_line e [t_cubic_metre e; t_litre e] v;
  Ok [l1; l2; l3; l4; l5; l6; l7; l8; l9; ("volume underwater", y)].
