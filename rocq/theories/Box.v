(** Model of [example/references/box_example.cpp]: the class [Box] and the computations of
    [main].

    All quantities of the example have the representation [double], and the types of the members,
    of the arguments and of the results are fixed by their declarations: such a variable is its
    number (a double); an expression is evaluated with the operators of the library and then
    converted to the type of the variable it initialises.

    Simplifications: [fmt::format] is left out, [main] yields the numbers it passes to it; a failed
    [assert] is the outcome [Contract]; the literals of [main] are arguments here. *)

From Coq Require Import ZArith String List Bool SpecFloat.
From Verif Require Import Outcome CInt Root Ratio Unit Downcast Dim DimOp Equivalent Rep Reference QuantityCast CommonQuantity
  Quantity Point Chrono System Catalogue Includes Names Constants.
Import ListNotations.
Local Open Scope string_scope.
Local Open Scope list_scope.
Local Open Scope res_scope.

Notation double := spec_float (only parsing).

(** The headers included, box_example.cpp:24-34. *)
Definition box_headers := ["generic/dimensionless.h"; "isq/si/amount_of_substance.h"; "isq/si/area.h"; "isq/si/constants.h";
  "isq/si/density.h"; "isq/si/force.h"; "isq/si/length.h"; "isq/si/mass.h"; "isq/si/speed.h"; "isq/si/time.h"; "isq/si/volume.h"].

(** The types of the declarations, box_example.cpp:49-72, 89-101, and the two constants of :45-46. *)
Record benv := BEnv {
  b_est : estimate; b_world : world;
  t_area : qtype; t_length : qtype; t_density : qtype; t_force : qtype; t_mass : qtype; t_volume : qtype;
  t_millimetre : qtype; t_second : qtype; u_metre : cunit; u_percent : cunit;
  gravity : quantity; air_density : quantity }.

Definition box_setup (est : estimate) : res benv :=
  e <- compile est On box_headers;
  let type d u := (x <- find_dim e d; y <- find_unit e u; mk_qtype (snd x) y (RFlt F64)) in
  area <- type "si::dim_area" "si::square_metre"; len <- type "si::dim_length" "si::metre";
  den <- type "si::dim_density" "si::kilogram_per_metre_cub"; force <- type "si::dim_force" "si::newton";
  mass <- type "si::dim_mass" "si::kilogram"; vol <- type "si::dim_volume" "si::cubic_metre";
  mm <- type "si::dim_length" "si::millimetre"; sec <- type "si::dim_time" "si::second";
  percent <- find_unit e "percent";
  g <- standard_gravity e (RFlt F64);
  r <- reference_divide (en_world e) (Reference (q_dim mass) (q_unit mass)) (Reference (q_dim vol) (q_unit vol));
  air <- times_reference (RFlt F64) (decimal 1225 (-3)) r;
  Ok (BEnv est (en_world e) area len den force mass vol mm sec (q_unit len) percent g air).

Definition of_type (t : qtype) (x : double) : quantity := Quantity t (NFlt x).
(** Initialising a variable of a type. *)
Definition to_type (e : benv) (t : qtype) (q : quantity) : res double :=
  x <- q_to (b_est e) t q; match q_num x with NFlt v => Ok v | NInt _ => IllFormed end.

(** The members, box_example.cpp:49-51. *)
Record box := Box { base_ : double; height_ : double; density_ : double }.

(** The constructor, box_example.cpp:51, 53. *)
Definition make_box (e : benv) (length width height : double) : res box :=
  a <- q_times (b_world e) (of_type (t_length e) length) (of_type (t_length e) width);
  base <- to_type e (t_area e) a;
  density <- to_type e (t_density e) (air_density e);
  Ok (Box base height density).

(** [filled_weight], box_example.cpp:55-60. *)
Definition filled_weight (e : benv) (b : box) : res double :=
  volume <- q_times (b_world e) (of_type (t_area e) (base_ b)) (of_type (t_length e) (height_ b));
  mass <- q_times (b_world e) (of_type (t_density e) (density_ b)) volume;
  weight <- q_times (b_world e) mass (gravity e);
  to_type e (t_force e) weight.

(** [fill_level], box_example.cpp:62-65. *)
Definition fill_level (e : benv) (b : box) (measured_mass : double) : res double :=
  x <- q_times (b_world e) (of_type (t_length e) (height_ b)) (of_type (t_mass e) measured_mass);
  y <- q_times (b_world e) x (gravity e);
  w <- filled_weight e b;
  z <- q_over (b_world e) y (of_type (t_force e) w);
  to_type e (t_length e) z.

(** [spare_capacity], box_example.cpp:67-70. *)
Definition spare_capacity (e : benv) (b : box) (measured_mass : double) : res double :=
  l <- fill_level e b measured_mass;
  d <- q_sub (b_est e) (b_world e) (of_type (t_length e) (height_ b)) (of_type (t_length e) l);
  v <- q_times (b_world e) d (of_type (t_area e) (base_ b));
  to_type e (t_volume e) v.

(** [set_contents_density], box_example.cpp:72-76. *)
Definition set_contents_density (e : benv) (b : box) (density_in : double) : res box :=
  c <- q_compare (b_est e) (b_world e) (of_type (t_density e) density_in) (air_density e);
  match c with
  | Some Gt => Ok (Box (base_ b) (height_ b) density_in)
  | _ => Contract
  end.

(** [main], box_example.cpp:89-101, with its literals as arguments: the sizes of the box in
    millimetres, the density of the contents, the time and the mass.  The results: the level,
    the percentage, the spare capacity, the flow rate, the speed and the time left, each the number
    of the quantity it is passed as. *)
Record report := Report { r_level : double; r_percent : quantity; r_spare : double; r_flow : quantity; r_rise : quantity; r_left : quantity }.
Definition box_main (e : benv) (height length width density time mass : double) : res report :=
  h <- q_cast (b_est e) (b_world e) (ToUnit (u_metre e)) (of_type (t_millimetre e) height);
  l <- to_type e (t_length e) (of_type (t_millimetre e) length);
  w <- to_type e (t_length e) (of_type (t_millimetre e) width);
  hb <- to_type e (t_length e) h;
  b <- make_box e l w hb;
  b <- set_contents_density e b density;
  level <- fill_level e b mass;
  p <- q_over (b_world e) (of_type (t_length e) level) h;
  percent <- q_cast (b_est e) (b_world e) (ToUnit (u_percent e)) p;
  spare <- spare_capacity e b mass;
  flow <- q_over (b_world e) (of_type (t_mass e) mass) (of_type (t_second e) time);
  rise <- q_over (b_world e) (of_type (t_length e) level) (of_type (t_second e) time);
  r <- q_over (b_world e) h (of_type (t_length e) level);
  r1 <- q_addsub_value OpSub false r (RInt I32) (NInt 1);
  left <- q_times (b_world e) r1 (of_type (t_second e) time);
  Ok (Report level percent spare flow rise left).
