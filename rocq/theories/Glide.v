(** Model of the glide computer of the examples: [example/glide_computer/include/glide_computer.h],
    [glide_computer.cpp], and [spherical_distance] of [geographic.cpp].

    All quantities of the example have the representation [double], and the types of its
    variables are fixed by their declarations: a variable is its number (a double), and an
    expression is evaluated with the operators of the library on objects of these types and
    then converted to the type of the variable it initialises.

    Simplifications: names of waypoints, gliders and phases are left out; a leg holds the
    waypoints its pointers refer to; [print] (glide_computer.cpp:77-83) yields the numbers
    it passes to [fmt::print]; the central angle computed from four [<cmath>] functions in
    geographic.cpp:40-52 is a function of the two positions.  The exception of
    [std::vector::reserve] is the outcome [Contract]; [operator[]] and [back()] out of range
    are [Undef]. *)

From Coq Require Import ZArith String List Bool SpecFloat.
From Verif Require Import Outcome CInt Root Ratio Unit Downcast Dim DimOp Equivalent Rep Reference QuantityCast CommonQuantity
  Quantity Math Point Kind PointKind Chrono System Catalogue Includes.
Import ListNotations.
Local Open Scope string_scope.
Local Open Scope list_scope.
Local Open Scope res_scope.

Notation double := spec_float (only parsing).

(** [geographic::position], geographic.h:147-150. *)
Record position := Position { lat : double; lon : double }.

(** The types of glide_computer.h:80-98 and geographic.h:145, and what the operators need. *)
Record genv := GEnv {
  g_est : estimate; g_world : world; g_kinds : kinds; g_pkinds : pkinds;
  g_libm : libm; g_angle : position -> position -> double;
  t_distance : ktype; t_height : ktype; t_altitude : pktype; t_duration : qtype; t_timestamp : ptype;
  t_velocity : ktype; t_climb : ktype; t_kilometres : qtype; u_minute : cunit }.

(** The clocks' origins have no member [rebind], chrono.h:42-43. *)
Definition no_rebind : rebinding := fun _ _ _ => None.

(** The headers included, glide_computer.h:27-31 (quantity.h:27 includes dimensionless.h). *)
Definition glide_headers := ["generic/dimensionless.h"; "isq/si/length.h"; "isq/si/speed.h"; "isq/si/time.h"].

(** The kinds and types, geographic.h:144-145, glide_computer.h:79-98; the representation
    is the default one, [double]. *)
Definition setup (est : estimate) (l : libm) (angle : position -> position -> double) : res genv :=
  e <- compile est On glide_headers;
  len <- find_dim e "si::dim_length"; tim <- find_dim e "si::dim_time"; spd <- find_dim e "si::dim_speed";
  let len := snd len in let tim := snd tim in let spd := snd spd in
  m <- find_unit e "si::metre"; km <- find_unit e "si::kilometre"; s <- find_unit e "si::second"; mi <- find_unit e "si::minute";
  kmh <- find_unit e "si::kilometre_per_hour"; mps <- find_unit e "si::metre_per_second";
  let horizontal := Kind (Some "horizontal_kind") (BKind "horizontal_kind" len) len in
  let vertical := Kind (Some "vertical_kind") (BKind "vertical_kind" len) len in
  let vertical_point := PKind (Some "vertical_point_kind") vertical (ODynamic len) in
  g <- declare_kind On "horizontal_kind" len empty_registry;
  g <- declare_kind On "vertical_kind" len g;
  pg <- declare_point_kind On "vertical_point_kind" vertical (ODynamic len) empty_registry;
  g <- declare_derived_kind On "velocity_kind" spd horizontal g;
  g <- declare_derived_kind On "rate_of_climb_kind" spd vertical g;
  let d := RFlt F64 in
  distance <- mk_ktype horizontal km d;
  height <- mk_ktype vertical m d;
  duration <- mk_qtype tim s d;
  timestamp <- mk_ptype (clock_origin "system_clock") s d;
  velocity <- mk_ktype (Kind (Some "velocity_kind") (k_base horizontal) spd) kmh d;
  climb <- mk_ktype (Kind (Some "rate_of_climb_kind") (k_base vertical) spd) mps d;
  kilometres <- mk_qtype len km d;
  Ok (GEnv est (en_world e) g pg l angle distance height (PKType vertical_point m d) duration timestamp velocity climb kilometres mi).

(** The variables as objects. *)
Definition v_distance (e : genv) (x : double) := QKind (t_distance e) (NFlt x).
Definition v_height (e : genv) (x : double) := QKind (t_height e) (NFlt x).
Definition v_altitude (e : genv) (x : double) := QPKind (t_altitude e) (NFlt x).
Definition v_timestamp (e : genv) (x : double) := Point (t_timestamp e) (NFlt x).
Definition v_velocity (e : genv) (x : double) := QKind (t_velocity e) (NFlt x).
Definition v_climb (e : genv) (x : double) := QKind (t_climb e) (NFlt x).

(** Initialising a variable of one of the types. *)
Definition as_double (n : number) : res double := match n with NFlt x => Ok x | NInt _ => IllFormed end.
Definition to_kind (e : genv) (t : ktype) (k : qkind) : res double := x <- k_to (g_est e) t k; as_double (qk_num x).
Definition to_distance (e : genv) := to_kind e (t_distance e).
Definition to_height (e : genv) := to_kind e (t_height e).
Definition to_climb (e : genv) := to_kind e (t_climb e).
Definition to_altitude (e : genv) (p : qpkind) : res double := x <- pk_to no_rebind (g_est e) (t_altitude e) p; as_double (qpk_num x).
Definition to_timestamp (e : genv) (p : point) : res double := x <- p_to no_rebind (g_est e) (t_timestamp e) p; as_double (pt_num x).
Definition to_duration (e : genv) (q : quantity) : res double := x <- q_to (g_est e) (t_duration e) q; as_double (q_num x).
Definition v_duration (e : genv) (x : double) := Quantity (t_duration e) (NFlt x).

(** The operator [/] for kinds that are not related, glide_computer.h:71-76. *)
Definition ratio_of_kinds (e : genv) (a b : qkind) : res quantity :=
  _ <- constrained (negb (related b a));
  q_over (g_world e) (common a) (common b).

(** [glider::polar_point], [weather], [waypoint], [safety], [aircraft_tow], [flight_point],
    glide_computer.h:124-200. *)
Record polar_point := Polar { po_v : double; po_climb : double }.
Record weather := Weather { cloud_base : double; thermal_strength : double }.
Record waypoint := Waypoint { wp_pos : position; wp_alt : double }.
Record aircraft_tow := Tow { tow_height : double; tow_performance : double }.
Record flight_point := Flight { ts : double; alt : double; leg_idx : nat; dist : double }.

(** [glide_ratio], glide_computer.h:134. *)
Definition glide_ratio (e : genv) (p : polar_point) : res quantity :=
  c <- k_neg (g_est e) (v_climb e (po_climb p));
  ratio_of_kinds e (v_velocity e (po_v p)) c.

(** [spherical_distance], geographic.cpp:30, 37-58. *)
Definition spherical_distance (e : genv) (a b : position) : res double :=
  r <- q_make (t_kilometres e) (RInt I32) (NInt 6371);
  q <- q_mul_value r (RFlt F64) (NFlt (g_angle e a b));
  k <- k_construct (g_est e) (t_distance e) q;
  as_double (qk_num k).

(** [task::leg], glide_computer.h:151-161. *)
Record leg := Leg { leg_begin : waypoint; leg_end : waypoint; leg_length : double }.
Definition mk_leg (e : genv) (a b : waypoint) : res leg :=
  d <- spherical_distance e (wp_pos a) (wp_pos b); Ok (Leg a b d).

(** [make_legs], glide_computer.cpp:32-39: the binary [transform] stops at the end of the
    shorter range. *)
Fixpoint transform2 {A B : Type} (f : A -> A -> res B) (l1 l2 : list A) : res (list B) :=
  match l1, l2 with
  | x :: r1, y :: r2 => z <- f x y; r <- transform2 f r1 r2; Ok (z :: r)
  | _, _ => Ok []
  end.
Definition make_legs (e : genv) (wpts : list waypoint) : res (list leg) :=
  match wpts with
  | [] => Contract
  | _ => transform2 (mk_leg e) (removelast wpts) (tl wpts)
  end.

(** [make_leg_total_distances], glide_computer.cpp:41-48. *)
Fixpoint scan (e : genv) (acc : double) (l : list leg) : res (list double) :=
  match l with
  | [] => Ok []
  | x :: r =>
      s <- k_add (g_est e) (g_world e) (v_distance e acc) (v_distance e (leg_length x));
      s <- to_distance e s;
      t <- scan e s r; Ok (s :: t)
  end.
Definition make_leg_total_distances (e : genv) (l : list leg) : res (list double) :=
  match l with
  | [] => Ok []
  | x :: r => t <- scan e (leg_length x) r; Ok (leg_length x :: t)
  end.

(** [task], glide_computer.h:148-191. *)
Record task := Task { waypoints : list waypoint; legs : list leg; totals : list double; length_ : double }.
Definition make_task (e : genv) (wpts : list waypoint) : res task :=
  ls <- make_legs e wpts;
  ts <- make_leg_total_distances e ls;
  match rev ts with
  | [] => Undef
  | d :: _ => Ok (Task wpts ls ts d)
  end.

(** [v[i]], [front()], [back()]. *)
Definition at_index {A : Type} (l : list A) (i : nat) : res A := match nth_error l i with Some x => Ok x | None => Undef end.
Definition get_start (t : task) : res waypoint := at_index (waypoints t) 0.
Definition get_finish (t : task) : res waypoint := match rev (waypoints t) with [] => Undef | x :: _ => Ok x end.

(** [get_leg_dist_offset], glide_computer.h:177. *)
Definition get_leg_dist_offset (t : task) (i : nat) : res double :=
  match i with O => Ok (S754_zero false) | S k => at_index (totals t) k end.

(** [<] on kinds. *)
Definition k_less (e : genv) (a b : qkind) : res bool :=
  c <- k_compare (g_est e) (g_world e) a b; Ok (match c with Some Lt => true | _ => false end).

(** [std::ranges::lower_bound]: the range has to be partitioned by [x < value]; the halving
    search of the implementations. *)
Fixpoint partitioned (l : list bool) : bool :=
  match l with
  | [] => true
  | true :: r => partitioned r
  | false :: r => negb (existsb (fun b => b) r)
  end.
Fixpoint halving (fuel : nat) (l : list bool) (first len : nat) : res nat :=
  match len, fuel with
  | O, _ => Ok first
  | _, O => Stuck
  | _, S k =>
      let half := Nat.div2 len in
      b <- at_index l (first + half);
      if b then halving k l (first + half + 1) (len - half - 1) else halving k l first half
  end.
Definition lower_bound (e : genv) (l : list double) (v : double) : res nat :=
  bs <- map_res (fun x => k_less e (v_distance e x) (v_distance e v)) l;
  if partitioned bs then halving (List.length l) bs 0 (List.length l) else Undef.

(** [get_leg_index], glide_computer.h:178-181. *)
Definition get_leg_index (e : genv) (t : task) (d : double) : res nat := lower_bound e (totals t) d.

(** [terrain_level_alt], glide_computer.cpp:50-55. *)
Definition terrain_level_alt (e : genv) (t : task) (pos : flight_point) : res double :=
  l <- at_index (legs t) (leg_idx pos);
  d <- pk_diff no_rebind (g_est e) (g_world e) (v_altitude e (wp_alt (leg_end l))) (v_altitude e (wp_alt (leg_begin l)));
  alt_diff <- to_height e d;
  o <- get_leg_dist_offset t (leg_idx pos);
  a <- k_sub (g_est e) (g_world e) (v_distance e (dist pos)) (v_distance e o);
  q <- k_over_k (g_est e) (g_world e) (g_kinds e) a (v_distance e (leg_length l));
  h <- k_times_q (g_est e) (g_world e) (g_kinds e) (v_height e alt_diff) (common q);
  p <- pk_add (g_est e) (g_world e) (g_pkinds e) (v_altitude e (wp_alt (leg_begin l))) h;
  to_altitude e p.

(** [agl], glide_computer.h:204. *)
Definition agl (e : genv) (glider_alt terrain_level : double) : res double :=
  d <- pk_diff no_rebind (g_est e) (g_world e) (v_altitude e glider_alt) (v_altitude e terrain_level); to_height e d.

(** [length_3d], glide_computer.h:206-210; the result is a [length<kilometre>]. *)
Definition pow2 (e : genv) (q : quantity) : res quantity :=
  p <- q_pow (g_est e) (g_world e) (g_libm e) 2 1 q;
  match p with inr p => Ok p | inl _ => IllFormed end.
Definition length_3d (e : genv) (d h : qkind) : res quantity :=
  d <- to_distance e d; h <- to_height e h;
  a <- pow2 e (common (v_distance e d));
  b <- pow2 e (common (v_height e h));
  s <- q_add (g_est e) (g_world e) a b;
  r <- q_sqrt (g_est e) (g_world e) s;
  q_to (g_est e) (t_kilometres e) r.

(** [glide_distance], glide_computer.cpp:60-65. *)
Definition glide_distance (e : genv) (pos : flight_point) (g : polar_point) (t : task) (min_agl_height ground_alt : double) : res double :=
  dist_to_finish <- k_sub (g_est e) (g_world e) (v_distance e (length_ t)) (v_distance e (dist pos));
  p <- pk_add (g_est e) (g_world e) (g_pkinds e) (v_altitude e ground_alt) (v_height e min_agl_height);
  n <- pk_diff no_rebind (g_est e) (g_world e) p (v_altitude e (alt pos));
  f <- get_finish t;
  h <- pk_diff no_rebind (g_est e) (g_world e) (v_altitude e ground_alt) (v_altitude e (wp_alt f));
  a <- ratio_of_kinds e h dist_to_finish;
  r <- glide_ratio e g;
  b <- value_div_q (g_world e) (RInt I32) (NInt 1) r;
  d <- q_sub (g_est e) (g_world e) a b;
  q <- q_over (g_world e) (common n) d;
  k <- k_construct (g_est e) (t_distance e) q;
  as_double (qk_num k).

(** The numbers of one line of [print], glide_computer.cpp:77-83: minutes of the phase and
    from the start, kilometres of the phase and from the start, metres gained and altitude. *)
Record line := Line { l_minutes : double; l_total_minutes : double; l_distance : double; l_total_distance : double; l_gained : double; l_altitude : double }.
Definition minutes (e : genv) (a b : double) : res double :=
  d <- p_diff no_rebind (g_est e) (g_world e) (v_timestamp e a) (v_timestamp e b);
  c <- quantity_cast_unit (g_est e) (u_minute e) (q_type d) (q_num d);
  as_double (snd c).
Definition print (e : genv) (start_ts : double) (point new_point : flight_point) : res line :=
  m <- minutes e (ts new_point) (ts point);
  n <- minutes e (ts new_point) start_ts;
  d <- k_sub (g_est e) (g_world e) (v_distance e (dist new_point)) (v_distance e (dist point));
  d <- as_double (qk_num d);
  h <- pk_diff no_rebind (g_est e) (g_world e) (v_altitude e (alt new_point)) (v_altitude e (alt point));
  h <- as_double (qk_num h);
  Ok (Line m n d (dist new_point) h (alt new_point)).

(** [takeoff], glide_computer.cpp:85-88. *)
Definition takeoff (start_ts : double) (t : task) : res flight_point :=
  s <- get_start t; Ok (Flight start_ts (wp_alt s) 0 (S754_zero false)).

(** [pos.ts + d]. *)
Definition later (e : genv) (a d : double) : res double :=
  p <- p_add no_rebind (g_est e) (g_world e) (v_timestamp e a) (v_duration e d); to_timestamp e p.
(** [pos.alt + h]. *)
Definition higher (e : genv) (a h : double) : res double :=
  p <- pk_add (g_est e) (g_world e) (g_pkinds e) (v_altitude e a) (v_height e h); to_altitude e p.

(** [tow], glide_computer.cpp:90-97; the new position and the line printed. *)
Definition tow (e : genv) (start_ts : double) (pos : flight_point) (at_ : aircraft_tow) : res (flight_point * line) :=
  q <- k_over_k (g_est e) (g_world e) (g_kinds e) (v_height e (tow_height at_)) (v_climb e (tow_performance at_));
  d <- to_duration e (common q);
  t' <- later e (ts pos) d;
  a' <- higher e (alt pos) (tow_height at_);
  let new_pos := Flight t' a' (leg_idx pos) (dist pos) in
  p <- print e start_ts pos new_pos;
  Ok (new_pos, p).

(** [std::min(a, b)]: both arguments have one type. *)
Definition std_min (e : genv) (a b : qkind) : res qkind :=
  _ <- constrained (if kind_eq_dec (qk_kind a) (qk_kind b) then
                    if qtype_eq_dec (kt_qtype (qk_type a)) (kt_qtype (qk_type b)) then true else false else false);
  c <- k_less e b a; Ok (if c then b else a).

(** [circle], glide_computer.cpp:99-112; also the new value of [height_to_gain]. *)
Definition circle (e : genv) (start_ts : double) (pos : flight_point) (g : polar_point) (w : weather) (t : task) (height_to_gain : double)
  : res (flight_point * double * line) :=
  terrain <- terrain_level_alt e t pos;
  h_agl <- agl e (alt pos) terrain;
  c <- k_sub (g_est e) (g_world e) (v_height e (cloud_base w)) (v_height e h_agl);
  c <- std_min e c (v_height e height_to_gain);
  circling_height <- to_height e c;
  r <- k_add (g_est e) (g_world e) (v_climb e (thermal_strength w)) (v_climb e (po_climb g));
  circling_rate <- to_climb e r;
  q <- k_over_k (g_est e) (g_world e) (g_kinds e) (v_height e circling_height) (v_climb e circling_rate);
  d <- to_duration e (common q);
  t' <- later e (ts pos) d;
  a' <- higher e (alt pos) circling_height;
  let new_pos := Flight t' a' (leg_idx pos) (dist pos) in
  h <- k_act (g_est e) (g_kinds e) (v_height e height_to_gain) (KSub (v_height e circling_height));
  h <- as_double (qk_num h);
  p <- print e start_ts pos new_pos;
  Ok (new_pos, h, p).

(** [l3d / g.polar[0].v.common()], glide_computer.cpp:121, 132. *)
Definition gliding_time (e : genv) (l3d : quantity) (g : polar_point) : res double :=
  q <- q_over (g_world e) l3d (common (v_velocity e (po_v g))); to_duration e q.

(** [glide], glide_computer.cpp:114-126. *)
Definition glide (e : genv) (start_ts : double) (pos : flight_point) (g : polar_point) (t : task) (min_agl_height : double)
  : res (flight_point * line) :=
  ground_alt <- terrain_level_alt e t pos;
  d <- glide_distance e pos g t min_agl_height ground_alt;
  n <- k_add (g_est e) (g_world e) (v_distance e (dist pos)) (v_distance e d);
  new_distance <- to_distance e n;
  a <- pk_add (g_est e) (g_world e) (g_pkinds e) (v_altitude e ground_alt) (v_height e min_agl_height);
  h <- pk_diff no_rebind (g_est e) (g_world e) (v_altitude e (alt pos)) a;
  l3d <- length_3d e (v_distance e d) h;
  s <- gliding_time e l3d g;
  t' <- later e (ts pos) s;
  terrain <- terrain_level_alt e t pos;
  a' <- higher e terrain min_agl_height;
  i <- get_leg_index e t new_distance;
  let new_pos := Flight t' a' i new_distance in
  p <- print e start_ts pos new_pos;
  Ok (new_pos, p).

(** [final_glide], glide_computer.cpp:128-137. *)
Definition final_glide (e : genv) (start_ts : double) (pos : flight_point) (g : polar_point) (t : task) : res (flight_point * line) :=
  d <- k_sub (g_est e) (g_world e) (v_distance e (length_ t)) (v_distance e (dist pos));
  f <- get_finish t;
  h <- pk_diff no_rebind (g_est e) (g_world e) (v_altitude e (alt pos)) (v_altitude e (wp_alt f));
  l3d <- length_3d e d h;
  s <- gliding_time e l3d g;
  t' <- later e (ts pos) s;
  n <- k_add (g_est e) (g_world e) (v_distance e (dist pos)) d;
  n <- to_distance e n;
  let new_pos := Flight t' (wp_alt f) (List.length (legs t) - 1) n in
  p <- print e start_ts pos new_pos;
  Ok (new_pos, p).

(** The loop of [estimate], glide_computer.cpp:160-166: at most [fuel] turns are followed. *)
Fixpoint legs_loop (fuel : nat) (e : genv) (start_ts : double) (pos : flight_point) (g : polar_point) (w : weather) (t : task)
  (min_agl_height height_to_gain : double) : res (flight_point * list line) :=
  match fuel with
  | O => Stuck
  | S k =>
      x <- glide e start_ts pos g t min_agl_height;
      y <- circle e start_ts (fst x) g w t height_to_gain;
      b <- k_less e (v_height e (S754_zero false)) (v_height e (snd (fst y)));
      if b then
        r <- legs_loop k e start_ts (fst (fst y)) g w t min_agl_height (snd (fst y));
        Ok (fst r, snd x :: snd y :: snd r)
      else Ok (fst (fst y), [snd x; snd y])
  end.

(** [estimate], glide_computer.cpp:143-170: the lines printed. *)
Definition estimate_flight (fuel : nat) (e : genv) (start_ts : double) (g : polar_point) (w : weather) (t : task) (min_agl_height : double)
  (at_ : aircraft_tow) : res (list line) :=
  pos <- takeoff start_ts t;
  x <- tow e start_ts pos at_;
  let pos := fst x in
  f <- get_finish t;
  r <- glide_ratio e g;
  q <- q_over (g_world e) (common (v_distance e (length_ t))) r;
  h <- k_construct (g_est e) (t_height e) q;
  p <- pk_add (g_est e) (g_world e) (g_pkinds e) (v_altitude e (wp_alt f)) h;
  final_glide_alt <- to_altitude e p;
  d <- pk_diff no_rebind (g_est e) (g_world e) (v_altitude e final_glide_alt) (v_altitude e (alt pos));
  height_to_gain <- to_height e d;
  y <- legs_loop fuel e start_ts pos g w t min_agl_height height_to_gain;
  z <- final_glide e start_ts (fst y) g t;
  Ok (snd x :: snd y ++ [snd z]).
