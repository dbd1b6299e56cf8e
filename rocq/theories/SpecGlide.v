(** The glide computer on plain doubles: what [estimate] is expected to print, written with the
    arithmetic of doubles alone, in kilometres, metres, seconds, kilometres per hour and metres
    per second.  Only the records of [Glide] are used. *)

From Coq Require Import ZArith List Bool SpecFloat.
From Verif Require Import Outcome Root Rep Math Glide.
Import ListNotations.
Local Open Scope list_scope.
Local Open Scope res_scope.

Definition is_double (x : spec_float) : Prop := valid_binary 53 1024 x = true.

Declare Scope double_scope.
Delimit Scope double_scope with D.
Infix "+" := (SFadd 53 1024) : double_scope.
Infix "-" := (SFsub 53 1024) : double_scope.
Infix "*" := (SFmul 53 1024) : double_scope.
Infix "/" := (SFdiv 53 1024) : double_scope.
Notation "- x" := (SFopp x) : double_scope.
Infix "<?" := SFltb : double_scope.
Definition int (z : Z) : spec_float := binary_normalize 53 1024 z 0 false.
Definition zero : spec_float := S754_zero false.

(** Tasks: the legs join consecutive waypoints, a leg is 6371 km times the central angle long,
    the totals are the running sums of the lengths.  An empty task throws, one of a single
    waypoint reads the last element of an empty vector. *)
Fixpoint plain_legs (angle : position -> position -> spec_float) (l : list waypoint) : list leg :=
  match l with
  | a :: (b :: _) as r => Leg a b (int 6371 * angle (wp_pos a) (wp_pos b))%D :: plain_legs angle r
  | _ => []
  end.
Fixpoint running (s : spec_float) (l : list spec_float) : list spec_float :=
  match l with
  | [] => []
  | x :: r => (s + x)%D :: running (s + x)%D r
  end.
Definition running_totals (l : list spec_float) : list spec_float :=
  match l with [] => [] | x :: r => x :: running x r end.
Definition plain_task (angle : position -> position -> spec_float) (l : list waypoint) : res task :=
  match l with
  | [] => Contract
  | [_] => Undef
  | _ =>
      let ls := plain_legs angle l in
      let ts := running_totals (map leg_length ls) in
      Ok (Task l ls ts (last ts zero))
  end.
Definition finish_alt (t : task) : spec_float := match rev (waypoints t) with [] => zero | f :: _ => wp_alt f end.

(** The number of legs that end before the distance [d]. *)
Definition leg_at (t : task) (d : spec_float) : nat := List.length (filter (fun x => x <? d)%D (totals t)).
Definition leg_start (t : task) (i : nat) : spec_float := match i with O => zero | S k => nth k (totals t) zero end.

(** The level of the terrain below [pos]; there is none past the last leg. *)
Definition plain_terrain (t : task) (pos : flight_point) : res spec_float :=
  match nth_error (legs t) (leg_idx pos) with
  | None => Undef
  | Some l =>
      let a := wp_alt (leg_begin l) in
      let b := wp_alt (leg_end l) in
      Ok (a + (b - a) * ((dist pos - leg_start t (leg_idx pos)) / leg_length l))%D
  end.

(** Kilometres glided until the line of the glide meets the line from [min] metres above the
    terrain [ground] below [pos] to the finish. *)
Definition plain_glide (pos : flight_point) (g : polar_point) (t : task) (min ground : spec_float) : spec_float :=
  (((ground + min) - alt pos)
   / ((ground - finish_alt t) / (length_ t - dist pos) - (int 1 / (po_v g / - po_climb g)) * int 3600))%D.

(** Seconds for [d] kilometres forward and [h] metres down, [sq] the square of a double. *)
Definition plain_time (sq : spec_float -> spec_float) (v d h : spec_float) : spec_float :=
  ((SFsqrt 53 1024 (sq d * int 1000000 + sq h) * (int 1 / int 1000)) / v * int 3600)%D.

Definition plain_line (start : spec_float) (p q : flight_point) : line :=
  Line ((ts q - ts p) * (int 1 / int 60))%D ((ts q - start) * (int 1 / int 60))%D
    (dist q - dist p)%D (dist q) (alt q - alt p)%D (alt q).

Definition plain_tow (start : spec_float) (pos : flight_point) (a : aircraft_tow) : flight_point * line :=
  let q := Flight (ts pos + tow_height a / tow_performance a)%D (alt pos + tow_height a)%D (leg_idx pos) (dist pos) in
  (q, plain_line start pos q).

Definition plain_glide_phase (sq : spec_float -> spec_float) (start : spec_float) (pos : flight_point) (g : polar_point) (t : task)
  (min : spec_float) : res (flight_point * line) :=
  ground <- plain_terrain t pos;
  let d := plain_glide pos g t min ground in
  let q := Flight (ts pos + plain_time sq (po_v g) d (alt pos - (ground + min)))%D (ground + min)%D (leg_at t (dist pos + d)%D) (dist pos + d)%D in
  Ok (q, plain_line start pos q).

Definition climbed (t : task) (w : weather) (pos : flight_point) (ground togain : spec_float) : spec_float :=
  let room := (cloud_base w - (alt pos - ground))%D in if (togain <? room)%D then togain else room.
Definition plain_circle (start : spec_float) (pos : flight_point) (g : polar_point) (w : weather) (t : task) (togain : spec_float)
  : res (flight_point * spec_float * line) :=
  ground <- plain_terrain t pos;
  let c := climbed t w pos ground togain in
  let q := Flight (ts pos + c / (thermal_strength w + po_climb g))%D (alt pos + c)%D (leg_idx pos) (dist pos) in
  Ok (q, (togain - c)%D, plain_line start pos q).

Definition plain_final (sq : spec_float -> spec_float) (start : spec_float) (pos : flight_point) (g : polar_point) (t : task) : flight_point * line :=
  let d := (length_ t - dist pos)%D in
  let q := Flight (ts pos + plain_time sq (po_v g) d (alt pos - finish_alt t))%D (finish_alt t) (List.length (legs t) - 1) (dist pos + d)%D in
  (q, plain_line start pos q).

(** Glide and circle until no height is left to be gained; [Stuck] if that takes more than
    [fuel] turns. *)
Fixpoint plain_loop (fuel : nat) (sq : spec_float -> spec_float) (start : spec_float) (pos : flight_point) (g : polar_point) (w : weather)
  (t : task) (min togain : spec_float) : res (flight_point * list line) :=
  match fuel with
  | O => Stuck
  | S k =>
      x <- plain_glide_phase sq start pos g t min;
      y <- plain_circle start (fst x) g w t togain;
      let '(q, h, p) := y in
      if (zero <? h)%D then
        r <- plain_loop k sq start q g w t min h; Ok (fst r, snd x :: p :: snd r)
      else Ok (q, [snd x; p])
  end.

Definition start_point (start : spec_float) (t : task) (a : aircraft_tow) : flight_point * line :=
  plain_tow start (Flight start (match waypoints t with [] => zero | s :: _ => wp_alt s end) 0 zero) a.
Definition first_gain (g : polar_point) (t : task) (pos : flight_point) : spec_float :=
  ((finish_alt t + (length_ t / (po_v g / - po_climb g)) * int 3600) - alt pos)%D.
Definition plain_estimate (fuel : nat) (sq : spec_float -> spec_float) (start : spec_float) (g : polar_point) (w : weather) (t : task)
  (min : spec_float) (a : aircraft_tow) : res (list line) :=
  let x := start_point start t a in
  y <- plain_loop fuel sq start (fst x) g w t min (first_gain g t (fst x));
  Ok (snd x :: snd y ++ [snd (plain_final sq start (fst y) g t)]).

(** The data of a flight are doubles. *)
Definition doubles_point (p : flight_point) : Prop := is_double (ts p) /\ is_double (alt p) /\ is_double (dist p).
Definition doubles_polar (g : polar_point) : Prop := is_double (po_v g) /\ is_double (po_climb g).
Definition doubles_weather (w : weather) : Prop := is_double (cloud_base w) /\ is_double (thermal_strength w).
Definition doubles_tow (a : aircraft_tow) : Prop := is_double (tow_height a) /\ is_double (tow_performance a).
Definition doubles_waypoints (l : list waypoint) : Prop := forall p, In p l -> is_double (wp_alt p).

(** What is asked of the libraries below: the compile-time square root of one is one, [pow] and
    the central angle are doubles, and an angle is not negative (it may be a NaN). *)
Definition good_libraries (est : estimate) (l : libm) (angle : position -> position -> spec_float) : Prop :=
  iroot est 2 1 = Ok 1%Z /\ (forall x y, is_double (m_pow l F64 x y)) /\
  forall p q, is_double (angle p q) /\ (angle p q <? zero)%D = false.

(** A flat task, and what is left below the clouds at [min] metres above such terrain. *)
Definition flat (t : task) (level : spec_float) : Prop := forall p, In p (waypoints t) -> wp_alt p = level.
Definition room (w : weather) (level min : spec_float) : spec_float := (cloud_base w - ((level + min) - level))%D.
Definition flight_data (start : spec_float) (g : polar_point) (w : weather) (min : spec_float) (a : aircraft_tow) : Prop :=
  is_double start /\ doubles_polar g /\ doubles_weather w /\ is_double min /\ doubles_tow a.
