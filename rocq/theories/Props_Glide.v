(** C97: the glide computer of the examples. *)

From Coq Require Import ZArith String List Bool Lia Reals Lra SpecFloat.
From Flocq Require Import Core IEEE754.BinarySingleNaN.
From Verif Require Import Outcome CInt Root Rep Math Glide SpecGlide SpecReal GlideProofs GlideProofs2 GlideProofs3.
Import ListNotations.
Local Open Scope list_scope.
Local Open Scope res_scope.

(** The headers and the declarations of kinds compile. *)
Theorem C97_setup : forall est l angle, exists e, setup est l angle = Ok e.
Proof. intros est l angle. eexists. apply setup_env. Qed.
Print Assumptions C97_setup.

Lemma whole : forall est l angle e wpts t, setup est l angle = Ok e -> good_libraries est l angle -> doubles_waypoints wpts -> make_task e wpts = Ok t ->
  e = env_of est l angle /\ (forall p q, is_double (angle p q)) /\ (forall p q, not_negative (int 6371 * angle p q)%D) /\ proper angle t /\ legs t <> [] /\ waypoints t = wpts.
Proof.
  intros est l angle e wpts t S (_ & _ & A) D T. rewrite setup_env in S. assert (e = env_of est l angle) as -> by congruence.
  assert (Ad : forall p q, is_double (angle p q)) by (intros p q; apply A).
  rewrite (task_plain est l angle Ad) in T. destruct (plain_task_proper _ _ _ D T) as [P W].
  split; [reflexivity|split; [exact Ad|split; [intros p q; apply long_leg; apply A|split; [exact P|split; [|exact W]]]]].
  destruct wpts as [|a [|b r]]; try discriminate T. cbn [plain_task] in T. injection T as <-. discriminate.
Qed.

(** Tasks: the legs join consecutive waypoints and the distances are their running sums. *)
Theorem C97_task : forall est l angle e wpts, setup est l angle = Ok e -> good_libraries est l angle -> make_task e wpts = plain_task angle wpts.
Proof.
  intros est l angle e wpts S (_ & _ & A). rewrite setup_env in S. assert (e = env_of est l angle) as -> by congruence.
  apply task_plain. intros p q. apply A.
Qed.
Print Assumptions C97_task.

(** The flight printed is the one computed with plain doubles: no kind, unit or conversion of the
    library changes a digit of it. *)
Theorem C97_estimate : forall est l angle e wpts t start g w min a, setup est l angle = Ok e -> good_libraries est l angle ->
  doubles_waypoints wpts -> make_task e wpts = Ok t -> flight_data start g w min a ->
  forall fuel, estimate_flight fuel e start g w t min a = plain_estimate fuel (fun x => m_pow l F64 x (int 2)) start g w t min a.
Proof.
  intros est l angle e wpts t s g w m a S Gl D T (Ds & Dg & Dw & Dm & Da) fuel.
  destruct (whole _ _ _ _ _ _ S Gl D T) as (-> & Ad & Ap & P & _ & _). destruct Gl as (R & Pw & _).
  apply (estimate_plain est l angle R Pw Ad t P Ap); assumption.
Qed.
Print Assumptions C97_estimate.

(** No estimate is ill-formed or violates a contract. *)
Theorem C97_outcomes : forall est l angle e wpts t start g w min a fuel, setup est l angle = Ok e -> good_libraries est l angle ->
  doubles_waypoints wpts -> make_task e wpts = Ok t -> flight_data start g w min a ->
  (exists ls, estimate_flight fuel e start g w t min a = Ok ls) \/ estimate_flight fuel e start g w t min a = Undef \/
  estimate_flight fuel e start g w t min a = Stuck.
Proof.
  intros est l angle e wpts t s g w m a fuel S Gl D T F. rewrite (C97_estimate est l angle e wpts t s g w m a S Gl D T F).
  pose proof (estimate_outcomes fuel (fun x => m_pow l F64 x (int 2)) s g w t m a) as O.
  destruct (plain_estimate _ _ _ _ _ _ _ _); try contradiction; eauto.
Qed.
Print Assumptions C97_outcomes.

(** The leg found at a distance: the legs before it end before the distance, the leg itself and
    those after it do not; past the last one there is none. *)
Theorem C97_leg : forall est l angle e wpts t d, setup est l angle = Ok e -> good_libraries est l angle ->
  doubles_waypoints wpts -> make_task e wpts = Ok t -> is_double d ->
  exists i, get_leg_index e t d = Ok i /\ (i <= List.length (legs t))%nat /\
    (forall k x, nth_error (totals t) k = Some x -> ((x <? d)%D = true <-> (k < i)%nat)) /\
    (i = List.length (legs t) <-> (length_ t <? d)%D = true).
Proof.
  intros est l angle e wpts t d S Gl D T Dd. destruct (whole _ _ _ _ _ _ S Gl D T) as (-> & Ad & Ap & P & Two & _).
  exists (leg_at t d). split; [apply (index_plain est l angle Ad t P Ap d Dd)|]. split; [apply (leg_most angle t P)|]. split.
  - intros k x N. apply (leg_bounds angle t Ad Ap P d k x Dd N).
  - apply (leg_past angle t Ad Ap P Two d Dd).
Qed.
Print Assumptions C97_leg.

(** After a glide that passed the finish, and after no other, looking for the terrain reads
    behind the last leg. *)
Theorem C97_past_finish : forall est l angle e wpts t start pos g w min h q ln, setup est l angle = Ok e -> good_libraries est l angle ->
  doubles_waypoints wpts -> make_task e wpts = Ok t -> is_double start -> doubles_point pos -> doubles_polar g -> doubles_weather w ->
  is_double min -> is_double h -> glide e start pos g t min = Ok (q, ln) ->
  (circle e start q g w t h = Undef <-> (length_ t <? dist q)%D = true).
Proof.
  intros est l angle e wpts t s pos g w m h q ln S Gl D T Ds Dp Dg Dw Dm Dh G. destruct (whole _ _ _ _ _ _ S Gl D T) as (-> & Ad & Ap & P & Two & _).
  destruct Gl as (R & Pw & _). destruct (glide_phase_plain est l angle R Pw Ad t P Ap s pos g m Ds Dp Dg Dm) as [E N].
  rewrite E in G. specialize (N _ G). cbn [fst] in N. rewrite (proj1 (circle_plain est l angle Ad t P s q g w h Ds N Dg Dw Dh)).
  eapply past_finish; eauto. apply N.
Qed.
Print Assumptions C97_past_finish.

(** Over flat terrain, with some room left below the clouds, the loop ends: each turn gains at
    least half of the room. *)
Theorem C97_flat_ends : forall est l angle e wpts t start g w min a level n, setup est l angle = Ok e -> good_libraries est l angle ->
  doubles_waypoints wpts -> make_task e wpts = Ok t -> flight_data start g w min a ->
  flat t level -> is_number F64 level -> level <> S754_zero true ->
  is_number F64 (room w level min) -> (0 < fval (room w level min))%R ->
  let h := first_gain g t (fst (start_point start t a)) in
  is_number F64 h -> (fval h <= bpow radix2 52 * fval (room w level min))%R -> (fval h < INR n * (fval (room w level min) / 2))%R ->
  estimate_flight (S n) e start g w t min a <> Stuck.
Proof.
  intros est l angle e wpts t s g w m a level n S Gl D T F Fl Ln Lz Rn Rp h Hn Hb Hl.
  rewrite (C97_estimate est l angle e wpts t s g w m a S Gl D T F).
  destruct (whole _ _ _ _ _ _ S Gl D T) as (_ & Ad & Ap & P & Two & _). unfold plain_estimate. cbv zeta. fold h.
  pose proof (flat_loop angle t P level Fl Ln Lz w m Rn Rp n (fun x => m_pow l F64 x (int 2)) s (fst (start_point s t a)) g h Hn Hb Hl) as L.
  remember (plain_loop (Datatypes.S n) (fun x => m_pow l F64 x (int 2)) s (fst (start_point s t a)) g w t m h) as x eqn:X. clear - L.
  destruct x; cbn [bind]; try discriminate. now elim L.
Qed.
Print Assumptions C97_flat_ends.

(** The last line printed: the glider is at the finish. *)
Theorem C97_arrives : forall est l angle e wpts t start g w min a fuel ls, setup est l angle = Ok e -> good_libraries est l angle ->
  doubles_waypoints wpts -> make_task e wpts = Ok t -> flight_data start g w min a ->
  estimate_flight fuel e start g w t min a = Ok ls ->
  exists ls' ln d, ls = ls' ++ [ln] /\ l_altitude ln = finish_alt t /\ l_total_distance ln = (d + (length_ t - d))%D /\
    (length_ t <? d)%D = false /\
    (is_number F64 d -> is_number F64 (length_ t) -> (0 <= fval d)%R -> (fval (length_ t) <= bpow radix2 1022)%R ->
     is_number F64 (l_total_distance ln) /\
     (Rabs (fval (l_total_distance ln) - fval (length_ t)) <= bpow radix2 (-52) * fval (length_ t))%R).
Proof.
  intros est l angle e wpts t s g w m a fuel ls S Gl D T F H. rewrite (C97_estimate est l angle e wpts t s g w m a S Gl D T F) in H.
  destruct (whole _ _ _ _ _ _ S Gl D T) as (-> & Ad & Ap & P & Two & _). destruct Gl as (R & Pw & _). destruct F as (Ds & Dg & Dw & Dm & Da).
  destruct (arrival est l angle R Pw Ad Ap t P Two fuel s g w m a ls Ds Dg Dw Dm Da H) as (ls' & ln & d & E & A & B & Dd & L).
  exists ls', ln, d. split; [exact E|split; [exact A|split; [exact B|split; [exact L|]]]]. intros Nd Nl P0 Lm. rewrite B.
  apply there_and_on; auto. split; [exact P0|]. rewrite (less_reals _ _ Nl Nd) in L. destruct (Rlt_dec _ _); [discriminate|lra].
Qed.
Print Assumptions C97_arrives.

(** *** Cases *)

Definition a_root : estimate := fun _ v => Ok (Z.sqrt v).
Definition a_libm : libm := Libm (fun _ x _ => if valid_binary 53 1024 x then (x * x)%D else zero) (fun _ x => x) (fun _ x => x).
(** Along a meridian, a hundredth for each unit of latitude. *)
Definition a_angle (p q : position) : spec_float :=
  let d := ((lat q - lat p) / int 100)%D in if valid_binary 53 1024 d then if (d <? zero)%D then zero else d else zero.
Example good_case : good_libraries a_root a_libm a_angle.
Proof.
  split; [vm_compute; reflexivity|]. split.
  - intros x y. cbn [m_pow a_libm]. destruct (valid_binary 53 1024 x) eqn:V; [|reflexivity]. now apply dbl_mul.
  - intros p q. unfold a_angle. cbv zeta. set (d := ((lat q - lat p) / int 100)%D). destruct (valid_binary 53 1024 d) eqn:V; [|now split].
    destruct (d <? zero)%D eqn:N; [now split|]. now split.
Qed.
Definition at_lat (z h : Z) : waypoint := Waypoint (Position (int z) zero) (int h).
Definition hills : list waypoint := [at_lat 0 100; at_lat 1 400; at_lat 4 400].
Definition plains : list waypoint := [at_lat 0 100; at_lat 1 100; at_lat 4 100].
Definition polar : polar_point := Polar (int 83) (- int 1)%D.
Definition fly (fuel : nat) (wpts : list waypoint) (w : weather) (min towed : Z) : res (list line) :=
  e <- setup a_root a_libm a_angle; t <- make_task e wpts; estimate_flight fuel e zero polar w t (int min) (Tow (int towed) (int 2)).
Example hills_case : exists ls, fly 9 hills (Weather (int 1900) (int 4)) 300 400 = Ok ls /\ List.length ls = 16%nat.
Proof. eexists. split; vm_compute; reflexivity. Qed.
Example plains_case : exists ls, fly 9 plains (Weather (int 1900) (int 4)) 300 400 = Ok ls /\ List.length ls = 16%nat.
Proof. eexists. split; vm_compute; reflexivity. Qed.

Definition flying (e : genv) (wpts : list waypoint) (t : task) (w : weather) (min : Z) (a : aircraft_tow) : Prop :=
  setup a_root a_libm a_angle = Ok e /\ good_libraries a_root a_libm a_angle /\ doubles_waypoints wpts /\ make_task e wpts = Ok t /\
  flight_data zero polar w (int min) a.
Lemma at_lat_doubles : forall l, Forall (fun p => valid_binary 53 1024 (wp_alt p) = true) l -> doubles_waypoints l.
Proof. intros l F p I. rewrite Forall_forall in F. exact (F p I). Qed.
Definition plains_task : task := Eval vm_compute in match plain_task a_angle plains with Ok t => t | _ => Task [] [] [] zero end.
Lemma plains_flying : forall w min a, flight_data zero polar w (int min) a -> flying (env_of a_root a_libm a_angle) plains plains_task w min a.
Proof.
  intros w min a F. split; [apply setup_env|split; [exact good_case|]]. split; [apply at_lat_doubles; repeat constructor|]. split; [|exact F].
  rewrite (C97_task a_root a_libm a_angle _ plains (setup_env _ _ _) good_case). vm_compute. reflexivity.
Qed.
Lemma plains_plain : forall w min a fuel, flight_data zero polar w (int min) a ->
  estimate_flight fuel (env_of a_root a_libm a_angle) zero polar w plains_task (int min) a
  = plain_estimate fuel (fun x => m_pow a_libm F64 x (int 2)) zero polar w plains_task (int min) a.
Proof. intros w min a fuel F. destruct (plains_flying w min a F) as (S & G & D & T & _). exact (C97_estimate _ _ _ _ _ _ _ _ _ _ _ S G D T F fuel). Qed.
Lemma flight_doubles : forall w min a, doubles_weather w -> doubles_tow a -> flight_data zero polar w (int min) a.
Proof.
  intros w min a W A. split; [reflexivity|split; [split; reflexivity|split; [exact W|split; [apply dbl_int|exact A]]]].
Qed.

(** [C97_flat_ends] on the plains: 1600 m of room, and some 11 km to be gained. *)
Example flat_case : exists e t w a, flying e plains t w 300 a /\ flat t (int 100) /\ is_number F64 (room w (int 100) (int 300)) /\
  (0 < fval (room w (int 100) (int 300)))%R /\ let h := first_gain polar t (fst (start_point zero t a)) in
  is_number F64 h /\ (fval h <= bpow radix2 52 * fval (room w (int 100) (int 300)))%R /\
  (fval h < INR 14 * (fval (room w (int 100) (int 300)) / 2))%R.
Proof.
  exists (env_of a_root a_libm a_angle), plains_task, (Weather (int 1900) (int 4)), (Tow (int 400) (int 2)).
  split; [apply plains_flying, flight_doubles; split; apply dbl_int|].
  assert (Fl : flat plains_task (int 100)) by (intros p [<-|[<-|[<-|[]]]]; vm_compute; reflexivity).
  assert (R : room (Weather (int 1900) (int 4)) (int 100) (int 300) = int 1600) by (vm_compute; reflexivity).
  assert (V : fval (int 1600) = 1600%R).
  { replace (int 1600) with (S754_finite false 7036874417766400 (-42)) by (vm_compute; reflexivity).
    unfold fval, SF2R, F2R. cbn [cond_Zopp Fnum Fexp]. change (bpow radix2 (-42)) with (/ 4398046511104)%R. lra. }
  rewrite R, V. split; [exact Fl|]. split; [split; vm_compute; reflexivity|]. split; [lra|]. cbv zeta.
  set (h := first_gain polar plains_task (fst (start_point zero plains_task (Tow (int 400) (int 2))))).
  assert (H : is_number F64 h) by (split; vm_compute; reflexivity). split; [exact H|].
  assert (L : (fval h < 11000)%R).
  { assert (N : is_number F64 (int 11000)) by (split; vm_compute; reflexivity).
    assert (W : fval (int 11000) = 11000%R).
    { replace (int 11000) with (S754_finite false 6047313952768000 (-39)) by (vm_compute; reflexivity).
      unfold fval, SF2R, F2R. cbn [cond_Zopp Fnum Fexp]. change (bpow radix2 (-39)) with (/ 549755813888)%R. lra. }
    rewrite <- W. pose proof (less_reals h (int 11000) H N) as C. destruct (Rlt_dec _ _) as [Y|]; [exact Y|].
    replace (h <? int 11000)%D with true in C by (vm_compute; reflexivity). discriminate C. }
  split; [|cbn [INR]; lra].
  assert (1 <= bpow radix2 52)%R by (change 1%R with (bpow radix2 0); apply bpow_le; lia).
  assert (16 <= bpow radix2 52)%R by (change 16%R with (bpow radix2 4); apply bpow_le; lia). lra.
Qed.

(** A glider towed high enough to glide over the finish: the height to be gained is negative,
    but the loop is entered all the same, glides past the finish and reads behind the last leg. *)
Theorem C97_direct_refuted : exists e t w min a, flying e plains t w min a /\
  (first_gain polar t (fst (start_point zero t a)) <? zero)%D = true /\
  forall fuel, estimate_flight (S fuel) e zero polar w t (int min) a = Undef.
Proof.
  set (w := Weather (int 1900) (int 4)). set (a := Tow (int 20000) (int 2)).
  assert (F : flight_data zero polar w (int 300) a) by (apply flight_doubles; split; apply dbl_int).
  exists (env_of a_root a_libm a_angle), plains_task, w, 300%Z, a. split; [apply plains_flying, F|]. split; [vm_compute; reflexivity|].
  intros fuel. rewrite (plains_plain w 300 a (S fuel) F). vm_compute. reflexivity.
Qed.
Print Assumptions C97_direct_refuted.

(** A glider towed a little less high descends while it circles, in negative time. *)
Theorem C97_backwards_refuted : exists e t w min a ls ln, flying e plains t w min a /\
  estimate_flight 1 e zero polar w t (int min) a = Ok ls /\ In ln ls /\ (l_minutes ln <? zero)%D = true.
Proof.
  set (w := Weather (int 1900) (int 4)). set (a := Tow (int 11300) (int 2)).
  assert (F : flight_data zero polar w (int 300) a) by (apply flight_doubles; split; apply dbl_int).
  exists (env_of a_root a_libm a_angle), plains_task, w, 300%Z, a. eexists _, _. split; [apply plains_flying, F|].
  rewrite (plains_plain w 300 a 1 F). split; [vm_compute; reflexivity|]. split; [right; right; left; reflexivity|]. vm_compute. reflexivity.
Qed.
Print Assumptions C97_backwards_refuted.

(** With the clouds as low as the circling height nothing is ever gained, and the loop does not
    end. *)
Lemma same_turn : forall sq s pos q g w t m h l1 l2, plain_glide_phase sq s pos g t m = Ok (q, l1) -> plain_circle s q g w t h = Ok (pos, h, l2) ->
  (zero <? h)%D = true -> forall k, plain_loop k sq s pos g w t m h = Stuck.
Proof.
  intros sq s pos q g w t m h l1 l2 G C H. induction k as [|k IH]; [reflexivity|]. cbn [plain_loop]. rewrite G. cbn [bind fst]. rewrite C. cbn [bind].
  rewrite H, IH. reflexivity.
Qed.
Definition low : weather := Weather (int 300) (int 4).
Definition towed : aircraft_tow := Tow (int 400) (int 2).
Definition a_square (x : spec_float) : spec_float := m_pow a_libm F64 x (int 2).
Definition gap : spec_float := Eval vm_compute in first_gain polar plains_task (fst (start_point zero plains_task towed)).
Definition no_line : line := Line zero zero zero zero zero zero.
Definition glided (p : flight_point) : flight_point * line :=
  match plain_glide_phase a_square zero p polar plains_task (int 300) with Ok x => x | _ => (p, no_line) end.
Definition circled (p : flight_point) : flight_point * spec_float * line :=
  match plain_circle zero p polar low plains_task gap with Ok x => x | _ => (p, gap, no_line) end.
Definition glide1 : flight_point * line := Eval vm_compute in glided (fst (start_point zero plains_task towed)).
Definition circle1 : flight_point * spec_float * line := Eval vm_compute in circled (fst glide1).
Definition glide2 : flight_point * line := Eval vm_compute in glided (fst (fst circle1)).
Definition circle2 : flight_point * spec_float * line := Eval vm_compute in circled (fst glide2).
Lemma low_glides : plain_glide_phase a_square zero (fst (start_point zero plains_task towed)) polar plains_task (int 300) = Ok glide1 /\
  plain_glide_phase a_square zero (fst (fst circle1)) polar plains_task (int 300) = Ok glide2.
Proof. split; vm_compute; reflexivity. Qed.
Lemma low_circles : plain_circle zero (fst glide1) polar low plains_task gap = Ok (fst (fst circle1), gap, snd circle1) /\
  plain_circle zero (fst glide2) polar low plains_task gap = Ok (fst (fst circle1), gap, snd circle2).
Proof. split; vm_compute; reflexivity. Qed.
Lemma low_loop : forall fuel, plain_loop fuel a_square zero (fst (start_point zero plains_task towed)) polar low plains_task (int 300) gap = Stuck.
Proof.
  intros [|k]; [reflexivity|]. cbn [plain_loop]. rewrite (proj1 low_glides). cbn [bind]. rewrite (proj1 low_circles). cbn [bind].
  replace (zero <? gap)%D with true by (vm_compute; reflexivity).
  rewrite (same_turn a_square zero (fst (fst circle1)) (fst glide2) polar low plains_task (int 300) gap (snd glide2) (snd circle2)); [reflexivity| | |reflexivity].
  - exact (proj2 low_glides).
  - exact (proj2 low_circles).
Qed.
Theorem C97_endless_refuted : exists e t w min a, flying e plains t w min a /\
  forall fuel, estimate_flight fuel e zero polar w t (int min) a = Stuck.
Proof.
  assert (F : flight_data zero polar low (int 300) towed) by (apply flight_doubles; split; apply dbl_int).
  exists (env_of a_root a_libm a_angle), plains_task, low, 300%Z, towed. split; [apply plains_flying, F|].
  intros fuel. rewrite (plains_plain low 300 towed fuel F). unfold plain_estimate. cbv zeta.
  replace (first_gain polar plains_task (fst (start_point zero plains_task towed))) with gap by (vm_compute; reflexivity).
  change (fun x => m_pow a_libm F64 x (int 2)) with a_square. now rewrite low_loop.
Qed.
Print Assumptions C97_endless_refuted.
