(** Tasks and phases of the glide computer, and the flight. *)

From Coq Require Import ZArith String List Bool Lia Reals Lra SpecFloat.
From Flocq Require Import Core IEEE754.BinarySingleNaN.
From Verif Require Import Outcome CInt Root Ratio Unit Downcast Dim DimOp Equivalent Rep Reference QuantityCast CommonQuantity
  Quantity Math Point Kind PointKind Chrono System Catalogue Includes Glide SpecGlide SpecReal FloatProofs FloatCastProofs FloatAddProofs FloatOrderProofs GlideProofs.
Import ListNotations.
Local Open Scope list_scope.
Local Open Scope res_scope.

(** ** Search in a vector *)

Lemma partitioned_count : forall bs i, partitioned bs = true ->
  nth_error bs i = if (i <? List.length bs)%nat then Some (i <? List.length (filter (fun b : bool => b) bs))%nat else None.
Proof.
  induction bs as [|[|] r IH]; intros i P.
  - now destruct i.
  - destruct i as [|i]; [reflexivity|]. cbn [nth_error filter List.length partitioned] in *. rewrite IH by exact P. reflexivity.
  - cbn [partitioned] in P. assert (N : filter (fun b : bool => b) r = []).
    { destruct (filter (fun b : bool => b) r) as [|x y] eqn:E; [reflexivity|].
      assert (X : In x (x :: y)) by now left. rewrite <- E in X. apply filter_In in X.
      assert (T : existsb (fun b => b) r = true) by (apply existsb_exists; exists x; exact X). now rewrite T in P. }
    cbn [filter]. rewrite N. cbn [List.length]. destruct i as [|i]; [reflexivity|]. cbn [nth_error].
    change (S i <? S (List.length r))%nat with (i <? List.length r)%nat.
    destruct (i <? List.length r)%nat eqn:L.
    + apply Nat.ltb_lt in L. destruct (nth_error r i) as [b|] eqn:E; [|apply nth_error_None in E; lia].
      destruct b; [|reflexivity]. exfalso. assert (In true (filter (fun b : bool => b) r)) as I.
      { apply filter_In. split; [now apply nth_error_In in E|reflexivity]. } now rewrite N in I.
    + apply Nat.ltb_ge in L. now apply nth_error_None.
Qed.
Lemma filter_le : forall (A : Type) (f : A -> bool) l, (List.length (filter f l) <= List.length l)%nat.
Proof. induction l as [|x r IH]; cbn; [lia|]. destruct (f x); cbn; lia. Qed.
Lemma halving_count : forall bs fuel first len, partitioned bs = true -> (len <= fuel)%nat -> (first + len <= List.length bs)%nat ->
  (first <= List.length (filter (fun b : bool => b) bs) <= first + len)%nat ->
  halving fuel bs first len = Ok (List.length (filter (fun b : bool => b) bs)).
Proof.
  intros bs fuel. induction fuel as [|k IH]; intros first len P F I C.
  - assert (len = 0)%nat as -> by lia. cbn. f_equal. lia.
  - destruct len as [|n]; [cbn; f_equal; lia|]. cbn [halving]. set (half := Nat.div2 (S n)).
    assert (H : (half < S n)%nat) by (apply Nat.lt_div2; lia).
    unfold at_index. rewrite partitioned_count by exact P.
    replace (first + half <? List.length bs)%nat with true by (symmetry; apply Nat.ltb_lt; lia). cbn [bind].
    destruct (first + half <? List.length (filter (fun b : bool => b) bs))%nat eqn:B.
    + apply Nat.ltb_lt in B. apply IH; try lia; exact P.
    + apply Nat.ltb_ge in B. apply IH; try lia; exact P.
Qed.

(** Adding a length that is not negative does not bring a sum below another number. *)
Lemma less_before_adding : forall s x d, is_double s -> is_double x -> is_double d ->
  (x <? zero)%D = false -> ((s + x) <? d)%D = true -> (s <? d)%D = true.
Proof.
  intros s x d Hs Hx Hd X L. destruct (B_of F64 s Hs) as [bs <-], (B_of F64 x Hx) as [bx <-], (B_of F64 d Hd) as [bd <-].
  rewrite (add_equiv F64) in L.
  change 1024%Z with (femax F64) in *. change 53%Z with (fprec F64) in *.
  destruct (is_finite bs) eqn:Fs; [destruct (is_finite bx) eqn:Fx|].
  - pose proof (Bplus_correct _ _ _ _ mode_NE bs bx Fs Fx) as C.
    assert (Xn : (0 <= B2R bx)%R).
    { assert (K : SFcompare (B2SF bx) (S754_zero false) = Some (Rcompare (B2R bx) 0%R)).
      { exact (Bcompare_correct (fprec F64) (femax F64) bx (B754_zero false) Fx eq_refl). }
      unfold SFltb, zero in X. rewrite K in X. destruct (Rcompare_spec (B2R bx) 0%R); try discriminate; lra. }
    destruct (Rlt_bool _ _) eqn:O in C.
    + destruct C as (C1 & C2 & _).
      assert (G : (B2R bs <= B2R (Bplus mode_NE bs bx))%R).
      { rewrite C1. rewrite <- (round_generic radix2 (SpecFloat.fexp (fprec F64) (femax F64)) (round_mode mode_NE) (B2R bs)) at 1 by apply generic_format_B2R.
        apply round_le; [apply fexp_correct; reflexivity|apply valid_rnd_round_mode|lra]. }
      destruct (is_finite bd) eqn:Fd.
      * unfold SFltb in *.
        rewrite (Bcompare_correct _ _ bs bd Fs Fd : SFcompare (B2SF bs) (B2SF bd) = _).
        rewrite (Bcompare_correct _ _ _ bd C2 Fd : SFcompare (B2SF _) (B2SF bd) = _) in L.
        destruct (Rcompare_spec (B2R (Bplus mode_NE bs bx)) (B2R bd)); try discriminate.
        rewrite Rcompare_Lt; [reflexivity|lra].
      * destruct bd as [|[|]| |]; try discriminate; destruct (Bplus mode_NE bs bx); try discriminate; destruct bs; try discriminate; reflexivity.
    + destruct C as (C1 & C2). rewrite C1 in L. destruct (Bsign bs) eqn:Sg.
      * exfalso. assert (Z : B2R bx = 0%R).
        { destruct bx as [| | |sx mx ex B]; try discriminate; [reflexivity|]. cbn in C2, Xn. subst sx. exfalso.
          apply Rle_not_lt in Xn. apply Xn. now apply F2R_lt_0. }
        rewrite Z, Rplus_0_r, round_generic in O by (try apply valid_rnd_round_mode; apply generic_format_B2R).
        rewrite Rlt_bool_true in O; [discriminate|apply abs_B2R_lt_emax].
      * exfalso. destruct bd as [|[|]| |]; discriminate.
  - destruct bx as [|[|]| |]; try discriminate; destruct bs; try discriminate; destruct bd as [|[|]| |]; discriminate.
  - destruct bs as [|[|]| |]; try discriminate; destruct bx as [[|]|[|]| |[|]]; try discriminate; destruct bd as [|[|]| |]; try discriminate; reflexivity.
Qed.

Definition not_negative (x : spec_float) : Prop := (x <? zero)%D = false.
Lemma running_not_less : forall l s d, is_double s -> is_double d -> Forall (fun x => is_double x /\ not_negative x) l ->
  (s <? d)%D = false -> existsb (fun b => b) (map (fun x => x <? d)%D (running s l)) = false.
Proof.
  induction l as [|x r IH]; intros s d S D F N; [reflexivity|]. inversion F as [|y z [X P] F']; subst. cbn [running map existsb].
  assert (Q : ((s + x) <? d)%D = false).
  { destruct ((s + x) <? d)%D eqn:E; [|reflexivity]. rewrite (less_before_adding s x d) in N; auto. }
  rewrite Q. cbn. apply IH; auto with dbl.
Qed.
Lemma running_partitioned : forall l s d, is_double s -> is_double d -> Forall (fun x => is_double x /\ not_negative x) l ->
  partitioned (map (fun x => x <? d)%D (running s l)) = true.
Proof.
  induction l as [|x r IH]; intros s d S D F; [reflexivity|]. inversion F as [|y z [X P] F']; subst. cbn [running map partitioned].
  destruct ((s + x) <? d)%D eqn:E; [apply IH; auto with dbl|]. rewrite running_not_less; auto with dbl.
Qed.
Lemma totals_partitioned : forall l d, is_double d -> Forall (fun x => is_double x /\ not_negative x) l ->
  partitioned (map (fun x => x <? d)%D (running_totals l)) = true.
Proof.
  intros [|x r] d D F; [reflexivity|]. inversion F as [|y z [X P] F']; subst. cbn [running_totals map partitioned].
  destruct (x <? d)%D eqn:E; [now apply running_partitioned|]. now rewrite running_not_less.
Qed.

(** ** Tasks *)
Lemma consecutive : forall (B : Type) (f : waypoint -> waypoint -> res B) a r,
  transform2 f (removelast (a :: r)) r =
  match r with [] => Ok [] | b :: r' => z <- f a b; y <- transform2 f (removelast (b :: r')) r'; Ok (z :: y) end.
Proof. intros B f a [|b r]; reflexivity. Qed.
Lemma map_res_ok : forall (A B : Type) (f : A -> res B) (g : A -> B) l, (forall x, f x = Ok (g x)) -> map_res f l = Ok (map g l).
Proof. intros A B f g l H. induction l as [|x r IH]; cbn [map_res map]; [reflexivity|]. now rewrite H, IH. Qed.
Lemma last_rev : forall (A : Type) (l : list A) d, match rev l with [] => d | x :: _ => x end = last l d.
Proof.
  intros A l d. induction l as [|x l IH] using rev_ind; [reflexivity|].
  rewrite rev_app_distr, last_last. reflexivity.
Qed.

(** What holds of a task. *)
Record proper (angle : position -> position -> spec_float) (t : task) : Prop := Proper {
  p_points : doubles_waypoints (waypoints t);
  p_some : waypoints t <> [];
  p_legs : legs t = plain_legs angle (waypoints t);
  p_totals : totals t = running_totals (map leg_length (legs t));
  p_length : length_ t = last (totals t) zero }.

Lemma plain_task_proper : forall angle l t, doubles_waypoints l -> plain_task angle l = Ok t -> proper angle t /\ waypoints t = l.
Proof.
  intros angle [|a [|b r]] t D H; try discriminate. cbn [plain_task] in H. injection H as <-.
  split; [|reflexivity]. constructor; try reflexivity; try exact D; discriminate.
Qed.

Lemma running_length : forall l s, List.length (running s l) = List.length l.
Proof. induction l as [|x r IH]; intros s; cbn; [reflexivity|]. now rewrite IH. Qed.
Lemma totals_length : forall l, List.length (running_totals l) = List.length l.
Proof. intros [|x r]; cbn; [reflexivity|]. now rewrite running_length. Qed.
Lemma running_dbl : forall l s, is_double s -> Forall is_double l -> Forall is_double (running s l).
Proof. induction l as [|x r IH]; intros s S F; cbn; constructor; inversion F; subst; auto with dbl. Qed.
Lemma totals_dbl : forall l, Forall is_double l -> Forall is_double (running_totals l).
Proof. intros [|x r] F; cbn; [constructor|]. inversion F; subst. constructor; auto. now apply running_dbl. Qed.
Lemma last_dbl : forall l, Forall is_double l -> is_double (last l zero).
Proof. intros l F. induction F as [|x [|y r] X F IH]; cbn [last]; auto with dbl. Qed.

Section Flight.
Variables (est : estimate) (l : libm) (angle : position -> position -> spec_float).
Hypothesis root_1 : iroot est 2 1 = Ok 1%Z.
Hypothesis pow_dbl : forall x y, is_double (m_pow l F64 x y).
Hypothesis angle_dbl : forall p q, is_double (angle p q).
Let e := env_of est l angle.
Let sq (x : spec_float) := m_pow l F64 x (int 2).

Lemma legs_plain : forall wpts, wpts <> [] -> make_legs e wpts = Ok (plain_legs angle wpts).
Proof using angle_dbl.
  intros [|a r] N; [now elim N|]. clear N. unfold make_legs. cbn [tl]. revert a. induction r as [|b r IH]; intros a; [reflexivity|].
  rewrite consecutive. unfold mk_leg at 1. rewrite (sphere_plain est l angle angle_dbl _ _ : spherical_distance e _ _ = _). cbn [bind]. rewrite IH. reflexivity.
Qed.
Lemma scan_plain : forall ls s, is_double s -> Forall (fun x => is_double (leg_length x)) ls ->
  scan e s ls = Ok (running s (map leg_length ls)).
Proof using.
  induction ls as [|x r IH]; intros s S F; [reflexivity|]. inversion F as [|y z X F']; subst. cbn [scan running map].
  change (g_est e) with est. unfold e. rewrite add_distance by auto. cbn [bind]. rewrite to_distance_plain. cbn [bind].
  fold e. rewrite IH by auto with dbl. reflexivity.
Qed.
Lemma plain_legs_dbl : forall wpts, Forall (fun x => is_double (leg_length x)) (plain_legs angle wpts).
Proof using angle_dbl.
  intros [|a r]; [constructor|]. revert a. induction r as [|b r IH]; intros a; [constructor|].
  cbn [plain_legs]. constructor; [cbn [leg_length]; auto with dbl|apply IH].
Qed.
Lemma plain_legs_ends : forall wpts, doubles_waypoints wpts ->
  Forall (fun x => is_double (wp_alt (leg_begin x)) /\ is_double (wp_alt (leg_end x))) (plain_legs angle wpts).
Proof using.
  intros [|a r] D; [constructor|]. revert a D. induction r as [|b r IH]; intros a D; [constructor|].
  cbn [plain_legs]. constructor; [split; apply D; cbn; auto|]. apply IH. intros p I. apply D. now right.
Qed.
Lemma task_plain : forall wpts, make_task e wpts = plain_task angle wpts.
Proof using angle_dbl.
  intros wpts. destruct wpts as [|a r]; [reflexivity|]. unfold make_task. rewrite legs_plain by discriminate. cbn [bind].
  destruct r as [|b r]; [reflexivity|]. pose proof (plain_legs_dbl (a :: b :: r)) as F.
  assert (T : make_leg_total_distances e (plain_legs angle (a :: b :: r)) = Ok (running_totals (map leg_length (plain_legs angle (a :: b :: r))))).
  { destruct (plain_legs angle (a :: b :: r)) as [|x ls]; [reflexivity|]. inversion F as [|y z X F']; subst.
    cbn [make_leg_total_distances map running_totals]. now rewrite scan_plain. }
  rewrite T. cbn [bind plain_task]. rewrite <- last_rev.
  set (ts := running_totals _). assert (N : ts <> []) by (unfold ts; cbn; discriminate).
  destruct (rev ts) as [|d q] eqn:R; [|reflexivity]. apply (f_equal (@rev _)) in R. rewrite rev_involutive in R. now elim N.
Qed.

Section Task.
Variable t : task.
Hypothesis P : proper angle t.
Hypothesis angle_pos : forall p q, not_negative (int 6371 * angle p q)%D.

Lemma leg_lengths : Forall is_double (map leg_length (legs t)).
Proof using P angle_dbl.
  rewrite (p_legs _ _ P). pose proof (plain_legs_dbl (waypoints t)) as F. rewrite Forall_map. exact F.
Qed.
Lemma totals_doubles : Forall is_double (totals t).
Proof using P angle_dbl. rewrite (p_totals _ _ P). apply totals_dbl, leg_lengths. Qed.
Lemma length_dbl : is_double (length_ t).
Proof using P angle_dbl. rewrite (p_length _ _ P). apply last_dbl, totals_doubles. Qed.
Lemma finish_dbl : is_double (finish_alt t).
Proof using P.
  unfold finish_alt. destruct (rev (waypoints t)) as [|f r] eqn:R; [apply dbl_zero|]. apply (p_points _ _ P). apply in_rev. rewrite R. now left.
Qed.
Lemma finish_plain : exists f, get_finish t = Ok f /\ wp_alt f = finish_alt t.
Proof using P.
  unfold get_finish, finish_alt. destruct (rev (waypoints t)) as [|f r] eqn:R; [|now exists f].
  apply (f_equal (@rev _)) in R. rewrite rev_involutive in R. now elim (p_some _ _ P).
Qed.
Lemma offset_plain : forall i, (i < List.length (legs t))%nat -> get_leg_dist_offset t i = Ok (leg_start t i) /\ is_double (leg_start t i).
Proof using P angle_dbl.
  intros [|k] L; [split; [reflexivity|apply dbl_zero]|]. cbn [get_leg_dist_offset leg_start].
  assert (N : (k < List.length (totals t))%nat) by (rewrite (p_totals _ _ P), totals_length, map_length; lia).
  unfold at_index. rewrite (nth_error_nth' (totals t) zero N). split; [reflexivity|].
  pose proof totals_doubles as F. rewrite Forall_forall in F. apply F. now apply nth_In.
Qed.
Lemma nth_leg : forall i x, nth_error (legs t) i = Some x ->
  is_double (wp_alt (leg_begin x)) /\ is_double (wp_alt (leg_end x)) /\ is_double (leg_length x) /\ (i < List.length (legs t))%nat.
Proof using P angle_dbl.
  intros i x N. assert (I : In x (plain_legs angle (waypoints t))) by (rewrite <- (p_legs _ _ P); now apply nth_error_In in N).
  pose proof (plain_legs_dbl (waypoints t)) as F. pose proof (plain_legs_ends (waypoints t) (p_points _ _ P)) as G.
  rewrite Forall_forall in F, G. destruct (G x I). split; [assumption|split; [assumption|split; [now apply F|]]]. apply nth_error_Some. congruence.
Qed.
Lemma terrain_plain : forall pos, doubles_point pos -> terrain_level_alt e t pos = plain_terrain t pos.
Proof using P angle_dbl.
  intros pos (_ & _ & D). unfold terrain_level_alt, plain_terrain, at_index.
  destruct (nth_error (legs t) (leg_idx pos)) as [x|] eqn:N; [|reflexivity]. cbn [bind].
  destruct (nth_leg _ _ N) as (B & E & L & I). destruct (offset_plain _ I) as [O Od].
  rewrite O. rewrite <- (terrain_numbers est l angle _ _ _ _ _ B E D Od L). reflexivity.
Qed.
Lemma terrain_dbl : forall pos g, doubles_point pos -> plain_terrain t pos = Ok g -> is_double g.
Proof using P angle_dbl.
  intros pos g (_ & _ & D) H. unfold plain_terrain in H. destruct (nth_error (legs t) (leg_idx pos)) as [x|] eqn:N; [|discriminate].
  destruct (nth_leg _ _ N) as (B & E & L & I). destruct (offset_plain _ I) as [O Od]. injection H as <-. auto 8 with dbl.
Qed.
Lemma index_plain : forall d, is_double d -> get_leg_index e t d = Ok (leg_at t d).
Proof using P angle_dbl angle_pos.
  intros d D. unfold get_leg_index, lower_bound.
  rewrite (map_res_ok _ _ _ (fun x => x <? d)%D) by (intros x; unfold e; apply less_distance). cbn [bind].
  assert (Q : partitioned (map (fun x => x <? d)%D (totals t)) = true).
  { rewrite (p_totals _ _ P). apply totals_partitioned; auto. rewrite (p_legs _ _ P). generalize (waypoints t). intros [|a r]; [constructor|].
    revert a. induction r as [|b r IH]; intros a; [constructor|]. cbn [plain_legs map leg_length].
    constructor; [split; [auto with dbl|apply angle_pos]|apply IH]. }
  rewrite Q. rewrite <- (map_length (fun x => x <? d)%D (totals t)) at 2.
  rewrite halving_count; auto.
  - unfold leg_at. clear Q. f_equal. induction (totals t) as [|x r IH]; [reflexivity|]. cbn [map filter]. destruct (x <? d)%D; cbn [List.length]; auto.
  - now rewrite map_length.
  - split; [lia|]. apply filter_le.
Qed.
Lemma glide_plain : forall pos g m h, doubles_point pos -> doubles_polar g -> is_double m -> is_double h ->
  glide_distance e pos g t m h = Ok (plain_glide pos g t m h).
Proof using P angle_dbl.
  intros pos [v c] m h (_ & A & D) (V & C) M H. cbn [po_v po_climb] in *. unfold glide_distance, plain_glide. cbn [po_v po_climb].
  destruct finish_plain as (f & F & <-). pose proof finish_dbl as Fd. pose proof length_dbl as L.
  rewrite F. assert (W : wp_alt f = finish_alt t) by (destruct finish_plain as (f' & F' & W); congruence). rewrite <- W in Fd.
  rewrite <- (glide_numbers est l angle _ v c _ _ _ _ _ L V C H M A Fd D). reflexivity.
Qed.
Lemma print_plain : forall s p q, is_double s -> doubles_point p -> doubles_point q -> print e s p q = Ok (plain_line s p q).
Proof using.
  intros s p q S (Tp & Ap & Dp) (Tq & Aq & Dq). unfold print. unfold e at 1 2. rewrite !minutes_plain by auto. cbn [bind]. fold e.
  change (g_est e) with est. unfold e. rewrite sub_distance by auto. cbn [bind]. rewrite diff_altitude by auto. reflexivity.
Qed.
Lemma tow_plain : forall s p a, is_double s -> doubles_point p -> doubles_tow a -> tow e s p a = Ok (plain_tow s p a).
Proof using.
  intros s p a S (Tp & Ap & Dp) (H & R). unfold tow.
  pose proof (climb_time est l angle _ _ H R) as C. fold e in C.
  change (g_est e) with est. destruct (k_over_k est (g_world e) (g_kinds e) _ _) as [q| | | |]; try discriminate. cbn [bind] in C |- *.
  rewrite C. cbn [bind]. unfold e. rewrite later_plain by auto with dbl. cbn [bind]. rewrite higher_plain by auto. cbn [bind]. fold e.
  rewrite print_plain; [reflexivity|auto| |]; unfold doubles_point; cbn [ts alt dist]; auto 8 with dbl.
Qed.
Lemma slant_time : forall d h g, is_double d -> is_double h -> doubles_polar g ->
  (x <- length_3d e (v_distance e d) (v_height e h); gliding_time e x g) = Ok (plain_time sq (po_v g) d h) /\ is_double (plain_time sq (po_v g) d h).
Proof using root_1 pow_dbl.
  intros d h [v c] D H (V & C). cbn [po_v] in *. unfold e. rewrite slant_plain by auto. cbn [bind]. fold sq.
  assert (Q : is_double (SFsqrt 53 1024 (sq d * int 1000000 + sq h) * (int 1 / int 1000))%D) by (unfold sq; auto 12 with dbl).
  split; [|unfold plain_time; auto with dbl]. exact (time_numbers est l angle _ _ Q V).
Qed.
Lemma glide_phase_plain : forall s pos g m, is_double s -> doubles_point pos -> doubles_polar g -> is_double m ->
  glide e s pos g t m = plain_glide_phase sq s pos g t m /\
  forall x, plain_glide_phase sq s pos g t m = Ok x -> doubles_point (fst x).
Proof using root_1 pow_dbl P angle_dbl angle_pos.
  intros s pos g m S Dp G M. unfold glide, plain_glide_phase. rewrite terrain_plain by exact Dp.
  destruct (plain_terrain t pos) as [gr| | | |] eqn:T; try (split; [reflexivity|discriminate]). cbn [bind].
  pose proof (terrain_dbl _ _ Dp T) as Gd. rewrite glide_plain by auto. cbn [bind].
  destruct Dp as (Tp & Ap & Dd). pose proof finish_dbl as Fd. pose proof length_dbl as Ld.
  assert (X : is_double (plain_glide pos g t m gr)) by (destruct G; unfold plain_glide; auto 12 with dbl).
  set (d := plain_glide pos g t m gr) in *. change (g_est e) with est. unfold e.
  rewrite add_distance by auto. cbn [bind]. rewrite to_distance_plain. cbn [bind]. rewrite add_altitude by auto. cbn [bind].
  rewrite diff_altitude by auto with dbl. cbn [bind]. fold e.
  destruct (slant_time d (alt pos - (gr + m))%D g) as [E Ed]; auto with dbl.
  destruct (length_3d e (v_distance e d) _) as [q| | | |]; try discriminate. cbn [bind] in E |- *. rewrite E. cbn [bind].
  unfold e. rewrite later_plain by auto. cbn [bind]. rewrite higher_plain by auto. cbn [bind]. fold e.
  rewrite index_plain by auto with dbl. cbn [bind].
  assert (N : forall i, doubles_point (Flight (ts pos + plain_time sq (po_v g) d (alt pos - (gr + m)))%D (gr + m)%D i (dist pos + d)%D))
    by (intros i; unfold doubles_point; cbn [ts alt dist]; auto with dbl).
  rewrite print_plain; [|auto|exact (conj Tp (conj Ap Dd))|apply N]. cbn [bind]. split; [reflexivity|]. intros x [= <-]. apply N.
Qed.
Lemma circle_plain : forall s pos g w h, is_double s -> doubles_point pos -> doubles_polar g -> doubles_weather w -> is_double h ->
  circle e s pos g w t h = plain_circle s pos g w t h /\
  forall x, plain_circle s pos g w t h = Ok x -> doubles_point (fst (fst x)) /\ is_double (snd (fst x)).
Proof using P angle_dbl.
  intros s pos g w h S Dp (V & C) (B & R) H. unfold circle, plain_circle. rewrite terrain_plain by exact Dp.
  destruct (plain_terrain t pos) as [gr| | | |] eqn:T; try (split; [reflexivity|discriminate]). cbn [bind].
  pose proof (terrain_dbl _ _ Dp T) as Gd. destruct Dp as (Tp & Ap & Dd).
  unfold e. rewrite agl_plain by auto. cbn [bind]. change (g_est (env_of est l angle)) with est.
  rewrite sub_height by auto with dbl. cbn [bind]. rewrite min_plain. cbn [bind]. rewrite to_height_plain. cbn [bind].
  fold (climbed t w pos gr h). assert (K : is_double (climbed t w pos gr h)) by (unfold climbed; destruct (_ <? _)%D; auto with dbl).
  set (c := climbed t w pos gr h) in *.
  pose proof (rate_plain est l angle _ _ R C) as Q. destruct (k_add est _ _ _) as [q| | | |]; try discriminate. cbn [bind] in Q |- *.
  rewrite Q. cbn [bind]. clear Q q.
  assert (RC : is_double (thermal_strength w + po_climb g)%D) by auto with dbl.
  pose proof (climb_time est l angle _ _ K RC) as Q. destruct (k_over_k est _ _ _ _) as [q| | | |]; try discriminate.
  cbn [bind] in Q |- *. rewrite Q. cbn [bind]. clear Q q.
  rewrite later_plain by auto with dbl. cbn [bind]. rewrite higher_plain by auto. cbn [bind].
  pose proof (less_gain est l angle _ _ H K) as Q. destruct (k_act est _ _ _) as [q| | | |]; try discriminate. cbn [bind] in Q |- *.
  rewrite Q. cbn [bind]. clear Q q. fold e.
  assert (N : doubles_point (Flight (ts pos + c / (thermal_strength w + po_climb g))%D (alt pos + c)%D (leg_idx pos) (dist pos)))
    by (unfold doubles_point; cbn [ts alt dist]; auto with dbl).
  rewrite print_plain; [|auto|exact (conj Tp (conj Ap Dd))|exact N]. cbn [bind]. split; [reflexivity|]. intros x [= <-]. cbn [fst snd]. split; [exact N|auto with dbl].
Qed.
Lemma final_plain : forall s pos g, is_double s -> doubles_point pos -> doubles_polar g ->
  final_glide e s pos g t = Ok (plain_final sq s pos g t).
Proof using root_1 pow_dbl P angle_dbl.
  intros s pos g S (Tp & Ap & Dd) G. unfold final_glide, plain_final. pose proof finish_dbl as Fd. pose proof length_dbl as Ld.
  destruct finish_plain as (f & F & W). rewrite F. change (g_est e) with est. unfold e.
  rewrite sub_distance by auto. cbn [bind]. rewrite W. rewrite diff_altitude by auto. cbn [bind]. fold e.
  destruct (slant_time (length_ t - dist pos)%D (alt pos - finish_alt t)%D g) as [E Ed]; auto with dbl.
  destruct (length_3d e _ _) as [q| | | |]; try discriminate. cbn [bind] in E |- *. rewrite E. cbn [bind].
  unfold e. rewrite later_plain by auto. cbn [bind]. rewrite add_distance by auto with dbl. cbn [bind]. rewrite to_distance_plain. cbn [bind]. fold e.
  rewrite print_plain; [reflexivity|auto|exact (conj Tp (conj Ap Dd))|unfold doubles_point; cbn [ts alt dist]; auto with dbl].
Qed.
Lemma loop_plain : forall fuel s pos g w m h, is_double s -> doubles_point pos -> doubles_polar g -> doubles_weather w -> is_double m -> is_double h ->
  legs_loop fuel e s pos g w t m h = plain_loop fuel sq s pos g w t m h /\
  forall x, plain_loop fuel sq s pos g w t m h = Ok x -> doubles_point (fst x).
Proof using root_1 pow_dbl P angle_dbl angle_pos.
  induction fuel as [|k IH]; intros s pos g w m h S Dp G W M H; [split; [reflexivity|discriminate]|].
  cbn [legs_loop plain_loop]. destruct (glide_phase_plain s pos g m S Dp G M) as [E N]. rewrite E. clear E.
  destruct (plain_glide_phase sq s pos g t m) as [[p1 l1]| | | |]; try (split; [reflexivity|discriminate]). cbn [bind fst snd].
  specialize (N _ eq_refl). cbn [fst] in N.
  destruct (circle_plain s p1 g w h S N G W H) as [E Q]. rewrite E. clear E.
  destruct (plain_circle s p1 g w t h) as [[[p2 h2] l2]| | | |]; try (split; [reflexivity|discriminate]). cbn [bind fst snd].
  destruct (Q _ eq_refl) as [P2 H2]. cbn [fst snd] in P2, H2. unfold e. rewrite less_height. cbn [bind]. fold e. fold zero.
  destruct (zero <? h2)%D.
  - destruct (IH s p2 g w m h2 S P2 G W M H2) as [E R]. rewrite E. clear E.
    destruct (plain_loop k sq s p2 g w t m h2) as [[p3 l3]| | | |]; try (split; [reflexivity|discriminate]). cbn [bind fst snd].
    split; [reflexivity|]. intros x [= <-]. exact (R _ eq_refl).
  - split; [reflexivity|]. intros x [= <-]. exact P2.
Qed.
Lemma start_plain : takeoff = fun s t => x <- get_start t; Ok (Flight s (wp_alt x) 0 zero).
Proof using. reflexivity. Qed.
Lemma estimate_plain : forall fuel s g w m a, is_double s -> doubles_polar g -> doubles_weather w -> is_double m -> doubles_tow a ->
  estimate_flight fuel e s g w t m a = plain_estimate fuel sq s g w t m a.
Proof using root_1 pow_dbl P angle_dbl angle_pos.
  intros fuel s g w m a S G W M A. unfold estimate_flight, plain_estimate, start_point. rewrite start_plain. unfold get_start, at_index.
  destruct (waypoints t) as [|s0 r] eqn:Wp; [now elim (p_some _ _ P)|]. cbn [nth_error bind].
  assert (A0 : is_double (wp_alt s0)) by (apply (p_points _ _ P); rewrite Wp; now left).
  set (p0 := Flight s (wp_alt s0) 0 zero). assert (D0 : doubles_point p0) by (unfold doubles_point, p0; cbn [ts alt dist]; auto with dbl).
  rewrite tow_plain by auto. cbn [bind]. set (x := plain_tow s p0 a).
  assert (Dx : doubles_point (fst x)) by (destruct A; unfold x, plain_tow, p0, doubles_point; cbn [ts alt dist fst]; auto with dbl).
  pose proof finish_dbl as Fd. pose proof length_dbl as Ld. destruct finish_plain as (f & F & Wf). rewrite F. cbn [bind]. rewrite Wf.
  destruct g as [v c]. pose proof G as (V & C). cbn [po_v po_climb] in V, C.
  pose proof (final_alt est l angle _ _ _ _ Ld V C Fd) as E. fold e in E. change (g_est e) with est.
  destruct (glide_ratio e (Polar v c)) as [q| | | |]; try discriminate. cbn [bind] in E |- *.
  destruct (q_over (g_world e) _ q) as [q2| | | |]; try discriminate. cbn [bind] in E |- *.
  destruct (k_construct est (t_height e) q2) as [q3| | | |]; try discriminate. cbn [bind] in E |- *.
  destruct (pk_add est (g_world e) (g_pkinds e) _ q3) as [q4| | | |]; try discriminate. cbn [bind] in E |- *.
  rewrite E. cbn [bind]. clear E q q2 q3 q4. pose proof Dx as (_ & Ax & _). unfold e. rewrite diff_altitude by auto 8 with dbl. cbn [bind].
  rewrite to_height_plain. cbn [bind]. fold e.
  change ((finish_alt t + length_ t / (v / - c) * int 3600) - alt (fst x))%D with (first_gain (Polar v c) t (fst x)).
  assert (Gd : is_double (first_gain (Polar v c) t (fst x))) by (unfold first_gain; auto 8 with dbl).
  destruct (loop_plain fuel s (fst x) (Polar v c) w m _ S Dx G W M Gd) as [E N]. rewrite E. clear E.
  destruct (plain_loop fuel sq s (fst x) (Polar v c) w t m _) as [[p1 l1]| | | |]; try reflexivity. cbn [bind fst snd].
  specialize (N _ eq_refl). cbn [fst] in N. now rewrite final_plain.
Qed.
End Task.
End Flight.
