(** Theorems about [random.h] (C66). *)

From Coq Require Import ZArith QArith Reals String List Lia Lqa Bool SpecFloat.
From Verif Require Import Outcome CInt Root Ratio SpecRatio FixedString Unit Downcast Dim DimOp Equivalent
  SpecDim SpecUnit DimProofs Rep QuantityCast CommonQuantity Quantity SpecQuantity DimOpProofs MagnitudeProofs CastProofs
  QuantityProofs ChronoProofs SpecReal FloatProofs FloatCastProofs FloatAddProofs Random Samples Props_Quantity.
Import ListNotations.
Local Open Scope Z_scope.

(** * Specification: the base distribution alone *)

(** The first [n] numbers of the base distribution. *)
Fixpoint base_draws {S G : Type} (bd : base_dist S G) (n : nat) (s : S) (g : G) : list number * S * G :=
  match n with
  | O => ([], s, g)
  | Datatypes.S m =>
      let '(x, s', g') := b_draw bd s g in
      let '(xs, s'', g'') := base_draws bd m s' g' in
      (x :: xs, s'', g'')
  end.

(** Its numbers are values of the type [r]. *)
Definition yields {S G : Type} (bd : base_dist S G) (r : rep) : Prop :=
  forall s g, num_ok r (fst (fst (b_draw bd s g))) = true.
(** It keeps the parameters it was constructed with. *)
Definition keeps {S G : Type} (bd : base_dist S G) : Prop :=
  (forall ps, b_params bd (b_new bd ps) = ps) /\
  (forall s g, b_params bd (snd (fst (b_draw bd s g))) = b_params bd s).
(** It draws integers between its two parameters. *)
Definition between {S G : Type} (bd : base_dist S G) (r : ity) : Prop :=
  forall s g a b, b_params bd s = [NInt a; NInt b] -> in_range r a = true -> in_range r b = true -> a <= b ->
  exists x, fst (fst (b_draw bd s g)) = NInt x /\ a <= x <= b.

(** * C66: histories *)

(** Any number of draws: the quantities are the numbers of the base distribution with the unit
    of [Q], and both the distribution and the generator end in the same state. *)
Theorem C66_draws : forall (S G : Type) (bd : base_dist S G) n t s g, yields bd (q_rep t) ->
  d_draws bd n (Dist t s) g =
    (let '(xs, s', g') := base_draws bd n s g in Ok (map (Quantity t) xs, Dist t s', g')).
Proof.
  intros S G bd n t s g Y. revert s g. induction n as [|n IH]; intros s g; [reflexivity|].
  cbn [d_draws base_draws]. unfold d_draw. cbn [d_state d_type]. pose proof (Y s g) as K.
  destruct (b_draw bd s g) as [[x s'] g']. cbn [fst] in K. rewrite make_same by exact K. cbn [bind]. rewrite IH.
  destruct (base_draws bd n s' g') as [[xs s''] g'']. reflexivity.
Qed.
Print Assumptions C66_draws.

Lemma map_same : forall t xs, Forall (fun x => num_ok (q_rep t) x = true) xs ->
  map_res (q_make t (q_rep t)) xs = Ok (map (Quantity t) xs).
Proof.
  intros t xs F. induction F as [|x xs K F IH]; [reflexivity|]. cbn [map_res map]. rewrite make_same by exact K.
  cbn [bind]. rewrite IH. reflexivity.
Qed.

(** Parameters of the type [Q] are given back, after any number of draws. *)
Lemma keeps_draws : forall (S G : Type) (bd : base_dist S G) n s g, keeps bd ->
  b_params bd (snd (fst (base_draws bd n s g))) = b_params bd s.
Proof.
  intros S G bd n s g K. revert s g. induction n as [|n IH]; intros s g; [reflexivity|]. cbn [base_draws].
  pose proof (proj2 K s g) as E. destruct (b_draw bd s g) as [[x s'] g']. specialize (IH s' g').
  destruct (base_draws bd n s' g') as [[xs s''] g'']. cbn [fst snd] in *. congruence.
Qed.
Lemma to_same : forall est t q, q_type q = t -> q_to est t q = Ok q.
Proof.
  intros est t [u x] E. cbn [q_type] in E. subst u. unfold q_to, q_convert. cbn [q_type q_num].
  destruct (qtype_eq_dec t t); [reflexivity|contradiction].
Qed.
Lemma all_to_same : forall est t qs, Forall (fun q => q_type q = t) qs -> map_res (q_to est t) qs = Ok qs.
Proof.
  intros est t qs F. induction F as [|q qs E F IH]; [reflexivity|]. cbn [map_res]. rewrite to_same by exact E.
  cbn [bind]. rewrite IH. reflexivity.
Qed.
Lemma tag_numbers : forall t qs, Forall (fun q => q_type q = t) qs -> map (Quantity t) (map q_num qs) = qs.
Proof.
  intros t qs F. induction F as [|[u x] qs E F IH]; [reflexivity|]. cbn [map q_num q_type] in *. subst u. now rewrite IH.
Qed.

Theorem C66_parameters : forall (S G : Type) (bd : base_dist S G) est t ps n g d, keeps bd -> yields bd (q_rep t) ->
  Forall (fun q => q_type q = t /\ num_ok (q_rep t) (q_num q) = true) ps ->
  d_new bd est t ps = Ok d ->
  exists qs d' g', d_draws bd n d g = Ok (qs, d', g') /\ d_type d' = t /\ d_params bd d' = Ok ps.
Proof.
  intros S G bd est t ps n g d K Y F H. unfold d_new in H.
  assert (F1 : Forall (fun q => q_type q = t) ps) by (eapply Forall_impl; [|exact F]; intros q X; apply X).
  assert (F2 : Forall (fun x => num_ok (q_rep t) x = true) (map q_num ps)).
  { clear - F. induction F as [|q ps X F IH]; constructor; [apply X|exact IH]. }
  rewrite all_to_same in H by exact F1. cbn [bind] in H. inversion H; subst d.
  rewrite C66_draws by exact Y. pose proof (keeps_draws S G bd n (b_new bd (map q_num ps)) g K) as E.
  rewrite (proj1 K) in E. destruct (base_draws bd n _ g) as [[xs s'] g']. cbn [fst snd] in E.
  exists (map (Quantity t) xs), (Dist t s'), g'. split; [reflexivity|]. split; [reflexivity|].
  unfold d_params. cbn [d_type d_state]. rewrite E, map_same by exact F2. now rewrite tag_numbers.
Qed.
Print Assumptions C66_parameters.

(** * C66: values *)

(** A distribution over an interval, constructed from two quantities in any units that
    convert implicitly, draws only quantities between those two. *)
Theorem C66_range : forall (S G : Type) (bd : base_dist S G) est t m qa qb ia ib a b ma mb d n g qs d' g',
  keeps bd -> yields bd (q_rep t) -> between bd I64 ->
  sized est t m -> q_rep t = RInt I64 ->
  integral qa ia a -> integral qb ib b -> ia <> U64 -> ib <> U64 ->
  sized est (q_type qa) ma -> sized est (q_type qb) mb ->
  references_ok (q_type qa) t -> references_ok (q_type qb) t ->
  (inject_Z a * ma <= inject_Z b * mb)%Q ->
  d_new bd est t [qa; qb] = Ok d -> d_draws bd n d g = Ok (qs, d', g') ->
  length qs = n /\
  Forall (fun q => exists v, denotes q v /\ (inject_Z a * ma <= v <= inject_Z b * mb)%Q) qs.
Proof.
  intros S G bd est t m qa qb ia ib a b ma mb d n g qs d' g' K Y B Sz Rt (Ra & Na & Ia) (Rb & Nb & Ib) Ua Ub Sa Sb Fa Fb Le Hn Hd.
  unfold d_new in Hn. cbn [map_res] in Hn. step Hn as qs0 E0. step E0 as x Ex. step E0 as l El. step El as y Ey.
  cbn [bind] in El. inversion El; subst l. inversion E0; subst qs0. inversion Hn; subst d. cbn [map] in *. clear El E0 Hn.
  unfold q_to in Ex, Ey. step Ex as nx Enx. step Ey as ny Eny. rewrite Na in Enx. rewrite Nb in Eny.
  destruct (C20_int64 _ _ _ _ _ _ _ _ Sa Sz Fa Ra Ua Rt Ia Enx) as (za & -> & Ra' & Va).
  destruct (C20_int64 _ _ _ _ _ _ _ _ Sb Sz Fb Rb Ub Rt Ib Eny) as (zb & -> & Rb' & Vb).
  inversion Ex; subst x. inversion Ey; subst y. cbn [q_num] in *. clear Ex Ey Enx Eny.
  pose proof (sized_pos _ _ _ Sz) as Pm. unfold same_value in Va, Vb.
  assert (L : za <= zb).
  { rewrite Va, Vb in Le. apply injZ_le. apply (Qmult_le_r _ _ m); auto. }
  rewrite C66_draws in Hd by exact Y.
  assert (P : b_params bd (b_new bd [NInt za; NInt zb]) = [NInt za; NInt zb]) by apply K.
  revert g qs d' g' Hd P. generalize (b_new bd [NInt za; NInt zb]). induction n as [|n IH]; intros s g qs d' g' Hd P.
  - inversion Hd. split; [reflexivity|constructor].
  - cbn [base_draws] in Hd. destruct (B s g za zb P Ra' Rb' L) as (x & Ex & Bx). pose proof (proj2 K s g) as P'.
    destruct (b_draw bd s g) as [[x' s1] g1]. cbn [fst snd] in *. subst x'. rewrite P in P'.
    specialize (IH s1 g1). destruct (base_draws bd n s1 g1) as [[xs s2] g2].
    inversion Hd; subst. destruct (IH _ _ _ eq_refl P') as [Ln F]. split; [cbn; now rewrite Ln|]. cbn [map]. constructor; [|exact F].
    exists (inject_Z x * m)%Q. split; [exists x, m; split; [reflexivity|]; split; [apply Sz|reflexivity]|].
    rewrite Va, Vb. split; apply Qmult_le_compat_r; try (apply Qlt_le_weak; exact Pm); apply (proj1 (injZ_le _ _)); lia.
Qed.
Print Assumptions C66_range.

(** [min()] and [max()]: the bounds the base distribution states for its numbers, with the unit
    of [Q].  Every drawn quantity lies between them if every number of the base does. *)
Definition within_bounds {S G : Type} (bd : base_dist S G) (i : ity) : Prop :=
  forall s g, exists l h x, b_min bd s = NInt l /\ b_max bd s = NInt h /\ fst (fst (b_draw bd s g)) = NInt x /\
    in_range i l = true /\ in_range i h = true /\ in_range i x = true /\ l <= x <= h /\
    b_min bd (snd (fst (b_draw bd s g))) = NInt l /\ b_max bd (snd (fst (b_draw bd s g))) = NInt h.
Theorem C66_bounds : forall (S G : Type) (bd : base_dist S G) est t m i d n g qs d' g',
  within_bounds bd i -> sized est t m -> q_rep t = RInt i -> d_type d = t ->
  d_draws bd n d g = Ok (qs, d', g') ->
  exists lo hi vl vh, d_min bd d = Ok lo /\ d_max bd d = Ok hi /\ denotes lo vl /\ denotes hi vh /\
    Forall (fun q => exists v, denotes q v /\ (vl <= v <= vh)%Q) qs.
Proof.
  intros S G bd est t m i d n g qs d' g' B Sz R T H. pose proof (sized_pos _ _ _ Sz) as P. destruct d as [t0 s0]. cbn [d_type] in T. subst t0.
  assert (Y : yields bd (q_rep t)).
  { intros s g0. destruct (B s g0) as (l & h & x & _ & _ & -> & _ & _ & K & _). now rewrite R. }
  assert (D : forall z, denotes (Quantity t (NInt z)) (inject_Z z * m)).
  { intros z. exists z, m. split; [reflexivity|]. split; [apply Sz|reflexivity]. }
  destruct (B s0 g) as (l & h & x0 & El & Eh & _ & Il & Ih & _).
  exists (Quantity t (NInt l)), (Quantity t (NInt h)), (inject_Z l * m)%Q, (inject_Z h * m)%Q.
  unfold d_min, d_max. cbn [d_type d_state]. rewrite El, Eh, !make_same by (rewrite R; assumption).
  do 4 (split; [auto; fail|]). rewrite C66_draws in H by exact Y. clear x0 Il Ih.
  revert s0 g qs d' g' El Eh H. induction n as [|n IH]; intros s g qs d' g' El Eh H.
  - inversion H. constructor.
  - cbn [base_draws] in H. destruct (B s g) as (l' & h' & x & El' & Eh' & Ex & _ & _ & _ & Bx & Sl & Sh).
    assert (l' = l) by congruence. assert (h' = h) by congruence. subst l' h'.
    destruct (b_draw bd s g) as [[x' s1] g1]. cbn [fst snd] in *. subst x'.
    specialize (IH s1 g1). destruct (base_draws bd n s1 g1) as [[xs s2] g2].
    inversion H; subst. cbn [map]. constructor; [|exact (IH _ _ _ Sl Sh eq_refl)].
    exists (inject_Z x * m)%Q. split; [apply D|].
    split; apply Qmult_le_compat_r; try (apply Qlt_le_weak; exact P); apply (proj1 (injZ_le _ _)); lia.
Qed.
Print Assumptions C66_bounds.

(** * C66: piecewise distributions *)

(** Boundaries given as a list of [Q] are given back by [intervals()]. *)
Theorem C66_boundaries : forall est t bl, Forall (fun q => q_type q = t /\ num_ok (q_rep t) (q_num q) = true) bl ->
  exists xs, bl_qty_to_rep est t bl = Ok xs /\ d_intervals t xs = Ok bl.
Proof.
  intros est t bl F.
  assert (F1 : Forall (fun q => q_type q = t) bl) by (eapply Forall_impl; [|exact F]; intros q X; apply X).
  exists (map q_num bl). unfold bl_qty_to_rep, d_intervals. rewrite all_to_same by exact F1. split; [reflexivity|].
  rewrite map_same; [now rewrite tag_numbers|]. clear - F. induction F as [|q l X F IH]; constructor; [apply X|exact IH].
Qed.
Print Assumptions C66_boundaries.

(** The weights of a piecewise linear distribution are the values of the function at the boundaries,
    in their order. *)
Theorem C66_linear_weights : forall fw bl, length (fw_bl_pwl fw bl) = length bl /\
  forall i q, nth_error bl i = Some q -> nth_error (fw_bl_pwl fw bl) i = Some (fw q).
Proof.
  intros fw bl. split; [apply map_length|]. induction bl as [|b bl IH]; intros [|i] q H; cbn in *; try discriminate; [congruence|now apply IH].
Qed.
Print Assumptions C66_linear_weights.
Example C66_linear_ex : forall fw, fw_bl_pwl fw [Quantity (lengths metre I64) (NInt 0); Quantity (lengths metre I64) (NInt 2)] =
  [fw (Quantity (lengths metre I64) (NInt 0)); fw (Quantity (lengths metre I64) (NInt 2))].
Proof. reflexivity. Qed.

(** Boundaries given by iterators are not converted: 1 km and 2 km become 1 m and 2 m. *)
Theorem C66_iterators_refuted : forall est,
  q_to est (lengths metre I64) (Quantity (lengths kilometre I64) (NInt 1)) = Ok (Quantity (lengths metre I64) (NInt 1000)) /\
  i_qty_to_rep (lengths metre I64) [Quantity (lengths kilometre I64) (NInt 1); Quantity (lengths kilometre I64) (NInt 2)] =
    Ok [NInt 1; NInt 2] /\
  d_intervals (lengths metre I64) [NInt 1; NInt 2] =
    Ok [Quantity (lengths metre I64) (NInt 1); Quantity (lengths metre I64) (NInt 2)].
Proof. intros est. vm_compute. auto. Qed.
Print Assumptions C66_iterators_refuted.

(** The weights of a non-empty list of boundaries: one for each boundary, the sums of the
    function at neighbouring boundaries, and a zero. *)
Lemma pwc_sums : forall f w, Forall (fun x => valid_binary (fprec f) (femax f) x = true) w -> (0 < length w)%nat ->
  forall fuel k, (k < length w)%nat -> (length w - k <= fuel)%nat ->
  exists l, pwc_loop fuel (RFlt f) (map NFlt w) (Z.of_nat k) (Z.of_nat (length w) - 1) = Ok l /\
  length l = (length w - 1 - k)%nat /\
  forall i x y, nth_error w (k + i) = Some x -> nth_error w (k + i + 1) = Some y ->
    nth_error l i = Some (NFlt (SFadd (fprec f) (femax f) x y)).
Proof.
  intros f w F Lw. induction fuel as [|fuel IH]; intros k Hk Hf; [lia|]. cbn [pwc_loop].
  destruct (Z.ltb_spec (Z.of_nat k) (Z.of_nat (length w) - 1)) as [L|L].
  - replace (Z.of_nat k + 1) with (Z.of_nat (Datatypes.S k)) by lia. rewrite !Nat2Z.id, !nth_error_map.
    destruct (nth_error w k) as [x|] eqn:Ex; [|apply nth_error_None in Ex; lia].
    destruct (nth_error w (Datatypes.S k)) as [y|] eqn:Ey; [|apply nth_error_None in Ey; lia]. cbn [option_map].
    rewrite Forall_forall in F. pose proof (F x (nth_error_In _ _ Ex)) as Vx. pose proof (F y (nth_error_In _ _ Ey)) as Vy.
    assert (A : n_op OpAdd (RFlt f) (RFlt f) (NFlt x) (NFlt y) = Ok (NFlt (SFadd (fprec f) (femax f) x y))).
    { unfold n_op. assert (R : arith_rep (RFlt f) (RFlt f) = RFlt f) by (destruct f; reflexivity). rewrite R. cbn [n_convert bind].
      now rewrite !conv_same. }
    rewrite A. cbn [bind n_convert]. rewrite conv_same by now apply add_valid.
    destruct (IH (Datatypes.S k)) as (l & E & Ll & N); [lia|lia|]. rewrite E. cbn [bind].
    exists (NFlt (SFadd (fprec f) (femax f) x y) :: l). split; [reflexivity|]. split; [cbn [length]; lia|].
    intros [|i] x' y' E1 E2.
    + rewrite Nat.add_0_r in *. replace (k + 1)%nat with (Datatypes.S k) in E2 by lia. cbn. congruence.
    + cbn [nth_error]. apply N; [rewrite <- E1|rewrite <- E2]; f_equal; lia.
  - exists []. split; [reflexivity|]. split; [cbn; lia|]. intros i x y _ E2.
    assert (k + i + 1 < length w)%nat by (apply nth_error_Some; congruence). lia.
Qed.

Theorem C66_constant_weights : forall f t fw bl g, q_rep t = RFlt f -> bl <> [] -> Z.of_nat (length bl) <= 2 ^ 64 ->
  (forall q, In q bl -> fw q = NFlt (g q) /\ is_number f (g q)) ->
  exists l, fw_bl_pwc t fw bl = Ok l /\ length l = length bl /\ nth_error l (length bl - 1) = Some (NFlt (S754_zero false)) /\
  forall i a b, nth_error bl i = Some a -> nth_error bl (i + 1) = Some b ->
    exists s, nth_error l i = Some (NFlt s) /\
    ((Rabs (frnd f (fval (g a) + fval (g b))) < Raux.bpow Zaux.radix2 (femax f))%R ->
      is_number f s /\ fval s = frnd f (fval (g a) + fval (g b))).
Proof.
  intros f t fw bl g R Ne Len H. unfold fw_bl_pwc. rewrite R.
  assert (M : map fw bl = map NFlt (map g bl)).
  { rewrite map_map. apply map_ext_in. intros q I. apply (H q I). }
  assert (V : Forall (fun x => valid_binary (fprec f) (femax f) x = true) (map g bl)).
  { apply Forall_forall. intros x I. apply in_map_iff in I as (q & <- & I). apply (H q I). }
  assert (Lg : length (map g bl) = length bl) by apply map_length.
  assert (Lp : (0 < length bl)%nat) by (destruct bl; [contradiction|cbn; lia]).
  destruct (pwc_sums f (map g bl) V ltac:(lia) (pwc_fuel (map fw bl)) 0) as (l & E & Ll & N); [lia|unfold pwc_fuel; rewrite M, !map_length; lia|].
  rewrite wrap_id by (apply in_range_spec; change (imin U64) with 0; change (imax U64) with (2 ^ 64 - 1); lia).
  rewrite M in *. rewrite Lg in E, Ll. change (Z.of_nat 0) with 0 in E. rewrite E. cbn [bind n_convert].
  assert (Z0 : float_of_int f 0 = S754_zero false) by (destruct f; reflexivity). rewrite Z0.
  eexists. split; [reflexivity|]. split; [rewrite app_length; cbn [length]; lia|].
  split; [rewrite nth_error_app2 by lia; now replace (length bl - 1 - length l)%nat with 0%nat by lia|].
  intros i a b Ea Eb. exists (SFadd (fprec f) (femax f) (g a) (g b)).
  assert (i + 1 < length bl)%nat by (apply nth_error_Some; congruence).
  split.
  - rewrite nth_error_app1 by lia. apply N; cbn [Nat.add]; rewrite nth_error_map; [now rewrite Ea|now rewrite Eb].
  - apply add_rounds; [apply (H a)|apply (H b)]; eapply nth_error_In; eauto.
Qed.
Print Assumptions C66_constant_weights.

(** An empty list of boundaries, which the standard class accepts, is undefined: the bound of
    the loop wraps around. *)
Theorem C66_empty_refuted : forall t fw, fw_bl_pwc t fw [] = Undef.
Proof. reflexivity. Qed.
Print Assumptions C66_empty_refuted.

(** The standard weights are the values of the function halfway between the boundaries; those
    of the library are not proportional to them: for the square on 0 m, 2 m, 4 m they are
    4 and 20 instead of 1 and 9. *)
Definition metres (n : Z) : quantity := Quantity (QType (DBase dim_L) metre (RFlt F64)) (NFlt (float_of_int F64 n)).
Definition square (q : quantity) : number :=
  match q_num q with NFlt x => NFlt (SFmul (fprec F64) (femax F64) x x) | n => n end.
Theorem C66_midpoint_refuted :
  fw_bl_pwc (q_type (metres 0)) square [metres 0; metres 2; metres 4] =
    Ok (map (fun n => NFlt (float_of_int F64 n)) [4; 20; 0]) /\
  map square [metres 1; metres 3] = map (fun n => NFlt (float_of_int F64 n)) [1; 9] /\ 4 * 9 <> 20 * 1.
Proof. split; [vm_compute; reflexivity|]. split; [vm_compute; reflexivity|lia]. Qed.
Print Assumptions C66_midpoint_refuted.

(** * A concrete distribution *)

(** The next state of a small generator, scaled to the interval; the parameters as state. *)
Definition clamp (r : ity) (x : Z) : Z := Z.max (imin r) (Z.min (imax r) x).
Definition step_base : base_dist (list number) Z :=
  BaseDist (fun ps => ps) (fun s => s) (fun s => hd (NInt 0) s) (fun s => last s (NInt 0))
    (fun s g => let g' := (16807 * g) mod 2147483647 in
      (match s with [NInt a; NInt b] => NInt (clamp I64 (a + g' mod (b - a + 1))) | _ => NInt 0 end, s, g')).
Example C66_ex_keeps : keeps step_base /\ between step_base I64 /\ yields step_base (RInt I64).
Proof.
  split; [split; reflexivity|]. split.
  { intros s g a b E Ia Ib L. cbn in E. subst s. cbn [step_base b_draw fst].
    apply in_range_spec in Ia, Ib. pose proof (Z.mod_pos_bound ((16807 * g) mod 2147483647) (b - a + 1) ltac:(lia)) as M.
    eexists. split; [reflexivity|]. unfold clamp. lia. }
  intros s g. cbn [step_base b_draw fst].
  assert (C : forall x, in_range I64 (clamp I64 x) = true).
  { intros x. apply in_range_spec. unfold clamp. assert (imin I64 <= imax I64) by (vm_compute; discriminate). lia. }
  destruct s as [|[a|] [|[b|] [|? ?]]]; cbn [num_ok]; try reflexivity. apply C.
Qed.
Definition km_bounds : list quantity := [Quantity (lengths kilometre I64) (NInt 1); Quantity (lengths kilometre I64) (NInt 2)].
Example C66_ex : forall est, exists d, d_new step_base est (lengths metre I64) km_bounds = Ok d /\
  d_state d = [NInt 1000; NInt 2000] /\
  exists a b c g d', d_draws step_base 3 d 1 = Ok ([a; b; c], d', g) /\ q_num a <> q_num b.
Proof.
  intros est. exists (Dist (lengths metre I64) [NInt 1000; NInt 2000]).
  split; [vm_compute; reflexivity|]. split; [reflexivity|].
  do 5 eexists. split; [cbv; reflexivity|cbv; discriminate].
Qed.
(** A distribution whose bounds are its parameters, for [C66_bounds]. *)
Definition die : base_dist unit Z :=
  BaseDist (fun _ => tt) (fun _ => []) (fun _ => NInt 1) (fun _ => NInt 6)
    (fun s g => let g' := (16807 * g) mod 2147483647 in (NInt (1 + g' mod 6), s, g')).
Example C66_bounds_ex : within_bounds die I64 /\
  d_max die (Dist (lengths metre I64) tt) = Ok (Quantity (lengths metre I64) (NInt 6)) /\
  d_min die (Dist (lengths metre I64) tt) = Ok (Quantity (lengths metre I64) (NInt 1)).
Proof.
  split; [|split; reflexivity]. intros s g. exists 1, 6. eexists. pose proof (Z.mod_pos_bound ((16807 * g) mod 2147483647) 6 ltac:(lia)) as M.
  do 3 (split; [reflexivity|]). do 2 (split; [reflexivity|]).
  split; [apply in_range_spec; change (imin I64) with (- 2 ^ 63); change (imax I64) with (2 ^ 63 - 1); lia|].
  split; [lia|]. split; reflexivity.
Qed.
