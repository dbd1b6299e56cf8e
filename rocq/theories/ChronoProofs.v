(** Durations and time points as quantities and quantity points. *)

From Coq Require Import ZArith QArith String List Bool Lia Lqa SpecFloat.
From Verif Require Import Outcome CInt Root Ratio SpecRatio RatioMathsProofs RatioProofs RatioProofs2 RatioPowProofs FixedString Unit Downcast Dim DimOp Equivalent
  SpecDim SpecUnit Rep QuantityCast CommonQuantity Quantity SpecQuantity DimProofs DimOpProofs MagnitudeProofs CastProofs QuantityProofs
  QuantityProofs4 Point Chrono SpecReal FloatCastProofs.
Import ListNotations.
Local Open Scope Z_scope.
Local Open Scope res_scope.

(** The period of a duration type: a positive [std::ratio]. *)
Definition period_ok (p : dtype) : Prop := 0 < per_num p <= INTMAX_MAX /\ 0 < per_den p <= INTMAX_MAX.
Definition period (p : dtype) : Q := inject_Z (per_num p) / inject_Z (per_den p).

Lemma period_pos : forall p, period_ok p -> (0 < period p)%Q.
Proof.
  intros p [A B]. unfold period. apply Qmult_lt_0_compat; [|apply Qinv_lt_0_compat];
    change 0%Q with (inject_Z 0); rewrite <- Zlt_Qlt; lia.
Qed.

Lemma like_unit_ok : forall w p, consistent w -> period_ok p -> exists u, like_unit w p = Ok u /\
  unit_good u /\ (rval (u_ratio u) == period p)%Q /\ unit_of u (DBase si_dim_time) = true.
Proof.
  intros w p C P. pose proof (period_pos p P) as Pp. destruct P as [A B]. unfold like_unit.
  destruct (mk_ratio_total (per_num p) (per_den p) 0) as [r R]; try (unfold INTMAX_MIN, INTMAX_MAX in *; lia).
  rewrite R. cbn [bind]. pose proof (mk_ratio_sound _ _ _ _ R) as (_ & V & L).
  destruct (mk_ratio_good (per_num p) (per_den p) 0 r ltac:(vm_compute; split; discriminate) R) as [_ St].
  assert (E : (rval r == period p)%Q). { rewrite V. unfold frac, period. change ((10 # 1) ^ 0)%Q with 1%Q. ring. }
  assert (G : ratio_good r). { apply good_intro; auto. now rewrite E. }
  assert (K : unit_ratio_ok r = true).
  { destruct G as (G1 & _ & G2). destruct G1 as (G1 & _). unfold unit_ratio_ok. apply andb_true_iff. rewrite !Z.ltb_lt. lia. }
  assert (D : exists u, downcast_unit w (DBase si_dim_time) r = Ok u).
  { unfold downcast_unit. rewrite K. cbn [constrained bind]. destruct (downcast ukey_eq_dec (w_units w) _) as [u|]; [eauto|].
    unfold scaled_unit. rewrite K. cbn [constrained bind]. eauto. }
  destruct D as [u D]. exists u. split; [exact D|]. destruct (downcast_unit_ratio _ _ _ _ C D) as (X & Y & _).
  unfold unit_good. rewrite X. auto.
Qed.

Lemma si_time_good : base_good si_dim_time.
Proof. vm_compute. repeat split; congruence. Qed.

Lemma like_type_ok : forall est w p, consistent w -> period_ok p -> exists t, like_type w p = Ok t /\
  q_dim t = DBase si_dim_time /\ q_rep t = dur_rep p /\ sized est t (rval (u_ratio (q_unit t))) /\
  (rval (u_ratio (q_unit t)) == period p)%Q.
Proof.
  intros est w p C P. destruct (like_unit_ok w p C P) as (u & U & G & V & O). unfold like_type. rewrite U. cbn [bind].
  unfold mk_qtype. rewrite O. cbn [constrained bind]. eexists. split; [reflexivity|]. cbn [q_dim q_rep q_unit].
  split; [reflexivity|]. split; [reflexivity|]. split; [|exact V]. apply base_sized; auto. apply si_time_good.
Qed.

Lemma convert_same : forall r x, num_ok r x = true -> n_convert r x = Ok x.
Proof.
  intros [t|f] [z|v] H; try discriminate; cbn in *; [now rewrite wrap_id|]. now rewrite conv_same.
Qed.
Lemma make_same : forall t x, num_ok (q_rep t) x = true -> q_make t (q_rep t) x = Ok (Quantity t x).
Proof.
  intros t x H. unfold q_make. assert (S : safe_convertible (q_rep t) (q_rep t) = true) by (destruct (q_rep t); reflexivity).
  rewrite S. cbn [constrained bind]. now rewrite convert_same.
Qed.

(** The exponent of the ratio of a period is at least -18. *)
Lemma mk_ratio_exp : forall n d r, n <> 0 -> Z.abs d <= INTMAX_MAX -> mk_ratio n d 0 = Ok r -> -18 <= rexp r.
Proof.
  intros n d r Hn Ad H. unfold mk_ratio in H. inv_ok.
  destruct v0 as [[n' d'] e']. inv_ok. cbn [rexp].
  apply negb_true_iff, Z.eqb_neq in E.
  apply normalize_sound in E0; auto.
  destruct E0 as (kn & kd & Hkn & Hkd & He' & Nn & Nd & Mn & Md & _).
  assert (Hg : 0 < Z.gcd n d) by (apply gcd_pos_ne; auto).
  assert (P2 : 0 < 10 ^ kd) by (apply Z.pow_pos_nonneg; lia).
  assert (kd <= 18); [|lia]. destruct (Z.le_gt_cases kd 18) as [L|L]; auto. exfalso.
  assert (10 ^ 19 <= 10 ^ kd) by (apply Z.pow_le_mono_r; lia).
  pose proof max_lt_1e19 as M. assert (0 < Z.abs d) by lia.
  remember (10 ^ 19) as K eqn:EK. clear EK. remember (10 ^ kd) as W eqn:EW. clear EW. remember (Z.gcd n d) as g eqn:Eg. clear Eg.
  assert (Q : 0 < d' * g) by nia.
  assert (V : Z.abs d = (d' * g) * W) by (rewrite Nd; ring).
  clear - V Q H M Ad P2. nia.
Qed.

(** A duration converts to its own quantity type. *)
Lemma like_castable : forall est w p t, consistent w -> period_ok p -> like_type w p = Ok t ->
  safe_castable_to est t t = Ok true.
Proof.
  intros est w p t C P H. destruct (like_unit_ok w p C P) as (u & U & (L & St & Pn) & V & O).
  destruct (like_type_ok est w p C P) as (t' & H' & D & _). rewrite H' in H. inversion H; subst t'; clear H.
  assert (Eu : q_unit t = u).
  { unfold like_type in H'. rewrite U in H'. cbn [bind] in H'. unfold mk_qtype in H'. step H' as c E. now inversion H'. }
  assert (X : -18 <= rexp (u_ratio u)).
  { unfold like_unit in U. step U as r Er. destruct (downcast_unit_ratio _ _ _ _ C U) as (-> & _).
    destruct P as [A B]. apply (mk_ratio_exp (per_num (p)) (per_den p) r); [lia|lia|exact Er]. }
  unfold safe_castable_to, harmonic, quantity_ratio. rewrite D, Eu.
  assert (De : dim_equivalent (DBase si_dim_time) (DBase si_dim_time) = true) by reflexivity. rewrite De. cbn [negb].
  destruct (floating (q_rep t)); [reflexivity|]. cbn [bind].
  rewrite rdiv_same; auto; [lia|unfold INTMAX_MIN; lia].
Qed.

Lemma like_to_self : forall est w d t, consistent w -> period_ok (dur_type d) -> num_ok (dur_rep (dur_type d)) (dur_count d) = true ->
  like_type w (dur_type d) = Ok t -> q_from_duration est w t d = Ok (Quantity t (dur_count d)).
Proof.
  intros est w d t C P N H. destruct (like_type_ok est w _ C P) as (t' & H' & _ & R & _). rewrite H' in H. inversion H; subst t'; clear H.
  unfold q_from_duration. rewrite H'. cbn [bind]. rewrite (like_castable est w _ t C P H'). cbn [constrained bind].
  rewrite <- R in *. rewrite make_same by exact N. cbn [bind]. unfold q_to. cbn [q_type q_num].
  unfold q_convert. destruct (qtype_eq_dec t t); [reflexivity|contradiction].
Qed.

Lemma like_sized : forall est w p t, consistent w -> period_ok p -> like_type w p = Ok t ->
  q_rep t = dur_rep p /\ q_dim t = DBase si_dim_time /\ sized est t (period p).
Proof.
  intros est w p t C P H. destruct (like_type_ok est w _ C P) as (t' & H' & D & R & (A & B & E & M) & V). rewrite H' in H. inversion H; subst t'.
  split; auto. split; auto. split; auto. split; auto. split; auto. eapply magnitude_ext; eauto.
Qed.
