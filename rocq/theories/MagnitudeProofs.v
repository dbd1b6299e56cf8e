(** Magnitudes of units: good ratios are closed under the ratio operations, and
    products, quotients and inverses of dimensions multiply, divide and invert
    the magnitudes. *)

From Coq Require Import ZArith QArith Qpower String List Bool Lia Lqa Permutation.
From Verif Require Import Outcome CInt Ratio SpecRatio QTen RatioMaths RatioMathsProofs RatioProofs
  Pow Root RatioProofs2 RatioPowProofs FixedString TypeList Unit Downcast Dim DimOp SpecDim SpecUnit
  TypeListProofs StringProofs DimProofs DimOpProofs DimOpProofs2 QuantityCast Reference.
Import ListNotations.
Local Open Scope Z_scope.
Local Open Scope res_scope.

(** ** Good ratios *)

Lemma rval_pos : forall r, 0 < rden r -> ((0 < rval r)%Q <-> 0 < rnum r).
Proof.
  intros [n d e]; cbn [rnum rden]; intros D. unfold rval, frac; cbn [rnum rden rexp].
  pose proof (p10_pos e) as P.
  assert (I : (0 < / inject_Z d)%Q) by (apply Qinv_lt_0_compat; now rewrite <- (Zlt_Qlt 0)).
  split; intros H.
  - rewrite (Zlt_Qlt 0 n). change (inject_Z 0) with 0%Q. destruct (Qlt_le_dec 0 (inject_Z n)) as [L|L]; auto. exfalso.
    assert (X : (inject_Z n / inject_Z d * (10 # 1) ^ e <= 0)%Q).
    { unfold Qdiv. assert (Y : (inject_Z n * / inject_Z d <= 0)%Q) by nra. nra. }
    lra.
  - rewrite (Zlt_Qlt 0 n) in H. change (inject_Z 0) with 0%Q in H. unfold Qdiv. apply Qmult_lt_0_compat; auto. now apply Qmult_lt_0_compat.
Qed.

Lemma good_pos : forall r, ratio_good r -> (0 < rval r)%Q.
Proof. intros r ((D & _) & _ & N). now apply rval_pos. Qed.

Lemma good_nz : forall r, ratio_good r -> ~ (rval r == 0)%Q.
Proof. intros r G E. apply good_pos in G. lra. Qed.

Lemma good_intro : forall r, lowest r -> storable r -> (0 < rval r)%Q -> ratio_good r.
Proof. intros r L S P. split; auto. split; auto. apply rval_pos; auto. apply L. Qed.

Lemma rone_good : ratio_good rone.
Proof. split; [apply rone_lowest|split; [apply rone_storable|reflexivity]]. Qed.

Lemma rmul_good : forall a b c, ratio_good a -> ratio_good b -> rmul a b = Ok c ->
  (rval c == rval a * rval b)%Q /\ ratio_good c.
Proof.
  intros a b c Ga Gb H. destruct (rmul_sound _ _ _ (proj1 Ga) (proj1 Gb) H) as (V & L & S).
  split; auto. apply good_intro; auto. rewrite V. apply Qmult_lt_0_compat; now apply good_pos.
Qed.

Lemma rinv_good : forall a c, ratio_good a -> rinv a = Ok c ->
  (rval c == / rval a)%Q /\ ratio_good c.
Proof.
  intros a c Ga H. destruct (rinv_sound _ _ (proj1 Ga) H) as (_ & V & L & S).
  split; auto. apply good_intro; auto. rewrite V. now apply Qinv_lt_0_compat, good_pos.
Qed.

Lemma rdiv_good : forall a b c, ratio_good a -> ratio_good b -> rdiv a b = Ok c ->
  (rval c == rval a / rval b)%Q /\ ratio_good c.
Proof.
  intros a b c Ga Gb H. destruct (rdiv_sound _ _ _ (proj1 Ga) (proj1 Gb) H) as (_ & V & L & S).
  split; auto. apply good_intro; auto. rewrite V. unfold Qdiv.
  apply Qmult_lt_0_compat; [|apply Qinv_lt_0_compat]; now apply good_pos.
Qed.

Lemma rpow1_good : forall est k a c, ratio_good a -> rpow est k 1 a = Ok c ->
  (rval c == rval a ^ k)%Q /\ ratio_good c.
Proof.
  intros est k a c Ga H. rewrite <- (Z.mul_1_r k) in H.
  destruct (rpow_good _ _ _ _ _ (proj1 Ga) (proj1 (proj2 Ga)) H) as [L S].
  apply rpow_sound in H as (V & _); [|discriminate|apply Ga].
  split; auto. apply good_intro; auto. rewrite V. now apply Qpower_pos_lt, good_pos.
Qed.

Lemma common_good : forall a b c, ratio_good a -> ratio_good b -> common_ratio a b = Ok c ->
  ratio_good c /\ multiple_of (rval a) (rval c) /\ multiple_of (rval b) (rval c) /\
  (forall h, multiple_of (rval a) h -> multiple_of (rval b) h -> multiple_of (rval c) h).
Proof.
  intros a b c Ga Gb H.
  destruct Ga as (La & Sa & Na), Gb as (Lb & Sb & Nb).
  destruct (common_ratio_sound _ _ _ La Lb Sa Sb Na Nb H) as (L & S & P & Ma & Mb & M).
  split; [now apply good_intro|]. auto.
Qed.

(** ** Exponent lists *)

Definition entries (es : list bexp) : Prop :=
  Forall (fun e => half_int e /\ base_good (e_dim e)) es.

Lemma consolidate_entries : forall l r, dim_consolidate l = Ok r -> entries l ->
  (squared r == squared l)%Q /\ entries r.
Proof.
  intros l r H E. assert (X : (squared r == squared l)%Q /\ Forall half_int r).
  { destruct l as [|e l]; simpl in H.
    - inversion H; subst. split; [reflexivity|constructor].
    - now apply consolidate_squared. }
  destruct X as [X1 X2]. split; auto. unfold entries in *. rewrite Forall_forall in *.
  intros f Hf. split; auto. destruct (dim_consolidate_dims _ _ H f Hf) as (g & Hg & <-).
  now apply E.
Qed.

Lemma entries_perm : forall a b, Permutation a b -> entries a -> entries b.
Proof.
  intros a b P E. unfold entries in *. rewrite Forall_forall in *.
  intros e He. apply E. now apply (Permutation_in _ (Permutation_sym P)).
Qed.

Lemma downcast_entries : forall w es d, consistent w -> entries es -> downcast_dimension w es = Ok d ->
  (squared (exponents d) == squared es)%Q /\ entries (exponents d).
Proof.
  intros w es d [C _] E H. unfold downcast_dimension in H.
  destruct (downcast bexps_eq_dec (w_dims w) es) as [d'|] eqn:D.
  - inversion H; subst. apply downcast_in, C in D. rewrite D. split; [reflexivity|auto].
  - unfold mk_unknown_dimension, make_dimension in H.
    change (map _ es) with (as_recipe es) in H. rewrite unpack_as_recipe in H. simpl in H. unbind.
    simpl. pose proof (proj1 (type_list_sort_spec exponent_less less_ntrans less_asym es)) as P.
    destruct (consolidate_entries _ _ E0) as [X1 X2].
    { eapply entries_perm; [|exact E]. now apply Permutation_sym. }
    split; auto. rewrite X1. now apply squared_perm.
Qed.

Lemma to_dimension_entries : forall w es d, consistent w -> entries es -> to_dimension w es = Ok d ->
  (squared (exponents d) == squared es)%Q /\ entries (exponents d).
Proof.
  intros w es d C E H. unfold to_dimension in H. destruct es as [|e [|f l]];
    try (now apply (downcast_entries _ _ _ C E)).
  destruct (is_plus_one e) eqn:P; [|now apply (downcast_entries _ _ _ C E)].
  apply is_plus_one_iff in P. inversion H; subst d. cbn [exponents]. rewrite <- P. split; [reflexivity|auto].
Qed.

Lemma multiply_entries : forall w d1 d2 d, consistent w ->
  entries (exponents d1) -> entries (exponents d2) -> dimension_multiply w d1 d2 = Ok d ->
  (squared (exponents d) == squared (exponents d1) * squared (exponents d2))%Q /\ entries (exponents d).
Proof.
  intros w d1 d2 d C E1 E2 H.
  assert (X : forall l1 l2, entries l1 -> entries l2 -> merge_dimension w l1 l2 = Ok d ->
    (squared (exponents d) == squared l1 * squared l2)%Q /\ entries (exponents d)).
  { intros l1 l2 F1 F2 K. unfold merge_dimension in K. unbind.
    pose proof (merge_sorted_perm exponent_less l1 l2) as P.
    destruct (consolidate_entries _ _ E) as [Y1 Y2].
    { eapply entries_perm; [apply Permutation_sym; exact P|]. now apply Forall_app. }
    destruct (to_dimension_entries _ _ _ C Y2 K) as [Z1 Z2]. split; auto.
    rewrite Z1, Y1, (squared_perm _ _ P). apply squared_app. }
  destruct (dimension_multiply_shape w d1 d2) as [S|S]; rewrite S in H; [now apply X|].
  destruct (X _ _ E2 E1 H) as [Y Z]. split; auto. rewrite Y. ring.
Qed.

Lemma invert_entries : forall w d d', consistent w -> entries (exponents d) -> dim_invert w d = Ok d' ->
  (squared (exponents d') == / squared (exponents d))%Q /\ entries (exponents d').
Proof.
  intros w d d' C E H.
  assert (M : forall es i, entries es -> map_res exponent_invert es = Ok i ->
    i = map neg_exp es).
  { induction es as [|e es IH]; intros i F K; simpl in K; [now inversion K|].
    apply bind_ok in K as (x & K1 & K). apply bind_ok in K as (y & K2 & K). inversion K; subst i.
    inversion F; subst. unfold exponent_invert in K1. apply bind_ok in K1 as (z & K3 & K1).
    apply cneg_ok in K3 as [-> _]. inversion K1; subst x. cbn [map]. f_equal; auto. }
  assert (N : forall es, entries es -> entries (map neg_exp es) /\ (squared (map neg_exp es) == / squared es)%Q).
  { intros es F. split.
    - unfold entries in *. rewrite Forall_forall in *. intros f Hf. apply in_map_iff in Hf as (e & <- & He).
      destruct (F e He) as [[H1 [k H2]] B]. split; auto. split; cbn [neg_exp e_num e_den]; auto. exists (- k). lia.
    - apply squared_neg. unfold entries in F. rewrite Forall_forall in *. intros e He. now apply F. }
  assert (G : forall es i, entries es -> map_res exponent_invert es = Ok i -> downcast_dimension w i = Ok d' ->
    (squared (exponents d') == / squared es)%Q /\ entries (exponents d')).
  { intros es i F K D. apply M in K; auto. subst i. destruct (N es F) as [N1 N2].
    destruct (downcast_entries _ _ _ C N1 D) as [D1 D2]. split; auto. now rewrite D1. }
  destruct d as [b|nm es cu rc|ar es]; cbn [dim_invert] in H.
  - change (squared (exponents (DBase b))) with (squared [BExp b 1 1]).
    destruct (N [BExp b 1 1] E) as [N1 N2].
    destruct (downcast_entries _ _ _ C N1 H) as [D1 D2]. split; auto. now rewrite D1.
  - cbn [exponents] in *. destruct es as [|e [|f l]]; try (unbind; eapply G; eassumption).
    destruct (is_minus_one e) eqn:P; [|unbind; eapply G; eassumption].
    apply is_minus_one_iff in P. inversion H; subst d'. cbn [exponents].
    destruct (N _ E) as [N1 N2]. cbn [map] in N1, N2. rewrite P in N1, N2. unfold neg_exp in N1, N2.
    cbn [e_dim e_num e_den] in N1, N2. change (- -1) with 1 in *. rewrite P at 2. split; auto.
  - cbn [exponents] in *. destruct es as [|e [|f l]]; try (unbind; eapply G; eassumption).
    destruct (is_minus_one e) eqn:P; [|unbind; eapply G; eassumption].
    apply is_minus_one_iff in P. inversion H; subst d'. cbn [exponents].
    destruct (N _ E) as [N1 N2]. cbn [map] in N1, N2. rewrite P in N1, N2. unfold neg_exp in N1, N2.
    cbn [e_dim e_num e_den] in N1, N2. change (- -1) with 1 in *. rewrite P at 2. split; auto.
Qed.

Lemma divide_entries : forall w d1 d2 d, consistent w ->
  entries (exponents d1) -> entries (exponents d2) -> dimension_divide w d1 d2 = Ok d ->
  (squared (exponents d) == squared (exponents d1) / squared (exponents d2))%Q /\ entries (exponents d).
Proof.
  intros w d1 d2 d C E1 E2 H. unfold dimension_divide in H. unbind.
  destruct (invert_entries _ _ _ C E2 E) as [V Ei].
  destruct (multiply_entries _ _ _ _ C E1 Ei H) as [W Ed]. split; auto. rewrite W, V. reflexivity.
Qed.

(** ** Magnitudes *)

Lemma coherent_unique : forall es a b, coherent_magnitude es a -> coherent_magnitude es b -> (a == b)%Q.
Proof. intros es a b (_ & P1 & V1) (_ & P2 & V2). apply square_inj; auto. now rewrite V1, V2. Qed.

Lemma magnitude_unique : forall d u a b, magnitude d u a -> magnitude d u b -> (a == b)%Q.
Proof.
  intros d u a b (x & X & Vx) (y & Y & Vy). rewrite Vx, Vy. now rewrite (coherent_unique _ _ _ X Y).
Qed.

Lemma magnitude_ext : forall d u a b, (a == b)%Q -> magnitude d u a -> magnitude d u b.
Proof. intros d u a b E (x & X & V). exists x. split; auto. now rewrite <- E. Qed.

Lemma magnitude_pos : forall d u m, unit_good u -> unit_good (dimension_unit d) -> magnitude d u m -> (0 < m)%Q.
Proof.
  intros d u m Gu Gd (b & (_ & P & _) & V). rewrite V. apply good_pos in Gu, Gd.
  apply Qmult_lt_0_compat; auto. unfold Qdiv. apply Qmult_lt_0_compat; auto. now apply Qinv_lt_0_compat.
Qed.

(** The ratio the casts use is the magnitude. *)
Lemma quantity_ratio_magnitude : forall est d u r, dim_good d -> unit_good u ->
  Forall (exact_root est) (exponents d) -> quantity_ratio est d u = Ok r ->
  magnitude d u (rval r) /\ ratio_good r.
Proof.
  intros est d u r [Ge Gd] Gu X H.
  assert (D : forall b x, base_units_ratio est (exponents d) = Ok b -> rmul b (u_ratio u) = Ok x ->
            rdiv x (u_ratio (dimension_unit d)) = Ok r -> magnitude d u (rval r) /\ ratio_good r).
  { intros b x Eb Ex Er.
    destruct (base_units_ratio_spec est (exponents d) b) as (Hh & P & V & L & S); auto.
    { rewrite Forall_forall in *. intros e He. split; auto. now apply Ge. }
    assert (Gb : ratio_good b) by now apply good_intro.
    destruct (rmul_good _ _ _ Gb Gu Ex) as [Vx Gx].
    destruct (rdiv_good _ _ _ Gx Gd Er) as [Vr Gr].
    split; auto. exists (rval b). split; [split; auto|]. rewrite Vr, Vx. unfold Qdiv. ring. }
  unfold quantity_ratio in H. destruct d as [b|nm es cu rc|ar es]; [|unbind; eapply D; eassumption..].
  inversion H; subst r. split; auto. clear D H.
  exists (rval (base_ratio b)). split; [split; [|split]|].
  - constructor; [|constructor]. split; [discriminate|]. exists 2. reflexivity.
  - inversion Ge as [|? ? [_ B] _]; subst. now apply good_pos.
  - cbn [exponents squared e_dim]. rewrite Qmult_1_r. reflexivity.
  - cbn [dimension_unit]. change (u_ratio (bd_unit b)) with (base_ratio b). field.
    apply good_nz. exact Gd.
Qed.

Lemma downcast_unit_ratio : forall w d r u, consistent w -> downcast_unit w d r = Ok u ->
  u_ratio u = r /\ unit_of u d = true /\ 0 < rnum r /\ 0 < rden r.
Proof.
  intros w d r u [_ C] H. unfold downcast_unit in H. unbind.
  apply andb_true_iff in E as [E1 E2]. rewrite Z.ltb_lt in *.
  destruct (downcast ukey_eq_dec (w_units w) (r, u_ref (dimension_unit d))) as [u'|] eqn:D.
  - inversion H; subst. apply downcast_in, C in D as [D1 D2]. unfold unit_of. rewrite D2, String.eqb_refl. auto.
  - unfold scaled_unit in H. unbind. cbn. rewrite String.eqb_refl. auto.
Qed.

(** ** References *)

Lemma relative_good : forall d u r, unit_good u -> unit_good (dimension_unit d) ->
  relative_ratio d u = Ok r ->
  (rval r == rval (u_ratio u) / rval (u_ratio (dimension_unit d)))%Q /\ ratio_good r.
Proof. intros d u r Gu Gd H. now apply rdiv_good. Qed.

Lemma reference_multiply_magnitude : forall w d1 u1 d2 u2 d u m1 m2, consistent w ->
  dim_good d1 -> dim_good d2 -> unit_good u1 -> unit_good u2 -> unit_good (dimension_unit d) ->
  reference_multiply w (Reference d1 u1) (Reference d2 u2) = Ok (Reference d u) ->
  magnitude d1 u1 m1 -> magnitude d2 u2 m2 ->
  magnitude d u (m1 * m2) /\ dim_good d /\ unit_good u /\ unit_of u d = true /\
  dimension_multiply w d1 d2 = Ok d.
Proof.
  intros w d1 u1 d2 u2 d u m1 m2 C G1 G2 Gu1 Gu2 Gd H M1 M2.
  unfold reference_multiply, mk_reference in H. cbn [ref_dim ref_unit] in H.
  step H as x E. step H as x0 E0. step H as x1 E1. step H as x2 E2. step H as x3 E3. step H as x4 E4.
  step H as x5 E5. inversion H; subst x x4; clear H.
  destruct (multiply_entries _ _ _ _ C (proj1 G1) (proj1 G2) E) as [Sq En].
  apply relative_good in E0 as [V0 G0]; [|auto|apply G1].
  apply relative_good in E1 as [V1 G1']; [|auto|apply G2].
  destruct (rmul_good _ _ _ G0 G1' E2) as [V2 G2'].
  destruct (rmul_good _ _ _ G2' Gd E3) as [V3 G3'].
  destruct (downcast_unit_ratio _ _ _ _ C E4) as (Ru & Ou & _).
  split; [|split; [split; assumption|split; [unfold unit_good; now rewrite Ru|auto]]].
  destruct M1 as (b1 & (H1 & P1 & Q1) & W1), M2 as (b2 & (H2 & P2 & Q2) & W2).
  exists (b1 * b2)%Q. split; [split; [|split]|].
  - unfold entries in En. rewrite Forall_forall in *. intros e He. now apply En.
  - now apply Qmult_lt_0_compat.
  - rewrite Sq, Qmult_power, Q1, Q2. reflexivity.
  - rewrite Ru, V3, V2, V0, V1, W1, W2. field.
    repeat split; apply good_nz; auto; [apply G2|apply G1].
Qed.

Lemma reference_divide_magnitude : forall w d1 u1 d2 u2 d u m1 m2, consistent w ->
  dim_good d1 -> dim_good d2 -> unit_good u1 -> unit_good u2 -> unit_good (dimension_unit d) ->
  reference_divide w (Reference d1 u1) (Reference d2 u2) = Ok (Reference d u) ->
  magnitude d1 u1 m1 -> magnitude d2 u2 m2 ->
  magnitude d u (m1 / m2) /\ dim_good d /\ unit_good u /\ unit_of u d = true /\
  dimension_divide w d1 d2 = Ok d.
Proof.
  intros w d1 u1 d2 u2 d u m1 m2 C G1 G2 Gu1 Gu2 Gd H M1 M2.
  unfold reference_divide, mk_reference in H. cbn [ref_dim ref_unit] in H.
  step H as x E. step H as x0 E0. step H as x1 E1. step H as x2 E2. step H as x3 E3. step H as x4 E4.
  step H as x5 E5. inversion H; subst x x4; clear H.
  destruct (divide_entries _ _ _ _ C (proj1 G1) (proj1 G2) E) as [Sq En].
  apply relative_good in E0 as [V0 G0]; [|auto|apply G1].
  apply relative_good in E1 as [V1 G1']; [|auto|apply G2].
  destruct (rdiv_good _ _ _ G0 G1' E2) as [V2 G2'].
  destruct (rmul_good _ _ _ G2' Gd E3) as [V3 G3'].
  destruct (downcast_unit_ratio _ _ _ _ C E4) as (Ru & Ou & _).
  split; [|split; [split; assumption|split; [unfold unit_good; now rewrite Ru|auto]]].
  destruct M1 as (b1 & (H1 & P1 & Q1) & W1), M2 as (b2 & (H2 & P2 & Q2) & W2).
  exists (b1 / b2)%Q. split; [split; [|split]|].
  - unfold entries in En. rewrite Forall_forall in *. intros e He. now apply En.
  - unfold Qdiv. apply Qmult_lt_0_compat; auto. now apply Qinv_lt_0_compat.
  - rewrite Sq. unfold Qdiv. rewrite Qmult_power, Qinv_power, Q1, Q2. reflexivity.
  - rewrite Ru, V3, V2, V0, V1, W1, W2. field.
    repeat split; try (apply good_nz; auto; first [apply G2|apply G1]); try lra.
Qed.
