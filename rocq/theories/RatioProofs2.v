(** Proofs about inverse, division, integrality, common_ratio. *)

From Coq Require Import ZArith QArith Qpower Qfield Lia Bool Znumtheory.
From Verif Require Import Outcome CInt RatioMaths Pow Root Ratio SpecRatio QTen RatioMathsProofs RatioProofs.
Local Open Scope Z_scope.
Local Open Scope res_scope.

(** ** Inverse and division *)

Lemma rinv_sound : forall r i, lowest r -> rinv r = Ok i ->
  rnum r <> 0 /\ (rval i == / rval r)%Q /\ lowest i /\ storable i.
Proof.
  intros r i L H. unfold rinv in H. inv_ok. apply cneg_ok in E. destruct E as [-> R].
  pose proof (mk_ratio_storable _ _ _ _ ltac:(apply in_range_I64; exact R) K) as St.
  apply mk_ratio_sound in K. destruct K as (Hn & V & Li).
  split; [exact Hn|]. split; [|auto].
  rewrite V. apply frac_inv; auto. destruct L; lia.
Qed.

Lemma lowest_swap : forall n d e, lowest (Ratio n d e) -> n <> 0 ->
  lowest (Ratio (Z.sgn n * d) (Z.abs n) (- e)).
Proof.
  intros n d e (P & G & Md & Z0 & Zn) Hn. unfold lowest; cbn [rnum rden rexp] in *.
  assert (M : forall x y, Z.abs x = Z.abs y -> x mod 10 <> 0 -> y mod 10 <> 0).
  { intros x y A B C. apply B. rewrite Z.mod_divide in * by lia.
    apply Z.divide_abs_r. rewrite A. apply Z.divide_abs_r. exact C. }
  assert (As : Z.abs (Z.sgn n) = 1) by (destruct n; simpl; lia).
  repeat split.
  - lia.
  - rewrite Z.gcd_abs_r. rewrite <- Z.gcd_abs_l, Z.abs_mul, As, Z.mul_1_l, Z.gcd_abs_l.
    now rewrite Z.gcd_comm.
  - apply (M n); [lia|]. auto.
  - intros C. apply Z.mul_eq_0 in C. destruct C; lia.
  - intros _. apply (M d); [|auto]. rewrite Z.abs_mul, As. lia.
Qed.

Lemma mk_ratio_sign : forall n d e, n <> 0 -> d <> 0 -> Z.abs n <= INTMAX_MAX -> Z.abs d <= INTMAX_MAX ->
  mk_ratio n d e = mk_ratio (Z.sgn d * n) (Z.abs d) e.
Proof.
  intros n d e Hn Hd An Ad. unfold mk_ratio.
  assert (As : Z.abs (Z.sgn d) = 1) by (destruct d; simpl; lia).
  destruct (Z.eqb_spec d 0); [contradiction|]. destruct (Z.eqb_spec (Z.abs d) 0); [lia|].
  cbn [negb expects bind].
  rewrite !normalize_shape; auto; try lia.
  - destruct (Z.ltb_spec (Z.abs d) 0); [lia|].
    rewrite Z.abs_involutive, Z.gcd_abs_r, Z.mul_1_r.
    replace (Z.gcd (Z.sgn d * n) d) with (Z.gcd n d)
      by (rewrite <- (Z.gcd_abs_l (Z.sgn d * n)), Z.abs_mul, As, Z.mul_1_l, Z.gcd_abs_l; reflexivity).
    replace (n * (if d <? 0 then -1 else 1)) with (Z.sgn d * n); [reflexivity|].
    destruct (Z.ltb_spec d 0); destruct d; simpl Z.sgn; lia.
Qed.

(** The reciprocal explicitly: swap, move the sign, negate the exponent. *)
Lemma rinv_explicit : forall n d e, lowest (Ratio n d e) -> storable (Ratio n d e) ->
  n <> 0 -> e <> INTMAX_MIN ->
  rinv (Ratio n d e) = Ok (Ratio (Z.sgn n * d) (Z.abs n) (- e)).
Proof.
  intros n d e L St Hn He. pose proof L as (P & _). destruct St as (An & Ad & Ae).
  cbn [rnum rden rexp] in *. unfold rinv; cbn [rnum rden rexp].
  unfold cneg. rewrite arith_in_range
    by (apply in_range_I64; unfold INTMAX_MIN, INTMAX_MAX in *; lia). cbn [bind].
  rewrite mk_ratio_sign by (auto; lia).
  apply (mk_ratio_lowest (Ratio (Z.sgn n * d) (Z.abs n) (- e))).
  - apply lowest_swap; auto.
  - unfold storable; cbn [rnum rden rexp].
    rewrite Z.abs_mul. replace (Z.abs (Z.sgn n)) with 1 by (destruct n; simpl; lia).
    unfold INTMAX_MIN, INTMAX_MAX in *; lia.
Qed.

Lemma rinv_involutive : forall r i, lowest r -> storable r -> rinv r = Ok i -> rinv i = Ok r.
Proof.
  intros [n d e] i L St H. pose proof (rinv_sound _ _ L H) as (Hn & _ & Li & Si).
  cbn [rnum] in Hn.
  assert (He : e <> INTMAX_MIN).
  { intros ->. unfold rinv in H; cbn [rexp] in H. unfold cneg, arith in H; cbn [isigned I64] in H.
    change (in_range I64 (- INTMAX_MIN)) with false in H. discriminate. }
  rewrite rinv_explicit in H by auto. inv_ok.
  pose proof L as (P & _); cbn [rden] in P.
  assert (S1 : Z.sgn (Z.sgn n * d) = Z.sgn n) by (rewrite Z.sgn_mul, Z.sgn_sgn; destruct d; simpl; lia).
  destruct St as (An & Ad & Ae); cbn [rnum rden rexp] in *.
  rewrite rinv_explicit; auto.
  - f_equal. rewrite S1. f_equal.
    + rewrite Z.mul_comm. apply Z.abs_sgn.
    + rewrite Z.abs_mul. replace (Z.abs (Z.sgn n)) with 1 by (destruct n; simpl; lia). lia.
    + lia.
  - apply Z.neq_mul_0; split; [destruct n; simpl; lia|lia].
  - unfold INTMAX_MIN, INTMAX_MAX in *; lia.
Qed.

Lemma rinv_zero : forall r, lowest r -> storable r -> rnum r = 0 -> rinv r = Contract.
Proof.
  intros [n d e] (_ & _ & _ & Z0 & _) _ Hn. cbn [rnum rden rexp] in *. subst.
  rewrite Z0 by auto. reflexivity.
Qed.

Lemma rdiv_sound : forall l r p, lowest l -> lowest r -> rdiv l r = Ok p ->
  rnum r <> 0 /\ (rval p == rval l / rval r)%Q /\ lowest p /\ storable p.
Proof.
  intros l r p Ll Lr H. unfold rdiv in H. inv_ok.
  apply rinv_sound in E; auto. destruct E as (Hn & V & Li & Si).
  apply rmul_sound in K; auto. destruct K as (Vp & Lp & Sp).
  split; [exact Hn|]. split; [|auto]. rewrite Vp, V. reflexivity.
Qed.

Lemma rdiv_zero : forall l r, lowest r -> storable r -> rnum r = 0 -> rdiv l r = Contract.
Proof. intros l r L S H. unfold rdiv. rewrite rinv_zero by auto. reflexivity. Qed.

(** ** Unit element, cancellation *)

Definition rone : ratio := Ratio 1 1 0.

Lemma rone_mk : mk_ratio 1 1 0 = Ok rone.
Proof. reflexivity. Qed.

Lemma rone_lowest : lowest rone.
Proof. unfold lowest, rone; cbn [rnum rden rexp]; repeat split; try lia; discriminate. Qed.

Lemma rone_storable : storable rone.
Proof. unfold storable, rone, INTMAX_MAX, INTMAX_MIN; cbn; lia. Qed.

Lemma rmul_one_r : forall r, lowest r -> storable r -> rmul r rone = Ok r.
Proof.
  intros r L St. pose proof L as (P & G & _). pose proof St as (An & Ad & Ae).
  rewrite rmul_unfold by (auto using rone_storable; unfold rone; cbn [rden]; lia).
  cbn [rone rnum rden rexp]. cbv zeta.
  rewrite Z.gcd_1_r, Z.gcd_1_l, !Z.quot_1_r.
  rewrite !safe_multiply_complete by (rewrite ?Z.mul_1_r; auto; unfold INTMAX_MAX; simpl; lia).
  cbn [bind]. rewrite !Z.mul_1_r. unfold cadd. rewrite Z.add_0_r.
  rewrite arith_in_range by (apply in_range_I64; lia). cbn [bind].
  apply mk_ratio_lowest; auto.
Qed.

Lemma rmul_one_l : forall r, lowest r -> storable r -> rmul rone r = Ok r.
Proof.
  intros r L St. apply rmul_comm_ok; auto using rone_storable, rmul_one_r.
  - destruct L; lia.
  - cbn; lia.
Qed.

Lemma quot_same_abs : forall n, n <> 0 -> Z.quot n (Z.abs n) = Z.sgn n.
Proof.
  intros n H. apply (Z.mul_reg_r _ _ (Z.abs n)); [lia|].
  rewrite quot_exact; [|lia|apply Z.divide_abs_l, Z.divide_refl].
  rewrite Z.mul_comm. symmetry. apply Z.abs_sgn.
Qed.

Lemma rdiv_same : forall r, lowest r -> storable r -> rnum r <> 0 -> rexp r <> INTMAX_MIN ->
  rdiv r r = Ok rone.
Proof.
  intros [n d e] L St Hn He. cbn [rnum rexp] in *. unfold rdiv.
  rewrite rinv_explicit by auto. cbn [bind].
  pose proof L as (P & _); cbn [rden] in P. pose proof St as (An & Ad & Ae); cbn [rnum rden rexp] in *.
  assert (As : Z.abs (Z.sgn n) = 1) by (destruct n; simpl; lia).
  assert (S2 : Z.sgn n * Z.sgn n = 1) by (destruct n; simpl; lia).
  rewrite rmul_unfold; auto.
  2:{ unfold storable; cbn [rnum rden rexp]. rewrite Z.abs_mul, As.
      unfold INTMAX_MIN, INTMAX_MAX in *; lia. }
  2,3: cbn [rden]; lia.
  cbn [rnum rden rexp]. cbv zeta.
  rewrite Z.gcd_abs_r, Z.gcd_diag.
  replace (Z.gcd (Z.sgn n * d) d) with d
    by (rewrite <- Z.gcd_abs_l, Z.abs_mul, As, Z.mul_1_l, Z.gcd_abs_l, Z.gcd_diag; lia).
  rewrite quot_same_abs by auto. rewrite Z.quot_mul by lia. rewrite !Z.quot_same by lia.
  rewrite !safe_multiply_complete by (rewrite ?Z.abs_mul, ?As; unfold INTMAX_MAX; simpl; lia).
  cbn [bind]. rewrite S2. unfold cadd. rewrite Z.add_opp_diag_r. reflexivity.
Qed.

(** ** is_integral *)

Lemma is_integral_spec : forall r, lowest r -> storable r -> 0 < rnum r ->
  exists b, is_integral r = Ok b /\ (b = true <-> is_int (rval r)).
Proof.
  intros [n d e] (P & G & Md & Z0 & Zn) (An & Ad & Ae) Hn. cbn [rnum rden rexp] in *.
  unfold is_integral; cbn [rnum rden rexp].
  destruct (Z.ltb_spec e 0) as [He|He].
  - exists false. split; auto. split; [discriminate|].
    intros [z Hz]. exfalso. unfold rval in Hz; cbn [rnum rden rexp] in Hz.
    apply (Zn ltac:(lia)). apply Z.mod_divide; [lia|].
    assert (X : (frac n d e == frac (z * 10 ^ (- e)) 1 e)%Q).
    { rewrite Hz. rewrite frac_num10 by lia. replace (e + - e) with 0 by lia.
      unfold frac. rewrite p10_0. change (inject_Z 1) with 1%Q. field. }
    apply frac_eq_iff in X; try lia.
    rewrite Z.mul_1_r in X. rewrite X.
    exists (z * 10 ^ (- e - 1) * d).
    replace (- e) with (- e - 1 + 1) at 1 by lia.
    rewrite Z.pow_add_r, Z.pow_1_r by lia. ring.
  - rewrite gcdpow_spec by lia. cbn [bind]. eexists; split; [reflexivity|].
    rewrite Z.eqb_eq. unfold rval; cbn [rnum rden rexp].
    rewrite Z.gcd_comm, <- Z.divide_gcd_iff by lia. split.
    + intros [z Hz]. exists z.
      transitivity (frac (n * 10 ^ e) d 0).
      * rewrite frac_num10 by lia. reflexivity.
      * rewrite Hz. rewrite <- (Z.mul_1_l d) at 2. rewrite frac_scale by lia.
        unfold frac. rewrite p10_0. change (inject_Z 1) with 1%Q. field.
    + intros [z Hz]. exists z.
      assert (X : (frac (n * 10 ^ e) d 0 == frac z 1 0)%Q).
      { rewrite frac_num10 by lia. replace (0 + e) with e by lia. rewrite Hz.
        unfold frac. rewrite p10_0. change (inject_Z 1) with 1%Q. field. }
      apply frac_eq_iff in X; lia.
Qed.

Lemma is_integral_nonpos : forall r, rnum r <= 0 -> 0 <= rexp r -> is_integral r = Contract.
Proof.
  intros r Hn He. unfold is_integral. destruct (Z.ltb_spec (rexp r) 0); [lia|].
  unfold gcdpow. replace (0 <? rnum r) with false by (symmetry; apply Z.ltb_ge; lia). reflexivity.
Qed.

(** ** common_ratio *)

Lemma cdiv_max_ok : forall n q, 0 < n -> cdiv I64 INTMAX_MAX n = Ok q -> q = INTMAX_MAX / n.
Proof.
  intros n q Hn H. apply cdiv_ok in H. destruct H as (_ & -> & _).
  apply Z.quot_div_nonneg; unfold INTMAX_MAX; lia.
Qed.

Lemma guard_iff : forall n d, 0 < n -> (d < INTMAX_MAX / n <-> (d + 1) * n <= INTMAX_MAX).
Proof.
  intros n d Hn. pose proof (Z.div_mod INTMAX_MAX n ltac:(lia)).
  pose proof (Z.mod_pos_bound INTMAX_MAX n Hn). split; intros; nia.
Qed.

Lemma gcd_frac_ordered_sound : forall n1 d1 e1 n2 d2 e2 n d e,
  0 < n1 <= INTMAX_MAX -> 0 < d1 <= INTMAX_MAX -> 0 < n2 <= INTMAX_MAX -> 0 < d2 <= INTMAX_MAX ->
  gcd_frac_ordered n1 d1 e1 n2 d2 e2 = Ok (n, d, e) ->
  e = e2 /\ e2 <= e1 /\ 0 < n /\ 0 < d /\
  n * (d1 * d2) = d * Z.gcd (n1 * d2 * 10 ^ (e1 - e2)) (n2 * d1).
Proof.
  intros n1 d1 e1 n2 d2 e2 n d e Hn1 Hd1 Hn2 Hd2 H. unfold gcd_frac_ordered in H.
  inv_ok.
  match goal with H : gcdpow _ _ _ = Ok _ |- _ => pose proof (gcdpow_ok _ _ _ _ H) as (Px & Pe & Py) end.
  repeat match goal with
         | H : cmul I64 _ _ = Ok _ |- _ => apply cmul_ok in H; destruct H as [-> ?]
         | H : csub I64 _ _ = Ok _ |- _ => apply csub_ok in H; destruct H as [-> ?]
         end.
  repeat match goal with H : in_range I64 _ = true |- _ => apply in_range_I64 in H end.
  match goal with H : gcdpow _ _ _ = Ok _ |- _ => rewrite gcdpow_spec in H by lia; inv_ok end.
  rename e into e2.
  set (G := Z.gcd (n1 * d2 * 10 ^ (e1 - e2)) (n2 * d1)) in *.
  assert (HG : 0 < G) by (apply gcd_pos_ne; lia).
  match goal with H : cgcd _ _ = Ok _ |- _ => apply cgcd_ok in H; destruct H as (-> & _ & _) end.
  assert (Hg : 0 < Z.gcd G (d1 * d2)) by (apply gcd_pos_ne; lia).
  repeat match goal with
         | H : cdiv I64 G _ = Ok _ |- _ => apply cdiv_ok in H; destruct H as (_ & -> & _)
         | H : cdiv I64 (_ * _) _ = Ok _ |- _ => apply cdiv_ok in H; destruct H as (_ & -> & _)
         end.
  assert (Q1 : Z.quot G (Z.gcd G (d1 * d2)) * Z.gcd G (d1 * d2) = G)
    by (apply quot_exact; [lia|apply Z.gcd_divide_l]).
  assert (Q2 : Z.quot (d1 * d2) (Z.gcd G (d1 * d2)) * Z.gcd G (d1 * d2) = d1 * d2)
    by (apply quot_exact; [lia|apply Z.gcd_divide_r]).
  set (g := Z.gcd G (d1 * d2)) in *.
  set (x := Z.quot G g) in *. set (y := Z.quot (d1 * d2) g) in *.
  split; [reflexivity|]. split; [lia|].
  assert (0 < d1 * d2) by nia.
  split; [nia|]. split; [nia|].
  rewrite <- Q2, <- Q1. ring.
Qed.

(** The value computed: the gcd over a common denominator. *)
Lemma gcd_frac_value : forall n1 d1 e1 n2 d2 e2 n d e,
  0 < n1 <= INTMAX_MAX -> 0 < d1 <= INTMAX_MAX -> 0 < n2 <= INTMAX_MAX -> 0 < d2 <= INTMAX_MAX ->
  gcd_frac_ordered n1 d1 e1 n2 d2 e2 = Ok (n, d, e) ->
  let N1 := n1 * d2 * 10 ^ (e1 - e2) in let N2 := n2 * d1 in
  (frac n d e == frac (Z.gcd N1 N2) (d1 * d2) e2)%Q /\
  (frac n1 d1 e1 == frac N1 (d1 * d2) e2)%Q /\ (frac n2 d2 e2 == frac N2 (d1 * d2) e2)%Q.
Proof.
  intros n1 d1 e1 n2 d2 e2 n d e Hn1 Hd1 Hn2 Hd2 H N1 N2.
  apply gcd_frac_ordered_sound in H; auto.
  destruct H as (-> & He & Pn & Pd & Eq). fold N1 N2 in Eq.
  assert (d1 * d2 <> 0) by (apply Z.neq_mul_0; lia).
  split; [|split].
  - apply frac_eq_iff; lia.
  - unfold N1. rewrite frac_num10 by lia. replace (e2 + (e1 - e2)) with e1 by lia.
    apply frac_eq_iff; try lia.
  - unfold N2. apply frac_eq_iff; lia.
Qed.

(** Greatest common divisor of two rationals. *)
Definition rational_gcd (a b g : Q) : Prop :=
  multiple_of a g /\ multiple_of b g /\
  forall q : Q, multiple_of a q -> multiple_of b q -> multiple_of g q.

Lemma frac_linear : forall a b D e x y,
  (frac (a * x + b * y) D e == inject_Z a * frac x D e + inject_Z b * frac y D e)%Q.
Proof.
  intros. unfold frac, Qdiv. rewrite inject_Z_plus, !inject_Z_mult. ring.
Qed.

Lemma frac_gcd : forall N1 N2 D e,
  rational_gcd (frac N1 D e) (frac N2 D e) (frac (Z.gcd N1 N2) D e).
Proof.
  intros N1 N2 D e. repeat split.
  - destruct (Z.gcd_divide_l N1 N2) as [k Hk]. exists k.
    rewrite Hk at 1. unfold frac, Qdiv. rewrite inject_Z_mult. ring.
  - destruct (Z.gcd_divide_r N1 N2) as [k Hk]. exists k.
    rewrite Hk at 1. unfold frac, Qdiv. rewrite inject_Z_mult. ring.
  - intros q [z1 H1] [z2 H2].
    destruct (Z.gcd_bezout N1 N2 (Z.gcd N1 N2) eq_refl) as (u & v & B).
    exists (u * z1 + v * z2). rewrite <- B, frac_linear, H1, H2.
    rewrite inject_Z_plus, !inject_Z_mult. ring.
Qed.

Lemma rational_gcd_compat : forall a b g a' b' g',
  (a == a')%Q -> (b == b')%Q -> (g == g')%Q -> rational_gcd a b g -> rational_gcd a' b' g'.
Proof.
  intros a b g a' b' g' Ha Hb Hg ([x Hx] & [y Hy] & U). repeat split.
  - exists x. now rewrite <- Ha, <- Hg.
  - exists y. now rewrite <- Hb, <- Hg.
  - intros q [z1 H1] [z2 H2]. destruct (U q) as [w Hw].
    + exists z1. now rewrite Ha.
    + exists z2. now rewrite Hb.
    + exists w. now rewrite <- Hg.
Qed.

Lemma rational_gcd_sym : forall a b g, rational_gcd a b g -> rational_gcd b a g.
Proof. intros a b g (A & B & U). repeat split; auto. Qed.

Lemma common_ratio_sound : forall r1 r2 g,
  lowest r1 -> lowest r2 -> storable r1 -> storable r2 -> 0 < rnum r1 -> 0 < rnum r2 ->
  common_ratio r1 r2 = Ok g ->
  lowest g /\ storable g /\ (0 < rval g)%Q /\ rational_gcd (rval r1) (rval r2) (rval g).
Proof.
  intros [n1 d1 e1] [n2 d2 e2] g L1 L2 S1 S2 P1 P2 H.
  unfold common_ratio in H. cbn [rnum rden rexp] in *. inv_ok.
  destruct v as [[n d] e].
  pose proof L1 as (Q1 & _); pose proof L2 as (Q2 & _).
  pose proof S1 as (A1 & B1 & C1); pose proof S2 as (A2 & B2 & C2). cbn [rnum rden rexp] in *.
  unfold gcd_frac in E.
  destruct ((n1 =? n2) && (d1 =? d2) && (e1 =? e2)) eqn:Sh.
  - rewrite !andb_true_iff, !Z.eqb_eq in Sh. destruct Sh as [[-> ->] ->].
    injection E as <- <- <-.
    pose proof (mk_ratio_lowest (Ratio n2 d2 e2) L2 S2) as M. cbn [rnum rden rexp] in M.
    rewrite M in K. injection K as <-.
    split; [auto|]. split; [auto|]. split; [apply frac_pos; auto|].
    repeat split; auto; exists 1; change (inject_Z 1) with 1%Q; ring.
  - destruct (Z.ltb_spec e1 e2) as [Lt|Ge].
    + pose proof E as E'. apply gcd_frac_ordered_sound in E'; try lia.
      destruct E' as (-> & _ & Pn & Pd & _).
      apply gcd_frac_value in E; try lia. destruct E as (Eg & E2 & E1).
      pose proof (mk_ratio_storable _ _ _ _ ltac:(exact C1) K) as Sg.
      apply mk_ratio_sound in K. destruct K as (_ & V & Lg).
      split; [auto|]. split; [auto|]. split.
      * rewrite V. apply frac_pos; auto.
      * apply rational_gcd_sym. unfold rval at 1 2; cbn [rnum rden rexp].
        eapply rational_gcd_compat; [symmetry; exact E2|symmetry; exact E1| |apply frac_gcd].
        rewrite V. symmetry; exact Eg.
    + pose proof E as E'. apply gcd_frac_ordered_sound in E'; try lia.
      destruct E' as (-> & _ & Pn & Pd & _).
      apply gcd_frac_value in E; try lia. destruct E as (Eg & E1 & E2).
      pose proof (mk_ratio_storable _ _ _ _ ltac:(exact C2) K) as Sg.
      apply mk_ratio_sound in K. destruct K as (_ & V & Lg).
      split; [auto|]. split; [auto|]. split.
      * rewrite V. apply frac_pos; auto.
      * unfold rval at 1 2; cbn [rnum rden rexp].
        eapply rational_gcd_compat; [symmetry; exact E1|symmetry; exact E2| |apply frac_gcd].
        rewrite V. symmetry; exact Eg.
Qed.

(** The gcd of two positive rationals is unique among positive rationals. *)
Lemma rational_gcd_unique : forall a b g h, (0 < g)%Q -> (0 < h)%Q ->
  rational_gcd a b g -> rational_gcd a b h -> (g == h)%Q.
Proof.
  intros a b g h Pg Ph (A1 & B1 & U1) (A2 & B2 & U2).
  destruct (U1 h A2 B2) as [x Hx]. destruct (U2 g A1 B1) as [y Hy].
  assert (X : (g == inject_Z (x * y) * g)%Q) by (rewrite Hx at 1; rewrite Hy at 1; rewrite inject_Z_mult; ring).
  assert (Y : (inject_Z (x * y) == inject_Z 1)%Q).
  { apply (Qmult_inj_r _ _ g); [intros C; rewrite C in Pg; discriminate|].
    change (inject_Z 1) with 1%Q. rewrite <- X. ring. }
  pose proof (proj1 (inject_Z_injective _ _) Y) as Y2. clear Y. rename Y2 into Y.
  assert (Px : 0 < x).
  { destruct (Z_lt_le_dec 0 x) as [|L]; auto. exfalso.
    assert (inject_Z x <= 0)%Q by (change 0%Q with (inject_Z 0); now rewrite <- Zle_Qle).
    assert (g <= 0)%Q.
    { rewrite Hx. rewrite <- (Qmult_0_l h). apply Qmult_le_compat_r; auto. now apply Qlt_le_weak. }
    apply (Qlt_not_le _ _ Pg). assumption. }
  assert (x = 1) by (clear - Px Y; destruct (Z.eq_mul_1 _ _ Y); lia). subst. rewrite Hx. change (inject_Z 1) with 1%Q. ring.
Qed.

(** Symmetry on defined results. *)
Lemma gcd_frac_ordered_swap : forall n1 d1 n2 d2 e x y,
  0 < n1 <= INTMAX_MAX -> 0 < d1 <= INTMAX_MAX -> 0 < n2 <= INTMAX_MAX -> 0 < d2 <= INTMAX_MAX ->
  gcd_frac_ordered n1 d1 e n2 d2 e = Ok x -> gcd_frac_ordered n2 d2 e n1 d1 e = Ok y -> x = y.
Proof.
  intros n1 d1 n2 d2 e x y Hn1 Hd1 Hn2 Hd2 Hx Hy.
  unfold gcd_frac_ordered in Hx, Hy. inv_ok.
  repeat match goal with
         | H : gcdpow ?a ?e ?b = Ok ?v |- _ =>
             lazymatch goal with
             | _ : 0 < a /\ 0 <= e /\ 0 < b |- _ => fail
             | _ => pose proof (gcdpow_ok _ _ _ _ H)
             end
         end.
  repeat match goal with
         | H : cmul I64 _ _ = Ok _ |- _ => apply cmul_ok in H; destruct H as [-> ?]
         | H : csub I64 _ _ = Ok _ |- _ => apply csub_ok in H; destruct H as [-> ?]
         end.
  repeat match goal with H : in_range I64 _ = true |- _ => apply in_range_I64 in H end.
  repeat match goal with H : gcdpow _ _ _ = Ok _ |- _ => rewrite gcdpow_spec in H by lia; inv_ok end.
  rewrite Z.sub_diag, Z.pow_0_r, !Z.mul_1_r in *.
  rewrite (Z.gcd_comm (n2 * d1)) in *. rewrite (Z.mul_comm d2 d1) in *.
  congruence.
Qed.

Lemma common_ratio_sym : forall r1 r2 g h,
  lowest r1 -> lowest r2 -> storable r1 -> storable r2 -> 0 < rnum r1 -> 0 < rnum r2 ->
  common_ratio r1 r2 = Ok g -> common_ratio r2 r1 = Ok h -> g = h.
Proof.
  intros [n1 d1 e1] [n2 d2 e2] g h L1 L2 S1 S2 P1 P2 Hg Hh.
  pose proof L1 as (Q1 & _); pose proof L2 as (Q2 & _).
  destruct S1 as (A1 & B1 & C1), S2 as (A2 & B2 & C2).
  unfold common_ratio in *. cbn [rnum rden rexp] in *. inv_ok.
  assert (v = v0); [|subst; destruct v0 as [[? ?] ?]; congruence].
  unfold gcd_frac in E, E0.
  rewrite (Z.eqb_sym n2), (Z.eqb_sym d2), (Z.eqb_sym e2) in E.
  destruct ((n1 =? n2) && (d1 =? d2) && (e1 =? e2)) eqn:Sh.
  - rewrite !andb_true_iff, !Z.eqb_eq in Sh. destruct Sh as [[-> ->] ->]. congruence.
  - destruct (Z.ltb_spec e1 e2); destruct (Z.ltb_spec e2 e1); try lia; try congruence.
    assert (e1 = e2) by lia. subst e2.
    eapply gcd_frac_ordered_swap in E0; [| | | | |exact E]; try lia. auto.
Qed.

Lemma common_ratio_idem : forall r, lowest r -> storable r -> common_ratio r r = Ok r.
Proof.
  intros r L St. unfold common_ratio, gcd_frac. rewrite !Z.eqb_refl. cbn [andb bind].
  apply mk_ratio_lowest; auto.
Qed.

(** Acceptance: the products formed by the algorithm fit. *)
Lemma gcd_frac_ordered_complete : forall n1 d1 e1 n2 d2 e2,
  0 < n1 -> 0 < d1 -> 0 < n2 -> 0 < d2 -> 0 <= e1 - e2 <= INTMAX_MAX ->
  (d2 + 1) * n1 <= INTMAX_MAX -> (d1 + 1) * n2 <= INTMAX_MAX -> (d2 + 1) * d1 <= INTMAX_MAX ->
  exists n d, gcd_frac_ordered n1 d1 e1 n2 d2 e2 = Ok (n, d, e2) /\
    0 < n <= INTMAX_MAX /\ 0 < d <= INTMAX_MAX.
Proof.
  intros n1 d1 e1 n2 d2 e2 Hn1 Hd1 Hn2 Hd2 He G1 G2 G3. unfold gcd_frac_ordered.
  assert (B1 : n1 * d2 <= INTMAX_MAX) by nia.
  assert (B2 : n2 * d1 <= INTMAX_MAX) by nia.
  assert (B3 : d1 * d2 <= INTMAX_MAX) by nia.
  assert (P1 : 0 < n1 * d2) by nia. assert (P2 : 0 < n2 * d1) by nia. assert (P3 : 0 < d1 * d2) by nia.
  assert (M : Z.abs INTMAX_MAX <= INTMAX_MAX) by (unfold INTMAX_MAX; lia).
  assert (QD : forall n, 0 < n -> cdiv I64 INTMAX_MAX n = Ok (INTMAX_MAX / n)).
  { intros n Hn. rewrite cdiv_total by auto. now rewrite Z.quot_div_nonneg by (unfold INTMAX_MAX; lia). }
  rewrite !QD by auto. cbn [bind].
  replace (d2 <? INTMAX_MAX / n1) with true by (symmetry; apply Z.ltb_lt, guard_iff; auto).
  replace (d1 <? INTMAX_MAX / n2) with true by (symmetry; apply Z.ltb_lt, guard_iff; auto).
  replace (d2 <? INTMAX_MAX / d1) with true by (symmetry; apply Z.ltb_lt, guard_iff; auto).
  cbn [expects bind].
  assert (R : forall z, 0 <= z <= INTMAX_MAX -> arith I64 z = Ok z).
  { intros z Hz; apply arith_in_range, in_range_I64. unfold INTMAX_MIN, INTMAX_MAX in *; lia. }
  unfold cmul, csub. rewrite (R (n1 * d2)) by lia. cbn [bind].
  rewrite (R (e1 - e2)) by lia. cbn [bind]. rewrite (R (n2 * d1)) by lia. cbn [bind].
  rewrite gcdpow_spec by lia. cbn [bind].
  rewrite (R (d1 * d2)) by lia. cbn [bind].
  set (G := Z.gcd (n1 * d2 * 10 ^ (e1 - e2)) (n2 * d1)).
  assert (HG : 0 < G) by (apply gcd_pos_ne; lia).
  assert (HG2 : G <= n2 * d1) by (apply Z.divide_pos_le; [lia|apply Z.gcd_divide_r]).
  rewrite cgcd_total by lia. cbn [bind].
  assert (Hg : 0 < Z.gcd G (d1 * d2)) by (apply gcd_pos_ne; lia).
  rewrite !cdiv_total by (auto; lia). cbn [bind].
  eexists _, _. split; [reflexivity|].
  assert (Q1 : Z.quot G (Z.gcd G (d1 * d2)) * Z.gcd G (d1 * d2) = G)
    by (apply quot_exact; [lia|apply Z.gcd_divide_l]).
  assert (Q2 : Z.quot (d1 * d2) (Z.gcd G (d1 * d2)) * Z.gcd G (d1 * d2) = d1 * d2)
    by (apply quot_exact; [lia|apply Z.gcd_divide_r]).
  pose proof (quot_abs_le G _ Hg). pose proof (quot_abs_le (d1 * d2) _ Hg).
  assert (0 < Z.quot G (Z.gcd G (d1 * d2))) by nia.
  assert (0 < Z.quot (d1 * d2) (Z.gcd G (d1 * d2))) by nia.
  lia.
Qed.

Lemma common_ratio_complete : forall r1 r2,
  lowest r1 -> lowest r2 -> storable r1 -> storable r2 -> 0 < rnum r1 -> 0 < rnum r2 ->
  Z.abs (rexp r1 - rexp r2) <= INTMAX_MAX ->
  INTMAX_MIN + 18 <= rexp r1 <= INTMAX_MAX - 18 -> INTMAX_MIN + 18 <= rexp r2 <= INTMAX_MAX - 18 ->
  (rden r2 + 1) * rnum r1 <= INTMAX_MAX -> (rden r1 + 1) * rnum r2 <= INTMAX_MAX ->
  (rden r1 + 1) * (rden r2 + 1) <= INTMAX_MAX ->
  exists g, common_ratio r1 r2 = Ok g.
Proof.
  intros [n1 d1 e1] [n2 d2 e2] L1 L2 S1 S2 P1 P2 He E1 E2 G1 G2 G3.
  pose proof L1 as (Q1 & _); pose proof L2 as (Q2 & _).
  unfold common_ratio, gcd_frac. cbn [rnum rden rexp] in *.
  destruct ((n1 =? n2) && (d1 =? d2) && (e1 =? e2)).
  { cbn [bind]. apply mk_ratio_total; auto; destruct S1 as (? & ? & ?); cbn [rnum rden rexp] in *; auto; lia. }
  destruct (Z.ltb_spec e1 e2).
  - destruct (gcd_frac_ordered_complete n2 d2 e2 n1 d1 e1) as (n & d & -> & Bn & Bd); auto; try lia; try nia.
    cbn [bind]. apply mk_ratio_total; lia.
  - destruct (gcd_frac_ordered_complete n1 d1 e1 n2 d2 e2) as (n & d & -> & Bn & Bd); auto; try lia; try nia.
    cbn [bind]. apply mk_ratio_total; lia.
Qed.
