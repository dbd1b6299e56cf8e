(** Powers and roots of dimensions and of the units of quantities. *)

From Coq Require Import ZArith QArith Qpower String List Bool Lia Lqa SpecFloat.
From Verif Require Import Outcome CInt RatioMaths Root Ratio SpecRatio RatioProofs RatioProofs2 RatioPowProofs
  FixedString Unit Dim DimOp Equivalent SpecDim SpecUnit Rep Reference QuantityCast CommonQuantity Quantity Math
  SpecQuantity DimProofs DimOpProofs DimOpProofs2 MagnitudeProofs QuantityProofs QuantityProofs2 QuantityProofs3.
Import ListNotations.
Local Open Scope Z_scope.
Local Open Scope res_scope.

(** The entries of a power correspond to those of its base. *)
Definition powered (k : Q) (e e' : bexp) : Prop :=
  e_dim e' = e_dim e /\ e_den e' <> 0 /\ (equot e' == equot e * k)%Q.

(** The power can be computed: always for a base dimension; otherwise the factors of ten of
    an exponent are lost (C40). *)
Definition raisable (d : dimension) (N D : Z) : Prop :=
  D <> 0 /\ N <> 0 /\
  ((exists b, d = DBase b) \/
   (Z.abs N <= INTMAX_MAX /\ Z.abs D <= INTMAX_MAX /\ ten_free (inject_Z N / inject_Z D) /\
    normal (exponents d) /\ Forall (power_ok N D) (exponents d))).

Lemma scaled_powered : forall k es, Forall2 (powered k) es (scaled k es).
Proof.
  induction es as [|e es IH]; constructor; auto. split; [reflexivity|]. split; [discriminate|]. apply red_exp_equot.
Qed.

Lemma pow_pairs : forall w d N D d', consistent w -> raisable d N D ->
  dimension_pow w d N D = Ok d' -> Forall2 (powered (inject_Z N / inject_Z D)) (exponents d) (exponents d').
Proof.
  intros w d N D d' C (HD & HN & R) H.
  destruct d as [b|nm es cu rc|args es] eqn:Ed.
  1: { destruct (dimension_pow_base w b N D C) as (d0 & H0 & X). rewrite H in H0. inversion H0; subst d0. rewrite X.
       cbn [exponents]. constructor; [|constructor]. split; [reflexivity|]. split; [exact HD|].
       unfold equot; cbn [e_num e_den]. change (inject_Z 1 / inject_Z 1)%Q with 1%Q. lra. }
  all: destruct R as [[b R]|(AN & AD & T & [S P] & F)]; [discriminate|].
  all: rewrite <- Ed in *; rewrite single_pow_shape in H by (subst; discriminate);
    rewrite map_multiply in H by auto; cbn [bind] in H;
    destruct (downcast_dimension_strict w (scaled (inject_Z N / inject_Z D) (exponents d)) C) as (d0 & H0 & X);
    [apply scaled_sorted; auto|];
    assert (G : downcast_dimension w (scaled (inject_Z N / inject_Z D) (exponents d)) = Ok d' ->
       Forall2 (powered (inject_Z N / inject_Z D)) (exponents d) (exponents d'))
      by (intros G; rewrite H0 in G; inversion G; subst d0; rewrite X; apply scaled_powered);
    destruct (exponents d) as [|e [|f l]] eqn:Ee; auto;
    destruct ((e_num e =? D) && (e_den e =? N)) eqn:Es; auto;
    apply andb_true_iff in Es as [E1 E2]; apply Z.eqb_eq in E1, E2;
    inversion H; subst d'; cbn [exponents]; constructor; [|constructor]; split; [reflexivity|]; split; [discriminate|];
    unfold equot; cbn [e_num e_den]; rewrite E1, E2; change (inject_Z 1 / inject_Z 1)%Q with 1%Q;
    field; split; apply inject_Z_nz; lia.
Qed.

Lemma powered_squared : forall N D es es', D <> 0 ->
  Forall2 (powered (inject_Z N / inject_Z D)) es es' -> Forall half_int es -> Forall half_int es' ->
  Forall (fun e => base_good (e_dim e)) es ->
  (squared es' ^ D == squared es ^ N)%Q /\ Forall (fun e => base_good (e_dim e)) es'.
Proof.
  intros N D es es' HD H. induction H as [|e e' es es' (H1 & H0 & H2) H IH]; intros A B G; [split; [|constructor]|].
  - simpl. now rewrite !Qpower_1.
  - inversion A; inversion B; inversion G; subst. destruct IH as [I1 I2]; auto.
    split; [|constructor; auto; now rewrite H1]. simpl. rewrite H1, !Qmult_power, I1, <- !Qpower_mult.
    replace (twice e' * D) with (twice e * N); [reflexivity|].
    apply (proj1 (inject_Z_injective _ _)). rewrite !inject_Z_mult, !twice_spec by auto. rewrite H2.
    field. now apply inject_Z_nz.
Qed.

Lemma powered_half : forall N D es es', D = 1 -> Forall2 (powered (inject_Z N / inject_Z D)) es es' ->
  Forall half_int es -> Forall half_int es'.
Proof.
  intros N D es es' -> H. induction H as [|e e' es es' (H1 & H0 & H2) H IH]; intros A; constructor; inversion A; subst; auto.
  destruct e' as [b n k]. cbn [e_den] in H0. apply (half_int_of b n k (twice e * N) H0).
  rewrite inject_Z_mult, twice_spec by auto. unfold equot in H2 at 1. cbn [e_num e_den] in H2. rewrite H2.
  change (inject_Z 1) with 1%Q. field.
Qed.

Lemma Qpower_sq_inj : forall a b, (0 < a)%Q -> (0 < b)%Q -> (a ^ 2 == b ^ 2)%Q -> (a == b)%Q.
Proof. intros a b A B H. change (a * a == b * b)%Q in H. assert (X : ((a - b) * (a + b) == 0)%Q) by (ring_simplify; lra).
  apply Qmult_integral in X as [X|X]; lra. Qed.

Section Power.
  Variables (est : estimate) (w : world) (N D : Z) (q s : quantity) (m : Q).
  Let t := q_type q.
  Let t' := q_type s.
  Let du := rval (u_ratio (dimension_unit (q_dim t))).
  Let du' := rval (u_ratio (dimension_unit (q_dim t'))).
  Hypothesis C : consistent w.
  Hypothesis Rs : raisable (q_dim t) N D.
  Hypothesis Sz : sized est t m.
  Hypothesis Ed : dimension_pow w (q_dim t) N D = Ok (q_dim t').
  Hypothesis Gd : unit_good (dimension_unit (q_dim t')).

  Lemma power_magnitude : forall m', unit_good (q_unit t') ->
    (rval (u_ratio (q_unit t')) ^ D == rval (u_ratio (q_unit t)) ^ N)%Q ->
    magnitude (q_dim t') (q_unit t') m' -> (0 < m')%Q /\ ((m' * du') ^ D == (m * du) ^ N)%Q.
  Proof.
    intros m' Gu R (b' & (Hf & Pb' & Sb') & Vb'). destruct Sz as ((Dg & Ug) & O & X & M). destruct Dg as [De Du].
    destruct M as (b & (Hb & Pb & Sb) & Vb).
    pose proof (good_pos _ Ug) as P1. pose proof (good_pos _ Du) as P2. pose proof (good_pos _ Gu) as P3. pose proof (good_pos _ Gd) as P4.
    fold du in P2. fold du' in P4.
    set (r := rval (u_ratio (q_unit t))) in *. set (r' := rval (u_ratio (q_unit t'))) in *.
    assert (V : (m * du == b * r)%Q). { rewrite Vb. fold du. field. lra. }
    assert (V' : (m' * du' == b' * r')%Q). { rewrite Vb'. fold du'. field. lra. }
    split.
    { rewrite Vb'. fold du'. apply Qmult_lt_0_compat; auto. apply Qmult_lt_0_compat; auto. now apply Qinv_lt_0_compat. }
    rewrite V, V', !Qmult_power, R.
    destruct (powered_squared N D (exponents (q_dim t)) (exponents (q_dim t'))) as [Q1 _]; auto; try apply Rs.
    { apply (pow_pairs w); auto. }
    { eapply Forall_impl; [|exact De]. intros e []; assumption. }
    rewrite <- Sb, <- Sb', <- !Qpower_mult, !(Z.mul_comm 2), !Qpower_mult in Q1.
    apply Qpower_sq_inj in Q1; [now rewrite Q1|now apply Qpower_pos_lt..].
  Qed.

  (** A whole power has a magnitude. *)
  Lemma whole_power : D = 1 -> (rval (u_ratio (q_unit t')) == rval (u_ratio (q_unit t)) ^ N)%Q ->
    magnitude (q_dim t') (q_unit t') (m ^ N * (du ^ N / du')).
  Proof.
    intros D1 R. destruct Sz as ((Dg & Ug) & O & X & M). destruct Dg as [De Du].
    destruct M as (b & (Hb & Pb & Sb) & Vb).
    pose proof (good_pos _ Ug) as P1. pose proof (good_pos _ Du) as P2. pose proof (good_pos _ Gd) as P4.
    fold du in P2. fold du' in P4.
    assert (Hf : Forall half_int (exponents (q_dim t'))).
    { pose proof (pow_pairs _ _ _ _ _ C Rs Ed) as F2. apply (powered_half N D _ _ D1 F2 Hb). }
    exists (b ^ N)%Q. split; [split; [|split]|].
    - exact Hf.
    - now apply Qpower_pos_lt.
    - destruct (powered_squared N D (exponents (q_dim t)) (exponents (q_dim t'))) as [Q1 _]; auto; try apply Rs.
      { apply (pow_pairs w); auto. }
      { eapply Forall_impl; [|exact De]. intros e []; assumption. }
      rewrite D1 in Q1. change (squared (exponents (q_dim t')) ^ 1)%Q with (squared (exponents (q_dim t'))) in Q1.
      rewrite Q1, <- Sb, <- !Qpower_mult. now rewrite Z.mul_comm.
    - rewrite R, Vb. fold du du'. unfold Qdiv. rewrite !Qmult_power, Qinv_power.
      assert ((0 < du ^ N)%Q) by now apply Qpower_pos_lt. field. split; lra.
  Qed.
End Power.

Lemma math_result_parts : forall w d c r x s, consistent w -> math_result w d c r x = Ok s ->
  q_dim (q_type s) = d /\ u_ratio (q_unit (q_type s)) = c /\ q_rep (q_type s) = r /\
  unit_of (q_unit (q_type s)) (q_dim (q_type s)) = true /\ 0 < rnum c /\ 0 < rden c /\
  exists v, n_convert r (NFlt x) = Ok v /\ n_convert r v = Ok (q_num s).
Proof.
  intros w d c r x s C H. unfold math_result in H. step H as u Eu. step H as t Et. step H as v Ev.
  unfold mk_qtype in Et. step Et as c0 E0. inversion Et; subst t. unfold q_make in H. step H as c1 E1. step H as y Ey.
  inversion H; subst s. cbn [q_type q_dim q_unit q_rep q_num] in *.
  destruct (downcast_unit_ratio _ _ _ _ C Eu) as (R1 & R2 & R3 & R4). repeat split; auto. exists v. auto.
Qed.

Lemma pow_parts : forall est w l N D q s, consistent w -> q_pow est w l N D q = Ok (inr s) ->
  N <> 0 /\ D <> 0 /\ dimension_pow w (q_dim (q_type q)) N D = Ok (q_dim (q_type s)) /\
  rpow est N D (u_ratio (q_unit (q_type q))) = Ok (u_ratio (q_unit (q_type s))) /\
  q_rep (q_type s) = q_rep (q_type q) /\ unit_of (q_unit (q_type s)) (q_dim (q_type s)) = true /\
  0 < rnum (u_ratio (q_unit (q_type s))) /\
  exists v, n_convert (q_rep (q_type q)) (NFlt (m_pow l (pow_fty (q_rep (q_type q)))
      (to_float (pow_fty (q_rep (q_type q))) (q_num q))
      (float_conv (pow_fty (q_rep (q_type q)))
         (SFdiv (fprec F64) (femax F64) (float_of_int F64 N) (float_of_int F64 D))))) = Ok v /\
    n_convert (q_rep (q_type q)) v = Ok (q_num s).
Proof.
  intros est w l N D q s C H. unfold q_pow in H. cbv zeta in H. step H as c0 E0.
  destruct (Z.eqb_spec N 0) as [|Nz]; [discriminate|]. step H as d Ed. step H as c Ec. step H as s' Es. inversion H; subst s'.
  destruct (math_result_parts _ _ _ _ _ _ C Es) as (-> & -> & -> & U & P1 & P2 & v & V).
  assert (Dz : D <> 0) by (intros ->; discriminate).
  repeat (split; [auto|]). exists v. exact V.
Qed.

Lemma sqrt_parts : forall est w q s, consistent w -> q_sqrt est w q = Ok s ->
  dimension_pow w (q_dim (q_type q)) 1 2 = Ok (q_dim (q_type s)) /\
  rpow est 1 2 (u_ratio (q_unit (q_type q))) = Ok (u_ratio (q_unit (q_type s))) /\
  q_rep (q_type s) = q_rep (q_type q) /\ unit_of (q_unit (q_type s)) (q_dim (q_type s)) = true /\
  0 < rnum (u_ratio (q_unit (q_type s))) /\
  exists v, n_convert (q_rep (q_type q)) (NFlt (SFsqrt (fprec (cmath_fty (q_rep (q_type q)))) (femax (cmath_fty (q_rep (q_type q))))
      (to_float (cmath_fty (q_rep (q_type q))) (q_num q)))) = Ok v /\ n_convert (q_rep (q_type q)) v = Ok (q_num s).
Proof.
  intros est w q s C H. unfold q_sqrt in H. cbv zeta in H. step H as d Ed. step H as c Ec.
  destruct (math_result_parts _ _ _ _ _ _ C H) as (-> & -> & -> & U & P1 & P2 & v & V).
  repeat (split; [auto|]). exists v. exact V.
Qed.

Lemma cbrt_parts : forall est w l q s, consistent w -> q_cbrt est w l q = Ok s ->
  dimension_pow w (q_dim (q_type q)) 1 3 = Ok (q_dim (q_type s)) /\
  rpow est 1 3 (u_ratio (q_unit (q_type q))) = Ok (u_ratio (q_unit (q_type s))) /\
  q_rep (q_type s) = q_rep (q_type q) /\ unit_of (q_unit (q_type s)) (q_dim (q_type s)) = true /\
  0 < rnum (u_ratio (q_unit (q_type s))) /\
  exists v, n_convert (q_rep (q_type q)) (NFlt (m_cbrt l (cmath_fty (q_rep (q_type q)))
      (to_float (cmath_fty (q_rep (q_type q))) (q_num q)))) = Ok v /\ n_convert (q_rep (q_type q)) v = Ok (q_num s).
Proof.
  intros est w l q s C H. unfold q_cbrt in H. cbv zeta in H. step H as d Ed. step H as c Ec.
  destruct (math_result_parts _ _ _ _ _ _ C H) as (-> & -> & -> & U & P1 & P2 & v & V).
  repeat (split; [auto|]). exists v. exact V.
Qed.

(** The ratio of a root is exact when the ratio is a perfect power with a matching power of ten. *)
Definition rootable (est : estimate) (k : positive) (r : ratio) : Prop :=
  (Zpos k | rexp r) /\ (exists x, (0 < x)%Q /\ (rval r == x ^ Zpos k)%Q) /\
  usable est k (rnum r) /\ usable est k (rden r).

Lemma root_ratio : forall est k r c, (1 < k)%positive -> Zpos k <= INTMAX_MAX -> ratio_good r -> rootable est k r ->
  rpow est 1 (Zpos k) r = Ok c -> (rval c ^ Zpos k == rval r)%Q /\ ratio_good c.
Proof.
  intros est k r c Hk Bk G (E & (x & X & V) & U1 & U2) H. pose proof (good_pos _ G) as P. destruct G as (L & St & Nz).
  assert (Rk : in_range I64 (Z.pos k) = true) by (apply in_range_I64; unfold INTMAX_MIN; lia).
  destruct (rroot_exact est k r x Hk L St) as (p & Hp & Vp & Lp & Sp); auto.
  unfold rpow in H. change (negb (Z.pos k =? 0)) with true in H. cbn [constrained bind] in H.
  change (1 =? 0) with false in H. destruct (Z.eqb_spec 1 (Z.pos k)) as [K|_]; [lia|].
  assert (G1 : cgcd 1 (Z.pos k) = Ok 1).
  { unfold cgcd. change (Z.abs 1) with 1. change (Z.abs (Z.pos k)) with (Z.pos k). rewrite Rk.
    change (in_range I64 1) with true. cbn [andb]. now rewrite Z.gcd_1_l. }
  rewrite G1 in H. cbn [bind] in H.
  assert (Q1 : cdiv I64 1 1 = Ok 1) by reflexivity. rewrite Q1 in H. cbn [bind] in H.
  assert (A1 : iabs 1 = Ok 1) by reflexivity. rewrite A1 in H. cbn [bind] in H.
  assert (Q2 : cdiv I64 (Z.pos k) 1 = Ok (Z.pos k)).
  { unfold cdiv. change (1 =? 0) with false. rewrite Z.quot_1_r. unfold arith. rewrite Rk. reflexivity. }
  rewrite Q2 in H. cbn [bind] in H.
  assert (A2 : iabs (Z.pos k) = Ok (Z.pos k)) by reflexivity. rewrite A2 in H. cbn [bind] in H.
  change (rpow_pos 1 r) with (Ok r) in H. cbn [bind] in H. rewrite Hp in H. cbn [bind] in H.
  assert (Q3 : cmul I64 1 (Z.pos k) = Ok (Z.pos k)). { unfold cmul, arith. rewrite Z.mul_1_l, Rk. reflexivity. }
  rewrite Q3 in H. cbn [bind] in H. change (Z.pos k <? 0) with false in H. inversion H; subst c.
  split; [now rewrite Vp, V|]. apply good_intro; auto. now rewrite Vp.
Qed.
