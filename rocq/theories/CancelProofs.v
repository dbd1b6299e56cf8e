(** Expressions of floating-point quantities in which terms may cancel. *)

From Coq Require Import ZArith QArith Qpower Qreals Reals Bool Lia Lra SpecFloat String List.
From Flocq Require Import Core BinarySingleNaN.
From Verif Require Import Outcome CInt Root Ratio SpecRatio RatioMaths RatioProofs2 Unit Downcast Dim DimOp Equivalent SpecDim SpecUnit Rep Reference QuantityCast CommonQuantity Quantity
  SpecQuantity DimProofs DimOpProofs DimOpProofs2 DimOpProofs3 EquivProofs MagnitudeProofs CastProofs QuantityProofs QuantityProofs2 QuantityProofs3 QuantityProofs4
  SpecReal FloatProofs FloatCastProofs FloatAddProofs SpecOrder FloatOrderProofs
  Point Expr SpecExpr ExprProofs ExprProofs2 ExprProofs3 ErrorProofs SpecRounding RoundingProofs SpecCancel.
Local Open Scope R_scope.
Local Open Scope res_scope.

(** ** Errors relative to a magnitude *)

Definition close (f : fty) (k : nat) (x r M : R) : Prop :=
  Rabs r <= M /\ Rabs (x - r) <= ((1 + roundoff f) ^ k - 1) * M.

Lemma close_size : forall f k x r M, close f k x r M -> Rabs x <= (1 + roundoff f) ^ k * M /\ 0 <= M.
Proof.
  intros f k x r M [A B]. pose proof (Rabs_pos r). split; [|lra]. replace x with ((x - r) + r) by ring.
  eapply Rle_trans; [apply Rabs_triang|]. lra.
Qed.
Lemma close_near : forall f k x r, near f k x r -> close f k x r (Rabs r).
Proof.
  intros f k x r (t & -> & A & B). split; [lra|]. replace (r * t - r) with ((t - 1) * r) by ring. rewrite Rabs_mult.
  apply Rmult_le_compat_r; [apply Rabs_pos|]. pose proof (grow_ge1 f k) as G. set (g := (1 + roundoff f) ^ k) in *.
  apply Rabs_le. split; [|lra]. assert (I : 1 - (g - 1) <= / g).
  { apply Rmult_le_reg_r with g; [lra|]. rewrite Rinv_l by lra. nra. }
  lra.
Qed.
Lemma close_weaken : forall f k l x r M, (k <= l)%nat -> close f k x r M -> close f l x r M.
Proof.
  intros f k l x r M L [A B]. split; [exact A|]. eapply Rle_trans; [exact B|]. pose proof (Rabs_pos r). apply Rmult_le_compat_r; [lra|].
  pose proof (roundoff_pos f). assert ((1 + roundoff f) ^ k <= (1 + roundoff f) ^ l) by (apply Rle_pow; auto; lra). lra.
Qed.
Lemma close_opp : forall f k x r M, close f k x r M -> close f k (- x) (- r) M.
Proof. intros f k x r M [A B]. split; [now rewrite Rabs_Ropp|]. replace (- x - - r) with (- (x - r)) by ring. now rewrite Rabs_Ropp. Qed.
Lemma close_scale : forall f k x r M c, close f k x r M -> close f k (x * c) (r * c) (M * Rabs c).
Proof.
  intros f k x r M c [A B]. split; [rewrite Rabs_mult; apply Rmult_le_compat_r; [apply Rabs_pos|exact A]|].
  replace (x * c - r * c) with ((x - r) * c) by ring. rewrite Rabs_mult, <- Rmult_assoc. apply Rmult_le_compat_r; [apply Rabs_pos|exact B].
Qed.
Lemma close_unscale : forall f k x r M c, 0 < c -> close f k (x * c) r M -> close f k x (r / c) (M / c).
Proof.
  intros f k x r M c P H. apply (close_scale _ _ _ _ _ (/ c)) in H. rewrite (Rabs_right (/ c)) in H by (apply Rle_ge, Rlt_le, Rinv_0_lt_compat; exact P).
  now replace (x * c * / c) with x in H by (field; lra).
Qed.
Lemma close_rescale : forall f k x r M c, 0 < c -> close f k x (r / c) (M / c) -> close f k (x * c) r M.
Proof.
  intros f k x r M c P H. apply (close_scale _ _ _ _ _ c) in H. rewrite (Rabs_right c) in H by lra.
  replace (r / c * c) with r in H by (field; lra). now replace (M / c * c) with M in H by (field; lra).
Qed.
Lemma close_mul : forall f k l x y r s M N, close f k x r M -> close f l y s N -> close f (k + l) (x * y) (r * s) (M * N).
Proof.
  intros f k l x y r s M N [A B] [C D]. pose proof (Rabs_pos r) as Pr. pose proof (Rabs_pos s) as Ps. split.
  - rewrite Rabs_mult. apply Rmult_le_compat; auto.
  - rewrite pow_add. pose proof (grow_ge1 f k) as Gk. pose proof (grow_ge1 f l) as Gl.
    set (g := (1 + roundoff f) ^ k) in *. set (h := (1 + roundoff f) ^ l) in *.
    replace (x * y - r * s) with ((x - r) * (y - s) + ((x - r) * s + r * (y - s))) by ring.
    eapply Rle_trans; [apply Rabs_triang|]. eapply Rle_trans; [apply Rplus_le_compat_l, Rabs_triang|]. rewrite !Rabs_mult.
    pose proof (Rabs_pos (x - r)) as Px. pose proof (Rabs_pos (y - s)) as Py.
    assert (H1 : Rabs (x - r) * Rabs (y - s) <= ((g - 1) * M) * ((h - 1) * N)) by (apply Rmult_le_compat; auto).
    assert (H2 : Rabs (x - r) * Rabs s <= ((g - 1) * M) * N) by (apply Rmult_le_compat; auto).
    assert (H3 : Rabs r * Rabs (y - s) <= M * ((h - 1) * N)) by (apply Rmult_le_compat; auto).
    lra.
Qed.
Lemma close_plus : forall f k x y r s M N, close f k x r M -> close f k y s N -> close f k (x + y) (r + s) (M + N).
Proof.
  intros f k x y r s M N [A B] [C D]. split.
  - eapply Rle_trans; [apply Rabs_triang|]. lra.
  - replace (x + y - (r + s)) with ((x - r) + (y - s)) by ring. eapply Rle_trans; [apply Rabs_triang|]. lra.
Qed.

(** One rounding: relative to the number, or half the least number of the format. *)
Lemma round_error : forall f x M, Rabs x <= M -> bpow radix2 (2 - femax f) <= M -> Rabs (frnd f x - x) <= roundoff f * M.
Proof.
  intros f x M A B. destruct (Rle_lt_dec (bpow radix2 (2 - femax f)) (Rabs x)) as [L|L].
  - destruct (near_round f x L) as (t & E & T1 & T2). rewrite pow_1 in T1, T2. pose proof (roundoff_pos f) as U. rewrite E. replace (x * t - x) with ((t - 1) * x) by ring.
    rewrite Rabs_mult. apply Rmult_le_compat; auto; [apply Rabs_pos|apply Rabs_pos|]. apply Rabs_le. split; [|lra].
    assert (1 - roundoff f <= / (1 + roundoff f)) by (apply Rmult_le_reg_r with (1 + roundoff f); [lra|]; rewrite Rinv_l by lra; nra). lra.
  - unfold frnd. eapply Rle_trans; [apply error_le_half_ulp; typeclasses eauto|].
    rewrite ulp_FLT_small; [|apply fprec_pos|].
    + apply Rle_trans with (roundoff f * bpow radix2 (2 - femax f)); [|apply Rmult_le_compat_l; [apply Rlt_le, roundoff_pos|exact B]].
      unfold roundoff. rewrite <- bpow_plus. replace (3 - femax f - fprec f)%Z with (1 + (- fprec f + (2 - femax f)))%Z by lia.
      rewrite (bpow_plus radix2 1). change (bpow radix2 1) with 2. lra.
    + replace (3 - femax f - fprec f + fprec f)%Z with (3 - femax f)%Z by lia. eapply Rlt_le_trans; [exact L|]. apply bpow_le. lia.
Qed.
Lemma close_round : forall f k x r M, mid_range f M -> close f k x r M -> close f (k + 1) (frnd f x) r M.
Proof.
  intros f k x r M Mid C. destruct (close_size _ _ _ _ _ C) as [Sx P]. destruct C as [A B]. split; [exact A|]. pose proof (grow_ge1 f k) as G. pose proof (roundoff_pos f) as U.
  rewrite pow_add, pow_1. set (g := (1 + roundoff f) ^ k) in *. destruct Mid as [->|[L _]].
  - assert (X : x = 0) by (destruct (Req_dec x 0) as [X|X]; [exact X|apply Rabs_pos_lt in X; lra]). subst x.
    replace (frnd f 0) with 0 by (unfold frnd; now rewrite round_0 by typeclasses eauto). lra.
  - rewrite Rabs_right in L by lra. assert (E : Rabs (frnd f x - x) <= roundoff f * (g * M)).
    { apply round_error; [exact Sx|]. apply Rle_trans with (bpow radix2 (3 - femax f)); [apply bpow_le; lia|]. nra. }
    replace (frnd f x - r) with ((frnd f x - x) + (x - r)) by ring. eapply Rle_trans; [apply Rabs_triang|]. lra.
Qed.
Lemma close_finite : forall f k x r M, (Z.of_nat k <= 2 ^ 23)%Z -> mid_range f M -> close f k x r M -> Rabs (frnd f x) < bpow radix2 (femax f).
Proof.
  intros f k x r M L Mid C. destruct (close_size _ _ _ _ _ C) as [Sx P]. apply frnd_lt_emax with (e := (femax f - 1)%Z); [apply emin_small|lia|].
  eapply Rle_trans; [exact Sx|]. pose proof (grow_le_2 f k L) as G2. pose proof (grow_ge1 f k) as G1.
  assert (B : M <= bpow radix2 (femax f - 2)).
  { destruct Mid as [->|[_ B]]; [apply bpow_ge_0|]. now rewrite Rabs_right in B by lra. }
  replace (femax f - 1)%Z with (1 + (femax f - 2))%Z by lia. rewrite bpow_plus. change (bpow radix2 1) with 2. nra.
Qed.
Lemma mul_close : forall f k l x y r s M N, is_number f x -> is_number f y -> close f k (fval x) r M -> close f l (fval y) s N ->
  (Z.of_nat (k + l) <= 2 ^ 23)%Z -> mid_range f (M * N) ->
  is_number f (SFmul (fprec f) (femax f) x y) /\ close f (k + l + 1) (fval (SFmul (fprec f) (femax f) x y)) (r * s) (M * N).
Proof.
  intros f k l x y r s M N Nx Ny Cx Cy L Mid. pose proof (close_mul _ _ _ _ _ _ _ _ _ Cx Cy) as C.
  destruct (mul_rounds f x y Nx Ny (close_finite _ _ _ _ _ L Mid C)) as [A ->]. split; [exact A|]. now apply close_round.
Qed.
Lemma div_close : forall f k l x y r s M, is_number f x -> is_number f y -> close f k (fval x) r M -> near f l (fval y) s -> s <> 0 ->
  (Z.of_nat (k + l) <= 2 ^ 23)%Z -> mid_range f (M / Rabs s) ->
  is_number f (SFdiv (fprec f) (femax f) x y) /\ close f (k + l + 1) (fval (SFdiv (fprec f) (femax f) x y)) (r / s) (M / Rabs s).
Proof.
  intros f k l x y r s M Nx Ny Cx Cy Hs L Mid. assert (Rs : Rabs (/ s) = / Rabs s) by apply Rabs_inv. 
  pose proof (close_mul _ _ _ _ _ _ _ _ _ Cx (close_near _ _ _ _ (near_inv _ _ _ _ Hs Cy))) as C. rewrite Rs in C.
  destruct (div_rounds f x y Nx Ny (near_neq0 _ _ _ _ Cy Hs) (close_finite _ _ _ _ _ L Mid C)) as [A ->]. split; [exact A|]. now apply close_round.
Qed.

(** A condition number multiplies the number of roundings. *)
Lemma grow_times : forall f k c, INR c * ((1 + roundoff f) ^ k - 1) <= (1 + roundoff f) ^ (k * c) - 1.
Proof.
  intros f k c. rewrite pow_mult. pose proof (grow_ge1 f k) as G. set (g := (1 + roundoff f) ^ k) in *. induction c as [|c IH]; [cbn; lra|].
  rewrite S_INR. cbn [pow]. assert (1 <= g ^ c) by now apply pow_R1_Rle. nra.
Qed.
Lemma close_settle : forall f k c x r M, M <= INR c * Rabs r -> close f k x r M -> close f (k * c) x r (Rabs r).
Proof.
  intros f k c x r M H [A B]. split; [lra|]. eapply Rle_trans; [exact B|]. pose proof (grow_times f k c) as G. pose proof (grow_ge1 f k) as G1. pose proof (Rabs_pos r) as P.
  apply Rle_trans with (((1 + roundoff f) ^ k - 1) * (INR c * Rabs r)); [apply Rmult_le_compat_l; lra|].
  rewrite <- Rmult_assoc. apply Rmult_le_compat_r; [exact P|]. lra.
Qed.
Lemma grow_small : forall f k, (Z.of_nat k <= 2 ^ 22)%Z -> (1 + roundoff f) ^ k <= 3 / 2.
Proof.
  intros f k H. pose proof (roundoff_pos f) as U.
  assert (A : INR k * roundoff f <= / 4).
  { apply Rle_trans with (IZR (2 ^ 22) * bpow radix2 (-24)).
    - apply Rmult_le_compat; [apply pos_INR|lra| |apply roundoff_small]. rewrite INR_IZR_INZ. now apply IZR_le.
    - rewrite (IZR_Zpower radix2) by lia. rewrite <- bpow_plus. cbn. lra. }
  eapply Rle_trans; [apply grow_bound; lra|]. apply Rle_trans with (/ (3 / 4)); [apply Rinv_le; lra|lra].
Qed.
Lemma near_settle : forall f k x r, (Z.of_nat k <= 2 ^ 22)%Z -> close f k x r (Rabs r) -> near f (2 * k) x r.
Proof.
  intros f k x r L [_ B]. pose proof (grow_small f k L) as S. pose proof (grow_ge1 f k) as G.
  replace (2 * k)%nat with (k + k)%nat by lia. unfold near. rewrite pow_add. set (g := (1 + roundoff f) ^ k) in *. destruct (Req_dec r 0) as [->|N].
  - exists 1. rewrite Rabs_R0, Rmult_0_r, Rminus_0_r in B. assert (x = 0) by (destruct (Req_dec x 0) as [X|X]; [exact X|apply Rabs_pos_lt in X; lra]).
    split; [lra|]. split; [|nra]. rewrite <- Rinv_1. apply Rinv_le; nra.
  - exists (x / r). split; [now field|]. assert (Q : Rabs (x / r - 1) <= g - 1).
    { replace (x / r - 1) with ((x - r) / r) by (field; exact N). unfold Rdiv. rewrite Rabs_mult, Rabs_inv. apply Rabs_pos_lt in N.
      apply Rmult_le_reg_r with (Rabs r); [exact N|]. rewrite Rmult_assoc, Rinv_l by lra. lra. }
    apply Rabs_le_inv in Q. split; [|nra]. apply Rle_trans with (2 - g); [|lra]. apply Rmult_le_reg_r with (g * g); [nra|]. rewrite Rinv_l by nra.
    assert (0 <= (g - 1) * (1 + g - g * g)) by (apply Rmult_le_pos; nra). nra.
Qed.

Lemma errs_magnitude : forall est w f e r M k, errs est w f e r M k -> Rabs r <= M.
Proof.
  induction 1; try lra.
  - now rewrite Rabs_Ropp.
  - eapply Rle_trans; [apply Rabs_triang|]. lra.
  - unfold Rminus. eapply Rle_trans; [apply Rabs_triang|]. rewrite Rabs_Ropp. lra.
  - rewrite Rabs_mult. apply Rmult_le_compat; auto using Rabs_pos.
  - unfold Rdiv. rewrite Rabs_mult, Rabs_inv. apply Rmult_le_compat_r; [|assumption]. apply Rlt_le, Rinv_0_lt_compat, Rabs_pos_lt. assumption.
  - unfold Rdiv. rewrite Rabs_mult, Rabs_inv. apply Rmult_le_compat_r; [|assumption]. apply Rlt_le, Rinv_0_lt_compat, Rabs_pos_lt. assumption.
  - rewrite Rabs_mult. apply Rmult_le_compat_r; [apply Rabs_pos|assumption].
  - rewrite Rabs_mult. apply Rmult_le_compat_l; [apply Rabs_pos|assumption].
  - unfold Rdiv. rewrite Rabs_mult, Rabs_inv. apply Rmult_le_compat_r; [|assumption]. apply Rlt_le, Rinv_0_lt_compat, Rabs_pos_lt. assumption.
Qed.

(** ** Conversions *)

Lemma cast_close : forall est f from to m1 m2 x r M k j, sized est from m1 -> sized est to m2 -> references_ok from to ->
  dim_equivalent (q_dim to) (q_dim from) = true -> q_rep from = RFlt f -> q_rep to = RFlt f ->
  is_number f x -> close f k (fval x * Q2R m1) r M -> factor_costs est f from to j -> mid_range f (M / Q2R m2) ->
  (Z.of_nat (k + j) <= 2 ^ 23)%Z ->
  exists y, quantity_cast est from to (NFlt x) = Ok (NFlt y) /\ is_number f y /\ close f (k + j + 1) (fval y * Q2R m2) r M.
Proof.
  intros est f from to m1 m2 x r M k j S1 S2 R De Rf Rt V N K Mid L. assert (Cr : cast_rep (q_rep from) (RFlt f) = RFlt f) by (rewrite Rf; now destruct f).
  destruct (factor_cost _ _ _ _ _ _ _ S1 S2 R K) as (c & Hc & Nc & Fc). pose proof (size_pos _ _ _ S1) as P1. pose proof (size_pos _ _ _ S2) as P2.
  pose proof (close_unscale _ _ _ _ _ _ P1 N) as Nn. pose proof (close_near _ _ _ _ Fc) as Cc.
  rewrite (Rabs_right (Q2R m1 / Q2R m2)) in Cc by (apply Rle_ge, Rlt_le, Rdiv_lt_0_compat; assumption).
  assert (Er : r / Q2R m1 * (Q2R m1 / Q2R m2) = r / Q2R m2) by (field; lra).
  assert (EM : M / Q2R m1 * (Q2R m1 / Q2R m2) = M / Q2R m2) by (field; lra).
  destruct (mul_close f _ _ _ _ _ _ _ _ V Nc Nn Cc) as [A B]; [exact L|now rewrite EM|]. rewrite Er, EM in B.
  exists (SFmul (fprec f) (femax f) x (cast_factor f c)). split; [|split; [exact A|]].
  - unfold quantity_cast. rewrite De. cbn [constrained bind]. rewrite Hc. cbn [bind]. rewrite Rt.
    rewrite (cast_number_eq _ _ _ f (NFlt x) x Cr); [|cbn [n_convert]; now rewrite conv_same by apply V]. cbn [n_convert]. now rewrite conv_same by apply A.
  - now apply close_rescale.
Qed.
Lemma convert_close : forall est f from to m1 m2 x r M k j, sized est from m1 -> sized est to m2 -> references_ok from to ->
  dim_equivalent (q_dim to) (q_dim from) = true -> q_rep from = RFlt f -> q_rep to = RFlt f ->
  is_number f x -> close f k (fval x * Q2R m1) r M -> conversion_costs est f from to j -> mid_range f (M / Q2R m2) ->
  (Z.of_nat (k + j) <= 2 ^ 23)%Z ->
  exists y, q_convert est from to (NFlt x) = Ok (NFlt y) /\ is_number f y /\ close f (k + j) (fval y * Q2R m2) r M.
Proof.
  intros est f from to m1 m2 x r M k j S1 S2 R De Rf Rt V N K Mid L. unfold q_convert. destruct (qtype_eq_dec from to) as [<-|Ne].
  - destruct K as [[_ ->]|[K _]]; [|now elim K]. rewrite Nat.add_0_r.
    exists x. split; [reflexivity|]. split; [exact V|]. rewrite (size_unique _ _ _ _ S2 S1). exact N.
  - destruct K as [[E _]|[_ (i & K & ->)]]; [now elim Ne|]. rewrite (safe_to_float est from to f Rt De). cbn [bind constrained].
    rewrite Rf in *. cbn [entry_costs floating Nat.add] in *.
    destruct (cast_close _ _ _ _ _ _ _ _ _ _ _ S1 S2 R De Rf Rt V N K Mid) as (y & H); [lia|]. exists y.
    now replace (k + (i + 1))%nat with (k + i + 1)%nat by lia.
Qed.

(** ** Whole expressions *)

Section System.
Variable U : bdim -> Prop.
Variable w : world.
Hypothesis HU : symbols_identify U.
Hypothesis G : good_system U w.
Variable est : estimate.
Variable f : fty.
Let P := in_system U w.

Definition held (q : quantity) (r M : R) (k : nat) : Prop :=
  P (q_dim (q_type q)) /\ exists x m, q_rep (q_type q) = RFlt f /\ q_num q = NFlt x /\ is_number f x /\ sized est (q_type q) m /\
    close f k (fval x * Q2R m) r M.

Lemma scaled_close : forall o q p v r M k s, o <> OpRem -> arith_rep (RFlt f) p = RFlt f -> is_value p v -> held q r M k ->
  forall sw : bool, q_scale o sw q p v = Ok s ->
  P (q_dim (q_type s)) /\ exists x m z, q_num q = NFlt x /\ is_number f x /\ close f k (fval x) (r / Q2R m) (M / Q2R m) /\ 0 < Q2R m /\
    sized est (q_type s) m /\ q_rep (q_type s) = RFlt f /\ q_num s = NFlt z /\
    (if sw then float_op o f (as_float f v) x else float_op o f x (as_float f v)) = Ok z.
Proof.
  intros o q p v r M k s Ho Ar V (D & x & m & R & N & Nx & S & K) sw H. destruct (value_as_float f p v Ar V) as (Nv & _ & _).
  unfold q_scale in H. cbv zeta in H. rewrite R, Ar, N in H. cbn [safe_convertible floating orb constrained bind] in H.
  destruct (float_n_op f p v x Ar (proj1 Nx) Nv o Ho) as [(z1 & E1 & F1) (z2 & E2 & F2)].
  pose proof (size_pos _ _ _ S) as Pm.
  destruct sw; [rewrite E2 in H|rewrite E1 in H]; cbn [bind] in H; inversion H; subst s; cbn [q_type q_num with_rep q_dim q_rep];
    (split; [exact D|]); eexists x, m, _; (split; [exact N|]); (split; [exact Nx|]);
    (split; [apply close_unscale; [lra|exact K]|]); (split; [exact Pm|]); (split; [exact (with_size est _ _ _ S)|]); auto.
Qed.

Lemma summed_close : forall o a b r s M N k l ka kb m q, sum_op o -> held a r M k -> held b s N l -> q_addsub o est w a b = Ok q ->
  conversion_costs est f (q_type a) (q_type q) ka -> conversion_costs est f (q_type b) (q_type q) kb -> sized est (q_type q) m ->
  mid_range f (M / Q2R m) -> mid_range f (N / Q2R m) -> mid_range f ((M + N) / Q2R m) ->
  (Z.of_nat (Nat.max (k + ka) (l + kb)) < 2 ^ 22)%Z -> held q (rsum o r s) (M + N) (Nat.max (k + ka) (l + kb) + 1).
Proof.
  intros o a b r s M N k l ka kb m q Ho (Da & xa & ma & Ra & Na & Fa & Sa & Va) (Db & xb & mb & Rb & Nb & Fb & Sb & Vb) H Ca Cb Sq Mr Ms Mt L.
  assert (C : consistent w) by apply G. pose proof (same_float f) as SF.
  pose proof (addsub_dims _ _ _ _ _ _ H) as [E1 _]. apply equivalent_exps in E1. pose proof (same_dimension U w HU _ _ Db Da E1) as E.
  assert (Cm : compatible (q_type a) (q_type b)).
  { split; [apply references_ok_refl; now rewrite E|]. intros _. rewrite E. reflexivity. }
  unfold q_addsub in H. cbv zeta in H. rewrite Ra, Rb, SF in H. step H as t Et.
  destruct (common_quantity_sized _ _ _ _ _ _ _ _ C Sa Sb Cm Et) as (m' & S' & CM & Rt & Fta & Ftb & Dta & Dtb & Dt).
  step H as x Ex. step H as y Ey. step H as z0 Ez. step H as z1 Ez1. inversion H; subst q; clear H. cbn [q_type q_num] in *.
  rewrite Na in Ex. rewrite Nb in Ey.
  destruct (convert_close est f (q_type a) t ma m xa r M k ka Sa Sq Fta Dta) as (x' & Ex' & Nx & Kx); auto; [lia|].
  destruct (convert_close est f (q_type b) t mb m xb s N l kb Sb Sq Ftb Dtb) as (y' & Ey' & Ny & Ky); auto; [lia|].
  rewrite Ex in Ex'. rewrite Ey in Ey'. inversion Ex'; subst x. inversion Ey'; subst y. clear Ex' Ey'.
  set (K := Nat.max (k + ka) (l + kb)) in *. pose proof (size_pos _ _ _ Sq) as Pm.
  assert (Kx' : close f K (fval x') (r / Q2R m) (M / Q2R m)) by (apply close_unscale; [lra|]; apply (close_weaken f (k + ka)); [lia|exact Kx]).
  assert (Ky' : close f K (fval y') (s / Q2R m) (N / Q2R m)) by (apply close_unscale; [lra|]; apply (close_weaken f (l + kb)); [lia|exact Ky]).
  assert (Ks : close f K (rsum o (fval x') (fval y')) (rsum o r s / Q2R m) ((M + N) / Q2R m)).
  { replace ((M + N) / Q2R m) with (M / Q2R m + N / Q2R m) by (field; lra). destruct Ho as [->| ->]; cbn [rsum] in *.
    - replace ((r + s) / Q2R m) with (r / Q2R m + s / Q2R m) by (field; lra). now apply close_plus.
    - replace ((r - s) / Q2R m) with (r / Q2R m + - (s / Q2R m)) by (field; lra). unfold Rminus. apply close_plus; auto. now apply close_opp. }
  destruct (op_number o f x' y' Ho Nx Ny) as (z & Oz & Nz & Vz).
  { apply (close_finite f K _ _ _ ltac:(lia) Mt Ks). }
  assert (Z0 : z0 = NFlt z).
  { unfold n_op in Ez. rewrite SF in Ez. cbn [n_convert bind] in Ez. rewrite (conv_same f x') in Ez by apply Nx.
    rewrite (conv_same f y') in Ez by apply Ny. rewrite Oz in Ez. now inversion Ez. }
  subst z0. cbn [n_convert] in Ez1. rewrite (conv_same f z) in Ez1 by apply Nz. inversion Ez1; subst z1.
  split; [destruct Dt as [Dt|Dt]; cbn [q_type]; rewrite Dt; auto|]. exists z, m. cbn [q_type q_num]. split; [exact Rt|]. split; [reflexivity|]. split; [exact Nz|]. split; [exact Sq|].
  rewrite Vz. apply close_rescale; [exact Pm|]. now apply close_round.
Qed.

(** A quotient, the divisor without cancellation or settled. *)
Lemma quotient_close : forall qa qb r s M k l m q, held qa r M k -> P (q_dim (q_type qb)) ->
  (exists y mb, q_rep (q_type qb) = RFlt f /\ q_num qb = NFlt y /\ is_number f y /\ sized est (q_type qb) mb /\ near f l (fval y * Q2R mb) s) -> s <> 0 ->
  q_over w qa qb = Ok q -> sized est (q_type q) m -> mid_range f (M / Rabs s / Q2R m) -> (Z.of_nat (k + l + 1) <= 2 ^ 22)%Z ->
  held q (r / s) (M / Rabs s) (k + l + 1).
Proof.
  intros qa qb r s M k l m q (D1 & x & ma & Ra & Na & Fx & Sa & Kx) D2 (y & mb & Rb & Nb & Fy & Sb & Ky) Ns H Sq Mid L.
  assert (C : consistent w) by apply G. pose proof (same_float f) as SF.
  pose proof (divide_in_system U w HU G _ _ _ D1 D2 (over_dim _ _ _ _ H)) as D. pose proof (system_unit_good U w G _ D) as Gd.
  pose proof (size_pos _ _ _ Sa) as Pa. pose proof (size_pos _ _ _ Sb) as Pb. pose proof (sized_pos _ _ _ Sb) as Pb'.
  unfold q_over in H. cbv zeta in H. step H as rf Er. step H as z0 Ez. inversion H; subst q; clear H. cbn [q_type q_dim q_unit q_rep q_num] in *.
  destruct Sa as ((Ga & Ua) & _ & _ & Ma). destruct Sb as ((Gb & Ub) & _ & _ & Mb). destruct rf as [d u]. cbn [ref_dim ref_unit] in *.
  destruct (reference_divide_magnitude _ _ _ _ _ _ _ _ _ C Ga Gb Ua Ub Gd Er Ma Mb) as (Mg & _).
  assert (Em : Q2R m = Q2R ma / Q2R mb).
  { rewrite <- Q2R_div by now apply pos_nz. apply Qeq_eqR. destruct Sq as (_ & _ & _ & Mq). exact (magnitude_unique _ _ _ _ Mq Mg). }
  pose proof (size_pos _ _ _ Sq) as Pm. pose proof (Rabs_pos_lt _ Ns) as Ps.
  pose proof (close_unscale _ _ _ _ _ _ Pa Kx) as Kx'.
  assert (Ky' : near f l (fval y) (s / Q2R mb)) by (apply near_unscale; [lra|exact Ky]).
  assert (Ns' : s / Q2R mb <> 0) by (apply Rmult_integral_contrapositive; split; [exact Ns|apply Rinv_neq_0_compat; lra]).
  assert (Ab : Rabs (s / Q2R mb) = Rabs s / Q2R mb) by (unfold Rdiv; rewrite Rabs_mult, Rabs_inv, (Rabs_right (Q2R mb)); lra).
  assert (Ers : r / Q2R ma / (s / Q2R mb) = r / s / Q2R m) by (rewrite Em; field; repeat split; lra).
  assert (EMs : M / Q2R ma / Rabs (s / Q2R mb) = M / Rabs s / Q2R m) by (rewrite Ab, Em; field; repeat split; lra).
  destruct (div_close f k l x y _ _ _ Fx Fy Kx' Ky' Ns') as [Fz Kz]; [lia|now rewrite EMs|]. rewrite Ers, EMs in Kz.
  rewrite Ra, Rb, Na, Nb in *. rewrite SF in *.
  assert (No : num_ok (RFlt f) (NFlt y) = true) by apply Fy.
  destruct (float_n_op f (RFlt f) (NFlt y) x SF (proj1 Fx) No OpDiv ltac:(discriminate)) as [(z2 & E2 & F2) _].
  cbn [as_float] in F2. rewrite conv_same in F2 by apply Fy. cbn [float_op] in F2. inversion F2; subst z2. rewrite E2 in Ez. inversion Ez; subst z0.
  split; [exact D|]. eexists _, m. cbn [q_type q_num q_rep]. split; [reflexivity|]. split; [reflexivity|]. split; [exact Fz|]. split; [exact Sq|].
  apply close_rescale; [exact Pm|exact Kz].
Qed.

Theorem eval_held : forall e r M k, errs est w f e r M k -> all_dims P e -> (Z.of_nat k <= 2 ^ 22)%Z ->
  forall q, eval est w e = Ok q -> held q r M k.
Proof.
  assert (C : consistent w) by apply G. pose proof (same_float f) as SF.
  induction 1 as [e r k Cp|e r M k c N IH Pc Le|a r M k N IH|a r M k N IH|a b r s M N' k l ka kb m N1 IH1 N2 IH2 Sc Iu Mr Ms Mt
    |a b r s M N' k l ka kb m N1 IH1 N2 IH2 Sc Iu Mr Ms Mt|a b r s M N' k l m N1 IH1 N2 IH2 Iu Mid|a b r s M k l m N1 IH1 N2 Ns Iu Mid
    |a b r s M N' k l c m N1 IH1 N2 IH2 Ns Le Iu Mid
    |a p v r M k m N IH Ar V Iu Mid|a p v r M k m N IH Ar V Iu Mid|a p v r M k m N IH Ar V Nz Iu Mid
    |t a r M k j mt N IH Rt St Cc Mid|c a r M k j m N IH Cc Iu Mid]; intros A L q H.
  - destruct (eval_rounded U w HU G est f e r k Cp A L q H) as (D & x & m & R & Nx & Fx & S & K). split; [exact D|]. exists x, m. repeat (split; [assumption|]). now apply close_near.
  - destruct (IH A ltac:(nia) q H) as (D & x & m & R & Nx & Fx & S & K). split; [exact D|]. exists x, m. repeat (split; [assumption|]). now apply close_settle with M.
  - cbn [eval] in H. step H as qa X. destruct (IH A L _ X) as (D & x & m & R & Nx & Fx & S & K). unfold q_plus in H. cbv zeta in H.
    rewrite R, Nx in H. cbn [promote_rep n_convert bind] in H. rewrite (conv_same f x) in H by apply Fx. inversion H; subst q.
    split; [exact D|]. exists x, m. cbn [q_type q_num]. split; [reflexivity|]. split; [reflexivity|]. split; [exact Fx|]. split; [exact (with_size est _ _ _ S)|exact K].
  - cbn [eval] in H. step H as qa X. destruct (IH A L _ X) as (D & x & m & R & Nx & Fx & S & K). unfold q_neg in H. cbv zeta in H.
    rewrite R, Nx in H. cbn [promote_rep n_neg bind] in H. inversion H; subst q.
    split; [exact D|]. exists (SFopp x), m. cbn [q_type q_num]. split; [reflexivity|]. split; [reflexivity|].
    assert (O : is_number f (SFopp x) /\ fval (SFopp x) = - fval x).
    { destruct Fx as [V1 V2]. split; [split; [now apply opp_valid|now destruct x]|]. destruct x as [s0|s0| |s0 mm ee]; try discriminate V2; unfold fval; cbn [SFopp SF2R].
      - ring.
      - destruct s0; cbn [negb cond_Zopp]; rewrite <- F2R_Zopp; reflexivity. }
    destruct O as [O1 O2]. split; [exact O1|]. split; [exact (with_size est _ _ _ S)|]. rewrite O2.
    replace (- fval x * Q2R m) with (- (fval x * Q2R m)) by ring. now apply close_opp.
  - pose proof H as H0. cbn [eval] in H. step H as qa X. step H as qb Y. destruct (Sc _ _ _ X Y H0) as [Ca Cb].
    apply (summed_close OpAdd qa qb r s M N' k l ka kb m q); auto; try lia; [now left|apply IH1; auto; [apply A|lia]|apply IH2; auto; [apply A|lia]].
  - pose proof H as H0. cbn [eval] in H. step H as qa X. step H as qb Y. destruct (Sc _ _ _ X Y H0) as [Ca Cb].
    apply (summed_close OpSub qa qb r s M N' k l ka kb m q); auto; try lia; [now right|apply IH1; auto; [apply A|lia]|apply IH2; auto; [apply A|lia]].
  - pose proof (Iu _ H) as Sq. cbn [eval] in H. step H as qa X. step H as qb Y. destruct A as [A1 A2].
    destruct (IH1 A1 ltac:(lia) _ X) as (D1 & x & ma & Ra & Na & Fx & Sa & Kx). destruct (IH2 A2 ltac:(lia) _ Y) as (D2 & y & mb & Rb & Nb & Fy & Sb & Ky).
    pose proof (multiply_in_system U w HU G _ _ _ D1 D2 (times_dim _ _ _ _ H)) as D. pose proof (system_unit_good U w G _ D) as Gd.
    pose proof (size_pos _ _ _ Sa) as Pa. pose proof (size_pos _ _ _ Sb) as Pb. pose proof (size_pos _ _ _ Sq) as Pm.
    unfold q_times in H. cbv zeta in H. step H as rf Er. step H as z0 Ez. inversion H; subst q; clear H. cbn [q_type q_dim q_unit q_rep q_num] in *.
    destruct Sa as ((Ga & Ua) & _ & _ & Ma). destruct Sb as ((Gb & Ub) & _ & _ & Mb). destruct rf as [d u]. cbn [ref_dim ref_unit] in *.
    destruct (reference_multiply_magnitude _ _ _ _ _ _ _ _ _ C Ga Gb Ua Ub Gd Er Ma Mb) as (Mg & _).
    assert (Em : Q2R m = Q2R ma * Q2R mb).
    { rewrite <- Q2R_mult. apply Qeq_eqR. destruct Sq as (_ & _ & _ & Mq). exact (magnitude_unique _ _ _ _ Mq Mg). }
    pose proof (close_unscale _ _ _ _ _ _ Pa Kx) as Kx'. pose proof (close_unscale _ _ _ _ _ _ Pb Ky) as Ky'.
    assert (Ers : r / Q2R ma * (s / Q2R mb) = r * s / Q2R m) by (rewrite Em; field; split; lra).
    assert (EMs : M / Q2R ma * (N' / Q2R mb) = M * N' / Q2R m) by (rewrite Em; field; split; lra).
    destruct (mul_close f k l x y _ _ _ _ Fx Fy Kx' Ky') as [Fz Kz]; [lia|now rewrite EMs|]. rewrite Ers, EMs in Kz.
    rewrite Ra, Rb, Na, Nb in *. rewrite SF in *.
    assert (No : num_ok (RFlt f) (NFlt y) = true) by apply Fy.
    destruct (float_n_op f (RFlt f) (NFlt y) x SF (proj1 Fx) No OpMul ltac:(discriminate)) as [(z2 & E2 & F2) _].
    cbn [as_float] in F2. rewrite conv_same in F2 by apply Fy. cbn [float_op] in F2. inversion F2; subst z2. rewrite E2 in Ez. inversion Ez; subst z0.
    split; [exact D|]. eexists _, m. cbn [q_type q_num q_rep]. split; [reflexivity|]. split; [reflexivity|]. split; [exact Fz|]. split; [exact Sq|].
    apply close_rescale; [exact Pm|exact Kz].
  - pose proof (Iu _ H) as Sq. cbn [eval] in H. step H as qa X. step H as qb Y. destruct A as [A1 A2].
    destruct (eval_rounded U w HU G est f b s l N2 A2 ltac:(lia) _ Y) as (D2 & Hb).
    apply (quotient_close qa qb r s M k l m q); auto. apply IH1; auto; lia.
  - pose proof (Iu _ H) as Sq. cbn [eval] in H. step H as qa X. step H as qb Y. destruct A as [A1 A2].
    pose proof (errs_magnitude _ _ _ _ _ _ _ N2) as Mg. pose proof (Rabs_pos_lt _ Ns) as Ps.
    assert (Pc : (0 < c)%nat). { destruct c; [|lia]. cbn [INR] in Le. lra. }
    destruct (IH2 A2 ltac:(nia) _ Y) as (D2 & y & mb & Rb & Nb & Fy & Sb & Ky).
    apply (quotient_close qa qb r s M k (2 * (l * c)) m q); auto; [apply IH1; auto; lia|].
    exists y, mb. repeat (split; [assumption|]). apply near_settle; [lia|]. now apply close_settle with N'.
  - pose proof (Iu _ H) as Sq. cbn [eval] in H. step H as qa X. pose proof (IH A ltac:(lia) _ X) as Pa.
    destruct (scaled_close OpMul qa p v r M k q ltac:(discriminate) Ar V Pa false H) as (D & x & m' & z & Nx & Fx & Kx & Pm & S & Rq & Nq & O).
    destruct (value_as_float f p v Ar V) as (_ & Nv & Kv). pose proof (size_unique _ _ _ _ Sq S) as Em. rewrite <- Em in Kx, Pm.
    assert (Er : r / Q2R m * nval v = r * nval v / Q2R m) by (field; lra).
    assert (EM : M / Q2R m * Rabs (nval v) = M * Rabs (nval v) / Q2R m) by (field; lra).
    destruct (mul_close f k (entry_costs p) x (as_float f v) _ _ _ _ Fx Nv Kx (close_near _ _ _ _ Kv)) as [Fz Kz]; [lia|now rewrite EM|]. rewrite Er, EM in Kz.
    cbn [float_op] in O. inversion O; subst z. split; [exact D|]. eexists _, m. split; [exact Rq|]. split; [exact Nq|]. split; [exact Fz|]. split; [exact Sq|].
    now apply close_rescale.
  - pose proof (Iu _ H) as Sq. cbn [eval] in H. step H as qa X. pose proof (IH A ltac:(lia) _ X) as Pa.
    destruct (scaled_close OpMul qa p v r M k q ltac:(discriminate) Ar V Pa true H) as (D & x & m' & z & Nx & Fx & Kx & Pm & S & Rq & Nq & O).
    destruct (value_as_float f p v Ar V) as (_ & Nv & Kv). pose proof (size_unique _ _ _ _ Sq S) as Em. rewrite <- Em in Kx, Pm.
    assert (Er : nval v * (r / Q2R m) = nval v * r / Q2R m) by (field; lra).
    assert (EM : Rabs (nval v) * (M / Q2R m) = Rabs (nval v) * M / Q2R m) by (field; lra).
    destruct (mul_close f (entry_costs p) k (as_float f v) x _ _ _ _ Nv Fx (close_near _ _ _ _ Kv) Kx) as [Fz Kz]; [lia|now rewrite EM|]. rewrite Er, EM in Kz.
    cbn [float_op] in O. inversion O; subst z. split; [exact D|]. eexists _, m. split; [exact Rq|]. split; [exact Nq|]. split; [exact Fz|]. split; [exact Sq|].
    now apply close_rescale.
  - pose proof (Iu _ H) as Sq. cbn [eval] in H. step H as qa X. pose proof (IH A ltac:(lia) _ X) as Pa.
    destruct (scaled_close OpDiv qa p v r M k q ltac:(discriminate) Ar V Pa false H) as (D & x & m' & z & Nx & Fx & Kx & Pm & S & Rq & Nq & O).
    destruct (value_as_float f p v Ar V) as (_ & Nv & Kv). pose proof (size_unique _ _ _ _ Sq S) as Em. rewrite <- Em in Kx, Pm.
    pose proof (Rabs_pos_lt _ Nz) as Pv.
    assert (Er : r / Q2R m / nval v = r / nval v / Q2R m) by (field; split; first [exact Nz|lra]).
    assert (EM : M / Q2R m / Rabs (nval v) = M / Rabs (nval v) / Q2R m) by (field; split; lra).
    destruct (div_close f k (entry_costs p) x (as_float f v) _ _ _ Fx Nv Kx Kv Nz) as [Fz Kz]; [lia|now rewrite EM|]. rewrite Er, EM in Kz.
    cbn [float_op] in O. inversion O; subst z. split; [exact D|]. eexists _, m. split; [exact Rq|]. split; [exact Nq|]. split; [exact Fz|]. split; [exact Sq|].
    now apply close_rescale.
  - destruct A as [At Aa]. cbn [eval] in H. step H as qa X. destruct (IH Aa ltac:(lia) _ X) as (D & x & ma & Ra & Na & Fx & Sa & Kx).
    unfold q_to in H. step H as y E. inversion H; subst q. cbn [q_type q_num].
    pose proof (convert_equivalent _ _ _ _ _ E) as De.
    pose proof (same_dimension U w HU _ _ At D (equivalent_exps _ _ De)) as Ed. rewrite Na in E.
    destruct (convert_close est f (q_type qa) t ma mt x r M k j Sa St (references_ok_refl _ _ (eq_sym Ed)) De Ra Rt Fx Kx (Cc _ X) Mid) as (y' & Ey & Ny & Ky); [lia|].
    rewrite E in Ey. inversion Ey; subst y. split; [exact At|]. exists y', mt. cbn [q_type q_num]. auto.
  - pose proof (Iu _ H) as Sq. pose proof H as H0. cbn [eval] in H. step H as qa X. destruct A as [Ac Aa].
    destruct (IH Aa ltac:(lia) _ X) as (D & x & ma & Ra & Na & Fx & Sa & Kx). destruct (Cc _ _ X H0) as [Rq Fc].
    destruct (q_cast_dims _ _ _ _ _ H) as [De _]. destruct (q_cast_is est w c qa q H) as [Hc Dc].
    assert (Dq : P (q_dim (q_type q))) by (destruct c; rewrite Dc; [exact Ac|exact Ac|exact D|exact D]).
    pose proof (same_dimension U w HU _ _ Dq D (equivalent_exps _ _ De)) as Ed. rewrite Na in Hc.
    destruct (cast_close est f (q_type qa) (q_type q) ma m x r M k j Sa Sq (references_ok_refl _ _ (eq_sym Ed)) De Ra Rq Fx Kx Fc Mid) as (y & Ey & Ny & Ky); [lia|].
    rewrite Hc in Ey. split; [exact Dq|]. exists y, m. split; [exact Rq|]. split; [now inversion Ey|]. auto.
Qed.
End System.

Lemma close_gamma : forall f k x r M, INR k * roundoff f < 1 -> close f k x r M -> Rabs (x - r) <= gamma f k * M.
Proof.
  intros f k x r M H [A B]. eapply Rle_trans; [exact B|]. pose proof (Rabs_pos r). apply Rmult_le_compat_r; [lra|].
  pose proof (grow_bound f k H) as Gb. unfold gamma. set (a := INR k * roundoff f) in *.
  replace (a / (1 - a)) with (/ (1 - a) - 1) by (field; lra). lra.
Qed.
