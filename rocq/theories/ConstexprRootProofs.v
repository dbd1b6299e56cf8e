(** Roots of whole numbers and of ratios by the compile-time estimate. *)

From Coq Require Import ZArith Reals QArith Qpower Qfield Lia Lra Bool SpecFloat.
From Flocq Require Import Core BinarySingleNaN.
From Verif Require Import Outcome CInt Pow Root Ratio SpecRatio Rep SpecReal RatioPowProofs MathProofs FloatProofs ConstexprMath ConstexprProofs ConstexprProofs2
  ConstexprProofs3 ConstexprProofs4 ConstexprProofs5 ConstexprProofs6.
Local Open Scope Z_scope.

Lemma small_degree : forall n x, 0 < x -> (x + 1) ^ Zpos n <= INTMAX_MAX -> Zpos n <= 62.
Proof.
  intros n x P B. destruct (Z_le_gt_dec (Zpos n) 62) as [|G]; [assumption|exfalso].
  assert (2 ^ 63 <= (x + 1) ^ Zpos n).
  { transitivity (2 ^ Zpos n); [apply Z.pow_le_mono_r; lia|apply Z.pow_le_mono_l; lia]. }
  change (2 ^ 63) with (INTMAX_MAX + 1) in *. lia.
Qed.
Lemma power_floor : forall n x, 0 < x -> floor_root n (x ^ Zpos n) x.
Proof. intros n x P. split; [lia|]. split; [lia|]. apply Z.pow_lt_mono_l; lia. Qed.
Lemma power_above : forall n x, 0 < x -> x < (x + 1) ^ Zpos n.
Proof.
  intros n x P. apply Z.lt_le_trans with ((x + 1) ^ 1); [rewrite Z.pow_1_r; lia|]. apply Z.pow_le_mono_r; lia.
Qed.

Lemma compile_usable : forall n x, (1 < n)%positive -> 0 < x -> (x + 1) ^ Zpos n <= INTMAX_MAX -> usable compile_estimate n (x ^ Zpos n).
Proof.
  intros n x Hn P B. pose proof (small_degree n x P B) as D. pose proof (power_above n x P) as A.
  assert (V : 1 <= x ^ Zpos n <= INTMAX_MAX).
  { split; [pose proof (Z.pow_pos_nonneg x (Zpos n)); lia|]. transitivity ((x + 1) ^ Zpos n); [apply Z.pow_le_mono_l; lia|exact B]. }
  destruct (estimate_exact n (x ^ Zpos n) x) as (e & E & R); [lia|exact V|now apply power_floor|reflexivity|].
  exists x, e. split; [now apply power_floor|]. split; [exact E|]. split; [lia|]. split; [|lia].
  destruct (Z.eq_dec e (x - 1)) as [->|]; [|replace e with x by lia; exact B].
  transitivity ((x + 1) ^ Zpos n); [apply Z.pow_le_mono_l; lia|exact B].
Qed.

Lemma compile_exact : forall n x, 0 <= x -> (x + 1) ^ Zpos n <= INTMAX_MAX -> iroot compile_estimate n (x ^ Zpos n) = Ok x.
Proof.
  intros n x P B. destruct (Pos.eqb_spec n 1) as [->|N].
  - rewrite Z.pow_1_r. reflexivity.
  - destruct (Z.eq_dec x 0) as [->|Nx].
    + rewrite Z.pow_0_l by lia. unfold iroot. destruct (Pos.eqb_spec n 1); [lia|]. reflexivity.
    + apply usable_exact; [lia|lia|]. apply compile_usable; [lia|lia|exact B].
Qed.

Lemma compile_floor : forall n v x, (1 < n)%positive -> 0 <= v -> Zpos n * (v + 1) <= 10 ^ 12 -> floor_root n v x ->
  (x + 1) ^ Zpos n <= INTMAX_MAX -> iroot compile_estimate n v = Ok x.
Proof.
  intros n v x Hn Hv B F M. destruct (Z.eq_dec v 0) as [->|Nv].
  - assert (x = 0) as ->.
    { destruct F as (X0 & X1 & _). destruct (Z.eq_dec x 0); [assumption|]. pose proof (Z.pow_pos_nonneg x (Zpos n)). lia. }
    unfold iroot. destruct (Pos.eqb_spec n 1); [lia|]. reflexivity.
  - assert (V : 1 <= v <= INTMAX_MAX) by (unfold INTMAX_MAX in *; nia).
    pose proof (floor_root_small n v x ltac:(lia) V F) as Rx.
    destruct (Z.eq_dec v (x ^ Zpos n)) as [->|Ne]; [apply compile_exact; [lia|exact M]|].
    pose proof (power_above n x ltac:(lia)) as A.
    assert (E : compile_estimate n v = Ok x) by (apply estimate_floor; auto; lia).
    rewrite (iroot_near compile_estimate n v x x Hn ltac:(lia) F E); try lia.
    replace (x =? x - 1) with false by (symmetry; apply Z.eqb_neq; lia). reflexivity.
Qed.

(** A perfect power that leaves room for its double. *)
Lemma room : forall n x, 0 < x -> x ^ Zpos n * 2 ^ Zpos n <= INTMAX_MAX -> (x + 1) ^ Zpos n <= INTMAX_MAX.
Proof.
  intros n x P B. rewrite <- Z.pow_mul_l in B. transitivity ((x * 2) ^ Zpos n); [apply Z.pow_le_mono_l; lia|exact B].
Qed.

Lemma compile_rootable : forall (k : positive) r q, (1 < k)%positive -> lowest r -> 0 < rnum r -> (Zpos k | rexp r) ->
  (0 < q)%Q -> (rval r == q ^ Zpos k)%Q -> rnum r * 2 ^ Zpos k <= INTMAX_MAX -> rden r * 2 ^ Zpos k <= INTMAX_MAX ->
  rootable compile_estimate k r.
Proof.
  intros k [n d e] q Hk L Hn [j He] Hq V Bn Bd. cbn [rnum rden rexp] in *.
  split; [now exists j|]. split; [now exists q|]. cbn [rnum rden].
  pose proof L as (P & G & _); cbn [rnum rden] in *.
  set (q' := (q / (10 # 1) ^ j)%Q).
  assert (Hq' : (0 < q')%Q).
  { unfold q'. apply Qlt_shift_div_l; [apply QTen.p10_pos|]. now rewrite Qmult_0_l. }
  assert (V' : (inject_Z n / inject_Z d == q' ^ Zpos k)%Q).
  { unfold q'. rewrite Qdiv_power, <- V, <- Qpower_mult, <- He. unfold rval, frac; cbn [rnum rden rexp].
    field. split; [apply QTen.injZ_nz; lia|apply QTen.p10_nz]. }
  destruct (perfect_power_parts n d q' k Hn P G Hq' V') as (a & b & Pa & Pb & _ & En & Ed & _).
  subst n d. split; (apply compile_usable; [exact Hk|lia|apply room; [lia|assumption]]).
Qed.

(** ** The decimal form, either sign *)

Lemma opp_value : forall x, num x -> num (SFopp x) /\ fval (SFopp x) = (- fval x)%R.
Proof.
  intros x N. split; [destruct x; exact N|]. destruct x as [s|s| |s m e]; unfold fval; cbn; try lra.
  change (SF2R radix2 (S754_finite (negb s) m e) = - SF2R radix2 (S754_finite s m e))%R. cbn [SF2R]. rewrite <- F2R_Zopp. destruct s; reflexivity.
Qed.
Lemma to_decimal_opp : forall m e, to_decimal (S754_finite true m e) =
  match to_decimal (S754_finite false m e) with Ok (s, k) => Ok (SFopp s, k) | Contract => Contract | Undef => Undef | IllFormed => IllFormed | Stuck => Stuck end.
Proof.
  intros m e. unfold to_decimal. cbn [SFabs]. 
  change (SFeqb (S754_finite true m e) (dint 0)) with false. change (SFeqb (S754_finite false m e) (dint 0)) with false.
  change (SFltb (S754_finite true m e) (dint 0)) with true. change (SFltb (S754_finite false m e) (dint 0)) with false. cbv iota.
  destruct (scale_up decimal_fuel (S754_finite false m e) 0) as [p| | | |]; try reflexivity. cbn [bind].
  destruct (scale_down decimal_fuel (fst p) (snd p)) as [[s k]| | | |]; reflexivity.
Qed.
Lemma decimal_form : forall v, num v -> (fval v <> 0)%R ->
  exists s e, to_decimal v = Ok (s, e) /\ num s /\ (1 <= Rabs (fval s) < 10)%R /\ (0 < fval s * fval v)%R /\
    within F64 800 (fval s * powerRZ 10 e) (fval v).
Proof.
  assert (Pos : forall v, num v -> (0 < fval v)%R -> exists s e, to_decimal v = Ok (s, e) /\ num s /\ (1 <= fval s < 10)%R /\
    within F64 800 (fval s * powerRZ 10 e) (fval v)).
  { intros v N P. destruct (to_decimal_spec v N P) as (s & e & k & A & B & C & D & E & F). exists s, e. repeat (split; [assumption|]).
    apply near_within.
    - rewrite INR_IZR_INZ. change (roundoff F64) with (/ 9007199254740992)%R. change (IZR (Z.of_nat 800)) with 800%R. lra.
    - eapply near_weaken; [exact C|exact F]. }
  intros v N Z. destruct (Rlt_or_le 0 (fval v)) as [P|P].
  - destruct (Pos v N P) as (s & e & A & B & C & D). exists s, e. split; [exact A|]. split; [exact B|]. rewrite Rabs_right by lra.
    split; [exact C|]. split; [apply Rmult_lt_0_compat; lra|exact D].
  - destruct (opp_value v N) as [No Vo]. destruct (Pos (SFopp v) No ltac:(lra)) as (s & e & A & B & C & D).
    destruct v as [sg|sg| |sg m x]; try (destruct N; discriminate).
    + exfalso. apply Z. reflexivity.
    + destruct sg.
      * cbn [SFopp negb] in A. rewrite to_decimal_opp, A. destruct (opp_value s B) as [Ns Vs]. exists (SFopp s), e.
        split; [reflexivity|]. split; [exact Ns|]. rewrite Vs, Rabs_Ropp, Rabs_right by lra. split; [exact C|].
        split; [nra|]. rewrite Vo in D. unfold within in *. rewrite Rabs_Ropp in D.
        replace (- fval s * powerRZ 10 e - fval (S754_finite true m x))%R with (- (fval s * powerRZ 10 e - - fval (S754_finite true m x)))%R by ring.
        rewrite Rabs_Ropp. exact D.
      * exfalso. unfold fval in P, Z. cbn [SF2R cond_Zopp] in P, Z.
        pose proof (F2R_gt_0 radix2 (Float radix2 (Zpos m) x) ltac:(reflexivity)). cbn in H, P. lra.
Qed.
