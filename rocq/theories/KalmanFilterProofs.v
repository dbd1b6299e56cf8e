(** Runs of the Kalman filters. *)

From Coq Require Import ZArith Reals Bool Lia Lra SpecFloat String List.
From Flocq Require Import Core.
From Verif Require Import Outcome CInt Root Ratio Unit Dim DimOp Equivalent Rep Reference QuantityCast CommonQuantity Quantity Point Math
  SpecReal FloatProofs FloatCastProofs SpecOrder SpecQuantity QuantityProofs QuantityProofs2 FloatOrderProofs Kalman SpecKalman KalmanProofs KalmanReals.
Import ListNotations.
Local Open Scope R_scope.
Local Open Scope res_scope.

Lemma gain_near : forall t tu a b x y, is_held t a x -> is_held tu b y -> 0 <= x -> 0 <= y -> 0 < x + y ->
  Rabs (gain_of x y - ideal x y) <= pw (-52).
Proof.
  intros t tu a b x y Ha Hb Px Py P. destruct (held_fmt _ _ _ Ha) as [Fx _]. destruct (held_fmt _ _ _ Hb) as [Fy _]. destruct (gain_sum x y Fx Fy Px Py P) as (A & B & C).
  destruct Ha as (xa & _ & Na & Va). destruct Hb as (xb & _ & Nb & Vb). destruct (sum_relative OpAdd F64 xa xb Na Nb) as (e & E & He). cbn [rsum] in E. rewrite Va, Vb in E.
  unfold gain_of, ideal. set (s := rnd (x + y)) in *. set (ro := roundoff F64) in *. assert (Hr : ro = pw (-53)) by reflexivity. pose proof (pw_pos (-53)) as Pr.
  assert (Pe : 0 < e) by (eapply Rlt_le_trans; [|exact (proj1 He)]; apply Rinv_0_lt_compat; lra).
  assert (G : Rabs (rnd (x / s) - x / s) <= pw (-54)).
  { apply (half_ulp (x / s) 0); [lia|]. change (pw 0) with 1. rewrite Rabs_right; [apply div_mono; [exact C|lra]|apply Rle_ge, div_mono'; [exact C|lra]]. }
  assert (D : Rabs (x / s - x / (x + y)) <= ro).
  { replace (x / s - x / (x + y)) with (x / s * (1 - e)) by (rewrite E; field; lra). rewrite Rabs_mult.
    assert (Q1 : Rabs (x / s) <= 1) by (rewrite Rabs_right; [apply div_mono; [exact C|lra]|apply Rle_ge, div_mono'; [exact C|lra]]).
    assert (Q2 : Rabs (1 - e) <= ro).
    { assert (1 - ro <= / (1 + ro)) by (apply Rmult_le_reg_r with (1 + ro); [lra|]; rewrite Rinv_l by lra; nra). apply Rabs_le. lra. }
    pose proof (Rabs_pos (x / s)). pose proof (Rabs_pos (1 - e)). nra. }
  replace (rnd (x / s) - x / (x + y)) with ((rnd (x / s) - x / s) + (x / s - x / (x + y))) by ring. eapply Rle_trans; [apply Rabs_triang|].
  change (pw (-52)) with (pw (-53 + 1)). rewrite pw_step. change (pw (-54)) with (pw (-53 - 1)) in G. rewrite pw_half in G. lra.
Qed.

Lemma covariance_near : forall u k e, fmt u -> 0 <= u <= pw e -> 0 <= k <= 1 -> (-1000 <= e)%Z -> Rabs (covariance_of u k - (1 - k) * u) <= pw (e - 53).
Proof.
  intros u k e F [P U] K E. destruct (complement_bounds k K) as ((A & B) & _ & _). unfold covariance_of.
  assert (E1 : Rabs (rnd (1 - k) - (1 - k)) <= pw (-54)) by (apply (half_ulp (1 - k) 0); [lia|]; change (pw 0) with 1; rewrite Rabs_right; lra).
  assert (E2 : Rabs (rnd (rnd (1 - k) * u) - rnd (1 - k) * u) <= pw (e - 54)).
  { apply half_ulp; [lia|]. rewrite Rabs_right; [nra|]. apply Rle_ge. now apply Rmult_le_pos. }
  assert (E3 : Rabs ((rnd (1 - k) - (1 - k)) * u) <= pw (e - 54)).
  { rewrite Rabs_mult, (Rabs_right u) by lra. replace (e - 54)%Z with (-54 + e)%Z by lia. rewrite bpow_plus. apply Rmult_le_compat; auto. apply Rabs_pos. }
  replace (rnd (rnd (1 - k) * u) - (1 - k) * u) with ((rnd (rnd (1 - k) * u) - rnd (1 - k) * u) + (rnd (1 - k) - (1 - k)) * u) by ring.
  eapply Rle_trans; [apply Rabs_triang|]. replace (e - 53)%Z with (e - 54 + 1)%Z by lia. rewrite pw_step. lra.
Qed.

Section Filter.
Variables (est : estimate) (w : world) (t tu : qtype) (j k : Z) (v n : R) (vq : quantity) (noise : option quantity).
Hypotheses (Rt : in_doubles t) (Ru : in_doubles tu) (FU : update_fits est w t) (FG : gain_fits est w tu) (FC : covariance_fits est w tu)
  (J : (-1000 <= j <= 1022)%Z) (K : (-1000 <= k <= 1022)%Z) (Hv : is_held tu vq v) (Pv : 0 < v) (Bv : 4 * v <= pw k)
  (Hn : match noise with None => n = 0 | Some q => is_held tu q n end) (Pn : 0 <= n) (Bn : 4 * n <= pw k).

Lemma predict_runs : forall u r, is_held tu u r -> 0 <= r -> r + n <= pw k ->
  exists u', predict est w noise u = Ok u' /\ exists r', is_held tu u' r' /\ r <= r' <= pw k /\ Rabs (r' - (r + n)) <= pw (k - 54) /\ (n = 0 -> r' = r).
Proof.
  intros u r Hu P B. destruct (held_fmt _ _ _ Hu) as [F _]. pose proof (pw_pos (k - 54)) as Pk. destruct noise as [q|]; cbn [predict].
  - assert (S : small_enough (r + n)) by (apply (small_by _ k); [lia|]; rewrite Rabs_right; lra).
    destruct (extrapolation_held est w tu u q r n Ru FC Hu Hn S) as (u' & E & H'). exists u'. split; [exact E|]. exists (rnd (r + n)). split; [exact H'|]. split; [split|split].
    + apply rnd_ge; [exact F|lra].
    + apply rnd_le; [apply fmt_pw; lia|exact B].
    + apply half_ulp; [lia|]. rewrite Rabs_right; lra.
    + intros ->. rewrite Rplus_0_r. now apply frnd_id.
  - exists u. split; [reflexivity|]. exists r. split; [exact Hu|]. rewrite Hn in *. split; [lra|]. split; [|reflexivity]. replace (r - (r + 0)) with 0 by ring. rewrite Rabs_R0. lra.
Qed.

Lemma loop_runs : forall ms rs, Forall2 (reads t) ms rs -> Forall (fun r => Rabs r <= pw j) rs -> forall x u rx ru, is_held t x rx -> Rabs rx <= pw j -> is_held tu u ru -> 0 <= ru <= pw k ->
  exists ts, loop (state_update est w) est w noise vq x u ms = Ok ts /\ runs t tu j k v n rx ru rs ts.
Proof.
  induction 1 as [|m r ms rs M _ IH]; intros Fr x u rx ru Hx Bx Hu Bu.
  - exists []. split; [reflexivity|constructor].
  - inversion Fr as [|? ? Br Brs]; subst. destruct (held_fmt _ _ _ Hx) as [Fx _]. destruct (held_fmt _ _ _ Hu) as [Fu Lu]. destruct (held_fmt _ _ _ Hv) as [Fv _]. pose proof (reads_fmt _ _ _ M) as Fm.
    pose proof (pw_pos k) as Pk. assert (Ps : 0 < ru + v) by lra.
    assert (Sm : small_enough (ru + v)). { apply (small_by _ (k + 1)); [lia|]. rewrite pw_step, Rabs_right; lra. }
    destruct (gain_sum ru v Fu Fv (proj1 Bu) (Rlt_le _ _ Pv) Ps) as (_ & _ & Pr).
    destruct (gain_held est w tu u vq ru v Ru FG Hu Hv Sm (Rgt_not_eq _ _ Pr) (gain_small ru v Fu Fv (proj1 Bu) (Rlt_le _ _ Pv) Ps)) as (gq & Eg & Hg).
    destruct (gain_bounds ru v Fu Fv (proj1 Bu) (Rlt_le _ _ Pv) Ps) as (Kg & G1 & G2). pose proof (gain_near _ _ _ _ _ _ Hu Hv (proj1 Bu) (Rlt_le _ _ Pv) Ps) as Gn.
    set (g := gain_of ru v) in *.
    destruct (update_held est w t x m gq rx r g Rt FU Hx M Hg (update_is_small rx r g j Fx Fm Kg J Bx Br)) as (x' & Ex & Hx').
    destruct (complement_bounds g Kg) as (_ & _ & Sc).
    destruct (covariance_held est w tu u gq ru g Ru FC Hu Hg Sc (covariance_small ru g Fu (proj1 Bu) Kg Lu)) as (u' & Eu & Hu').
    destruct (covariance_bounds ru g Fu (proj1 Bu) Kg) as (Cb & Ch).
    assert (Bc : covariance_of ru g + n <= pw k).
    { destruct (Rle_dec v ru) as [V|V].
      - assert (covariance_of ru g <= pw (k - 1)) by (apply Ch; [lia|now apply G1|rewrite pw_half; lra]). rewrite pw_half in *. lra.
      - lra. }
    destruct (predict_runs u' _ Hu' (proj1 Cb) Bc) as (u'' & Ep & ru'' & Hu'' & Bu'' & Nu'' & Zu'').
    destruct (IH Brs x' u'' _ ru'' Hx' (update_in rx r g j Fx Fm Kg J Bx Br) Hu'' ltac:(lra)) as (ts & El & Hts).
    exists (Turn gq x' u' u'' :: ts). split.
    + cbn [loop]. unfold turn_with. rewrite Eg. cbn [bind]. rewrite Ex. cbn [bind]. rewrite Eu. cbn [bind]. rewrite Ep. cbn [bind t_state t_next]. rewrite El. reflexivity.
    + apply (runs_turn t tu j k v n rx ru r rs (Turn gq x' u' u'') ts g (update_of rx r g) (covariance_of ru g) ru''); cbn [t_gain t_state t_uncertainty t_next]; auto.
      * now apply update_in.
      * now apply update_err.
      * apply covariance_near; auto. lia.
Qed.

Lemma filter_runs : forall ms rs, Forall2 (reads t) ms rs -> Forall (fun r => Rabs r <= pw j) rs -> forall x u rx ru, is_held t x rx -> Rabs rx <= pw j -> is_held tu u ru -> 0 <= ru -> ru + n <= pw k ->
  exists ts ru', quantity_filter est w noise vq x u ms = Ok ts /\ ru <= ru' <= pw k /\ Rabs (ru' - (ru + n)) <= pw (k - 54) /\ runs t tu j k v n rx ru' rs ts.
Proof.
  intros ms rs M B x u rx ru Hx Bx Hu Pu Bu. destruct (predict_runs u ru Hu Pu Bu) as (u' & E & ru' & Hu' & B' & N' & _).
  destruct (loop_runs ms rs M B x u' rx ru' Hx Bx Hu' ltac:(lra)) as (ts & El & R). exists ts, ru'. split; [|now auto].
  unfold quantity_filter, filter. rewrite E. exact El.
Qed.
End Filter.

(** ** The point filter is the quantity filter *)

Definition point_of (pt : ptype) (q : quantity) : point := Point pt (q_num q).
Definition point_turn (pt : ptype) (tr : turn quantity) : turn point := Turn (t_gain tr) (point_of pt (t_state tr)) (t_uncertainty tr) (t_next tr).

(** The sum of a point's quantity and an innovation has the dimension of the origin. *)
Definition keeps_dimension (est : estimate) (w : world) (p m : point) (g : quantity) : Prop :=
  forall i s, innovation est w (relative p) (relative m) g = Ok i -> q_add est w (relative p) i = Ok s -> q_dim (q_type s) = o_dim (p_origin (pt_type p)).

Lemma point_update : forall rb est w p m g, p_origin (pt_type m) = p_origin (pt_type p) -> keeps_dimension est w p m g ->
  state_update_point rb est w p m g = (q <- state_update est w (relative p) (relative m) g; Ok (point_of (pt_type p) q)).
Proof.
  intros rb est w p m g O Kd. unfold state_update_point, state_update, keeps_dimension in *. unfold innovation in *. cbn [relative q_type p_qtype q_dim] in *. rewrite O in *.
  destruct (constrained (dim_equivalent (o_dim (p_origin (pt_type p))) (o_dim (p_origin (pt_type p))))) as [[]| | | |]; cbn [bind] in *; auto.
  destruct (is_dimensionless g) as [[]| | | |]; cbn [bind] in *; auto. unfold p_diff. rewrite O. unfold origin_equivalent at 1.
  destruct (origin_eq_dec (p_origin (pt_type p)) (p_origin (pt_type p))) as [_|N]; [|now elim N]. cbn [constrained bind].
  change (relative m) with (Quantity (p_qtype (pt_type m)) (pt_num m)) in *. change (relative p) with (Quantity (p_qtype (pt_type p)) (pt_num p)) in *.
  destruct (q_sub est w (Quantity (p_qtype (pt_type m)) (pt_num m)) (Quantity (p_qtype (pt_type p)) (pt_num p))) as [d| | | |] eqn:D; cbn [bind] in *; auto.
  destruct (q_times w g d) as [i| | | |] eqn:I; cbn [bind] in *; auto.
  unfold p_add, p_addsub. change (relative p) with (Quantity (p_qtype (pt_type p)) (pt_num p)). fold q_add.
  destruct (q_add est w (Quantity (p_qtype (pt_type p)) (pt_num p)) i) as [s| | | |] eqn:S; cbn [bind]; auto.
  pose proof (Kd i s eq_refl S) as Ds.
  unfold rebind. rewrite Ds. destruct (dimension_eq_dec (o_dim (p_origin (pt_type p))) (o_dim (p_origin (pt_type p)))) as [_|N]; [|now elim N].
  assert (U : mk_qtype (o_dim (p_origin (pt_type p))) (q_unit (q_type s)) (q_rep (q_type s)) = Ok (q_type s)).
  { unfold q_add, q_addsub in S. cbv zeta in S. step S as tc C. step S as a A. step S as b B. step S as c C'. step S as e E. inversion S; subst s. cbn [q_type] in *.
    unfold common_quantity in C. step C as y Y. step C as du Du. unfold mk_qtype in *. step C as z Z. inversion C; subst tc. cbn [q_dim q_unit q_rep] in *. rewrite <- Ds, Z. reflexivity. }
  unfold mk_ptype. rewrite U. cbn [bind]. unfold p_make. change (p_qtype (PType (p_origin (pt_type p)) (q_unit (q_type s)) (q_rep (q_type s)))) with
    (QType (o_dim (p_origin (pt_type p))) (q_unit (q_type s)) (q_rep (q_type s))).
  assert (Et : QType (o_dim (p_origin (pt_type p))) (q_unit (q_type s)) (q_rep (q_type s)) = q_type s) by (rewrite <- Ds; now destruct (q_type s)).
  rewrite Et. unfold q_convert at 1. destruct (qtype_eq_dec (q_type s) (q_type s)) as [_|N]; [|now elim N]. cbn [bind].
  unfold p_to. cbn [pt_type p_origin]. unfold origin_equivalent. destruct (origin_eq_dec (p_origin (pt_type p)) (p_origin (pt_type p))) as [_|N]; [|now elim N]. cbn [constrained bind].
  unfold p_make, relative. cbn [pt_type pt_num q_type q_num]. change (p_qtype (PType (p_origin (pt_type p)) (q_unit (q_type s)) (q_rep (q_type s)))) with
    (QType (o_dim (p_origin (pt_type p))) (q_unit (q_type s)) (q_rep (q_type s))). rewrite Et.
  unfold q_to. destruct (q_convert est (q_type s) (p_qtype (pt_type p)) (q_num s)) as [x| | | |]; reflexivity.
Qed.

(** A measurement in the unit of [t]: the type of its number does not matter to sums with doubles. *)
Definition measures (t : qtype) (q : quantity) : Prop := exists r, q_type q = with_rep t r /\ arith_rep r double = double.
Lemma reads_measures : forall t q r, reads t q r -> measures t q.
Proof. intros t q r []; [exists double|exists (RInt i)]; split; reflexivity. Qed.

Lemma keeps : forall est w t p m g, in_doubles t -> point_fits est w t -> p_qtype (pt_type p) = t -> measures t (relative m) -> q_type g = pure_number ->
  keeps_dimension est w p m g.
Proof.
  intros est w t p m g R F T (r & Tm & Ra) Tg i s I S. unfold point_fits in F. step F as d D. step F as q P. step F as s' S'.
  change (o_dim (p_origin (pt_type p))) with (q_dim (p_qtype (pt_type p))). rewrite T.
  unfold innovation in I. step I as c0 C0. step I as c1 C1. step I as dq Dq.
  assert (Td : q_type dq = d).
  { unfold q_sub, q_addsub in Dq. cbv zeta in Dq. rewrite Tm in Dq. cbn [relative q_type] in Dq. rewrite T, R in Dq. cbn [with_rep q_rep] in Dq. rewrite Ra in Dq.
    change (common_quantity est w (with_rep t r) t double) with (common_quantity est w t t double) in Dq. unfold sum_type in D. step D as c C. rewrite C in Dq. cbn [bind] in Dq.
    step D as c2 C2. assert (c = d) by now inversion D. subst c. step Dq as a A. step Dq as b B. step Dq as e E. step Dq as f Ff. now inversion Dq. }
  assert (Rd : q_rep d = double) by (unfold sum_type in D; step D as c C; step D as c2 C2; assert (c = d) by (now inversion D); subst c; exact (common_rep_r _ _ _ _ _ _ C)).
  assert (Ti : q_type i = q).
  { unfold q_times in I. cbv zeta in I. rewrite Tg, Td in I. unfold product_type in P. step P as rf Rf. rewrite Rf in I. cbn [bind] in I. step I as n N. inversion I. inversion P.
    cbn [q_type]. now rewrite Rd. }
  assert (Rq : q_rep q = double) by (unfold product_type in P; step P as rf Rf; now inversion P).
  assert (Ts : q_type s = s').
  { unfold q_add, q_addsub in S. cbv zeta in S. cbn [relative q_type] in S. rewrite T, Ti, R, Rq in S. change (arith_rep double double) with double in S.
    unfold sum_type in S'. step S' as c C. step S' as c2 C2. assert (c = s') by now inversion S'. subst c. rewrite C in S. cbn [bind] in S.
    step S as a A. step S as b B. step S as e E. step S as f Ff. now inversion S. }
  rewrite Ts. now inversion F.
Qed.

Lemma to_type : forall est t q q', q_to est t q = Ok q' -> q_type q' = t.
Proof. intros est t q q' H. unfold q_to in H. step H as n N. now inversion H. Qed.
Lemma gain_type : forall est w a b g, kalman_gain est w a b = Ok g -> q_type g = pure_number.
Proof. intros est w a b g H. unfold kalman_gain in H. step H as s S. step H as q Q. exact (to_type _ _ _ _ H). Qed.
Lemma update_type : forall est w x m g x', state_update est w x m g = Ok x' -> q_type x' = q_type x.
Proof. intros est w x m g x' H. unfold state_update in H. step H as i I. step H as s S. exact (to_type _ _ _ _ H). Qed.

Lemma point_loop : forall rb est w t noise vq ms p u, in_doubles t -> point_fits est w t -> p_qtype (pt_type p) = t ->
  Forall (fun m => p_origin (pt_type m) = p_origin (pt_type p) /\ measures t (relative m)) ms ->
  loop (state_update_point rb est w) est w noise vq p u ms =
  (ts <- loop (state_update est w) est w noise vq (relative p) u (map relative ms); Ok (map (point_turn (pt_type p)) ts)).
Proof.
  intros rb est w t noise vq ms. induction ms as [|m ms IH]; intros p u R F T M; [reflexivity|]. inversion M as [|? ? [Om Mm] Ms]; subst. cbn [loop map].
  unfold turn_with. destruct (kalman_gain est w u vq) as [g| | | |] eqn:G; cbn [bind]; auto.
  rewrite (point_update rb est w p m g Om (keeps est w _ p m g R F eq_refl Mm (gain_type _ _ _ _ _ G))).
  destruct (state_update est w (relative p) (relative m) g) as [x'| | | |] eqn:X; cbn [bind]; auto.
  destruct (covariance_update est w u g) as [u'| | | |]; cbn [bind]; auto. destruct (predict est w noise u') as [u''| | | |]; cbn [bind t_state t_next]; auto.
  pose proof (update_type _ _ _ _ _ _ X) as Tx. cbn [relative q_type] in Tx.
  assert (Rx : relative (point_of (pt_type p) x') = x') by (unfold relative, point_of; cbn [pt_type pt_num]; rewrite <- Tx; now destruct x').
  rewrite (IH (point_of (pt_type p) x') u'' R F eq_refl Ms), Rx. cbn [point_of pt_type].
  destruct (loop (state_update est w) est w noise vq x' u'' (map relative ms)) as [ts| | | |]; reflexivity.
Qed.
Lemma point_filter_same : forall rb est w t noise vq ms p u, in_doubles t -> point_fits est w t -> p_qtype (pt_type p) = t ->
  Forall (fun m => p_origin (pt_type m) = p_origin (pt_type p) /\ measures t (relative m)) ms ->
  point_filter rb est w noise vq p u ms = (ts <- quantity_filter est w noise vq (relative p) u (map relative ms); Ok (map (point_turn (pt_type p)) ts)).
Proof.
  intros rb est w t noise vq ms p u R F T M. unfold point_filter, quantity_filter, filter. destruct (predict est w noise u) as [u'| | | |]; cbn [bind]; auto. now apply (point_loop rb est w t).
Qed.

(** ** Averages *)

Lemma average_gain_held : forall i, (1 <= i <= 2147483647)%Z -> exists g, average_gain i = Ok g /\ is_held pure_number g (rnd (1 / IZR i)).
Proof.
  intros i B. destruct (one_exact F64) as [No Vo]. destruct (of_int_exact F64 i) as [Ni Vi]; [change (2 ^ fprec F64)%Z with 9007199254740992%Z; lia|].
  assert (Pi : 1 <= IZR i) by (apply (IZR_le 1); lia).
  destruct (div_rounds F64 _ _ No Ni) as [Nd Vd]; rewrite ?Vi, ?Vo in *; [lra| |].
  { apply (small_by _ 0); [lia|]. change (pw 0) with 1. rewrite Rabs_right; [apply div_mono; lra|apply Rle_ge, div_mono'; lra]. }
  exists (Quantity pure_number (NFlt (SFdiv (fprec F64) (femax F64) (float_of_int F64 1) (float_of_int F64 i)))). split; [|eexists; split; [reflexivity|split; [exact Nd|exact Vd]]].
  unfold average_gain, n_op. cbn [arith_rep n_convert bind op_in float_op]. rewrite (conv_same F64 (float_of_int F64 1)) by apply No.
  unfold q_make. cbn [dimensionless_one q_rep safe_convertible floating orb constrained bind n_convert]. rewrite conv_same by apply Nd. reflexivity.
Qed.

Definition total (l : list R) : R := fold_right Rplus 0 l.
Lemma total_app : forall a b, total (a ++ b) = total a + total b.
Proof. induction a as [|x a IH]; intros b; [change (total ([] ++ b)) with (total b); change (total []) with 0; ring|]. change (total ((x :: a) ++ b)) with (x + total (a ++ b)). change (total (x :: a)) with (x + total a). rewrite IH. ring. Qed.

(** [xs] are within the bound of the means of the first measurements; [seen] came before. *)
Fixpoint averages_near (t : qtype) (j : Z) (seen : list R) (rs : list R) (xs : list quantity) : Prop :=
  match rs, xs with
  | [], [] => True
  | r :: rs, q :: xs =>
      (exists x, is_held t q x /\ Rabs x <= pw j /\ Rabs (x - mean (seen ++ [r])) <= (INR (length seen) + 2) * pw (j - 52)) /\
      averages_near t j (seen ++ [r]) rs xs
  | _, _ => False
  end.

Lemma average_runs : forall est w t j, in_doubles t -> update_fits est w t -> (-1000 <= j <= 1022)%Z ->
  forall ms rs, Forall2 (reads t) ms rs -> Forall (fun r => Rabs r <= pw j) rs -> forall seen x rx, is_held t x rx -> Rabs rx <= pw j ->
  Rabs (INR (length seen) * rx - total seen) <= INR (length seen) * (INR (length seen) + 1) * pw (j - 52) ->
  (Z.of_nat (length seen) + Z.of_nat (length ms) < 2147483647)%Z ->
  exists xs, average_loop est w (Z.of_nat (length seen) + 1) x ms = Ok xs /\ averages_near t j seen rs xs.
Proof.
  intros est w t j R F J. induction 1 as [|m r ms rs M _ IH]; intros B seen x rx Hx Bx E L.
  - exists []. split; [reflexivity|exact I].
  - inversion B as [|? ? Br Brs]; subst. destruct (held_fmt _ _ _ Hx) as [Fx _]. pose proof (reads_fmt _ _ _ M) as Fr. set (s := length seen) in *. cbn [length] in L.
    set (i := (Z.of_nat s + 1)%Z) in *. assert (Bi : (1 <= i <= 2147483647)%Z) by lia. destruct (average_gain_held i Bi) as (g & Eg & Hg).
    assert (Ii : IZR i = INR s + 1) by (unfold i; rewrite plus_IZR, <- INR_IZR_INZ; reflexivity). pose proof (pos_INR s) as Ps.
    assert (Kg : 0 <= rnd (1 / IZR i) <= 1).
    { split; [apply rnd_ge; [apply fmt_0|]; apply div_mono'; lra|apply rnd_le; [apply fmt_1|]; apply div_mono; lra]. }
    assert (Ng : Rabs (rnd (1 / IZR i) - 1 / IZR i) <= pw (-54)).
    { apply (half_ulp _ 0); [lia|]. change (pw 0) with 1. rewrite Rabs_right; [apply div_mono; lra|apply Rle_ge, div_mono'; lra]. }
    set (k := rnd (1 / IZR i)) in *.
    destruct (update_held est w t x m g rx r k R F Hx M Hg (update_is_small rx r k j Fx Fr Kg J Bx Br)) as (x' & Ex & Hx').
    pose proof (update_in rx r k j Fx Fr Kg J Bx Br) as Bx'. pose proof (update_err rx r k j Fx Fr Kg J Bx Br) as Ue. set (y := update_of rx r k) in *.
    assert (D : Rabs (y - (rx + (r - rx) / IZR i)) <= 2 * pw (j - 52)).
    { replace (y - (rx + (r - rx) / IZR i)) with ((y - (rx + k * (r - rx))) + (k - 1 / IZR i) * (r - rx)) by (field; lra). eapply Rle_trans; [apply Rabs_triang|]. rewrite Rabs_mult.
      assert (Rabs (k - 1 / IZR i) * Rabs (r - rx) <= pw (-54) * pw (j + 1)).
      { apply Rmult_le_compat; auto; try apply Rabs_pos. rewrite pw_step. eapply Rle_trans; [apply Rabs_triang|]. rewrite Rabs_Ropp. lra. }
      rewrite <- bpow_plus in H. replace (-54 + (j + 1))%Z with (j - 53)%Z in H by lia. replace (j - 52)%Z with (j - 53 + 1)%Z by lia. rewrite pw_step. lra. }
    assert (D' : Rabs (IZR i * y - (INR s * rx + r)) <= IZR i * (2 * pw (j - 52))).
    { replace (IZR i * y - (INR s * rx + r)) with (IZR i * (y - (rx + (r - rx) / IZR i))) by (rewrite Ii; field; lra). rewrite Rabs_mult, (Rabs_right (IZR i)) by lra.
      apply Rmult_le_compat_l; lra. }
    assert (Ls : length (seen ++ [r]) = S s) by (rewrite app_length; cbn [length]; unfold s; lia).
    assert (Is : INR (S s) = IZR i) by (rewrite S_INR; lra).
    assert (Tt : total (seen ++ [r]) = total seen + r) by (rewrite total_app; cbn [total fold_right]; ring).
    assert (E' : Rabs (INR (length (seen ++ [r])) * y - total (seen ++ [r])) <= INR (length (seen ++ [r])) * (INR (length (seen ++ [r])) + 1) * pw (j - 52)).
    { rewrite Ls, Is, Tt. replace (IZR i * y - (total seen + r)) with ((IZR i * y - (INR s * rx + r)) + (INR s * rx - total seen)) by ring. eapply Rle_trans; [apply Rabs_triang|].
      rewrite Ii in *. pose proof (pw_pos (j - 52)). nra. }
    destruct (IH Brs (seen ++ [r]) x' y Hx' Bx' E') as (xs & El & An); [rewrite Ls; lia|]. exists (x' :: xs). split.
    + cbn [average_loop]. rewrite Eg. cbn [bind]. rewrite Ex. cbn [bind]. replace (cadd I32 i 1) with (@Ok Z (i + 1)%Z).
      2:{ unfold cadd, arith. cbn [isigned I32]. replace (in_range I32 (i + 1)) with true; [reflexivity|]. symmetry. unfold in_range. apply andb_true_iff. cbn. split; apply Z.leb_le; lia. }
      cbn [bind]. replace (i + 1)%Z with (Z.of_nat (length (seen ++ [r])) + 1)%Z by (rewrite Ls; lia). rewrite El. reflexivity.
    + cbn [averages_near]. split; [|exact An]. exists y. split; [exact Hx'|]. split; [exact Bx'|]. unfold mean. fold (total (seen ++ [r])). rewrite Ls, Is in *.
      replace (y - total (seen ++ [r]) / IZR i) with ((IZR i * y - total (seen ++ [r])) * / IZR i) by (field; lra). rewrite Rabs_mult, (Rabs_right (/ IZR i)) by (apply Rle_ge, Rlt_le, Rinv_0_lt_compat; lra).
      apply Rmult_le_reg_r with (IZR i); [lra|]. rewrite Rmult_assoc, Rinv_l, Rmult_1_r by lra. eapply Rle_trans; [exact E'|]. right. rewrite Ii. unfold s. ring.
Qed.
