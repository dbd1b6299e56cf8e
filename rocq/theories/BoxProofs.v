(** The class [Box], run by the library's operators, computes the plain expressions of [SpecBox];
    the rounding errors of these. *)

From Coq Require Import ZArith String List Bool Lia Reals Lra SpecFloat.
From Flocq Require Import Core IEEE754.BinarySingleNaN.
From Verif Require Import Outcome CInt Root Ratio Unit Downcast Dim DimOp Equivalent Rep Reference QuantityCast CommonQuantity
  Quantity Point System Catalogue Includes Names Constants Box SpecReal SpecGlide SpecBox
  FloatProofs FloatCastProofs FloatAddProofs FloatOrderProofs CancelProofs GlideProofs.
Import ListNotations.
Local Open Scope list_scope.
Local Open Scope res_scope.

Definition box_env_of (est : estimate) : benv :=
  ltac:(let x := eval vm_compute in (box_setup est) in match x with Ok ?e => exact e end).
Lemma box_setup_env : forall est, box_setup est = Ok (box_env_of est).
Proof. intros est. vm_compute. reflexivity. Qed.

Lemma g_bits : S754_finite false 5520653160719109 (-49) = g_double.
Proof. vm_compute. reflexivity. Qed.
Lemma air_bits : S754_finite false 5516909543528858 (-52) = air_double.
Proof. vm_compute. reflexivity. Qed.
Lemma g_is_double : is_double g_double.
Proof. vm_compute. reflexivity. Qed.
Lemma air_is_double : is_double air_double.
Proof. vm_compute. reflexivity. Qed.
Lemma milli_is_double : is_double milli.
Proof. vm_compute. reflexivity. Qed.
Lemma milli_bits : SFdiv 53 1024 (SFmul 53 1024 (float_of_int F64 1) (fpow10 F64 (-3))) (float_of_int F64 1) = milli.
Proof. vm_compute. reflexivity. Qed.
Lemma hundred_bits : SFdiv 53 1024 (SFmul 53 1024 (float_of_int F64 1) (fpow10 F64 2)) (float_of_int F64 1) = int 100.
Proof. vm_compute. reflexivity. Qed.
#[export] Hint Resolve g_is_double air_is_double milli_is_double : dbl.
Global Opaque g_double air_double milli.

Ltac runb := cbv -[SFadd SFsub SFmul SFdiv SFsqrt SFopp SFcompare SFltb float_conv float_of_int fpow10 int g_double air_double milli is_double];
  rewrite ?milli_bits, ?hundred_bits, ?g_bits, ?air_bits, ?int_of; repeat (rewrite conv by (auto 12 with dbl)).

Definition doubles_box (b : box) : Prop := is_double (base_ b) /\ is_double (height_ b) /\ is_double (density_ b).

Section Functions.
Variable est : estimate.
Let e := box_env_of est.

Lemma box_plain : forall l w h, is_double l -> is_double w -> make_box e l w h = Ok (plain_box l w h).
Proof using. clear - e. intros l w h L W. unfold e. runb. reflexivity. Qed.
Lemma weight_plain : forall b, doubles_box b -> filled_weight e b = Ok (plain_weight b).
Proof using. clear - e. intros [a h d] (A & B & C). cbn [base_ height_ density_] in A, B, C. unfold e. runb. reflexivity. Qed.
Lemma level_plain : forall b m, doubles_box b -> is_double m -> fill_level e b m = Ok (plain_level b m).
Proof using. clear - e. intros [a h d] m (A & B & C) M. cbn [base_ height_ density_] in A, B, C. unfold e. runb. reflexivity. Qed.
Lemma spare_plain : forall b m, doubles_box b -> is_double m -> spare_capacity e b m = Ok (plain_spare b m).
Proof using. clear - e. intros [a h d] m (A & B & C) M. cbn [base_ height_ density_] in A, B, C. unfold e. runb. reflexivity. Qed.
Lemma density_plain : forall b d, set_contents_density e b d =
  match SFcompare d air_double with Some Gt => Ok (Box (base_ b) (height_ b) d) | _ => Contract end.
Proof using. clear - e. intros [a h r] d. unfold e. runb. reflexivity. Qed.

(** The steps of [main]. *)
Lemma height_plain : forall x, is_double x ->
  q_cast est (b_world e) (ToUnit (u_metre e)) (of_type (t_millimetre e) x) = Ok (of_type (t_length e) (x * milli)%D).
Proof using. clear - e. intros x X. unfold e. runb. reflexivity. Qed.
Lemma size_plain : forall x, is_double x -> to_type e (t_length e) (of_type (t_millimetre e) x) = Ok (x * milli)%D.
Proof using. clear - e. intros x X. unfold e. runb. reflexivity. Qed.
Lemma same_plain : forall x, to_type e (t_length e) (of_type (t_length e) x) = Ok x.
Proof using. clear - e. intros x. unfold e. runb. reflexivity. Qed.
Lemma percent_plain : forall x y, is_double x -> is_double y -> exists q,
  (p <- q_over (b_world e) (of_type (t_length e) x) (of_type (t_length e) y); q_cast est (b_world e) (ToUnit (u_percent e)) p) = Ok q /\
  q_unit (q_type q) = u_percent e /\ number_of q = Some (x / y * int 100)%D.
Proof using. clear - e. intros x y X Y. unfold e. eexists. split; [runb; reflexivity|]. split; reflexivity. Qed.
Lemma flow_plain : forall x y, is_double x -> is_double y -> exists q,
  q_over (b_world e) (of_type (t_mass e) x) (of_type (t_second e) y) = Ok q /\ number_of q = Some (x / y)%D.
Proof using. clear - e. intros x y X Y. unfold e. eexists. split; [runb; reflexivity|]. reflexivity. Qed.
Lemma rise_plain : forall x y, is_double x -> is_double y -> exists q,
  q_over (b_world e) (of_type (t_length e) x) (of_type (t_second e) y) = Ok q /\ number_of q = Some (x / y)%D.
Proof using. clear - e. intros x y X Y. unfold e. eexists. split; [runb; reflexivity|]. reflexivity. Qed.
Lemma left_plain : forall x y t, is_double x -> is_double y -> is_double t ->
  (r <- q_over (b_world e) (of_type (t_length e) x) (of_type (t_length e) y);
   r1 <- q_addsub_value OpSub false r (RInt I32) (NInt 1);
   q_times (b_world e) r1 (of_type (t_second e) t)) = Ok (of_type (t_second e) (plain_left x y t)).
Proof using. clear - e. intros x y t X Y T. unfold e, plain_left. runb. reflexivity. Qed.

Lemma main_plain : forall h l w d t m, is_double h -> is_double l -> is_double w -> is_double d -> is_double t -> is_double m ->
  let hm := (h * milli)%D in
  let b := Box (l * milli * (w * milli))%D hm d in
  match SFcompare d air_double with
  | Some Gt => exists r, box_main e h l w d t m = Ok r /\
      r_level r = plain_level b m /\ r_spare r = plain_spare b m /\
      q_unit (q_type (r_percent r)) = u_percent e /\ number_of (r_percent r) = Some (plain_level b m / hm * int 100)%D /\
      number_of (r_flow r) = Some (m / t)%D /\ number_of (r_rise r) = Some (plain_level b m / t)%D /\
      r_left r = of_type (t_second e) (plain_left hm (plain_level b m) t)
  | _ => box_main e h l w d t m = Contract
  end.
Proof using.
  intros h l w d t m H L W D T M hm b. assert (Hm : is_double hm) by (unfold hm; auto with dbl).
  assert (Db : doubles_box b) by (unfold b; split; [|split]; cbn; auto with dbl).
  assert (Dl : is_double (plain_level b m)) by (unfold plain_level, plain_weight; destruct Db as (X & Y & Z); auto 8 with dbl).
  unfold box_main. change (b_est e) with est. rewrite (height_plain h H). fold hm. cbn [bind]. rewrite (size_plain l L), (size_plain w W), same_plain. cbn [bind].
  rewrite box_plain by auto with dbl. cbn [bind]. rewrite density_plain. unfold plain_box. cbn [base_ height_]. fold b.
  destruct (SFcompare d air_double) as [[| |]|]; try reflexivity. cbn [bind]. fold b.
  rewrite (level_plain b m Db M). cbn [bind]. set (v := plain_level b m) in *.
  destruct (percent_plain v hm Dl Hm) as (q & P & Pu & Pn). destruct (flow_plain m t M T) as (fl & F & Fn). destruct (rise_plain v t Dl T) as (ri & R & Rn).
  pose proof (left_plain hm v t Hm Dl T) as Lf.
  destruct (q_over (b_world e) (of_type (t_length e) v) (of_type (t_length e) hm)) as [p| | | |]; try discriminate P. cbn [bind] in P |- *. rewrite P. cbn [bind].
  rewrite (spare_plain b m Db M). cbn [bind]. rewrite F. cbn [bind]. rewrite R. cbn [bind].
  destruct (q_over (b_world e) (of_type (t_length e) hm) (of_type (t_length e) v)) as [r| | | |]; try discriminate Lf. cbn [bind] in Lf |- *.
  destruct (q_addsub_value OpSub false r (RInt I32) (NInt 1)) as [r1| | | |]; try discriminate Lf. cbn [bind] in Lf |- *. rewrite Lf. cbn [bind].
  eexists. split; [reflexivity|]. cbn. repeat split; assumption.
Qed.
End Functions.

(** ** Rounding errors *)

Local Open Scope R_scope.

(** Products of ordinary sizes stay in the middle of the range. *)
Definition medium (n : Z) (r : R) : Prop := bpow radix2 (- n) <= r <= bpow radix2 n.
Lemma medium_pos : forall n r, medium n r -> 0 < r.
Proof. intros n r [A _]. pose proof (bpow_gt_0 radix2 (- n)). lra. Qed.
Lemma medium_mul : forall n k r s, medium n r -> medium k s -> medium (n + k) (r * s).
Proof.
  intros n k r s [A B] [C D]. pose proof (bpow_gt_0 radix2 (- n)). pose proof (bpow_gt_0 radix2 (- k)). split.
  - replace (- (n + k))%Z with (- n + - k)%Z by lia. rewrite bpow_plus. apply Rmult_le_compat; lra.
  - rewrite bpow_plus. apply Rmult_le_compat; lra.
Qed.
Lemma medium_inv : forall n r, medium n r -> medium n (/ r).
Proof.
  intros n r M. pose proof (medium_pos _ _ M) as P. destruct M as [A B]. pose proof (bpow_gt_0 radix2 (- n)). split.
  - rewrite bpow_opp. apply Rinv_le; lra.
  - replace n with (- - n)%Z by lia. rewrite bpow_opp. apply Rinv_le; lra.
Qed.
Lemma medium_div : forall n k r s, medium n r -> medium k s -> medium (n + k) (r / s).
Proof. intros n k r s A B. apply medium_mul; [exact A|now apply medium_inv]. Qed.
Lemma medium_mid : forall n r, (n <= 1020)%Z -> medium n r -> mid_range F64 r.
Proof.
  intros n r L M. right. rewrite Rabs_right by (apply Rle_ge, Rlt_le, (medium_pos n); exact M). destruct M as [A B]. split.
  - eapply Rle_trans; [|exact A]. apply bpow_le. cbn. lia.
  - eapply Rle_trans; [exact B|]. apply bpow_le. cbn. lia.
Qed.
Lemma ordinary_medium : forall x, ordinary x -> is_number F64 x /\ medium 60 (fval x).
Proof. intros x [A B]. split; [exact A|exact B]. Qed.

Lemma g_near : is_number F64 g_double /\ near F64 1 (fval g_double) 9.80665 /\ medium 60 (fval g_double) /\ medium 60 9.80665.
Proof.
  assert (M : medium 60 9.80665) by (unfold medium; cbn; lra).
  assert (X : is_number F64 (int 980665) /\ near F64 0 (fval (int 980665)) 980665).
  { destruct (of_int_exact F64 980665) as [A B]; [vm_compute; discriminate|]. split; [exact A|]. change (int 980665) with (float_of_int F64 980665). rewrite B. apply near_refl. }
  assert (Y : is_number F64 (int 100000) /\ near F64 0 (fval (int 100000)) 100000).
  { destruct (of_int_exact F64 100000) as [A B]; [vm_compute; discriminate|]. split; [exact A|]. change (int 100000) with (float_of_int F64 100000). rewrite B. apply near_refl. }
  destruct X as [Nx X]. destruct Y as [Ny Y].
  destruct (div_near F64 0 0 _ _ _ _ Nx Ny X Y) as [A B]; [lra|vm_compute; discriminate| |].
  { apply (medium_mid 60); [lia|]. replace (980665 / 100000) with 9.80665 by lra. exact M. }
  change (SFdiv (fprec F64) (femax F64) (int 980665) (int 100000)) with g_double in A, B. replace (980665 / 100000) with 9.80665 in B by lra.
  split; [exact A|]. split; [exact B|]. split; [|exact M]. destruct (near_between F64 1 (fval g_double) 9.80665 ltac:(vm_compute; discriminate) B) as [C D].
  pose proof (near_pos F64 1 _ 9.80665 B ltac:(lra)) as P. rewrite (Rabs_right (fval g_double)), (Rabs_right 9.80665) in C, D by lra. unfold medium. cbn. lra.
Qed.

Section Errors.
Variables l w h d : spec_float.
Hypotheses (Ol : ordinary l) (Ow : ordinary w) (Oh : ordinary h) (Od : ordinary d).
Let b := Box (l * w)%D h d.
Let A := fval l * fval w.
Let V := A * fval h.

Lemma base_near : is_number F64 (l * w)%D /\ near F64 1 (fval (l * w)%D) A.
Proof.
  destruct (ordinary_medium _ Ol) as [Nl Ml]. destruct (ordinary_medium _ Ow) as [Nw Mw].
  apply (mul_near F64 0 0 l w _ _ Nl Nw (near_refl _ _) (near_refl _ _)); [vm_compute; discriminate|].
  apply (medium_mid 120); [lia|]. apply (medium_mul 60 60); assumption.
Qed.
Lemma weight_near : forall g, near F64 1 (fval g_double) g \/ g = fval g_double -> medium 60 g ->
  is_number F64 (plain_weight b) /\ near F64 5 (fval (plain_weight b)) (fval d * V * g) /\ (g = fval g_double -> near F64 4 (fval (plain_weight b)) (fval d * V * g)).
Proof.
  intros g Hg Mg. destruct (ordinary_medium _ Ol) as [Nl Ml]. destruct (ordinary_medium _ Ow) as [Nw Mw]. destruct (ordinary_medium _ Oh) as [Nh Mh]. destruct (ordinary_medium _ Od) as [Nd Md].
  destruct g_near as (Ng & _ & _). destruct base_near as [Na Ka].
  assert (MA : medium 120 A) by (apply (medium_mul 60 60); assumption). assert (MV : medium 180 V) by (apply (medium_mul 120 60); assumption).
  destruct (mul_near F64 1 0 _ h _ _ Na Nh Ka (near_refl _ _)) as [Nv Kv]; [vm_compute; discriminate|apply (medium_mid 180); [lia|exact MV]|].
  assert (MM : medium 240 (fval d * V)) by (apply (medium_mul 60 180); assumption).
  destruct (mul_near F64 0 2 d _ _ _ Nd Nv (near_refl _ _) Kv) as [Nm Km]; [vm_compute; discriminate|apply (medium_mid 240); [lia|exact MM]|].
  assert (MW : mid_range F64 (fval d * V * g)) by (apply (medium_mid 300); [lia|apply (medium_mul 240 60); assumption]).
  assert (K1 : forall j, (j <= 1)%nat -> near F64 j (fval g_double) g -> is_number F64 (plain_weight b) /\ near F64 (3 + j + 1) (fval (plain_weight b)) (fval d * V * g)).
  { intros j Lj K. apply (mul_near F64 3 j _ _ _ _ Nm Ng Km K); [change (2 ^ 23)%Z with 8388608%Z; lia|exact MW]. }
  destruct Hg as [K| ->].
  - destruct (K1 1%nat (le_n _) K) as [X Y]. split; [exact X|]. split; [exact Y|]. intros ->. now destruct (K1 0%nat ltac:(lia) (near_refl _ _)).
  - destruct (K1 0%nat ltac:(lia) (near_refl _ _)) as [X Y]. split; [exact X|]. split; [|intros _; exact Y]. apply near_weaken with (k := 4%nat); [lia|exact Y].
Qed.

Variable m : spec_float.
Hypothesis Om : is_number F64 m /\ (fval m = 0 \/ medium 60 (fval m)).
Lemma or_zero : forall n r s, (60 + n <= 1020)%Z -> medium n s -> r = fval m * s -> mid_range F64 r.
Proof.
  intros n r s L M ->. destruct Om as [_ [Z|Mm]]; [left; rewrite Z; ring|]. apply (medium_mid (60 + n)); [exact L|]. now apply medium_mul.
Qed.
Lemma level_near : is_number F64 (plain_level b m) /\ near F64 7 (fval (plain_level b m)) (fval m / (fval d * A)).
Proof.
  destruct (ordinary_medium _ Ol) as [Nl Ml]. destruct (ordinary_medium _ Ow) as [Nw Mw]. destruct (ordinary_medium _ Oh) as [Nh Mh]. destruct (ordinary_medium _ Od) as [Nd Md].
  destruct g_near as (Ng & _ & Mg & _). destruct Om as [Nm _].
  assert (MA : medium 120 A) by (apply (medium_mul 60 60); assumption). assert (MV : medium 180 V) by (apply (medium_mul 120 60); assumption).
  destruct (weight_near (fval g_double) (or_intror eq_refl) Mg) as (Nw' & _ & Kw). specialize (Kw eq_refl).
  destruct (mul_near F64 0 0 h m _ _ Nh Nm (near_refl _ _) (near_refl _ _)) as [N1 K1]; [vm_compute; discriminate|apply (or_zero 60 _ (fval h)); [lia|exact Mh|ring]|].
  destruct (mul_near F64 1 0 _ _ _ _ N1 Ng K1 (near_refl _ _)) as [N2 K2];
    [vm_compute; discriminate|apply (or_zero 120 _ (fval h * fval g_double)); [lia|now apply (medium_mul 60 60)|ring]|].
  pose proof (medium_pos _ _ Mh) as Ph. pose proof (medium_pos _ _ Md) as Pd. pose proof (medium_pos _ _ MA) as PA. pose proof (medium_pos _ _ Mg) as Pg.
  assert (E : fval h * fval m * fval g_double / (fval d * V * fval g_double) = fval m / (fval d * A)) by (unfold V; field; repeat split; lra).
  rewrite <- E. apply (div_near F64 2 4 _ _ _ _ N2 Nw' K2 Kw).
  - apply Rgt_not_eq. apply Rmult_lt_0_compat; [|exact Pg]. apply Rmult_lt_0_compat; [exact Pd|]. apply Rmult_lt_0_compat; [exact PA|exact Ph].
  - vm_compute; discriminate.
  - rewrite E. apply (or_zero 180 _ (/ (fval d * A))); [lia| |reflexivity]. apply medium_inv. now apply (medium_mul 60 120).
Qed.

(** The magnitude of the difference: the whole volume and the part filled. *)
Lemma spare_close : is_number F64 (plain_spare b m) /\ close F64 10 (fval (plain_spare b m)) (V - fval m / fval d) (V + fval m / fval d).
Proof.
  destruct (ordinary_medium _ Ol) as [Nl Ml]. destruct (ordinary_medium _ Ow) as [Nw Mw]. destruct (ordinary_medium _ Oh) as [Nh Mh]. destruct (ordinary_medium _ Od) as [Nd Md].
  assert (MA : medium 120 A) by (apply (medium_mul 60 60); assumption). pose proof (medium_pos _ _ MA) as PA. pose proof (medium_pos _ _ Mh) as Ph. pose proof (medium_pos _ _ Md) as Pd.
  destruct level_near as [Nv Kv]. destruct base_near as [Na Ka]. set (L := fval m / (fval d * A)) in *.
  assert (P0 : 0 <= fval m) by (destruct Om as [_ [-> |M]]; [lra|apply Rlt_le, (medium_pos 60); exact M]).
  assert (PL : 0 <= L) by (unfold L; apply Rmult_le_pos; [exact P0|apply Rlt_le, Rinv_0_lt_compat; nra]).
  assert (UL : L <= bpow radix2 240).
  { unfold L. destruct Om as [_ [-> |M]]; [unfold Rdiv; rewrite Rmult_0_l; apply bpow_ge_0|]. apply (medium_div 60 180); [exact M|]. now apply (medium_mul 60 120). }
  assert (Ch : close F64 7 (fval h) (fval h) (fval h)).
  { pose proof (close_near F64 0 _ _ (near_refl F64 (fval h))) as X. rewrite Rabs_right in X by lra. apply (close_weaken F64 0 7); [lia|exact X]. }
  pose proof (close_near _ _ _ _ Kv) as Cv. rewrite (Rabs_right L) in Cv by lra. apply close_opp in Cv.
  pose proof (close_plus _ _ _ _ _ _ _ _ Ch Cv) as C.
  assert (Mid : medium 300 (fval h + L)).
  { destruct Mh as [M1 M2]. split; [apply Rle_trans with (fval h); [eapply Rle_trans; [|exact M1]; apply bpow_le; lia|lra]|].
    apply Rle_trans with (bpow radix2 240 + bpow radix2 240); [apply Rplus_le_compat; [eapply Rle_trans; [exact M2|apply bpow_le; lia]|exact UL]|].
    replace (bpow radix2 240 + bpow radix2 240) with (bpow radix2 241) by (change 241%Z with (1 + 240)%Z; rewrite bpow_plus; cbn [bpow]; change (Z.pow_pos radix2 1) with 2%Z; ring). apply bpow_le. lia. }
  assert (Mid1 : mid_range F64 (fval h + L)) by (apply (medium_mid 300); [lia|exact Mid]).
  destruct (sub_rounds F64 h (plain_level b m) Nh Nv) as [Ns Fs]; [exact (close_finite F64 7 _ _ (fval h + L) ltac:(vm_compute; discriminate) Mid1 C)|].
  pose proof (close_round F64 7 _ _ _ Mid1 C) as C1. unfold Rminus in Fs. rewrite <- Fs in C1.
  pose proof (close_near _ _ _ _ Ka) as Ca. rewrite (Rabs_right A) in Ca by lra.
  destruct (mul_close F64 8 1 _ _ _ _ _ _ Ns Na C1 Ca) as [N2 C2]; [vm_compute; discriminate|apply (medium_mid 420); [lia|now apply (medium_mul 300 120)]|].
  split; [exact N2|].
  assert (E1 : (fval h + - L) * A = V - fval m / fval d) by (unfold L, V; field; split; lra).
  assert (E2 : (fval h + L) * A = V + fval m / fval d) by (unfold L, V; field; split; lra).
  rewrite <- E1, <- E2. exact C2.
Qed.
End Errors.

Lemma one_number : is_number F64 (int 1) /\ fval (int 1) = 1.
Proof. exact (one_exact F64). Qed.
(** The time left, from a level known up to some roundings. *)
Lemma left_close : forall h v t L, ordinary h -> ordinary t -> is_number F64 v -> near F64 7 (fval v) L -> medium 240 L ->
  is_number F64 (plain_left h v t) /\ close F64 10 (fval (plain_left h v t)) ((fval h / L - 1) * fval t) ((fval h / L + 1) * fval t).
Proof.
  intros h v t L Oh Ot Nv Kv ML. destruct (ordinary_medium _ Oh) as [Nh Mh]. destruct (ordinary_medium _ Ot) as [Nt Mt].
  pose proof (medium_pos _ _ ML) as PL. pose proof (medium_pos _ _ Mh) as Ph. pose proof (medium_pos _ _ Mt) as Pt.
  assert (Mq : medium 300 (fval h / L)) by (apply (medium_div 60 240); assumption). pose proof (medium_pos _ _ Mq) as Pq.
  destruct (div_near F64 0 7 h v _ _ Nh Nv (near_refl _ _) Kv) as [Nq Kq]; [lra|vm_compute; discriminate|apply (medium_mid 300); [lia|exact Mq]|].
  change (SFdiv (fprec F64) (femax F64) h v) with (h / v)%D in Nq, Kq.
  pose proof (close_near _ _ _ _ Kq) as Cq. rewrite (Rabs_right (fval h / L)) in Cq by lra. destruct one_number as [No Eo].
  assert (Co : close F64 8 (- fval (int 1)) (- (1)) 1).
  { apply close_opp. rewrite Eo. pose proof (close_near F64 0 _ _ (near_refl F64 1)) as X. rewrite Rabs_R1 in X. apply (close_weaken F64 0 8); [lia|exact X]. }
  pose proof (close_plus _ _ _ _ _ _ _ _ Cq Co) as C.
  assert (M1 : medium 301 (fval h / L + 1)).
  { destruct Mq as [Q1 Q2]. split; [apply Rle_trans with (fval h / L); [eapply Rle_trans; [|exact Q1]; apply bpow_le; lia|lra]|].
    replace (bpow radix2 301) with (bpow radix2 300 + bpow radix2 300) by (change 301%Z with (1 + 300)%Z; rewrite (bpow_plus radix2 1 300); cbn [bpow]; change (Z.pow_pos radix2 1) with 2%Z; ring).
    apply Rplus_le_compat; [exact Q2|]. change 1 with (bpow radix2 0). apply bpow_le. lia. }
  assert (Mid : mid_range F64 (fval h / L + 1)) by (apply (medium_mid 301); [lia|exact M1]).
  destruct (sub_rounds F64 (h / v)%D (int 1) Nq No) as [Ns Fs]; [exact (close_finite F64 8 _ _ (fval h / L + 1) ltac:(vm_compute; discriminate) Mid C)|].
  pose proof (close_round F64 8 _ _ _ Mid C) as C1. unfold Rminus in Fs. rewrite <- Fs in C1.
  pose proof (close_near F64 0 _ _ (near_refl F64 (fval t))) as Ct. rewrite (Rabs_right (fval t)) in Ct by lra.
  apply (mul_close F64 9 0 _ _ _ _ _ _ Ns Nt C1 Ct); [vm_compute; discriminate|]. apply (medium_mid 361); [lia|]. now apply (medium_mul 301 60).
Qed.

(** ** Monotony *)

Lemma mul_finite : forall x y, is_finite_SF (x * y)%D = true -> is_finite_SF x = true /\ is_finite_SF y = true.
Proof. intros [s|s| |s m e] [s'|s'| |s' m' e']; cbn; auto; discriminate. Qed.
Lemma div_finite : forall x y, is_finite_SF (x / y)%D = true -> is_finite_SF x = true.
Proof. intros [s|s| |s m e] [s'|s'| |s' m' e']; cbn; auto; discriminate. Qed.
Lemma div_number_inv : forall f x y, is_number f x -> is_number f y -> fval y <> 0 -> is_number f (SFdiv (fprec f) (femax f) x y) ->
  fval (SFdiv (fprec f) (femax f) x y) = frnd f (fval x / fval y).
Proof.
  intros f x y Hx Hy N [_ F]. destruct (number_B f x Hx) as (bx & <- & Vx & Fx). destruct (number_B f y Hy) as (b_y & <- & Vy & Fy).
  rewrite div_equiv in *. rewrite <- Vy in N. pose proof (Bdiv_correct (fprec f) (femax f) _ _ mode_NE bx b_y N) as C.
  rewrite Vx, Vy in C. destruct (Rlt_bool _ _).
  - destruct C as (C1 & _). rewrite B_val. exact C1.
  - rewrite C in F. discriminate F.
Qed.
Lemma sub_number_inv : forall f x y, is_number f x -> is_number f y -> is_number f (SFsub (fprec f) (femax f) x y) ->
  fval (SFsub (fprec f) (femax f) x y) = frnd f (fval x - fval y).
Proof.
  intros f x y Hx Hy [_ F]. destruct (number_B f x Hx) as (bx & <- & Vx & Fx). destruct (number_B f y Hy) as (b_y & <- & Vy & Fy).
  rewrite sub_equiv in *. pose proof (Bminus_correct (fprec f) (femax f) _ _ mode_NE bx b_y Fx Fy) as C.
  rewrite Vx, Vy in C. destruct (Rlt_bool _ _).
  - destruct C as (C1 & _). rewrite B_val. exact C1.
  - destruct C as [C _]. rewrite C in F. discriminate F.
Qed.
Lemma level_parts : forall b m, is_number F64 (height_ b) -> is_number F64 m -> is_number F64 (plain_weight b) -> 0 < fval (plain_weight b) ->
  is_number F64 (plain_level b m) ->
  fval (plain_level b m) = frnd F64 (frnd F64 (frnd F64 (fval (height_ b) * fval m) * fval g_double) / fval (plain_weight b)).
Proof.
  intros b m Nh Nm Nw Pw Nl. pose proof (proj2 Nl) as F. apply div_finite in F. destruct (mul_finite _ _ F) as [F1 _]. destruct g_near as (Ng & _).
  assert (N1 : is_number F64 (height_ b * m)%D) by (split; [apply dbl_mul; [apply Nh|apply Nm]|exact F1]).
  assert (N2 : is_number F64 (height_ b * m * g_double)%D) by (split; [apply dbl_mul; [apply N1|apply Ng]|exact F]).
  assert (E1 : fval (height_ b * m)%D = frnd F64 (fval (height_ b) * fval m)) by exact (mul_number_inv F64 _ _ Nh Nm N1).
  assert (E2 : fval (height_ b * m * g_double)%D = frnd F64 (fval (height_ b * m)%D * fval g_double)) by exact (mul_number_inv F64 _ _ N1 Ng N2).
  rewrite <- E1, <- E2. apply (div_number_inv F64 _ _ N2 Nw); [lra|exact Nl].
Qed.
Lemma level_mono : forall b m1 m2, is_number F64 (height_ b) -> 0 <= fval (height_ b) -> is_number F64 (plain_weight b) -> 0 < fval (plain_weight b) ->
  is_number F64 m1 -> is_number F64 m2 -> fval m1 <= fval m2 -> is_number F64 (plain_level b m1) -> is_number F64 (plain_level b m2) ->
  fval (plain_level b m1) <= fval (plain_level b m2).
Proof.
  intros b m1 m2 Nh Ph Nw Pw N1 N2 L L1 L2. rewrite (level_parts b m1 Nh N1 Nw Pw L1), (level_parts b m2 Nh N2 Nw Pw L2).
  destruct g_near as (_ & _ & Mg & _). pose proof (medium_pos _ _ Mg) as Pg.
  apply frnd_le. apply Rmult_le_compat_r; [apply Rlt_le; now apply Rinv_0_lt_compat|]. apply frnd_le. apply Rmult_le_compat_r; [lra|]. apply frnd_le.
  now apply Rmult_le_compat_l.
Qed.
Lemma spare_parts : forall b m, is_number F64 (height_ b) -> is_number F64 (base_ b) -> is_number F64 (plain_level b m) -> is_number F64 (plain_spare b m) ->
  fval (plain_spare b m) = frnd F64 (frnd F64 (fval (height_ b) - fval (plain_level b m)) * fval (base_ b)).
Proof.
  intros b m Nh Nb Nl Ns. pose proof (proj2 Ns) as F. destruct (mul_finite _ _ F) as [F1 _].
  assert (N1 : is_number F64 (height_ b - plain_level b m)%D) by (split; [apply dbl_sub; [apply Nh|apply Nl]|exact F1]).
  assert (E1 : fval (height_ b - plain_level b m)%D = frnd F64 (fval (height_ b) - fval (plain_level b m))) by exact (sub_number_inv F64 _ _ Nh Nl N1).
  rewrite <- E1. exact (mul_number_inv F64 _ _ N1 Nb Ns).
Qed.
Lemma spare_mono : forall b m1 m2, is_number F64 (height_ b) -> is_number F64 (base_ b) -> 0 <= fval (base_ b) ->
  fval (plain_level b m1) <= fval (plain_level b m2) -> is_number F64 (plain_level b m1) -> is_number F64 (plain_level b m2) ->
  is_number F64 (plain_spare b m1) -> is_number F64 (plain_spare b m2) -> fval (plain_spare b m2) <= fval (plain_spare b m1).
Proof.
  intros b m1 m2 Nh Nb Pb L L1 L2 S1 S2. rewrite (spare_parts b m1 Nh Nb L1 S1), (spare_parts b m2 Nh Nb L2 S2).
  apply frnd_le. apply Rmult_le_compat_r; [exact Pb|]. apply frnd_le. lra.
Qed.
