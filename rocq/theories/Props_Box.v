(** C103: the box of the examples. *)

From Coq Require Import ZArith String List Bool Lia Reals Lra SpecFloat.
From Flocq Require Import Core IEEE754.BinarySingleNaN.
From Verif Require Import Props_Rounding Outcome CInt Root Rep QuantityCast Quantity Box SpecReal SpecGlide SpecBox FloatProofs FloatCastProofs FloatOrderProofs CancelProofs GlideProofs BoxProofs.
Import ListNotations.
Local Open Scope list_scope.
Local Open Scope R_scope.
Local Open Scope res_scope.

(** The headers, the types and the two constants compile. *)
Theorem C103_setup : forall est, exists e, box_setup est = Ok e.
Proof. intros est. eexists. apply box_setup_env. Qed.
Print Assumptions C103_setup.

(** Every member function computes the plain expression of doubles, to the last bit: no unit and no
    conversion adds a factor or a rounding, infinities and NaNs included. *)
Theorem C103_plain : forall est e l w h b m, box_setup est = Ok e -> is_double l -> is_double w -> is_double h -> doubles_box b -> is_double m ->
  make_box e l w h = Ok (plain_box l w h) /\ filled_weight e b = Ok (plain_weight b) /\
  fill_level e b m = Ok (plain_level b m) /\ spare_capacity e b m = Ok (plain_spare b m).
Proof.
  intros est e l w h b m S L W H B M. rewrite box_setup_env in S. assert (e = box_env_of est) as -> by congruence.
  split; [now apply box_plain|]. split; [now apply weight_plain|]. split; [now apply level_plain|now apply spare_plain].
Qed.
Print Assumptions C103_plain.

(** A sequence of densities is accepted if and only if each is greater than that of air (NaN is
    not); the last one counts, and the sizes stay. *)
Theorem C103_density : forall est e b ds, box_setup est = Ok e ->
  set_densities e b ds = if forallb (fun d => air_double <? d)%D ds then Ok (Box (base_ b) (height_ b) (last ds (density_ b))) else Contract.
Proof.
  intros est e b ds S. rewrite box_setup_env in S. assert (e = box_env_of est) as -> by congruence. clear S.
  revert b. induction ds as [|d r IH]; intros b; [destruct b; reflexivity|]. cbn [set_densities forallb]. rewrite density_plain.
  assert (C : forall x y, SFltb y x = match SFcompare x y with Some Gt => true | _ => false end).
  { clear. unfold SFltb. intros [s|s| |s m q] [s'|s'| |s' m' q']; cbn; try destruct s; try destruct s'; try reflexivity; cbn.
    - rewrite (Z.compare_antisym q q'). destruct (Z.compare q q'); cbn; try reflexivity.
      change (Pos.compare_cont Eq m' m) with (Pos.compare m' m). change (Pos.compare_cont Eq m m') with (Pos.compare m m'). rewrite (Pos.compare_antisym m m'). destruct (Pos.compare m m'); reflexivity.
    - rewrite (Z.compare_antisym q q'). destruct (Z.compare q q'); cbn; try reflexivity.
      change (Pos.compare_cont Eq m' m) with (Pos.compare m' m). change (Pos.compare_cont Eq m m') with (Pos.compare m m'). rewrite (Pos.compare_antisym m m'). destruct (Pos.compare m m'); reflexivity. }
  rewrite (C d air_double). destruct (SFcompare d air_double) as [[| |]|]; try reflexivity. cbn [bind andb]. rewrite IH. cbn [base_ height_ density_].
  destruct (forallb _ r); [|reflexivity]. do 2 f_equal. destruct r as [|x r]; [reflexivity|]. cbn [last]. clear. revert x. induction r as [|y r IH]; intros x; [reflexivity|exact (IH y)].
Qed.
Print Assumptions C103_density.

(** The report of [main] in plain doubles: the sizes, given in millimetres, are multiplied by the
    double nearest to a thousandth, a percentage by a hundred, and nothing else. *)
Theorem C103_main : forall est e h l w d t m, box_setup est = Ok e ->
  is_double h -> is_double l -> is_double w -> is_double d -> is_double t -> is_double m ->
  let hm := (h * milli)%D in let b := Box (l * milli * (w * milli))%D hm d in
  match SFcompare d air_double with
  | Some Gt => exists r, box_main e h l w d t m = Ok r /\
      r_level r = plain_level b m /\ r_spare r = plain_spare b m /\
      q_unit (q_type (r_percent r)) = u_percent e /\ number_of (r_percent r) = Some (plain_level b m / hm * int 100)%D /\
      number_of (r_flow r) = Some (m / t)%D /\ number_of (r_rise r) = Some (plain_level b m / t)%D /\
      r_left r = of_type (t_second e) (plain_left hm (plain_level b m) t)
  | _ => box_main e h l w d t m = Contract
  end.
Proof.
  intros est e h l w d t m S. rewrite box_setup_env in S. assert (e = box_env_of est) as -> by congruence. apply main_plain.
Qed.
Print Assumptions C103_main.

(** A box of ordinary sizes, filled with contents of some density. *)
Definition filled (e : benv) (l w h d : spec_float) (b : box) : Prop :=
  ordinary l /\ ordinary w /\ ordinary h /\ ordinary d /\ exists b0, make_box e l w h = Ok b0 /\ set_contents_density e b0 d = Ok b.
Lemma ordinary_double : forall x, ordinary x -> is_double x.
Proof. intros x [[A _] _]. exact A. Qed.
Lemma filled_members : forall est e l w h d b, box_setup est = Ok e -> filled e l w h d b -> e = box_env_of est /\ b = Box (l * w)%D h d /\ doubles_box b.
Proof.
  intros est e l w h d b S (L & W & H & D & b0 & B0 & B). rewrite box_setup_env in S. assert (e = box_env_of est) as -> by congruence.
  rewrite box_plain in B0 by now apply ordinary_double. assert (b0 = plain_box l w h) as -> by congruence.
  rewrite density_plain in B. destruct (SFcompare d air_double) as [[| |]|]; try discriminate B.
  assert (E : b = Box (l * w)%D h d) by (unfold plain_box in B; cbn [base_ height_] in B; congruence).
  split; [reflexivity|]. split; [exact E|]. rewrite E. split; [|split]; cbn; [apply dbl_mul| |]; now apply ordinary_double.
Qed.
Lemma few_of : forall k, (Z.of_nat k <= 2 ^ 22)%Z -> INR k * roundoff F64 < 1.
Proof. exact (Props_Rounding.few F64). Qed.

(** The weight is density times volume times 9.80665, up to five roundings. *)
Theorem C103_weight : forall est e l w h d b x, box_setup est = Ok e -> filled e l w h d b -> filled_weight e b = Ok x ->
  is_number F64 x /\ within F64 5 (fval x) (fval d * (fval l * fval w * fval h) * 9.80665).
Proof.
  intros est e l w h d b x S F X. destruct (filled_members _ _ _ _ _ _ _ S F) as (-> & -> & Db). rewrite weight_plain in X by exact Db.
  assert (x = plain_weight (Box (l * w)%D h d)) as -> by congruence. destruct F as (L & W & H & D & _). destruct g_near as (_ & K & _ & M).
  destruct (weight_near l w h d L W H D 9.80665 (or_introl K) M) as (N & Y & _). split; [exact N|]. apply near_within; [apply few_of; vm_compute; discriminate|exact Y].
Qed.
Print Assumptions C103_weight.

(** The level is the mass over density and base, up to seven roundings, whatever the height and
    the gravity are. *)
Theorem C103_level : forall est e l w h d b m x, box_setup est = Ok e -> filled e l w h d b ->
  is_number F64 m -> fval m = 0 \/ ordinary m -> fill_level e b m = Ok x ->
  is_number F64 x /\ within F64 7 (fval x) (fval m / (fval d * (fval l * fval w))).
Proof.
  intros est e l w h d b m x S F Nm Zm X. destruct (filled_members _ _ _ _ _ _ _ S F) as (-> & -> & Db). rewrite level_plain in X by (exact Db || apply Nm).
  assert (x = plain_level (Box (l * w)%D h d) m) as -> by congruence. destruct F as (L & W & H & D & _).
  assert (Om : is_number F64 m /\ (fval m = 0 \/ medium 60 (fval m))) by (split; [exact Nm|]; destruct Zm as [Z|[_ O]]; [now left|right; exact O]).
  destruct (level_near l w h d L W H D m Om) as [N Y]. split; [exact N|]. apply near_within; [apply few_of; vm_compute; discriminate|exact Y].
Qed.
Print Assumptions C103_level.

(** The spare capacity is the volume of the box less that of the contents; the error is at most ten
    roundings of the sum of the two. *)
Theorem C103_spare : forall est e l w h d b m x, box_setup est = Ok e -> filled e l w h d b ->
  is_number F64 m -> fval m = 0 \/ ordinary m -> spare_capacity e b m = Ok x ->
  let V := fval l * fval w * fval h in
  is_number F64 x /\ Rabs (fval x - (V - fval m / fval d)) <= gamma F64 10 * (V + fval m / fval d).
Proof.
  intros est e l w h d b m x S F Nm Zm X. destruct (filled_members _ _ _ _ _ _ _ S F) as (-> & -> & Db). rewrite spare_plain in X by (exact Db || apply Nm).
  assert (x = plain_spare (Box (l * w)%D h d) m) as -> by congruence. destruct F as (L & W & H & D & _).
  assert (Om : is_number F64 m /\ (fval m = 0 \/ medium 60 (fval m))) by (split; [exact Nm|]; destruct Zm as [Z|[_ O]]; [now left|right; exact O]).
  destruct (spare_close l w h d L W H D m Om) as [N Y]. split; [exact N|]. apply close_gamma; [apply few_of; vm_compute; discriminate|exact Y].
Qed.
Print Assumptions C103_spare.

(** The time left is the mass still missing over the flow rate. *)
Theorem C103_time_left : forall est e l w h d b m t x, box_setup est = Ok e -> filled e l w h d b ->
  ordinary m -> ordinary t -> fill_level e b m = Ok x ->
  let full := fval d * (fval l * fval w * fval h) in let flow := fval m / fval t in
  is_number F64 (plain_left h x t) /\ Rabs (fval (plain_left h x t) - (full - fval m) / flow) <= gamma F64 10 * ((full + fval m) / flow).
Proof.
  intros est e l w h d b m t x S F Om Ot X full flow. destruct (filled_members _ _ _ _ _ _ _ S F) as (-> & -> & Db). rewrite level_plain in X by (exact Db || apply Om).
  assert (x = plain_level (Box (l * w)%D h d) m) as -> by congruence. destruct F as (L & W & H & D & _).
  destruct (level_near l w h d L W H D m (conj (proj1 Om) (or_intror (proj2 Om)))) as [N Y].
  assert (ML : medium 240 (fval m / (fval d * (fval l * fval w)))).
  { apply (medium_div 60 180); [apply Om|]. apply (medium_mul 60 120); [apply D|]. apply (medium_mul 60 60); [apply L|apply W]. }
  destruct (left_close h _ t _ H Ot N Y ML) as [N2 C]. split; [exact N2|].
  pose proof (medium_pos 60 _ (proj2 L)). pose proof (medium_pos 60 _ (proj2 W)). pose proof (medium_pos 60 _ (proj2 D)). pose proof (medium_pos 60 _ (proj2 Om)). pose proof (medium_pos 60 _ (proj2 Ot)).
  assert (E1 : (fval h / (fval m / (fval d * (fval l * fval w))) - 1) * fval t = (full - fval m) / flow) by (unfold full, flow; field; repeat split; lra).
  assert (E2 : (fval h / (fval m / (fval d * (fval l * fval w))) + 1) * fval t = (full + fval m) / flow) by (unfold full, flow; field; repeat split; lra).
  rewrite <- E1, <- E2. apply close_gamma; [apply few_of; vm_compute; discriminate|exact C].
Qed.
Print Assumptions C103_time_left.

(** A greater mass never yields a lower level nor more spare capacity, in spite of the roundings. *)
Theorem C103_monotone : forall est e b m1 m2 wt v1 v2 s1 s2, box_setup est = Ok e -> doubles_box b ->
  is_number F64 (height_ b) -> 0 <= fval (height_ b) -> is_number F64 (base_ b) -> 0 <= fval (base_ b) ->
  filled_weight e b = Ok wt -> is_number F64 wt -> 0 < fval wt ->
  is_number F64 m1 -> is_number F64 m2 -> fval m1 <= fval m2 ->
  fill_level e b m1 = Ok v1 -> fill_level e b m2 = Ok v2 -> is_number F64 v1 -> is_number F64 v2 ->
  spare_capacity e b m1 = Ok s1 -> spare_capacity e b m2 = Ok s2 -> is_number F64 s1 -> is_number F64 s2 ->
  fval v1 <= fval v2 /\ fval s2 <= fval s1.
Proof.
  intros est e b m1 m2 wt v1 v2 s1 s2 S Db Nh Ph Nb Pb Hw Nw Pw M1 M2 Le V1 V2 Nv1 Nv2 S1 S2 Ns1 Ns2.
  rewrite box_setup_env in S. assert (e = box_env_of est) as -> by congruence.
  rewrite weight_plain in Hw by exact Db. rewrite level_plain in V1, V2 by (exact Db || apply M1 || apply M2). rewrite spare_plain in S1, S2 by (exact Db || apply M1 || apply M2).
  assert (wt = plain_weight b) as -> by congruence. assert (v1 = plain_level b m1) as -> by congruence. assert (v2 = plain_level b m2) as -> by congruence.
  assert (s1 = plain_spare b m1) as -> by congruence. assert (s2 = plain_spare b m2) as -> by congruence.
  assert (L : fval (plain_level b m1) <= fval (plain_level b m2)) by now apply level_mono. split; [exact L|]. now apply spare_mono.
Qed.
Print Assumptions C103_monotone.

(** *** Cases *)

(** The literals of the example: a level of 4 cm, 20 per cent, 80 litres to spare, 0.1 kg/s, 0.2 mm/s,
    800 s left; the contents must not be lighter than air. *)
Definition whole (q : quantity) (z k : Z) : bool := match number_of q with Some x => SFeqb x (int z / int k)%D | None => false end.
Example C103_ex_main : exists e r, box_setup (fun _ v => Ok v) = Ok e /\
  box_main e (int 200) (int 1000) (int 500) (int 1000) (int 200) (int 20) = Ok r /\
  SFeqb (r_level r) (int 4 / int 100)%D = true /\ whole (r_percent r) 20 1 = true /\
  whole (r_flow r) 1 10 = true /\ whole (r_rise r) 2 10000 = true /\ whole (r_left r) 800 1 = true /\
  box_main e (int 200) (int 1000) (int 500) (int 1) (int 200) (int 20) = Contract.
Proof. do 2 eexists. split; [apply box_setup_env|]. split; [vm_compute; reflexivity|]. repeat split; vm_compute; reflexivity. Qed.

(** Whole numbers are ordinary. *)
Lemma whole_ordinary : forall z, (1 <= z <= 2 ^ 53)%Z -> ordinary (int z).
Proof.
  intros z B. destruct (of_int_exact F64 z) as [N E]; [change (2 ^ fprec F64)%Z with (2 ^ 53)%Z; lia|]. split; [exact N|].
  change (int z) with (float_of_int F64 z). rewrite E. split.
  - apply Rle_trans with 1; [change 1 with (bpow radix2 0); apply bpow_le; lia|]. apply IZR_le. lia.
  - rewrite <- (IZR_Zpower radix2) by lia. apply IZR_le. change (radix2 ^ 60)%Z with (2 ^ 60)%Z. lia.
Qed.
(** A box of 5 m by 3 m by 2 m, with water in it. *)
Example C103_ex_filled : exists e b x y, box_setup (fun _ v => Ok v) = Ok e /\ filled e (int 5) (int 3) (int 2) (int 1000) b /\
  fill_level e b (int 15000) = Ok x /\ spare_capacity e b (int 15000) = Ok y /\ SFeqb x (int 1) = true /\ SFeqb y (int 15) = true.
Proof.
  do 4 eexists. split; [apply box_setup_env|]. split.
  { do 4 (split; [apply whole_ordinary; lia|]). eexists. split; vm_compute; reflexivity. }
  split; [vm_compute; reflexivity|]. split; [vm_compute; reflexivity|]. split; vm_compute; reflexivity.
Qed.
(** Monotony for two masses in it. *)
Example C103_ex_monotone : exists e b x y, box_setup (fun _ v => Ok v) = Ok e /\ filled e (int 5) (int 3) (int 2) (int 1000) b /\
  fill_level e b (int 6000) = Ok x /\ fill_level e b (int 6001) = Ok y /\ SFltb x y = true.
Proof.
  do 4 eexists. split; [apply box_setup_env|]. split.
  { do 4 (split; [apply whole_ordinary; lia|]). eexists. split; vm_compute; reflexivity. }
  split; [vm_compute; reflexivity|]. split; vm_compute; reflexivity.
Qed.
