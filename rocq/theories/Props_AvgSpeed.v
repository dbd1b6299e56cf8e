(** C106: the average speed of the examples. *)

From Coq Require Import ZArith String List Bool Lia Reals Lra SpecFloat.
From Flocq Require Import Core IEEE754.BinarySingleNaN.
From Verif Require Import Props_Rounding Outcome CInt Root Unit Dim Equivalent Rep Reference QuantityCast Quantity Point Names AvgSpeed SpecReal SpecGlide SpecCapacitor SpecAvgSpeed
  FloatProofs FloatCastProofs FloatOrderProofs RoundingProofs CancelProofs GlideProofs BoxProofs CapacitorProofs AvgSpeedProofs Props_Capacitor.
Import ListNotations.
Local Open Scope list_scope.
Local Open Scope R_scope.
Local Open Scope res_scope.

(** The headers and the references compile. *)
Theorem C106_setup : forall est, exists e, avg_speed_setup est = Ok e.
Proof. intros est. eexists. apply avg_setup_env. Qed.
Print Assumptions C106_setup.

Ltac env H := rewrite avg_setup_env in H; injection H as <-.
Lemma range_int : forall z, an_int z -> in_range I32 z = true.
Proof. intros z Z. now apply int32. Qed.

(** ** Integers *)

(** [fixed_int_si_avg_speed] of whole kilometres and hours: if metres and seconds fit [int], the
    quotient is exact up to the fraction cut off, so the speed printed is too low, by less than one
    metre per second. *)
Theorem C106_fixed_int : forall est e d t, avg_speed_setup est = Ok e -> an_int (d * 1000) -> an_int (t * 3600) -> (0 <= d)%Z -> (0 < t)%Z ->
  exists v, fixed_avg_speed e (RInt I32) (ints (a_km e) d) (ints (a_h e) t) = Ok (ints (a_mps e) v) /\
    print_result e (ints (a_mps e) v) = Ok (doubles (a_kmph e) (plain_kmph (int v))) /\
    IZR v * (36 / 10) <= IZR d / IZR t < (IZR v + 1) * (36 / 10).
Proof.
  intros est e d t S D T Pd Pt. env S. unfold an_int in *. exists (Z.quot (d * 1000) (t * 3600)).
  pose proof (Z.quot_pos (d * 1000) (t * 3600) ltac:(lia) ltac:(lia)) as Q0. pose proof (Z.quot_le_upper_bound (d * 1000) (t * 3600) (d * 1000) ltac:(lia) ltac:(nia)) as Q1.
  split; [|split].
  - change (ints ?x ?z) with (qi x z). rewrite (fixed_int est d t) by (apply int32; lia). cbv zeta.
    rewrite !wrap_id by (apply int32; lia). assert (N : (t * 3600 =? 0)%Z = false) by (apply Z.eqb_neq; lia). rewrite N.
    rewrite (proj2 (int32 _)) by lia. reflexivity.
  - apply print_mps_int.
  - rewrite Z.quot_div_nonneg by lia. pose proof (Z.div_mod (d * 1000) (t * 3600) ltac:(lia)) as E. pose proof (Z.mod_pos_bound (d * 1000) (t * 3600) ltac:(lia)) as M.
    set (v := (d * 1000 / (t * 3600))%Z) in *. assert (A : (v * 36 * t <= d * 10)%Z) by nia. assert (B : (d * 10 < (v + 1) * 36 * t)%Z) by nia.
    apply IZR_le in A. apply IZR_lt in B. rewrite !mult_IZR, ?plus_IZR in A. rewrite !mult_IZR, plus_IZR in B. apply IZR_lt in Pt.
    assert (F : IZR d / IZR t * IZR t = IZR d) by (field; lra).
    split; [apply Rmult_le_reg_r with (IZR t)|apply Rmult_lt_reg_r with (IZR t)]; try exact Pt; rewrite F; lra.
Qed.
Print Assumptions C106_fixed_int.

(** If they do not fit, nothing says so: the conversions wrap around, and the result is that of
    other numbers.  A duration of no hours is undefined, and so are durations whose seconds wrap to
    none. *)
Theorem C106_wraps : forall est e d t d' t', avg_speed_setup est = Ok e -> an_int d -> an_int t -> an_int d' -> an_int t' ->
  (exists k, d * 1000 = d' + k * 2 ^ 32)%Z -> (exists k, t * 3600 = t' + k * 2 ^ 32)%Z ->
  (t' = 0%Z -> fixed_avg_speed e (RInt I32) (ints (a_km e) d) (ints (a_h e) t) = Undef) /\
  (t' <> 0%Z -> an_int (Z.quot d' t') -> fixed_avg_speed e (RInt I32) (ints (a_km e) d) (ints (a_h e) t) = Ok (ints (a_mps e) (Z.quot d' t'))).
Proof.
  intros est e d t d' t' S D T D' T' [k K] [l L]. env S. change (ints ?x ?z) with (qi x z). rewrite (fixed_int est d t) by now apply range_int. cbv zeta.
  assert (W : forall z k, an_int z -> wrap I32 (z + k * 2 ^ 32) = z).
  { intros z j Z. transitivity (wrap I32 z); [|now apply wrap_id, range_int]. unfold wrap. change (wbits (iwidth I32)) with 32%Z.
    replace (z + j * 2 ^ 32 - imin I32)%Z with (z - imin I32 + j * 2 ^ 32)%Z by ring. now rewrite Z_mod_plus_full. }
  rewrite K, L, !W by assumption. split.
  - intros ->. reflexivity.
  - intros N Q. apply Z.eqb_neq in N. rewrite N, (range_int _ Q). reflexivity.
Qed.
Print Assumptions C106_wraps.

(** The generic functions divide the integers themselves and yield kilometres per hour, printed as
    they are. *)
Theorem C106_generic_int : forall est e d t, avg_speed_setup est = Ok e -> an_int d -> an_int t -> an_int (Z.quot d t) -> t <> 0%Z ->
  avg_speed e (ints (a_km e) d) (ints (a_h e) t) = Ok (ints (a_kmph e) (Z.quot d t)) /\
  si_avg_speed e (ints (a_km e) d) (ints (a_h e) t) = Ok (ints (a_kmph e) (Z.quot d t)) /\
  print_result e (ints (a_kmph e) (Z.quot d t)) = Ok (doubles (a_kmph e) (int (Z.quot d t))).
Proof.
  intros est e d t S D T Q N. env S. destruct (generic_eq est (ints (a_km (avg_env_of est)) d) (ints (a_h (avg_env_of est)) t) eq_refl eq_refl) as [-> ->].
  change (ints ?x ?z) with (qi x z). rewrite (quotient_int _ _ _ _ _ _ (km_h est)) by now apply range_int. apply Z.eqb_neq in N. rewrite N, (range_int _ Q).
  split; [reflexivity|]. split; [reflexivity|]. apply print_kmph_int.
Qed.
Print Assumptions C106_generic_int.

(** ** Doubles *)

(** [fixed_double_si_avg_speed] takes integers and doubles; the generic functions do not convert at
    all, and neither does what is printed of their results. *)
Theorem C106_double : forall est e d t, avg_speed_setup est = Ok e -> is_double d -> is_double t ->
  fixed_avg_speed e (RFlt F64) (doubles (a_km e) d) (doubles (a_h e) t) = Ok (doubles (a_mps e) (plain_mps d t)) /\
  print_result e (doubles (a_mps e) (plain_mps d t)) = Ok (doubles (a_kmph e) (plain_kmph (plain_mps d t))) /\
  avg_speed e (doubles (a_km e) d) (doubles (a_h e) t) = Ok (doubles (a_kmph e) (d / t)%D) /\
  si_avg_speed e (doubles (a_km e) d) (doubles (a_h e) t) = Ok (doubles (a_kmph e) (d / t)%D) /\
  print_result e (doubles (a_kmph e) (d / t)%D) = Ok (doubles (a_kmph e) (d / t)%D).
Proof.
  intros est e d t S D T. env S. destruct (generic_eq est (doubles (a_km (avg_env_of est)) d) (doubles (a_h (avg_env_of est)) t) eq_refl eq_refl) as [-> ->].
  change (doubles ?x ?z) with (qf x z). rewrite (quotient_dbl _ _ _ _ _ _ (km_h est) D T). split; [now apply fixed_double|]. split; [apply print_mps; unfold plain_mps; auto with dbl|].
  split; [reflexivity|]. split; [reflexivity|]. apply print_kmph. auto with dbl.
Qed.
Print Assumptions C106_double.
Theorem C106_double_of_int : forall est e d t, avg_speed_setup est = Ok e -> an_int d -> an_int t ->
  fixed_avg_speed e (RFlt F64) (ints (a_km e) d) (ints (a_h e) t) = Ok (doubles (a_mps e) (plain_mps (int d) (int t))).
Proof. intros est e d t S _ _. env S. apply fixed_double_int. Qed.
Print Assumptions C106_double_of_int.

Lemma constant_medium : forall z n, (1 <= z <= 2 ^ n)%Z -> (z <= 2 ^ 53)%Z -> (0 <= n)%Z -> is_number F64 (int z) /\ fval (int z) = IZR z /\ medium n (IZR z).
Proof.
  intros z n Z Z' N. destruct (of_int_exact F64 z) as [A B]; [change (2 ^ fprec F64)%Z with (2 ^ 53)%Z; lia|].
  split; [exact A|]. split; [exact B|]. split.
  - apply Rle_trans with 1; [change 1 with (bpow radix2 0); apply bpow_le; lia|apply IZR_le; lia].
  - rewrite <- (IZR_Zpower radix2) by lia. apply IZR_le. change (Zpower radix2 n) with (2 ^ n)%Z. lia.
Qed.

(** What is printed of the speed in metres per second is within five roundings of the speed in
    kilometres per hour, what is printed of the generic functions within one. *)
Theorem C106_accuracy : forall d t, usual_size d -> usual_size t ->
  is_number F64 (plain_kmph (plain_mps d t)) /\ within F64 5 (fval (plain_kmph (plain_mps d t))) (fval d / fval t) /\
  is_number F64 (d / t)%D /\ within F64 1 (fval (d / t)%D) (fval d / fval t).
Proof.
  intros d t [Nd Md] [Nt Mt]. change (medium 60 (fval d)) in Md. change (medium 60 (fval t)) in Mt. pose proof (medium_pos _ _ Mt) as Pt.
  destruct (constant_medium 1000 10) as (Nm & Em & Mm); [lia..|]. destruct (constant_medium 3600 12) as (Ns & Es & Ms); [lia..|].
  destruct (constant_medium 36 6) as (N36 & E36 & M36); [lia..|]. destruct (constant_medium 10 4) as (N10 & E10 & M10); [lia..|].
  destruct (mul_near F64 0 0 d (int 1000) (fval d) 1000 Nd Nm (near_refl _ _)) as [N1 A1]; [rewrite Em; apply near_refl|vm_compute; discriminate|now apply (medium_mid (60 + 10)), medium_mul|].
  destruct (mul_near F64 0 0 t (int 3600) (fval t) 3600 Nt Ns (near_refl _ _)) as [N2 A2]; [rewrite Es; apply near_refl|vm_compute; discriminate|now apply (medium_mid (60 + 12)), medium_mul|].
  destruct (div_near F64 1 1 (d * int 1000)%D (t * int 3600)%D (fval d * 1000) (fval t * 3600) N1 N2 A1 A2) as [N3 A3]; [lra|vm_compute; discriminate|apply (medium_mid (70 + 72)); [lia|]; apply medium_div; [apply (medium_mul 60 10)|apply (medium_mul 60 12)]; assumption|].
  destruct (div_near F64 0 0 (int 36) (int 10) 36 10 N36 N10) as [N4 A4]; [rewrite E36; apply near_refl|rewrite E10; apply near_refl|lra|vm_compute; discriminate|now apply (medium_mid (6 + 4)), medium_div|].
  destruct (mul_near F64 3 1 _ _ _ _ N3 N4 A3 A4) as [N5 A5]; [vm_compute; discriminate|apply (medium_mid ((70 + 72) + (6 + 4))); [lia|]; apply medium_mul; [apply medium_div; [apply (medium_mul 60 10)|apply (medium_mul 60 12)]; assumption|now apply medium_div]|].
  destruct (div_near F64 0 0 d t (fval d) (fval t) Nd Nt (near_refl _ _) (near_refl _ _)) as [N6 A6]; [lra|vm_compute; discriminate|now apply (medium_mid (60 + 60)), medium_div|].
  split; [exact N5|]. split; [|split; [exact N6|apply near_within; [apply few; vm_compute; discriminate|exact A6]]].
  apply near_within; [apply few; vm_compute; discriminate|]. apply (near_eq F64 _ _ _ _ _ eq_refl) with (2 := A5). field. lra.
Qed.
Print Assumptions C106_accuracy.

(** ** Other units *)

(** Miles and centimetres are not converted implicitly to whole metres, and [si_avg_speed] does not
    take a length of the CGS system, whatever the numbers and the duration. *)
Theorem C106_rejected : forall est e n t, avg_speed_setup est = Ok e ->
  fixed_avg_speed e (RInt I32) (ints (a_mi e) n) t = IllFormed /\ fixed_avg_speed e (RInt I32) (ints (a_cm e) n) t = IllFormed /\
  (forall x, fixed_avg_speed e (RInt I32) (doubles (a_km e) x) t = IllFormed) /\
  (forall d, q_dim (q_type d) = ref_dim (a_cm e) -> si_avg_speed e d t = IllFormed).
Proof.
  intros est e n t S. env S. split; [|split; [|split]].
  - unfold fixed_avg_speed. match goal with |- (_ <- ?x; _) = _ => assert (E : x = IllFormed) by (vm_compute; reflexivity); rewrite E end. reflexivity.
  - unfold fixed_avg_speed. match goal with |- (_ <- ?x; _) = _ => assert (E : x = IllFormed) by (vm_compute; reflexivity); rewrite E end. reflexivity.
  - intros x. unfold fixed_avg_speed. match goal with |- (_ <- ?x; _) = _ => assert (E : x = IllFormed) by (vm_compute; reflexivity); rewrite E end. reflexivity.
  - intros d D. unfold si_avg_speed. rewrite D. match goal with |- (_ <- ?x; _) = _ => assert (E : x = IllFormed) by (vm_compute; reflexivity); rewrite E end. reflexivity.
Qed.
Print Assumptions C106_rejected.

(** [avg_speed] takes all of them and divides the numbers themselves. *)
Theorem C106_any_units : forall est e l, avg_speed_setup est = Ok e -> In l [a_km e; a_mi e; a_cm e] -> exists r,
  dim_equivalent (ref_dim r) (ref_dim (a_mps e)) = true /\
  (forall d t, is_double d -> is_double t -> avg_speed e (doubles l d) (doubles (a_h e) t) = Ok (doubles r (d / t)%D)) /\
  (forall d t, an_int d -> an_int t -> an_int (Z.quot d t) -> t <> 0%Z -> avg_speed e (ints l d) (ints (a_h e) t) = Ok (ints r (Z.quot d t))).
Proof.
  intros est e l S I. env S. assert (H : exists r, reference_divide (a_world (avg_env_of est)) l (a_h (avg_env_of est)) = Ok r /\ dim_equivalent (ref_dim r) (ref_dim (a_mps (avg_env_of est))) = true /\
    dim_equivalent (ref_dim l) (ref_dim (a_metre (avg_env_of est))) = true).
  { destruct I as [<-|[<-|[<-|[]]]]; (eexists; split; [vm_compute; reflexivity|split; vm_compute; reflexivity]). }
  destruct H as (r & Hr & De & Dl). exists r. split; [exact De|].
  assert (G : forall d t, q_dim (q_type d) = ref_dim l -> q_dim (q_type t) = ref_dim (a_h (avg_env_of est)) -> avg_speed (avg_env_of est) d t = q_over (a_world (avg_env_of est)) d t).
  { intros d t D T. unfold avg_speed. rewrite D, T, Dl. assert (B : dim_equivalent (ref_dim (a_h (avg_env_of est))) (ref_dim (a_second (avg_env_of est))) = true) by (vm_compute; reflexivity). rewrite B. reflexivity. }
  split.
  - intros d t D T. rewrite G by reflexivity. now apply quotient_dbl.
  - intros d t D T Q N. rewrite G by reflexivity. change (ints ?x ?z) with (qi x z). rewrite (quotient_int _ _ _ _ _ _ Hr) by now apply range_int. apply Z.eqb_neq in N. rewrite N, (range_int _ Q). reflexivity.
Qed.
Print Assumptions C106_any_units.

(** What is printed of them is in kilometres per hour, up to the roundings of the quotient, of the
    factor between the units and of the product. *)
Theorem C106_printed : forall est e d t, avg_speed_setup est = Ok e -> usual_size d -> usual_size t ->
  (exists v p, avg_speed e (doubles (a_mi e) d) (doubles (a_h e) t) = Ok v /\ print_result e v = Ok (doubles (a_kmph e) p) /\
    is_number F64 p /\ within F64 5 (fval p) (fval d / fval t * 1.609344)) /\
  (exists v p, avg_speed e (doubles (a_cm e) d) (doubles (a_h e) t) = Ok v /\ print_result e v = Ok (doubles (a_kmph e) p) /\
    is_number F64 p /\ within F64 3 (fval p) (fval d / fval t / 100000)).
Proof.
  intros est e d t S [Nd Md] [Nt Mt]. env S. change (medium 60 (fval d)) in Md. change (medium 60 (fval t)) in Mt. pose proof (medium_pos _ _ Mt) as Pt.
  assert (D : is_double d) by apply Nd. assert (T : is_double t) by apply Nt.
  destruct (div_near F64 0 0 d t (fval d) (fval t) Nd Nt (near_refl _ _) (near_refl _ _)) as [N6 A6]; [lra|vm_compute; discriminate|now apply (medium_mid (60 + 60)), medium_div|].
  pose proof (medium_div _ _ _ _ Md Mt) as Mq.
  assert (X : is_double (d / t)%D) by apply N6.
  assert (B : dim_equivalent (ref_dim (a_h (avg_env_of est))) (ref_dim (a_second (avg_env_of est))) = true) by (vm_compute; reflexivity).
  split.
  - eexists. exists ((d / t) * (int 50292 * (int 1 / int 10) / int 3125))%D. split; [|split; [|]].
    + unfold avg_speed. cbn [q_type doubles q_dim of_ref]. rewrite B. match goal with |- context [dim_equivalent ?x ?y] => assert (C : dim_equivalent x y = true) by (vm_compute; reflexivity); rewrite C end. cbn [constrained bind].
      apply quotient_dbl; [vm_compute; reflexivity|exact D|exact T].
    + erewrite (printed_flt est _ (NFlt (d / t)%D) (d / t)%D); [|reflexivity|reflexivity|cbn [n_convert]; now rewrite conv|exact X|vm_compute; reflexivity|vm_compute; reflexivity].
      match goal with |- context [cast_factor F64 ?c] => assert (Fc : cast_factor F64 c = (int 50292 * (int 1 / int 10) / int 3125)%D) by (vm_compute; reflexivity); rewrite Fc end. reflexivity.
    + destruct (constant_medium 50292 16) as (Na & Ea & Ma); [lia..|]. destruct (constant_medium 1 1) as (Nb & Eb & Mb); [lia..|]. destruct (constant_medium 10 4) as (Nc & Ec & Mc); [lia..|]. destruct (constant_medium 3125 12) as (Ne & Ee & Me); [lia..|].
      destruct (div_near F64 0 0 (int 1) (int 10) 1 10 Nb Nc) as [N1 A1]; [rewrite Eb; apply near_refl|rewrite Ec; apply near_refl|lra|vm_compute; discriminate|now apply (medium_mid (1 + 4)), medium_div|].
      destruct (mul_near F64 0 1 (int 50292) _ 50292 (1 / 10) Na N1) as [N2 A2]; [rewrite Ea; apply near_refl|exact A1|vm_compute; discriminate|apply (medium_mid (16 + (1 + 4))); [lia|]; apply medium_mul; [exact Ma|now apply medium_div]|].
      assert (M2 : medium 21 (50292 * (1 / 10))) by (apply (medium_mul 16 5); [exact Ma|now apply (medium_div 1 4)]).
      destruct (div_near F64 2 0 _ (int 3125) (50292 * (1 / 10)) 3125 N2 Ne A2) as [N3 A3]; [rewrite Ee; apply near_refl|lra|vm_compute; discriminate|now apply (medium_mid (21 + 12)), medium_div|].
      destruct (mul_near F64 1 3 _ _ _ _ N6 N3 A6 A3) as [N4 A4]; [vm_compute; discriminate|apply (medium_mid ((60 + 60) + (21 + 12))); [lia|]; apply medium_mul; [exact Mq|now apply medium_div]|].
      split; [exact N4|]. apply near_within; [apply few; vm_compute; discriminate|]. apply (near_eq F64 _ _ _ _ _ eq_refl) with (2 := A4). replace 1.609344 with (1609344 / 1000000) by lra. field. lra.
  - eexists. exists ((d / t) * (int 1 / int 100000))%D. split; [|split; [|]].
    + unfold avg_speed. cbn [q_type doubles q_dim of_ref]. rewrite B. match goal with |- context [dim_equivalent ?x ?y] => assert (C : dim_equivalent x y = true) by (vm_compute; reflexivity); rewrite C end. cbn [constrained bind].
      apply quotient_dbl; [vm_compute; reflexivity|exact D|exact T].
    + erewrite (printed_flt est _ (NFlt (d / t)%D) (d / t)%D); [|reflexivity|reflexivity|cbn [n_convert]; now rewrite conv|exact X|vm_compute; reflexivity|vm_compute; reflexivity].
      match goal with |- context [cast_factor F64 ?c] => assert (Fc : cast_factor F64 c = (int 1 / int 100000)%D) by (vm_compute; reflexivity); rewrite Fc end. reflexivity.
    + destruct (constant_medium 1 1) as (Nb & Eb & Mb); [lia..|]. destruct (constant_medium 100000 17) as (Nc & Ec & Mc); [lia..|].
      destruct (div_near F64 0 0 (int 1) (int 100000) 1 100000 Nb Nc) as [N1 A1]; [rewrite Eb; apply near_refl|rewrite Ec; apply near_refl|lra|vm_compute; discriminate|now apply (medium_mid (1 + 17)), medium_div|].
      destruct (mul_near F64 1 1 _ _ _ _ N6 N1 A6 A1) as [N4 A4]; [vm_compute; discriminate|apply (medium_mid ((60 + 60) + (1 + 17))); [lia|]; apply medium_mul; [exact Mq|now apply medium_div]|].
      split; [exact N4|]. apply near_within; [apply few; vm_compute; discriminate|]. apply (near_eq F64 _ _ _ _ _ eq_refl) with (2 := A4). field. lra.
Qed.
Print Assumptions C106_printed.

(** ** Cases *)

(** 220 kilometres in 2 hours: 30 metres per second, printed as 108 km/h; the generic functions
    print 110. *)
Example C106_ex_int : forall est, exists e, avg_speed_setup est = Ok e /\
  (v <- fixed_avg_speed e (RInt I32) (ints (a_km e) 220) (ints (a_h e) 2); print_result e v) = Ok (doubles (a_kmph e) (int 108)) /\
  (v <- avg_speed e (ints (a_km e) 220) (ints (a_h e) 2); print_result e v) = Ok (doubles (a_kmph e) (int 110)).
Proof. intros est. eexists. split; [apply avg_setup_env|]. split; vm_compute; reflexivity. Qed.

(** 4294968 kilometres in an hour wrap to 704 metres in 3600 seconds: the speed is 0. *)
Example C106_ex_wraps : forall est e, avg_speed_setup est = Ok e -> fixed_avg_speed e (RInt I32) (ints (a_km e) 4294968) (ints (a_h e) 1) = Ok (ints (a_mps e) 0).
Proof.
  intros est e S. destruct (C106_wraps est e 4294968 1 704 3600 S) as [_ W]; unfold an_int in *; try lia.
  - now exists 1%Z.
  - now exists 0%Z.
  - apply W; [lia|vm_compute; split; discriminate].
Qed.

(** 220 kilometres in 2 hours as doubles are of usual size. *)
Example C106_ex_usual : usual_size (int 220) /\ usual_size (int 2).
Proof. split; [destruct (constant_medium 220 60) as (A & B & C)|destruct (constant_medium 2 60) as (A & B & C)]; try lia; (split; [exact A|rewrite B; exact C]). Qed.
