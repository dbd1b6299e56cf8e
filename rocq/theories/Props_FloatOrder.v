(** Theorems about comparisons and sums of floating-point quantities in different units (C78). *)

From Coq Require Import ZArith QArith Qreals Reals Bool Lia Lra SpecFloat String List.
From Flocq Require Import Core.
From Verif Require Import Outcome CInt Root Ratio SpecRatio FixedString Unit Downcast Dim DimOp Equivalent SpecDim SpecUnit Rep QuantityCast CommonQuantity Quantity
  SpecQuantity DimOpProofs QuantityProofs QuantityProofs2 QuantityProofs4 Samples SpecReal FloatProofs FloatCastProofs SpecOrder FloatOrderProofs
  Props_Quantity Props_Float.
Import ListNotations.
Local Open Scope R_scope.
Local Open Scope res_scope.

(** Two quantities, at least one of them floating, of sizes [ma] and [mb] of their units,
    whose common type is [t] with a unit of size [m] and the representation [f]. *)
Definition operands (est : estimate) (w : world) (a b : quantity) (f : fty) (t : qtype) (ma mb m : Q) : Prop :=
  consistent w /\ sized est (q_type a) ma /\ sized est (q_type b) mb /\ compatible (q_type a) (q_type b) /\
  arith_rep (q_rep (q_type a)) (q_rep (q_type b)) = RFlt f /\
  common_quantity est w (q_type a) (q_type b) (RFlt f) = Ok t /\ sized est t m.
(** The physical value. *)
Definition amount (q : quantity) (m : Q) : R := nval (q_num q) * Q2R m.

(** The common unit divides both units, so both factors are whole numbers.  If the format
    holds them, the comparison compares the values in the common unit, each rounded once. *)
Theorem C78_compare : forall est w a b f t ma mb m, operands est w a b f t ma mb m ->
  whole_factor est f (q_type a) t -> whole_factor est f (q_type b) t ->
  exact_value f (q_rep (q_type a)) (q_num a) -> exact_value f (q_rep (q_type b)) (q_num b) ->
  no_infinity f (amount a (ma / m)) -> no_infinity f (amount b (mb / m)) ->
  let c := Rcompare (nearest f (amount a (ma / m))) (nearest f (amount b (mb / m))) in
  q_compare est w a b = Ok (Some c) /\ q_eqb est w a b = Ok (match c with Eq => true | _ => false end).
Proof. intros est w a b f t ma mb m (C & Sa & Sb & K & R & H & St). now apply compare_nearest with (t := t). Qed.
Print Assumptions C78_compare.

(** Hence it never contradicts the physical order: equal values are equal, a reported order
    is the true one, and only values that round to one number are wrongly taken as equal. *)
Theorem C78_order : forall est w a b f t ma mb m, operands est w a b f t ma mb m ->
  whole_factor est f (q_type a) t -> whole_factor est f (q_type b) t ->
  exact_value f (q_rep (q_type a)) (q_num a) -> exact_value f (q_rep (q_type b)) (q_num b) ->
  no_infinity f (amount a (ma / m)) -> no_infinity f (amount b (mb / m)) ->
  exists c, q_compare est w a b = Ok (Some c) /\ q_eqb est w a b = Ok (match c with Eq => true | _ => false end) /\
    (amount a ma = amount b mb -> c = Eq) /\ (c = Lt -> amount a ma < amount b mb) /\ (c = Gt -> amount b mb < amount a ma) /\
    (c = Eq <-> nearest f (amount a (ma / m)) = nearest f (amount b (mb / m))).
Proof.
  intros est w a b f t ma mb m O Wa Wb Va Vb Na Nb. destruct (C78_compare _ _ _ _ _ _ _ _ _ O Wa Wb Va Vb Na Nb) as [H1 H2].
  eexists. split; [exact H1|]. split; [exact H2|]. destruct O as (_ & _ & _ & _ & _ & _ & St). pose proof (sized_pos _ _ _ St) as P.
  pose proof (scaled_order (nval (q_num a)) (nval (q_num b)) ma mb m P) as Sab.
  pose proof (scaled_order (nval (q_num b)) (nval (q_num a)) mb ma m P) as Sba. fold (amount a ma) (amount b mb) (amount a (ma / m)) (amount b (mb / m)) in *.
  assert (Mo : forall x y, x <= y -> nearest f x <= nearest f y) by (intros x y; apply frnd_le).
  pose proof (Mo (amount a (ma / m)) (amount b (mb / m))) as Mab. pose proof (Mo (amount b (mb / m)) (amount a (ma / m))) as Mba.
  split; [|split; [|split; [|split]]].
  - intros E. apply Rcompare_Eq. apply Rle_antisym; [apply Mab, Sab|apply Mba, Sba]; lra.
  - intros E. apply Rcompare_Lt_inv in E. apply Rnot_le_lt. intros L. apply Sba, Mba in L. lra.
  - intros E. apply Rcompare_Gt_inv in E. apply Rnot_le_lt. intros L. apply Sab, Mab in L. lra.
  - apply Rcompare_Eq_inv.
  - apply Rcompare_Eq.
Qed.
Print Assumptions C78_order.

(** Values that the format holds in the common unit are compared exactly. *)
Theorem C78_exact_order : forall est w a b f t ma mb m, operands est w a b f t ma mb m ->
  whole_factor est f (q_type a) t -> whole_factor est f (q_type b) t ->
  exact_value f (q_rep (q_type a)) (q_num a) -> exact_value f (q_rep (q_type b)) (q_num b) ->
  no_infinity f (amount a (ma / m)) -> no_infinity f (amount b (mb / m)) ->
  nearest f (amount a (ma / m)) = amount a (ma / m) -> nearest f (amount b (mb / m)) = amount b (mb / m) ->
  q_compare est w a b = Ok (Some (Rcompare (amount a ma) (amount b mb))).
Proof.
  intros est w a b f t ma mb m O Wa Wb Va Vb Na Nb Ea Eb. destruct (C78_compare _ _ _ _ _ _ _ _ _ O Wa Wb Va Vb Na Nb) as [H1 _].
  rewrite H1, Ea, Eb. f_equal. f_equal. destruct O as (_ & _ & _ & _ & _ & _ & St). pose proof (sized_pos _ _ _ St) as P.
  pose proof (scaled_order (nval (q_num a)) (nval (q_num b)) ma mb m P) as Sab.
  pose proof (scaled_order (nval (q_num b)) (nval (q_num a)) mb ma m P) as Sba. fold (amount a ma) (amount b mb) (amount a (ma / m)) (amount b (mb / m)) in *.
  destruct (Rcompare_spec (amount a ma) (amount b mb)) as [L|L|L].
  - apply Rcompare_Lt. apply Rnot_le_lt. intros X. apply Sba in X. lra.
  - apply Rcompare_Eq. apply Rle_antisym; [apply Sab|apply Sba]; lra.
  - apply Rcompare_Gt. apply Rnot_le_lt. intros X. apply Sab in X. lra.
Qed.
Print Assumptions C78_exact_order.

(** Orders reported for three quantities in three units never form a circle. *)
Theorem C78_no_circle : forall est w a b c f f' f'' t t' t'' ma mb mc m m' m'',
  operands est w a b f t ma mb m -> operands est w b c f' t' mb mc m' -> operands est w c a f'' t'' mc ma m'' ->
  whole_factor est f (q_type a) t -> whole_factor est f (q_type b) t -> whole_factor est f' (q_type b) t' ->
  whole_factor est f' (q_type c) t' -> whole_factor est f'' (q_type c) t'' -> whole_factor est f'' (q_type a) t'' ->
  exact_value f (q_rep (q_type a)) (q_num a) -> exact_value f (q_rep (q_type b)) (q_num b) ->
  exact_value f' (q_rep (q_type b)) (q_num b) -> exact_value f' (q_rep (q_type c)) (q_num c) ->
  exact_value f'' (q_rep (q_type c)) (q_num c) -> exact_value f'' (q_rep (q_type a)) (q_num a) ->
  no_infinity f (amount a (ma / m)) -> no_infinity f (amount b (mb / m)) ->
  no_infinity f' (amount b (mb / m')) -> no_infinity f' (amount c (mc / m')) ->
  no_infinity f'' (amount c (mc / m'')) -> no_infinity f'' (amount a (ma / m'')) ->
  q_compare est w a b = Ok (Some Lt) -> q_compare est w b c = Ok (Some Lt) -> q_compare est w c a <> Ok (Some Lt).
Proof.
  intros est w a b c f f' f'' t t' t'' ma mb mc m m' m'' O1 O2 O3 W1 W2 W3 W4 W5 W6 V1 V2 V3 V4 V5 V6 N1 N2 N3 N4 N5 N6 H1 H2.
  destruct (C78_order _ _ _ _ _ _ _ _ _ O1 W1 W2 V1 V2 N1 N2) as (c1 & E1 & _ & _ & L1 & _).
  destruct (C78_order _ _ _ _ _ _ _ _ _ O2 W3 W4 V3 V4 N3 N4) as (c2 & E2 & _ & _ & L2 & _).
  destruct (C78_order _ _ _ _ _ _ _ _ _ O3 W5 W6 V5 V6 N5 N6) as (c3 & E3 & _ & _ & L3 & _).
  intros H3. assert (c1 = Lt) by congruence. assert (c2 = Lt) by congruence. assert (c3 = Lt) by congruence.
  specialize (L1 H). specialize (L2 H0). specialize (L3 H4). lra.
Qed.
Print Assumptions C78_no_circle.

(** Sums and differences: each operand is rounded once, and their sum once more. *)
Theorem C78_sum : forall o est w a b f t ma mb m, sum_op o -> operands est w a b f t ma mb m ->
  whole_factor est f (q_type a) t -> whole_factor est f (q_type b) t ->
  exact_value f (q_rep (q_type a)) (q_num a) -> exact_value f (q_rep (q_type b)) (q_num b) ->
  Rabs (amount a (ma / m)) <= bpow radix2 (femax f - 2) -> Rabs (amount b (mb / m)) <= bpow radix2 (femax f - 2) ->
  exists z, q_addsub o est w a b = Ok (Quantity t (NFlt z)) /\ is_number f z /\
    fval z = nearest f (rsum o (nearest f (amount a (ma / m))) (nearest f (amount b (mb / m)))).
Proof. intros o est w a b f t ma mb m So (C & Sa & Sb & K & R & H & St). now apply sum_nearest. Qed.
Print Assumptions C78_sum.

(** With any factors: the error of a sum, in terms of the roundings of the conversions. *)
Theorem C78_sum_accuracy : forall o est w a b f t ma mb m ka kb, sum_op o -> operands est w a b f t ma mb m ->
  is_value (q_rep (q_type a)) (q_num a) -> is_value (q_rep (q_type b)) (q_num b) ->
  conversion_roundings est (q_type a) t ka -> conversion_roundings est (q_type b) t kb ->
  conversion_in_range est f (q_type a) t (amount a (ma / m)) -> conversion_in_range est f (q_type b) t (amount b (mb / m)) ->
  Rabs (amount a (ma / m)) <= bpow radix2 (femax f - 3) -> Rabs (amount b (mb / m)) <= bpow radix2 (femax f - 3) ->
  exists z, q_addsub o est w a b = Ok (Quantity t (NFlt z)) /\ is_number f z /\
    Rabs (fval z * Q2R m - rsum o (amount a ma) (amount b mb)) <=
      gamma f (ka + 1) * Rabs (amount a ma) + gamma f (kb + 1) * Rabs (amount b mb).
Proof. intros o est w a b f t ma mb m ka kb So (C & Sa & Sb & K & R & H & St). now apply sum_accurate. Qed.
Print Assumptions C78_sum_accuracy.

(** And of a comparison: values further apart than their errors are ordered rightly. *)
Theorem C78_compare_accuracy : forall est w a b f t ma mb m ka kb, operands est w a b f t ma mb m ->
  is_value (q_rep (q_type a)) (q_num a) -> is_value (q_rep (q_type b)) (q_num b) ->
  conversion_roundings est (q_type a) t ka -> conversion_roundings est (q_type b) t kb ->
  conversion_in_range est f (q_type a) t (amount a (ma / m)) -> conversion_in_range est f (q_type b) t (amount b (mb / m)) ->
  let E := gamma f ka * Rabs (amount a ma) + gamma f kb * Rabs (amount b mb) in
  exists c, q_compare est w a b = Ok (Some c) /\ q_eqb est w a b = Ok (match c with Eq => true | _ => false end) /\
    (E < amount b mb - amount a ma -> c = Lt) /\ (E < amount a ma - amount b mb -> c = Gt) /\
    (c = Eq -> Rabs (amount a ma - amount b mb) <= E).
Proof. intros est w a b f t ma mb m ka kb (C & Sa & Sb & K & R & H & St). now apply compare_accurate with (t := t) (m := m). Qed.
Print Assumptions C78_compare_accuracy.

(** Addition is commutative bit for bit, whatever the values. *)
Lemma add_comm : forall p e x y, SFadd p e x y = SFadd p e y x.
Proof.
  intros p e [sx|sx| |sx mx ex] [sy|sy| |sy my ey]; try reflexivity; cbn [SFadd].
  - destruct sx, sy; reflexivity.
  - destruct sx, sy; reflexivity.
  - rewrite (Z.min_comm ey ex), Z.add_comm. reflexivity.
Qed.
Lemma op_comm : forall f x y, op_in OpAdd (RFlt f) x y = op_in OpAdd (RFlt f) y x.
Proof. intros f [x|x] [y|y]; try reflexivity. cbn [op_in float_op bind]. now rewrite add_comm. Qed.
Theorem C78_commutative : forall est w a b f s s', q_dim (q_type a) = q_dim (q_type b) ->
  unit_good (q_unit (q_type a)) -> unit_good (q_unit (q_type b)) -> arith_rep (q_rep (q_type a)) (q_rep (q_type b)) = RFlt f ->
  q_add est w a b = Ok s -> q_add est w b a = Ok s' -> s = s'.
Proof.
  intros est w a b f s s' D Ga Gb R H H'. assert (R' : arith_rep (q_rep (q_type b)) (q_rep (q_type a)) = RFlt f).
  { rewrite <- R. destruct (q_rep (q_type a)) as [i|g], (q_rep (q_type b)) as [j|h]; try reflexivity; [discriminate R|].
    cbn [arith_rep]. f_equal. now destruct g, h. }
  unfold q_add, q_addsub in H, H'. rewrite R in H. rewrite R' in H'.
  step H as t Et. step H' as t' Et'. assert (t' = t) by (symmetry; exact (C26_symmetric est w _ _ _ _ _ D Ga Gb Et Et')). subst t'.
  step H as x Ex. step H as y Ey. step H' as y' Ey'. step H' as x' Ex'. assert (x' = x) by congruence. assert (y' = y) by congruence. subst x' y'.
  step H as z Ez. step H' as z' Ez'. assert (z' = z).
  { unfold n_op in Ez, Ez'. step Ez as u Eu. step Ez as v Ev. step Ez' as v' Ev'. step Ez' as u' Eu'.
    assert (A : arith_rep (RFlt f) (RFlt f) = RFlt f) by now destruct f. rewrite A in *.
    assert (u' = u) by congruence. assert (v' = v) by congruence. subst u' v'. rewrite op_comm in Ez'. congruence. }
  subst z'. congruence.
Qed.
Print Assumptions C78_commutative.

(** Hours and seconds in [double]: the factor is 3600. *)
Definition hours (x : spec_float) : quantity := Quantity (flt dim_T hour F64) (NFlt x).
Definition seconds (x : spec_float) : quantity := Quantity (flt dim_T second F64) (NFlt x).
Lemma holds_small : forall f z, (Z.abs z <= 2 ^ 24)%Z -> holds f z.
Proof.
  intros f z H. exists z, 0%Z. split; [lia|]. split; [ring|]. split.
  - eapply Z.le_trans; [exact H|]. apply Z.pow_le_mono_r; [lia|]. destruct f; discriminate.
  - eapply Z.le_lt_trans; [exact H|]. apply Z.pow_lt_mono_r; [lia|..]; destruct f; (discriminate || reflexivity).
Qed.
(** The common unit: an unnamed unit of the size of the second. *)
Definition unnamed_second : cunit := CUnit None [] (Ratio 1 1 0) "second" false None "no_prefix".
Lemma hour_factor : forall est, whole_factor est F64 (flt dim_T hour F64) (flt dim_T unnamed_second F64) /\
  whole_factor est F64 (flt dim_T second F64) (flt dim_T unnamed_second F64).
Proof.
  intros est. split; right.
  - exists (Ratio 36 1 2), 3600%Z. split; [reflexivity|]. cbn [rnum rden rexp].
    split; [reflexivity|]. split; [lia|]. split; [vm_compute; discriminate|]. repeat split; apply holds_small; vm_compute; discriminate.
  - exists (Ratio 1 1 0), 1%Z. split; [reflexivity|]. cbn [rnum rden rexp].
    split; [reflexivity|]. split; [lia|]. split; [vm_compute; discriminate|]. repeat split; apply holds_small; vm_compute; discriminate.
Qed.
Lemma hour_operands : forall est x y,
  operands est empty_world (hours x) (seconds y) F64 (flt dim_T unnamed_second F64) (rval (Ratio 36 1 2)) (rval (Ratio 1 1 0)) (rval (Ratio 1 1 0)).
Proof.
  intros est x y. destruct good_units as (_ & _ & _ & Gs & _ & Gh & _). split; [exact empty_consistent|].
  split; [now apply (flt_sized_time est hour)|]. split; [now apply (flt_sized_time est second)|].
  split; [now apply compatible_same|]. split; [reflexivity|]. split; [vm_compute; reflexivity|].
  apply (flt_sized_time est unnamed_second); [|reflexivity]. repeat split; vm_compute; congruence.
Qed.
(** Any two times of up to 10^10 h and s. *)
Example C78_ex_order : forall est x y, is_number F64 x -> is_number F64 y ->
  Rabs (fval x) <= 10000000000 -> Rabs (fval y) <= 10000000000 ->
  exists c, q_compare est empty_world (hours x) (seconds y) = Ok (Some c) /\
    (fval x * 3600 = fval y -> c = Eq) /\ (c = Lt -> fval x * 3600 < fval y) /\ (c = Gt -> fval y < fval x * 3600).
Proof.
  intros est x y Nx Ny Bx By. destruct (hour_factor est) as [Wh Ws].
  assert (Eh : Q2R (rval (Ratio 36 1 2)) = 3600) by (rewrite (Qeq_eqR _ (inject_Z 3600)) by (vm_compute; reflexivity); apply Q2R_Z).
  assert (Es : Q2R (rval (Ratio 1 1 0)) = 1) by (rewrite (Qeq_eqR _ (inject_Z 1)) by (vm_compute; reflexivity); apply Q2R_Z).
  assert (Eq1 : Q2R (rval (Ratio 36 1 2) / rval (Ratio 1 1 0)) = 3600) by (rewrite (Qeq_eqR _ (inject_Z 3600)) by (vm_compute; reflexivity); apply Q2R_Z).
  assert (Eq2 : Q2R (rval (Ratio 1 1 0) / rval (Ratio 1 1 0)) = 1) by (rewrite (Qeq_eqR _ (inject_Z 1)) by (vm_compute; reflexivity); apply Q2R_Z).
  assert (Bg : 10000000000 * 3600 <= bpow radix2 1023).
  { apply Rle_trans with (bpow radix2 60); [|apply bpow_le; lia]. rewrite <- (IZR_Zpower radix2), <- mult_IZR by lia. apply IZR_le. vm_compute. discriminate. }
  destruct (C78_order est empty_world (hours x) (seconds y) F64 _ _ _ _ (hour_operands est x y) Wh Ws) as (c & H & _ & A & L & G & _).
  - split; [exact Nx|exact I].
  - split; [exact Ny|exact I].
  - unfold no_infinity, amount. cbn [hours q_num nval]. change (femax F64 - 1)%Z with 1023%Z. rewrite Eq1, Rabs_mult, (Rabs_right 3600) by lra. lra.
  - unfold no_infinity, amount. cbn [seconds q_num nval]. change (femax F64 - 1)%Z with 1023%Z. rewrite Eq2, Rmult_1_r. lra.
  - exists c. unfold amount in *. cbn [hours seconds q_num nval] in *. rewrite Eh, Es, Rmult_1_r in *. auto.
Qed.
(** 1.5 h == 5400 s, 0.1 h == 360 s although the double 0.1 is a little more than a tenth,
    1.1 h > 3960 s; 1.5 h + 1 s == 5401 s. *)
Example C78_ex : forall est,
  q_compare est empty_world (hours (S754_finite false 6755399441055744 (-52))) (seconds (float_of_int F64 5400)) = Ok (Some Eq) /\
  q_compare est empty_world (hours one_tenth) (seconds (float_of_int F64 360)) = Ok (Some Eq) /\
  q_compare est empty_world (hours one_point_one) (seconds (float_of_int F64 3960)) = Ok (Some Gt) /\
  q_add est empty_world (hours (S754_finite false 6755399441055744 (-52))) (seconds (float_of_int F64 1)) =
    Ok (Quantity (flt dim_T unnamed_second F64) (NFlt (float_of_int F64 5401))) /\
  q_add est empty_world (seconds (float_of_int F64 1)) (hours (S754_finite false 6755399441055744 (-52))) =
    Ok (Quantity (flt dim_T unnamed_second F64) (NFlt (float_of_int F64 5401))).
Proof. intros est. vm_compute. auto. Qed.

(** The hypotheses of the accuracy theorems for 1.1 h and 3960 s: seven and five roundings. *)
Example C78_ex_accuracy : forall est, let a := hours one_point_one in let b := seconds (float_of_int F64 3960) in
  let t := flt dim_T unnamed_second F64 in let ma := rval (Ratio 36 1 2) in let m := rval (Ratio 1 1 0) in
  is_value (q_rep (q_type a)) (q_num a) /\ is_value (q_rep (q_type b)) (q_num b) /\
  conversion_roundings est (q_type a) t 7 /\ conversion_roundings est (q_type b) t 5 /\
  conversion_in_range est F64 (q_type a) t (amount a (ma / m)) /\ conversion_in_range est F64 (q_type b) t (amount b (m / m)).
Proof.
  intros est. cbv zeta. destruct (C22_ex_hypotheses est) as (_ & _ & _ & _ & _ & V & F & M & _).
  destruct (of_int_exact F64 3960) as [Nb Vb]; [vm_compute; discriminate|].
  split; [exact V|]. split; [exact Nb|].
  split; [right; split; [discriminate|]; exists (Ratio 36 1 2); now split|].
  split; [right; split; [discriminate|]; exists (Ratio 1 1 0); now split|].
  split; split.
  - exact M.
  - right. exists (Ratio 36 1 2). now split.
  - unfold amount. cbn [seconds q_num nval]. rewrite Vb. rewrite (Qeq_eqR _ (inject_Z 1)) by (vm_compute; reflexivity). rewrite Q2R_Z, <- mult_IZR.
    apply mid_int. lia.
  - right. exists (Ratio 1 1 0). split; [reflexivity|]. unfold factor_in_range. cbn [rnum rden rexp]. rewrite powerRZ_Z by lia. rewrite <- mult_IZR.
    replace (IZR (1 * 10 ^ 0) / IZR 1) with (IZR (1 * 10 ^ 0)) by field. split; [|split]; apply mid_int; lia.
Qed.

(** Beyond whole factors that the format holds the order can be reported the wrong way:
    1 Ym is 10^39 fm, but compares as less than 999999999999999939709166371603178586112 fm. *)
Definition yottametre : cunit := mk_sample_unit "yottametre" "Ym" (Ratio 1 1 24) "metre".
Definition femtometre : cunit := mk_sample_unit "femtometre" "fm" (Ratio 1 1 (-15)) "metre".
Definition many_fm : Z := 999999999999999939709166371603178586112.
Theorem C78_order_refuted : forall est,
  q_compare est empty_world (Quantity (flt dim_L yottametre F64) (NFlt (float_of_int F64 1)))
    (Quantity (flt dim_L femtometre F64) (NFlt (float_of_int F64 many_fm))) = Ok (Some Lt) /\
  (rval (u_ratio yottametre) == inject_Z (10 ^ 39) * rval (u_ratio femtometre))%Q /\ (many_fm < 10 ^ 39)%Z /\ fval (float_of_int F64 many_fm) = IZR many_fm.
Proof.
  intros est. split; [vm_compute; reflexivity|]. split; [vm_compute; reflexivity|]. split; [reflexivity|].
  apply (of_int_holds F64 many_fm). exists 6617444900424221%Z, 77%Z. repeat split; vm_compute; (discriminate || reflexivity).
Qed.
Print Assumptions C78_order_refuted.
