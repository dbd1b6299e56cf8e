(** C81: dimensionless quantities and plain numbers. *)

From Coq Require Import ZArith Reals Lia Lra Bool String SpecFloat.
From Flocq Require Import Core.
From Verif Require Import Outcome CInt RatioMaths Root Ratio FixedString Unit Dim DimOp Equivalent Rep Reference
  QuantityCast CommonQuantity Quantity Plain SpecReal SpecOrder SpecPlain IntProofs FloatProofs FloatCastProofs FloatAddProofs FloatOrderProofs
  PlainProofs Downcast.
Local Open Scope R_scope.
Local Open Scope res_scope.

Definition ones (r : rep) : qtype := QType dim_one unit_one r.

(** Only a quantity of dimension one in the unit [one] can be compared with a plain number,
    and no fraction may be lost by the types; everything else does not compile. *)
Theorem C81_ill_formed : forall est q r v, ~ (plain_type (q_type q) /\ kept_kind r (q_rep (q_type q))) ->
  q_compare_value q r v = IllFormed /\ q_eqb_value q r v = IllFormed /\
  value_compare_q r v q = IllFormed /\ value_eqb_q r v q = IllFormed /\ value_rem_q r v q = IllFormed /\
  q_assign_value q r v = IllFormed /\ q_add_assign_value est q r v = IllFormed /\ q_sub_assign_value est q r v = IllFormed.
Proof.
  intros est q r v H. unfold q_compare_value, q_eqb_value, value_compare_q, value_eqb_q, value_rem_q, q_assign_value, q_add_assign_value,
    q_sub_assign_value. rewrite (implicit_ill_formed (q_type q) r v H). repeat split.
Qed.
Print Assumptions C81_ill_formed.
(** A percentage, and a whole number against a floating-point one. *)
Example C81_ill_formed_ex :
  ~ (plain_type (QType dim_one (CUnit (Some "percent"%string) nil (Ratio 1 1 (-2)) "one"%string true None no_prefix) (RFlt F64)) /\
     kept_kind (RFlt F64) (RFlt F64)) /\
  ~ (plain_type (ones (RInt I32)) /\ kept_kind (RFlt F64) (RInt I32)) /\
  (plain_type (ones (RInt I32)) /\ kept_kind (RInt I64) (RInt I32)).
Proof.
  split; [intros [[_ H] _]; discriminate H|]. split; [intros [_ [H|H]]; discriminate H|]. split; [split; reflexivity|right; reflexivity].
Qed.

(** If the number fits the representation, the comparison is that of the real numbers, on
    either side of the operator. *)
Theorem C81_compare : forall q r v, comparable q r v -> fits (q_rep (q_type q)) v ->
  let c := Rcompare (nval (q_num q)) (nval v) in
  q_compare_value q r v = Ok (Some c) /\ value_compare_q r v q = Ok (Some (CompOpp c)) /\
  (exists b, q_eqb_value q r v = Ok b /\ value_eqb_q r v q = Ok b /\ (b = true <-> nval (q_num q) = nval v)).
Proof.
  intros q r v (P & K & Vq & Vv) F c. destruct (implicit_fits (q_type q) r v P K Vv F) as (x & E & X & N).
  unfold q_compare_value, value_compare_q, q_eqb_value, value_eqb_q. rewrite E. cbn [bind q_num].
  rewrite (n_compare_real _ _ _ Vq X), (n_compare_real _ _ _ X Vq), (n_eqb_real _ _ _ Vq X), (n_eqb_real _ _ _ X Vq), N.
  split; [reflexivity|]. split; [unfold c; now rewrite Rcompare_sym|]. exists (is_eq (Rcompare (nval (q_num q)) (nval v))).
  split; [reflexivity|]. split.
  - rewrite (Rcompare_sym (nval v)). now destruct (Rcompare (nval (q_num q)) (nval v)).
  - destruct (Rcompare_spec (nval (q_num q)) (nval v)) as [L|L|L]; cbn [is_eq]; split; intros H; try discriminate H; auto; rewrite H in L; lra.
Qed.
Print Assumptions C81_compare.
Example C81_compare_ex : comparable (Quantity (ones (RFlt F64)) (NFlt (float_of_int F64 3))) (RInt I32) (NInt 4) /\ fits (RFlt F64) (NInt 4) /\
  q_compare_value (Quantity (ones (RFlt F64)) (NFlt (float_of_int F64 3))) (RInt I32) (NInt 4) = Ok (Some Lt).
Proof.
  split; [|split; [|vm_compute; reflexivity]].
  - split; [split; reflexivity|]. split; [left; reflexivity|]. split; [split; vm_compute; reflexivity|vm_compute; reflexivity].
  - exists (NFlt (float_of_int F64 4)). destruct (of_int_exact F64 4); [vm_compute; discriminate|]. split; assumption.
Qed.

(** If it does not fit a whole representation, it is compared modulo 2^w. *)
Theorem C81_modulo : forall q r v i x z, comparable q r v -> q_rep (q_type q) = RInt i -> q_num q = NInt x -> v = NInt z ->
  exists b, q_eqb_value q r v = Ok b /\ value_eqb_q r v q = Ok b /\ (b = true <-> (2 ^ wbits (iwidth i) | x - z)%Z).
Proof.
  intros q r v i x z (P & K & Vq & Vv) R Nq Nv. rewrite R in *. rewrite Nq in Vq. cbn [is_value] in Vq.
  unfold q_eqb_value, value_eqb_q. rewrite (implicit_int _ i r v z P R K Vv Nv), Nq. cbn [bind q_num n_eqb].
  exists (x =? wrap i z)%Z. split; [reflexivity|]. split; [now rewrite Z.eqb_sym|]. rewrite Z.eqb_eq. pose proof (modulus_pos i) as M.
  split.
  - intros ->. apply Z.mod_divide; [lia|]. rewrite Zminus_mod, wrap_mod, Z.sub_diag. apply Z.mod_0_l. lia.
  - intros D. symmetry. apply wrap_eq; auto. apply Z.mod_divide in D; [|lia].
    replace z with (x - (x - z))%Z by lia. rewrite Zminus_mod, D, Z.sub_0_r. apply Z.mod_mod. lia.
Qed.
Print Assumptions C81_modulo.

(** With a floating-point representation the nearest number of the format is compared. *)
Theorem C81_nearest : forall q r v f, comparable q r v -> q_rep (q_type q) = RFlt f -> no_infinity f (nval v) ->
  let c := Rcompare (nval (q_num q)) (nearest f (nval v)) in
  q_compare_value q r v = Ok (Some c) /\ value_compare_q r v q = Ok (Some (CompOpp c)) /\
  q_eqb_value q r v = Ok (match c with Eq => true | _ => false end) /\ value_eqb_q r v q = Ok (match c with Eq => true | _ => false end).
Proof.
  intros q r v f (P & K & Vq & Vv) R I c. rewrite R in Vq.
  destruct (implicit_float (q_type q) f r v P R Vv) as (x & E & X & N).
  { rewrite nearest_frnd. apply (frnd_lt_emax f _ (femax f - 1)); [destruct f; cbn; lia|destruct f; cbn; lia|exact I]. }
  unfold q_compare_value, value_compare_q, q_eqb_value, value_eqb_q. rewrite E. cbn [bind q_num].
  assert (X' : is_value (RFlt f) (NFlt x)) by exact X.
  rewrite (n_compare_real _ _ _ Vq X'), (n_compare_real _ _ _ X' Vq), (n_eqb_real _ _ _ Vq X'), (n_eqb_real _ _ _ X' Vq). cbn [nval].
  rewrite N. split; [reflexivity|]. split; [unfold c; now rewrite Rcompare_sym|]. split; [reflexivity|].
  rewrite (Rcompare_sym (nearest f (nval v))). unfold c. now destruct (Rcompare (nval (q_num q)) (nearest f (nval v))).
Qed.
Print Assumptions C81_nearest.
Example C81_nearest_ex : comparable (Quantity (ones (RFlt F32)) (NFlt (float_of_int F32 16777216))) (RInt I32) (NInt 16777217) /\
  no_infinity F32 (nval (NInt 16777217)) /\
  q_eqb_value (Quantity (ones (RFlt F32)) (NFlt (float_of_int F32 16777216))) (RInt I32) (NInt 16777217) = Ok true.
Proof.
  split; [|split; [|vm_compute; reflexivity]].
  - split; [split; reflexivity|]. split; [left; reflexivity|]. split; [split; vm_compute; reflexivity|vm_compute; reflexivity].
  - unfold no_infinity. cbn [nval]. rewrite Rabs_pos_eq by (apply IZR_le; lia). change (bpow radix2 (femax F32 - 1)) with (IZR (2 ^ 127)).
    apply IZR_le. vm_compute. discriminate.
Qed.

(** Exchanging the sides exchanges less and greater, for all numbers (NaN and infinities included). *)
Theorem C81_swapped : forall q r v,
  value_compare_q r v q = (c <- q_compare_value q r v; Ok (option_map CompOpp c)) /\ value_eqb_q r v q = q_eqb_value q r v.
Proof.
  intros q r v. unfold value_compare_q, q_compare_value, value_eqb_q, q_eqb_value.
  destruct (implicit_value (q_type q) r v) as [b| | | |]; cbn [bind]; try (split; reflexivity). split; [|apply n_eqb_swap].
  destruct (n_compare (q_num q) (q_num b)) as [c| | | |] eqn:E; cbn [bind];
    try (now apply n_compare_swap); destruct (q_num q), (q_num b); try discriminate E; reflexivity.
Qed.
Print Assumptions C81_swapped.

(** A number of the representation type itself counts as the quantity of that number. *)
Theorem C81_same_type : forall est w q v, plain_type (q_type q) -> num_ok (q_rep (q_type q)) v = true ->
  let b := Quantity (q_type q) v in
  q_compare_value q (q_rep (q_type q)) v = q_compare est w q b /\ q_eqb_value q (q_rep (q_type q)) v = q_eqb est w q b /\
  value_rem_q (q_rep (q_type q)) v q = q_rem b q /\ q_assign_value q (q_rep (q_type q)) v = Ok b /\
  q_add_assign_value est q (q_rep (q_type q)) v = q_act est q (AAdd b) /\ q_sub_assign_value est q (q_rep (q_type q)) v = q_act est q (ASub b).
Proof.
  intros est w q v P N b.
  assert (E : implicit_value (q_type q) (q_rep (q_type q)) v = Ok b).
  { rewrite implicit_is; [|assumption|unfold kept_kind; destruct (floating (q_rep (q_type q))); auto].
    unfold b. destruct (q_rep (q_type q)) as [i|f], v as [z|x]; try discriminate N; cbn [n_convert bind num_ok] in *.
    - now rewrite wrap_id.
    - now rewrite conv_same. }
  unfold q_compare_value, q_eqb_value, value_rem_q, q_assign_value, q_add_assign_value, q_sub_assign_value. rewrite E. cbn [bind].
  unfold q_compare, q_eqb, q_common, b. cbn [q_type q_num]. destruct (qtype_eq_dec (q_type q) (q_type q)) as [_|X]; [|contradiction].
  repeat split.
Qed.
Print Assumptions C81_same_type.

(** Assignment takes over a number that fits; [+=] and [-=] add and subtract it. *)
Theorem C81_assign : forall q r v, comparable q r v -> fits (q_rep (q_type q)) v ->
  exists x, q_assign_value q r v = Ok (Quantity (q_type q) x) /\ is_value (q_rep (q_type q)) x /\ nval x = nval v.
Proof. intros q r v (P & K & _ & Vv) F. exact (implicit_fits (q_type q) r v P K Vv F). Qed.
Print Assumptions C81_assign.
Theorem C81_add_assign_whole : forall est q r v i x z, comparable q r v -> q_rep (q_type q) = RInt i -> q_num q = NInt x -> v = NInt z ->
  in_range i z = true ->
  (in_range i (x + z) = true -> q_add_assign_value est q r v = Ok (Quantity (q_type q) (NInt (x + z)))) /\
  (in_range i (x - z) = true -> q_sub_assign_value est q r v = Ok (Quantity (q_type q) (NInt (x - z)))).
Proof.
  intros est q r v i x z (P & K & Vq & Vv) R Nq Nv Z. rewrite R in *. rewrite Nq in Vq. cbn [is_value] in Vq.
  unfold q_add_assign_value, q_sub_assign_value. rewrite (implicit_int _ i r v z P R K Vv Nv), wrap_id by assumption. unfold q_act. cbv zeta. cbn [bind q_type q_num].
  unfold q_convert. destruct (qtype_eq_dec (q_type q) (q_type q)) as [_|X]; [|contradiction]. cbn [bind]. rewrite R, Nq. unfold n_assign.
  assert (W : forall y, in_range i y = true -> in_range (arith_conv i i) y = true).
  { intros y Y. apply arith_conv_holds_l; auto. destruct (isigned (arith_conv i i)) eqn:S; auto. right. rewrite in_range_spec in Y.
    destruct i as [[] []]; try discriminate S; cbn in Y; lia. }
  rewrite !n_op_int, (wrap_id _ _ (W x Vq)), (wrap_id _ _ (W z Z)). unfold int_op, cadd, csub.
  split; intros S; rewrite arith_in_range by auto; cbn [bind n_convert]; now rewrite wrap_id.
Qed.
Print Assumptions C81_add_assign_whole.
Theorem C81_add_assign_float : forall est q r v f x, comparable q r v -> q_rep (q_type q) = RFlt f -> q_num q = NFlt x -> fits (RFlt f) v ->
  (no_infinity f (fval x + nval v) -> exists y, q_add_assign_value est q r v = Ok (Quantity (q_type q) (NFlt y)) /\ is_number f y /\
    fval y = nearest f (fval x + nval v)) /\
  (no_infinity f (fval x - nval v) -> exists y, q_sub_assign_value est q r v = Ok (Quantity (q_type q) (NFlt y)) /\ is_number f y /\
    fval y = nearest f (fval x - nval v)).
Proof.
  intros est q r v f x (P & K & Vq & Vv) R Nq F.
  destruct (implicit_fits (q_type q) r v P K Vv) as (k & E & X & N); [now rewrite R|]. rewrite R in *. rewrite Nq in Vq.
  destruct k as [k|k]; [contradiction|]. cbn [is_value nval] in *.
  unfold q_add_assign_value, q_sub_assign_value. rewrite E. unfold q_act. cbv zeta. cbn [bind q_type q_num].
  unfold q_convert. destruct (qtype_eq_dec (q_type q) (q_type q)) as [_|Y]; [|contradiction]. cbn [bind]. rewrite R, Nq. unfold n_assign, n_op.
  assert (A : arith_rep (RFlt f) (RFlt f) = RFlt f) by now destruct f. rewrite A. cbn [n_convert bind].
  rewrite !conv_same by (apply Vq || apply X). cbn [op_in float_op bind n_convert]. rewrite <- N.
  assert (L : forall y, no_infinity f y -> Rabs (frnd f y) < bpow radix2 (femax f)).
  { intros y Y. apply (frnd_lt_emax f _ (femax f - 1)); [destruct f; cbn; lia|destruct f; cbn; lia|exact Y]. }
  split; intros I.
  - destruct (add_rounds f x k Vq X (L _ I)) as [B C]. eexists. split; [rewrite conv_same by apply B; reflexivity|]. now rewrite nearest_frnd.
  - destruct (sub_rounds f x k Vq X (L _ I)) as [B C]. eexists. split; [rewrite conv_same by apply B; reflexivity|]. now rewrite nearest_frnd.
Qed.
Print Assumptions C81_add_assign_float.

(** The order agrees with the sign of the difference [q - v] of whole numbers, if this does not overflow. *)
Theorem C81_difference : forall q r v i j x z d, comparable q r v -> q_rep (q_type q) = RInt i -> r = RInt j -> q_num q = NInt x -> v = NInt z ->
  in_range i z = true -> isigned (arith_conv i j) = true -> q_addsub_value OpSub false q r v = Ok d ->
  exists y, q_num d = NInt y /\ q_compare_value q r v = Ok (Some (Z.compare y 0)).
Proof.
  intros q r v i j x z d C R Rr Nq Nv Z S H. destruct (C81_compare q r v C) as (E & _).
  { exists (NInt z). rewrite R, Nv. split; [exact Z|reflexivity]. }
  destruct C as (_ & _ & Vq & Vv). rewrite R, Nq in Vq. rewrite Rr, Nv in Vv. cbn [is_value] in *.
  unfold q_addsub_value in H. cbv zeta in H. step H as u U. step H as y Y. inversion H; subst d. clear H. cbn [q_num].
  rewrite R, Rr, Nq, Nv in Y. apply n_op_exact in Y as (-> & _); auto; [|now left].
  exists (x - z)%Z. split; [reflexivity|]. rewrite E, Nq, Nv. cbn [nval]. rewrite Rcompare_IZR. do 2 f_equal.
  change (x - z)%Z with (x - z)%Z. now rewrite Z.compare_sub.
Qed.
Print Assumptions C81_difference.

(** [v % q] is the remainder of the numbers, if [v] fits. *)
Theorem C81_remainder : forall q r v i x z s, comparable q r v -> q_rep (q_type q) = RInt i -> q_num q = NInt x -> v = NInt z ->
  in_range i z = true -> value_rem_q r v q = Ok s ->
  q_dim (q_type s) = dim_one /\ q_unit (q_type s) = unit_one /\ q_num s = NInt (Z.rem z x) /\ x <> 0%Z.
Proof.
  intros q r v i x z s (P & K & Vq & Vv) R Nq Nv Z H. rewrite R in *. rewrite Nq in Vq. cbn [is_value] in Vq.
  unfold value_rem_q in H. rewrite (implicit_int _ i r v z P R K Vv Nv), wrap_id in H by assumption. cbn [bind] in H.
  unfold q_rem in H. cbn [q_type q_num] in H. rewrite R, Nq in H. cbv zeta in H. step H as u U. step H as y Y. inversion H; subst s. clear H U.
  cbn [q_type with_rep q_dim q_unit q_num]. destruct P as [P1 P2]. split; [exact P1|]. split; [exact P2|].
  assert (O : operands_fit i i z x).
  { unfold operands_fit. destruct (isigned (arith_conv i i)) eqn:S; [now left|right]. rewrite in_range_spec in *.
    destruct i as [[] []]; try discriminate S; cbn in *; lia. }
  assert (G : isigned (arith_conv i i) = true \/ in_range (arith_conv i i) (exact_op OpRem z x) = true).
  { destruct O as [O|[O1 O2]]; [now left|right]. cbn [exact_op]. apply arith_conv_holds_l.
    - rewrite in_range_spec in *. destruct (Z.eq_dec x 0) as [->|X]; [rewrite Z.rem_0_r_ext by reflexivity; lia|].
      pose proof (Z.rem_nonneg z x X O1). pose proof (Z.rem_le z x O1 ltac:(lia)). assert (imin i <= 0)%Z by (destruct i as [[] []]; cbn; lia). lia.
    - right. destruct (Z.eq_dec x 0) as [->|X]; [rewrite Z.rem_0_r_ext by reflexivity; lia|]. now apply Z.rem_nonneg. }
  apply n_op_exact in Y as (-> & D & _); auto.
Qed.
Print Assumptions C81_remainder.
Example C81_whole_ex : forall est, let q := Quantity (ones (RInt I32)) (NInt 7) in comparable q (RInt I64) (NInt 40) /\ in_range I32 40 = true /\
  q_add_assign_value est q (RInt I64) (NInt 40) = Ok (Quantity (ones (RInt I32)) (NInt 47)) /\
  q_sub_assign_value est q (RInt I64) (NInt 40) = Ok (Quantity (ones (RInt I32)) (NInt (-33))) /\
  q_addsub_value OpSub false q (RInt I64) (NInt 40) = Ok (Quantity (ones (RInt I64)) (NInt (-33))) /\
  q_compare_value q (RInt I64) (NInt 40) = Ok (Some Lt) /\
  value_rem_q (RInt I64) (NInt 40) q = Ok (Quantity (ones (RInt I32)) (NInt 5)) /\ plain_type (q_type q).
Proof.
  intros est. cbv zeta. split; [|repeat split; vm_compute; reflexivity].
  split; [split; reflexivity|]. split; [right; reflexivity|]. split; reflexivity.
Qed.

(** Numbers that do not fit compare as something else: zero equals 2^32, whereas the
    difference, the sum, and the comparison with [quantity{v}] tell them apart; the largest
    unsigned number equals -1; in [float], 2^24 equals 2^24 + 1; and 2^32 + 5 leaves the
    remainder 5, modulo 7, not 2. *)
Theorem C81_unfit_refuted : forall est w,
  let zero := Quantity (ones (RInt I32)) (NInt 0) in
  let v := NInt 4294967296 in
  q_eqb_value zero (RInt I64) v = Ok true /\
  q_addsub_value OpSub false zero (RInt I64) v = Ok (Quantity (ones (RInt I64)) (NInt (-4294967296))) /\
  q_eqb est w zero (Quantity (ones (RInt I64)) v) = Ok false /\
  q_eqb_value (Quantity (ones (RInt (ITy W32 false))) (NInt 4294967295)) (RInt I32) (NInt (-1)) = Ok true /\
  q_compare_value (Quantity (ones (RInt (ITy W32 false))) (NInt 1)) (RInt I32) (NInt (-1)) = Ok (Some Lt) /\
  (nval (NInt 16777216) <> nval (NInt 16777217) /\
   q_eqb_value (Quantity (ones (RFlt F32)) (NFlt (float_of_int F32 16777216))) (RInt I32) (NInt 16777217) = Ok true) /\
  value_rem_q (RInt I64) (NInt 4294967301) (Quantity (ones (RInt I32)) (NInt 7)) = Ok (Quantity (ones (RInt I32)) (NInt 5)) /\
  (4294967301 mod 7 = 2)%Z.
Proof.
  intros est w zero v. split; [vm_compute; reflexivity|]. split; [vm_compute; reflexivity|]. split; [|split; [vm_compute; reflexivity|]].
  - vm_compute. reflexivity.
  - split; [vm_compute; reflexivity|]. split; [split; [cbn [nval]; intros H; apply eq_IZR in H; discriminate H|vm_compute; reflexivity]|].
    split; vm_compute; reflexivity.
Qed.
Print Assumptions C81_unfit_refuted.
