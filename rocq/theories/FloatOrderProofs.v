(** Proofs about sums and comparisons of floating-point quantities in different units. *)

From Coq Require Import ZArith QArith Qreals Reals Bool Lia Lra SpecFloat String.
From Flocq Require Import Core BinarySingleNaN Plus_error Relative.
From Verif Require Import Outcome CInt Root Ratio SpecRatio Unit Downcast Dim DimOp Equivalent SpecDim SpecUnit Rep QuantityCast CommonQuantity Quantity
  SpecQuantity DimProofs DimOpProofs MagnitudeProofs CastProofs QuantityProofs QuantityProofs2 SpecReal FloatProofs FloatCastProofs FloatAddProofs SpecOrder.
Local Open Scope R_scope.
Local Open Scope res_scope.

Lemma pos_nz : forall m, (0 < m)%Q -> ~ (m == 0)%Q.
Proof. intros m P Z. rewrite Z in P. now apply Qlt_irrefl in P. Qed.
Lemma nearest_frnd : forall f r, nearest f r = frnd f r.
Proof. reflexivity. Qed.

(** ** Whole numbers of a format *)

Lemma holds_format : forall f z, holds f z -> in_format f (IZR z) /\ Rabs (IZR z) < bpow radix2 (femax f).
Proof.
  intros f z (j & i & I & E & J & L). split.
  - rewrite E, mult_IZR. replace (IZR (2 ^ i)) with (bpow radix2 i) by (rewrite <- (IZR_Zpower radix2) by exact I; reflexivity).
    apply format_mul_pow2; auto. destruct f; cbn; lia.
  - rewrite <- abs_IZR. rewrite <- (IZR_Zpower radix2) by (destruct f; discriminate). apply IZR_lt. exact L.
Qed.
Lemma of_int_holds : forall f z, holds f z -> is_number f (float_of_int f z) /\ fval (float_of_int f z) = IZR z.
Proof.
  intros f z H. destruct (holds_format f z H) as [F L]. pose proof (frnd_id f _ F) as E.
  destruct (of_int_rounds f z) as [A B]; [now rewrite E|]. split; auto. now rewrite B.
Qed.
Lemma mul_holds : forall f x y a b, is_number f x -> is_number f y -> fval x = IZR a -> fval y = IZR b -> holds f (a * b) ->
  is_number f (SFmul (fprec f) (femax f) x y) /\ fval (SFmul (fprec f) (femax f) x y) = IZR (a * b).
Proof.
  intros f x y a b Nx Ny Ex Ey H. destruct (holds_format f _ H) as [F L]. pose proof (frnd_id f _ F) as E.
  destruct (mul_rounds f x y Nx Ny) as [A B]; [now rewrite Ex, Ey, <- mult_IZR, E|]. split; auto.
  now rewrite B, Ex, Ey, <- mult_IZR.
Qed.
Lemma div_holds : forall f x y a b k, is_number f x -> is_number f y -> fval x = IZR a -> fval y = IZR b -> b <> 0%Z ->
  a = (k * b)%Z -> holds f k ->
  is_number f (SFdiv (fprec f) (femax f) x y) /\ fval (SFdiv (fprec f) (femax f) x y) = IZR k.
Proof.
  intros f x y a b k Nx Ny Ex Ey Nb Ea H. destruct (holds_format f _ H) as [F L]. pose proof (frnd_id f _ F) as E.
  assert (Q : fval x / fval y = IZR k) by (rewrite Ex, Ey, Ea, mult_IZR; field; now apply IZR_neq).
  destruct (div_rounds f x y Nx Ny) as [A B]; [rewrite Ey; now apply IZR_neq|now rewrite Q, E|]. split; auto. now rewrite B, Q.
Qed.

(** ** Conversions *)

Lemma source_exact : forall from f n, cast_rep from (RFlt f) = RFlt f -> exact_value f from n ->
  exists x, n_convert (RFlt f) n = Ok (NFlt x) /\ is_number f x /\ fval x = nval n.
Proof.
  intros from f n H [V X]. pose proof (cast_rep_from _ _ _ H) as C. destruct from as [t|g], n as [z|v]; try contradiction; cbn [n_convert nval].
  - exists (float_of_int f z). split; auto. now apply of_int_holds.
  - exists (float_conv f v). split; auto. destruct (narrower_parts _ _ C) as [P E]. now apply (conv_wider f g v V P E).
Qed.

Lemma safe_to_float : forall est from to f, q_rep to = RFlt f -> dim_equivalent (q_dim to) (q_dim from) = true ->
  safe_castable_to est from to = Ok true.
Proof. intros est from to f R De. unfold safe_castable_to. now rewrite De, R. Qed.

(** A whole factor costs one rounding. *)
Lemma convert_nearest : forall est from to f m1 m2 n, sized est from m1 -> sized est to m2 -> references_ok from to ->
  dim_equivalent (q_dim to) (q_dim from) = true -> cast_rep (q_rep from) (RFlt f) = RFlt f -> q_rep to = RFlt f ->
  whole_factor est f from to -> exact_value f (q_rep from) n -> no_infinity f (nval n * Q2R (m1 / m2)) ->
  exists y, q_convert est from to n = Ok (NFlt y) /\ is_number f y /\ fval y = nearest f (nval n * Q2R (m1 / m2)).
Proof.
  intros est from to f m1 m2 n S1 S2 R De Cr Rt W V NI. rewrite nearest_frnd. unfold q_convert.
  pose proof (sized_pos _ _ _ S2) as P2.
  destruct (qtype_eq_dec from to) as [<-|Ne].
  - assert (Q : Q2R (m1 / m2) = 1).
    { rewrite (Qeq_eqR (m1 / m2) 1); [unfold Q2R; cbn; lra|]. rewrite (sized_unique _ _ _ _ S1 S2). field. now apply pos_nz. }
    destruct V as [V _]. rewrite Rt in V. destruct n as [z|v]; [contradiction|]. exists v. split; auto. split; auto.
    rewrite Q, Rmult_1_r. cbn [nval]. symmetry. apply frnd_id. now apply number_format.
  - destruct W as [W|(c & k & Hc & Ek & He & H5 & Hn & Hd & Hp & Hk)]; [now elim Ne|].
    rewrite (safe_to_float est from to f Rt De). cbn [bind constrained].
    destruct (sized_parts _ _ _ S1) as (G1 & X1 & M1). destruct (sized_parts _ _ _ S2) as (G2 & X2 & M2).
    destruct (cast_ratio_magnitude _ _ _ _ _ _ G1 G2 X1 X2 R M1 M2 Hc) as [Q G].
    assert (Dp : (0 < rden c)%Z) by apply G.
    assert (Qk : Q2R (m1 / m2) = IZR k).
    { rewrite <- (Qeq_eqR _ _ Q), Q2R_rval by lia. rewrite powerRZ_Z by auto. rewrite <- mult_IZR, Ek, mult_IZR. field. apply IZR_neq. lia. }
    destruct (of_int_holds f _ Hn) as [A1 B1]. destruct (of_int_holds f _ Hd) as [A2 B2].
    destruct (fpow10_exact f _ He H5) as [A3 B3]. rewrite powerRZ_Z in B3 by auto.
    destruct (mul_holds f _ _ _ _ A1 A3 B1 B3 Hp) as [A4 B4].
    destruct (div_holds f _ _ _ _ k A4 A2 B4 B2) as [A5 B5]; [lia|lia|auto|].
    destruct (source_exact _ f n Cr V) as (x & Ex & Nx & Vx).
    assert (L : Rabs (frnd f (fval x * fval (cast_factor f c))) < bpow radix2 (femax f)).
    { apply frnd_lt_emax with (e := (femax f - 1)%Z); [apply emin_small|lia|]. change (cast_factor f c) with (SFdiv (fprec f) (femax f) (SFmul (fprec f) (femax f) (float_of_int f (rnum c)) (fpow10 f (rexp c))) (float_of_int f (rden c))).
      rewrite B5, Vx, <- Qk. exact NI. }
    destruct (mul_rounds f x (cast_factor f c) Nx A5 L) as [A6 B6].
    exists (SFmul (fprec f) (femax f) x (cast_factor f c)). split; [|split; auto].
    + unfold quantity_cast. rewrite De. cbn [constrained bind]. rewrite Hc. cbn [bind]. rewrite Rt.
      rewrite (cast_number_eq _ _ _ f n x Cr Ex). cbn [n_convert]. now rewrite conv_same by apply A6.
    + rewrite B6, Vx, Qk. f_equal. f_equal. exact B5.
Qed.

(** Any factor. *)
Lemma convert_near : forall est from to f m1 m2 n k, sized est from m1 -> sized est to m2 -> references_ok from to ->
  dim_equivalent (q_dim to) (q_dim from) = true -> cast_rep (q_rep from) (RFlt f) = RFlt f -> q_rep to = RFlt f ->
  is_value (q_rep from) n -> conversion_roundings est from to k -> conversion_in_range est f from to (nval n * Q2R (m1 / m2)) ->
  exists y, q_convert est from to n = Ok (NFlt y) /\ is_number f y /\ near f k (fval y) (nval n * Q2R (m1 / m2)) /\
    (Z.of_nat k <= 2 ^ 22)%Z.
Proof.
  intros est from to f m1 m2 n k S1 S2 R De Cr Rt V K (M & F). unfold q_convert.
  pose proof (sized_pos _ _ _ S2) as P2. destruct (qtype_eq_dec from to) as [<-|Ne].
  - destruct K as [[_ ->]|[N _]]; [|now elim N].
    assert (Q : Q2R (m1 / m2) = 1).
    { rewrite (Qeq_eqR (m1 / m2) 1); [unfold Q2R; cbn; lra|]. rewrite (sized_unique _ _ _ _ S1 S2). field. now apply pos_nz. }
    rewrite Rt in V. destruct n as [z|v]; [contradiction|]. exists v. split; auto. split; auto.
    rewrite Q, Rmult_1_r. split; [apply near_refl|lia].
  - destruct K as [[E _]|[_ (c & Hc & ->)]]; [now elim Ne|]. destruct F as [E|(c' & Hc' & F)]; [now elim Ne|].
    assert (c' = c) by congruence. subst c'.
    rewrite (safe_to_float est from to f Rt De). cbn [bind constrained]. assert (Cr' : cast_rep (q_rep from) (q_rep to) = RFlt f) by now rewrite Rt.
    destruct (float_cast _ _ _ _ _ _ _ _ S1 S2 R De Cr' Hc V F M) as (y & A & B & C).
    exists y. rewrite C, Rt. cbn [n_convert]. rewrite conv_same by apply A. split; auto. split; auto. split; auto.
    pose proof (mid_steps f _ (proj1 F)) as K. unfold roundings. destruct (floating (q_rep from)); lia.
Qed.

(** ** Comparison *)

Lemma compare_numbers : forall f x y, is_number f x -> is_number f y -> SFcompare x y = Some (Rcompare (fval x) (fval y)).
Proof.
  intros f x y X Y. destruct (number_B f x X) as (a & <- & A & Fa). destruct (number_B f y Y) as (b & <- & Hb & Fb).
  rewrite <- A, <- Hb. exact (Bcompare_correct _ _ a b Fa Fb).
Qed.
Lemma float_reps : forall a b f, arith_rep a b = RFlt f -> common_rep a b = RFlt f /\
  cast_rep a (RFlt f) = RFlt f /\ cast_rep b (RFlt f) = RFlt f.
Proof.
  intros [s|g] [t|h] f H; cbn in H; try discriminate H; injection H as <-; repeat split; try (now destruct g); try (now destruct h); destruct g, h; reflexivity.
Qed.

Lemma common_converts : forall est w a b f t, arith_rep (q_rep (q_type a)) (q_rep (q_type b)) = RFlt f ->
  common_quantity est w (q_type a) (q_type b) (RFlt f) = Ok t ->
  q_common est w a b = (x <- q_convert est (q_type a) t (q_num a); y <- q_convert est (q_type b) t (q_num b); Ok (x, y)).
Proof.
  intros est w a b f t R H. destruct (float_reps _ _ _ R) as (Rc & _). unfold q_common.
  destruct (qtype_eq_dec (q_type a) (q_type b)) as [E|E].
  - assert (T : t = q_type a).
    { unfold common_quantity in H. step H as u Eu. step H as du Ed. unfold common_dim_unit in Ed. rewrite <- E in *.
      destruct (dimension_eq_dec (q_dim (q_type a)) (q_dim (q_type a))) as [_|N]; [|now elim N].
      destruct (cunit_eq_dec (q_unit (q_type a)) (q_unit (q_type a))) as [_|N]; [|now elim N].
      inversion Ed; subst du. cbn [fst snd] in H. unfold mk_qtype in H. step H as v Ev. inversion H; subst t.
      destruct (q_type a) as [d u' r]. cbn [q_dim q_unit q_rep] in *. f_equal. destruct r as [i|g]; cbn in R; [discriminate R|].
      injection R as <-. f_equal. now destruct g. }
    subst t. unfold q_convert. rewrite <- E. destruct (qtype_eq_dec (q_type a) (q_type a)) as [_|N]; [reflexivity|now elim N].
  - rewrite Rc, H. reflexivity.
Qed.

Lemma scaled_order : forall a b (ma mb m : Q), (0 < m)%Q ->
  (a * Q2R ma <= b * Q2R mb <-> a * Q2R (ma / m) <= b * Q2R (mb / m)).
Proof.
  intros a b ma mb m P. assert (N : ~ (m == 0)%Q) by now apply pos_nz. rewrite !Q2R_div by auto.
  assert (P' : 0 < Q2R m) by (replace 0 with (Q2R 0) by (unfold Q2R; cbn; lra); now apply Qlt_Rlt).
  unfold Rdiv. rewrite <- !Rmult_assoc. split; intros H.
  - apply Rmult_le_compat_r; auto. now apply Rlt_le, Rinv_0_lt_compat.
  - apply Rmult_le_reg_r with (/ Q2R m); auto. now apply Rinv_0_lt_compat.
Qed.

Lemma compare_nearest : forall est w a b f t ma mb m, consistent w -> sized est (q_type a) ma -> sized est (q_type b) mb ->
  compatible (q_type a) (q_type b) -> arith_rep (q_rep (q_type a)) (q_rep (q_type b)) = RFlt f ->
  common_quantity est w (q_type a) (q_type b) (RFlt f) = Ok t -> sized est t m ->
  whole_factor est f (q_type a) t -> whole_factor est f (q_type b) t ->
  exact_value f (q_rep (q_type a)) (q_num a) -> exact_value f (q_rep (q_type b)) (q_num b) ->
  no_infinity f (nval (q_num a) * Q2R (ma / m)) -> no_infinity f (nval (q_num b) * Q2R (mb / m)) ->
  let c := Rcompare (nearest f (nval (q_num a) * Q2R (ma / m))) (nearest f (nval (q_num b) * Q2R (mb / m))) in
  q_compare est w a b = Ok (Some c) /\ q_eqb est w a b = Ok (match c with Eq => true | _ => false end).
Proof.
  intros est w a b f t ma mb m C Sa Sb K R H St Wa Wb Va Vb Na Nb.
  destruct (common_quantity_sized _ _ _ _ _ _ _ _ C Sa Sb K H) as (m' & S' & CM & Rt & Ra & Rb & Da & Db & _).
  destruct (float_reps _ _ _ R) as (_ & Ca & Cb).
  destruct (convert_nearest est _ t f ma m _ Sa St Ra Da Ca Rt Wa Va Na) as (x & Ex & Nx & Vx).
  destruct (convert_nearest est _ t f mb m _ Sb St Rb Db Cb Rt Wb Vb Nb) as (y & Ey & Ny & Vy).
  unfold q_compare, q_eqb. rewrite (common_converts est w a b f t R H), Ex. cbn [bind]. rewrite Ey. cbn [bind fst snd n_compare n_eqb].
  unfold SFeqb. rewrite (compare_numbers f x y Nx Ny), Vx, Vy. cbv zeta. split; reflexivity.
Qed.

(** ** Sums *)

Definition rsum (o : arith_op) (x y : R) : R := match o with OpAdd => x + y | _ => x - y end.

Lemma rsum_abs : forall o x y, Rabs (rsum o x y) <= Rabs x + Rabs y.
Proof.
  intros o x y. destruct o; cbn [rsum]; [apply Rabs_triang|..]; (replace (x - y) with (x + - y) by ring; eapply Rle_trans; [apply Rabs_triang|]; now rewrite Rabs_Ropp; right).
Qed.
Lemma op_number : forall o f x y, sum_op o -> is_number f x -> is_number f y -> Rabs (frnd f (rsum o (fval x) (fval y))) < bpow radix2 (femax f) ->
  exists z, op_in o (RFlt f) (NFlt x) (NFlt y) = Ok (NFlt z) /\ is_number f z /\ fval z = frnd f (rsum o (fval x) (fval y)).
Proof.
  intros o f x y [->| ->] Nx Ny L; cbn [rsum] in *.
  - exists (SFadd (fprec f) (femax f) x y). split; [reflexivity|]. now apply add_rounds.
  - exists (SFsub (fprec f) (femax f) x y). split; [reflexivity|]. now apply sub_rounds.
Qed.

(** The rounding of a sum of two numbers is relative to it, even among the smallest. *)
Lemma sum_relative : forall o f x y, is_number f x -> is_number f y ->
  exists e, frnd f (rsum o (fval x) (fval y)) = rsum o (fval x) (fval y) * e /\ / (1 + roundoff f) <= e <= 1 + roundoff f.
Proof.
  intros o f x y Nx Ny. pose proof (number_format f x Nx) as Fx. pose proof (number_format f y Ny) as Fy.
  pose proof (roundoff_pos f) as U.
  assert (G : exists y', in_format f y' /\ rsum o (fval x) (fval y) = fval x + y').
  { destruct o; [exists (fval y)|exists (- fval y)..]; (split; [|cbn [rsum]; lra]); auto; now apply generic_format_opp. }
  destruct G as (y' & Fy' & ->).
  destruct (FLT_plus_error_N_ex radix2 (3 - femax f - fprec f) (fprec f) (fun n => negb (Z.even n)) (fval x) y' Fx Fy') as (e & He & E).
  exists (1 + e). split; [exact E|].
  assert (Q : u_ro radix2 (fprec f) = roundoff f).
  { unfold u_ro, roundoff. rewrite <- (Rmult_comm _ (/ 2)), bpow_plus. cbn [bpow radix_val radix2]. change (IZR (Z.pow_pos 2 1)) with 2. lra. }
  rewrite Q in He. apply Rabs_le_inv in He. assert (I : / (1 + roundoff f) = 1 - roundoff f / (1 + roundoff f)) by (field; lra).
  assert (I' : roundoff f / (1 + roundoff f) <= roundoff f).
  { apply Rmult_le_reg_r with (1 + roundoff f); [lra|]. unfold Rdiv. rewrite Rmult_assoc, Rinv_l by lra. nra. }
  split; lra.
Qed.
Lemma near_step : forall f k y r e, near f k y r -> / (1 + roundoff f) <= e <= 1 + roundoff f -> near f (k + 1) (y * e) r.
Proof.
  intros f k y r e N H. rewrite Nat.add_comm. eapply near_trans; [|exact N]. exists e. split; [reflexivity|]. now rewrite pow_1.
Qed.

(** Sums in [f]: the number, its exact value and the type. *)
Lemma addsub_converts : forall o est w a b f t x y, arith_rep (q_rep (q_type a)) (q_rep (q_type b)) = RFlt f ->
  common_quantity est w (q_type a) (q_type b) (RFlt f) = Ok t ->
  q_convert est (q_type a) t (q_num a) = Ok (NFlt x) -> q_convert est (q_type b) t (q_num b) = Ok (NFlt y) ->
  is_number f x -> is_number f y -> sum_op o ->
  forall z, op_in o (RFlt f) (NFlt x) (NFlt y) = Ok (NFlt z) -> is_number f z -> q_addsub o est w a b = Ok (Quantity t (NFlt z)).
Proof.
  intros o est w a b f t x y R H Ex Ey Nx Ny O z Hz Nz. unfold q_addsub. rewrite R, H. cbn [bind]. rewrite Ex. cbn [bind]. rewrite Ey. cbn [bind].
  unfold n_op. assert (A : arith_rep (RFlt f) (RFlt f) = RFlt f) by now destruct f. rewrite A. cbn [n_convert bind].
  rewrite (conv_same f x) by apply Nx. rewrite (conv_same f y) by apply Ny. rewrite Hz. cbn [bind n_convert].
  rewrite (conv_same f z) by apply Nz. reflexivity.
Qed.

Lemma sum_nearest : forall o est w a b f t ma mb m, sum_op o -> consistent w -> sized est (q_type a) ma -> sized est (q_type b) mb ->
  compatible (q_type a) (q_type b) -> arith_rep (q_rep (q_type a)) (q_rep (q_type b)) = RFlt f ->
  common_quantity est w (q_type a) (q_type b) (RFlt f) = Ok t -> sized est t m ->
  whole_factor est f (q_type a) t -> whole_factor est f (q_type b) t ->
  exact_value f (q_rep (q_type a)) (q_num a) -> exact_value f (q_rep (q_type b)) (q_num b) ->
  Rabs (nval (q_num a) * Q2R (ma / m)) <= bpow radix2 (femax f - 2) -> Rabs (nval (q_num b) * Q2R (mb / m)) <= bpow radix2 (femax f - 2) ->
  exists z, q_addsub o est w a b = Ok (Quantity t (NFlt z)) /\ is_number f z /\
    fval z = nearest f (rsum o (nearest f (nval (q_num a) * Q2R (ma / m))) (nearest f (nval (q_num b) * Q2R (mb / m)))).
Proof.
  intros o est w a b f t ma mb m O C Sa Sb K R H St Wa Wb Va Vb Na Nb.
  destruct (common_quantity_sized _ _ _ _ _ _ _ _ C Sa Sb K H) as (m' & S' & CM & Rt & Ra & Rb & Da & Db & _).
  destruct (float_reps _ _ _ R) as (_ & Ca & Cb).
  assert (Lt : bpow radix2 (femax f - 2) <= bpow radix2 (femax f - 1)) by (apply bpow_le; lia).
  destruct (convert_nearest est _ t f ma m _ Sa St Ra Da Ca Rt Wa Va (Rle_trans _ _ _ Na Lt)) as (x & Ex & Nx & Vx).
  destruct (convert_nearest est _ t f mb m _ Sb St Rb Db Cb Rt Wb Vb (Rle_trans _ _ _ Nb Lt)) as (y & Ey & Ny & Vy).
  assert (Bx : Rabs (fval x) <= bpow radix2 (femax f - 2)) by (rewrite Vx; apply frnd_abs_le; auto; destruct f; cbn; lia).
  assert (By : Rabs (fval y) <= bpow radix2 (femax f - 2)) by (rewrite Vy; apply frnd_abs_le; auto; destruct f; cbn; lia).
  assert (E2 : bpow radix2 (femax f - 1) = bpow radix2 (femax f - 2) * 2).
  { replace (femax f - 1)%Z with (femax f - 2 + 1)%Z by lia. now rewrite bpow_plus. }
  destruct (op_number o f x y O Nx Ny) as (z & Ez & Nz & Vz).
  { apply frnd_lt_emax with (e := (femax f - 1)%Z); [apply emin_small|lia|]. rewrite E2.
    apply Rabs_le_inv in Bx, By. apply Rabs_le. destruct o; cbn [rsum]; lra. }
  exists z. split; [exact (addsub_converts _ _ _ _ _ _ _ _ _ R H Ex Ey Nx Ny O z Ez Nz)|]. split; auto. rewrite Vz, Vx, Vy. reflexivity.
Qed.

Lemma sum_accurate : forall o est w a b f t ma mb m ka kb, sum_op o -> consistent w -> sized est (q_type a) ma -> sized est (q_type b) mb ->
  compatible (q_type a) (q_type b) -> arith_rep (q_rep (q_type a)) (q_rep (q_type b)) = RFlt f ->
  common_quantity est w (q_type a) (q_type b) (RFlt f) = Ok t -> sized est t m ->
  is_value (q_rep (q_type a)) (q_num a) -> is_value (q_rep (q_type b)) (q_num b) ->
  conversion_roundings est (q_type a) t ka -> conversion_roundings est (q_type b) t kb ->
  conversion_in_range est f (q_type a) t (nval (q_num a) * Q2R (ma / m)) ->
  conversion_in_range est f (q_type b) t (nval (q_num b) * Q2R (mb / m)) ->
  Rabs (nval (q_num a) * Q2R (ma / m)) <= bpow radix2 (femax f - 3) -> Rabs (nval (q_num b) * Q2R (mb / m)) <= bpow radix2 (femax f - 3) ->
  exists z, q_addsub o est w a b = Ok (Quantity t (NFlt z)) /\ is_number f z /\
    Rabs (fval z * Q2R m - rsum o (nval (q_num a) * Q2R ma) (nval (q_num b) * Q2R mb)) <=
      gamma f (ka + 1) * Rabs (nval (q_num a) * Q2R ma) + gamma f (kb + 1) * Rabs (nval (q_num b) * Q2R mb).
Proof.
  intros o est w a b f t ma mb m ka kb O C Sa Sb K R H St Va Vb Ka Kb Ia Ib La Lb.
  destruct (common_quantity_sized _ _ _ _ _ _ _ _ C Sa Sb K H) as (m' & S' & CM & Rt & Ra & Rb & Da & Db & _).
  destruct (float_reps _ _ _ R) as (_ & Ca & Cb). pose proof (sized_pos _ _ _ St) as P.
  assert (P' : 0 < Q2R m) by (replace 0 with (Q2R 0) by (unfold Q2R; cbn; lra); now apply Qlt_Rlt).
  destruct (convert_near est _ t f ma m _ ka Sa St Ra Da Ca Rt Va Ka Ia) as (x & Ex & Nx & Vx & Kx).
  destruct (convert_near est _ t f mb m _ kb Sb St Rb Db Cb Rt Vb Kb Ib) as (y & Ey & Ny & Vy & Ky).
  assert (E1 : bpow radix2 (femax f - 2) = bpow radix2 (femax f - 3) * 2).
  { replace (femax f - 2)%Z with (femax f - 3 + 1)%Z by lia. now rewrite bpow_plus. }
  assert (E2 : bpow radix2 (femax f - 1) = bpow radix2 (femax f - 3) * 4).
  { replace (femax f - 1)%Z with (femax f - 3 + 2)%Z by lia. now rewrite bpow_plus. }
  destruct (near_between f ka _ _ ltac:(lia) Vx) as [_ Bx]. destruct (near_between f kb _ _ ltac:(lia) Vy) as [_ By].
  destruct (op_number o f x y O Nx Ny) as (z & Ez & Nz & Vz).
  { apply frnd_lt_emax with (e := (femax f - 1)%Z); [apply emin_small|lia|]. rewrite E2.
    apply Rle_trans with (Rabs (fval x) + Rabs (fval y)); [|lra]. apply rsum_abs. }
  exists z. split; [exact (addsub_converts _ _ _ _ _ _ _ _ _ R H Ex Ey Nx Ny O z Ez Nz)|]. split; auto.
  destruct (sum_relative o f x y Nx Ny) as (e & Ee & He). rewrite Vz, Ee.
  assert (Sm : forall k, (Z.of_nat k <= 2 ^ 22)%Z -> INR (k + 1) * roundoff f < 1).
  { intros k Hk. apply Rle_lt_trans with (IZR (2 ^ 23) * bpow radix2 (-24)).
    - apply Rmult_le_compat; [apply pos_INR|apply Rlt_le, roundoff_pos| |apply roundoff_small]. rewrite INR_IZR_INZ. apply IZR_le. lia.
    - rewrite (IZR_Zpower radix2) by lia. rewrite <- bpow_plus. cbn. lra. }
  pose proof (near_within f (ka + 1) _ _ (Sm ka Kx) (near_step f ka _ _ e Vx He)) as Wx.
  pose proof (near_within f (kb + 1) _ _ (Sm kb Ky) (near_step f kb _ _ e Vy He)) as Wy. unfold within in Wx, Wy.
  assert (N : ~ (m == 0)%Q) by now apply pos_nz. rewrite !Q2R_div in * by auto.
  set (A := nval (q_num a) * (Q2R ma / Q2R m)) in *. set (B := nval (q_num b) * (Q2R mb / Q2R m)) in *.
  assert (EA : nval (q_num a) * Q2R ma = A * Q2R m) by (unfold A; field; lra).
  assert (EB : nval (q_num b) * Q2R mb = B * Q2R m) by (unfold B; field; lra). rewrite EA, EB.
  replace (rsum o (fval x) (fval y) * e * Q2R m - rsum o (A * Q2R m) (B * Q2R m))
    with (rsum o (fval x * e - A) (fval y * e - B) * Q2R m) by (destruct o; cbn [rsum]; ring).
  rewrite !Rabs_mult, (Rabs_right (Q2R m)) by lra.
  replace (gamma f (ka + 1) * (Rabs A * Q2R m) + gamma f (kb + 1) * (Rabs B * Q2R m))
    with ((gamma f (ka + 1) * Rabs A + gamma f (kb + 1) * Rabs B) * Q2R m) by ring.
  apply Rmult_le_compat_r; [lra|].
  apply Rle_trans with (Rabs (fval x * e - A) + Rabs (fval y * e - B)); [|lra].
  apply rsum_abs.
Qed.

(** Comparison with any factors. *)
Lemma compare_accurate : forall est w a b f t ma mb m ka kb, consistent w -> sized est (q_type a) ma -> sized est (q_type b) mb ->
  compatible (q_type a) (q_type b) -> arith_rep (q_rep (q_type a)) (q_rep (q_type b)) = RFlt f ->
  common_quantity est w (q_type a) (q_type b) (RFlt f) = Ok t -> sized est t m ->
  is_value (q_rep (q_type a)) (q_num a) -> is_value (q_rep (q_type b)) (q_num b) ->
  conversion_roundings est (q_type a) t ka -> conversion_roundings est (q_type b) t kb ->
  conversion_in_range est f (q_type a) t (nval (q_num a) * Q2R (ma / m)) ->
  conversion_in_range est f (q_type b) t (nval (q_num b) * Q2R (mb / m)) ->
  let A := nval (q_num a) * Q2R ma in let B := nval (q_num b) * Q2R mb in
  exists c, q_compare est w a b = Ok (Some c) /\ q_eqb est w a b = Ok (match c with Eq => true | _ => false end) /\
    (gamma f ka * Rabs A + gamma f kb * Rabs B < B - A -> c = Lt) /\
    (gamma f ka * Rabs A + gamma f kb * Rabs B < A - B -> c = Gt) /\
    (c = Eq -> Rabs (A - B) <= gamma f ka * Rabs A + gamma f kb * Rabs B).
Proof.
  intros est w a b f t ma mb m ka kb C Sa Sb K R H St Va Vb Ka Kb Ia Ib.
  destruct (common_quantity_sized _ _ _ _ _ _ _ _ C Sa Sb K H) as (m' & S' & CM & Rt & Ra & Rb & Da & Db & _).
  destruct (float_reps _ _ _ R) as (_ & Ca & Cb). pose proof (sized_pos _ _ _ St) as P.
  assert (P' : 0 < Q2R m) by (replace 0 with (Q2R 0) by (unfold Q2R; cbn; lra); now apply Qlt_Rlt).
  destruct (convert_near est _ t f ma m _ ka Sa St Ra Da Ca Rt Va Ka Ia) as (x & Ex & Nx & Vx & Kx).
  destruct (convert_near est _ t f mb m _ kb Sb St Rb Db Cb Rt Vb Kb Ib) as (y & Ey & Ny & Vy & Ky).
  assert (Sm : forall k, (Z.of_nat k <= 2 ^ 22)%Z -> INR k * roundoff f < 1).
  { intros k Hk. apply Rle_lt_trans with (IZR (2 ^ 23) * bpow radix2 (-24)).
    - apply Rmult_le_compat; [apply pos_INR|apply Rlt_le, roundoff_pos| |apply roundoff_small]. rewrite INR_IZR_INZ. apply IZR_le. lia.
    - rewrite (IZR_Zpower radix2) by lia. rewrite <- bpow_plus. cbn. lra. }
  pose proof (near_within f ka _ _ (Sm ka Kx) Vx) as Wx. pose proof (near_within f kb _ _ (Sm kb Ky) Vy) as Wy. unfold within in Wx, Wy.
  assert (N : ~ (m == 0)%Q) by now apply pos_nz. rewrite !Q2R_div in * by auto.
  set (A := nval (q_num a) * (Q2R ma / Q2R m)) in *. set (B := nval (q_num b) * (Q2R mb / Q2R m)) in *.
  assert (EA : nval (q_num a) * Q2R ma = A * Q2R m) by (unfold A; field; lra).
  assert (EB : nval (q_num b) * Q2R mb = B * Q2R m) by (unfold B; field; lra). cbv zeta. rewrite EA, EB.
  rewrite !Rabs_mult, (Rabs_right (Q2R m)) by lra.
  exists (Rcompare (fval x) (fval y)).
  unfold q_compare, q_eqb. rewrite (common_converts est w a b f t R H), Ex. cbn [bind]. rewrite Ey. cbn [bind fst snd n_compare n_eqb].
  unfold SFeqb. rewrite (compare_numbers f x y Nx Ny). split; [reflexivity|]. split; [reflexivity|].
  set (g := gamma f ka * Rabs A) in *. set (h := gamma f kb * Rabs B) in *.
  replace (gamma f ka * (Rabs A * Q2R m) + gamma f kb * (Rabs B * Q2R m)) with ((g + h) * Q2R m) by (unfold g, h; ring).
  replace (B * Q2R m - A * Q2R m) with ((B - A) * Q2R m) by ring. replace (A * Q2R m - B * Q2R m) with ((A - B) * Q2R m) by ring.
  apply Rabs_le_inv in Wx, Wy. split; [|split].
  - intros L. apply Rmult_lt_reg_r in L; auto. apply Rcompare_Lt. lra.
  - intros L. apply Rmult_lt_reg_r in L; auto. apply Rcompare_Gt. lra.
  - intros E. apply Rcompare_Eq_inv in E. rewrite Rabs_mult, (Rabs_right (Q2R m)) by lra. apply Rmult_le_compat_r; [lra|]. apply Rabs_le. lra.
Qed.
