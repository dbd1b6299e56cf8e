(** C88: the accuracy of expressions of floating-point quantities in any units. *)

From Coq Require Import ZArith QArith Qreals Reals Bool Lia Lra SpecFloat String List.
From Flocq Require Import Core.
From Verif Require Import Outcome CInt Root Ratio SpecRatio FixedString Unit Downcast Dim DimOp Equivalent SpecDim SpecUnit Rep Reference QuantityCast CommonQuantity Quantity
  SpecQuantity DimProofs DimOpProofs MagnitudeProofs QuantityProofs QuantityProofs2 QuantityProofs4 Point Expr SpecExpr ExprProofs ExprProofs2 ExprProofs3
  Samples SpecReal FloatProofs FloatCastProofs FloatAddProofs SpecOrder FloatOrderProofs SpecRounding RoundingProofs CatalogueProofs
  Props_Dim Props_Quantity Props_Float Props_FloatOrder Props_Expr.
Import ListNotations.
Local Open Scope R_scope.
Local Open Scope res_scope.

(** So many roundings keep the bound meaningful. *)
Lemma few : forall f k, (Z.of_nat k <= 2 ^ 22)%Z -> INR k * roundoff f < 1.
Proof.
  intros f k Hk. apply Rle_lt_trans with (IZR (2 ^ 22) * bpow radix2 (-24)).
  - apply Rmult_le_compat; [apply pos_INR|apply Rlt_le, roundoff_pos| |apply roundoff_small]. rewrite INR_IZR_INZ. now apply IZR_le.
  - rewrite (IZR_Zpower radix2) by lia. rewrite <- bpow_plus. cbn. lra.
Qed.

(** In one system of units: whatever units the parts of an expression are in, the result is the
    exact value up to the relative error of the roundings counted. *)
Theorem C88_accuracy : forall U w est f e r k q, symbols_identify U -> good_system U w -> all_dims (in_system U w) e ->
  computes est w f e r k -> (Z.of_nat k <= 2 ^ 22)%Z -> eval est w e = Ok q -> accurate est f q r k.
Proof.
  intros U w est f e r k q HU G A C L H. destruct (eval_rounded U w HU G est f e r k C A L q H) as (_ & x & m & R & N & F & S & K).
  exists x, m. split; [exact R|]. split; [exact N|]. split; [exact F|]. split; [exact S|]. apply near_within; [now apply few|exact K].
Qed.
Print Assumptions C88_accuracy.

(** A comparison of two results that their errors cannot reach decides as exact arithmetic would. *)
Theorem C88_decision : forall U w est f a b r s k l x y t m ka kb, symbols_identify U -> good_system U w ->
  all_dims (in_system U w) a -> all_dims (in_system U w) b -> computes est w f a r k -> computes est w f b s l ->
  eval est w a = Ok x -> eval est w b = Ok y ->
  common_quantity est w (q_type x) (q_type y) (RFlt f) = Ok t -> sized est t m ->
  conversion_costs est f (q_type x) t ka -> conversion_costs est f (q_type y) t kb ->
  (Z.of_nat (k + ka) <= 2 ^ 22)%Z -> (Z.of_nat (l + kb) <= 2 ^ 22)%Z -> mid_range f (r / Q2R m) -> mid_range f (s / Q2R m) ->
  gamma f (k + ka) * Rabs r + gamma f (l + kb) * Rabs s < Rabs (r - s) ->
  q_compare est w x y = Ok (Some (Rcompare r s)).
Proof.
  intros U w est f a b r s k l x y t m ka kb HU G Aa Ab Ca Cb Ex Ey Ct St Ka Kb La Lb Mr Ms Gap.
  destruct (eval_rounded U w HU G est f a r k Ca Aa ltac:(lia) x Ex) as (Dx & vx & mx & Rx & Nx & Fx & Sx & Kx).
  destruct (eval_rounded U w HU G est f b s l Cb Ab ltac:(lia) y Ey) as (Dy & vy & my & Ry & Ny & Fy & Sy & Ky).
  assert (De : q_dim (q_type y) = q_dim (q_type x)).
  { apply (same_dimension U w HU); auto. apply equivalent_exps. unfold common_quantity in Ct. step Ct as u Eu. now apply constrained_ok in Eu. }
  destruct (common_quantity_sized _ _ _ _ _ _ _ _ (proj1 G) Sx Sy (compatible_same _ _ (eq_sym De)) Ct) as (m' & _ & _ & Rt & Fa & Fb & Da & Db & _).
  assert (Af : arith_rep (q_rep (q_type x)) (q_rep (q_type y)) = RFlt f) by (rewrite Rx, Ry; now destruct f).
  assert (Cx : cast_rep (q_rep (q_type x)) (RFlt f) = RFlt f) by (rewrite Rx; now destruct f).
  assert (Cy : cast_rep (q_rep (q_type y)) (RFlt f) = RFlt f) by (rewrite Ry; now destruct f).
  assert (Vx : is_value (q_rep (q_type x)) (q_num x)) by now rewrite Rx, Nx.
  assert (Vy : is_value (q_rep (q_type y)) (q_num y)) by now rewrite Ry, Ny.
  assert (Kx' : near f k (nval (q_num x) * Q2R mx) r) by now rewrite Nx.
  assert (Ky' : near f l (nval (q_num y) * Q2R my) s) by now rewrite Ny.
  destruct (convert_value est f _ t mx m _ r k ka Sx St Fa Da Cx Rt Vx Kx' Ka Mr) as (zx & Zx & Hx & Wx); [lia|].
  destruct (convert_value est f _ t my m _ s l kb Sy St Fb Db Cy Rt Vy Ky' Kb Ms) as (zy & Zy & Hy & Wy); [lia|].
  unfold q_compare. rewrite (common_converts est w x y f t Af Ct), Zx. cbn [bind]. rewrite Zy. cbn [bind fst snd n_compare].
  rewrite (compare_numbers f zx zy Hx Hy). f_equal. f_equal. pose proof (size_pos _ _ _ St) as P.
  pose proof (near_within f (k + ka) _ _ (few f _ La) Wx) as Bx. pose proof (near_within f (l + kb) _ _ (few f _ Lb) Wy) as By.
  unfold within in Bx, By. apply Rabs_le_inv in Bx. apply Rabs_le_inv in By.
  destruct (Rlt_le_dec r s) as [L|L].
  - rewrite (Rabs_left (r - s)) in Gap by lra. rewrite (Rcompare_Lt r s L). apply Rcompare_Lt. apply Rmult_lt_reg_r with (Q2R m); [exact P|]. lra.
  - rewrite (Rabs_right (r - s)) in Gap by lra. assert (L' : s < r).
    { destruct L as [L|L]; [exact L|]. exfalso. lra. }
    rewrite (Rcompare_Gt r s L'). apply Rcompare_Gt. apply Rmult_lt_reg_r with (Q2R m); [exact P|]. lra.
Qed.
Print Assumptions C88_decision.

(** ** Products and quotients *)

(** Only objects, signs, products and quotients, with numbers of one floating type in whatever
    units. *)
Fixpoint monomial (f : fty) (e : qexpr) : Prop :=
  match e with
  | ELit q => q_rep (q_type q) = RFlt f /\ num_ok (RFlt f) (q_num q) = true
  | EPos a | ENeg a => monomial f a
  | EMul a b | EDiv a b => monomial f a /\ monomial f b
  | _ => False
  end.
Fixpoint operations (e : qexpr) : nat :=
  match e with
  | EPos a | ENeg a => operations a
  | EMul a b | EDiv a b => operations a + operations b + 1
  | _ => 0
  end.

(** No unit costs anything: the number of the result is, bit by bit, that of the same formula on
    bare numbers, whatever the units (and in whatever program). *)
Theorem C88_products : forall w est f e q, monomial f e -> eval est w e = Ok q ->
  q_rep (q_type q) = RFlt f /\ q_num q = NFlt (bare f e).
Proof.
  intros w est f e q M H. assert (A : arith_rep (RFlt f) (RFlt f) = RFlt f) by now destruct f.
  assert (K : q_rep (q_type q) = RFlt f /\ q_num q = NFlt (bare f e) /\ fvalid f (bare f e)); [|now destruct K as (? & ? & _)].
  revert q M H. induction e as [q0|a IHa|a IHa|a IHa b IHb|a IHa b IHb|a IHa b IHb|a IHa b IHb|a IHa b IHb|a IHa r v|r v a IHa|a IHa r v|r v a IHa|a IHa r v|t a IHa|c a IHa];
    intros q M H; cbn [monomial eval bare] in *; try contradiction.
  - inversion H; subst q0. destruct M as [R N]. split; [exact R|]. destruct (q_num q) as [z|x]; [discriminate N|]. cbn [as_float]. rewrite conv_same by exact N. auto.
  - step H as x X. destruct (IHa _ M X) as (R & N & V). unfold q_plus in H. cbv zeta in H. rewrite R, N in H. cbn [promote_rep n_convert bind] in H.
    rewrite conv_same in H by exact V. inversion H; subst q. auto.
  - step H as x X. destruct (IHa _ M X) as (R & N & V). unfold q_neg in H. cbv zeta in H. rewrite R, N in H. cbn [promote_rep n_neg bind] in H.
    inversion H; subst q. split; [reflexivity|]. split; [reflexivity|now apply opp_valid].
  - step H as x X. step H as y Y. destruct (IHa _ (proj1 M) X) as (R1 & N1 & V1). destruct (IHb _ (proj2 M) Y) as (R2 & N2 & V2).
    unfold q_times in H. cbv zeta in H. rewrite R1, R2, N1, N2 in H. step H as rf Er.
    destruct (float_n_op f (RFlt f) (NFlt (bare f b)) (bare f a) A V1 V2 OpMul ltac:(discriminate)) as [(z & E & F) _]. rewrite E in H. cbn [bind] in H.
    cbn [as_float] in F. rewrite conv_same in F by exact V2. inversion H; subst q. cbn [float_op] in F. inversion F; subst z. cbn [q_type q_rep q_num].
    split; [exact A|]. split; [reflexivity|now apply mul_valid].
  - step H as x X. step H as y Y. destruct (IHa _ (proj1 M) X) as (R1 & N1 & V1). destruct (IHb _ (proj2 M) Y) as (R2 & N2 & V2).
    unfold q_over in H. cbv zeta in H. rewrite R1, R2, N1, N2 in H. step H as rf Er.
    destruct (float_n_op f (RFlt f) (NFlt (bare f b)) (bare f a) A V1 V2 OpDiv ltac:(discriminate)) as [(z & E & F) _]. rewrite E in H. cbn [bind] in H.
    cbn [as_float] in F. rewrite conv_same in F by exact V2. inversion H; subst q. cbn [float_op] in F. inversion F; subst z. cbn [q_type q_rep q_num].
    split; [exact A|]. split; [reflexivity|now apply div_valid].
Qed.
Print Assumptions C88_products.

(** Hence the count of such an expression is the number of its operations. *)
Theorem C88_product_count : forall est w f e r k, monomial f e -> computes est w f e r k -> k = operations e.
Proof.
  intros est w f e r k M C. induction C; cbn [monomial operations] in *; try contradiction; auto.
  - now rewrite (IHC1 (proj1 M)), (IHC2 (proj2 M)).
  - now rewrite (IHC1 (proj1 M)), (IHC2 (proj2 M)).
Qed.
Print Assumptions C88_product_count.

(** ** Sums in one unit *)

Definition sum_up (t : qtype) (e : qexpr) (l : list spec_float) : qexpr := fold_left (fun e x => EAdd e (ELit (Quantity t (NFlt x)))) l e.
Definition total (l : list spec_float) : R := fold_right (fun x s => fval x + s) 0 l.
(** A number that is not negative and not among the smallest. *)
Definition ordinary (f : fty) (x : spec_float) : Prop := is_number f x /\ 0 <= fval x /\ mid_range f (fval x).

Lemma total_pos : forall f l, Forall (ordinary f) l -> 0 <= total l.
Proof. intros f l. induction 1 as [|x l (_ & P & _) _ IH]; cbn [total fold_right]; [lra|]. fold (total l). lra. Qed.
Lemma mid_plus : forall f x y, 0 <= x -> 0 <= y -> mid_range f x -> mid_range f y -> x + y <= bpow radix2 (femax f - 2) -> mid_range f (x + y).
Proof.
  intros f x y X Y Mx My L. destruct Mx as [->|[Mx _]]; [now rewrite Rplus_0_l|]. right. rewrite (Rabs_right x) in Mx by lra.
  rewrite (Rabs_right (x + y)) by lra. lra.
Qed.

Lemma sum_computes : forall est w f t m, q_rep t = RFlt f -> sized est t m ->
  forall l e r k, computes est w f e r k -> (forall q, eval est w e = Ok q -> q_type q = t) -> Forall (ordinary f) l ->
  0 <= r -> mid_range f (r / Q2R m) -> r / Q2R m + total l <= bpow radix2 (femax f - 2) ->
  computes est w f (sum_up t e l) (r + total l * Q2R m) (k + length l).
Proof.
  intros est w f t m R S. pose proof (size_pos _ _ _ S) as P. induction l as [|x l IH]; intros e r k C T F Pr M B.
  - cbn [sum_up fold_left total fold_right length]. rewrite Rmult_0_l, Rplus_0_r, Nat.add_0_r. exact C.
  - inversion F as [|? ? Hx Hl]; subst. pose proof (total_pos f l Hl) as Pl. destruct Hx as (Nx & Px & Mx).
    cbn [total fold_right] in B. fold (total l) in B.
    assert (T' : forall q, eval est w (EAdd e (ELit (Quantity t (NFlt x)))) = Ok q -> q_type q = t).
    { intros q H. cbn [eval bind] in H. step H as a Ea. unfold q_add, q_addsub in H. cbv zeta in H. cbn [q_type q_num] in H. rewrite (T _ Ea), R in H.
      replace (arith_rep (RFlt f) (RFlt f)) with (RFlt f) in H by now destruct f. step H as t' Et. rewrite (common_same w est t (RFlt f) t' R Et) in H.
      step H as y Y. step H as z Z. step H as u U0. step H as v V0. now inversion H. }
    assert (E : (r + fval x * Q2R m) / Q2R m = r / Q2R m + fval x) by (field; lra).
    assert (Ex : fval x * Q2R m / Q2R m = fval x) by (field; lra).
    assert (M' : mid_range f ((r + fval x * Q2R m) / Q2R m)).
    { rewrite E. apply mid_plus; auto; [|lra]. apply Rmult_le_pos; [exact Pr|]. now apply Rlt_le, Rinv_0_lt_compat. }
    replace (r + total (x :: l) * Q2R m) with (r + fval x * Q2R m + total l * Q2R m) by (cbn [total fold_right]; fold (total l); ring).
    replace (k + length (x :: l))%nat with (Nat.max (k + 0) (0 + 0) + 1 + length l)%nat by (cbn [length]; lia).
    change (sum_up t e (x :: l)) with (sum_up t (EAdd e (ELit (Quantity t (NFlt x)))) l). apply IH; auto.
    + apply cp_add with (m := m); auto.
      * now apply cp_lit.
      * apply Rmult_le_pos; [exact Pr|]. apply Rmult_le_pos; lra.
      * intros a b q Ea Eb Eq. cbn [eval] in Eb. inversion Eb; subst b. rewrite (T _ Ea), (T' _ Eq). split; left; auto.
      * intros q Hq. now rewrite (T' _ Hq).
      * now rewrite Ex.
    + apply Rplus_le_le_0_compat; [exact Pr|]. apply Rmult_le_pos; lra.
    + rewrite E. lra.
Qed.

(** Adding up [n + 1] quantities of one type that are not negative costs [n] roundings. *)
Theorem C88_sum : forall U w est f t m x l q, symbols_identify U -> good_system U w -> in_system U w (q_dim t) ->
  q_rep t = RFlt f -> sized est t m -> Forall (ordinary f) (x :: l) -> total (x :: l) <= bpow radix2 (femax f - 2) -> (Z.of_nat (length l) <= 2 ^ 22)%Z ->
  eval est w (sum_up t (ELit (Quantity t (NFlt x))) l) = Ok q -> accurate est f q (total (x :: l) * Q2R m) (length l).
Proof.
  intros U w est f t m x l q HU G D R S F B L H. inversion F as [|? ? (Nx & Px & Mx) Fl]; subst. pose proof (size_pos _ _ _ S) as P.
  replace (total (x :: l) * Q2R m) with (fval x * Q2R m + total l * Q2R m) by (cbn [total fold_right]; fold (total l); ring).
  apply (C88_accuracy U w est f (sum_up t (ELit (Quantity t (NFlt x))) l) _ (length l) q HU G); auto.
  - clear - D. assert (A : all_dims (in_system U w) (ELit (Quantity t (NFlt x)))) by exact D. revert A. generalize (ELit (Quantity t (NFlt x))).
    induction l as [|y l IH]; intros e A; [exact A|]. apply IH. split; [exact A|exact D].
  - assert (E : fval x * Q2R m / Q2R m = fval x) by (field; lra).
    apply (sum_computes est w f t m R S l _ _ 0%nat); auto.
    + now apply cp_lit.
    + intros q0 H0. now inversion H0.
    + apply Rmult_le_pos; lra.
    + now rewrite E.
    + rewrite E. exact B.
Qed.
Print Assumptions C88_sum.

(** * Cases *)

(** A distance in kilometres and metres divided by a time in hours: three roundings, for any
    numbers from 1 to 10^9. *)
Definition unnamed_metre : cunit := CUnit None [] (Ratio 1 1 0) "metre" false None "no_prefix".
Definition km (x : spec_float) : qexpr := ELit (Quantity (flt dim_L kilometre F64) (NFlt x)).
Definition m_ (x : spec_float) : qexpr := ELit (Quantity (flt dim_L metre F64) (NFlt x)).
Definition h_ (x : spec_float) : qexpr := ELit (Quantity (flt dim_T hour F64) (NFlt x)).
Definition usual (x : spec_float) : Prop := is_number F64 x /\ 1 <= fval x <= 1000000000.

Lemma flt_sized_length : forall est u f, unit_good u -> u_ref u = "metre"%string -> sized est (flt dim_L u f) (rval (u_ratio u)).
Proof.
  intros est u f G R. apply base_sized; auto.
  - vm_compute. repeat split; congruence.
  - unfold unit_of. rewrite R. reflexivity.
Qed.
Lemma mid_usual : forall r, bpow radix2 (-60) <= r <= bpow radix2 90 -> mid_range F64 r.
Proof.
  intros r [A B]. pose proof (bpow_gt_0 radix2 (-60)). right. rewrite Rabs_right by lra. split.
  - apply Rle_trans with (bpow radix2 (-60)); [apply bpow_le; vm_compute; discriminate|exact A].
  - apply Rle_trans with (bpow radix2 90); [exact B|apply bpow_le; vm_compute; discriminate].
Qed.
Lemma mid_between : forall r, / 1000000000000000 <= r <= 1000000000000000000000 -> mid_range F64 r.
Proof.
  intros r [A B]. apply mid_usual. split.
  - apply Rle_trans with (/ 1000000000000000); [|exact A]. change (bpow radix2 (-60)) with (/ IZR (2 ^ 60)). apply Rinv_le; [lra|]. apply IZR_le. vm_compute. discriminate.
  - apply Rle_trans with 1000000000000000000000; [exact B|]. change (bpow radix2 90) with (IZR (2 ^ 90)). apply IZR_le. vm_compute. discriminate.
Qed.
Lemma ratio_R : forall c z, (rval c == inject_Z z)%Q -> Q2R (rval c) = IZR z.
Proof. intros c z H. rewrite (Qeq_eqR _ _ H). apply Q2R_Z. Qed.

Example C88_ex : forall est w x y t q, si_world = Ok w -> usual x -> usual y -> usual t ->
  eval est w (EDiv (EAdd (km x) (m_ y)) (h_ t)) = Ok q ->
  accurate est F64 q ((fval x * 1000 + fval y) / (fval t * 3600)) 3.
Proof.
  intros est w x y t q W (Nx & Bx) (Ny & By) (Nt & Bt) H. destruct good_units as (Gm & Gk & _ & Gs & _ & Gh & _).
  destruct si_world_reachable as (w' & W' & R). assert (w' = w) by congruence. subst w'.
  assert (L : in_system si_base w (DBase dim_L)) by (apply base_in_system; now left).
  assert (T : in_system si_base w (DBase dim_T)) by (apply base_in_system; right; now left).
  assert (A : all_dims (in_system si_base w) (EDiv (EAdd (km x) (m_ y)) (h_ t))) by (cbn; auto).
  assert (Sk : sized est (flt dim_L kilometre F64) (rval (Ratio 1 1 3))) by (apply (flt_sized_length est kilometre); auto).
  assert (Sm : sized est (flt dim_L metre F64) (rval (Ratio 1 1 0))) by (apply (flt_sized_length est metre); auto).
  assert (Su : sized est (flt dim_L unnamed_metre F64) (rval (Ratio 1 1 0))).
  { apply (flt_sized_length est unnamed_metre); [|reflexivity]. repeat split; vm_compute; congruence. }
  assert (Sh : sized est (flt dim_T hour F64) (rval (Ratio 36 1 2))) by now apply (flt_sized_time est hour).
  assert (Ek : Q2R (rval (Ratio 1 1 3)) = 1000) by (apply ratio_R; vm_compute; reflexivity).
  assert (E1 : Q2R (rval (Ratio 1 1 0)) = 1) by (apply ratio_R; vm_compute; reflexivity).
  assert (Eh : Q2R (rval (Ratio 36 1 2)) = 3600) by (apply ratio_R; vm_compute; reflexivity).
  assert (Ct : common_quantity est w (flt dim_L kilometre F64) (flt dim_L metre F64) (RFlt F64) = Ok (flt dim_L unnamed_metre F64)).
  { clear - W. vm_compute in W. injection W as <-. vm_compute. reflexivity. }
  assert (Ty : forall s, eval est w (EAdd (km x) (m_ y)) = Ok s -> q_type s = flt dim_L unnamed_metre F64).
  { intros s Hs. cbn [eval bind km m_] in Hs. unfold q_add, q_addsub in Hs. cbv zeta in Hs. cbn [q_type q_num] in Hs.
    change (arith_rep (q_rep (flt dim_L kilometre F64)) (q_rep (flt dim_L metre F64))) with (RFlt F64) in Hs. rewrite Ct in Hs. cbn [bind] in Hs.
    step Hs as a Ea. step Hs as b Eb. step Hs as c Ec. step Hs as d Ed. now inversion Hs. }
  assert (Is : in_units est w (EAdd (km x) (m_ y)) (rval (Ratio 1 1 0))) by (intros s Hs; now rewrite (Ty s Hs)).
  assert (Ih : in_units est w (h_ t) (rval (Ratio 36 1 2))) by (intros s Hs; inversion Hs; exact Sh).
  pose proof (units_div si_base w si_identify (si_good w W) est _ _ _ _ A Is Ih) as Id.
  assert (Cs : computes est w F64 (EAdd (km x) (m_ y)) (fval x * Q2R (rval (Ratio 1 1 3)) + fval y * Q2R (rval (Ratio 1 1 0))) 2).
  { apply (cp_add est w F64 (km x) (m_ y) _ _ 0 0 1 1 (rval (Ratio 1 1 0))); auto.
    - now apply cp_lit.
    - now apply cp_lit.
    - rewrite Ek, E1. nra.
    - intros a b s Ha Hb Hs. inversion Ha; subst a. inversion Hb; subst b. rewrite (Ty s Hs). split; right; (split; [discriminate|]); exists 0%nat; (split; [|reflexivity]).
      + exists (Ratio 1 1 3). split; [reflexivity|]. left. split; [|reflexivity]. exists 1000%Z. cbn [rnum rden rexp].
        split; [reflexivity|]. split; [lia|]. split; [vm_compute; discriminate|]. repeat split; apply holds_small; vm_compute; discriminate.
      + exists (Ratio 1 1 0). split; [reflexivity|]. left. split; [|reflexivity]. exists 1%Z. cbn [rnum rden rexp].
        split; [reflexivity|]. split; [lia|]. split; [vm_compute; discriminate|]. repeat split; apply holds_small; vm_compute; discriminate.
    - rewrite Ek, E1. apply mid_between. lra.
    - rewrite E1. apply mid_between. lra.
    - rewrite Ek, E1. apply mid_between. lra. }
  rewrite Ek, E1, Rmult_1_r in Cs.
  apply (C88_accuracy si_base w est F64 _ _ 3%nat q si_identify (si_good w W) A); [|vm_compute; discriminate|exact H].
  apply (cp_div est w F64 _ (h_ t) _ (fval t * 3600) 2 0 (rval (Ratio 1 1 0) / rval (Ratio 36 1 2))); auto.
  - rewrite <- Eh. now apply cp_lit.
  - lra.
  - rewrite Q2R_div by (vm_compute; discriminate). rewrite Eh, E1. apply mid_between.
    replace ((fval x * 1000 + fval y) / (fval t * 3600) / (1 / 3600)) with ((fval x * 1000 + fval y) * / fval t) by (field; lra).
    assert (It : / 1000000000 <= / fval t <= 1) by (split; [|rewrite <- Rinv_1]; apply Rinv_le; lra). nra.
Qed.

(** 1.5 km and 300 m in 2 h: 900 m/h, the unit unnamed. *)
Definition one_half_more : spec_float := S754_finite false 6755399441055744 (-52).
Example C88_ex_value : forall est, exists w q, si_world = Ok w /\ usual one_half_more /\ usual (float_of_int F64 300) /\ usual (float_of_int F64 2) /\
  eval est w (EDiv (EAdd (km one_half_more) (m_ (float_of_int F64 300))) (h_ (float_of_int F64 2))) = Ok q /\
  q_num q = NFlt (float_of_int F64 900) /\ u_ratio (q_unit (q_type q)) = Ratio 1 36 (-2).
Proof.
  intros est. destruct si_world_reachable as (w & W & _). exists w.
  assert (E : exists q, eval est w (EDiv (EAdd (km one_half_more) (m_ (float_of_int F64 300))) (h_ (float_of_int F64 2))) = Ok q /\
    q_num q = NFlt (float_of_int F64 900) /\ u_ratio (q_unit (q_type q)) = Ratio 1 36 (-2)).
  { clear - W. vm_compute in W. injection W as <-. eexists. split; [vm_compute; reflexivity|]. split; vm_compute; reflexivity. }
  destruct E as (q & E). exists q. split; [exact W|]. split; [|split; [|split; [|exact E]]].
  - split; [split; vm_compute; reflexivity|]. assert (V : fval one_half_more = 6755399441055744 / IZR (2 ^ 52)) by reflexivity. rewrite V. split.
    + apply Rmult_le_reg_r with (IZR (2 ^ 52)); [lra|]. unfold Rdiv. rewrite Rmult_assoc, Rinv_l by lra. lra.
    + apply Rmult_le_reg_r with (IZR (2 ^ 52)); [lra|]. unfold Rdiv. rewrite Rmult_assoc, Rinv_l by lra. lra.
  - destruct (of_int_exact F64 300) as [N V]; [vm_compute; discriminate|]. split; [exact N|]. rewrite V. lra.
  - destruct (of_int_exact F64 2) as [N V]; [vm_compute; discriminate|]. split; [exact N|]. rewrite V. lra.
Qed.

(** Ten times 0.1 m are not 1 m, but within nine roundings of ten times the number. *)
Example C88_ex_sum : forall est w, si_world = Ok w -> let t := flt dim_L metre F64 in
  in_system si_base w (q_dim t) /\ q_rep t = RFlt F64 /\ sized est t (rval (Ratio 1 1 0)) /\
  Forall (ordinary F64) (repeat one_tenth 10) /\ total (repeat one_tenth 10) <= bpow radix2 (femax F64 - 2) /\
  eval est w (sum_up t (m_ one_tenth) (repeat one_tenth 9)) = Ok (Quantity t (NFlt (S754_finite false 9007199254740991 (-53)))).
Proof.
  intros est w W t. destruct good_units as (Gm & _).
  assert (V : fval one_tenth = 7205759403792794 / IZR (2 ^ 56)) by reflexivity.
  assert (B : / 1000000000000000 <= fval one_tenth <= 1).
  { rewrite V. split.
    - apply Rmult_le_reg_r with (IZR (2 ^ 56)); [lra|]. unfold Rdiv. rewrite Rmult_assoc, Rinv_l by lra.
      apply Rmult_le_reg_l with 1000000000000000; [lra|]. rewrite <- Rmult_assoc, Rinv_r by lra. lra.
    - apply Rmult_le_reg_r with (IZR (2 ^ 56)); [lra|]. unfold Rdiv. rewrite Rmult_assoc, Rinv_l by lra. lra. }
  assert (O : ordinary F64 one_tenth).
  { split; [split; vm_compute; reflexivity|]. split; [lra|]. apply mid_between. lra. }
  destruct si_world_reachable as (w' & W' & R). assert (w' = w) by congruence. subst w'.
  split; [apply base_in_system; now left|]. split; [reflexivity|]. split; [now apply (flt_sized_length est metre)|].
  split. { apply Forall_forall. intros x Hx. apply repeat_spec in Hx. now subst x. }
  split.
  - unfold total. cbn [repeat fold_right]. apply Rle_trans with (bpow radix2 10); [change (bpow radix2 10) with (IZR (2 ^ 10)); lra|apply bpow_le; vm_compute; discriminate].
  - clear - W. vm_compute in W. injection W as <-. vm_compute. reflexivity.
Qed.

(** Cancellation: 10^16 m + 1 m - 10^16 m is 0 m, so no number of roundings accounts for a
    difference of equal signs. *)
Theorem C88_cancellation_refuted : ~ (forall est w f e1 e2 r s k l q, si_world = Ok w ->
  computes est w f e1 r k -> computes est w f e2 s l -> eval est w (ESub e1 e2) = Ok q -> exists j, (Z.of_nat j <= 2 ^ 22)%Z /\ accurate est f q (r - s) j).
Proof.
  intros F. destruct si_world_reachable as (w & W & R). destruct good_units as (Gm & _). set (est := CatalogueProofs.no_estimate).
  assert (S : sized est (flt dim_L metre F64) (rval (Ratio 1 1 0))) by (apply (flt_sized_length est metre); auto).
  assert (E1 : Q2R (rval (Ratio 1 1 0)) = 1) by (apply ratio_R; vm_compute; reflexivity).
  set (big := float_of_int F64 (10 ^ 16)). set (one := float_of_int F64 1).
  assert (Hb : is_number F64 big /\ fval big = IZR (10 ^ 16)).
  { apply of_int_holds. exists 152587890625%Z, 16%Z. repeat split; vm_compute; (discriminate || reflexivity). }
  assert (Ho : is_number F64 one /\ fval one = 1) by (apply of_int_holds; apply holds_small; vm_compute; discriminate).
  destruct Hb as [Nb Vb]. destruct Ho as [No Vo].
  assert (T : forall q, eval est w (EAdd (m_ big) (m_ one)) = Ok q -> q_type q = flt dim_L metre F64).
  { intros q H. cbn [eval bind m_] in H. unfold q_add, q_addsub in H. cbv zeta in H. cbn [q_type q_num] in H.
    change (arith_rep (q_rep (flt dim_L metre F64)) (q_rep (flt dim_L metre F64))) with (RFlt F64) in H. step H as t Et.
    rewrite (common_same w est (flt dim_L metre F64) (RFlt F64) t eq_refl Et) in H. step H as a Ea. step H as b Eb. step H as c Ec. step H as d Ed. now inversion H. }
  assert (Cs : computes est w F64 (EAdd (m_ big) (m_ one)) (fval big * Q2R (rval (Ratio 1 1 0)) + fval one * Q2R (rval (Ratio 1 1 0))) 1).
  { apply (cp_add est w F64 (m_ big) (m_ one) _ _ 0 0 0 0 (rval (Ratio 1 1 0))); auto.
    - now apply cp_lit.
    - now apply cp_lit.
    - rewrite E1, Vb, Vo. lra.
    - intros a b s Ha Hb Hs. inversion Ha; subst a. inversion Hb; subst b. rewrite (T s Hs). split; left; auto.
    - intros s Hs. now rewrite (T s Hs).
    - rewrite E1, Vb. apply mid_between. lra.
    - rewrite E1, Vo. apply mid_between. lra.
    - rewrite E1, Vb, Vo. apply mid_between. lra. }
  assert (Cb : computes est w F64 (m_ big) (fval big * Q2R (rval (Ratio 1 1 0))) 0) by now apply cp_lit.
  assert (Ev : eval est w (ESub (EAdd (m_ big) (m_ one)) (m_ big)) = Ok (Quantity (flt dim_L metre F64) (NFlt (S754_zero false)))).
  { clear - W. vm_compute in W. injection W as <-. vm_compute. reflexivity. }
  destruct (F est w F64 _ _ _ _ _ _ _ W Cs Cb Ev) as (j & Lj & x & m & _ & N & _ & _ & B). cbn [q_num] in N. injection N as <-.
  unfold within in B. change (fval (S754_zero false)) with 0 in B. rewrite E1, Vo in B.
  replace (0 * Q2R m - (fval big * 1 + 1 * 1 - fval big * 1)) with (- (1)) in B by ring.
  replace (fval big * 1 + 1 * 1 - fval big * 1) with 1 in B by ring. rewrite Rabs_Ropp, Rabs_R1, Rmult_1_r in B.
  assert (Sm : INR j * roundoff F64 <= / 4).
  { apply Rle_trans with (IZR (2 ^ 22) * bpow radix2 (-24)).
    - apply Rmult_le_compat; [apply pos_INR|apply Rlt_le, roundoff_pos| |apply roundoff_small]. rewrite INR_IZR_INZ. now apply IZR_le.
    - rewrite (IZR_Zpower radix2) by lia. rewrite <- bpow_plus. cbn. lra. }
  unfold gamma in B. set (a := INR j * roundoff F64) in *.
  assert (Q : a / (1 - a) < 1). { apply Rmult_lt_reg_r with (1 - a); [lra|]. unfold Rdiv. rewrite Rmult_assoc, Rinv_l by lra. lra. }
  lra.
Qed.
Print Assumptions C88_cancellation_refuted.
