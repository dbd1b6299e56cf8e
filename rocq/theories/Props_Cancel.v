(** C94: the error of expressions of floating-point quantities in which terms may cancel. *)

From Coq Require Import ZArith QArith Qreals Reals Bool Lia Lra SpecFloat String List.
From Flocq Require Import Core Sterbenz.
From Verif Require Import Outcome CInt Root Ratio SpecRatio FixedString Unit Downcast Dim DimOp Equivalent SpecDim SpecUnit Rep Reference QuantityCast CommonQuantity Quantity
  SpecQuantity DimProofs DimOpProofs MagnitudeProofs QuantityProofs QuantityProofs2 QuantityProofs4 Point Expr SpecExpr ExprProofs ExprProofs2 ExprProofs3
  Samples SpecReal FloatProofs FloatCastProofs FloatAddProofs SpecOrder FloatOrderProofs SpecRounding RoundingProofs SpecCancel CancelProofs CatalogueProofs
  Props_Dim Props_Quantity Props_Float Props_FloatOrder Props_Expr Props_Rounding.
Import ListNotations.
Local Open Scope R_scope.
Local Open Scope res_scope.

(** In one system of units: whatever units the parts are in and whatever their signs, the result
    is a number, and the exact value up to the roundings counted, relative to the magnitude of
    what was added and subtracted. *)
Theorem C94_error : forall U w est f e r M k q, symbols_identify U -> good_system U w -> all_dims (in_system U w) e ->
  errs est w f e r M k -> (Z.of_nat k <= 2 ^ 22)%Z -> eval est w e = Ok q -> bounded est f q r M k.
Proof.
  intros U w est f e r M k q HU G A C L H. destruct (eval_held U w HU G est f e r M k C A L q H) as (_ & x & m & R & N & F & S & K).
  exists x, m. split; [exact R|]. split; [exact N|]. split; [exact F|]. split; [exact S|]. apply close_gamma; [now apply few|exact K].
Qed.
Print Assumptions C94_error.

(** A comparison of two results that differ by more than their errors decides as exact arithmetic
    would, cancellation or not. *)
Theorem C94_decision : forall U w est f a b r s M N k l x y t m ka kb, symbols_identify U -> good_system U w ->
  all_dims (in_system U w) a -> all_dims (in_system U w) b -> errs est w f a r M k -> errs est w f b s N l ->
  eval est w a = Ok x -> eval est w b = Ok y ->
  common_quantity est w (q_type x) (q_type y) (RFlt f) = Ok t -> sized est t m ->
  conversion_costs est f (q_type x) t ka -> conversion_costs est f (q_type y) t kb ->
  (Z.of_nat (k + ka) <= 2 ^ 22)%Z -> (Z.of_nat (l + kb) <= 2 ^ 22)%Z -> mid_range f (M / Q2R m) -> mid_range f (N / Q2R m) ->
  gamma f (k + ka) * M + gamma f (l + kb) * N < Rabs (r - s) ->
  q_compare est w x y = Ok (Some (Rcompare r s)).
Proof.
  intros U w est f a b r s M N k l x y t m ka kb HU G Aa Ab Ca Cb Ex Ey Ct St Ka Kb La Lb Mr Ms Gap.
  destruct (eval_held U w HU G est f a r M k Ca Aa ltac:(lia) x Ex) as (Dx & vx & mx & Rx & Nx & Fx & Sx & Kx).
  destruct (eval_held U w HU G est f b s N l Cb Ab ltac:(lia) y Ey) as (Dy & vy & my & Ry & Ny & Fy & Sy & Ky).
  assert (De : q_dim (q_type y) = q_dim (q_type x)).
  { apply (same_dimension U w HU); auto. apply equivalent_exps. unfold common_quantity in Ct. step Ct as u Eu. now apply constrained_ok in Eu. }
  destruct (common_quantity_sized _ _ _ _ _ _ _ _ (proj1 G) Sx Sy (compatible_same _ _ (eq_sym De)) Ct) as (m' & _ & _ & Rt & Fa & Fb & Da & Db & _).
  assert (Af : arith_rep (q_rep (q_type x)) (q_rep (q_type y)) = RFlt f) by (rewrite Rx, Ry; now destruct f).
  destruct (convert_close est f _ t mx m vx r M k ka Sx St Fa Da Rx Rt Fx Kx Ka Mr) as (zx & Zx & Hx & Wx); [lia|].
  destruct (convert_close est f _ t my m vy s N l kb Sy St Fb Db Ry Rt Fy Ky Kb Ms) as (zy & Zy & Hy & Wy); [lia|].
  unfold q_compare. rewrite (common_converts est w x y f t Af Ct), Nx, Ny, Zx. cbn [bind]. rewrite Zy. cbn [bind fst snd n_compare].
  rewrite (compare_numbers f zx zy Hx Hy). f_equal. f_equal. pose proof (size_pos _ _ _ St) as P.
  pose proof (close_gamma f (k + ka) _ _ _ (few f _ La) Wx) as Bx. pose proof (close_gamma f (l + kb) _ _ _ (few f _ Lb) Wy) as By.
  apply Rabs_le_inv in Bx. apply Rabs_le_inv in By.
  destruct (Rlt_le_dec r s) as [L|L].
  - rewrite (Rabs_left (r - s)) in Gap by lra. rewrite (Rcompare_Lt r s L). apply Rcompare_Lt. apply Rmult_lt_reg_r with (Q2R m); [exact P|]. lra.
  - rewrite (Rabs_right (r - s)) in Gap by lra. assert (L' : s < r).
    { destruct L as [L|L]; [exact L|]. exfalso. subst s. pose proof (proj1 Wx). pose proof (proj1 Wy). lra. }
    rewrite (Rcompare_Gt r s L'). apply Rcompare_Gt. apply Rmult_lt_reg_r with (Q2R m); [exact P|]. lra.
Qed.
Print Assumptions C94_decision.

(** ** Sums of any signs *)

Definition magnitudes (l : list spec_float) : R := fold_right (fun x s => Rabs (fval x) + s) 0 l.
(** A number that is not among the smallest. *)
Definition not_tiny (f : fty) (x : spec_float) : Prop := is_number f x /\ mid_range f (fval x).

Lemma mid_abs : forall f r, mid_range f r -> mid_range f (Rabs r).
Proof. intros f r [->|H]; [left; apply Rabs_R0|right; now rewrite Rabs_Rabsolu]. Qed.
Lemma magnitudes_pos : forall l, 0 <= magnitudes l.
Proof. induction l as [|x l IH]; cbn [magnitudes fold_right]; [lra|]. fold (magnitudes l). pose proof (Rabs_pos (fval x)). lra. Qed.

(** Adding to a sum of one type an expression of that type. *)
Lemma add_errs : forall est w f t m e1 e2 r s M N k l, q_rep t = RFlt f -> sized est t m ->
  (forall q, eval est w e1 = Ok q -> q_type q = t) -> (forall q, eval est w e2 = Ok q -> q_type q = t) ->
  errs est w f e1 r M k -> errs est w f e2 s N l -> mid_range f (M / Q2R m) -> mid_range f (N / Q2R m) -> (M + N) / Q2R m <= bpow radix2 (femax f - 2) ->
  (forall q, eval est w (EAdd e1 e2) = Ok q -> q_type q = t) /\ mid_range f ((M + N) / Q2R m) /\ errs est w f (EAdd e1 e2) (r + s) (M + N) (Nat.max k l + 1).
Proof.
  intros est w f t m e1 e2 r s M N k l R S T1 T2 E1 E2 Mid1 Mid2 B.
  assert (T : forall q, eval est w (EAdd e1 e2) = Ok q -> q_type q = t).
  { intros q H. cbn [eval] in H. step H as a Ea. step H as b Eb. unfold q_add, q_addsub in H. cbv zeta in H. rewrite (T1 _ Ea), (T2 _ Eb), R in H.
    replace (arith_rep (RFlt f) (RFlt f)) with (RFlt f) in H by now destruct f. step H as t' Et. rewrite (common_same w est t (RFlt f) t' R Et) in H.
    step H as y Y. step H as z Z. step H as u U0. step H as v V0. now inversion H. }
  pose proof (size_pos _ _ _ S) as P. pose proof (errs_magnitude _ _ _ _ _ _ _ E1) as M1. pose proof (errs_magnitude _ _ _ _ _ _ _ E2) as M2.
  pose proof (Rabs_pos r). pose proof (Rabs_pos s). pose proof (Rinv_0_lt_compat _ P) as IP.
  assert (Mid : mid_range f ((M + N) / Q2R m)).
  { replace ((M + N) / Q2R m) with (M / Q2R m + N / Q2R m) in * by (field; lra). apply mid_plus; auto; unfold Rdiv; apply Rmult_le_pos; lra. }
  split; [exact T|]. split; [exact Mid|].
  replace (Nat.max k l + 1)%nat with (Nat.max (k + 0) (l + 0) + 1)%nat by lia. apply er_add with (m := m); auto.
  - intros a b q Ea Eb Eq. rewrite (T1 _ Ea), (T2 _ Eb), (T _ Eq). split; left; auto.
  - intros q Hq. now rewrite (T _ Hq).
Qed.

Lemma sum_errs : forall est w f t m, q_rep t = RFlt f -> sized est t m ->
  forall l e r M k, errs est w f e r M k -> (forall q, eval est w e = Ok q -> q_type q = t) -> Forall (not_tiny f) l ->
  mid_range f (M / Q2R m) -> M / Q2R m + magnitudes l <= bpow radix2 (femax f - 2) ->
  errs est w f (sum_up t e l) (r + total l * Q2R m) (M + magnitudes l * Q2R m) (k + length l).
Proof.
  intros est w f t m R S. pose proof (size_pos _ _ _ S) as P. induction l as [|x l IH]; intros e r M k C T F Mid B.
  - cbn [sum_up fold_left total magnitudes fold_right length]. rewrite !Rmult_0_l, !Rplus_0_r, Nat.add_0_r. exact C.
  - inversion F as [|? ? [Nx Mx] Hl]; subst. cbn [magnitudes fold_right] in B. fold (magnitudes l) in B. pose proof (magnitudes_pos l) as Pl.
    assert (Ax : Rabs (fval x * Q2R m) = Rabs (fval x) * Q2R m) by (rewrite Rabs_mult, (Rabs_right (Q2R m)); lra).
    assert (Ex : Rabs (fval x * Q2R m) / Q2R m = Rabs (fval x)) by (rewrite Ax; field; lra).
    assert (Es : (M + Rabs (fval x * Q2R m)) / Q2R m = M / Q2R m + Rabs (fval x)) by (rewrite Ax; field; lra).
    destruct (add_errs est w f t m e (ELit (Quantity t (NFlt x))) r (fval x * Q2R m) M (Rabs (fval x * Q2R m)) k 0 R S T) as (T' & Mid' & E'); auto.
    + intros q Hq. now inversion Hq.
    + apply er_computes. now apply cp_lit.
    + rewrite Ex. now apply mid_abs.
    + rewrite Es. lra.
    + replace (r + total (x :: l) * Q2R m) with (r + fval x * Q2R m + total l * Q2R m) by (cbn [total fold_right]; fold (total l); ring).
      replace (M + magnitudes (x :: l) * Q2R m) with (M + Rabs (fval x * Q2R m) + magnitudes l * Q2R m) by (cbn [magnitudes fold_right]; fold (magnitudes l); rewrite Ax; ring).
      replace (k + length (x :: l))%nat with (Nat.max k 0 + 1 + length l)%nat by (cbn [length]; lia).
      change (sum_up t e (x :: l)) with (sum_up t (EAdd e (ELit (Quantity t (NFlt x)))) l). apply IH; auto. rewrite Es. lra.
Qed.

(** Adding up [n + 1] quantities of one type costs [n] roundings of the sum of their magnitudes. *)
Theorem C94_sum : forall U w est f t m x l q, symbols_identify U -> good_system U w -> in_system U w (q_dim t) ->
  q_rep t = RFlt f -> sized est t m -> Forall (not_tiny f) (x :: l) -> magnitudes (x :: l) <= bpow radix2 (femax f - 2) -> (Z.of_nat (length l) <= 2 ^ 22)%Z ->
  eval est w (sum_up t (ELit (Quantity t (NFlt x))) l) = Ok q -> bounded est f q (total (x :: l) * Q2R m) (magnitudes (x :: l) * Q2R m) (length l).
Proof.
  intros U w est f t m x l q HU G D R S F B L H. inversion F as [|? ? [Nx Mx] Fl]; subst. pose proof (size_pos _ _ _ S) as P.
  assert (Ax : Rabs (fval x * Q2R m) = Rabs (fval x) * Q2R m) by (rewrite Rabs_mult, (Rabs_right (Q2R m)); lra).
  assert (Ex : Rabs (fval x * Q2R m) / Q2R m = Rabs (fval x)) by (rewrite Ax; field; lra).
  replace (total (x :: l) * Q2R m) with (fval x * Q2R m + total l * Q2R m) by (cbn [total fold_right]; fold (total l); ring).
  replace (magnitudes (x :: l) * Q2R m) with (Rabs (fval x * Q2R m) + magnitudes l * Q2R m) by (cbn [magnitudes fold_right]; fold (magnitudes l); rewrite Ax; ring).
  apply (C94_error U w est f (sum_up t (ELit (Quantity t (NFlt x))) l) _ _ (length l) q HU G); auto.
  - clear - D. assert (A : all_dims (in_system U w) (ELit (Quantity t (NFlt x)))) by exact D. revert A. generalize (ELit (Quantity t (NFlt x))).
    induction l as [|y l IH]; intros e A; [exact A|]. apply IH. split; [exact A|exact D].
  - apply (sum_errs est w f t m R S l _ _ _ 0%nat); auto.
    + apply er_computes. now apply cp_lit.
    + intros q0 H0. now inversion H0.
    + rewrite Ex. now apply mid_abs.
    + rewrite Ex. exact B.
Qed.
Print Assumptions C94_sum.

(** ** Scalar products *)

Definition term (t u : qtype) (p : spec_float * spec_float) : qexpr := EMul (ELit (Quantity t (NFlt (fst p)))) (ELit (Quantity u (NFlt (snd p)))).
Definition scalar_product (t u : qtype) (p : spec_float * spec_float) (l : list (spec_float * spec_float)) : qexpr :=
  fold_left (fun e p => EAdd e (term t u p)) l (term t u p).
Definition products (l : list (spec_float * spec_float)) : R := fold_right (fun p s => fval (fst p) * fval (snd p) + s) 0 l.
Definition product_magnitudes (l : list (spec_float * spec_float)) : R := fold_right (fun p s => Rabs (fval (fst p) * fval (snd p)) + s) 0 l.
Definition product_not_tiny (f : fty) (p : spec_float * spec_float) : Prop :=
  is_number f (fst p) /\ is_number f (snd p) /\ mid_range f (fval (fst p) * fval (snd p)).

Lemma product_magnitudes_pos : forall l, 0 <= product_magnitudes l.
Proof.
  induction l as [|x l IH]; cbn [product_magnitudes fold_right]; [lra|]. fold (product_magnitudes l). pose proof (Rabs_pos (fval (fst x) * fval (snd x))). lra.
Qed.

(** The scalar product of [n] pairs costs [n] roundings of the sum of the magnitudes of the
    products. *)
Theorem C94_scalar_product : forall U w est f t u mt mu p l q, symbols_identify U -> good_system U w -> in_system U w (q_dim t) -> in_system U w (q_dim u) ->
  q_rep t = RFlt f -> q_rep u = RFlt f -> sized est t mt -> sized est u mu -> Forall (product_not_tiny f) (p :: l) ->
  product_magnitudes (p :: l) <= bpow radix2 (femax f - 2) -> (Z.of_nat (length (p :: l)) <= 2 ^ 22)%Z ->
  eval est w (scalar_product t u p l) = Ok q ->
  bounded est f q (products (p :: l) * (Q2R mt * Q2R mu)) (product_magnitudes (p :: l) * (Q2R mt * Q2R mu)) (length (p :: l)).
Proof.
  intros U w est f t u mt mu p l q HU G Dt Du Rt Ru St Su F B L H.
  assert (At : forall p0, all_dims (in_system U w) (term t u p0)) by (intros p0; split; [exact Dt|exact Du]).
  assert (Iu : forall p0, in_units est w (term t u p0) (mt * mu)).
  { intros p0. apply (units_mul U w HU G est _ _ mt mu (At p0)); intros q0 H0; inversion H0; assumption. }
  assert (Pm : 0 < Q2R (mt * mu)) by (rewrite Q2R_mult; apply Rmult_lt_0_compat; eapply size_pos; eassumption).
  rewrite <- Q2R_mult. set (m := (mt * mu)%Q) in *.
  assert (Ty : exists tp, q_rep tp = RFlt f /\ (forall p0 q0, eval est w (term t u p0) = Ok q0 -> q_type q0 = tp)).
  { assert (Rf : arith_rep (RFlt f) (RFlt f) = RFlt f) by now destruct f. destruct (q_times w (Quantity t (NFlt (fst p))) (Quantity u (NFlt (snd p)))) as [q0| | | |] eqn:E.
    - exists (q_type q0). unfold q_times in E. cbv zeta in E. cbn [q_type q_num] in E. step E as rf Er. step E as z Ez. inversion E; subst q0. cbn [q_type q_rep].
      split; [now rewrite Rt, Ru, Rf|]. intros p0 q1 H1. cbn [term eval bind] in H1. unfold q_times in H1. cbv zeta in H1. cbn [q_type q_num] in H1. rewrite Er in H1. cbn [bind] in H1.
      step H1 as z1 Z1. now inversion H1.
    - exists t. split; [exact Rt|]. intros p0 q1 H1. exfalso. cbn [term eval bind] in H1. unfold q_times in *. cbv zeta in *. cbn [q_type q_num] in *. step H1 as rf Er. rewrite Er in E. cbn [bind] in E.
      rewrite Rt, Ru in E. unfold n_op in E. rewrite Rf in E. cbn in E. discriminate E.
    - exists t. split; [exact Rt|]. intros p0 q1 H1. exfalso. cbn [term eval bind] in H1. unfold q_times in *. cbv zeta in *. cbn [q_type q_num] in *. step H1 as rf Er. rewrite Er in E. cbn [bind] in E.
      rewrite Rt, Ru in E. unfold n_op in E. rewrite Rf in E. cbn in E. discriminate E.
    - exists t. split; [exact Rt|]. intros p0 q1 H1. exfalso. cbn [term eval bind] in H1. unfold q_times in *. cbv zeta in *. cbn [q_type q_num] in *. step H1 as rf Er. rewrite Er in E. cbn [bind] in E.
      rewrite Rt, Ru in E. unfold n_op in E. rewrite Rf in E. cbn in E. discriminate E.
    - exists t. split; [exact Rt|]. intros p0 q1 H1. exfalso. cbn [term eval bind] in H1. unfold q_times in *. cbv zeta in *. cbn [q_type q_num] in *. step H1 as rf Er. rewrite Er in E. cbn [bind] in E.
      rewrite Rt, Ru in E. unfold n_op in E. rewrite Rf in E. cbn in E. discriminate E. }
  destruct Ty as (tp & Rp & Ty).
  assert (One : forall p0, product_not_tiny f p0 -> Rabs (fval (fst p0) * fval (snd p0) * Q2R m) / Q2R m = Rabs (fval (fst p0) * fval (snd p0)) /\
    mid_range f (Rabs (fval (fst p0) * fval (snd p0) * Q2R m) / Q2R m) /\
    errs est w f (term t u p0) (fval (fst p0) * fval (snd p0) * Q2R m) (Rabs (fval (fst p0) * fval (snd p0) * Q2R m)) 1).
  { intros p0 (N1 & N2 & Mid). assert (E : Rabs (fval (fst p0) * fval (snd p0) * Q2R m) / Q2R m = Rabs (fval (fst p0) * fval (snd p0))).
    { rewrite Rabs_mult, (Rabs_right (Q2R m)) by lra. field. lra. }
    split; [exact E|]. split; [rewrite E; now apply mid_abs|]. apply er_computes.
    replace (fval (fst p0) * fval (snd p0) * Q2R m) with ((fval (fst p0) * Q2R mt) * (fval (snd p0) * Q2R mu)) by (unfold m; rewrite Q2R_mult; ring).
    apply (cp_mul est w f _ _ _ _ 0 0 m); [now apply cp_lit|now apply cp_lit|exact (Iu p0)|].
    replace (fval (fst p0) * Q2R mt * (fval (snd p0) * Q2R mu) / Q2R m) with (fval (fst p0) * fval (snd p0)); [exact Mid|].
    unfold m in *. rewrite Q2R_mult in *. field. split; intros Z; rewrite Z in Pm; lra. }
  assert (Sp : sized est tp m \/ forall p0 q0, eval est w (term t u p0) = Ok q0 -> False).
  { destruct (eval est w (term t u p)) as [q0| | | |] eqn:E; [left; rewrite <- (Ty p q0 E); exact (Iu p q0 E)|right..].
    all: intros p0 q0 H0; cbn [term eval bind] in E, H0; unfold q_times in *; cbv zeta in *; cbn [q_type q_num] in *; step H0 as rf Er; rewrite Er in E; cbn [bind] in E;
      rewrite Rt, Ru in E; unfold n_op in E; replace (arith_rep (RFlt f) (RFlt f)) with (RFlt f) in E by (now destruct f); cbn in E; discriminate E. }
  destruct Sp as [Sp|No].
  - assert (Main : forall l0 e r M k, errs est w f e r M k -> (forall q0, eval est w e = Ok q0 -> q_type q0 = tp) -> Forall (product_not_tiny f) l0 -> (1 <= k)%nat ->
      mid_range f (M / Q2R m) -> M / Q2R m + product_magnitudes l0 <= bpow radix2 (femax f - 2) ->
      errs est w f (fold_left (fun e0 p0 => EAdd e0 (term t u p0)) l0 e) (r + products l0 * Q2R m) (M + product_magnitudes l0 * Q2R m) (k + length l0)).
    { clear q H. induction l0 as [|p1 l0 IH]; intros e r M k C T F0 Lk Mid B0.
      - cbn [fold_left products product_magnitudes fold_right length]. rewrite !Rmult_0_l, !Rplus_0_r, Nat.add_0_r. exact C.
      - inversion F0 as [|? ? Hp Hl]; subst. cbn [product_magnitudes fold_right] in B0. fold (product_magnitudes l0) in B0. pose proof (product_magnitudes_pos l0) as Pl.
        destruct (One p1 Hp) as (Ex & Mx & Er). set (v := fval (fst p1) * fval (snd p1)) in *.
        assert (Es : (M + Rabs (v * Q2R m)) / Q2R m = M / Q2R m + Rabs v) by (rewrite <- Ex; field; lra).
        destruct (add_errs est w f tp m e (term t u p1) r (v * Q2R m) M (Rabs (v * Q2R m)) k 1 Rp Sp T (Ty p1) C Er Mid Mx) as (T' & Mid' & E'); [rewrite Es; lra|].
        cbn [fold_left]. replace (r + products (p1 :: l0) * Q2R m) with (r + v * Q2R m + products l0 * Q2R m) by (cbn [products fold_right]; fold (products l0); unfold v; ring).
        replace (M + product_magnitudes (p1 :: l0) * Q2R m) with (M + Rabs (v * Q2R m) + product_magnitudes l0 * Q2R m)
          by (cbn [product_magnitudes fold_right]; fold (product_magnitudes l0); fold v; rewrite (Rabs_mult v), (Rabs_right (Q2R m)) by lra; ring).
        replace (k + length (p1 :: l0))%nat with (Nat.max k 1 + 1 + length l0)%nat by (cbn [length]; lia).
        apply IH; auto; [lia|]. rewrite Es. lra. }
    inversion F as [|? ? Hp Hl]; subst. destruct (One p Hp) as (Ex & Mx & Er). set (v := fval (fst p) * fval (snd p)) in *.
    apply (C94_error U w est f (scalar_product t u p l) _ _ (length (p :: l)) q HU G); auto.
    + clear - At. unfold scalar_product. generalize (At p). generalize (term t u p). induction l as [|y l IH]; intros e A; [exact A|]. cbn [fold_left]. apply IH. split; [exact A|apply At].
    + replace (products (p :: l) * Q2R m) with (v * Q2R m + products l * Q2R m) by (cbn [products fold_right]; fold (products l); unfold v; ring).
      replace (product_magnitudes (p :: l) * Q2R m) with (Rabs (v * Q2R m) + product_magnitudes l * Q2R m)
        by (cbn [product_magnitudes fold_right]; fold (product_magnitudes l); fold v; rewrite (Rabs_mult v), (Rabs_right (Q2R m)) by lra; ring).
      apply (Main l (term t u p) _ _ 1%nat Er (Ty p) Hl (le_n 1) Mx). rewrite Ex. exact B.
  - exfalso. clear - H No. assert (X : forall l0 e, (forall q0, eval est w e = Ok q0 -> False) -> forall q0, eval est w (fold_left (fun e0 p0 => EAdd e0 (term t u p0)) l0 e) = Ok q0 -> False).
    { induction l0 as [|y l0 IH]; intros e He q0 Hq; [exact (He _ Hq)|]. refine (IH _ _ _ Hq). intros q1 H1. cbn [eval] in H1. step H1 as a Ea. exact (He _ Ea). }
    exact (X l _ (No p) _ H).
Qed.
Print Assumptions C94_scalar_product.

(** ** Differences of neighbours *)

(** The difference of two quantities of one type that are within a factor of two of each other
    is exact: all error of a difference is that of its operands. *)
Theorem C94_neighbours : forall w est f t x y q, q_rep t = RFlt f -> is_number f x -> is_number f y ->
  fval y / 2 <= fval x <= 2 * fval y -> eval est w (ESub (ELit (Quantity t (NFlt x))) (ELit (Quantity t (NFlt y)))) = Ok q ->
  q_type q = t /\ exists z, q_num q = NFlt z /\ is_number f z /\ fval z = fval x - fval y.
Proof.
  intros w est f t x y q R Nx Ny B H. cbn [eval bind] in H. unfold q_sub, q_addsub in H. cbv zeta in H. cbn [q_type q_num] in H. rewrite R in H.
  pose proof (same_float f) as SF. rewrite SF in H. step H as t' Et. rewrite (common_same w est t (RFlt f) t' R Et) in H.
  assert (Cv : forall v, q_convert est t t v = Ok v) by (intros v; unfold q_convert; destruct (qtype_eq_dec t t) as [_|N]; [reflexivity|now elim N]).
  rewrite !Cv in H. cbn [bind] in H.
  assert (Fm : in_format f (fval x - fval y)).
  { apply sterbenz; try typeclasses eauto; try (now apply number_format). exact B. }
  assert (Pos : 0 <= fval y) by lra.
  destruct (op_number OpSub f x y (or_intror eq_refl) Nx Ny) as (z & Oz & Nz & Vz).
  { cbn [rsum]. rewrite (frnd_id f _ Fm). pose proof (number_lt_emax f x Nx) as Lx. pose proof (number_lt_emax f y Ny) as Ly.
    apply Rabs_lt_inv in Lx. apply Rabs_lt_inv in Ly. apply Rabs_lt. lra. }
  cbn [rsum] in Vz. rewrite (frnd_id f _ Fm) in Vz.
  unfold n_op in H. rewrite SF in H. cbn [n_convert bind] in H. rewrite (conv_same f x) in H by apply Nx. rewrite (conv_same f y) in H by apply Ny.
  rewrite Oz in H. cbn [bind n_convert] in H. rewrite (conv_same f z) in H by apply Nz. inversion H; subst q. cbn [q_type q_num]. split; [reflexivity|]. exists z. auto.
Qed.
Print Assumptions C94_neighbours.

(** * Cases *)

(** A distance gone, kilometres less metres, over a time elapsed, hours less hours, where the
    second time is at least twice the first: nine roundings, for any numbers from 1 to 10^9 and
    however close the positions. *)
Example C94_ex : forall est w x y t1 t2 q, si_world = Ok w -> usual x -> usual y -> usual t1 -> usual t2 -> 2 * fval t1 <= fval t2 ->
  eval est w (EDiv (ESub (km x) (m_ y)) (ESub (h_ t2) (h_ t1))) = Ok q ->
  bounded est F64 q ((fval x * 1000 - fval y) / (fval t2 * 3600 - fval t1 * 3600)) ((fval x * 1000 + fval y) / (fval t2 * 3600 - fval t1 * 3600)) 9.
Proof.
  intros est w x y t1 t2 q W (Nx & Bx) (Ny & By) (N1 & B1) (N2 & B2) Ht H. destruct good_units as (Gm & Gk & _ & Gs & _ & Gh & _).
  destruct si_world_reachable as (w' & W' & R). assert (w' = w) by congruence. subst w'.
  assert (L : in_system si_base w (DBase dim_L)) by (apply base_in_system; now left).
  assert (T : in_system si_base w (DBase dim_T)) by (apply base_in_system; right; now left).
  assert (A : all_dims (in_system si_base w) (EDiv (ESub (km x) (m_ y)) (ESub (h_ t2) (h_ t1)))) by (cbn; auto).
  assert (Sk : sized est (flt dim_L kilometre F64) (rval (Ratio 1 1 3))) by (apply (flt_sized_length est kilometre); auto).
  assert (Sm : sized est (flt dim_L metre F64) (rval (Ratio 1 1 0))) by (apply (flt_sized_length est metre); auto).
  assert (Su : sized est (flt dim_L unnamed_metre F64) (rval (Ratio 1 1 0))).
  { apply (flt_sized_length est unnamed_metre); [|reflexivity]. repeat split; vm_compute; congruence. }
  assert (Sh : sized est (flt dim_T hour F64) (rval (Ratio 36 1 2))) by now apply (flt_sized_time est hour).
  assert (Ek : Q2R (rval (Ratio 1 1 3)) = 1000) by (apply ratio_R; vm_compute; reflexivity).
  assert (E1 : Q2R (rval (Ratio 1 1 0)) = 1) by (apply ratio_R; vm_compute; reflexivity).
  assert (Eh : Q2R (rval (Ratio 36 1 2)) = 3600) by (apply ratio_R; vm_compute; reflexivity).
  assert (Ct : common_quantity est w (flt dim_L kilometre F64) (flt dim_L metre F64) (RFlt F64) = Ok (flt dim_L unnamed_metre F64)).
  { clear - W. vm_compute in W. injection W as <-. vm_compute. reflexivity. }
  assert (Ty : forall s, eval est w (ESub (km x) (m_ y)) = Ok s -> q_type s = flt dim_L unnamed_metre F64).
  { intros s Hs. cbn [eval bind km m_] in Hs. unfold q_sub, q_addsub in Hs. cbv zeta in Hs. cbn [q_type q_num] in Hs.
    change (arith_rep (q_rep (flt dim_L kilometre F64)) (q_rep (flt dim_L metre F64))) with (RFlt F64) in Hs. rewrite Ct in Hs. cbn [bind] in Hs.
    step Hs as a Ea. step Hs as b Eb. step Hs as c Ec. step Hs as d Ed. now inversion Hs. }
  assert (Th : forall s, eval est w (ESub (h_ t2) (h_ t1)) = Ok s -> q_type s = flt dim_T hour F64).
  { intros s Hs. cbn [eval bind h_] in Hs. unfold q_sub, q_addsub in Hs. cbv zeta in Hs. cbn [q_type q_num] in Hs.
    change (arith_rep (q_rep (flt dim_T hour F64)) (q_rep (flt dim_T hour F64))) with (RFlt F64) in Hs. step Hs as t Et.
    rewrite (common_same w est (flt dim_T hour F64) (RFlt F64) t eq_refl Et) in Hs. step Hs as a Ea. step Hs as b Eb. step Hs as c Ec. step Hs as d Ed. now inversion Hs. }
  assert (Is : in_units est w (ESub (km x) (m_ y)) (rval (Ratio 1 1 0))) by (intros s Hs; now rewrite (Ty s Hs)).
  assert (Ih : in_units est w (ESub (h_ t2) (h_ t1)) (rval (Ratio 36 1 2))) by (intros s Hs; now rewrite (Th s Hs)).
  pose proof (units_div si_base w si_identify (si_good w W) est _ _ _ _ A Is Ih) as Id.
  assert (Lit : forall q0 v m0, q_rep (q_type q0) = RFlt F64 -> q_num q0 = NFlt v -> is_number F64 v -> sized est (q_type q0) m0 -> 0 <= fval v * Q2R m0 ->
    errs est w F64 (ELit q0) (fval v * Q2R m0) (fval v * Q2R m0) 0).
  { intros q0 v m0 A1 A2 A3 A4 A5. rewrite <- (Rabs_right (fval v * Q2R m0)) at 2 by lra. apply er_computes. now apply cp_lit. }
  assert (Cs : errs est w F64 (ESub (km x) (m_ y)) (fval x * Q2R (rval (Ratio 1 1 3)) - fval y * Q2R (rval (Ratio 1 1 0)))
    (fval x * Q2R (rval (Ratio 1 1 3)) + fval y * Q2R (rval (Ratio 1 1 0))) 2).
  { apply (er_sub est w F64 (km x) (m_ y) _ _ _ _ 0 0 1 1 (rval (Ratio 1 1 0))); auto.
    - apply Lit; auto. rewrite Ek. lra.
    - apply Lit; auto. rewrite E1. lra.
    - intros a b s Ha Hb Hs. inversion Ha; subst a. inversion Hb; subst b. rewrite (Ty s Hs). split; right; (split; [discriminate|]); exists 0%nat; (split; [|reflexivity]).
      + exists (Ratio 1 1 3). split; [reflexivity|]. left. split; [|reflexivity]. exists 1000%Z. cbn [rnum rden rexp].
        split; [reflexivity|]. split; [lia|]. split; [vm_compute; discriminate|]. repeat split; apply holds_small; vm_compute; discriminate.
      + exists (Ratio 1 1 0). split; [reflexivity|]. left. split; [|reflexivity]. exists 1%Z. cbn [rnum rden rexp].
        split; [reflexivity|]. split; [lia|]. split; [vm_compute; discriminate|]. repeat split; apply holds_small; vm_compute; discriminate.
    - rewrite Ek, E1. apply mid_between. lra.
    - rewrite E1. apply mid_between. lra.
    - rewrite Ek, E1. apply mid_between. lra. }
  assert (Cd : errs est w F64 (ESub (h_ t2) (h_ t1)) (fval t2 * Q2R (rval (Ratio 36 1 2)) - fval t1 * Q2R (rval (Ratio 36 1 2)))
    (fval t2 * Q2R (rval (Ratio 36 1 2)) + fval t1 * Q2R (rval (Ratio 36 1 2))) 1).
  { apply (er_sub est w F64 (h_ t2) (h_ t1) _ _ _ _ 0 0 0 0 (rval (Ratio 36 1 2))); auto.
    - apply Lit; auto. rewrite Eh. lra.
    - apply Lit; auto. rewrite Eh. lra.
    - intros a b s Ha Hb Hs. inversion Ha; subst a. inversion Hb; subst b. rewrite (Th s Hs). split; left; auto.
    - rewrite Eh. apply mid_between. lra.
    - rewrite Eh. apply mid_between. lra.
    - rewrite Eh. apply mid_between. lra. }
  rewrite Ek, E1, Rmult_1_r in Cs. rewrite Eh in Cd.
  assert (Ab : Rabs (fval t2 * 3600 - fval t1 * 3600) = fval t2 * 3600 - fval t1 * 3600) by (apply Rabs_right; lra).
  rewrite <- Ab at 2.
  apply (C94_error si_base w est F64 _ _ _ 9%nat q si_identify (si_good w W) A); [|vm_compute; discriminate|exact H].
  apply (er_div_settled est w F64 _ _ _ _ _ _ 2 1 3 (rval (Ratio 1 1 0) / rval (Ratio 36 1 2)) Cs Cd); auto.
  - lra.
  - rewrite Ab. cbn [INR]. lra.
  - rewrite Ab, Q2R_div by (vm_compute; discriminate). rewrite Eh, E1. apply mid_between.
    replace ((fval x * 1000 + fval y) / (fval t2 * 3600 - fval t1 * 3600) / (1 / 3600)) with ((fval x * 1000 + fval y) * / (fval t2 - fval t1)) by (field; lra).
    assert (It : / 1000000000 <= / (fval t2 - fval t1) <= 1) by (split; [|rewrite <- Rinv_1]; apply Rinv_le; lra). nra.
Qed.

(** 10^16 m + 1 m - 10^16 m again (C88): the result 0 m is within two roundings of the magnitude
    2 * 10^16 m + 1 m. *)
Example C94_ex_cancelled : forall est w, si_world = Ok w -> let t := flt dim_L metre F64 in
  let x := float_of_int F64 (10 ^ 16) in let l := [float_of_int F64 1; SFopp x] in
  in_system si_base w (q_dim t) /\ q_rep t = RFlt F64 /\ sized est t (rval (Ratio 1 1 0)) /\ Forall (not_tiny F64) (x :: l) /\
  total (x :: l) = 1 /\ magnitudes (x :: l) = 20000000000000001 /\ magnitudes (x :: l) <= bpow radix2 (femax F64 - 2) /\
  eval est w (sum_up t (ELit (Quantity t (NFlt x))) l) = Ok (Quantity t (NFlt (S754_zero false))).
Proof.
  intros est w W t x l. destruct good_units as (Gm & _).
  assert (Hb : is_number F64 x /\ fval x = IZR (10 ^ 16)).
  { apply of_int_holds. exists 152587890625%Z, 16%Z. repeat split; vm_compute; (discriminate || reflexivity). }
  assert (Ho : is_number F64 (float_of_int F64 1) /\ fval (float_of_int F64 1) = 1) by (apply of_int_holds; apply holds_small; vm_compute; discriminate).
  assert (Hn : is_number F64 (SFopp x) /\ fval (SFopp x) = - IZR (10 ^ 16)).
  { replace (SFopp x) with (float_of_int F64 (- 10 ^ 16)) by (vm_compute; reflexivity). replace (- IZR (10 ^ 16)) with (IZR (- 10 ^ 16)) by (rewrite <- opp_IZR; reflexivity).
    apply of_int_holds. exists (- 152587890625)%Z, 16%Z. repeat split; vm_compute; (discriminate || reflexivity). }
  destruct Hb as [Nb Vb]. destruct Ho as [No Vo]. destruct Hn as [Nn Vn].
  destruct si_world_reachable as (w' & W' & R). assert (w' = w) by congruence. subst w'.
  split; [apply base_in_system; now left|]. split; [reflexivity|]. split; [now apply (flt_sized_length est metre)|].
  split.
  { apply Forall_cons; [split; [exact Nb|]|apply Forall_cons; [split; [exact No|]|apply Forall_cons; [split; [exact Nn|]|constructor]]].
    - rewrite Vb. apply mid_between. lra.
    - rewrite Vo. apply mid_between. lra.
    - rewrite Vn. destruct (mid_between (IZR (10 ^ 16))) as [Z|Z]; [lra|exfalso; lra|]. right. now rewrite Rabs_Ropp. }
  split; [unfold l; cbn [total fold_right]; rewrite Vb, Vo, Vn; lra|].
  assert (Em : magnitudes (x :: l) = 20000000000000001).
  { unfold l. cbn [magnitudes fold_right]. rewrite Vb, Vo, Vn, Rabs_Ropp. rewrite !Rabs_right by lra. lra. }
  split; [exact Em|]. split.
  - rewrite Em. apply Rle_trans with (bpow radix2 60); [change (bpow radix2 60) with (IZR (2 ^ 60)); lra|apply bpow_le; vm_compute; discriminate].
  - clear - W. vm_compute in W. injection W as <-. vm_compute. reflexivity.
Qed.

(** 3 m * 2 h - 1 m * 4 h: a scalar product meeting the hypotheses. *)
Example C94_ex_product : forall est w, si_world = Ok w -> let t := flt dim_L metre F64 in let u := flt dim_T hour F64 in
  let p := (float_of_int F64 3, float_of_int F64 2) in let l := [(SFopp (float_of_int F64 1), float_of_int F64 4)] in
  in_system si_base w (q_dim t) /\ in_system si_base w (q_dim u) /\ sized est t (rval (Ratio 1 1 0)) /\ sized est u (rval (Ratio 36 1 2)) /\
  Forall (product_not_tiny F64) (p :: l) /\ products (p :: l) = 2 /\ product_magnitudes (p :: l) = 10 /\
  exists q, eval est w (scalar_product t u p l) = Ok q /\ q_num q = NFlt (float_of_int F64 2).
Proof.
  intros est w W t u p l. destruct good_units as (Gm & Gk & _ & Gs & _ & Gh & _).
  assert (Hi : forall z, (Z.abs z <= 2 ^ 53)%Z -> is_number F64 (float_of_int F64 z) /\ fval (float_of_int F64 z) = IZR z) by (intros z Hz; now apply of_int_exact).
  assert (Hn : is_number F64 (SFopp (float_of_int F64 1)) /\ fval (SFopp (float_of_int F64 1)) = -1).
  { change (SFopp (float_of_int F64 1)) with (float_of_int F64 (-1)). apply Hi. lia. }
  destruct (Hi 3%Z ltac:(lia)) as [N3 V3]. destruct (Hi 2%Z ltac:(lia)) as [N2 V2]. destruct (Hi 4%Z ltac:(lia)) as [N4 V4]. destruct Hn as [Nn Vn].
  destruct si_world_reachable as (w' & W' & R). assert (w' = w) by congruence. subst w'.
  split; [apply base_in_system; now left|]. split; [apply base_in_system; right; now left|]. split; [now apply (flt_sized_length est metre)|]. split; [now apply (flt_sized_time est hour)|].
  split.
  { constructor; [|constructor; [|constructor]]; unfold product_not_tiny, p; cbn [fst snd].
    - split; [exact N3|]. split; [exact N2|]. rewrite V3, V2. apply mid_between. lra.
    - split; [exact Nn|]. split; [exact N4|]. rewrite Vn, V4. destruct (mid_between 4) as [Z|Z]; [lra|exfalso; lra|]. right. replace (-1 * 4) with (- (4)) by ring. now rewrite Rabs_Ropp. }
  split; [unfold l, p; cbn [products fold_right fst snd]; rewrite V3, V2, V4, Vn; lra|].
  split.
  - unfold l, p. cbn [product_magnitudes fold_right fst snd]. rewrite V3, V2, V4, Vn. replace (-1 * 4) with (- (4)) by ring. rewrite Rabs_Ropp, !Rabs_right by lra. lra.
  - clear - W. vm_compute in W. injection W as <-. eexists. split; vm_compute; reflexivity.
Qed.

(** 1.5 m less 1 m is exactly 0.5 m. *)
Example C94_ex_neighbours : forall est, exists w q, si_world = Ok w /\ let t := flt dim_L metre F64 in
  is_number F64 one_half_more /\ fval (float_of_int F64 1) / 2 <= fval one_half_more <= 2 * fval (float_of_int F64 1) /\
  eval est w (ESub (ELit (Quantity t (NFlt one_half_more))) (ELit (Quantity t (NFlt (float_of_int F64 1))))) = Ok q /\
  q_num q = NFlt (S754_finite false 4503599627370496 (-53)).
Proof.
  intros est. destruct si_world_reachable as (w & W & _). exists w. eexists. split; [exact W|]. cbv zeta.
  assert (V : fval one_half_more = 6755399441055744 / IZR (2 ^ 52)) by reflexivity. destruct (of_int_exact F64 1) as [_ V1]; [vm_compute; discriminate|]. split; [split; vm_compute; reflexivity|].
  split; [rewrite V, V1; split; apply Rmult_le_reg_r with (IZR (2 ^ 52)); try lra; unfold Rdiv; rewrite ?Rmult_assoc, ?Rinv_l by lra; lra|].
  split; [clear - W; vm_compute in W; injection W as <-; vm_compute; reflexivity|reflexivity].
Qed.
