(** Products of many dimensions; definedness for whole exponents. *)

From Coq Require Import ZArith QArith Qreduction Qabs Qcanon String List Bool Lia Permutation Sorted Lqa.
From Verif Require Import Outcome CInt Ratio SpecRatio
  FixedString TypeList Unit Downcast Dim DimOp SpecDim
  TypeListProofs StringProofs DimProofs DimOpProofs DimOpProofs2.
Import ListNotations.
Close Scope Qc_scope.
Local Open Scope Z_scope.
Local Open Scope res_scope.

(** The factors of a product expression. *)
Fixpoint factors (x : dexpr) : option (list dimension) :=
  match x with
  | XDim d => Some [d]
  | XMul a b =>
      match factors a, factors b with Some l, Some r => Some (l ++ r) | _, _ => None end
  | _ => None
  end.

Lemma factors_expo : forall x l b, factors x = Some l ->
  (xexpo x b == fold_right (fun d q => dim_expo d b + q) 0 l)%Q.
Proof.
  assert (A : forall b l r, (fold_right (fun d q => dim_expo d b + q) 0 (l ++ r) ==
     fold_right (fun d q => dim_expo d b + q) 0 l + fold_right (fun d q => dim_expo d b + q) 0 r)%Q).
  { intros b l r. induction l; simpl; [lra|]. rewrite IHl. ring. }
  induction x; intros l b H; simpl in *; try discriminate.
  - inversion H; subst. simpl. lra.
  - destruct (factors x1); [|discriminate]. destruct (factors x2); [|discriminate].
    inversion H; subst. rewrite A, (IHx1 _ b eq_refl), (IHx2 _ b eq_refl). reflexivity.
Qed.

Lemma fold_perm : forall b l r, Permutation l r ->
  (fold_right (fun d q => dim_expo d b + q) 0 l == fold_right (fun d q => dim_expo d b + q) 0 r)%Q.
Proof.
  induction 1; simpl; [reflexivity|now rewrite IHPermutation|ring|now rewrite IHPermutation1].
Qed.

Lemma product_order : forall U, symbols_identify U -> forall w, reachable w ->
  forall x y lx ly dx dy, xgood U x -> xgood U y -> is_operation x -> is_operation y ->
  factors x = Some lx -> factors y = Some ly -> Permutation lx ly ->
  deval w x = Ok dx -> deval w y = Ok dy -> dx = dy.
Proof.
  intros U HU w R x y lx ly dx dy Gx Gy Ox Oy Fx Fy P Hx Hy.
  eapply (deval_unique U HU w (reachable_consistent w R) x y); eauto.
  intros b _. rewrite (factors_expo x lx b Fx), (factors_expo y ly b Fy). now apply fold_perm.
Qed.

(** ** Definedness *)

(** Sum of the magnitudes of the exponents of [b] over all operands. *)
Fixpoint xabs (x : dexpr) (b : bdim) : Q :=
  match x with
  | XDim d => Qabs (dim_expo d b)
  | XMul x y | XDiv x y => (xabs x b + xabs y b)%Q
  | XInv x => xabs x b
  end.

Fixpoint xint (U : bdim -> Prop) (x : dexpr) : Prop :=
  match x with
  | XDim d => forall b, U b -> is_int (dim_expo d b)
  | XMul x y | XDiv x y => xint U x /\ xint U y
  | XInv x => xint U x
  end.

Lemma Qred_int : forall z q, (q == inject_Z z)%Q -> Qred q = inject_Z z.
Proof.
  intros z q H. rewrite (Qred_complete _ _ H). apply Qcanon.Qred_iff.
  unfold inject_Z; simpl. now rewrite Z.gcd_1_r.
Qed.

Lemma representable_int : forall z q, (q == inject_Z z)%Q -> Z.abs z <= INTMAX_MAX -> representable q.
Proof.
  intros z q H A. unfold representable. rewrite (Qred_int z q H). simpl. split; auto.
  unfold INTMAX_MAX. lia.
Qed.

Lemma Qabs_int_le : forall z q B, (q == inject_Z z)%Q -> (Qabs q <= inject_Z B)%Q -> Z.abs z <= B.
Proof.
  intros z q B H L. rewrite H in L. apply Qabs_Qle_condition in L as [L1 L2].
  rewrite <- Zle_Qle in L2. rewrite <- inject_Z_opp, <- Zle_Qle in L1. lia.
Qed.

Lemma xabs_nonneg : forall x b, (0 <= xabs x b)%Q.
Proof.
  induction x; intros b; simpl; try (apply Qabs_nonneg); auto.
  - specialize (IHx1 b). specialize (IHx2 b). lra.
  - specialize (IHx1 b). specialize (IHx2 b). lra.
Qed.
Lemma xabs_bound : forall x b, (Qabs (xexpo x b) <= xabs x b)%Q.
Proof.
  induction x; intros b; cbn [xexpo xabs].
  - apply Qle_refl.
  - eapply Qle_trans; [apply Qabs_triangle|]. specialize (IHx1 b). specialize (IHx2 b). lra.
  - unfold Qminus. eapply Qle_trans; [apply Qabs_triangle|]. rewrite Qabs_opp.
    specialize (IHx1 b). specialize (IHx2 b). lra.
  - rewrite Qabs_opp. auto.
Qed.
Lemma is_int_plus : forall p q, is_int p -> is_int q -> is_int (p + q).
Proof. intros p q [a A] [b B]. exists (a + b). now rewrite A, B, inject_Z_plus. Qed.
Lemma is_int_opp : forall p, is_int p -> is_int (- p).
Proof. intros p [a A]. exists (- a). now rewrite A, inject_Z_opp. Qed.
Lemma xint_int : forall U x, xint U x -> forall b, U b -> is_int (xexpo x b).
Proof.
  induction x; simpl; intros H b Hb; auto.
  - destruct H. apply is_int_plus; auto.
  - destruct H. apply is_int_plus; auto. apply is_int_opp; auto.
  - apply is_int_opp; auto.
Qed.

Lemma deval_defined : forall U, symbols_identify U -> forall w, reachable w ->
  forall x, xgood U x -> xint U x ->
  (forall b, U b -> (xabs x b <= inject_Z INTMAX_MAX)%Q) ->
  exists d, deval w x = Ok d.
Proof.
  intros U HU w R x. pose proof (reachable_consistent w R) as C.
  induction x as [d|x1 IH1 x2 IH2|x1 IH1 x2 IH2|x IH]; intros G I B.
  - simpl. eauto.
  - destruct G as [G1 G2]. pose proof (xint_int U _ I) as Ii. destruct I as [I1 I2].
    destruct (IH1 G1 I1) as [d1 H1].
    { intros b Hb. specialize (B b Hb). simpl in B. pose proof (xabs_nonneg x2 b). lra. }
    destruct (IH2 G2 I2) as [d2 H2].
    { intros b Hb. specialize (B b Hb). simpl in B. pose proof (xabs_nonneg x1 b). lra. }
    destruct (deval_ok U HU w C _ _ G1 H1) as (N1 & V1 & _).
    destruct (deval_ok U HU w C _ _ G2 H2) as (N2 & V2 & _).
    simpl. rewrite H1, H2. cbn [bind].
    apply (dimension_multiply_complete U HU); auto.
    intros b Hb. destruct (Ii b Hb) as [z Hz]. simpl in Hz.
    apply (representable_int z); [now rewrite V1, V2|].
    apply (Qabs_int_le z (xexpo (XMul x1 x2) b)); auto.
    eapply Qle_trans; [apply xabs_bound|auto].
  - destruct G as [G1 G2]. pose proof (xint_int U _ I) as Ii. destruct I as [I1 I2].
    destruct (IH1 G1 I1) as [d1 H1].
    { intros b Hb. specialize (B b Hb). simpl in B. pose proof (xabs_nonneg x2 b). lra. }
    destruct (IH2 G2 I2) as [d2 H2].
    { intros b Hb. specialize (B b Hb). simpl in B. pose proof (xabs_nonneg x1 b). lra. }
    destruct (deval_ok U HU w C _ _ G1 H1) as (N1 & V1 & _).
    destruct (deval_ok U HU w C _ _ G2 H2) as (N2 & V2 & _).
    simpl. rewrite H1, H2. cbn [bind].
    apply (dimension_divide_complete U HU); auto.
    intros b Hb. destruct (Ii b Hb) as [z Hz]. simpl in Hz.
    apply (representable_int z); [now rewrite V1, V2|].
    apply (Qabs_int_le z (xexpo (XDiv x1 x2) b)); auto.
    eapply Qle_trans; [apply xabs_bound|auto].
  - simpl in G, I. destruct (IH G I) as [d1 H1].
    { intros b Hb. apply (B b Hb). }
    destruct (deval_ok U HU w C _ _ G H1) as (N1 & V1 & _).
    simpl. rewrite H1. cbn [bind].
    destruct (dim_invert_ok U w d1 C N1) as (d' & Hd & _). eauto.
Qed.

(** ** Group laws *)

Definition canonical (w : world) (d : dimension) : Prop := to_dimension w (exponents d) = Ok d.

Lemma zero_normal : forall U es, over U es -> normal es -> (forall b, (expo es b == 0)%Q) -> es = [].
Proof.
  intros U [|e es] O [S P] H; auto. exfalso.
  inversion S as [|? ? S' F]; subst. inversion P as [|? ? Pe P']; subst.
  apply (equot_proper_nz e Pe). rewrite <- (H (e_dim e)). symmetry. apply expo_head; auto.
Qed.

Lemma divide_self : forall U, symbols_identify U -> forall w, reachable w -> forall d, ndim U d ->
  exists d', dimension_divide w d d = Ok d' /\ exponents d' = [].
Proof.
  intros U HU w R d N. pose proof (reachable_consistent w R) as C.
  destruct (dimension_divide_complete U HU w d d C N N) as [d' H].
  { intros b _. apply (representable_int 0); [change (inject_Z 0) with 0%Q; lra|vm_compute; discriminate]. }
  exists d'. split; auto.
  destruct (dimension_divide_ok U HU w d d d' C N N H) as ([N' O'] & _ & V).
  apply (zero_normal U); auto. intros b. specialize (V b). unfold dim_expo in V. rewrite V. lra.
Qed.

Lemma multiply_one : forall U, symbols_identify U -> forall w, reachable w -> forall d one,
  ndim U d -> canonical w d -> exponents one = [] ->
  dimension_multiply w d one = Ok d /\ dimension_multiply w one d = Ok d /\ dimension_divide w d one = Ok d.
Proof.
  intros U HU w R d one N K E1. pose proof (reachable_consistent w R) as C.
  assert (N1 : ndim U one).
  { unfold ndim. rewrite E1. split; [split; constructor|]. intros e []. }
  assert (Ex : forall o, exponents o = [] -> ndim U o -> dimension_multiply w d o = Ok d /\ dimension_multiply w o d = Ok d).
  { intros o Eo No. rewrite !(dimension_multiply_merge U HU) by auto. rewrite Eo.
    unfold merge_dimension. rewrite merge_sorted_nil_l, merge_sorted_nil_r.
    rewrite consolidate_strict by apply N. cbn [bind]. split; exact K. }
  destruct (Ex one E1 N1) as [A B]. split; auto. split; auto.
  unfold dimension_divide. rewrite dim_invert_canonical by apply N1. rewrite E1. cbn [map].
  destruct (to_dimension_strict w [] C) as (i & Hi & Ei); [constructor|].
  rewrite Hi. cbn [bind]. apply Ex; auto. unfold ndim. rewrite Ei. split; [split; constructor|]. intros e [].
Qed.

Lemma invert_twice : forall U w, reachable w -> forall d, ndim U d -> canonical w d ->
  exists i, dim_invert w d = Ok i /\ dim_invert w i = Ok d.
Proof.
  intros U w R d [N O] K. pose proof (reachable_consistent w R) as C.
  rewrite dim_invert_canonical by auto.
  pose proof (neg_normal _ N) as N'.
  destruct (to_dimension_strict w _ C (proj1 N')) as (i & Hi & Ei).
  exists i. split; auto. rewrite dim_invert_canonical by now rewrite Ei.
  rewrite Ei, neg_neg. exact K.
Qed.

Lemma canonical_base : forall w b, canonical w (DBase b).
Proof. reflexivity. Qed.

Lemma canonical_result : forall U, symbols_identify U -> forall w, reachable w -> forall x d,
  xgood U x -> is_operation x -> deval w x = Ok d -> canonical w d.
Proof.
  intros U HU w R x d G O H.
  destruct (deval_ok U HU w (reachable_consistent w R) x d G H) as (_ & _ & K). exact (K O).
Qed.

(** ** Powers against products *)

Lemma pow_square : forall U, symbols_identify U -> forall w, reachable w -> forall d p q, ndim U d ->
  Forall (power_ok 2 1) (exponents d) ->
  dimension_pow w d 2 1 = Ok p -> dimension_multiply w d d = Ok q -> p = q.
Proof.
  intros U HU w R d p q N F Hp Hq. pose proof (reachable_consistent w R) as C.
  rewrite dimension_pow_canonical in Hp; auto; try apply N; try (vm_compute; congruence); try lia.
  2: { split; vm_compute; congruence. }
  destruct (dimension_multiply_ok U HU w d d q C N N Hq) as (Nq & Kq & Vq).
  assert (Ns : normal (scaled (inject_Z 2 / inject_Z 1) (exponents d))).
  { apply scaled_normal; [vm_compute; congruence|apply N|].
    intros e He. rewrite Forall_forall in F. apply (F e He). }
  destruct (to_dimension_strict w _ C (proj1 Ns)) as (p' & Hp' & Ep).
  rewrite Hp in Hp'; inversion Hp'; subst p'.
  apply (canonical_unique U HU w); auto.
  - split; rewrite Ep; auto. intros e He. apply in_map_iff in He as (y & <- & Hy). simpl.
    now apply N.
  - now rewrite Ep.
  - intros b _. rewrite Vq. unfold dim_expo at 1. rewrite Ep, scaled_expo.
    unfold dim_expo. change (inject_Z 2 / inject_Z 1)%Q with 2%Q. lra.
Qed.
