(** An expression means the same in every program: proofs. *)

From Coq Require Import ZArith QArith String List Bool Lia Lqa SpecFloat.
From Verif Require Import Outcome CInt IntProofs RatioMaths RatioMathsProofs Pow Root Ratio QTen SpecRatio RatioProofs RatioProofs2 Unit Downcast Dim DimOp
  Equivalent SpecDim DimProofs DimOpProofs DimOpProofs2 EquivProofs SpecUnit MagnitudeProofs Rep Reference QuantityCast CommonQuantity Quantity SpecQuantity
  Point Expr SpecExpr ExprProofs ExprProofs2 FloatCastProofs Affine Static SpecStatic StaticProofs UnitDecl UnitProofs EquivalentTypes SpecModes.
Import ListNotations.
Local Open Scope Z_scope.
Local Open Scope res_scope.

(** ** Ratios and powers of ten *)

Definition shift (k : Z) (r : ratio) : ratio := Ratio (rnum r) (rden r) (rexp r + k).

Lemma shift_0 : forall r, shift 0 r = r.
Proof. intros [n d e]. unfold shift. cbn [rnum rden rexp]. now rewrite Z.add_0_r. Qed.
Lemma shift_shift : forall a b r, shift a (shift b r) = shift (b + a) r.
Proof. intros a b [n d e]. unfold shift. cbn [rnum rden rexp]. f_equal. lia. Qed.

Lemma strip_num_shift : forall k f n e x, strip_num f n e = Ok x -> forall y, strip_num f n (e + k) = Ok y -> y = (fst x, snd x + k).
Proof.
  induction f as [|f IH]; intros n e x H y K; cbn [strip_num] in *; [discriminate|].
  destruct (Z.rem n 10 =? 0).
  - step H as a Ea. step K as b Eb. apply cadd_ok in Ea, Eb. destruct Ea as [-> _], Eb as [-> _].
    replace (e + k + 1) with (e + 1 + k) in K by lia. exact (IH _ _ _ H _ K).
  - inversion H; inversion K; subst. reflexivity.
Qed.
Lemma strip_den_shift : forall k f n e x, strip_den f n e = Ok x -> forall y, strip_den f n (e + k) = Ok y -> y = (fst x, snd x + k).
Proof.
  induction f as [|f IH]; intros n e x H y K; cbn [strip_den] in *; [discriminate|].
  destruct (Z.rem n 10 =? 0).
  - step H as a Ea. step K as b Eb. apply csub_ok in Ea, Eb. destruct Ea as [-> _], Eb as [-> _].
    replace (e + k - 1) with (e - 1 + k) in K by lia. exact (IH _ _ _ H _ K).
  - inversion H; inversion K; subst. reflexivity.
Qed.
Lemma mk_ratio_shift : forall k n d e r s, n <> 0 -> mk_ratio n d e = Ok r -> mk_ratio n d (e + k) = Ok s -> s = shift k r.
Proof.
  intros k n d e r s N H K. unfold mk_ratio in *. step H as u Eu. step K as v Ev. clear Eu Ev. step H as x Ex. step K as y Ey.
  unfold normalize in *. destruct (Z.eqb_spec n 0) as [E|_]; [contradiction|].
  step Ex as g Eg. rewrite Eg in Ey. cbn [bind] in Ey. step Ex as n1 E1. rewrite E1 in Ey. cbn [bind] in Ey.
  step Ex as n2 E2. rewrite E2 in Ey. cbn [bind] in Ey. step Ex as d1 E3. rewrite E3 in Ey. cbn [bind] in Ey.
  step Ex as d2 E4. rewrite E4 in Ey. cbn [bind] in Ey. step Ex as a Ea. step Ey as b Eb. step Ex as c Ec. step Ey as f Ef.
  inversion Ex; subst x. inversion Ey; subst y. pose proof (strip_num_shift k _ _ _ _ Ea _ Eb) as ->. cbn [snd fst] in *.
  pose proof (strip_den_shift k _ _ _ _ Ec _ Ef) as ->. cbn [fst snd] in *. inversion H; inversion K; subst. reflexivity.
Qed.
Lemma rinv_shift : forall k r i j, rden r <> 0 -> rinv r = Ok i -> rinv (shift k r) = Ok j -> j = shift (- k) i.
Proof.
  intros k r i j N H K. unfold rinv in *. cbn [shift rnum rden rexp] in K. step H as a Ea. step K as b Eb. apply cneg_ok in Ea, Eb.
  destruct Ea as [-> _], Eb as [-> _]. replace (- (rexp r + k)) with (- rexp r + - k) in K by lia. exact (mk_ratio_shift _ _ _ _ _ _ N H K).
Qed.
Lemma rmul_shift : forall k l a b c d, 0 < rnum a -> 0 < rnum b -> rmul a b = Ok c -> rmul (shift k a) (shift l b) = Ok d -> d = shift (k + l) c.
Proof.
  intros k l a b c d Pa Pb H K. unfold rmul in *. cbn [shift rnum rden rexp] in K.
  step H as g1 G1. rewrite G1 in K. cbn [bind] in K. step H as g2 G2. rewrite G2 in K. cbn [bind] in K.
  step H as x Ex. rewrite Ex in K. cbn [bind] in K. step H as y Ey. rewrite Ey in K. cbn [bind] in K.
  step H as n En. rewrite En in K. cbn [bind] in K. step H as z Ez. rewrite Ez in K. cbn [bind] in K.
  step H as t Et. rewrite Et in K. cbn [bind] in K. step H as m Em. rewrite Em in K. cbn [bind] in K.
  step H as e Ee. step K as f Ef. apply cadd_ok in Ee, Ef. destruct Ee as [-> _], Ef as [-> _].
  replace (rexp a + k + (rexp b + l)) with (rexp a + rexp b + (k + l)) in K by lia.
  apply (mk_ratio_shift _ n m (rexp a + rexp b)); auto. intros ->.
  apply safe_multiply_sound in En. destruct En as [En _].
  apply cgcd_ok in G1, G2. destruct G1 as [-> _], G2 as [-> _]. apply cdiv_ok in Ex, Ey. destruct Ex as (N1 & -> & _), Ey as (N2 & -> & _).
  assert (A : forall p q, 0 < p -> Z.quot p (Z.gcd p q) <> 0).
  { intros p q Pp. destruct (Z.gcd_divide_l p q) as [s S]. assert (0 < Z.gcd p q).
    { pose proof (Z.gcd_nonneg p q). assert (Z.gcd p q <> 0) by (intros E; apply Z.gcd_eq_0_l in E; lia). lia. }
    rewrite Z.quot_div_nonneg by lia. intros E. rewrite S in E at 1. rewrite Z.div_mul in E by lia. subst s. lia. }
  symmetry in En. apply Z.mul_eq_0 in En. destruct En as [En|En]; revert En; now apply A.
Qed.

Lemma good_den : forall r, ratio_good r -> 0 < rden r.
Proof. intros r ((D & _) & _). exact D. Qed.
Lemma good_num : forall r, ratio_good r -> 0 < rnum r.
Proof. intros r (_ & _ & N). exact N. Qed.

Lemma rdiv_shift : forall k a b c d, ratio_good a -> ratio_good b -> rdiv a b = Ok c -> rdiv (shift k a) (shift k b) = Ok d -> d = c.
Proof.
  intros k a b c d Ga Gb H K. unfold rdiv in *. step H as i I. step K as j J.
  pose proof (rinv_shift k b i j ltac:(pose proof (good_den b Gb); lia) I J) as ->.
  destruct (rinv_good _ _ Gb I) as [_ Gi].
  rewrite (rmul_shift k (- k) a i c d (good_num a Ga) (good_num i Gi) H K), Z.add_opp_diag_r. apply shift_0.
Qed.
Lemma shift_between : forall k l r, shift l r = shift (l - k) (shift k r).
Proof. intros k l r. rewrite shift_shift. f_equal. lia. Qed.
Lemma rdiv_agree : forall k l a b c d, ratio_good (shift k a) -> ratio_good (shift k b) ->
  rdiv (shift k a) (shift k b) = Ok c -> rdiv (shift l a) (shift l b) = Ok d -> d = c.
Proof. intros k l a b c d Ga Gb H K. rewrite (shift_between k l a), (shift_between k l b) in K. exact (rdiv_shift _ _ _ _ _ Ga Gb H K). Qed.
Lemma rdiv_self : forall r c, ratio_good r -> rdiv r r = Ok c -> c = rone.
Proof.
  intros r c (L & S & P) H. assert (rexp r <> INTMAX_MIN).
  { intros E. unfold rdiv, rinv in H. step H as i I. step I as n N. apply cneg_ok in N. rewrite E in N. destruct N as [-> N]. clear - N. apply in_range_I64 in N. unfold INTMAX_MIN, INTMAX_MAX in N. lia. }
  rewrite rdiv_same in H by (auto; lia). now inversion H.
Qed.

Lemma gcd_ordered_shift : forall k n1 d1 e1 n2 d2 e2 x y, gcd_frac_ordered n1 d1 e1 n2 d2 e2 = Ok x ->
  gcd_frac_ordered n1 d1 (e1 + k) n2 d2 (e2 + k) = Ok y -> y = (fst x, snd x + k).
Proof.
  intros k n1 d1 e1 n2 d2 e2 x y H K. unfold gcd_frac_ordered in *.
  step H as a1 A1. rewrite A1 in K; cbn [bind] in K. step H as a2 A2. rewrite A2 in K; cbn [bind] in K.
  step H as a3 A3. rewrite A3 in K; cbn [bind] in K. step H as a4 A4. rewrite A4 in K; cbn [bind] in K.
  step H as a5 A5. rewrite A5 in K; cbn [bind] in K. step H as e E. step K as f F. apply csub_ok in E, F. destruct E as [-> _], F as [-> _].
  replace (e1 + k - (e2 + k)) with (e1 - e2) in K by lia.
  step H as a6 A6. rewrite A6 in K; cbn [bind] in K. step H as a7 A7. rewrite A7 in K; cbn [bind] in K.
  step H as a8 A8. rewrite A8 in K; cbn [bind] in K. step H as a9 A9. rewrite A9 in K; cbn [bind] in K.
  step H as b1 B1. rewrite B1 in K; cbn [bind] in K. step H as b2 B2. rewrite B2 in K; cbn [bind] in K.
  step H as b3 B3. rewrite B3 in K; cbn [bind] in K. step H as b4 B4. rewrite B4 in K; cbn [bind] in K.
  inversion H; inversion K; subst. reflexivity.
Qed.
Lemma gcd_frac_shift : forall k n1 d1 e1 n2 d2 e2 x y, gcd_frac n1 d1 e1 n2 d2 e2 = Ok x ->
  gcd_frac n1 d1 (e1 + k) n2 d2 (e2 + k) = Ok y -> y = (fst x, snd x + k).
Proof.
  intros k n1 d1 e1 n2 d2 e2 x y H K. unfold gcd_frac in *.
  replace (e1 + k =? e2 + k) with (e1 =? e2) in K by (destruct (Z.eqb_spec e1 e2), (Z.eqb_spec (e1 + k) (e2 + k)); lia || reflexivity).
  replace (e1 + k <? e2 + k) with (e1 <? e2) in K by (destruct (Z.ltb_spec e1 e2), (Z.ltb_spec (e1 + k) (e2 + k)); lia || reflexivity).
  destruct ((n1 =? n2) && (d1 =? d2) && (e1 =? e2)); [inversion H; inversion K; subst; reflexivity|].
  destruct (e1 <? e2); exact (gcd_ordered_shift _ _ _ _ _ _ _ _ _ H K).
Qed.
Lemma common_shift : forall k a b c d, ratio_good a -> ratio_good b -> common_ratio a b = Ok c ->
  common_ratio (shift k a) (shift k b) = Ok d -> d = shift k c.
Proof.
  intros k a b c d Ga Gb H K. destruct Ga as (La & Sa & Pa), Gb as (Lb & Sb & Pb).
  pose proof (common_ratio_sound a b c La Lb Sa Sb Pa Pb H) as (Lc & _ & Pc & _).
  unfold common_ratio in *. cbn [shift rnum rden rexp] in K. step H as x X. step K as y Y.
  pose proof (gcd_frac_shift k _ _ _ _ _ _ _ _ X Y) as ->. destruct x as [[n m] e]. cbn [fst snd] in K.
  apply (mk_ratio_shift k n m e); auto. intros ->. unfold mk_ratio in H. step H as u U. cbn in H. inversion H. subst c.
  apply Qlt_not_eq in Pc. apply Pc. reflexivity.
Qed.
Lemma common_good : forall a b c, ratio_good a -> ratio_good b -> common_ratio a b = Ok c -> ratio_good c.
Proof.
  intros a b c (La & Sa & Pa) (Lb & Sb & Pb) H. pose proof (common_ratio_sound a b c La Lb Sa Sb Pa Pb H) as (Lc & Sc & Pc & _).
  now apply good_intro.
Qed.
Lemma common_agree : forall k l a b c d, ratio_good (shift k a) -> ratio_good (shift k b) ->
  common_ratio (shift k a) (shift k b) = Ok c -> common_ratio (shift l a) (shift l b) = Ok d -> shift (- l) d = shift (- k) c.
Proof.
  intros k l a b c d Ga Gb H K. rewrite (shift_between k l a), (shift_between k l b) in K.
  rewrite (common_shift _ _ _ _ _ Ga Gb H K), shift_shift. f_equal. lia.
Qed.

(** ** Powers of ten *)

Definition ten (r : ratio) : Prop := exists k, r = Ratio 1 1 k.

Lemma ten_shift : forall k, Ratio 1 1 k = shift k rone.
Proof. reflexivity. Qed.
Lemma ten_rmul : forall k r x, ratio_good r -> rmul (Ratio 1 1 k) r = Ok x -> x = shift k r.
Proof.
  intros k r x G H. pose proof (rmul_one_l r (proj1 G) (proj1 (proj2 G))) as O.
  rewrite (ten_shift k), <- (shift_0 r) in H. rewrite (rmul_shift k 0 rone r r x ltac:(reflexivity) (good_num r G) O H). f_equal. lia.
Qed.
Lemma ten_rinv : forall k x, rinv (Ratio 1 1 k) = Ok x -> x = Ratio 1 1 (- k).
Proof.
  intros k x H. rewrite (ten_shift k) in H. assert (I : rinv rone = Ok rone) by reflexivity.
  rewrite (rinv_shift k rone rone x ltac:(discriminate) I H). reflexivity.
Qed.
Lemma rdiv_ten : forall k r x, ratio_good r -> rdiv r (Ratio 1 1 k) = Ok x -> x = shift (- k) r.
Proof.
  intros k r x G H. unfold rdiv in H. step H as i I. apply ten_rinv in I. subst i.
  pose proof (rmul_one_r r (proj1 G) (proj1 (proj2 G))) as O.
  rewrite (ten_shift (- k)), <- (shift_0 r) in H. rewrite (rmul_shift 0 (- k) r rone r x (good_num r G) ltac:(reflexivity) O H). f_equal.
Qed.
Lemma ten_mul : forall a b c, ten a -> ten b -> rmul a b = Ok c -> ten c.
Proof.
  intros a b c [k ->] [l ->] H. rewrite (ten_shift k), (ten_shift l) in H. exists (k + l).
  assert (O : rmul rone rone = Ok rone) by reflexivity.
  rewrite (rmul_shift k l rone rone rone c ltac:(reflexivity) ltac:(reflexivity) O H). reflexivity.
Qed.
Lemma ten_pow : forall n r c, ten r -> rpow_pos n r = Ok c -> ten c.
Proof.
  unfold rpow_pos. induction n as [n IH|n IH|]; intros r c T H; cbn [pow_impl_pos] in H.
  - step H as v V. step H as p P. exact (ten_mul r p c T (IH v p (ten_mul r r v T T V) P) H).
  - step H as v V. exact (IH v c (ten_mul r r v T T V) H).
  - inversion H. now subst.
Qed.
Lemma ten_mk : forall k r, mk_ratio 1 1 k = Ok r -> r = Ratio 1 1 k.
Proof. intros k r H. unfold mk_ratio in H. cbn in H. now inversion H. Qed.
Lemma ten_rpow : forall est N r c, ten r -> rpow est N 1 r = Ok c -> ten c.
Proof.
  intros est N r c T H. unfold rpow in H. step H as u U. destruct (N =? 0); [exists 0; now apply ten_mk in H|].
  destruct (N =? 1); [inversion H; now subst|]. step H as g G. apply cgcd_ok in G. destruct G as [-> _]. rewrite Z.gcd_1_r in H.
  step H as n0 N0. step H as n Nn. step H as d0 D0. step H as d D.
  assert (d = 1) as -> by (vm_compute in D0; inversion D0; subst d0; vm_compute in D; now inversion D).
  destruct n as [|n|n]; try discriminate. step H as x X. cbn in H. step H as s S. pose proof (ten_pow n r x T X) as Tx.
  destruct (s <? 0); [|inversion H; now subst]. destruct Tx as [k ->]. exists (- k). now apply ten_rinv.
Qed.
Lemma ten_exp : forall est e r, ten (base_ratio (e_dim e)) -> e_den e = 1 -> exp_ratio est e = Ok r -> ten r.
Proof.
  intros est e r T D H. unfold exp_ratio in H. step H as u U. rewrite D in H. fold (base_ratio (e_dim e)) in H. step H as s S. step H as p P.
  step H as N HN. step H as x X. cbn in H. inversion H; subst r. apply (ten_rpow est N p x); auto.
  destruct (s <? 0); [|inversion P; now subst]. destruct T as [k T]. rewrite T in P. cbn [rexp rden rnum] in P. step P as y Y.
  exists y. now apply ten_mk.
Qed.
Lemma ten_base : forall U est es r, decimal U -> over U es -> Forall (fun e => e_den e = 1) es -> base_units_ratio est es = Ok r -> ten r.
Proof.
  intros U est es r D. revert r. induction es as [|e es IH]; intros r O W H; cbn [base_units_ratio] in H.
  - exists 0. now apply ten_mk.
  - step H as x X. step H as y Y. inversion W; subst. apply (ten_mul x y r); auto.
    + apply (ten_exp est e x); auto. apply D. apply O. now left.
    + apply (IH y); auto. intros f F. apply O. now right.
Qed.

(** ** Programs *)

Definition program_ok (U : bdim -> Prop) (w : world) : Prop :=
  consistent w /\
  (forall es d, In (es, d) (guides (w_dims w)) -> is_base d = false /\ (over U es -> u_ratio (dimension_unit d) = Ratio 1 1 0)).

Lemma reachable_derived : forall w, reachable w -> forall es d, In (es, d) (guides (w_dims w)) -> is_base d = false.
Proof.
  assert (D : forall K T (keq : forall a b : K, {a = b} + {a <> b}) mode (k : K) (t : T) g g', declare keq mode k t g = Ok g' ->
    forall k' t', In (k', t') (guides g') -> (k' = k /\ t' = t) \/ In (k', t') (guides g)).
  { intros K T keq mode k t g g' H k' t' I. unfold declare in H. destruct mode; [inversion H; subst; now right| |].
    - destruct (has_guide keq g k); inversion H; subst. destruct I as [E|I]; [left|now right]. inversion E; subst; auto.
    - destruct (has_guide keq g k); inversion H; subst; [now right|]. destruct I as [E|I]; [left|now right]. inversion E; subst; auto. }
  induction 1 as [|mode name cu rcp w w' R IH H|mode u w w' R IH H]; intros es d I.
  - contradiction.
  - unfold declare_dimension in H. step H as x X. step H as g G. inversion H; subst w'. cbn [w_dims] in I.
    destruct (D _ _ _ _ _ _ _ _ G _ _ I) as [[_ E]|J]; [|exact (IH _ _ J)]. subst d. unfold mk_derived_dimension in X. unbind. reflexivity.
  - unfold declare_unit in H. step H as g G. inversion H; subst w'. cbn [w_dims] in I. exact (IH _ _ I).
Qed.
Lemma plain_ok : forall U w, plain_program U w -> program_ok U w.
Proof.
  intros U w [R P]. split; [now apply reachable_consistent|]. intros es d I. split; [exact (reachable_derived w R es d I)|exact (P es d I)].
Qed.

(** ** Casts and common units *)

Section System.
Variable U : bdim -> Prop.
Hypothesis HU : symbols_identify U.
Hypothesis HD : decimal U.

Lemma equivalent_exponents : forall d1 d2, ndim U d1 -> ndim U d2 -> dim_equivalent d1 d2 = true -> same_dim d1 d2.
Proof.
  intros d1 d2 [_ O1] [_ O2] H. apply dim_equivalent_shape in H as [B H]. split; [|exact B].
  revert O1 O2 H. generalize (exponents d1), (exponents d2). induction l as [|e l IH]; intros [|f m] O1 O2 H; try discriminate; [reflexivity|].
  cbn [exps_equivalent] in H. apply andb_true_iff in H as [A H]. unfold exp_equivalent in A. apply andb_true_iff in A as [A C].
  apply andb_true_iff in A as [A D]. apply Z.eqb_eq in A, D. apply base_equivalent_iff in C as [C _].
  assert (E : e_dim e = e_dim f) by (apply HU; [apply O1; now left|apply O2; now left|exact C]).
  f_equal; [destruct e, f; cbn in *; congruence|]. apply IH; auto; intros g G; [apply O1|apply O2]; now right.
Qed.
Lemma same_dim_base : forall b d, same_dim (DBase b) d -> d = DBase b.
Proof. intros b [c|? ? ? ?|? ?] [E B]; try discriminate. cbn in E. inversion E. reflexivity. Qed.

(** The power of ten between the coherent unit and the references of the base units. *)
Definition height (est : estimate) (d : dimension) (k : Z) : Prop :=
  if is_base d then k = 0 else base_units_ratio est (exponents d) = Ok (Ratio 1 1 k).
Lemma height_unique : forall est d d' k k', same_dim d d' -> height est d k -> height est d' k' -> k = k'.
Proof.
  intros est d d' k k' [E B] H K. unfold height in *. rewrite <- B in K. destruct (is_base d); [congruence|]. rewrite <- E, H in K. now inversion K.
Qed.
Lemma base_ten : forall est d b, plain_dim U d -> base_units_ratio est (exponents d) = Ok b -> exists k, b = Ratio 1 1 k /\ ratio_good b.
Proof.
  intros est d b (N & W & _) H. destruct (ten_base U est _ b HD (proj2 N) W H) as [k E]. exists k. split; [exact E|].
  destruct (base_units_ratio_spec est (exponents d) b) as (_ & P & _ & L & S); [|exact H|now apply good_intro].
  unfold whole in W. rewrite Forall_forall in *. intros e I. split; [apply HD; now apply (proj2 N)|].
  intros X. specialize (W e I). congruence.
Qed.
Lemma quantity_ratio_scaled : forall est d u a, plain_dim U d -> unit_good u -> quantity_ratio est d u = Ok a ->
  exists k, height est d k /\ a = shift k (u_ratio u) /\ ratio_good a.
Proof.
  intros est d u a P G H. unfold quantity_ratio in H. destruct (is_base d) eqn:B.
  - destruct d; try discriminate. exists 0. inversion H. unfold height. rewrite B, shift_0. auto.
  - assert (K : (b <- base_units_ratio est (exponents d); x <- rmul b (u_ratio u); rdiv x (u_ratio (dimension_unit d))) = Ok a)
      by (destruct d; [discriminate|exact H|exact H]).
    clear H. step K as b Bb. step K as x X. destruct (base_ten est d b P Bb) as (k & -> & Gb). exists k. unfold height. rewrite B. split; [exact Bb|].
    destruct P as (N & W & P). rewrite (P B) in K. pose proof (ten_rmul _ _ _ G X) as ->.
    destruct (rmul_good _ _ _ Gb G X) as [_ Gx]. apply (rdiv_ten 0) in K; [|exact Gx]. change (- 0) with 0 in K. rewrite shift_0 in K. subst a. auto.
Qed.
Lemma member_scaled : forall est d u b r, plain_dim U d -> unit_good u -> member_base_units_ratio est d = Ok b -> rmul b (u_ratio u) = Ok r ->
  exists k, height est d k /\ b = Ratio 1 1 k /\ r = shift k (u_ratio u) /\ ratio_good r.
Proof.
  intros est d u b r P G M R. unfold member_base_units_ratio in M. destruct (is_base d) eqn:B; [destruct d; discriminate|].
  assert (Bb : base_units_ratio est (exponents d) = Ok b) by (destruct d; [discriminate|exact M|exact M]). clear M.
  destruct (base_ten est d b P Bb) as (k & -> & Gb). exists k. unfold height. rewrite B.
  destruct (rmul_good _ _ _ Gb G R) as [_ Gx]. pose proof (ten_rmul _ _ _ G R) as ->. auto.
Qed.

Lemma cast_ratio_scaled : forall est d1 u1 d2 u2 c, plain_dim U d1 -> plain_dim U d2 -> unit_good u1 -> unit_good u2 -> dim_equivalent d2 d1 = true ->
  cast_ratio est d1 u1 d2 u2 = Ok c ->
  exists k, ratio_good (shift k (u_ratio u1)) /\ ratio_good (shift k (u_ratio u2)) /\ rdiv (shift k (u_ratio u1)) (shift k (u_ratio u2)) = Ok c.
Proof.
  intros est d1 u1 d2 u2 c P1 P2 G1 G2 E H. unfold cast_ratio in H. destruct (same_unit_reference u1 u2).
  - exists 0. rewrite !shift_0. auto.
  - step H as a A. step H as b B. destruct (quantity_ratio_scaled est d1 u1 a P1 G1 A) as (k & K & -> & Ga).
    destruct (quantity_ratio_scaled est d2 u2 b P2 G2 B) as (l & L & -> & Gb).
    assert (l = k) as -> by (apply (height_unique est d2 d1); auto; apply equivalent_exponents; auto; [apply P2|apply P1]).
    exists k. auto.
Qed.

Lemma common_unit_scaled : forall est w d1 u1 d2 u2 d u, consistent w -> plain_dim U d1 -> plain_dim U d2 -> unit_good u1 -> unit_good u2 ->
  dim_equivalent d2 d1 = true -> common_dim_unit est w d1 u1 d2 u2 = Ok (d, u) ->
  (d = d1 \/ d = d2) /\
  exists k c, ratio_good (shift k (u_ratio u1)) /\ ratio_good (shift k (u_ratio u2)) /\
    common_ratio (shift k (u_ratio u1)) (shift k (u_ratio u2)) = Ok c /\ u_ratio u = shift (- k) c /\ unit_good u.
Proof.
  intros est w d1 u1 d2 u2 d u C P1 P2 G1 G2 E H. unfold common_dim_unit in H.
  assert (X : forall v c, u_ratio u1 = v -> common_ratio (u_ratio u1) (u_ratio u2) = Ok c -> u_ratio u = c ->
    exists k c, ratio_good (shift k (u_ratio u1)) /\ ratio_good (shift k (u_ratio u2)) /\
    common_ratio (shift k (u_ratio u1)) (shift k (u_ratio u2)) = Ok c /\ u_ratio u = shift (- k) c /\ unit_good u).
  { intros v c _ K R. exists 0, c. rewrite !shift_0. split; [exact G1|]. split; [exact G2|]. split; [exact K|].
    split; [exact R|]. unfold unit_good. rewrite R. exact (common_good _ _ _ G1 G2 K). }
  destruct (dimension_eq_dec d1 d2) as [->|Nd].
  - destruct (cunit_eq_dec u1 u2) as [->|Nu].
    + injection H as <- <-. split; [now left|]. apply (X _ (u_ratio u2) eq_refl); [|reflexivity]. apply common_ratio_idem; apply G2.
    + step H as c K. step H as v V. injection H as <- <-. split; [now left|]. apply (X _ c eq_refl K). now apply downcast_unit_ratio in V.
  - destruct (same_unit_reference (dimension_unit d1) (dimension_unit d2)).
    + step H as c K. step H as v V. injection H as <- <-. split; [now left|]. apply (X _ c eq_refl K). now apply downcast_unit_ratio in V.
    + clear X. step H as b1 B1. step H as r1 R1. step H as b2 B2. step H as r2 R2. step H as c K. step H as b B. step H as x Xx. step H as v V.
      injection H as <- <-. split; [destruct (is_unknown d1); auto|].
      destruct (member_scaled est d1 u1 b1 r1 P1 G1 B1 R1) as (k & K1 & -> & -> & Ga).
      destruct (member_scaled est d2 u2 b2 r2 P2 G2 B2 R2) as (l & K2 & -> & -> & Gb).
      assert (l = k) as -> by (apply (height_unique est d2 d1); auto; apply equivalent_exponents; auto; [apply P2|apply P1]).
      assert (b = Ratio 1 1 k) as -> by (destruct (is_unknown d1); congruence).
      pose proof (common_good _ _ _ Ga Gb K) as Gc. exists k, c. split; [exact Ga|]. split; [exact Gb|]. split; [exact K|].
      pose proof (rdiv_ten _ _ _ Gc Xx) as E1. apply downcast_unit_ratio in V; [|exact C]. destruct V as [V _]. rewrite V. split; [exact E1|].
      unfold unit_good. rewrite V. apply (rdiv_good c (Ratio 1 1 k) x); auto.
      assert (Y : forall z, member_base_units_ratio est d1 = Ok z -> ratio_good z).
      { intros z Z. unfold member_base_units_ratio in Z. destruct d1 as [q|? ? ? ?|? ?]; [discriminate| |]; now destruct (base_ten est _ z P1 Z) as (_ & _ & ?). }
      exact (Y _ B1).
Qed.

(** ** The number survives a change of names *)

Lemma cast_one : forall r n, num_ok r n = true -> cast_number rone r r n = Ok n.
Proof.
  intros [t|f] [a|x] N; try discriminate; cbn [num_ok] in N.
  - assert (V : exists t', cast_rep (RInt t) (RInt t) = RInt t' /\ in_range t' a = true /\ in_range t' 1 = true).
    { destruct t as [[] []]; eexists; (split; [reflexivity|]); (split; [|reflexivity]); rewrite in_range_spec in *; cbn in *; lia. }
    destruct V as (t' & Ct & I & O). unfold cast_number. rewrite Ct. cbn [n_convert bind rone rnum rden rexp].
    rewrite (wrap_id t' a I), (wrap_id t' 1 O). change (0 <? 0) with false. cbn iota. cbn [op_in int_op].
    unfold cmul. rewrite Z.mul_1_r, (arith_in_range t' a I). cbn [bind].
    change (cneg I64 0) with (Ok 0). cbn [bind]. change (ipow10 0) with (Ok 1). cbn [bind n_convert]. rewrite (wrap_id t' 1 O). cbn [op_in int_op].
    unfold cmul. rewrite Z.mul_1_r, (arith_in_range t' 1 O). cbn [bind op_in int_op]. unfold cdiv. change (1 =? 0) with false. cbn iota.
    rewrite Z.quot_1_r, (arith_in_range t' a I). cbn [bind n_convert]. now rewrite wrap_id.
  - assert (Cr : cast_rep (RFlt f) (RFlt f) = RFlt f) by now destruct f.
    rewrite (cast_number_eq _ _ _ f (NFlt x) x Cr); [|cbn [n_convert]; now rewrite conv_same].
    unfold rone. rewrite factor_one, mul_one by auto. cbn [n_convert]. now rewrite conv_same.
Qed.

Lemma cast_same : forall est from to from' to' n z z', plain_type U from -> plain_type U to -> plain_type U from' -> plain_type U to' ->
  same_but_names from from' -> same_but_names to to' -> quantity_cast est from to n = Ok z -> quantity_cast est from' to' n = Ok z' -> z' = z.
Proof.
  intros est from to from' to' n z z' (F & Gf & _) (T & Gt & _) (F' & Gf' & _) (T' & Gt' & _) (_ & Rf & Pf) (_ & Rt & Pt) H K.
  unfold quantity_cast in *. step H as u E. step K as u' E'. apply constrained_ok in E, E'. step H as c C. step K as c' C'.
  destruct (cast_ratio_scaled _ _ _ _ _ _ F T Gf Gt E C) as (k & Ga & Gb & D).
  destruct (cast_ratio_scaled _ _ _ _ _ _ F' T' Gf' Gt' E' C') as (l & _ & _ & D'). rewrite <- Rf, <- Rt in D'.
  pose proof (rdiv_agree _ _ _ _ _ _ Ga Gb D D') as ->. rewrite <- Pf, <- Pt in K. congruence.
Qed.
Lemma cast_named : forall est from to n z, plain_type U from -> plain_type U to -> q_rep from = q_rep to -> u_ratio (q_unit from) = u_ratio (q_unit to) ->
  num_ok (q_rep from) n = true -> quantity_cast est from to n = Ok z -> z = n.
Proof.
  intros est from to n z (F & Gf & _) (T & Gt & _) R E N H. unfold quantity_cast in H. step H as u De. apply constrained_ok in De. step H as c C.
  destruct (cast_ratio_scaled _ _ _ _ _ _ F T Gf Gt De C) as (k & Ga & Gb & D). rewrite <- E in D. pose proof (rdiv_self _ _ Ga D) as ->.
  rewrite <- R, cast_one in H by exact N. now inversion H.
Qed.
Lemma convert_same : forall est from to from' to' n z z', plain_type U from -> plain_type U to -> plain_type U from' -> plain_type U to' ->
  same_but_names from from' -> same_but_names to to' -> num_ok (q_rep from) n = true ->
  q_convert est from to n = Ok z -> q_convert est from' to' n = Ok z' -> z' = z.
Proof.
  intros est from to from' to' n z z' F T F' T' Sf St N H K. unfold q_convert in *. destruct (qtype_eq_dec from to) as [<-|Ne], (qtype_eq_dec from' to') as [<-|Ne'].
  - congruence.
  - inversion H; subst z. step K as b B. step K as u V. destruct Sf as (_ & R & P), St as (_ & R' & P').
    apply (cast_named est from' to'); auto; congruence.
  - inversion K; subst z'. step H as b B. step H as u V. destruct Sf as (_ & R & P), St as (_ & R' & P').
    symmetry. apply (cast_named est from to); auto; congruence.
  - step H as b B. step H as u V. step K as b' B'. step K as u' V'. exact (cast_same _ _ _ _ _ _ _ _ F T F' T' Sf St H K).
Qed.

Lemma common_plain : forall est w t1 t2 r t, consistent w -> plain_type U t1 -> plain_type U t2 -> common_quantity est w t1 t2 r = Ok t ->
  plain_type U t /\ same_dim (q_dim t) (q_dim t1) /\ q_rep t = r /\
  exists k c, ratio_good (shift k (u_ratio (q_unit t1))) /\ ratio_good (shift k (u_ratio (q_unit t2))) /\
    common_ratio (shift k (u_ratio (q_unit t1))) (shift k (u_ratio (q_unit t2))) = Ok c /\ u_ratio (q_unit t) = shift (- k) c.
Proof.
  intros est w t1 t2 r t C (P1 & G1 & _) (P2 & G2 & _) H. unfold common_quantity in H. step H as u De. apply constrained_ok in De.
  step H as du D. unfold mk_qtype in H. step H as v O. apply constrained_ok in O. inversion H; subst t; clear H. destruct du as [d x]. cbn [fst snd q_dim q_unit q_rep] in *.
  destruct (common_unit_scaled _ _ _ _ _ _ _ _ C P1 P2 G1 G2 De D) as (Ed & k & c & Ga & Gb & K & R & Gx).
  assert (S : same_dim (q_dim t2) (q_dim t1)) by (apply equivalent_exponents; auto; [apply P2|apply P1]).
  split; [|split; [|split; [reflexivity|now exists k, c]]].
  - unfold plain_type. cbn [q_dim q_unit]. split; [destruct Ed as [-> | ->]; auto|]. split; auto.
  - destruct Ed as [-> | ->]; [now split|exact S].
Qed.
Lemma common_same : forall est w w' t1 t2 t1' t2' r t t', consistent w -> consistent w' ->
  plain_type U t1 -> plain_type U t2 -> plain_type U t1' -> plain_type U t2' -> same_but_names t1 t1' -> same_but_names t2 t2' ->
  common_quantity est w t1 t2 r = Ok t -> common_quantity est w' t1' t2' r = Ok t' -> plain_type U t /\ plain_type U t' /\ same_but_names t t'.
Proof.
  intros est w w' t1 t2 t1' t2' r t t' C C' P1 P2 P1' P2' (S1 & R1 & _) (S2 & R2 & _) H K.
  destruct (common_plain _ _ _ _ _ _ C P1 P2 H) as (P & S & Q & k & c & Ga & Gb & D & E).
  destruct (common_plain _ _ _ _ _ _ C' P1' P2' K) as (P' & S' & Q' & l & c' & _ & _ & D' & E').
  split; [exact P|]. split; [exact P'|]. split; [|split; [|congruence]].
  - unfold same_dim in *. destruct S as [A B], S' as [A' B'], S1 as [A1 B1]. split; congruence.
  - rewrite <- R1, <- R2 in D'. rewrite E, E'. symmetry. exact (common_agree _ _ _ _ _ _ Ga Gb D D').
Qed.

(** ** Dimensions *)

Lemma canonical_plain : forall w d, program_ok U w -> ndim U d -> whole d -> to_dimension w (exponents d) = Ok d ->
  plain_dim U d /\ is_base d = match exponents d with [e] => is_plus_one e | _ => false end.
Proof.
  intros w d [_ P] N W T.
  assert (D : forall es x, over U es -> downcast_dimension w es = Ok x -> is_base x = false /\ u_ratio (dimension_unit x) = Ratio 1 1 0).
  { intros es x O H. unfold downcast_dimension in H. destruct (downcast bexps_eq_dec (w_dims w) es) as [y|] eqn:E.
    - inversion H; subst y. apply downcast_in, P in E as [B K]. auto.
    - unfold mk_unknown_dimension in H. step H as z Z. inversion H. split; reflexivity. }
  assert (K : (is_base d = true /\ exists e, exponents d = [e] /\ is_plus_one e = true) \/
              (is_base d = false /\ u_ratio (dimension_unit d) = Ratio 1 1 0 /\ match exponents d with [e] => is_plus_one e | _ => false end = false)).
  { unfold to_dimension in T. pose proof (proj2 N) as O. destruct (exponents d) as [|e [|f l]].
    - destruct (D _ _ O T) as [A B]. right. auto.
    - destruct (is_plus_one e) eqn:E.
      + left. inversion T. split; [reflexivity|]. exists e. auto.
      + destruct (D _ _ O T) as [A B]. right. auto.
    - destruct (D _ _ O T) as [A B]. right. auto. }
  destruct K as [(B & e & E & F)|(B & R & F)].
  - split; [|now rewrite B, E, F]. split; [exact N|]. split; [exact W|]. rewrite B. discriminate.
  - split; [|now rewrite B, F]. split; [exact N|]. split; [exact W|]. auto.
Qed.
Lemma canonical_same : forall w w' d d', program_ok U w -> program_ok U w' -> ndim U d -> ndim U d' -> whole d -> whole d' ->
  to_dimension w (exponents d) = Ok d -> to_dimension w' (exponents d') = Ok d' -> (forall b, U b -> (dim_expo d b == dim_expo d' b)%Q) ->
  plain_dim U d /\ plain_dim U d' /\ same_dim d d'.
Proof.
  intros w w' d d' P P' N N' W W' T T' E. destruct (canonical_plain w d P N W T) as [A B]. destruct (canonical_plain w' d' P' N' W' T') as [A' B'].
  assert (X : exponents d = exponents d') by (apply (normal_unique U HU); [apply N|apply N'|apply N|apply N'|exact E]).
  split; [exact A|]. split; [exact A'|]. split; [exact X|]. now rewrite B, B', X.
Qed.
Lemma same_expo : forall d d' b, same_dim d d' -> dim_expo d b = dim_expo d' b.
Proof. intros d d' b [E _]. unfold dim_expo. now rewrite E. Qed.

Lemma multiply_same : forall w w' d1 d2 d1' d2' d d', program_ok U w -> program_ok U w' ->
  plain_dim U d1 -> plain_dim U d2 -> plain_dim U d1' -> plain_dim U d2' -> same_dim d1 d1' -> same_dim d2 d2' ->
  dimension_multiply w d1 d2 = Ok d -> dimension_multiply w' d1' d2' = Ok d' -> plain_dim U d /\ plain_dim U d' /\ same_dim d d'.
Proof.
  intros w w' d1 d2 d1' d2' d d' P P' (N1 & W1 & _) (N2 & W2 & _) (N1' & W1' & _) (N2' & W2' & _) S1 S2 H K.
  destruct (dimension_multiply_ok U HU w d1 d2 d (proj1 P) N1 N2 H) as (N & T & V).
  destruct (dimension_multiply_ok U HU w' d1' d2' d' (proj1 P') N1' N2' K) as (N' & T' & V').
  assert (X : forall x a b, ndim U a -> ndim U b -> whole a -> whole b -> ndim U x -> (forall e, (dim_expo x e == dim_expo a e + dim_expo b e)%Q) -> whole x).
  { intros x a b Na Nb Wa Wb Nx E. apply (whole_int U); auto. intros e Ue.
    destruct (proj1 (whole_int U a Na) Wa e Ue) as [y Y]. destruct (proj1 (whole_int U b Nb) Wb e Ue) as [z Z].
    exists (y + z). now rewrite E, Y, Z, inject_Z_plus. }
  apply (canonical_same w w' d d'); auto; [apply (X d d1 d2); auto|apply (X d' d1' d2'); auto|].
  intros b _. rewrite V, V', (same_expo d1 d1'), (same_expo d2 d2') by auto. reflexivity.
Qed.
Lemma invert_same : forall w w' d1 d1' d d', program_ok U w -> program_ok U w' -> plain_dim U d1 -> plain_dim U d1' -> same_dim d1 d1' ->
  dim_invert w d1 = Ok d -> dim_invert w' d1' = Ok d' -> plain_dim U d /\ plain_dim U d' /\ same_dim d d'.
Proof.
  intros w w' d1 d1' d d' P P' (N1 & W1 & _) (N1' & W1' & _) S1 H K.
  destruct (dim_invert_ok U w d1 (proj1 P) N1) as (x & Hx & N & T & V). rewrite H in Hx. inversion Hx; subst x. clear Hx.
  destruct (dim_invert_ok U w' d1' (proj1 P') N1') as (x & Hx & N' & T' & V'). rewrite K in Hx. inversion Hx; subst x. clear Hx.
  assert (X : forall x a, ndim U a -> whole a -> ndim U x -> (forall e, (dim_expo x e == - dim_expo a e)%Q) -> whole x).
  { intros x a Na Wa Nx E. apply (whole_int U); auto. intros e Ue. destruct (proj1 (whole_int U a Na) Wa e Ue) as [y Y].
    exists (- y). now rewrite E, Y, inject_Z_opp. }
  apply (canonical_same w w' d d'); auto; [apply (X d d1); auto|apply (X d' d1'); auto|].
  intros b _. rewrite V, V', (same_expo d1 d1') by auto. reflexivity.
Qed.
Lemma divide_same : forall w w' d1 d2 d1' d2' d d', program_ok U w -> program_ok U w' ->
  plain_dim U d1 -> plain_dim U d2 -> plain_dim U d1' -> plain_dim U d2' -> same_dim d1 d1' -> same_dim d2 d2' ->
  dimension_divide w d1 d2 = Ok d -> dimension_divide w' d1' d2' = Ok d' -> plain_dim U d /\ plain_dim U d' /\ same_dim d d'.
Proof.
  intros w w' d1 d2 d1' d2' d d' P P' P1 P2 P1' P2' S1 S2 H K. unfold dimension_divide in *. step H as i I. step K as j J.
  destruct (invert_same w w' d2 d2' i j P P' P2 P2' S2 I J) as (Pi & Pj & S). exact (multiply_same w w' d1 i d1' j d d' P P' P1 Pi P1' Pj S1 S H K).
Qed.

Lemma coherent_same : forall d d', plain_dim U d -> plain_dim U d' -> same_dim d d' -> u_ratio (dimension_unit d) = u_ratio (dimension_unit d').
Proof.
  intros d d' (_ & _ & P) (_ & _ & P') S. destruct (is_base d) eqn:B.
  - destruct d as [b|? ? ? ?|? ?]; try discriminate. apply same_dim_base in S. now subst d'.
  - rewrite (P eq_refl). symmetry. apply P'. destruct S as [_ S]. congruence.
Qed.
Lemma coherent_good : forall d, plain_dim U d -> ratio_good (u_ratio (dimension_unit d)).
Proof.
  intros d (N & _ & P). destruct (is_base d) eqn:B; [|rewrite (P eq_refl); apply rone_good].
  destruct d as [b|? ? ? ?|? ?]; try discriminate. apply HD. apply (proj2 N (BExp b 1 1)). now left.
Qed.

(** ** Operators *)

Section Programs.
Variables w w' : world.
Hypothesis HP : program_ok U w.
Hypothesis HP' : program_ok U w'.

Lemma relative_same : forall t t' a a', plain_type U t -> plain_type U t' -> same_but_names t t' ->
  relative_ratio (q_dim t) (q_unit t) = Ok a -> relative_ratio (q_dim t') (q_unit t') = Ok a' -> a = a' /\ ratio_good a.
Proof.
  intros t t' a a' (P & G & _) (P' & G' & _) (S & R & _) H K. unfold relative_ratio in *. rewrite <- R, <- (coherent_same _ _ P P' S), H in K. split; [congruence|].
  apply (rdiv_good _ _ _ G (coherent_good _ P) H).
Qed.
Lemma reference_same : forall x d d' y y' u u', ratio_good x -> plain_dim U d -> plain_dim U d' -> same_dim d d' ->
  rmul x (u_ratio (dimension_unit d)) = Ok y -> rmul x (u_ratio (dimension_unit d')) = Ok y' ->
  downcast_unit w d y = Ok u -> downcast_unit w' d' y' = Ok u' ->
  unit_good u /\ unit_good u' /\ unit_of u d = true /\ unit_of u' d' = true /\ u_ratio u = u_ratio u'.
Proof.
  intros x d d' y y' u u' G P P' S Y Y' H K. rewrite <- (coherent_same _ _ P P' S), Y in Y'. inversion Y'; subst y'.
  destruct (rmul_good _ _ _ G (coherent_good _ P) Y) as [_ Gy].
  apply downcast_unit_ratio in H; [|apply HP]. apply downcast_unit_ratio in K; [|apply HP']. destruct H as (H & O & _), K as (K & O' & _).
  unfold unit_good. rewrite H, K. auto.
Qed.

Definition agree (q q' : quantity) : Prop :=
  plain_type U (q_type q) /\ plain_type U (q_type q') /\ same_but_names (q_type q) (q_type q') /\ q_num q = q_num q'.
Lemma agree_with : forall q q' r x, agree q q' -> agree (Quantity (with_rep (q_type q) r) x) (Quantity (with_rep (q_type q') r) x).
Proof.
  intros q q' r x (P & P' & (S & R & _) & _). unfold agree, plain_type, same_but_names, with_rep in *. cbn [q_type q_dim q_unit q_rep q_num].
  split; [exact P|]. split; [exact P'|]. auto.
Qed.
Lemma agree_rep : forall q q', agree q q' -> q_rep (q_type q) = q_rep (q_type q').
Proof. intros q q' (_ & _ & (_ & _ & R) & _). exact R. Qed.
Lemma agree_num : forall q q', agree q q' -> q_num q = q_num q'.
Proof. intros q q' (_ & _ & _ & N). exact N. Qed.

Lemma times_same : forall a a' b b' s s', agree a a' -> agree b b' -> q_times w a b = Ok s -> q_times w' a' b' = Ok s' -> agree s s'.
Proof.
  intros a a' b b' s s' (Pa & Pa' & Sa & Na) (Pb & Pb' & Sb & Nb) H K. unfold q_times in *. step H as r R. step K as r' R'. step H as x X. step K as x' X'.
  inversion H; inversion K; subst s s'; clear H K. unfold reference_multiply in *. cbn [ref_dim ref_unit] in *.
  step R as d D. step R' as d' D'. step R as p Pp. step R' as p' Pp'. step R as q Q. step R' as q' Q'. step R as z Z. step R' as z' Z'.
  step R as y Y. step R' as y' Y'. step R as u V. step R' as u' V'. unfold mk_reference in *. step R as v Ov. step R' as v' Ov'. inversion R; inversion R'; subst r r'; clear R R'.
  destruct (relative_same _ _ _ _ Pa Pa' Sa Pp Pp') as [<- Gp]. destruct (relative_same _ _ _ _ Pb Pb' Sb Q Q') as [<- Gq].
  rewrite Z in Z'. inversion Z'; subst z'; clear Z'. destruct (rmul_good _ _ _ Gp Gq Z) as [_ Gz].
  destruct (multiply_same w w' _ _ _ _ _ _ HP HP' (proj1 Pa) (proj1 Pb) (proj1 Pa') (proj1 Pb') (proj1 Sa) (proj1 Sb) D D') as (Pd & Pd' & Sd).
  destruct (reference_same _ _ _ _ _ _ _ Gz Pd Pd' Sd Y Y' V V') as (Gu & Gu' & Ou & Ou' & Ru).
  destruct Sa as (_ & _ & Ra), Sb as (_ & _ & Rb). rewrite <- Ra, <- Rb, <- Na, <- Nb in X'.
  unfold agree, plain_type, same_but_names. cbn [q_type q_dim q_unit q_rep q_num ref_dim ref_unit]. rewrite <- Ra, <- Rb.
  split; [auto|]. split; [auto|]. split; [auto|]. congruence.
Qed.
Lemma over_same : forall a a' b b' s s', agree a a' -> agree b b' -> q_over w a b = Ok s -> q_over w' a' b' = Ok s' -> agree s s'.
Proof.
  intros a a' b b' s s' (Pa & Pa' & Sa & Na) (Pb & Pb' & Sb & Nb) H K. unfold q_over in *. step H as r R. step K as r' R'. step H as x X. step K as x' X'.
  inversion H; inversion K; subst s s'; clear H K. unfold reference_divide in *. cbn [ref_dim ref_unit] in *.
  step R as d D. step R' as d' D'. step R as p Pp. step R' as p' Pp'. step R as q Q. step R' as q' Q'. step R as z Z. step R' as z' Z'.
  step R as y Y. step R' as y' Y'. step R as u V. step R' as u' V'. unfold mk_reference in *. step R as v Ov. step R' as v' Ov'. inversion R; inversion R'; subst r r'; clear R R'.
  destruct (relative_same _ _ _ _ Pa Pa' Sa Pp Pp') as [<- Gp]. destruct (relative_same _ _ _ _ Pb Pb' Sb Q Q') as [<- Gq].
  rewrite Z in Z'. inversion Z'; subst z'; clear Z'. destruct (rdiv_good _ _ _ Gp Gq Z) as [_ Gz].
  destruct (divide_same w w' _ _ _ _ _ _ HP HP' (proj1 Pa) (proj1 Pb) (proj1 Pa') (proj1 Pb') (proj1 Sa) (proj1 Sb) D D') as (Pd & Pd' & Sd).
  destruct (reference_same _ _ _ _ _ _ _ Gz Pd Pd' Sd Y Y' V V') as (Gu & Gu' & Ou & Ou' & Ru).
  destruct Sa as (_ & _ & Ra), Sb as (_ & _ & Rb). rewrite <- Ra, <- Rb, <- Na, <- Nb in X'.
  unfold agree, plain_type, same_but_names. cbn [q_type q_dim q_unit q_rep q_num ref_dim ref_unit]. rewrite <- Ra, <- Rb.
  split; [auto|]. split; [auto|]. split; [auto|]. congruence.
Qed.
Lemma value_over_same : forall r v a a' s s', agree a a' -> value_div_q w r v a = Ok s -> value_div_q w' r v a' = Ok s' -> agree s s'.
Proof.
  intros r v a a' s s' (Pa & Pa' & Sa & Na) H K. unfold value_div_q in *. step H as c C. step K as c' C'. step H as d D. step K as d' D'.
  step H as i I. step K as i' I'. step H as u V. step K as u' V'. step H as x X. step K as x' X'. inversion H; inversion K; subst s s'; clear H K.
  destruct (invert_same w w' _ _ _ _ HP HP' (proj1 Pa) (proj1 Pa') (proj1 Sa) D D') as (Pd & Pd' & Sd). destruct Sa as (_ & Ru & Rr).
  rewrite <- Ru, I in I'. inversion I'; subst i'; clear I'. destruct (rinv_good _ _ (proj1 (proj2 Pa)) I) as [_ Gi].
  apply downcast_unit_ratio in V; [|apply HP]. apply downcast_unit_ratio in V'; [|apply HP']. destruct V as (V & O & _), V' as (V' & O' & _).
  rewrite <- Rr, <- Na in X'. unfold agree, plain_type, same_but_names, unit_good. cbn [q_type q_dim q_unit q_rep q_num]. rewrite <- Rr, V, V'.
  split; [auto|]. split; [auto|]. split; [auto|]. congruence.
Qed.
Lemma scale_same : forall o sw r v a a' s s', agree a a' -> q_scale o sw a r v = Ok s -> q_scale o sw a' r v = Ok s' -> agree s s'.
Proof.
  intros o sw r v a a' s s' A H K. unfold q_scale in *. rewrite <- (agree_rep a a' A), <- (agree_num a a' A) in K. step H as c C. step K as c' C'.
  step H as x X. rewrite X in K. cbn [bind] in K. inversion H; inversion K; subst s s'. now apply agree_with.
Qed.
Lemma rem_same : forall a a' b b' s s', agree a a' -> agree b b' -> q_rem a b = Ok s -> q_rem a' b' = Ok s' -> agree s s'.
Proof.
  intros a a' b b' s s' A B H K. unfold q_rem in *. rewrite <- (agree_rep a a' A), <- (agree_num a a' A), <- (agree_rep b b' B), <- (agree_num b b' B) in K.
  step H as c C. step K as c' C'. step H as x X. rewrite X in K. cbn [bind] in K. inversion H; inversion K; subst s s'. now apply agree_with.
Qed.
Lemma to_same : forall est t a a' s s', plain_type U t -> q_sound a -> agree a a' -> q_to est t a = Ok s -> q_to est t a' = Ok s' -> agree s s'.
Proof.
  intros est t a a' s s' T N (Pa & Pa' & Sa & Na) H K. unfold q_to in *. step H as x X. step K as x' X'. inversion H; inversion K; subst s s'; clear H K.
  rewrite <- Na in X'. assert (S : same_but_names t t) by (split; [split|]; auto).
  pose proof (convert_same est _ _ _ _ _ _ _ Pa T Pa' T Sa S N X X') as ->. split; [exact T|]. split; [exact T|]. split; [exact S|reflexivity].
Qed.
Lemma addsub_same : forall o est a a' b b' s s', q_sound a -> q_sound b -> agree a a' -> agree b b' -> q_addsub o est w a b = Ok s -> q_addsub o est w' a' b' = Ok s' -> agree s s'.
Proof.
  intros o est a a' b b' s s' Ka Kb (Pa & Pa' & Sa & Na) (Pb & Pb' & Sb & Nb) H K. unfold q_addsub in *. cbv zeta in *.
  replace (q_rep (q_type a')) with (q_rep (q_type a)) in K by apply Sa. replace (q_rep (q_type b')) with (q_rep (q_type b)) in K by apply Sb.
  step H as t T. step K as t' T'. step H as x X. step K as x' X'. step H as y Y. step K as y' Y'.
  destruct (common_same est w w' _ _ _ _ _ _ _ (proj1 HP) (proj1 HP') Pa Pb Pa' Pb' Sa Sb T T') as (Pt & Pt' & St).
  rewrite <- Na in X'. rewrite <- Nb in Y'. pose proof (convert_same _ _ _ _ _ _ _ _ Pa Pt Pa' Pt' Sa St Ka X X') as ->.
  pose proof (convert_same _ _ _ _ _ _ _ _ Pb Pt Pb' Pt' Sb St Kb Y Y') as ->.
  step H as z Z. rewrite Z in K; cbn [bind] in K. step H as z1 Z1. rewrite Z1 in K; cbn [bind] in K. inversion H; inversion K; subst s s'.
  split; [exact Pt|]. split; [exact Pt'|]. split; [exact St|reflexivity].
Qed.
Lemma qcast_same : forall est c a a' s s', plain_cast U c -> q_sound a -> agree a a' -> q_cast est w c a = Ok s -> q_cast est w' c a' = Ok s' -> agree s s'.
Proof.
  intros est c a a' s s' Pc N (Pa & Pa' & Sa & Na) H K. destruct c as [t|d|u|r]; cbn [q_cast plain_cast] in *.
  - step H as x X. step K as x' X'. inversion H; inversion K; subst s s'; clear H K. rewrite <- Na in X'.
    assert (S : same_but_names t t) by (split; [split|]; auto). pose proof (cast_same est _ _ _ _ _ _ _ Pa Pc Pa' Pc Sa S X X') as ->.
    split; [exact Pc|]. split; [exact Pc|]. split; [exact S|reflexivity].
  - step H as x X. step K as x' X'. inversion H; inversion K; subst s s'; clear H K. unfold quantity_cast_dim in *. rewrite <- Na in X'.
    step X as e E. step X' as e' E'. step X as u V. step X' as u' V'. unfold mk_qtype in *. step X as t T. step X' as t' T'. step T as o O. step T' as o' O'.
    apply constrained_ok in O, O'. inversion T; inversion T'; subst t t'; clear T T'. step X as y Y. step X' as y' Y'. inversion X; inversion X'; subst x x'; clear X X'.
    apply downcast_unit_ratio in V; [|apply HP]. apply downcast_unit_ratio in V'; [|apply HP']. destruct V as (V & _), V' as (V' & _).
    destruct Sa as (Sd & Ru & Rr). cbn [fst snd].
    assert (A : plain_type U (QType d u (q_rep (q_type a)))).
    { unfold plain_type, unit_good. cbn [q_dim q_unit]. split; [exact Pc|]. rewrite V. split; [apply Pa|exact O]. }
    assert (A' : plain_type U (QType d u' (q_rep (q_type a')))).
    { unfold plain_type, unit_good. cbn [q_dim q_unit]. split; [exact Pc|]. rewrite V'. split; [apply Pa'|exact O']. }
    assert (S : same_but_names (QType d u (q_rep (q_type a))) (QType d u' (q_rep (q_type a')))).
    { unfold same_but_names. cbn [q_dim q_unit q_rep]. split; [now split|]. split; [congruence|exact Rr]. }
    pose proof (cast_same est _ _ _ _ _ _ _ Pa A Pa' A' ltac:(now repeat split; try apply Sd) S Y Y') as ->. now split.
  - step H as x X. step K as x' X'. inversion H; inversion K; subst s s'; clear H K. unfold quantity_cast_unit in *. rewrite <- Na in X'.
    unfold mk_qtype in *. step X as t T. step X' as t' T'. step T as o O. step T' as o' O'.
    apply constrained_ok in O, O'. inversion T; inversion T'; subst t t'; clear T T'. step X as y Y. step X' as y' Y'. inversion X; inversion X'; subst x x'; clear X X'.
    destruct Sa as (Sd & Ru & Rr). cbn [fst snd].
    assert (A : plain_type U (QType (q_dim (q_type a)) u (q_rep (q_type a)))) by (unfold plain_type; cbn [q_dim q_unit]; split; [apply Pa|auto]).
    assert (A' : plain_type U (QType (q_dim (q_type a')) u (q_rep (q_type a')))) by (unfold plain_type; cbn [q_dim q_unit]; split; [apply Pa'|auto]).
    assert (S : same_but_names (QType (q_dim (q_type a)) u (q_rep (q_type a))) (QType (q_dim (q_type a')) u (q_rep (q_type a')))).
    { unfold same_but_names. cbn [q_dim q_unit q_rep]. auto. }
    pose proof (cast_same est _ _ _ _ _ _ _ Pa A Pa' A' ltac:(now repeat split; try apply Sd) S Y Y') as ->. now split.
  - step H as x X. step K as x' X'. inversion H; inversion K; subst s s'; clear H K. unfold quantity_cast_rep in *. rewrite <- Na in X'. cbv zeta in *.
    step X as y Y. step X' as y' Y'. inversion X; inversion X'; subst x x'; clear X X'.
    destruct Sa as (Sd & Ru & Rr). cbn [fst snd].
    assert (A : plain_type U (QType (q_dim (q_type a)) (q_unit (q_type a)) r)) by exact Pa.
    assert (A' : plain_type U (QType (q_dim (q_type a')) (q_unit (q_type a')) r)) by exact Pa'.
    assert (S : same_but_names (QType (q_dim (q_type a)) (q_unit (q_type a)) r) (QType (q_dim (q_type a')) (q_unit (q_type a')) r)).
    { unfold same_but_names. cbn [q_dim q_unit q_rep]. auto. }
    pose proof (cast_same est _ _ _ _ _ _ _ Pa A Pa' A' ltac:(now repeat split; try apply Sd) S Y Y') as ->. now split.
Qed.
Lemma plus_same : forall a a' s s', agree a a' -> q_plus a = Ok s -> q_plus a' = Ok s' -> agree s s'.
Proof.
  intros a a' s s' A H K. unfold q_plus in *. cbv zeta in *. rewrite <- (agree_rep a a' A), <- (agree_num a a' A) in K. step H as x X. rewrite X in K; cbn [bind] in K.
  inversion H; inversion K; subst s s'. now apply agree_with.
Qed.
Lemma neg_same : forall a a' s s', agree a a' -> q_neg a = Ok s -> q_neg a' = Ok s' -> agree s s'.
Proof.
  intros a a' s s' A H K. unfold q_neg in *. cbv zeta in *. rewrite <- (agree_rep a a' A), <- (agree_num a a' A) in K. step H as x X. rewrite X in K; cbn [bind] in K.
  inversion H; inversion K; subst s s'. now apply agree_with.
Qed.
Lemma unary_same : forall est o a a' s s', plain_unary U o -> q_sound a -> agree a a' -> unary_quantity est w o a = Ok s -> unary_quantity est w' o a' = Ok s' -> agree s s'.
Proof.
  intros est o a a' s s' P N A H K. destruct o as [| |r v|r v|r v|r v|r v|t|c]; cbn [unary_quantity plain_unary] in *.
  - exact (plus_same a a' s s' A H K).
  - exact (neg_same a a' s s' A H K).
  - exact (scale_same OpMul false r v a a' s s' A H K).
  - exact (scale_same OpMul true r v a a' s s' A H K).
  - exact (scale_same OpDiv false r v a a' s s' A H K).
  - exact (value_over_same r v a a' s s' A H K).
  - unfold q_rem_value in *. step H as u1 U1. step K as u2 U2. exact (scale_same OpRem false r v a a' s s' A H K).
  - exact (to_same est t a a' s s' P N A H K).
  - exact (qcast_same est c a a' s s' P N A H K).
Qed.
Lemma binary_quantity_same : forall est o a a' b b' s s', q_sound a -> q_sound b -> agree a a' -> agree b b' ->
  binary_quantity est w o a b = Ok s -> binary_quantity est w' o a' b' = Ok s' -> agree s s'.
Proof.
  intros est o a a' b b' s s' Na Nb A B H K. destruct o; cbn [binary_quantity] in *.
  - exact (addsub_same OpAdd est a a' b b' s s' Na Nb A B H K).
  - exact (addsub_same OpSub est a a' b b' s s' Na Nb A B H K).
  - exact (times_same a a' b b' s s' A B H K).
  - exact (over_same a a' b b' s s' A B H K).
  - exact (rem_same a a' b b' s s' A B H K).
Qed.

(** ** Points *)

Variable rb : rebinding.
Hypothesis HR : honest rb.

Lemma rebind_dim : forall o d o', rebind rb o d = Some o' -> o_dim o' = d.
Proof.
  intros o d o' H. unfold rebind in H. destruct (dimension_eq_dec (o_dim o) d) as [E|E]; [inversion H; now subst|].
  destruct o as [x|n x]; [now inversion H|]. exact (HR _ _ _ _ H).
Qed.
Definition pagree (p p' : point) : Prop := agree (relative p) (relative p').
Lemma make_same : forall est t t' a a' s s', plain_type U (p_qtype t) -> plain_type U (p_qtype t') -> same_but_names (p_qtype t) (p_qtype t') ->
  q_sound a -> agree a a' -> p_make est t a = Ok s -> p_make est t' a' = Ok s' -> pagree s s'.
Proof.
  intros est t t' a a' s s' T T' St N (Pa & Pa' & Sa & Na) H K. unfold p_make in *. step H as x X. step K as x' X'. inversion H; inversion K; subst s s'; clear H K.
  rewrite <- Na in X'. pose proof (convert_same est _ _ _ _ _ _ _ Pa T Pa' T' Sa St N X X') as ->. split; [exact T|]. split; [exact T'|]. split; [exact St|reflexivity].
Qed.
Lemma same_refl_names : forall t, same_but_names t t.
Proof. intros t. split; [split|]; auto. Qed.
Lemma move_same : forall est t a a' s s', plain_type U (p_qtype t) -> p_sound a -> pagree a a' -> p_to rb est t a = Ok s -> p_to rb est t a' = Ok s' -> pagree s s'.
Proof.
  intros est t a a' s s' T N A H K. unfold p_to in *. step H as u V. step K as u' V'.
  exact (make_same est t t _ _ s s' T T (same_refl_names _) (relative_sound a N) A H K).
Qed.
Lemma p_addsub_same : forall o est p p' q q' s s', o <> OpRem -> p_sound p -> q_sound q -> pagree p p' -> agree q q' ->
  p_addsub o rb est w p q = Ok s -> p_addsub o rb est w' p' q' = Ok s' -> pagree s s'.
Proof.
  intros o est p p' q q' s s' Ho Np Nq A B H K. unfold p_addsub in *. step H as x X. step K as x' X'.
  pose proof (addsub_same o est _ _ _ _ _ _ (relative_sound p Np) Nq A B X X') as C.
  destruct (rebind rb (p_origin (pt_type p)) (q_dim (q_type x))) as [g|] eqn:G; [|discriminate].
  destruct (rebind rb (p_origin (pt_type p')) (q_dim (q_type x'))) as [g'|] eqn:G'; [|discriminate].
  apply rebind_dim in G, G'. step H as t T. step K as t' T'. unfold mk_ptype in T, T'. step T as y Y. step T' as y' Y'. clear Y Y'.
  inversion T; inversion T'; subst t t'; clear T T'.
  assert (E : p_qtype (PType g (q_unit (q_type x)) (q_rep (q_type x))) = q_type x) by (unfold p_qtype; cbn; rewrite G; now destruct (q_type x)).
  assert (E' : p_qtype (PType g' (q_unit (q_type x')) (q_rep (q_type x'))) = q_type x') by (unfold p_qtype; cbn; rewrite G'; now destruct (q_type x')).
  assert (N : q_sound x).
  { pose proof (addsub_static _ _ _ _ _ _ X) as S. destruct (addsub_runs o est w _ _ _ Ho (relative_sound p Np) Nq S) as [(z & Z & [_ V])|Z]; congruence. }
  apply (make_same est (PType g (q_unit (q_type x)) (q_rep (q_type x))) (PType g' (q_unit (q_type x')) (q_rep (q_type x'))) x x' s s'); auto;
    rewrite ?E, ?E'; apply C.
Qed.
Lemma p_diff_same : forall est a a' b b' s s', p_sound a -> p_sound b -> pagree a a' -> pagree b b' ->
  p_diff rb est w a b = Ok s -> p_diff rb est w' a' b' = Ok s' -> agree s s'.
Proof.
  intros est a a' b b' s s' Na Nb A B H K. unfold p_diff in *. step H as u V. step K as u' V'.
  exact (addsub_same OpSub est _ _ _ _ s s' (relative_sound a Na) (relative_sound b Nb) A B H K).
Qed.
Lemma deduced_same : forall q q', agree q q' -> pagree (p_deduced q) (p_deduced q').
Proof. intros [[d u r] n] [[d' u' r'] n'] A. exact A. Qed.
Lemma point_cast_same : forall est c a a' s s', plain_cast U c -> p_sound a -> pagree a a' -> point_cast est w c a = Ok s -> point_cast est w' c a' = Ok s' -> pagree s s'.
Proof.
  intros est c a a' s s' P N A H K. unfold point_cast in *. step H as x X. step K as x' X'. inversion H; inversion K; subst s s'.
  apply deduced_same. exact (qcast_same est c _ _ _ _ P (relative_sound a N) A X X').
Qed.
Lemma point_cast_to_same : forall est t a a' s s', plain_type U (p_qtype t) -> pagree a a' -> point_cast_to rb est t a = Ok s -> point_cast_to rb est t a' = Ok s' -> pagree s s'.
Proof.
  intros est t a a' s s' P (Pa & Pa' & Sa & Na) H K. unfold point_cast_to in *. step H as u V. step K as u' V'. step H as x X. step K as x' X'. inversion H; inversion K; subst s s'.
  apply deduced_same. cbn [relative q_num] in Na. rewrite <- Na in X'. pose proof (cast_same est _ _ _ _ _ _ _ Pa P Pa' P Sa (same_refl_names _) X X') as ->.
  split; [exact P|]. split; [exact P|]. split; [apply same_refl_names|reflexivity].
Qed.

(** ** Expressions *)

Definition vagree (v v' : avalue) : Prop :=
  match v, v' with VQuantity q, VQuantity q' => agree q q' | VPoint p, VPoint p' => pagree p p' | _, _ => False end.
Lemma binary_same : forall est o x x' y y' v v', sound x -> sound y -> vagree x x' -> vagree y y' ->
  binary_value rb est w o x y = Ok v -> binary_value rb est w' o x' y' = Ok v' -> vagree v v'.
Proof.
  intros est o x x' y y' v v' Nx Ny A B H K. destruct x as [a|a], x' as [a'|a']; try contradiction; destruct y as [b|b], y' as [b'|b']; try contradiction.
  - assert (H' : (s <- binary_quantity est w o a b; Ok (VQuantity s)) = Ok v) by (destruct o; exact H).
    assert (K' : (s <- binary_quantity est w' o a' b'; Ok (VQuantity s)) = Ok v') by (destruct o; exact K).
    step H' as s S. step K' as s' S'. inversion H'; inversion K'; subst v v'. exact (binary_quantity_same est o a a' b b' s s' Nx Ny A B S S').
  - destruct o; try discriminate. cbn [binary_value] in *. step H as s S. step K as s' S'. inversion H; inversion K; subst v v'.
    exact (p_addsub_same OpAdd est b b' a a' s s' ltac:(discriminate) Ny Nx B A S S').
  - destruct o; try discriminate; cbn [binary_value] in *; step H as s S; step K as s' S'; inversion H; inversion K; subst v v'.
    + exact (p_addsub_same OpAdd est a a' b b' s s' ltac:(discriminate) Nx Ny A B S S').
    + exact (p_addsub_same OpSub est a a' b b' s s' ltac:(discriminate) Nx Ny A B S S').
  - destruct o; try discriminate. cbn [binary_value] in *. step H as s S. step K as s' S'. inversion H; inversion K; subst v v'.
    exact (p_diff_same est a a' b b' s s' Nx Ny A B S S').
Qed.
Lemma aeval_sound : forall est x e v, expr_sound e -> aeval rb est x e = Ok v -> sound v.
Proof.
  intros est x e v S H. pose proof (type_complete rb est x e v H) as T. destruct (type_sound rb est x e (vtype v) S T) as [(z & Z & [_ V])|Z]; congruence.
Qed.
Theorem aeval_same : forall est e v v', plain_expr U e -> expr_sound e -> aeval rb est w e = Ok v -> aeval rb est w' e = Ok v' -> vagree v v'.
Proof.
  intros est. induction e as [q|p|o a IH|o a IHa b IHb|u a IH|c a IH|u a IH|a IH|u a IH]; intros v v' P S H K; cbn [aeval plain_expr expr_sound] in *.
  - inversion H; inversion K; subst v v'. split; [exact P|]. split; [exact P|]. split; [apply same_refl_names|reflexivity].
  - inversion H; inversion K; subst v v'. split; [exact P|]. split; [exact P|]. split; [apply same_refl_names|reflexivity].
  - destruct P as [Po P], S as [_ S]. step H as x X. step K as x' X'. step H as q Q. step K as q' Q'. step H as s T. step K as s' T'. inversion H; inversion K; subst v v'.
    pose proof (IH _ _ P S X X') as A. pose proof (aeval_sound est w a x S X) as N. destruct x as [x|x]; [|discriminate]. destruct x' as [x'|x']; [|discriminate].
    inversion Q; inversion Q'; subst q q'. exact (unary_same est o x x' s s' Po N A T T').
  - destruct P as [Pa Pb], S as [Sa Sb]. step H as x X. step K as x' X'. step H as y Y. step K as y' Y'.
    exact (binary_same est o x x' y y' v v' (aeval_sound est w a x Sa X) (aeval_sound est w b y Sb Y) (IHa _ _ Pa Sa X X') (IHb _ _ Pb Sb Y Y') H K).
  - destruct P as [Pu P]. step H as x X. step K as x' X'. step H as q Q. step K as q' Q'. step H as s T. step K as s' T'. inversion H; inversion K; subst v v'.
    pose proof (IH _ _ P S X X') as A. pose proof (aeval_sound est w a x S X) as N. destruct x as [x|x]; [discriminate|]. destruct x' as [x'|x']; [discriminate|].
    inversion Q; inversion Q'; subst q q'. exact (move_same est u x x' s s' Pu N A T T').
  - destruct P as [Pu P]. step H as x X. step K as x' X'. step H as q Q. step K as q' Q'. step H as s T. step K as s' T'. inversion H; inversion K; subst v v'.
    pose proof (IH _ _ P S X X') as A. pose proof (aeval_sound est w a x S X) as N. destruct x as [x|x]; [discriminate|]. destruct x' as [x'|x']; [discriminate|].
    inversion Q; inversion Q'; subst q q'. exact (point_cast_same est c x x' s s' Pu N A T T').
  - destruct P as [Pu P]. step H as x X. step K as x' X'. step H as q Q. step K as q' Q'. step H as s T. step K as s' T'. inversion H; inversion K; subst v v'.
    pose proof (IH _ _ P S X X') as A. destruct x as [x|x]; [discriminate|]. destruct x' as [x'|x']; [discriminate|].
    inversion Q; inversion Q'; subst q q'. exact (point_cast_to_same est u x x' s s' Pu A T T').
  - step H as x X. step K as x' X'. step H as q Q. step K as q' Q'. inversion H; inversion K; subst v v'.
    pose proof (IH _ _ P S X X') as A. destruct x as [x|x]; [discriminate|]. destruct x' as [x'|x']; [discriminate|].
    inversion Q; inversion Q'; subst q q'. exact A.
  - destruct P as [Pu P]. step H as x X. step K as x' X'. step H as q Q. step K as q' Q'. step H as s T. step K as s' T'. inversion H; inversion K; subst v v'.
    pose proof (IH _ _ P S X X') as A. pose proof (aeval_sound est w a x S X) as N. destruct x as [x|x]; [|discriminate]. destruct x' as [x'|x']; [|discriminate].
    inversion Q; inversion Q'; subst q q'. exact (make_same est u u x x' s s' Pu Pu (same_refl_names _) N A T T').
Qed.

(** Comparisons. *)
Lemma convert_named : forall est from to n z, plain_type U from -> plain_type U to -> q_rep from = q_rep to -> u_ratio (q_unit from) = u_ratio (q_unit to) ->
  num_ok (q_rep from) n = true -> q_convert est from to n = Ok z -> z = n.
Proof.
  intros est from to n z F T R E N H. unfold q_convert in H. destruct (qtype_eq_dec from to) as [_|_]; [congruence|].
  step H as b B. step H as u V. exact (cast_named est from to n z F T R E N H).
Qed.
Lemma common_rep_self : forall r, common_rep r r = r.
Proof. intros [[[] []]|[]]; reflexivity. Qed.
Lemma common_named : forall est x a b t p q, consistent x -> plain_type U (q_type a) -> plain_type U (q_type b) -> q_sound a -> q_sound b ->
  q_rep (q_type a) = q_rep (q_type b) -> u_ratio (q_unit (q_type a)) = u_ratio (q_unit (q_type b)) ->
  common_quantity est x (q_type a) (q_type b) (common_rep (q_rep (q_type a)) (q_rep (q_type b))) = Ok t ->
  q_convert est (q_type a) t (q_num a) = Ok p -> q_convert est (q_type b) t (q_num b) = Ok q -> p = q_num a /\ q = q_num b.
Proof.
  intros est x a b t p q C Pa Pb Na Nb R E T X Y. destruct (common_plain est x _ _ _ _ C Pa Pb T) as (Pt & _ & Rt & k & c & Ga & Gb & D & F).
  rewrite <- R, common_rep_self in Rt. rewrite <- E in D. rewrite common_ratio_idem in D by apply Ga. inversion D; subst c. rewrite shift_shift, Z.add_opp_diag_r, shift_0 in F.
  split; [apply (convert_named est (q_type a) t)|apply (convert_named est (q_type b) t)]; auto; congruence.
Qed.
Lemma q_common_same : forall est a a' b b' p p', q_sound a -> q_sound b -> agree a a' -> agree b b' ->
  q_common est w a b = Ok p -> q_common est w' a' b' = Ok p' -> p' = p.
Proof.
  intros est a a' b b' p p' Ka Kb (Pa & Pa' & Sa & Na) (Pb & Pb' & Sb & Nb) H K. unfold q_common in *.
  assert (Ka' : q_sound a') by (unfold q_sound in *; rewrite <- Na; replace (q_rep (q_type a')) with (q_rep (q_type a)) by apply Sa; exact Ka).
  assert (Kb' : q_sound b') by (unfold q_sound in *; rewrite <- Nb; replace (q_rep (q_type b')) with (q_rep (q_type b)) by apply Sb; exact Kb).
  destruct (qtype_eq_dec (q_type a) (q_type b)) as [E|E], (qtype_eq_dec (q_type a') (q_type b')) as [E'|E'].
  - congruence.
  - step K as t T. step K as x X. step K as y Y. destruct Sa as (_ & Ra & Qa), Sb as (_ & Rb & Qb).
    destruct (common_named est w' a' b' t x y (proj1 HP') Pa' Pb' Ka' Kb' ltac:(congruence) ltac:(congruence) T X Y) as [-> ->]. congruence.
  - step H as t T. step H as x X. step H as y Y. destruct Sa as (_ & Ra & Qa), Sb as (_ & Rb & Qb).
    destruct (common_named est w a b t x y (proj1 HP) Pa Pb Ka Kb ltac:(congruence) ltac:(congruence) T X Y) as [-> ->]. congruence.
  - replace (q_rep (q_type a')) with (q_rep (q_type a)) in K by apply Sa. replace (q_rep (q_type b')) with (q_rep (q_type b)) in K by apply Sb.
    step H as t T. step K as t' T'. step H as x X. step K as x' X'. step H as y Y. step K as y' Y'.
    destruct (common_same est w w' _ _ _ _ _ _ _ (proj1 HP) (proj1 HP') Pa Pb Pa' Pb' Sa Sb T T') as (Pt & Pt' & St).
    rewrite <- Na in X'. rewrite <- Nb in Y'. pose proof (convert_same _ _ _ _ _ _ _ _ Pa Pt Pa' Pt' Sa St Ka X X') as ->.
    pose proof (convert_same _ _ _ _ _ _ _ _ Pb Pt Pb' Pt' Sb St Kb Y Y') as ->. congruence.
Qed.
End Programs.

(** ** Equivalent types *)

Lemma shift_inj : forall k a b, shift k a = shift k b -> a = b.
Proof. intros k [n d e] [n' d' e'] H. unfold shift in H. cbn in H. inversion H. f_equal. lia. Qed.
Lemma coherent_ten : forall d, plain_dim U d -> ten (u_ratio (dimension_unit d)).
Proof.
  intros d (N & _ & P). destruct (is_base d) eqn:B; [|exists 0; exact (P eq_refl)].
  destruct d as [b|? ? ? ?|? ?]; try discriminate. apply (HD b). apply (proj2 N (BExp b 1 1)). now left.
Qed.
Lemma ratio_eqb_eq : forall a b, ratio_eqb a b = true -> a = b.
Proof.
  intros [n d e] [n' d' e'] H. unfold ratio_eqb in H. cbn in H. apply andb_true_iff in H as [H E]. apply andb_true_iff in H as [H D].
  apply Z.eqb_eq in H, D, E. congruence.
Qed.
Lemma equivalent_ratio : forall est l env t1 t2, unit_program est [] l = Ok env -> stated env (q_unit t1) -> stated env (q_unit t2) ->
  plain_type U t1 -> plain_type U t2 -> qtype_equivalent t1 t2 = Ok true ->
  same_dim (q_dim t1) (q_dim t2) /\ u_ratio (q_unit t1) = u_ratio (q_unit t2).
Proof.
  intros est l env t1 t2 E S1 S2 (P1 & G1 & _) (P2 & G2 & _) H. unfold qtype_equivalent in H.
  destruct (qtype_eq_dec t1 t2) as [->|_]; [split; [now split|reflexivity]|]. unfold and_then in H. cbn [bind] in H.
  destruct (dim_equivalent (q_dim t1) (q_dim t2)) eqn:D; [|discriminate].
  pose proof (equivalent_exponents _ _ (proj1 P1) (proj1 P2) D) as S. split; [exact S|].
  unfold equivalent_unit in H. step H as a A. step H as b B. injection H as H. apply orb_true_iff in H as [H|H].
  - exact (proj1 (unit_equivalent_same est l env E _ _ S1 S2 H)).
  - apply ratio_eqb_eq in H. subst b. rewrite <- (coherent_same _ _ P1 P2 S) in B. destruct (coherent_ten _ P1) as [k K]. rewrite K in A, B.
    apply rdiv_ten in A, B; auto. rewrite A in B. exact (shift_inj _ _ _ B).
Qed.
Lemma same_equivalent : forall d d', same_dim d d' -> dim_equivalent d d' = true.
Proof.
  intros d d' [X B]. apply dim_equivalent_shape. split; [exact B|]. rewrite X.
  destruct dim_equivalent_equivalence as (R & _ & _). specialize (R d'). apply dim_equivalent_shape in R. apply R.
Qed.
(** The equivalence as the library decides it, on types of one system. *)
Definition comparable (t : qtype) : Prop := exists a, rdiv (u_ratio (q_unit t)) (u_ratio (dimension_unit (q_dim t))) = Ok a.
Lemma equivalent_intro : forall t1 t2, plain_type U t1 -> plain_type U t2 -> same_dim (q_dim t1) (q_dim t2) ->
  u_ratio (q_unit t1) = u_ratio (q_unit t2) -> comparable t1 -> qtype_equivalent t1 t2 = Ok true.
Proof.
  intros t1 t2 (P1 & _) (P2 & _) S E [a A]. unfold qtype_equivalent. destruct (qtype_eq_dec t1 t2) as [_|_]; [reflexivity|].
  rewrite (same_equivalent _ _ S). unfold and_then. cbn [bind]. unfold equivalent_unit. rewrite A, <- E, <- (coherent_same _ _ P1 P2 S), A. cbn [bind].
  replace (ratio_eqb a a) with true; [now rewrite orb_true_r|]. unfold ratio_eqb. now rewrite !Z.eqb_refl.
Qed.
Lemma equivalent_comparable : forall t1 t2, qtype_equivalent t1 t2 = Ok true -> t1 = t2 \/ (comparable t1 /\ comparable t2).
Proof.
  intros t1 t2 H. unfold qtype_equivalent in H. destruct (qtype_eq_dec t1 t2) as [->|_]; [now left|]. right. unfold and_then in H. cbn [bind] in H.
  destruct (dim_equivalent (q_dim t1) (q_dim t2)); [|discriminate]. unfold equivalent_unit in H. step H as a A. step H as b B. split; [now exists a|now exists b].
Qed.
Lemma equivalent_true : forall t1 t2 b, plain_type U t1 -> plain_type U t2 -> same_dim (q_dim t1) (q_dim t2) ->
  u_ratio (q_unit t1) = u_ratio (q_unit t2) -> qtype_equivalent t1 t2 = Ok b -> b = true.
Proof.
  intros t1 t2 b P1 P2 S E H. destruct (qtype_eq_dec t1 t2) as [Q|Q] eqn:Eq.
  - unfold qtype_equivalent in H. rewrite Eq in H. now inversion H.
  - assert (D : dim_equivalent (q_dim t1) (q_dim t2) = true) by now apply same_equivalent.
    assert (A : comparable t1).
    { unfold qtype_equivalent in H. rewrite Eq, D in H. unfold and_then in H. cbn [bind] in H. unfold equivalent_unit in H. step H as a A. now exists a. }
    rewrite (equivalent_intro t1 t2 P1 P2 S E A) in H. now inversion H.
Qed.
Lemma same_magnitude : forall t1 t2 m1 m2, plain_type U t1 -> plain_type U t2 -> same_dim (q_dim t1) (q_dim t2) ->
  u_ratio (q_unit t1) = u_ratio (q_unit t2) -> magnitude (q_dim t1) (q_unit t1) m1 -> magnitude (q_dim t2) (q_unit t2) m2 -> (m1 == m2)%Q.
Proof.
  intros t1 t2 m1 m2 (P1 & _) (P2 & _) S E (b1 & (_ & Q1 & C1) & M1) (b2 & (_ & Q2 & C2) & M2).
  assert (B : (b1 == b2)%Q) by (apply square_inj; auto; rewrite C1, C2; destruct S as [-> _]; reflexivity).
  rewrite M1, M2, B, E, (coherent_same _ _ P1 P2 S). reflexivity.
Qed.
End System.
