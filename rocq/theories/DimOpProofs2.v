(** Powers of dimensions, recipes of derived dimensions, ratios of base units. *)

From Coq Require Import ZArith QArith Qreduction Qpower Qcanon String List Bool Lia Permutation Sorted Lqa.
From Verif Require Import Outcome CInt Ratio SpecRatio QTen RatioMaths RatioMathsProofs RatioProofs
  Pow Root RatioProofs2 RatioPowProofs
  FixedString TypeList Unit Downcast Dim DimOp SpecDim SpecUnit
  TypeListProofs StringProofs DimProofs DimOpProofs.
Import ListNotations.
Close Scope Qc_scope.
Local Open Scope Z_scope.
Local Open Scope res_scope.

(** ** Powers *)

Definition scaled (q : Q) (es : list bexp) : list bexp :=
  map (fun e => red_exp (e_dim e) (equot e * q)) es.

Lemma red_exp_equot : forall b q, (equot (red_exp b q) == q)%Q.
Proof. intros. unfold equot, red_exp; cbn [e_num e_den]. apply Qred_frac. Qed.

Lemma scaled_expo : forall q es b, (expo (scaled q es) b == expo es b * q)%Q.
Proof.
  induction es as [|e es IH]; intros b; simpl; [lra|].
  rewrite IH. destruct (bdim_eq_dec (e_dim e) b); [rewrite red_exp_equot|]; lra.
Qed.

Lemma scaled_sorted : forall q es, strictly_sorted es -> strictly_sorted (scaled q es).
Proof.
  intros q es S. induction S as [|e l S IH F]; simpl; constructor; auto.
  rewrite Forall_forall in *. intros x Hx. apply in_map_iff in Hx as (y & <- & Hy).
  simpl. auto.
Qed.

Lemma red_exp_proper : forall b q, ~ (q == 0)%Q -> representable q -> proper (red_exp b q).
Proof.
  intros b q Hq [R1 R2]. unfold proper, red_exp; cbn [e_num e_den].
  repeat split; auto.
  - intros Z. apply Hq. now apply Qred_num_0.
  - apply Qcanon.Qred_iff, Qcanon.Qred_involutive.
Qed.

Lemma proper_nz : forall e, proper e -> ~ (equot e == 0)%Q.
Proof. intros e P. now apply equot_proper_nz. Qed.

Lemma scaled_normal : forall q es, ~ (q == 0)%Q -> normal es ->
  (forall e, In e es -> representable (equot e * q)) -> normal (scaled q es).
Proof.
  intros q es Hq [S P] R. split; [apply scaled_sorted; auto|].
  rewrite Forall_forall in *. intros x Hx. apply in_map_iff in Hx as (y & <- & Hy).
  apply red_exp_proper; auto. intros Z. apply Qmult_integral in Z as [Z|Z]; auto.
  apply (proper_nz y); auto.
Qed.

(** A power acts on an exponent without meeting a factor of ten, and the result
    is representable. *)
Definition power_ok (N D : Z) (e : bexp) : Prop :=
  ten_free (equot e) /\ ten_free (equot e * (inject_Z N / inject_Z D)) /\
  representable (equot e * (inject_Z N / inject_Z D)).

Lemma map_multiply : forall N D es, D <> 0 -> Z.abs N <= INTMAX_MAX -> Z.abs D <= INTMAX_MAX ->
  ten_free (inject_Z N / inject_Z D) -> Forall proper es -> Forall (power_ok N D) es ->
  map_res (exponent_multiply N D) es = Ok (scaled (inject_Z N / inject_Z D) es).
Proof.
  intros N D es HD AN AD T P. induction P as [|e es Pe P IH]; intros F; simpl; auto.
  inversion F as [|? ? (F1 & F2 & F3) F4]; subst. rewrite IH by auto.
  destruct Pe as (P1 & P2 & P3 & P4 & P5).
  destruct (exponent_multiply_complete N D e) as [e' He]; auto; try lia.
  rewrite He. cbn [bind]. do 2 f_equal.
  apply exponent_multiply_exact; auto. lia.
Qed.

(** Value of the power: every exponent multiplied by N/D. *)
Lemma dimension_pow_base : forall w b N D, consistent w ->
  exists d', dimension_pow w (DBase b) N D = Ok d' /\
  exponents d' = [BExp b N D].
Proof.
  intros w b N D C. unfold dimension_pow.
  destruct ((N =? 1) && (D =? 1)) eqn:E.
  - apply andb_true_iff in E as [E1 E2]. apply Z.eqb_eq in E1, E2; subst.
    eexists; split; reflexivity.
  - apply downcast_dimension_strict; auto. repeat constructor.
Qed.

Lemma single_pow_shape : forall w N D d, (forall b, d <> DBase b) ->
  dimension_pow w d N D =
  match exponents d with
  | [e] => if (e_num e =? D) && (e_den e =? N) then Ok (DBase (e_dim e))
           else m <- map_res (exponent_multiply N D) (exponents d); downcast_dimension w m
  | _ => m <- map_res (exponent_multiply N D) (exponents d); downcast_dimension w m
  end.
Proof.
  intros w N D [b|nm es cu rc|args es] H.
  - congruence.
  - destruct es as [|e [|f l]]; reflexivity.
  - destruct es as [|e [|f l]]; reflexivity.
Qed.

Lemma dimension_pow_ok : forall w d N D, consistent w ->
  D <> 0 -> Z.abs N <= INTMAX_MAX -> Z.abs D <= INTMAX_MAX ->
  ten_free (inject_Z N / inject_Z D) -> normal (exponents d) ->
  Forall (power_ok N D) (exponents d) ->
  exists d', dimension_pow w d N D = Ok d' /\
  forall b, (dim_expo d' b == dim_expo d b * (inject_Z N / inject_Z D))%Q.
Proof.
  intros w d N D C HD AN AD T [S P] F.
  destruct d as [b|nm es cu rc|args es] eqn:Ed.
  1: { destruct (dimension_pow_base w b N D C) as (d' & H & X). exists d'. split; auto.
       intros b'. unfold dim_expo. rewrite X. simpl. destruct (bdim_eq_dec b b'); [|lra].
       unfold equot; cbn [e_num e_den]. change (inject_Z 1 / inject_Z 1)%Q with 1%Q. lra. }
  all: rewrite <- Ed in *; rewrite single_pow_shape by (subst; discriminate);
    rewrite map_multiply by auto; cbn [bind];
    assert (G : exists d', downcast_dimension w (scaled (inject_Z N / inject_Z D) (exponents d)) = Ok d' /\
       forall b, (dim_expo d' b == dim_expo d b * (inject_Z N / inject_Z D))%Q)
      by (destruct (downcast_dimension_strict w (scaled (inject_Z N / inject_Z D) (exponents d)) C)
            as (d' & H & X); [apply scaled_sorted; auto|];
          exists d'; split; auto; intros b; unfold dim_expo; rewrite X; apply scaled_expo);
    destruct (exponents d) as [|e [|f l]] eqn:Ee; auto;
    destruct ((e_num e =? D) && (e_den e =? N)) eqn:Es; auto;
    apply andb_true_iff in Es as [E1 E2]; apply Z.eqb_eq in E1, E2;
    eexists; split; [reflexivity|]; intros b; unfold dim_expo; rewrite Ee; simpl;
    inversion P as [|? ? Pe _]; subst; destruct Pe as (Pe1 & Pe2 & _);
    destruct (bdim_eq_dec (e_dim e) b); [|lra]; unfold equot; cbn [e_num e_den];
    change (inject_Z 1 / inject_Z 1)%Q with 1%Q; field; split; apply inject_Z_nz; lia.
Qed.

Lemma Qred_lowest_pos : forall N D, 0 < D -> Z.gcd N D = 1 ->
  Qnum (Qred (inject_Z N / inject_Z D)) = N /\ Zpos (Qden (Qred (inject_Z N / inject_Z D))) = D.
Proof.
  intros N D HD G. destruct (Qred_div N D ltac:(lia)) as (g & Hg & E1 & E2 & E3).
  rewrite G in E3. assert (0 < Zpos (Qden (Qred (inject_Z N / inject_Z D)))) by reflexivity.
  assert (g = 1) by nia. subst g. lia.
Qed.

(** For a positive power in lowest terms the result is the canonical type. *)
Lemma dimension_pow_canonical : forall w d N D,
  0 < N -> 0 < D -> Z.gcd N D = 1 -> N <= INTMAX_MAX -> D <= INTMAX_MAX ->
  ten_free (inject_Z N / inject_Z D) -> normal (exponents d) ->
  Forall (power_ok N D) (exponents d) ->
  dimension_pow w d N D = to_dimension w (scaled (inject_Z N / inject_Z D) (exponents d)).
Proof.
  intros w d N D HN HD G AN AD T [S P] F.
  destruct (Qred_lowest_pos N D HD G) as [QN QD].
  destruct d as [b|nm es cu rc|args es] eqn:Ed.
  1: { unfold dimension_pow. cbn [exponents scaled map e_dim].
       replace (red_exp b (equot (BExp b 1 1) * (inject_Z N / inject_Z D))) with (BExp b N D).
       2:{ unfold red_exp. rewrite (Qred_complete _ (inject_Z N / inject_Z D)).
           - now rewrite QN, QD.
           - unfold equot; cbn [e_num e_den]. change (inject_Z 1 / inject_Z 1)%Q with 1%Q. lra. }
       unfold to_dimension, is_plus_one; cbn [e_num e_den e_dim].
       destruct ((N =? 1) && (D =? 1)); auto. }
  all: rewrite <- Ed in *; rewrite single_pow_shape by (subst; discriminate);
    rewrite map_multiply by (auto; lia); cbn [bind];
    destruct (exponents d) as [|e [|f l]] eqn:Ee; auto;
    unfold to_dimension; cbn [scaled map];
    inversion P as [|? ? Pe _]; subst x l; destruct Pe as (Pe1 & Pe2 & Pe3 & _);
    assert (I : ((e_num e =? D) && (e_den e =? N)) =
                is_plus_one (red_exp (e_dim e) (equot e * (inject_Z N / inject_Z D))));
    [|rewrite I; destruct (is_plus_one _); reflexivity];
    apply eq_true_iff_eq; rewrite is_plus_one_iff, andb_true_iff, !Z.eqb_eq;
    unfold red_exp; cbn [e_dim];
    (split;
     [ intros [X1 X2]; rewrite (Qred_complete _ 1); [reflexivity|];
       unfold equot; rewrite X1, X2; field; split; apply inject_Z_nz; lia
     | intros X; pose proof (f_equal e_num X) as X1; pose proof (f_equal e_den X) as X2;
       cbn [e_num e_den] in X1, X2;
       assert (V : (equot e * (inject_Z N / inject_Z D) == 1)%Q)
         by (rewrite <- (Qred_frac (equot e * (inject_Z N / inject_Z D))), X1, X2; reflexivity);
       assert (NzN : ~ (inject_Z N == 0)%Q) by (apply inject_Z_nz; lia);
       assert (NzD : ~ (inject_Z D == 0)%Q) by (apply inject_Z_nz; lia);
       assert (V' : (equot e == inject_Z D / inject_Z N)%Q)
         by (rewrite <- (Qmult_1_l (inject_Z D / inject_Z N)), <- V; field; auto);
       unfold equot in V';
       destruct (Qred_lowest_pos D N HN ltac:(rewrite Z.gcd_comm; auto)) as [QA QB];
       destruct (Qred_lowest_pos (e_num e) (e_den e) Pe2 Pe3) as [QC QE];
       rewrite (Qred_complete _ _ V') in QC, QE; lia ]).
Qed.

(** ** Recipes of derived dimensions *)

Fixpoint recipe_expo (l : list (dimension * (Z * Z))) (b : bdim) : Q :=
  match l with
  | [] => 0%Q
  | (d, (n, m)) :: r => (dim_expo d b * (inject_Z n / inject_Z m) + recipe_expo r b)%Q
  end.

(** The entries a user writes: a base dimension with an exponent in lowest terms,
    or a dimension in normal form raised to a power without factors of ten. *)
Definition recipe_item_ok (U : bdim -> Prop) (x : dimension * (Z * Z)) : Prop :=
  let '(d, (n, m)) := x in
  match d with
  | DBase b => U b /\ proper (BExp b n m)
  | _ => ndim U d /\ n <> 0 /\ m <> 0 /\ Z.abs n <= INTMAX_MAX /\ Z.abs m <= INTMAX_MAX /\
         ten_free (inject_Z n / inject_Z m) /\ Forall (power_ok n m) (exponents d)
  end.

Lemma inject_div_nz : forall n m, n <> 0 -> m <> 0 -> ~ (inject_Z n / inject_Z m == 0)%Q.
Proof.
  intros n m Hn Hm H. apply (inject_Z_nz n Hn).
  rewrite <- (Qmult_div_r (inject_Z n) (inject_Z m)) by (apply inject_Z_nz; auto).
  rewrite H. lra.
Qed.

Lemma unpack_ok : forall U l, Forall (recipe_item_ok U) l ->
  exists es, dim_unpack l = Ok es /\ Forall proper es /\ over U es /\
  forall b, (expo es b == recipe_expo l b)%Q.
Proof.
  intros U l F. induction F as [|[d [n m]] l Hx F IH].
  - exists []. repeat split; auto; simpl; try reflexivity. intros e [].
  - destruct IH as (es & H & P & O & V).
    assert (G : forall x, Forall proper x -> over U x ->
      (forall b, (expo x b == dim_expo d b * (inject_Z n / inject_Z m))%Q) ->
      Forall proper (push_front es x) /\ over U (push_front es x) /\
      forall b, (expo (push_front es x) b == recipe_expo ((d, (n, m)) :: l) b)%Q).
    { intros x Px Ox Vx. unfold push_front. split; [apply Forall_app; auto|].
      split; [intros e He; apply in_app_or in He as [He|He]; auto|].
      intros b. rewrite expo_app, Vx, V. reflexivity. }
    destruct d as [b|nm ds cu rc|args ds].
    + destruct Hx as [Ub Pb]. cbn [dim_unpack]. rewrite H. cbn [bind].
      eexists; split; [reflexivity|]. apply G.
      * constructor; auto.
      * intros e [<-|[]]; auto.
      * intros b'. unfold dim_expo; simpl. destruct (bdim_eq_dec b b'); [|lra].
        unfold equot; cbn [e_num e_den]. change (inject_Z 1 / inject_Z 1)%Q with 1%Q. lra.
    + destruct Hx as ([Nd Od] & Hn & Hm & An & Am & T & Fp). cbn [dim_unpack].
      rewrite map_multiply by (auto; apply Nd). cbn [bind]. rewrite H. cbn [bind].
      eexists; split; [reflexivity|]. apply G.
      * apply scaled_normal; auto; [now apply inject_div_nz|].
        intros e He. rewrite Forall_forall in Fp. apply (Fp e He).
      * intros e He. apply in_map_iff in He as (y & <- & Hy). simpl. auto.
      * intros b'. apply scaled_expo.
    + destruct Hx as ([Nd Od] & Hn & Hm & An & Am & T & Fp). cbn [dim_unpack].
      rewrite map_multiply by (auto; apply Nd). cbn [bind]. rewrite H. cbn [bind].
      eexists; split; [reflexivity|]. apply G.
      * apply scaled_normal; auto; [now apply inject_div_nz|].
        intros e He. rewrite Forall_forall in Fp. apply (Fp e He).
      * intros e He. apply in_map_iff in He as (y & <- & Hy). simpl. auto.
      * intros b'. apply scaled_expo.
Qed.

Lemma make_dimension_ok : forall U, symbols_identify U -> forall l es,
  Forall (recipe_item_ok U) l -> make_dimension l = Ok es ->
  normal es /\ over U es /\ forall b, (expo es b == recipe_expo l b)%Q.
Proof.
  intros U HU l es F H. destruct (unpack_ok U l F) as (u & Hu & P & O & V).
  unfold make_dimension in H. rewrite Hu in H. cbn [bind] in H.
  destruct (type_list_sort_spec exponent_less less_ntrans less_asym u) as [Pm Ss].
  set (s := type_list_sort exponent_less u) in *.
  assert (Os : over U s) by (intros e He; apply O; apply (Permutation_in _ (Permutation_sym Pm)) || apply (Permutation_in _ Pm); auto).
  repeat split.
  - eapply dim_consolidate_sorted; eauto.
  - eapply dim_consolidate_proper; eauto. rewrite Forall_forall in *. intros e He. apply P.
    first [apply (Permutation_in _ Pm); exact He | apply (Permutation_in _ (Permutation_sym Pm)); exact He].
  - intros f Hf. destruct (dim_consolidate_dims _ _ H f Hf) as (g & Hg & <-). auto.
  - intros b. rewrite (dim_consolidate_expo _ _ H b), <- V.
    first [apply expo_perm; exact Pm | apply expo_perm, Permutation_sym; exact Pm].
Qed.

(** ** Ratios of base units *)

Lemma twice_spec : forall e, half_int e -> (inject_Z (twice e) == 2 * equot e)%Q.
Proof.
  intros e [H1 [k H2]]. unfold twice, equot. rewrite H2, Z.div_mul by auto.
  assert (X : (inject_Z k * inject_Z (e_den e) == 2 * inject_Z (e_num e))%Q).
  { rewrite <- inject_Z_mult, <- H2, inject_Z_mult. reflexivity. }
  assert (~ (inject_Z (e_den e) == 0)%Q) by (apply inject_Z_nz; auto).
  transitivity (2 * inject_Z (e_num e) / inject_Z (e_den e))%Q.
  - rewrite <- X. field. auto.
  - field. auto.
Qed.

Lemma half_int_of : forall b n m z, m <> 0 -> (inject_Z z == 2 * (inject_Z n / inject_Z m))%Q ->
  half_int (BExp b n m) /\ twice (BExp b n m) = z.
Proof.
  intros b n m z Hm H. assert (X : 2 * n = z * m).
  { apply (proj1 (inject_Z_injective _ _)). rewrite !inject_Z_mult, H.
    change (inject_Z 2) with 2%Q. field. apply inject_Z_nz; auto. }
  split.
  - split; cbn [e_num e_den]; auto. exists z. lia.
  - unfold twice; cbn [e_num e_den]. rewrite X. apply Z.div_mul; auto.
Qed.

Lemma squared_app : forall a b, (squared (a ++ b) == squared a * squared b)%Q.
Proof. induction a; intros; simpl; [lra|]. rewrite IHa. ring. Qed.
Lemma squared_perm : forall a b, Permutation a b -> (squared a == squared b)%Q.
Proof.
  induction 1; simpl.
  - reflexivity.
  - now rewrite IHPermutation.
  - ring.
  - now rewrite IHPermutation1.
Qed.

Lemma base_good_nz : forall b, base_good b -> (0 < rval (base_ratio b))%Q.
Proof.
  intros b ((P & _) & _ & N). unfold rval, frac.
  apply Qmult_lt_0_compat; [|apply p10_pos].
  apply Qlt_shift_div_l; [now rewrite <- (Zlt_Qlt 0)|]. rewrite Qmult_0_l. now rewrite <- (Zlt_Qlt 0).
Qed.

Lemma consolidate_squared : forall e l r, consolidate_from e l = Ok r ->
  Forall (fun e => half_int e /\ base_good (e_dim e)) (e :: l) ->
  (squared r == squared (e :: l))%Q /\ Forall half_int r.
Proof.
  intros e l; pattern e, l; apply consolidate_ind; clear e l.
  intros e [|f rest] IH r H F.
  - simpl in H. inversion H; subst. split; [reflexivity|].
    inversion F as [|? ? [F1 _] _]; subst. auto.
  - inversion F as [|? ? [He Be] F']; subst. inversion F' as [|? ? [Hf Bf] Fr]; subst.
    cbn [consolidate_from] in H. destruct (bdim_eq_dec (e_dim e) (e_dim f)) as [D|D].
    + unbind.
      apply std_ratio_spec in E, E0.
      destruct E as (Z1 & P1 & _ & _ & _ & V1). destruct E0 as (Z2 & P2 & _ & _ & _ & V2).
      apply std_ratio_add_spec in E1; auto. destruct E1 as (P3 & _ & _ & _ & V3).
      assert (S : (inject_Z (fst v1) / inject_Z (snd v1) == equot e + equot f)%Q).
      { rewrite V3, V1, V2. reflexivity. }
      assert (Tw : (inject_Z (twice e + twice f) == 2 * (inject_Z (fst v1) / inject_Z (snd v1)))%Q).
      { rewrite S, inject_Z_plus, !twice_spec by auto. ring. }
      pose proof (base_good_nz _ Be) as Bp.
      assert (Bn : ~ (rval (base_ratio (e_dim e)) == 0)%Q) by lra.
      destruct (Z.eqb_spec (fst v1) 0) as [Z0|NZ].
      * assert (T0 : twice e + twice f = 0).
        { apply (proj1 (inject_Z_injective _ _)). rewrite Tw, Z0. change (inject_Z 0) with 0%Q.
          unfold Qdiv. ring. }
        assert (X : (squared r == squared rest)%Q /\ Forall half_int r).
        { destruct rest as [|g rest'].
          - inversion H; subst. split; [reflexivity|constructor].
          - apply (IH g rest'); [simpl; lia|exact H|exact Fr]. }
        destruct X as [X1 X2]. split; auto. rewrite X1. cbn [squared]. rewrite <- D.
        rewrite Qmult_assoc, <- Qpower_plus, T0 by auto. simpl. ring.
      * assert (Hs : snd v1 <> 0) by lia.
        destruct (half_int_of (e_dim e) _ _ _ Hs Tw) as [Hh Ht].
        assert (Lr : (length rest < length (f :: rest))%nat) by (simpl; lia).
        destruct (IH _ _ Lr r H) as [X1 X2].
        { constructor; auto. }
        split; auto. rewrite X1. cbn [squared e_dim]. rewrite Ht, <- D.
        rewrite Qpower_plus by auto. ring.
    + unbind. assert (Lr : (length rest < length (f :: rest))%nat) by (simpl; lia).
      destruct (IH f rest Lr _ E F') as [X1 X2]. unfold push_front; simpl. split; [now rewrite X1|constructor; auto].
Qed.

Lemma Qpower_pos_lt : forall q n, (0 < q)%Q -> (0 < q ^ n)%Q.
Proof.
  intros q n H. destruct (Qlt_le_dec 0 (q ^ n)) as [L|L]; auto.
  exfalso. pose proof (Qpower_0_le q n (Qlt_le_weak _ _ H)) as P.
  apply (Qpower_not_0 q n); lra.
Qed.

Lemma exp_ratio_spec : forall est e p, base_good (e_dim e) -> exact_root est e ->
  exp_ratio est e = Ok p ->
  half_int e /\ (0 < rval p)%Q /\ (rval p ^ 2 == rval (base_ratio (e_dim e)) ^ twice e)%Q /\
  lowest p /\ storable p.
Proof.
  intros est e p B X H. pose proof (base_good_nz _ B) as Bp. destruct B as (L & Sb & N).
  assert (Lp : (e_den e = 1 \/ e_den e = 2) /\ lowest p /\ storable p /\
               (e_den e = 1 -> (rval p == rval (base_ratio (e_dim e)) ^ e_num e)%Q)).
  { unfold exp_ratio in H. unbind. apply orb_true_iff in E. rewrite !Z.eqb_eq in E.
    fold (base_ratio (e_dim e)) in *.
    apply cmul_ok in E0 as [-> _].
    assert (P : lowest v1 /\ storable v1 /\ (rval v1 ^ v2 == rval (base_ratio (e_dim e)) ^ e_num e)%Q).
    { destruct (e_num e * e_den e <? 0) eqn:S.
      - unbind. apply cneg_ok in E0 as [-> Re]. apply cneg_ok in E2 as [-> _].
        split; [apply mk_ratio_sound in E1; tauto|].
        split; [eapply mk_ratio_storable; [|exact E1]; apply in_range_I64; exact Re|].
        apply mk_ratio_sound in E1 as (_ & V & Lv). 
        rewrite V. unfold frac.
        assert (Y : (inject_Z (rden (base_ratio (e_dim e))) / inject_Z (rnum (base_ratio (e_dim e))) *
                  (10 # 1) ^ (- rexp (base_ratio (e_dim e))) == / rval (base_ratio (e_dim e)))%Q).
        { unfold rval, frac. rewrite Qpower_opp. field.
          repeat split; try (apply inject_Z_nz; destruct L as (? & _); lia).
          apply Qpower_not_0. discriminate. }
        rewrite Y. rewrite Qinv_power, <- Qpower_opp. now rewrite Z.opp_involutive.
      - inversion E1; inversion E2; subst. split; auto. split; auto. reflexivity. }
    destruct P as (L1 & S1 & V1). rewrite <- (Z.mul_1_r v2) in E3.
    destruct (rpow_good _ _ _ _ _ L1 S1 E3) as [L3 S3].
    apply rpow_sound in E3 as (V & _); auto; [|discriminate].
    split; auto.
    destruct (Z.eqb_spec (e_den e) 2) as [D2|D2].
    - unfold rsqrt in H. destruct (rpow_good _ _ _ _ _ L3 S3 H). split; auto. split; auto. lia.
    - inversion H; subst. split; auto. split; auto. intros D1. now rewrite V, V1. }
  destruct Lp as ([D|D] & Lp & Sp & V).
  - specialize (V D). split; [split; [lia|rewrite D; apply Z.divide_1_l]|].
    split; [rewrite V; now apply Qpower_pos_lt|]. split; auto.
    rewrite V. unfold twice. rewrite D, Z.div_1_r, <- Qpower_mult. now rewrite Z.mul_comm.
  - destruct (X D p H) as [X1 X2].
    split; [split; [lia|rewrite D; exists (e_num e); lia]|]. split; auto. split; auto.
    rewrite X2. unfold twice. rewrite D, Z.mul_comm, Z.div_mul by discriminate. reflexivity.
Qed.

Lemma rpos_mult : forall a b, (0 < a)%Q -> (0 < b)%Q -> (0 < a * b)%Q.
Proof. intros. now apply Qmult_lt_0_compat. Qed.

Lemma base_units_ratio_spec : forall est es r,
  Forall (fun e => base_good (e_dim e) /\ exact_root est e) es ->
  base_units_ratio est es = Ok r ->
  Forall half_int es /\ (0 < rval r)%Q /\ (rval r ^ 2 == squared es)%Q /\ lowest r /\ storable r.
Proof.
  intros est es; induction es as [|e es IH]; intros r F H; simpl in H.
  - apply rone_ok in H || (change (mk_ratio 1 1 0) with (Ok rone) in H; inversion H; subst r).
    split; [constructor|]. split; [reflexivity|]. split; [reflexivity|].
    split; [apply rone_lowest|apply rone_storable].
  - inversion F as [|? ? [Be Xe] F']; subst. unbind.
    destruct (exp_ratio_spec _ _ _ Be Xe E) as (H1 & P1 & V1 & L1 & S1).
    destruct (IH _ F' E0) as (H2 & P2 & V2 & L2 & S2).
    destruct (rmul_sound _ _ _ L1 L2 H) as (V & L & S).
    split; [constructor; auto|]. split; [rewrite V; now apply rpos_mult|].
    split; auto. cbn [squared]. rewrite V, Qmult_power, V1, V2. reflexivity.
Qed.

Lemma square_inj : forall a b, (0 < a)%Q -> (0 < b)%Q -> (a ^ 2 == b ^ 2)%Q -> (a == b)%Q.
Proof.
  intros a b Ha Hb H.
  assert (E : ((a - b) * (a + b) == 0)%Q).
  { assert (X : (a * a == b * b)%Q) by (revert H; simpl; auto).
    transitivity (a * a - b * b)%Q; [ring|]. rewrite X. ring. }
  apply Qmult_integral in E as [E|E]; lra.
Qed.

Definition entries_good (est : estimate) (es : list bexp) : Prop :=
  Forall (fun e => base_good (e_dim e) /\ exact_root est e) es.

Lemma merge_squared : forall est l1 l2 es r1 r2,
  entries_good est l1 -> entries_good est l2 ->
  base_units_ratio est l1 = Ok r1 -> base_units_ratio est l2 = Ok r2 ->
  dim_consolidate (merge_sorted exponent_less l1 l2) = Ok es ->
  (squared es == squared l1 * squared l2)%Q.
Proof.
  intros est l1 l2 es r1 r2 F1 F2 B1 B2 H.
  destruct (base_units_ratio_spec _ _ _ F1 B1) as (H1 & _).
  destruct (base_units_ratio_spec _ _ _ F2 B2) as (H2 & _).
  assert (F : Forall (fun e => half_int e /\ base_good (e_dim e)) (merge_sorted exponent_less l1 l2)).
  { unfold entries_good in *. rewrite Forall_forall in *. intros e He.
    apply (Permutation_in _ (merge_sorted_perm _ _ _)) in He.
    apply in_app_or in He as [He|He]; split; auto; [apply (F1 e He)|apply (F2 e He)]. }
  rewrite <- squared_app, <- (squared_perm _ _ (merge_sorted_perm exponent_less l1 l2)).
  unfold dim_consolidate in H. destruct (merge_sorted exponent_less l1 l2) as [|e l].
  - inversion H; subst. reflexivity.
  - apply (consolidate_squared _ _ _ H F).
Qed.

(** The ratio of the base units of a product is the product of the ratios. *)
Lemma bur_multiply : forall U, symbols_identify U -> forall est w d1 d2 d r1 r2 r,
  consistent w -> ndim U d1 -> ndim U d2 ->
  (forall b, U b -> base_good b) ->
  Forall (exact_root est) (exponents d1) -> Forall (exact_root est) (exponents d2) ->
  Forall (exact_root est) (exponents d) ->
  dimension_multiply w d1 d2 = Ok d ->
  base_units_ratio est (exponents d1) = Ok r1 -> base_units_ratio est (exponents d2) = Ok r2 ->
  base_units_ratio est (exponents d) = Ok r ->
  (rval r == rval r1 * rval r2)%Q.
Proof.
  intros U HU est w d1 d2 d r1 r2 r C N1 N2 G X1 X2 X H B1 B2 B.
  assert (EG : forall es, over U es -> Forall (exact_root est) es -> entries_good est es).
  { intros es O F. unfold entries_good. rewrite Forall_forall in *. intros e He. split; auto. }
  rewrite (dimension_multiply_merge U HU) in H by auto.
  destruct N1 as [N1 O1]. destruct N2 as [N2 O2].
  unfold merge_dimension in H. unbind.
  pose proof (merge_normal U HU _ _ _ O1 O2 N1 N2 E) as N.
  pose proof (merge_over U _ _ _ O1 O2 E) as O.
  destruct (to_dimension_strict w v C (proj1 N)) as (d' & Hd & Ee).
  rewrite H in Hd. inversion Hd; subst d'. rewrite Ee in *.
  destruct (base_units_ratio_spec _ _ _ (EG _ O1 X1) B1) as (_ & P1 & V1 & _).
  destruct (base_units_ratio_spec _ _ _ (EG _ O2 X2) B2) as (_ & P2 & V2 & _).
  destruct (base_units_ratio_spec _ _ _ (EG _ O X) B) as (_ & P & V & _).
  apply square_inj; auto; [now apply rpos_mult|].
  rewrite V, Qmult_power, V1, V2. eapply merge_squared; eauto.
Qed.

Lemma twice_neg : forall e, half_int e -> twice (neg_exp e) = - twice e.
Proof.
  intros e [H1 [k H2]]. unfold twice, neg_exp; cbn [e_num e_den].
  replace (2 * - e_num e) with ((- k) * e_den e) by lia. rewrite H2, !Z.div_mul by auto. reflexivity.
Qed.

Lemma squared_neg : forall es, Forall half_int es -> (squared (map neg_exp es) == / squared es)%Q.
Proof.
  induction 1 as [|e es He H IH]; simpl; [reflexivity|].
  rewrite twice_neg by auto. cbn [neg_exp e_dim]. rewrite Qpower_opp, IH, Qinv_mult_distr. reflexivity.
Qed.

(** The ratio of the base units of an inverse is the inverse ratio. *)
Lemma bur_invert : forall U est w d d' r r',
  consistent w -> ndim U d -> (forall b, U b -> base_good b) ->
  Forall (exact_root est) (exponents d) -> Forall (exact_root est) (exponents d') ->
  dim_invert w d = Ok d' ->
  base_units_ratio est (exponents d) = Ok r -> base_units_ratio est (exponents d') = Ok r' ->
  (rval r' == / rval r)%Q.
Proof.
  intros U est w d d' r r' C [N O] G X X' H B B'.
  assert (EG : forall es, over U es -> Forall (exact_root est) es -> entries_good est es).
  { intros es Ov F. unfold entries_good. rewrite Forall_forall in *. intros e He. split; auto. }
  rewrite dim_invert_canonical in H by auto.
  destruct (to_dimension_strict w _ C (proj1 (neg_normal _ N))) as (d0 & Hd & Ee).
  rewrite H in Hd; inversion Hd; subst d0. rewrite Ee in *.
  destruct (base_units_ratio_spec _ _ _ (EG _ O X) B) as (Hh & P1 & V1 & _).
  destruct (base_units_ratio_spec _ _ _ (EG _ (neg_over U _ O) X') B') as (_ & P2 & V2 & _).
  apply square_inj; auto; [now apply Qinv_lt_0_compat|].
  rewrite V2, Qinv_power, V1. now apply squared_neg.
Qed.
