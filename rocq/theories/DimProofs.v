(** Proofs about exponent lists: consolidation, normal forms. *)

From Coq Require Import ZArith QArith Qreduction Qcanon String List Bool Lia Permutation Sorted Lqa.
From Verif Require Import Outcome CInt Ratio FixedString TypeList Unit Dim SpecDim
  TypeListProofs StringProofs.
Import ListNotations.
Close Scope Qc_scope.
Local Open Scope Z_scope.
Local Open Scope res_scope.

(** ** Ordering of base dimensions *)

Lemma base_dimension_less_spec : forall a b, base_dimension_less a b = true <-> symbol_lt a b.
Proof.
  intros a b; unfold base_dimension_less, symbol_lt.
  assert (H : match u_symbol (bd_unit a), u_symbol (bd_unit a) with
              | Some s1, Some s2 => st_ltb s1 s2 | _, _ => false end = false).
  { destruct (u_symbol (bd_unit a)); auto using st_ltb_irrefl. }
  rewrite H, andb_false_r, orb_false_r. apply fs_ltb_lt.
Qed.

Lemma symbol_lt_irrefl : forall a, ~ symbol_lt a a.
Proof. intros a H; unfold symbol_lt in H. rewrite str_compare_refl in H; discriminate. Qed.

Lemma symbol_lt_trans : forall a b c, symbol_lt a b -> symbol_lt b c -> symbol_lt a c.
Proof. unfold symbol_lt; intros; eapply str_lt_trans; eauto. Qed.

Lemma symbol_lt_asym : forall a b, symbol_lt a b -> ~ symbol_lt b a.
Proof. intros a b H1 H2; apply (symbol_lt_irrefl a); eapply symbol_lt_trans; eauto. Qed.

Lemma symbol_not_lt : forall a b, ~ symbol_lt a b -> bd_symbol a = bd_symbol b \/ symbol_lt b a.
Proof. unfold symbol_lt; intros; now apply str_not_lt. Qed.

Lemma symbol_total : forall a b, symbol_lt a b \/ bd_symbol a = bd_symbol b \/ symbol_lt b a.
Proof.
  intros a b. destruct (String.compare (bd_symbol a) (bd_symbol b)) eqn:E.
  - right; left. now apply String.compare_eq_iff.
  - left; exact E.
  - right; right. unfold symbol_lt. rewrite str_compare_antisym, E. reflexivity.
Qed.

Lemma less_irr : forall x, exponent_less x x = false.
Proof.
  intros; unfold exponent_less. destruct (base_dimension_less _ _) eqn:E; auto.
  apply base_dimension_less_spec, symbol_lt_irrefl in E; tauto.
Qed.
Lemma less_asym : forall x y, exponent_less x y = true -> exponent_less y x = false.
Proof.
  unfold exponent_less; intros x y H. destruct (base_dimension_less (e_dim y) _) eqn:E; auto.
  apply base_dimension_less_spec in H, E. exfalso; eapply symbol_lt_asym; eauto.
Qed.
Lemma less_false : forall x y, exponent_less x y = false <-> ~ symbol_lt (e_dim x) (e_dim y).
Proof.
  intros; unfold exponent_less. rewrite <- base_dimension_less_spec.
  destruct (base_dimension_less _ _); split; congruence.
Qed.
Lemma less_ntrans : forall x y z,
  exponent_less x y = false -> exponent_less y z = false -> exponent_less x z = false.
Proof.
  intros x y z; rewrite !less_false. intros H1 H2 H3.
  apply symbol_not_lt in H1, H2.
  destruct H1 as [H1|H1].
  - destruct H2 as [H2|H2].
    + unfold symbol_lt in H3. rewrite H1, H2, str_compare_refl in H3; discriminate.
    + unfold symbol_lt in *. rewrite H1 in H3.
      apply (symbol_lt_asym (e_dim y) (e_dim z)); auto.
  - destruct H2 as [H2|H2].
    + unfold symbol_lt in *. rewrite <- H2 in H3. apply (symbol_lt_asym (e_dim y) (e_dim x)); auto.
    + apply (symbol_lt_irrefl (e_dim x)). eapply symbol_lt_trans; [exact H3|].
      eapply symbol_lt_trans; eauto.
Qed.

(** ** Exponents under permutation *)

Lemma expo_app : forall l1 l2 b, (expo (l1 ++ l2) b == expo l1 b + expo l2 b)%Q.
Proof. induction l1; intros; simpl; [ring|]. rewrite IHl1; ring. Qed.

Lemma expo_perm : forall l1 l2, Permutation l1 l2 -> forall b, (expo l1 b == expo l2 b)%Q.
Proof.
  induction 1; intros b; simpl; try lra.
  - rewrite IHPermutation; reflexivity.
  - rewrite IHPermutation1; auto.
Qed.

(** ** std::ratio *)

Lemma inject_Z_nz : forall z, z <> 0 -> ~ (inject_Z z == 0)%Q.
Proof. intros z H E. unfold Qeq in E; simpl in E; lia. Qed.

Lemma div_gcd_value : forall n d, d <> 0 ->
  (inject_Z (n / Z.gcd n d) / inject_Z (d / Z.gcd n d) == inject_Z n / inject_Z d)%Q.
Proof.
  intros n d Hd.
  assert (Hg : Z.gcd n d <> 0) by (intros E; apply Z.gcd_eq_0_r in E; auto).
  destruct (Z.gcd_divide_l n d) as [n' Hn]. destruct (Z.gcd_divide_r n d) as [d' Hd'].
  set (g := Z.gcd n d) in *. clearbody g.
  rewrite Hn at 1. rewrite Hd' at 1. rewrite !Z.div_mul by auto.
  rewrite Hn, Hd', !inject_Z_mult.
  assert (d' <> 0) by (intros ->; simpl in Hd'; auto).
  field. split; apply inject_Z_nz; auto.
Qed.

Lemma gcd_div_one : forall n d, d <> 0 -> Z.gcd (n / Z.gcd n d) (d / Z.gcd n d) = 1.
Proof.
  intros n d Hd. apply Z.gcd_div_gcd; auto.
  intros E; apply Z.gcd_eq_0_r in E; auto.
Qed.

Lemma std_ratio_spec : forall n d r, std_ratio n d = Ok r ->
  d <> 0 /\ 0 < snd r /\ Z.gcd (fst r) (snd r) = 1 /\
  Z.abs (fst r) <= INTMAX_MAX /\ snd r <= INTMAX_MAX /\
  (inject_Z (fst r) / inject_Z (snd r) == inject_Z n / inject_Z d)%Q.
Proof.
  intros n d r; unfold std_ratio; intros H; unbind.
  apply andb_true_iff in E; destruct E as [E Hdm].
  apply andb_true_iff in E; destruct E as [Hd0 Hnm].
  apply negb_true_iff, Z.eqb_neq in Hd0. apply Z.leb_le in Hdm, Hnm.
  assert (Hg : 0 < Z.gcd n d).
  { pose proof (Z.gcd_nonneg n d). assert (Z.gcd n d <> 0); [|lia].
    intros E; apply Z.gcd_eq_0_r in E; auto. }
  pose proof (div_gcd_value n d Hd0) as V. pose proof (gcd_div_one n d Hd0) as G1.
  destruct (Z.gcd_divide_l n d) as [n' Hn]. destruct (Z.gcd_divide_r n d) as [d' Hd'].
  set (g := Z.gcd n d) in *.
  assert (En : n / g = n') by (rewrite Hn; apply Z.div_mul; lia).
  assert (Ed : d / g = d') by (rewrite Hd'; apply Z.div_mul; lia).
  assert (Ead : Z.abs d / g = Z.abs d').
  { rewrite Hd', Z.abs_mul, (Z.abs_eq g) by lia. apply Z.div_mul; lia. }
  rewrite En, Ed in *. simpl. rewrite Ead.
  assert (Hd'0 : d' <> 0) by (intros ->; lia).
  assert (Hsd : Z.sgn d = Z.sgn d') by (rewrite Hd', Z.sgn_mul, (Z.sgn_pos g); lia).
  rewrite Hsd.
  assert (B1 : Z.abs n' <= Z.abs n).
  { rewrite Hn, Z.abs_mul, (Z.abs_eq g) by lia. clear - Hg. nia. }
  assert (B2 : Z.abs d' <= Z.abs d).
  { rewrite Hd', Z.abs_mul, (Z.abs_eq g) by lia. clear - Hg. nia. }
  destruct (Z.lt_total d' 0) as [L|[L|L]]; [|lia|].
  - rewrite (Z.sgn_neg d') by auto. rewrite (Z.abs_neq d') in * by lia.
    replace (-1 * n') with (- n') by lia.
    repeat split; try lia.
    + now rewrite Z.gcd_opp_l, Z.gcd_opp_r.
    + rewrite <- V, !inject_Z_opp. field. apply inject_Z_nz; auto.
  - rewrite (Z.sgn_pos d') by auto. rewrite (Z.abs_eq d') in * by lia.
    rewrite Z.mul_1_l. repeat split; try lia. exact V.
Qed.

Lemma std_ratio_proper : forall n d, 0 < d -> Z.gcd n d = 1 ->
  Z.abs n <= INTMAX_MAX -> d <= INTMAX_MAX -> std_ratio n d = Ok (n, d).
Proof.
  intros n d Hd Hg Hn Hm. unfold std_ratio.
  replace (d =? 0) with false by (symmetry; apply Z.eqb_neq; lia).
  rewrite (Z.abs_eq d) by lia.
  replace (Z.abs n <=? INTMAX_MAX) with true by (symmetry; apply Z.leb_le; lia).
  replace (d <=? INTMAX_MAX) with true by (symmetry; apply Z.leb_le; lia).
  simpl. rewrite Hg, Z.sgn_pos, !Z.div_1_r, Z.mul_1_l by lia. reflexivity.
Qed.

(** Fractions in lowest terms are equal only if identical. *)
Lemma lowest_unique : forall a b c d, 0 < b -> 0 < d -> Z.gcd a b = 1 -> Z.gcd c d = 1 ->
  (inject_Z a / inject_Z b == inject_Z c / inject_Z d)%Q -> a = c /\ b = d.
Proof.
  intros a b c d Hb Hd Hg1 Hg2 E.
  assert (X : a * d = c * b).
  { apply (proj1 (inject_Z_injective _ _)). rewrite !inject_Z_mult.
    assert (~ inject_Z b == 0)%Q by (apply inject_Z_nz; lia).
    assert (~ inject_Z d == 0)%Q by (apply inject_Z_nz; lia).
    rewrite <- (Qmult_div_r (inject_Z a) (inject_Z b)) by auto.
    rewrite <- (Qmult_div_r (inject_Z c) (inject_Z d)) by auto.
    rewrite E. ring. }
  assert (D1 : (b | d)).
  { apply Z.gauss with a; [exists c; lia|rewrite Z.gcd_comm; auto]. }
  assert (D2 : (d | b)).
  { apply Z.gauss with c; [exists a; lia|rewrite Z.gcd_comm; auto]. }
  assert (b = d) by (apply Z.divide_antisym_nonneg; auto; lia).
  subst. split; auto. apply Z.mul_reg_r with d; lia.
Qed.

Lemma Qred_lowest : forall a b, 0 < b -> Z.gcd a b = 1 ->
  Qnum (Qred (inject_Z a / inject_Z b)) = a /\ Zpos (Qden (Qred (inject_Z a / inject_Z b))) = b.
Proof.
  intros a b Hb Hg.
  set (q := Qred (inject_Z a / inject_Z b)).
  assert (Hq : (q == inject_Z a / inject_Z b)%Q) by apply Qred_correct.
  assert (Hqg : Z.gcd (Qnum q) (Zpos (Qden q)) = 1).
  { apply Qcanon.Qred_iff. unfold q. apply Qcanon.Qred_involutive. }
  apply lowest_unique; auto; [reflexivity|].
  rewrite <- Hq. symmetry. destruct q as [x y]. simpl. apply Qmake_Qdiv.
Qed.

Lemma std_ratio_add_spec : forall a b r, 0 < snd a -> 0 < snd b -> std_ratio_add a b = Ok r ->
  0 < snd r /\ Z.gcd (fst r) (snd r) = 1 /\ Z.abs (fst r) <= INTMAX_MAX /\ snd r <= INTMAX_MAX /\
  (inject_Z (fst r) / inject_Z (snd r) ==
   inject_Z (fst a) / inject_Z (snd a) + inject_Z (fst b) / inject_Z (snd b))%Q.
Proof.
  intros [a1 a2] [b1 b2] r Ha Hb H. unfold std_ratio_add in H. cbn [fst snd] in *.
  apply std_ratio_spec in H as (H1 & H2 & H3 & H4 & H5 & H6).
  repeat split; auto. rewrite H6.
  rewrite div_gcd_value by (apply Z.neq_mul_0; lia).
  rewrite inject_Z_plus, !inject_Z_mult. field.
  split; apply inject_Z_nz; lia.
Qed.

Lemma std_ratio_add_complete : forall a b, 0 < snd a -> 0 < snd b ->
  representable (inject_Z (fst a) / inject_Z (snd a) + inject_Z (fst b) / inject_Z (snd b)) ->
  exists r, std_ratio_add a b = Ok r.
Proof.
  intros [a1 a2] [b1 b2] Ha Hb [R1 R2]. unfold std_ratio_add. cbn [fst snd] in *.
  set (n := a1 * b2 + b1 * a2) in *. set (d := a2 * b2) in *.
  assert (Hd : 0 < d) by (apply Z.mul_pos_pos; auto).
  assert (Hg : 0 < Z.gcd n d).
  { pose proof (Z.gcd_nonneg n d). assert (Z.gcd n d <> 0); [|lia].
    intros E; apply Z.gcd_eq_0_r in E; lia. }
  assert (Hd' : 0 < d / Z.gcd n d).
  { destruct (Z.gcd_divide_r n d) as [d' Hd'].
    rewrite Hd' at 1. rewrite Z.div_mul by lia.
    clear - Hd Hd' Hg. nia. }
  pose proof (gcd_div_one n d ltac:(lia)) as G1.
  pose proof (Qred_lowest _ _ Hd' G1) as [Q1 Q2].
  assert (EQ : Qred (inject_Z (n / Z.gcd n d) / inject_Z (d / Z.gcd n d)) =
               Qred (inject_Z a1 / inject_Z a2 + inject_Z b1 / inject_Z b2)).
  { apply Qred_complete. rewrite div_gcd_value by lia. unfold n, d.
    rewrite inject_Z_plus, !inject_Z_mult. field. split; apply inject_Z_nz; lia. }
  rewrite EQ in Q1, Q2. rewrite Q1 in R1. rewrite Q2 in R2.
  rewrite std_ratio_proper; eauto.
Qed.

Lemma std_ratio_add_comm : forall a b, std_ratio_add a b = std_ratio_add b a.
Proof.
  intros a b; unfold std_ratio_add.
  rewrite (Z.mul_comm (snd a) (snd b)), (Z.add_comm (fst a * snd b)). reflexivity.
Qed.

(** ** Consolidation *)

Lemma consolidate_ind : forall (P : bexp -> list bexp -> Prop),
  (forall e l, (forall f r, (length r < length l)%nat -> P f r) -> P e l) -> forall e l, P e l.
Proof.
  intros P H e l. remember (length l) as n eqn:E.
  assert (G : forall n l e, (length l <= n)%nat -> P e l).
  { clear - H. induction n; intros l e Hl.
    - apply H. intros; lia.
    - apply H. intros f r Hr. apply IHn. lia. }
  apply (G n); lia.
Qed.

Lemma consolidate_from_expo : forall e l r, consolidate_from e l = Ok r ->
  forall b, (expo r b == expo (e :: l) b)%Q.
Proof.
  intros e l; pattern e, l; apply consolidate_ind; clear e l.
  intros e [|f rest] IH r H b.
  - simpl in H. inversion H; subst. reflexivity.
  - cbn [consolidate_from] in H. destruct (bdim_eq_dec (e_dim e) (e_dim f)) as [D|D].
    + unbind.
      apply std_ratio_spec in E, E0.
      destruct E as (Z1 & P1 & _ & _ & _ & V1). destruct E0 as (Z2 & P2 & _ & _ & _ & V2).
      apply std_ratio_add_spec in E1; auto. destruct E1 as (P3 & _ & _ & _ & V3).
      assert (S : (inject_Z (fst v1) / inject_Z (snd v1) == equot e + equot f)%Q).
      { rewrite V3, V1, V2. reflexivity. }
      destruct (Z.eqb_spec (fst v1) 0) as [Z0|NZ].
      * assert (S0 : (equot e + equot f == 0)%Q).
        { rewrite <- S, Z0. unfold Qdiv. rewrite Qmult_0_l. reflexivity. }
        assert (X : (expo r b == expo rest b)%Q).
        { destruct rest as [|g rest'].
          - inversion H; subst; reflexivity.
          - apply (IH g rest'); [simpl; lia|exact H]. }
        rewrite X. cbn [expo]. rewrite <- D.
        destruct (bdim_eq_dec (e_dim e) b); lra.
      * apply IH with (b := b) in H; [|simpl; lia]. rewrite H.
        cbn [expo e_dim]. rewrite <- D.
        destruct (bdim_eq_dec (e_dim e) b); [|lra].
        unfold equot at 1. cbn [e_num e_den]. rewrite S. lra.
    + unbind. apply IH with (b := b) in E; [|simpl; lia].
      unfold push_front. cbn [app expo]. rewrite E. reflexivity.
Qed.

Lemma dim_consolidate_expo : forall l r, dim_consolidate l = Ok r ->
  forall b, (expo r b == expo l b)%Q.
Proof.
  intros [|e l] r H b; simpl in H.
  - inversion H; reflexivity.
  - eapply consolidate_from_expo; eauto.
Qed.

Lemma consolidate_from_dims : forall e l r, consolidate_from e l = Ok r ->
  forall f, In f r -> exists g, In g (e :: l) /\ e_dim g = e_dim f.
Proof.
  intros e l; pattern e, l; apply consolidate_ind; clear e l.
  intros e [|f0 rest] IH r H f Hf.
  - simpl in H. inversion H; subst. exists f; auto.
  - cbn [consolidate_from] in H. destruct (bdim_eq_dec (e_dim e) (e_dim f0)) as [D|D].
    + unbind. destruct (fst v1 =? 0).
      * destruct rest as [|g rest']; [inversion H; subst; contradiction|].
        eapply IH in H; [|simpl; lia|exact Hf].
        destruct H as (g' & Hg & Eg). exists g'; split; auto. simpl in *; tauto.
      * eapply IH in H; [|simpl; lia|exact Hf].
        destruct H as (g' & [Hg|Hg] & Eg).
        -- exists e; split; [left; auto|]. subst g'. exact Eg.
        -- exists g'; split; auto. simpl; tauto.
    + unbind. unfold push_front in Hf. simpl in Hf. destruct Hf as [->|Hf].
      * exists f; simpl; auto.
      * eapply IH in E; [|simpl; lia|exact Hf].
        destruct E as (g' & Hg & Eg). exists g'; split; auto. right; auto.
Qed.

Lemma dim_consolidate_dims : forall l r, dim_consolidate l = Ok r ->
  forall f, In f r -> exists g, In g l /\ e_dim g = e_dim f.
Proof.
  intros [|e l] r H f Hf; simpl in H.
  - inversion H; subst; contradiction.
  - eapply consolidate_from_dims; eauto.
Qed.

Lemma consolidate_from_proper : forall e l r, consolidate_from e l = Ok r ->
  Forall proper (e :: l) -> Forall proper r.
Proof.
  intros e l; pattern e, l; apply consolidate_ind; clear e l.
  intros e [|f0 rest] IH r H F.
  - simpl in H. inversion H; subst; auto.
  - inversion F as [|? ? Pe F']; subst. inversion F' as [|? ? Pf F'']; subst.
    cbn [consolidate_from] in H. destruct (bdim_eq_dec (e_dim e) (e_dim f0)) as [D|D].
    + unbind.
      apply std_ratio_spec in E, E0.
      apply std_ratio_add_spec in E1; try tauto. destruct E1 as (P3 & G3 & B3 & B4 & V3).
      destruct (Z.eqb_spec (fst v1) 0).
      * destruct rest as [|g rest']; [inversion H; subst; constructor|].
        apply IH in H; auto; simpl; lia.
      * apply IH in H; [auto|simpl; lia|].
        constructor; auto. unfold proper; simpl; auto.
    + unbind. apply IH in E; [constructor; auto|simpl; lia|auto].
Qed.

Lemma dim_consolidate_proper : forall l r, dim_consolidate l = Ok r ->
  Forall proper l -> Forall proper r.
Proof.
  intros [|e l] r H F; simpl in H.
  - inversion H; subst; constructor.
  - eapply consolidate_from_proper; eauto.
Qed.

Definition weakly_sorted (l : list bexp) : Prop :=
  StronglySorted (fun x y => exponent_less y x = false) l.
Definition strictly_sorted (l : list bexp) : Prop :=
  StronglySorted (fun e f => symbol_lt (e_dim e) (e_dim f)) l.

Lemma strictly_weakly : forall l, strictly_sorted l -> weakly_sorted l.
Proof.
  induction 1; constructor; auto.
  rewrite Forall_forall in *. intros x Hx. apply less_false. apply symbol_lt_asym; auto.
Qed.

Lemma weakly_sorted_dim : forall e e' l, e_dim e = e_dim e' ->
  weakly_sorted (e :: l) -> weakly_sorted (e' :: l).
Proof.
  intros e e' l D H. apply StronglySorted_inv in H as [H F]. constructor; auto.
  rewrite Forall_forall in *. intros x Hx. specialize (F x Hx).
  unfold exponent_less in *. now rewrite <- D.
Qed.

Lemma consolidate_from_sorted : forall U, symbols_identify U -> forall e l r,
  consolidate_from e l = Ok r -> over U (e :: l) -> weakly_sorted (e :: l) -> strictly_sorted r.
Proof.
  intros U HU e l; pattern e, l; apply consolidate_ind; clear e l.
  intros e [|f0 rest] IH r H O W.
  - simpl in H. inversion H; subst. repeat constructor.
  - pose proof (StronglySorted_inv W) as [W' Fe].
    pose proof (StronglySorted_inv W') as [W'' Ff].
    cbn [consolidate_from] in H. destruct (bdim_eq_dec (e_dim e) (e_dim f0)) as [D|D].
    + unbind. destruct (fst v1 =? 0).
      * destruct rest as [|g rest']; [inversion H; subst; constructor|].
        apply IH in H; [auto|simpl; lia| |auto]. intros x Hx; apply O; simpl in *; tauto.
      * apply IH in H; [auto|simpl; lia| |].
        -- intros x [Hx|Hx]; [subst x; simpl; apply O; simpl; auto|apply O; simpl; auto].
        -- apply (weakly_sorted_dim f0); auto.
    + unbind. pose proof E as E'. apply IH in E'; [|simpl; lia|intros x Hx; apply O; right; auto|auto].
      unfold push_front; simpl. constructor; auto.
      rewrite Forall_forall. intros x Hx.
      destruct (consolidate_from_dims _ _ _ E x Hx) as (g & Hg & Dg). rewrite <- Dg.
      assert (Lf : symbol_lt (e_dim e) (e_dim f0)).
      { assert (X : exponent_less f0 e = false) by (inversion Fe; auto).
        apply less_false, symbol_not_lt in X. destruct X as [X|X]; auto.
        exfalso; apply D. apply HU; auto; apply O; simpl; auto. }
      destruct Hg as [->|Hg]; auto.
      rewrite Forall_forall in Ff. specialize (Ff g Hg).
      apply less_false, symbol_not_lt in Ff. destruct Ff as [X|X].
      * unfold symbol_lt in *. now rewrite X.
      * eapply symbol_lt_trans; eauto.
Qed.

Lemma dim_consolidate_sorted : forall U, symbols_identify U -> forall l r,
  dim_consolidate l = Ok r -> over U l -> weakly_sorted l -> strictly_sorted r.
Proof.
  intros U HU [|e l] r H O W; simpl in H.
  - inversion H; subst; constructor.
  - eapply consolidate_from_sorted; eauto.
Qed.

(** A strictly sorted list is left alone by sorting and consolidation. *)
Lemma consolidate_cons : forall e l,
  (forall f, In f l -> e_dim e <> e_dim f) ->
  dim_consolidate (e :: l) = (t <- dim_consolidate l; Ok (e :: t)).
Proof.
  intros e [|f l] H; simpl; auto.
  destruct (bdim_eq_dec (e_dim e) (e_dim f)) as [D|D]; auto.
  exfalso; apply (H f); simpl; auto.
Qed.

Lemma strict_dims : forall e l, strictly_sorted (e :: l) -> forall f, In f l -> e_dim e <> e_dim f.
Proof.
  intros e l S f Hf E. apply StronglySorted_inv in S as [_ F].
  rewrite Forall_forall in F. specialize (F f Hf). rewrite E in F.
  now apply symbol_lt_irrefl in F.
Qed.

Lemma consolidate_strict : forall l, strictly_sorted l -> dim_consolidate l = Ok l.
Proof.
  induction l as [|e l IH]; intros S; auto.
  rewrite consolidate_cons by (apply strict_dims; auto).
  apply StronglySorted_inv in S as [S _]. now rewrite IH.
Qed.

Lemma sorted_perm_unique : forall l1 l2, strictly_sorted l1 -> weakly_sorted l2 ->
  Permutation l2 l1 -> l2 = l1.
Proof.
  induction l1 as [|x l1 IH]; intros l2 S1 S2 P.
  - now apply Permutation_nil, Permutation_sym.
  - destruct l2 as [|y l2]; [apply Permutation_nil in P; discriminate|].
    pose proof (StronglySorted_inv S1) as [S1' F1].
    pose proof (StronglySorted_inv S2) as [S2' F2].
    rewrite Forall_forall in F1, F2.
    assert (E : y = x).
    { assert (Hy : In y (x :: l1)) by (eapply Permutation_in; [exact P|left; auto]).
      destruct Hy as [Hy|Hy]; [auto|].
      specialize (F1 y Hy).
      assert (Hx : In x (y :: l2)) by (eapply Permutation_in; [apply Permutation_sym; exact P|left; auto]).
      destruct Hx as [Hx|Hx]; [auto|].
      specialize (F2 x Hx). apply less_false in F2. contradiction. }
    subst y. f_equal. apply IH; auto. eapply Permutation_cons_inv; eauto.
Qed.

Lemma sort_strict : forall l, strictly_sorted l -> type_list_sort exponent_less l = l.
Proof.
  intros l S.
  destruct (type_list_sort_spec exponent_less less_ntrans less_asym l) as [P W].
  apply sorted_perm_unique; auto.
Qed.

(** ** Uniqueness of normal forms *)

Lemma equot_proper_nz : forall e, proper e -> ~ (equot e == 0)%Q.
Proof.
  intros e (N & D & _) E. unfold equot in E. apply N.
  apply (proj1 (inject_Z_injective _ _)).
  rewrite <- (Qmult_div_r (inject_Z (e_num e)) (inject_Z (e_den e))) by (apply inject_Z_nz; lia).
  rewrite E. ring.
Qed.

Lemma expo_absent : forall l b, (forall f, In f l -> e_dim f <> b) -> (expo l b == 0)%Q.
Proof.
  induction l as [|e l IH]; intros b H; simpl; [reflexivity|].
  destruct (bdim_eq_dec (e_dim e) b) as [D|D].
  - exfalso; apply (H e); simpl; auto.
  - rewrite IH by (intros f Hf; apply H; right; auto). ring.
Qed.

Lemma expo_head : forall e l, strictly_sorted (e :: l) -> (expo (e :: l) (e_dim e) == equot e)%Q.
Proof.
  intros e l S; simpl. destruct (bdim_eq_dec (e_dim e) (e_dim e)) as [_|N]; [|congruence].
  rewrite expo_absent; [ring|]. intros f Hf E. eapply strict_dims; eauto.
Qed.

Lemma expo_below : forall e l b, strictly_sorted (e :: l) -> symbol_lt b (e_dim e) ->
  (expo (e :: l) b == 0)%Q.
Proof.
  intros e l b S L. apply expo_absent. intros f [->|Hf] E.
  - subst. now apply symbol_lt_irrefl in L.
  - apply StronglySorted_inv in S as [_ F]. rewrite Forall_forall in F.
    specialize (F f Hf). rewrite E in F. eapply symbol_lt_asym; eauto.
Qed.

Lemma equot_inj : forall e f, proper e -> proper f -> e_dim e = e_dim f ->
  (equot e == equot f)%Q -> e = f.
Proof.
  intros [d1 n1 m1] [d2 n2 m2] (A1 & A2 & A3 & _) (B1 & B2 & B3 & _) D E; simpl in *.
  unfold equot in E; simpl in E.
  destruct (lowest_unique n1 m1 n2 m2) as [-> ->]; auto. now subst.
Qed.

Lemma normal_unique : forall U, symbols_identify U -> forall l1 l2,
  normal l1 -> normal l2 -> over U l1 -> over U l2 ->
  (forall b, U b -> (expo l1 b == expo l2 b)%Q) -> l1 = l2.
Proof.
  intros U HU l1; induction l1 as [|e l1 IH]; intros [|f l2] [S1 P1] [S2 P2] O1 O2 H; auto.
  - exfalso. specialize (H (e_dim f) (O2 f ltac:(simpl; auto))).
    rewrite expo_head in H by auto. simpl in H.
    inversion P2; subst. apply (equot_proper_nz f); auto. now rewrite <- H.
  - exfalso. specialize (H (e_dim e) (O1 e ltac:(simpl; auto))).
    rewrite expo_head in H by auto. simpl in H.
    inversion P1; subst. apply (equot_proper_nz e); auto.
  - inversion P1 as [|? ? Pe P1']; subst. inversion P2 as [|? ? Pf P2']; subst.
    assert (Ue : U (e_dim e)) by (apply O1; simpl; auto).
    assert (Uf : U (e_dim f)) by (apply O2; simpl; auto).
    destruct (symbol_total (e_dim e) (e_dim f)) as [L|[L|L]].
    + exfalso. pose proof (H _ Ue) as X. rewrite expo_head in X by auto.
      rewrite expo_below in X by auto. apply (equot_proper_nz e); auto.
    + assert (D : e_dim e = e_dim f) by (apply HU; auto).
      assert (E : e = f).
      { apply equot_inj; auto. pose proof (H _ Ue) as X. rewrite expo_head in X by auto.
        rewrite X, D. apply expo_head; auto. }
      subst f. f_equal. apply IH; auto.
      * split; auto. apply StronglySorted_inv in S1; tauto.
      * split; auto. apply StronglySorted_inv in S2; tauto.
      * intros x Hx; apply O1; right; auto.
      * intros x Hx; apply O2; right; auto.
      * intros b Hb. specialize (H b Hb). simpl in H. lra.
    + exfalso. pose proof (H _ Uf) as X. rewrite expo_head in X by auto.
      rewrite expo_below in X by auto. apply (equot_proper_nz f); auto. now rewrite <- X.
Qed.

(** ** Sum of two normal lists *)

Definition add_entry (e f : bexp) (rest : res (list bexp)) : res (list bexp) :=
  r1 <- std_ratio (e_num e) (e_den e);
  r2 <- std_ratio (e_num f) (e_den f);
  r <- std_ratio_add r1 r2;
  t <- rest;
  Ok (if fst r =? 0 then t else BExp (e_dim e) (fst r) (snd r) :: t).

Lemma merge_head_lt : forall x l1 l2, strictly_sorted (x :: l1) ->
  (forall f, In f l2 -> symbol_lt (e_dim x) (e_dim f)) ->
  forall f, In f (merge_sorted exponent_less l1 l2) -> symbol_lt (e_dim x) (e_dim f).
Proof.
  intros x l1 l2 S H f Hf.
  apply (Permutation_in _ (merge_sorted_perm _ _ _)) in Hf.
  apply in_app_or in Hf as [Hf|Hf]; auto.
  apply StronglySorted_inv in S as [_ F]. rewrite Forall_forall in F. auto.
Qed.

Lemma lt_neq : forall a b, symbol_lt a b -> a <> b.
Proof. intros a b H ->. now apply symbol_lt_irrefl in H. Qed.

Lemma strict_head_lt : forall x l, strictly_sorted (x :: l) ->
  forall f, In f l -> symbol_lt (e_dim x) (e_dim f).
Proof. intros x l S. apply StronglySorted_inv in S as [_ F]. now rewrite Forall_forall in F. Qed.

Lemma merge_lt : forall x l1 y l2, symbol_lt (e_dim x) (e_dim y) ->
  strictly_sorted (x :: l1) -> strictly_sorted (y :: l2) ->
  dim_consolidate (merge_sorted exponent_less (x :: l1) (y :: l2)) =
  (t <- dim_consolidate (merge_sorted exponent_less l1 (y :: l2)); Ok (x :: t)).
Proof.
  intros x l1 y l2 L S1 S2. rewrite merge_sorted_cons.
  assert (E : exponent_less x y = true) by (unfold exponent_less; apply base_dimension_less_spec; auto).
  rewrite E. apply consolidate_cons. intros f Hf.
  apply lt_neq. apply merge_head_lt with (x := x) (l1 := l1) (l2 := y :: l2); auto.
  intros g [->|Hg]; auto. eapply symbol_lt_trans; eauto. eapply strict_head_lt; eauto.
Qed.

Lemma merge_gt : forall x l1 y l2, symbol_lt (e_dim y) (e_dim x) ->
  strictly_sorted (x :: l1) -> strictly_sorted (y :: l2) ->
  dim_consolidate (merge_sorted exponent_less (x :: l1) (y :: l2)) =
  (t <- dim_consolidate (merge_sorted exponent_less (x :: l1) l2); Ok (y :: t)).
Proof.
  intros x l1 y l2 L S1 S2. rewrite merge_sorted_cons.
  assert (E : exponent_less x y = false) by (apply less_false, symbol_lt_asym; auto).
  rewrite E. apply consolidate_cons. intros f Hf. apply lt_neq.
  apply (Permutation_in _ (merge_sorted_perm _ _ _)) in Hf.
  apply in_app_or in Hf as [[<-|Hf]|Hf]; auto.
  - eapply symbol_lt_trans; eauto. eapply strict_head_lt; eauto.
  - eapply strict_head_lt; eauto.
Qed.

Lemma merge_pop_left : forall x l1 l2, strictly_sorted (x :: l1) ->
  (forall f, In f l2 -> symbol_lt (e_dim x) (e_dim f)) ->
  merge_sorted exponent_less (x :: l1) l2 = x :: merge_sorted exponent_less l1 l2.
Proof.
  intros x l1 [|y l2] S H.
  - now rewrite !merge_sorted_nil_r.
  - rewrite merge_sorted_cons.
    assert (E : exponent_less x y = true)
      by (unfold exponent_less; apply base_dimension_less_spec, H; simpl; auto).
    now rewrite E.
Qed.

Lemma merge_eq : forall x l1 y l2, e_dim x = e_dim y ->
  strictly_sorted (x :: l1) -> strictly_sorted (y :: l2) ->
  dim_consolidate (merge_sorted exponent_less (x :: l1) (y :: l2)) =
  add_entry y x (dim_consolidate (merge_sorted exponent_less l1 l2)).
Proof.
  intros x l1 y l2 D S1 S2. rewrite merge_sorted_cons.
  assert (E : exponent_less x y = false).
  { apply less_false. rewrite D. apply symbol_lt_irrefl. }
  assert (H2 : forall f, In f l2 -> symbol_lt (e_dim x) (e_dim f)).
  { rewrite D. apply strict_head_lt; auto. }
  rewrite E. rewrite merge_pop_left by auto.
  set (m := merge_sorted exponent_less l1 l2).
  assert (Hm : forall f, In f m -> symbol_lt (e_dim y) (e_dim f)).
  { intros f Hf. rewrite <- D. eapply merge_head_lt; eauto. }
  unfold add_entry, dim_consolidate at 1. cbn [consolidate_from].
  destruct (bdim_eq_dec (e_dim y) (e_dim x)) as [_|N]; [|congruence].
  destruct (std_ratio (e_num y) (e_den y)) as [r1| | | |]; simpl; auto.
  destruct (std_ratio (e_num x) (e_den x)) as [r2| | | |]; simpl; auto.
  destruct (std_ratio_add r1 r2) as [r| | | |]; simpl; auto.
  destruct (fst r =? 0).
  - change (match m with [] => Ok [] | g :: rest' => consolidate_from g rest' end) with (dim_consolidate m).
    destruct (dim_consolidate m); reflexivity.
  - change (consolidate_from ?e m) with (dim_consolidate (e :: m)).
    apply (consolidate_cons (BExp (e_dim y) (fst r) (snd r)) m).
    intros f Hf. simpl. apply lt_neq; auto.
Qed.

(** Merging two normal lists does not depend on their order. *)
Lemma merge_comm : forall U, symbols_identify U -> forall l1 l2,
  over U l1 -> over U l2 -> normal l1 -> normal l2 ->
  dim_consolidate (merge_sorted exponent_less l1 l2) =
  dim_consolidate (merge_sorted exponent_less l2 l1).
Proof.
  intros U HU l1; induction l1 as [|x l1 IH]; intros l2 O1 O2 N1 N2.
  - now rewrite merge_sorted_nil_l, merge_sorted_nil_r.
  - induction l2 as [|y l2 IH2]; [now rewrite merge_sorted_nil_l, merge_sorted_nil_r|].
    destruct N1 as [S1 P1]. destruct N2 as [S2 P2].
    pose proof (proj1 (StronglySorted_inv S1)) as S1'.
    pose proof (proj1 (StronglySorted_inv S2)) as S2'.
    inversion P1; subst. inversion P2; subst.
    assert (O1' : over U l1) by (intros f Hf; apply O1; right; auto).
    assert (O2' : over U l2) by (intros f Hf; apply O2; right; auto).
    destruct (symbol_total (e_dim x) (e_dim y)) as [L|[L|L]].
    + rewrite merge_lt, merge_gt by auto. rewrite IH; auto; split; auto.
    + assert (D : e_dim x = e_dim y) by (apply HU; auto; [apply O1|apply O2]; simpl; auto).
      rewrite !merge_eq by auto. rewrite IH; auto; try (split; auto).
      unfold add_entry. rewrite D.
      destruct (std_ratio (e_num y) (e_den y)) as [r1| | | |] eqn:E1; simpl; auto;
        destruct (std_ratio (e_num x) (e_den x)) as [r2| | | |] eqn:E2; simpl; auto;
        try (unfold std_ratio, constrained in E1, E2;
             repeat (let E := fresh in destruct (_ && _) eqn:E in E1; simpl in E1);
             repeat (let E := fresh in destruct (_ && _) eqn:E in E2; simpl in E2); discriminate).
      rewrite std_ratio_add_comm. reflexivity.
    + rewrite merge_gt, merge_lt by auto. rewrite IH2; auto; split; auto.
Qed.

(** Merging is defined when all sums are representable. *)
Lemma merge_complete : forall U, symbols_identify U -> forall l1 l2,
  over U l1 -> over U l2 -> normal l1 -> normal l2 ->
  (forall b, U b -> representable (expo l1 b + expo l2 b)) ->
  exists es, dim_consolidate (merge_sorted exponent_less l1 l2) = Ok es.
Proof.
  intros U HU l1; induction l1 as [|x l1 IH]; intros l2 O1 O2 N1 N2 R.
  - rewrite merge_sorted_nil_l. exists l2. apply consolidate_strict. apply N2.
  - induction l2 as [|y l2 IH2].
    { rewrite merge_sorted_nil_r. exists (x :: l1). apply consolidate_strict, N1. }
    destruct N1 as [S1 P1]. destruct N2 as [S2 P2].
    pose proof (proj1 (StronglySorted_inv S1)) as S1'.
    pose proof (proj1 (StronglySorted_inv S2)) as S2'.
    inversion P1 as [|? ? Px P1']; subst. inversion P2 as [|? ? Py P2']; subst.
    assert (O1' : over U l1) by (intros f Hf; apply O1; right; auto).
    assert (O2' : over U l2) by (intros f Hf; apply O2; right; auto).
    assert (RED1 : forall b, U b -> e_dim x = b -> (expo l1 b == 0)%Q).
    { intros b _ <-. apply expo_absent. intros f Hf E. apply (strict_dims _ _ S1 f Hf); auto. }
    assert (RED2 : forall b, U b -> e_dim y = b -> (expo l2 b == 0)%Q).
    { intros b _ <-. apply expo_absent. intros f Hf E. apply (strict_dims _ _ S2 f Hf); auto. }
    assert (RC : forall p q, (p == q)%Q -> representable p -> representable q).
    { intros p q E. unfold representable. now rewrite (Qred_complete _ _ E). }
    assert (R0 : representable 0) by (vm_compute; split; discriminate).
    destruct (symbol_total (e_dim x) (e_dim y)) as [L|[L|L]].
    + rewrite merge_lt by auto.
      destruct (IH (y :: l2)) as [es E]; [auto|auto|split; auto|split; auto| |].
      { intros b Hb. destruct (bdim_eq_dec (e_dim x) b) as [D|D].
        - apply (RC 0%Q); auto. subst b. rewrite RED1, expo_below; auto. reflexivity.
        - eapply RC; [|apply (R b Hb)]. cbn [expo]. destruct (bdim_eq_dec (e_dim x) b); [congruence|]. lra. }
      rewrite E. simpl. eauto.
    + assert (D : e_dim x = e_dim y) by (apply HU; auto; [apply O1|apply O2]; simpl; auto).
      rewrite merge_eq by auto.
      destruct (IH l2) as [es E]; [auto|auto|split; auto|split; auto| |].
      { intros b Hb. destruct (bdim_eq_dec (e_dim x) b) as [D'|D'].
        - apply (RC 0%Q); auto. rewrite RED1, RED2; auto; [reflexivity|congruence].
        - eapply RC; [|apply (R b Hb)]. cbn [expo]. rewrite <- D.
          destruct (bdim_eq_dec (e_dim x) b); [congruence|]. lra. }
      unfold add_entry. rewrite E.
      destruct Px as (X1 & X2 & X3 & X4 & X5). destruct Py as (Y1 & Y2 & Y3 & Y4 & Y5).
      rewrite !std_ratio_proper by auto. cbn [bind].
      destruct (std_ratio_add_complete (e_num y, e_den y) (e_num x, e_den x)) as [r Er]; auto.
      { simpl. assert (Ux : U (e_dim x)) by (apply O1; simpl; auto).
        eapply RC; [|apply (R (e_dim x) Ux)].
        rewrite expo_head by auto. rewrite D, expo_head by auto. unfold equot. lra. }
      rewrite Er. simpl. eauto.
    + rewrite merge_gt by auto.
      destruct IH2 as [es E]; [auto|split; auto| |].
      { intros b Hb. destruct (bdim_eq_dec (e_dim y) b) as [D|D].
        - apply (RC 0%Q); auto. subst b. rewrite RED2, expo_below; auto. reflexivity.
        - eapply RC; [|apply (R b Hb)]. cbn [expo]. destruct (bdim_eq_dec (e_dim y) b); [congruence|]. lra. }
      rewrite E. simpl. eauto.
Qed.
