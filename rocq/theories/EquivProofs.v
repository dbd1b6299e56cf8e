(** Proofs about equivalence of dimensions and units, and about downcasting. *)

From Coq Require Import ZArith QArith String List Bool Lia Permutation Sorted Lqa.
From Verif Require Import Outcome CInt Ratio FixedString TypeList Unit Downcast Dim DimOp Equivalent SpecDim
  StringProofs DimProofs DimOpProofs.
Import ListNotations.
Local Open Scope Z_scope.
Local Open Scope res_scope.

(** ** Dimensions *)

(** The part of the exponent carried by base dimensions with a given symbol and
    reference unit. *)
Fixpoint class_expo (es : list bexp) (sym ref : string) : Q :=
  match es with
  | [] => 0%Q
  | e :: r =>
      ((if (String.eqb (bd_symbol (e_dim e)) sym && String.eqb (u_ref (bd_unit (e_dim e))) ref)%bool
        then equot e else 0) + class_expo r sym ref)%Q
  end.

Definition is_base (d : dimension) : bool := match d with DBase _ => true | _ => false end.

Lemma base_equivalent_iff : forall a b, base_equivalent a b = true <->
  bd_symbol a = bd_symbol b /\ u_ref (bd_unit a) = u_ref (bd_unit b).
Proof.
  intros. unfold base_equivalent, same_unit_reference.
  now rewrite andb_true_iff, fs_eqb_eq, String.eqb_eq.
Qed.

Lemma exp_equivalent_iff : forall a b, exp_equivalent a b = true <->
  e_num a = e_num b /\ e_den a = e_den b /\ bd_symbol (e_dim a) = bd_symbol (e_dim b) /\
  u_ref (bd_unit (e_dim a)) = u_ref (bd_unit (e_dim b)).
Proof.
  intros. unfold exp_equivalent. rewrite !andb_true_iff, !Z.eqb_eq, base_equivalent_iff. tauto.
Qed.

Lemma exps_equivalent_iff : forall l1 l2, exps_equivalent l1 l2 = true <->
  Forall2 (fun a b => exp_equivalent a b = true) l1 l2.
Proof.
  induction l1 as [|a l1 IH]; intros [|b l2]; simpl.
  - split; auto.
  - split; [discriminate|]. intros H; inversion H.
  - split; [discriminate|]. intros H; inversion H.
  - rewrite andb_true_iff, IH. split; [intros []; auto|intros H; inversion H; auto].
Qed.

Lemma exps_equivalent_refl : forall l, exps_equivalent l l = true.
Proof.
  intros l. apply exps_equivalent_iff. induction l; constructor; auto.
  apply exp_equivalent_iff; auto.
Qed.
Lemma exps_equivalent_sym : forall l1 l2, exps_equivalent l1 l2 = exps_equivalent l2 l1.
Proof.
  intros. apply eq_true_iff_eq. rewrite !exps_equivalent_iff.
  split; intros H; induction H; constructor; auto;
    apply exp_equivalent_iff; apply exp_equivalent_iff in H; intuition.
Qed.
Lemma exps_equivalent_trans : forall l1 l2 l3,
  exps_equivalent l1 l2 = true -> exps_equivalent l2 l3 = true -> exps_equivalent l1 l3 = true.
Proof.
  intros l1 l2 l3. rewrite !exps_equivalent_iff. intros H; revert l3.
  induction H; intros l3 H'; inversion H'; subst; constructor; auto.
  rewrite exp_equivalent_iff in *. intuition congruence.
Qed.

Lemma dim_equivalent_shape : forall d1 d2, dim_equivalent d1 d2 = true <->
  is_base d1 = is_base d2 /\ exps_equivalent (exponents d1) (exponents d2) = true.
Proof.
  intros [a|? ? ? ?|? ?] [b|? ? ? ?|? ?]; simpl; split; try tauto; try (intros []; discriminate);
    try (intros; discriminate).
  - intros H. split; auto. unfold exp_equivalent; simpl. rewrite H. reflexivity.
  - intros [_ H]. rewrite andb_true_r in H. unfold exp_equivalent in H; simpl in H. exact H.
Qed.

Lemma dim_equivalent_equivalence :
  (forall d, dim_equivalent d d = true) /\
  (forall d1 d2, dim_equivalent d1 d2 = dim_equivalent d2 d1) /\
  (forall d1 d2 d3, dim_equivalent d1 d2 = true -> dim_equivalent d2 d3 = true ->
     dim_equivalent d1 d3 = true).
Proof.
  split; [|split].
  - intros d. apply dim_equivalent_shape. split; auto. apply exps_equivalent_refl.
  - intros. apply eq_true_iff_eq. rewrite !dim_equivalent_shape, exps_equivalent_sym. intuition.
  - intros d1 d2 d3. rewrite !dim_equivalent_shape. intros [A B] [C D]. split; [congruence|].
    eapply exps_equivalent_trans; eauto.
Qed.

Lemma exps_equivalent_class : forall l1 l2, exps_equivalent l1 l2 = true ->
  forall s r, (class_expo l1 s r == class_expo l2 s r)%Q.
Proof.
  intros l1 l2 H s r. apply exps_equivalent_iff in H.
  induction H as [|a b l1 l2 Hab H IH]; simpl; [reflexivity|].
  apply exp_equivalent_iff in Hab as (N & D & S & R). rewrite IH, S, R.
  unfold equot. rewrite N, D. reflexivity.
Qed.

Lemma class_above : forall e l s r, Forall (fun f => symbol_lt (e_dim e) (e_dim f)) l ->
  s = bd_symbol (e_dim e) \/ String.compare s (bd_symbol (e_dim e)) = Lt ->
  (class_expo l s r == 0)%Q.
Proof.
  intros e l s r F Hs. induction F as [|f l Hf F IH]; simpl; [reflexivity|].
  rewrite IH. destruct (String.eqb_spec (bd_symbol (e_dim f)) s) as [E|E]; simpl; [|lra].
  exfalso. unfold symbol_lt in Hf. rewrite E in Hf.
  destruct Hs as [->|Hs].
  - rewrite str_compare_refl in Hf. discriminate.
  - pose proof (str_lt_trans _ _ _ Hs Hf) as X. rewrite str_compare_refl in X. discriminate.
Qed.

Lemma class_head : forall e l r, Forall (fun f => symbol_lt (e_dim e) (e_dim f)) l ->
  (class_expo (e :: l) (bd_symbol (e_dim e)) r ==
   if String.eqb (u_ref (bd_unit (e_dim e))) r then equot e else 0)%Q.
Proof.
  intros e l r F. simpl. rewrite String.eqb_refl. simpl.
  rewrite (class_above e l) by auto. destruct (String.eqb _ r); lra.
Qed.

Lemma class_equivalent : forall l1 l2, normal l1 -> normal l2 ->
  (forall s r, (class_expo l1 s r == class_expo l2 s r)%Q) -> exps_equivalent l1 l2 = true.
Proof.
  induction l1 as [|a l1 IH]; intros [|b l2] [S1 P1] [S2 P2] H; auto.
  - exfalso. inversion S2 as [|? ? _ F]; subst. inversion P2; subst.
    specialize (H (bd_symbol (e_dim b)) (u_ref (bd_unit (e_dim b)))).
    rewrite class_head, String.eqb_refl in H by auto. simpl in H.
    apply (equot_proper_nz b); auto. now symmetry.
  - exfalso. inversion S1 as [|? ? _ F]; subst. inversion P1; subst.
    specialize (H (bd_symbol (e_dim a)) (u_ref (bd_unit (e_dim a)))).
    rewrite class_head, String.eqb_refl in H by auto. simpl in H.
    now apply (equot_proper_nz a).
  - inversion S1 as [|? ? S1' F1]; subst. inversion P1 as [|? ? Pa P1']; subst.
    inversion S2 as [|? ? S2' F2]; subst. inversion P2 as [|? ? Pb P2']; subst.
    assert (Sy : bd_symbol (e_dim a) = bd_symbol (e_dim b)).
    { destruct (String.compare (bd_symbol (e_dim a)) (bd_symbol (e_dim b))) eqn:E.
      - now apply String.compare_eq_iff.
      - exfalso. specialize (H (bd_symbol (e_dim a)) (u_ref (bd_unit (e_dim a)))).
        rewrite class_head, String.eqb_refl in H by auto.
        assert (Z : (class_expo (b :: l2) (bd_symbol (e_dim a)) (u_ref (bd_unit (e_dim a))) == 0)%Q).
        { apply (class_above a); auto. constructor; auto.
          rewrite Forall_forall in *. intros x Hx. eapply str_lt_trans; [exact E|]. apply (F2 x Hx). }
        rewrite Z in H. now apply (equot_proper_nz a).
      - exfalso. rewrite str_compare_antisym in E.
        assert (E' : String.compare (bd_symbol (e_dim b)) (bd_symbol (e_dim a)) = Lt).
        { destruct (String.compare (bd_symbol (e_dim b)) (bd_symbol (e_dim a))); simpl in E; congruence. }
        specialize (H (bd_symbol (e_dim b)) (u_ref (bd_unit (e_dim b)))).
        rewrite (class_head b), String.eqb_refl in H by auto.
        assert (Z : (class_expo (a :: l1) (bd_symbol (e_dim b)) (u_ref (bd_unit (e_dim b))) == 0)%Q).
        { apply (class_above b); auto. constructor; auto.
          rewrite Forall_forall in *. intros x Hx. eapply str_lt_trans; [exact E'|]. apply (F1 x Hx). }
        rewrite Z in H. apply (equot_proper_nz b); auto. now symmetry. }
    pose proof (H (bd_symbol (e_dim a)) (u_ref (bd_unit (e_dim a)))) as Ha.
    rewrite class_head, String.eqb_refl in Ha by auto. rewrite Sy in Ha.
    rewrite (class_head b) in Ha by auto.
    destruct (String.eqb_spec (u_ref (bd_unit (e_dim b))) (u_ref (bd_unit (e_dim a)))) as [R|R].
    2: { exfalso. now apply (equot_proper_nz a). }
    assert (Eab : exp_equivalent a b = true).
    { apply exp_equivalent_iff.
      destruct Pa as (_ & A1 & A2 & _). destruct Pb as (_ & B1 & B2 & _).
      destruct (lowest_unique (e_num a) (e_den a) (e_num b) (e_den b)); auto. }
    simpl. rewrite Eab. apply IH; try (split; auto).
    intros s r. specialize (H s r). simpl in H. apply exp_equivalent_iff in Eab as (N & D & _ & _).
    rewrite Sy, R in H. unfold equot in H. rewrite N, D in H. lra.
Qed.

(** ** Units *)

Lemma unit_equivalent_refl_sym :
  (forall u, unit_equivalent u u = true) /\
  (forall u v, unit_equivalent u v = unit_equivalent v u).
Proof.
  split; intros; unfold unit_equivalent.
  - destruct (cunit_eq_dec u u); [auto|congruence].
  - rewrite (orb_comm (unit_base_of u v)).
    destruct (cunit_eq_dec u v), (cunit_eq_dec v u); subst; auto; congruence.
Qed.

(** ** Downcasting *)

Section Registry.
Context {K T : Type} (keq : forall a b : K, {a = b} + {a <> b}).
Implicit Types (l : list (K * T)) (g : registry K T).

(** The types declared with base [k]. *)
Definition children l (k : K) : list T :=
  map snd (filter (fun x => if keq k (fst x) then true else false) l).

Lemma children_cons : forall k' t l k,
  children ((k', t) :: l) k = if keq k k' then t :: children l k else children l k.
Proof. intros. unfold children; simpl. destruct (keq k k'); reflexivity. Qed.

Lemma children_in : forall l k t, In t (children l k) <-> In (k, t) l.
Proof.
  induction l as [|[k' t'] l IH]; intros k t.
  - simpl; tauto.
  - rewrite children_cons. destruct (keq k k') as [->|N]; simpl; rewrite IH.
    + split; intros [H|H]; auto; [subst; auto|inversion H; auto].
    + split; auto. intros [H|H]; auto. inversion H; congruence.
Qed.

Lemma find_guide_none : forall l k, find_guide keq l k = None <-> children l k = [].
Proof.
  induction l as [|[k' t'] l IH]; intros k; [simpl; tauto|].
  rewrite children_cons. simpl. destruct (keq k k'); [split; discriminate|apply IH].
Qed.

(** State reached after the declarations [done]. *)
Definition auto_inv (done : list (K * T)) g : Prop :=
  forall k, find_guide keq (guides g) k = hd_error (children done k) /\           (In k (poison g) <-> (2 <= length (children done k))%nat).

Lemma auto_step : forall done g k t g', auto_inv done g ->
  declare keq Automatic k t g = Ok g' -> auto_inv (done ++ [(k, t)]) g'.
Proof.
  intros done g k t g' I H k0. unfold declare in H. unfold has_guide in H.
  assert (C : children (done ++ [(k, t)]) k0 =
    children done k0 ++ (if keq k0 k then [t] else [])).
  { unfold children. rewrite filter_app, map_app. simpl. destruct (keq k0 k); reflexivity. }
  rewrite C. destruct (I k) as [I1 I2]. destruct (I k0) as [J1 J2].
  destruct (find_guide keq (guides g) k) eqn:E.
  - inversion H; subst g'; clear H. cbn [guides poison].
    destruct (keq k0 k) as [->|N].
    + destruct (children done k) as [|x r]; [discriminate|].
      split; [simpl in *; congruence|]. rewrite app_length. simpl. split; auto; intros; lia.
    + rewrite app_nil_r. split; auto. split.
      * intros [X|X]; [congruence|]. apply J2; auto.
      * intros X. right. apply J2; auto.
  - inversion H; subst g'; clear H. cbn [guides poison]. simpl.
    destruct (keq k0 k) as [->|N].
    + symmetry in I1. destruct (children done k) as [|x r]; [|discriminate].
      split; auto. rewrite I2. simpl. lia.
    + rewrite app_nil_r. auto.
Qed.

Lemma declare_auto_ok : forall k t g, exists g', declare keq Automatic k t g = Ok g'.
Proof. intros. unfold declare. destruct (has_guide keq g k); eauto. Qed.

Lemma declare_all_auto : forall l done g, auto_inv done g ->
  exists g', declare_all keq Automatic l g = Ok g' /\ auto_inv (done ++ l) g'.
Proof.
  induction l as [|[k t] l IH]; intros done g I; cbn [declare_all].
  - exists g. rewrite app_nil_r. auto.
  - destruct (declare_auto_ok k t g) as [g1 H1]. rewrite H1. cbn [bind].
    destruct (IH (done ++ [(k, t)]) g1) as (g' & H & I').
    + eapply auto_step; eauto.
    + exists g'. split; auto. now rewrite <- app_assoc in I'.
Qed.

Lemma auto_downcast : forall l,
  exists g, declare_all keq Automatic l empty_registry = Ok g /\ forall k, downcast keq g k = match children l k with [t] => Some t | _ => None end.
Proof.
  intros l. destruct (declare_all_auto l [] empty_registry) as (g & H & I).
  { intros k. simpl. split; auto. split; [contradiction|lia]. }
  exists g. split; auto. intros k. destruct (I k) as [I1 I2]. simpl in I1, I2.
  unfold downcast, has_poison. rewrite I1.
  destruct (children l k) as [|t [|t' r]]; simpl in *; auto;
    destruct (in_dec keq k (poison g)) as [X|X]; auto; exfalso.
  - apply I2 in X. lia.
  - apply X, I2. lia.
Qed.

Lemma on_step : forall done g k t, poison g = [] -> (forall x, In x (guides g) <-> In x done) ->
  (exists g', declare keq On k t g = Ok g' /\ poison g' = [] /\ guides g' = (k, t) :: guides g /\ children (guides g) k = []) \/
  (declare keq On k t g = IllFormed /\ children (guides g) k <> []).
Proof.
  intros done g k t P G. unfold declare, has_guide.
  destruct (find_guide keq (guides g) k) eqn:E.
  - right. split; auto. intros X. apply find_guide_none in X. congruence.
  - left. eexists; split; [reflexivity|]. simpl. split; auto. split; auto. now apply find_guide_none.
Qed.

Lemma declare_all_on : forall l g, poison g = [] -> NoDup (map fst (guides g)) ->
  (NoDup (map fst (guides g ++ l)) /\ exists g', declare_all keq On l g = Ok g' /\ poison g' = [] /\ guides g' = rev l ++ guides g) \/
  (~ NoDup (map fst (guides g ++ l)) /\ declare_all keq On l g = IllFormed).
Proof.
  induction l as [|[k t] l IH]; intros g P ND; cbn [declare_all].
  - left. rewrite app_nil_r. split; auto. exists g. auto.
  - destruct (on_step (guides g) g k t P) as [(g1 & H & P1 & G1 & C)|(H & C)]; [tauto| |].
    + rewrite H. cbn [bind].
      assert (Nk : ~ In k (map fst (guides g))).
      { intros X. apply in_map_iff in X as ([k' t'] & X1 & X2). simpl in X1; subst k'.
        apply children_in in X2. rewrite C in X2. contradiction. }
      assert (Pm : Permutation (map fst (guides g1 ++ l)) (map fst (guides g ++ (k, t) :: l))).
      { apply Permutation_map. rewrite G1. simpl. apply Permutation_middle. }
      destruct (IH g1 P1) as [(N & g' & H' & P' & G')|(N & H')].
      * rewrite G1. simpl. constructor; auto.
      * left. split; [eapply Permutation_NoDup; eauto|]. exists g'. split; auto. split; auto.
        rewrite G', G1. simpl. rewrite <- app_assoc. reflexivity.
      * right. split; auto. intros X. apply N.
        eapply Permutation_NoDup; [apply Permutation_sym; exact Pm|exact X].
    + right. rewrite H. split; auto. intros X. apply C.
      destruct (children (guides g) k) as [|x r] eqn:Ec; auto. exfalso.
      assert (In x (children (guides g) k)) by (rewrite Ec; simpl; auto).
      apply children_in in H0. rewrite map_app in X. simpl in X.
      apply NoDup_remove_2 in X. apply X. apply in_or_app. left.
      apply in_map_iff. exists (k, x). auto.
Qed.

Lemma find_guide_nodup : forall l k t, NoDup (map fst l) ->
  (find_guide keq l k = Some t <-> In (k, t) l).
Proof.
  induction l as [|[k' t'] l IH]; intros k t N; simpl; [split; [discriminate|tauto]|].
  inversion N as [|? ? Nk N']; subst. destruct (keq k k') as [->|D].
  - split.
    + intros H; inversion H; auto.
    + intros [H|H]; [inversion H; auto|]. exfalso. apply Nk. simpl. apply in_map_iff. now exists (k', t).
  - rewrite IH by auto. split; auto. intros [H|H]; auto. inversion H; congruence.
Qed.

Lemma on_downcast : forall l,
  (NoDup (map fst l) /\ exists g, declare_all keq On l empty_registry = Ok g /\ forall k t, downcast keq g k = Some t <-> In (k, t) l) \/
  (~ NoDup (map fst l) /\ declare_all keq On l empty_registry = IllFormed).
Proof.
  intros l. destruct (declare_all_on l empty_registry eq_refl) as [(N & g & H & P & G)|X].
  - simpl. constructor.
  - left. simpl in N, G. split; auto. exists g. split; auto. intros k t.
    unfold downcast, has_poison. rewrite P, G, app_nil_r. simpl.
    assert (N' : NoDup (map fst (rev l))).
    { rewrite map_rev. eapply Permutation_NoDup; [apply Permutation_rev|exact N]. }
    rewrite (in_rev l). rewrite <- (find_guide_nodup (rev l) k t N').
    destruct (find_guide keq (rev l) k); split; intros X; inversion X; auto.
  - right. exact X.
Qed.

Lemma off_downcast : forall l, declare_all keq Off l empty_registry = Ok empty_registry /\ forall k, downcast keq (@empty_registry K T) k = None.
Proof. split; [|reflexivity]. induction l as [|[k t] l IH]; simpl; auto. Qed.

Lemma children_perm : forall l1 l2 k, Permutation l1 l2 ->
  Permutation (children l1 k) (children l2 k).
Proof.
  intros l1 l2 k P. unfold children. apply Permutation_map.
  induction P; simpl; auto.
  - destruct (keq k (fst x)); auto.
  - destruct (keq k (fst x)), (keq k (fst y)); auto. apply perm_swap.
  - eapply perm_trans; eauto.
Qed.

(** The outcome does not depend on the order of the declarations. *)
Lemma downcast_order : forall mode l1 l2, Permutation l1 l2 ->
  match declare_all keq mode l1 empty_registry, declare_all keq mode l2 empty_registry with
  | Ok g1, Ok g2 => forall k, downcast keq g1 k = downcast keq g2 k
  | IllFormed, IllFormed => True
  | _, _ => False
  end.
Proof.
  intros mode l1 l2 P. destruct mode.
  - destruct (off_downcast l1) as [-> H]. destruct (off_downcast l2) as [-> _]. auto.
  - destruct (on_downcast l1) as [(N1 & g1 & H1 & D1)|(N1 & H1)];
    destruct (on_downcast l2) as [(N2 & g2 & H2 & D2)|(N2 & H2)]; rewrite H1, H2; auto.
    + intros k. destruct (downcast keq g1 k) eqn:E1.
      * symmetry. apply D2. eapply Permutation_in; [exact P|]. now apply D1.
      * destruct (downcast keq g2 k) eqn:E2; auto. exfalso.
        apply D2 in E2. apply (Permutation_in _ (Permutation_sym P)), D1 in E2. congruence.
    + apply N2. eapply Permutation_NoDup; [apply Permutation_map; exact P|exact N1].
    + apply N1. eapply Permutation_NoDup; [apply Permutation_map, Permutation_sym; exact P|exact N2].
  - destruct (auto_downcast l1) as (g1 & -> & D1). destruct (auto_downcast l2) as (g2 & -> & D2).
    intros k. rewrite D1, D2. pose proof (children_perm l1 l2 k P) as Q.
    destruct (children l1 k) as [|t [|t' r]].
    + apply Permutation_nil in Q. now rewrite Q.
    + apply Permutation_length_1_inv in Q. now rewrite Q.
    + destruct (children l2 k) as [|u [|u' r']]; auto.
      apply Permutation_length in Q; discriminate.
Qed.

End Registry.
