(** Proofs about unit definitions. *)

From Coq Require Import ZArith QArith Qpower String List Bool Lia Lqa Permutation.
From Verif Require Import Outcome CInt Ratio SpecRatio QTen RatioMaths RatioMathsProofs RatioProofs
  Pow Root RatioProofs2 RatioPowProofs FixedString TypeList Unit Downcast Dim DimOp Equivalent SpecDim SpecUnit
  TypeListProofs StringProofs DimProofs DimOpProofs DimOpProofs2 MagnitudeProofs
  TextTools DerivedSymbol DerivedUnit UnitDecl.
Import ListNotations.
Local Open Scope Z_scope.
Local Open Scope res_scope.

(** ** Programs of unit definitions *)

Definition anonymous (u : cunit) : Prop := u_name u = None /\ u_bases u = [].

(** Every unit is named, names are unique, and a unit has the ratio and reference of
    every unit it inherits from. *)
Definition hierarchy (env : list cunit) : Prop :=
  (forall u, In u env -> exists n, u_name u = Some n) /\
  NoDup (map u_name env) /\
  (forall u n, In u env -> In n (u_bases u) ->
     exists v, In v env /\ u_name v = Some n /\ u_ratio v = u_ratio u /\ u_ref v = u_ref u).

Lemma has_name_iff : forall n u, has_name n u = true <-> u_name u = Some n.
Proof.
  intros n u. unfold has_name. destruct (u_name u) as [m|]; [|split; discriminate].
  rewrite String.eqb_eq. split; congruence.
Qed.

Lemma lookup_in : forall env n u, unit_lookup env n = Ok u -> In u env /\ u_name u = Some n.
Proof.
  intros env n u H. unfold unit_lookup in H. destruct (find (has_name n) env) as [v|] eqn:F; [|discriminate].
  inversion H; subst. apply find_some in F as [I N]. now apply has_name_iff in N.
Qed.

Lemma elaborate_name : forall est env x u, unit_elaborate est env x = Ok u ->
  u_name u = Some (decl_name x).
Proof.
  intros est env x u H. destruct x; cbn [unit_elaborate decl_name] in *;
    unfold mk_unit, mk_named_unit, mk_named_scaled_unit, mk_prefixed_unit, mk_derived_unit,
      mk_named_derived_unit, mk_prefixed_alias_unit in H; unbind; auto;
    repeat match goal with H : (match ?o with Some _ => _ | None => _ end) = Ok _ |- _ =>
      destruct o; [inversion H; subst; reflexivity|discriminate] end; auto.
Qed.

Lemma elaborate_bases : forall est env x u, hierarchy env -> unit_elaborate est env x = Ok u ->
  u_bases u = [] \/ exists b, In b env /\ u_bases u = bases_of b /\ u_ratio u = u_ratio b /\ u_ref u = u_ref b.
Proof.
  intros est env x u Hy H. destruct x; cbn [unit_elaborate] in H;
    unfold mk_unit, mk_named_unit, mk_named_scaled_unit, mk_prefixed_unit, mk_derived_unit,
      mk_named_derived_unit in H.
  1-6: left; unbind; auto; repeat match goal with H : (match ?o with Some _ => _ | None => _ end) = Ok _ |- _ =>
      destruct o; [inversion H; subst; reflexivity|discriminate] end; auto.
  - right. step H as b E. inversion H; subst. apply lookup_in in E as [I _]. exists b. auto.
  - right. step H as b E. step H as a E0. unfold mk_prefixed_alias_unit in H. step H as c E1.
    destruct (u_symbol a); [|discriminate]. inversion H; subst.
    apply lookup_in in E as [I _]. exists b. auto.
Qed.

Lemma declare_hierarchy : forall est env x env', hierarchy env -> unit_declare est env x = Ok env' ->
  hierarchy env'.
Proof.
  intros est env x env' Hy H. pose proof Hy as (N & D & B). unfold unit_declare in H.
  step H as t C. step H as u E. inversion H; subst env'; clear H.
  pose proof (elaborate_name _ _ _ _ E) as Nu. pose proof (elaborate_bases _ _ _ _ Hy E) as Bu.
  apply constrained_ok in C. apply negb_true_iff in C.
  split; [|split].
  - intros v [<-|Hv]; eauto.
  - cbn [map]. constructor; auto. rewrite Nu. intros I. apply in_map_iff in I as (v & Ev & Iv).
    assert (X : existsb (has_name (decl_name x)) env = true).
    { apply existsb_exists. exists v. split; auto. now apply has_name_iff. }
    congruence.
  - intros v n [<-|Hv] Hn.
    + destruct Bu as [Bu|(b & Ib & Bu & R1 & R2)]; rewrite Bu in Hn; [destruct Hn|].
      unfold bases_of in Hn. destruct (N b Ib) as [m Hm]. rewrite Hm in Hn. destruct Hn as [<-|Hn].
      * exists b. split; [now right|]. auto.
      * destruct (B b n Ib Hn) as (w & Iw & Nw & R3 & R4). exists w.
        split; [now right|]. split; auto. split; congruence.
    + destruct (B v n Hv Hn) as (w & Iw & Nw & R3 & R4). exists w. split; [now right|auto].
Qed.

Lemma program_hierarchy : forall est l env env', hierarchy env -> unit_program est env l = Ok env' ->
  hierarchy env'.
Proof.
  induction l as [|x l IH]; intros env env' Hy H; cbn [unit_program] in H; [now inversion H; subst|].
  step H as e E. eapply IH; [|exact H]. eapply declare_hierarchy; eassumption.
Qed.

Lemma hierarchy_nil : hierarchy [].
Proof. split; [intros u []|split; [constructor|intros u n []]]. Qed.

Lemma unit_base_of_same : forall env, hierarchy env -> forall a b,
  (In a env \/ anonymous a) -> (In b env \/ anonymous b) -> unit_base_of a b = true ->
  u_ratio a = u_ratio b /\ u_ref a = u_ref b.
Proof.
  intros env (N & D & B) a b Ha Hb H. unfold unit_base_of in H.
  destruct (u_name a) as [n|] eqn:Na.
  - apply orb_true_iff in H as [H|H].
    + destruct (cunit_eq_dec a b); [subst; auto|discriminate].
    + apply existsb_exists in H as (m & Im & Em). apply String.eqb_eq in Em. subst m.
      destruct Hb as [Hb|[_ Hb]]; [|rewrite Hb in Im; destruct Im].
      destruct (B b n Hb Im) as (v & Iv & Nv & R1 & R2).
      destruct Ha as [Ha|[Ha _]]; [|congruence].
      assert (v = a).
      { clear - D Iv Ha Nv Na. induction env as [|e env IH]; [destruct Iv|].
        cbn [map] in D. inversion D as [|? ? D1 D2]; subst.
        destruct Iv as [<-|Iv], Ha as [<-|Ha]; auto; exfalso; apply D1.
        - rewrite Nv, <- Na. now apply in_map.
        - rewrite Na, <- Nv. now apply in_map. }
      subst v. auto.
  - apply andb_true_iff in H as [H1 H2]. destruct (ratio_eq_dec (u_ratio a) (u_ratio b)); [|discriminate].
    apply String.eqb_eq in H2. auto.
Qed.

Lemma unit_equivalent_refl : forall a, unit_equivalent a a = true.
Proof. intros a. unfold unit_equivalent. destruct (cunit_eq_dec a a); [reflexivity|congruence]. Qed.

Lemma unit_equivalent_sym : forall a b, unit_equivalent a b = unit_equivalent b a.
Proof.
  intros a b. unfold unit_equivalent. rewrite (orb_comm (unit_base_of a b)).
  destruct (cunit_eq_dec a b), (cunit_eq_dec b a); congruence.
Qed.

Lemma unit_equivalent_same : forall est l env, unit_program est [] l = Ok env -> forall a b,
  (In a env \/ anonymous a) -> (In b env \/ anonymous b) -> unit_equivalent a b = true ->
  u_ratio a = u_ratio b /\ u_ref a = u_ref b.
Proof.
  intros est l env H a b Ha Hb E. apply (program_hierarchy _ _ _ _ hierarchy_nil) in H.
  unfold unit_equivalent in E. apply orb_true_iff in E as [E|E].
  - destruct (cunit_eq_dec a b); [subst; auto|discriminate].
  - apply orb_true_iff in E as [E|E]; [now apply (unit_base_of_same env)|].
    destruct (unit_base_of_same env H b a Hb Ha E). auto.
Qed.

Lemma unit_equivalent_anonymous : forall a b, u_name a = None ->
  (u_ratio a = u_ratio b /\ u_ref a = u_ref b) -> unit_equivalent a b = true.
Proof.
  intros a b N [R S]. unfold unit_equivalent, unit_base_of at 1. rewrite N, R, S, String.eqb_refl.
  destruct (ratio_eq_dec (u_ratio b) (u_ratio b)); [|congruence]. now rewrite !orb_true_r.
Qed.

(** ** Chains of scaled definitions *)

(** [v] is defined from [b] by a chain of named scaled, prefixed and alias
    definitions whose factors multiply to [f]. *)
Inductive scaled_from (b : cunit) : Q -> cunit -> Prop :=
| sf_base : scaled_from b 1 b
| sf_scaled : forall f u c s pf r v, scaled_from b f u -> lowest r -> storable r ->
    mk_named_scaled_unit c s pf r u = Ok v -> scaled_from b (rval r * f) v
| sf_prefixed : forall f u c p v, scaled_from b f u -> lowest (p_ratio p) -> storable (p_ratio p) ->
    mk_prefixed_unit c p u = Ok v -> scaled_from b (rval (p_ratio p) * f) v
| sf_alias : forall f u c s pf, scaled_from b f u -> scaled_from b f (mk_alias_unit c u s pf)
| sf_prefixed_alias : forall f u c p au v, scaled_from b f u ->
    mk_prefixed_alias_unit c u p au = Ok v -> scaled_from b f v.

Lemma unit_ratio_ok_iff : forall r, unit_ratio_ok r = true <-> 0 < rnum r /\ 0 < rden r.
Proof. intros r. unfold unit_ratio_ok. rewrite andb_true_iff, !Z.ltb_lt. tauto. Qed.

Lemma scaled_from_spec : forall b f u, unit_good b -> scaled_from b f u ->
  unit_good u /\ u_ref u = u_ref b /\ (rval (u_ratio u) == f * rval (u_ratio b))%Q /\ (0 < f)%Q.
Proof.
  intros b f u G H. induction H as [|f u c s pf r v H IH L S E|f u c p v H IH L S E|f u c s pf H IH|f u c p au v H IH E].
  - split; auto. split; auto. split; [ring|reflexivity].
  - destruct IH as (Gu & R & V & P). unfold mk_named_scaled_unit in E.
    step E as t E1. step E as x E2. step E as t' E3. inversion E; subst v; clear E.
    apply constrained_ok, unit_ratio_ok_iff in E1 as [N1 _]. apply constrained_ok, unit_ratio_ok_iff in E3.
    assert (Gr : ratio_good r) by (split; auto).
    destruct (rmul_good _ _ _ Gr Gu E2) as [Vx Gx]. unfold unit_good. cbn [u_ratio u_ref].
    split; auto. split; auto. split; [rewrite Vx, V; ring|]. apply Qmult_lt_0_compat; auto. now apply good_pos.
  - destruct IH as (Gu & R & V & P). unfold mk_prefixed_unit in E.
    step E as t E1. step E as x E2. step E as t' E3. destruct (u_symbol u); [|discriminate].
    inversion E; subst v; clear E. apply constrained_ok, unit_ratio_ok_iff in E3 as [N3 D3].
    assert (Gr : ratio_good (p_ratio p)).
    { split; auto. split; auto.
      destruct (rmul_sound _ _ _ L (proj1 Gu) E2) as (Vx & Lx & _).
      pose proof (proj2 (rval_pos x D3) N3) as Px. rewrite Vx in Px.
      apply (rval_pos _ (proj1 L)). pose proof (good_pos _ Gu).
      destruct (Qlt_le_dec 0 (rval (p_ratio p))) as [Q|Q]; auto. exfalso.
      assert (rval (p_ratio p) * rval (u_ratio u) <= 0)%Q by nra. lra. }
    destruct (rmul_good _ _ _ Gr Gu E2) as [Vx Gx]. unfold unit_good. cbn [u_ratio u_ref].
    split; auto. split; auto. split; [rewrite Vx, V; ring|]. apply Qmult_lt_0_compat; auto. now apply good_pos.
  - exact IH.
  - unfold mk_prefixed_alias_unit in E. step E as t E1. destruct (u_symbol au); [|discriminate].
    inversion E; subst v. exact IH.
Qed.

Lemma scaled_from_magnitude : forall d b f u m, unit_good b -> scaled_from b f u ->
  magnitude d b m -> magnitude d u (f * m).
Proof.
  intros d b f u m G H (x & X & V). destruct (scaled_from_spec _ _ _ G H) as (_ & _ & W & _).
  exists x. split; auto. rewrite V, W. unfold Qdiv. ring.
Qed.

Lemma cancel_factors : forall y r c f g, (0 < y)%Q -> (0 < r)%Q -> (0 < c)%Q ->
  ((y * (f * r / c) == y * (g * r / c))%Q <-> (f == g)%Q).
Proof.
  intros y r c f g Y R C. split; intros H; [|now rewrite H].
  transitivity (y * (f * r / c) * (c / (y * r)))%Q; [field; repeat split; lra|].
  rewrite H. field. repeat split; lra.
Qed.

Lemma scaled_from_equal : forall d b f g u v m n, unit_good b -> unit_good (dimension_unit d) ->
  scaled_from b f u -> scaled_from b g v -> magnitude d u m -> magnitude d v n ->
  ((m == n)%Q <-> (f == g)%Q).
Proof.
  intros d b f g u v m n G Gd Hu Hv (x & X & Vx) (y & Y & Vy).
  pose proof (coherent_unique _ _ _ X Y) as XY.
  destruct (scaled_from_spec _ _ _ G Hu) as (_ & _ & Wu & _).
  destruct (scaled_from_spec _ _ _ G Hv) as (_ & _ & Wv & _).
  apply good_pos in G. apply good_pos in Gd. destruct Y as (_ & Py & _).
  rewrite Vx, Vy, Wu, Wv, XY. now apply cancel_factors.
Qed.

(** ** Derived units *)

(** Units [us] for the recipe [rec] whose magnitudes, raised to the (whole) exponents,
    multiply to [p]. *)
Inductive product_of : list (dimension * (Z * Z)) -> list cunit -> Q -> Prop :=
| po_nil : product_of [] [] 1
| po_cons : forall d n u m rec us p, magnitude d u m -> product_of rec us p ->
    product_of ((d, (n, 1)) :: rec) (u :: us) (m ^ n * p).

(** What the default units of the constituent dimensions contribute too much. *)
Definition sign1 (n : Z) : Z := if 0 <? n then 1 else -1.
Fixpoint surplus (rec : list (dimension * (Z * Z))) : Q :=
  match rec with
  | [] => 1%Q
  | (d, (n, _)) :: r => (rval (u_ratio (dimension_unit d)) ^ (n - sign1 n) * surplus r)%Q
  end.

Definition item_good (x : dimension * (Z * Z)) : Prop :=
  recipe_item_ok (fun _ => True) x /\ dim_good (fst x).

Lemma red_exp_half : forall b q k, (2 * q == inject_Z k)%Q -> half_int (red_exp b q).
Proof.
  intros b q k H. unfold half_int, red_exp; cbn [e_num e_den]. split; [discriminate|].
  pose proof (Qred_correct q) as R. rewrite <- R in H. destruct (Qred q) as [a c].
  unfold Qeq in H. cbn [Qnum Qden Qmult inject_Z] in *. exists k. rewrite Z.mul_1_r, Pos.mul_1_l in H. exact H.
Qed.

Lemma scaled_squared : forall n es, entries es ->
  entries (scaled (inject_Z n / inject_Z 1) es) /\
  (squared (scaled (inject_Z n / inject_Z 1) es) == squared es ^ n)%Q.
Proof.
  intros n es E. induction E as [|e es [He Be] E IH]; cbn [scaled map].
  - split; [constructor|]. cbn [squared]. now rewrite Qpower_1.
  - destruct IH as [IH1 IH2].
    assert (H2 : (2 * (equot e * (inject_Z n / inject_Z 1)) == inject_Z (n * twice e))%Q).
    { rewrite inject_Z_mult, (twice_spec e He). change (inject_Z n / inject_Z 1)%Q with (inject_Z n * / 1)%Q. field. }
    pose proof (red_exp_half (e_dim e) _ _ H2) as Hh.
    assert (T : twice (red_exp (e_dim e) (equot e * (inject_Z n / inject_Z 1))) = n * twice e).
    { apply (proj1 (inject_Z_injective _ _)). rewrite twice_spec by exact Hh. now rewrite red_exp_equot. }
    split.
    + constructor; [split; auto|exact IH1].
    + cbn [squared]. rewrite T. fold (scaled (inject_Z n / inject_Z 1) es). rewrite IH2.
      cbn [red_exp e_dim]. rewrite Qmult_power, <- Qpower_mult, (Z.mul_comm n). reflexivity.
Qed.

(** The coherent magnitude of a recipe. *)
Inductive coherent_product : list (dimension * (Z * Z)) -> Q -> Prop :=
| cp_nil : coherent_product [] 1
| cp_cons : forall d n b rec p, coherent_magnitude (exponents d) b -> coherent_product rec p ->
    coherent_product ((d, (n, 1)) :: rec) (b ^ n * p).

Lemma unpack_squared : forall rec p, coherent_product rec p -> Forall item_good rec ->
  (0 < p)%Q /\ exists es, dim_unpack rec = Ok es /\ entries es /\ (p ^ 2 == squared es)%Q.
Proof.
  intros rec p H. induction H as [|d n b rec p (Hh & Pb & Sb) H IH]; intros F.
  - split; [reflexivity|]. exists []. repeat split; constructor.
  - inversion F as [|? ? [It Gd] F']; subst. destruct (IH F') as (Pp & es & E & En & Sp).
    split; [apply Qmult_lt_0_compat; auto; now apply Qpower_pos_lt|].
    destruct (scaled_squared n (exponents d) (proj1 Gd)) as [S1 S2].
    assert (G : forall m, entries m -> (squared m == squared (exponents d) ^ n)%Q ->
      entries (push_front es m) /\ ((b ^ n * p) ^ 2 == squared (push_front es m))%Q).
    { intros m Em Sm. unfold push_front. split; [now apply Forall_app|].
      rewrite squared_app, Sm, Qmult_power, Sp, <- Sb, <- !Qpower_mult, (Z.mul_comm n). reflexivity. }
    destruct d as [bd|nm ds cu rc|ar ds]; cbn [dim_unpack].
    + rewrite E. cbn [bind]. eexists; split; [reflexivity|]. apply G.
      * destruct Gd as [Gd _]. inversion Gd as [|? ? [_ Bd] _]; subst. constructor; [|constructor].
        split; auto. split; [discriminate|]. exists (2 * n). cbn [e_num e_den]. lia.
      * cbn [exponents squared e_dim]. rewrite !Qmult_1_r, <- Qpower_mult.
        replace (twice (BExp bd n 1)) with (twice (BExp bd 1 1) * n); [reflexivity|].
        unfold twice; cbn [e_num e_den]. rewrite !Z.div_1_r. lia.
    + destruct It as ([Nd _] & I1 & I2 & I3 & I4 & I5 & I6).
      rewrite map_multiply by (auto; apply Nd). rewrite E. cbn [bind].
      eexists; split; [reflexivity|]. now apply G.
    + destruct It as ([Nd _] & I1 & I2 & I3 & I4 & I5 & I6).
      rewrite map_multiply by (auto; apply Nd). rewrite E. cbn [bind].
      eexists; split; [reflexivity|]. now apply G.
Qed.

Lemma make_dimension_coherent : forall rec p es, coherent_product rec p -> Forall item_good rec ->
  make_dimension rec = Ok es -> coherent_magnitude es p /\ entries es.
Proof.
  intros rec p es H F M. destruct (unpack_squared _ _ H F) as (P & us & E & En & S).
  unfold make_dimension in M. rewrite E in M. cbn [bind] in M.
  pose proof (proj1 (type_list_sort_spec exponent_less less_ntrans less_asym us)) as Pm.
  destruct (consolidate_entries _ _ M) as [X1 X2].
  { eapply entries_perm; [|exact En]. now apply Permutation_sym. }
  split; auto. split; [|split; auto].
  - unfold entries in X2. rewrite Forall_forall in *. intros e He. now apply X2.
  - rewrite S, X1. symmetry. now apply squared_perm.
Qed.

Lemma derived_factor_value : forall est d n u r, unit_good u -> unit_good (dimension_unit d) ->
  derived_factor est d n 1 u = Ok r ->
  (rval r == rval (u_ratio u) ^ n * / rval (u_ratio (dimension_unit d)) ^ sign1 n)%Q /\ ratio_good r.
Proof.
  intros est d n u r Gu Gd H. unfold derived_factor in H. step H as a E1. step H as p E2. step H as q E3.
  apply iabs_ok in E1. subst a. destruct (rpow1_good _ _ _ _ Gu E2) as [Vp Gp].
  destruct (rdiv_good _ _ _ Gp Gd E3) as [Vq Gq].
  unfold inverse_if_negative in H. step H as s E4. apply cmul_ok in E4 as [-> _]. rewrite Z.mul_1_r in H.
  unfold sign1. destruct (Z.ltb_spec 0 n) as [N|N].
  - inversion H; subst. split; auto. rewrite Vq, Vp, Z.abs_eq by lia. reflexivity.
  - destruct (rinv_good _ _ Gq H) as [Vr Gr]. split; auto. rewrite Vr, Vq, Vp, Z.abs_neq by lia.
    rewrite Qpower_opp. unfold Qdiv. rewrite Qinv_mult_distr, Qinv_involutive.
    change (rval (u_ratio (dimension_unit d)) ^ (-1))%Q with (/ rval (u_ratio (dimension_unit d)))%Q.
    reflexivity.
Qed.

(** The value the derived ratio should have, divided by the surplus. *)
Fixpoint factor_product (rec : list (dimension * (Z * Z))) (us : list cunit) : Q :=
  match rec, us with
  | (d, (n, _)) :: r, u :: us' =>
      (rval (u_ratio u) ^ n * / rval (u_ratio (dimension_unit d)) ^ sign1 n * factor_product r us')%Q
  | _, _ => 1%Q
  end.

Lemma derived_from_value : forall est rec us acc r, ratio_good acc -> Forall unit_good us ->
  Forall (fun x => unit_good (dimension_unit (fst x)) /\ snd (snd x) = 1) rec ->
  derived_ratio_from est acc rec us = Ok r ->
  (rval r == rval acc * factor_product rec us)%Q /\ ratio_good r.
Proof.
  induction rec as [|[d [n m]] rec IH]; intros [|u us] acc r Ga Gu Gr H; cbn [derived_ratio_from] in H; try discriminate.
  - inversion H; subst. split; auto. cbn [factor_product]. ring.
  - inversion Gu; subst. inversion Gr as [|? ? [Gd M] Gr']; subst. cbn [fst snd] in *. subst m.
    step H as f E1. step H as x E2. destruct (derived_factor_value _ _ _ _ _ H2 Gd E1) as [Vf Gf].
    destruct (rmul_good _ _ _ Ga Gf E2) as [Vx Gx].
    destruct (IH us x r) as [V G]; auto. split; auto. rewrite V, Vx, Vf. cbn [factor_product]. ring.
Qed.

Lemma derived_ratio_value : forall est rec us r, Forall unit_good us ->
  Forall (fun x => unit_good (dimension_unit (fst x)) /\ snd (snd x) = 1) rec ->
  derived_ratio est rec us = Ok r -> (rval r == factor_product rec us)%Q /\ ratio_good r.
Proof.
  intros est [|[d [n m]] rec] [|u us] r Gu Gr H; cbn [derived_ratio] in H; try discriminate.
  inversion Gu; subst. inversion Gr as [|? ? [Gd M] Gr']; subst. cbn [fst snd] in *. subst m.
  step H as f E1. destruct (derived_factor_value _ _ _ _ _ H2 Gd E1) as [Vf Gf].
  destruct (derived_from_value _ _ _ _ _ Gf H3 Gr' H) as [V G]. split; auto.
  rewrite V, Vf. cbn [factor_product]. reflexivity.
Qed.

Lemma Qpow_add : forall q a b, (0 < q)%Q -> (q ^ (a + b) == q ^ a * q ^ b)%Q.
Proof. intros q a b H. apply Qpower_plus. intros Z. rewrite Z in H. now apply Qlt_irrefl in H. Qed.

Lemma product_split : forall rec us p, product_of rec us p -> Forall item_good rec -> Forall unit_good us ->
  exists b, coherent_product rec b /\ (b * factor_product rec us == p * surplus rec)%Q.
Proof.
  intros rec us p H. induction H as [|d n u m rec us p (x & X & V) H IH]; intros F G.
  - exists 1%Q. split; [constructor|]. cbn. ring.
  - inversion F as [|? ? [_ [_ Gd]] F']; subst. inversion G as [|? ? Gu G']; subst.
    destruct (IH F' G') as (b & B & E). exists (x ^ n * b)%Q. split; [constructor; auto|].
    cbn [factor_product surplus]. cbn [fst] in Gd.
    pose proof (good_pos _ Gd) as Pd. set (du := rval (u_ratio (dimension_unit d))) in *.
    set (ru := rval (u_ratio u)) in *.
    assert (S : (du ^ (n - sign1 n) == du ^ n * / du ^ sign1 n)%Q).
    { unfold Z.sub. rewrite Qpow_add by auto. now rewrite Qpower_opp. }
    assert (M : (m ^ n == x ^ n * ru ^ n * / du ^ n)%Q).
    { rewrite V. unfold Qdiv. rewrite !Qmult_power, Qinv_power. ring. }
    pose proof (Qpower_pos_lt du n Pd) as Pn. pose proof (Qpower_pos_lt du (sign1 n) Pd) as Ps.
    rewrite S, M.
    transitivity (x ^ n * ru ^ n * / du ^ sign1 n * (b * factor_product rec us))%Q; [ring|].
    rewrite E. field. split; lra.
Qed.

Lemma derived_unit_value : forall est name es cu rec us r u p, make_dimension rec = Ok es ->
  Forall item_good rec -> Forall unit_good us -> unit_good cu -> product_of rec us p ->
  derived_scaled est (DDerived name es cu rec) us = Ok u -> u_ratio u = r ->
  magnitude (DDerived name es cu rec) u (p * surplus rec / rval (u_ratio cu)) /\ unit_good u /\ u_ref u = u_ref cu.
Proof.
  intros est name es cu rec us r u p M F G Gc P H R. unfold derived_scaled in H.
  step H as t E0. step H as q E1. unfold scaled_unit in H. step H as t' E2. inversion H; subst u; clear H.
  cbn [recipe_of] in E1. cbn [u_ratio u_ref] in *. subst q.
  destruct (derived_ratio_value est rec us r) as [V Gr]; auto.
  { clear - P F. revert F. induction P; intros F; [constructor|].
    inversion F as [|? ? [_ [_ Gd]] F']; subst. constructor; auto. }
  destruct (product_split _ _ _ P F G) as (b & B & E).
  destruct (make_dimension_coherent _ _ _ B F M) as [C _].
  split; [|split; auto]. exists b. cbn [exponents dimension_unit u_ratio]. split; auto.
  unfold Qdiv. rewrite <- E, V. ring.
Qed.

Lemma derived_exact_iff : forall d u p s c, (0 < p)%Q -> (0 < c)%Q ->
  magnitude d u (p * s / c) -> (magnitude d u p <-> (s == c)%Q).
Proof.
  intros d u p s c Pp Pc M. split; intros H.
  - pose proof (magnitude_unique _ _ _ _ M H) as E.
    assert (K : (p * s == p * c)%Q).
    { transitivity (p * s / c * c)%Q; [field; lra|]. rewrite E. ring. }
    apply (Qmult_inj_l _ _ p); [lra|exact K].
  - eapply magnitude_ext; [|exact M]. rewrite H. field. lra.
Qed.

Lemma product_of_pos : forall rec us p, product_of rec us p -> Forall item_good rec -> Forall unit_good us ->
  (0 < p)%Q.
Proof.
  intros rec us p H. induction H as [|d n u m rec us p Hm H IH]; intros F G; [reflexivity|].
  inversion F as [|? ? [_ [_ Gd]] F']; subst. inversion G; subst.
  apply Qmult_lt_0_compat; auto. apply Qpower_pos_lt. eapply magnitude_pos; eauto.
Qed.

Lemma named_derived_exact : forall est child name es cu rec sym pf us u p, make_dimension rec = Ok es ->
  Forall item_good rec -> Forall unit_good us -> unit_good cu -> product_of rec us p ->
  mk_named_derived_unit est child (DDerived name es cu rec) sym pf us = Ok u ->
  u_ref u = u_ref cu /\
  (magnitude (DDerived name es cu rec) u p <-> (surplus rec == rval (u_ratio cu))%Q).
Proof.
  intros est child name es cu rec sym pf us u p M F G Gc P H. unfold mk_named_derived_unit in H.
  step H as t E0. step H as b E1. inversion H; subst u; clear H. cbn [u_ref].
  destruct (derived_unit_value _ _ _ _ _ _ _ _ _ M F G Gc P E1 eq_refl) as (V & _ & R).
  split; auto. apply derived_exact_iff; [eapply product_of_pos; eauto|now apply good_pos|]. exact V.
Qed.

Lemma derived_exact : forall est child name es cu rec us u p, make_dimension rec = Ok es ->
  Forall item_good rec -> Forall unit_good us -> unit_good cu -> product_of rec us p ->
  mk_derived_unit est child (DDerived name es cu rec) us = Ok u ->
  u_ref u = u_ref cu /\
  (magnitude (DDerived name es cu rec) u p <-> (surplus rec == rval (u_ratio cu))%Q).
Proof.
  intros est child name es cu rec us u p M F G Gc P H. unfold mk_derived_unit in H.
  step H as t E0. step H as b E1. step H as ss E2. step H as tt E3. inversion H; subst u; clear H. cbn [u_ref].
  destruct (derived_unit_value _ _ _ _ _ _ _ _ _ M F G Gc P E1 eq_refl) as (V & _ & R).
  split; auto. apply derived_exact_iff; [eapply product_of_pos; eauto|now apply good_pos|]. exact V.
Qed.

(** The surplus vanishes when every default unit is its reference or occurs once. *)
Lemma surplus_one : forall rec,
  Forall (fun x => (rval (u_ratio (dimension_unit (fst x))) == 1)%Q \/ Z.abs (fst (snd x)) = 1) rec ->
  (surplus rec == 1)%Q.
Proof.
  induction 1 as [|[d [n m]] rec H F IH]; cbn [surplus]; [reflexivity|]. rewrite IH. cbn [fst snd] in H.
  destruct H as [H|H].
  - rewrite H, Qpower_1. reflexivity.
  - assert (E : n - sign1 n = 0). { unfold sign1. destruct (Z.ltb_spec 0 n); lia. }
    rewrite E. reflexivity.
Qed.
