(** Proofs about conversions between the units of the catalogue. *)

From Coq Require Import ZArith QArith Qpower Qreduction Lqa Lia String List Bool.
From Verif Require Import Outcome CInt Root Ratio FixedString Unit Downcast Dim DimOp DerivedUnit UnitDecl UnitText
  QuantityCast Equivalent System Catalogue SpecRatio SpecDim SpecUnit SpecQuantity SpecCatalogue MagnitudeProofs
  EquivProofs RatioProofs RatioProofs2 CastProofs SystemProofs IsqProofs CatalogueProofs.
Import ListNotations.
Local Open Scope string_scope.
Local Open Scope Z_scope.

(** The same quantity up to its exponents. *)
Definition row_eqb (a b : list (string * Z)) : bool :=
  forallb (fun k => exponent_in a k =? exponent_in b k) kinds.
Definition comparable (x y : option string * dimension) : bool :=
  Bool.eqb (natural_dim x) (natural_dim y) &&
  match assoc quantity_table (quantity_name x), assoc quantity_table (quantity_name y) with
  | Some a, Some b => row_eqb a b
  | None, None => String.eqb (quantity_name x) (quantity_name y)
  | _, _ => false
  end.

Definition reference_size (d : dimension) : Q := coherent (exponents d) / rval (u_ratio (dimension_unit d)).
Definition pair_checked (x y : option string * dimension) : bool :=
  Bool.eqb (dim_equivalent (snd x) (snd y)) (comparable x y) &&
  (if comparable x y then
     (negb (String.eqb (u_ref (dimension_unit (snd x))) (u_ref (dimension_unit (snd y)))) ||
      Qeq_bool (reference_size (snd x)) (reference_size (snd y))) &&
     Qeq_bool (si_coherent (quantity_name x)) (si_coherent (quantity_name y))
   else true).
Definition pairs_checked : bool :=
  forallb (fun x => forallb (pair_checked x) (en_dims full)) (en_dims full).

Lemma full_pairs : pairs_checked = true.
Proof. vm_compute. reflexivity. Qed.

Definition is_contract (r : res ratio) : bool := match r with Contract => true | _ => false end.
Definition is_ok (r : res ratio) : bool := match r with Ok _ => true | _ => false end.
Definition cast_checked (est : estimate) (x y : option string * dimension) (u v : cunit) : bool :=
  let c := cast_ratio est (snd x) u (snd y) v in
  if unconvertible (named u) (named v) then is_contract c else is_ok c.
(** Quotients of small ratios are ratios; only the pairs with a large one are evaluated. *)
Definition small (r : ratio) : bool :=
  ratio_goodb r && (rnum r <=? 2 ^ 31) && (rden r <=? 2 ^ 31) && (Z.abs (rexp r) <=? 1000).
Definition large (est : estimate) (x : option string * dimension) (u : cunit) : bool :=
  negb (small (u_ratio u) && match quantity_ratio est (snd x) u with Ok r => small r | _ => false end).
Definition larges (est : estimate) (x : option string * dimension) : list cunit :=
  filter (large est x) (units_for full (snd x)).
Definition exceptional (n : string) : bool := force_based n || String.eqb n "si::iau::parsec".

Definition casts_checked (est : estimate) : bool :=
  forallb (fun x =>
    match larges est x with
    | [] => true
    | l => forallb (fun y => if comparable x y then
             forallb (fun v => forallb (fun u => cast_checked est x y u v && cast_checked est y x v u) l)
               (units_for full (snd y))
           else true) (en_dims full)
    end &&
    forallb (fun u => negb (exceptional (named u)) || large est x u) (units_for full (snd x))) (en_dims full).

Lemma full_casts : forall est, casts_checked est = true.
Proof. intros est. vm_compute. reflexivity. Qed.

#[local] Opaque full catalogue unit_table natural_table quantity_table isq_templates prefix_table.

Lemma pair_ok : forall x y, In x (en_dims full) -> In y (en_dims full) -> pair_checked x y = true.
Proof.
  intros x y Hx Hy. pose proof full_pairs as P. unfold pairs_checked in P.
  exact (proj1 (forallb_forall _ _) (proj1 (forallb_forall _ _) P x Hx) y Hy).
Qed.

Lemma rdiv_small : forall a b, small a = true -> small b = true -> exists c, rdiv a b = Ok c.
Proof.
  intros a b A B. unfold small in A, B. split_andb.
  repeat match goal with H : ratio_goodb _ = true |- _ => apply ratio_goodb_good in H as (? & ? & ?) end.
  destruct a as [n d e], b as [n' d' e']. cbn [rnum rden rexp] in *.
  unfold rdiv. rewrite rinv_explicit by (auto; unfold INTMAX_MIN; lia). cbn [bind].
  assert (Pd : 0 < d) by (match goal with L : lowest (Ratio n d e) |- _ => apply L end).
  assert (Pd' : 0 < d') by (match goal with L : lowest (Ratio n' d' e') |- _ => apply L end).
  rewrite Z.sgn_pos, Z.mul_1_l, Z.abs_eq by lia.
  assert (X : lowest (Ratio d' n' (- e')) /\ storable (Ratio d' n' (- e'))).
  { destruct (rinv_sound (Ratio n' d' e') (Ratio d' n' (- e'))) as (_ & _ & L & S); auto.
    rewrite rinv_explicit by (auto; unfold INTMAX_MIN; lia). rewrite Z.sgn_pos, Z.mul_1_l, Z.abs_eq by lia. reflexivity. }
  destruct X as [L S].
  apply (rmul_complete _ _ (n * d') (d * n')); auto; cbn [rnum rden rexp]; unfold INTMAX_MAX, INTMAX_MIN; try nia.
Qed.

Lemma units_for_in : forall e d u, In u (en_units e) -> unit_of u d = true -> In u (units_for e d).
Proof. intros e d u I O. apply filter_In. split; assumption. Qed.

Lemma cast_ok : forall est x y u v, In x (en_dims full) -> In y (en_dims full) -> comparable x y = true -> comparable y x = true ->
  In u (en_units full) -> In v (en_units full) -> unit_of u (snd x) = true -> unit_of v (snd y) = true ->
  cast_checked est x y u v = true.
Proof.
  intros est x y u v Hx Hy C C' Hu Hv Ou Ov. pose proof (full_casts est) as P. unfold casts_checked in P.
  pose proof (units_for_in _ _ _ Hu Ou) as Iu. pose proof (units_for_in _ _ _ Hv Ov) as Iv.
  assert (B : forall x y u v, In x (en_dims full) -> In y (en_dims full) -> comparable x y = true ->
    In u (units_for full (snd x)) -> In v (units_for full (snd y)) -> large est x u = true ->
    cast_checked est x y u v = true /\ cast_checked est y x v u = true).
  { clear - P. intros x y u v Hx Hy C Iu Iv L.
    pose proof (proj1 (forallb_forall _ _) P x Hx) as Q. cbv beta in Q. apply andb_true_iff in Q as [Q _].
    assert (Il : In u (larges est x)) by (apply filter_In; split; assumption).
    destruct (larges est x) as [|u0 l]; [contradiction|].
    pose proof (proj1 (forallb_forall _ _) Q y Hy) as Q'. cbv beta in Q'. rewrite C in Q'.
    pose proof (proj1 (forallb_forall _ _) (proj1 (forallb_forall _ _) Q' v Iv) u Il) as Q''. cbv beta in Q''.
    apply andb_true_iff in Q''. exact Q''. }
  destruct (large est x u) eqn:Lu; [exact (proj1 (B x y u v Hx Hy C Iu Iv Lu))|].
  destruct (large est y v) eqn:Lv; [exact (proj2 (B y x v u Hy Hx C' Iv Iu Lv))|].
  assert (E : forall x u, In x (en_dims full) -> In u (units_for full (snd x)) -> large est x u = false -> exceptional (named u) = false).
  { clear - P. intros x u Hx Iu L. pose proof (proj1 (forallb_forall _ _) P x Hx) as Q. cbv beta in Q.
    apply andb_true_iff in Q as [_ Q]. pose proof (proj1 (forallb_forall _ _) Q u Iu) as Q'. cbv beta in Q'.
    rewrite L, orb_false_r in Q'. now apply negb_true_iff in Q'. }
  assert (N : unconvertible (named u) (named v) = false).
  { pose proof (E x u Hx Iu Lu) as Eu. pose proof (E y v Hy Iv Lv) as Ev. unfold exceptional in Eu, Ev.
    apply orb_false_iff in Eu as [E1 E2]. apply orb_false_iff in Ev as [E3 E4].
    unfold unconvertible. rewrite E1, E2, E3, E4. reflexivity. }
  unfold cast_checked. cbv zeta. rewrite N.
  unfold large in Lu, Lv. apply negb_false_iff, andb_true_iff in Lu as [U1 U2]. apply negb_false_iff, andb_true_iff in Lv as [V1 V2].
  unfold cast_ratio. destruct (same_unit_reference u v).
  - destruct (rdiv_small _ _ U1 V1) as [c ->]. reflexivity.
  - destruct (quantity_ratio est (snd x) u) as [a| | | |]; try discriminate U2.
    destruct (quantity_ratio est (snd y) v) as [b| | | |]; try discriminate V2. cbn [bind].
    destruct (rdiv_small _ _ U2 V2) as [c ->]. reflexivity.
Qed.

Lemma coherent_is : forall d b, dim_goodb d = true -> coherent_magnitude (exponents d) b -> (b == coherent (exponents d))%Q.
Proof.
  intros d b G C. unfold dim_goodb in G. apply andb_true_iff in G as [G _].
  destruct (coherent_spec _ G) as (C' & _). eapply coherent_unique; eauto.
Qed.

(** Conversions between two units of a program. *)
Theorem equivalent_iff : forall est mode prog e, incl prog catalogue ->
  elaborate est mode isq_templates empty_env prog = Ok e ->
  forall x y, In x (en_dims e) -> In y (en_dims e) ->
  (dim_equivalent (snd x) (snd y) = true <-> comparable x y = true).
Proof.
  intros est mode prog e I H x y Hx Hy. destruct (selection_in_full _ _ _ _ I H) as (_ & _ & D).
  pose proof (pair_ok x y (D x Hx) (D y Hy)) as P. unfold pair_checked in P.
  apply andb_true_iff in P as [P _]. apply eqb_prop in P. rewrite P. reflexivity.
Qed.

Theorem references_agree : forall est mode prog e, incl prog catalogue ->
  elaborate est mode isq_templates empty_env prog = Ok e ->
  forall x y u v r s, In x (en_dims e) -> In y (en_dims e) -> dim_equivalent (snd x) (snd y) = true ->
  unit_of u (snd x) = true -> unit_of v (snd y) = true ->
  references_ok (QType (snd x) u r) (QType (snd y) v s).
Proof.
  intros est mode prog e I H x y u v r s Hx Hy E Ou Ov R b1 b2 B1 B2. cbn [q_dim q_unit] in *.
  pose proof (proj1 (equivalent_iff _ _ _ _ I H x y Hx Hy) E) as C.
  destruct (selection_in_full _ _ _ _ I H) as (_ & _ & D).
  pose proof (pair_ok x y (D x Hx) (D y Hy)) as P. unfold pair_checked in P. rewrite C in P.
  apply andb_true_iff in P as [_ P]. apply andb_true_iff in P as [P _]. apply orb_true_iff in P as [P|P].
  - exfalso. apply negb_true_iff, String.eqb_neq in P. apply P.
    unfold unit_of in Ou, Ov. apply String.eqb_eq in Ou, Ov. rewrite <- Ou, <- Ov. exact R.
  - apply Qeq_bool_iff in P. unfold reference_size in P.
    assert (G : forall z, In z (en_dims full) -> dim_goodb (snd z) = true)
      by (intros z Hz; exact (proj1 (forallb_forall _ _) full_dims_good z Hz)).
    rewrite (coherent_is _ _ (G x (D x Hx)) B1), (coherent_is _ _ (G y (D y Hy)) B2). exact P.
Qed.

Theorem casts_compile : forall est mode prog e, incl prog catalogue ->
  elaborate est mode isq_templates empty_env prog = Ok e ->
  forall x y u v, In x (en_dims e) -> In y (en_dims e) -> dim_equivalent (snd x) (snd y) = true ->
  In u (en_units e) -> In v (en_units e) -> unit_of u (snd x) = true -> unit_of v (snd y) = true ->
  (unconvertible (named u) (named v) = false -> exists c, cast_ratio est (snd x) u (snd y) v = Ok c) /\
  (unconvertible (named u) (named v) = true -> cast_ratio est (snd x) u (snd y) v = Contract).
Proof.
  intros est mode prog e I H x y u v Hx Hy E Hu Hv Ou Ov.
  pose proof (proj1 (equivalent_iff _ _ _ _ I H x y Hx Hy) E) as C.
  destruct (selection_in_full _ _ _ _ I H) as (_ & U & D).
  assert (C' : comparable y x = true).
  { apply (equivalent_iff _ _ _ _ I H y x Hy Hx). rewrite (proj1 (proj2 dim_equivalent_equivalence)). exact E. }
  pose proof (cast_ok est x y u v (D x Hx) (D y Hy) C C' (U u Hu) (U v Hv) Ou Ov) as K. unfold cast_checked in K.
  split; intros N; rewrite N in K; destruct (cast_ratio est (snd x) u (snd y) v) as [c| | | |];
    try discriminate K; [exists c; reflexivity | reflexivity].
Qed.

Theorem coherent_same : forall est mode prog e, incl prog catalogue ->
  elaborate est mode isq_templates empty_env prog = Ok e ->
  forall x y, In x (en_dims e) -> In y (en_dims e) -> dim_equivalent (snd x) (snd y) = true ->
  natural_dim x = natural_dim y /\ (si_coherent (quantity_name x) == si_coherent (quantity_name y))%Q.
Proof.
  intros est mode prog e I H x y Hx Hy E.
  pose proof (proj1 (equivalent_iff _ _ _ _ I H x y Hx Hy) E) as C.
  destruct (selection_in_full _ _ _ _ I H) as (_ & _ & D).
  pose proof (pair_ok x y (D x Hx) (D y Hy)) as P. unfold pair_checked in P. rewrite C in P.
  apply andb_true_iff in P as [_ P]. apply andb_true_iff in P as [_ P]. apply Qeq_bool_iff in P.
  split; auto. unfold comparable in C. apply andb_true_iff in C as [C _]. now apply eqb_prop in C.
Qed.
