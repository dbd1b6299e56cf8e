(** The types a program of the catalogue can downcast to are those it has declared, with
    good ratios: such a program is a good system in the sense of [SpecExpr]. *)

From Coq Require Import ZArith QArith Qpower Lqa Lia String List Bool Permutation Sorted.
From Verif Require Import Outcome CInt Root Ratio Unit Downcast Dim DimOp DerivedUnit UnitDecl Rep QuantityCast Quantity Reference
  TypeList TypeListProofs DimProofs System Catalogue SpecDim SpecUnit SpecQuantity SpecExpr SpecCatalogue SpecSystems MagnitudeProofs DimOpProofs DimOpProofs3
  SystemProofs IsqProofs CatalogueProofs KindProofs.
Import ListNotations.
Local Open Scope string_scope.
Local Open Scope Z_scope.
Local Open Scope res_scope.

#[local] Opaque full catalogue unit_table natural_table quantity_table isq_templates prefix_table.

Definition is_derived (d : dimension) : bool := match d with DDerived _ _ _ _ => true | _ => false end.
Lemma derived_made : forall n cu rec d, mk_derived_dimension n cu rec = Ok d -> is_derived d = true /\ dim_name d = n.
Proof. intros n cu rec d H. unfold mk_derived_dimension in H. unbind. split; reflexivity. Qed.

(** Every guide leads to something declared. *)
Definition declared (e : env) : Prop :=
  (forall es d, In (es, d) (guides (w_dims (en_world e))) -> is_derived d = true /\ exists o, In (o, d) (en_dims e)) /\
  (forall k u, In (k, u) (guides (w_units (en_world e))) -> In u (en_units e)).

Lemma unit_declare_keeps : forall est l x us, unit_declare est l x = Ok us -> exists u, us = u :: l.
Proof. intros est l x us H. unfold unit_declare in H. step H as v V. step H as u U. inversion H; eauto. Qed.

Lemma entry_declared : forall est mode ts e x e', elaborate_entry est mode ts e x = Ok e' -> declared e -> declared e'.
Proof.
  intros est mode ts e x e' H R. unfold elaborate_entry in H. step H as v0 T. clear v0 T.
  assert (U : forall ud, declare_unit_entry est mode e ud = Ok e' -> declared e').
  { intros ud D. unfold declare_unit_entry in D. step D as us D1. destruct (unit_declare_keeps _ _ _ _ D1) as (u & ->).
    step D as w W. inversion D; subst e'. destruct R as [R1 R2]. destruct (registers ud).
    - unfold declare_unit in W. step W as g G. inversion W; subst w. split; cbn [en_world en_dims en_units w_dims w_units]; [exact R1|].
      intros k v Hk. destruct (declare_guides _ _ _ _ _ _ _ _ G _ Hk) as [X|X]; [inversion X; now left|right; eauto].
    - inversion W; subst w. split; cbn [en_world en_dims en_units]; [exact R1|]. intros k v Hk. right. eauto. }
  assert (D : forall t n u rec, declare_dim_entry mode e t n u rec = Ok e' -> declared e').
  { intros t n u rec D. unfold declare_dim_entry in D. step D as cu C. step D as d D'. step D as w W.
    inversion D; subst e'. destruct R as [R1 R2]. unfold declare_dimension in W. rewrite D' in W. cbn [bind] in W.
    step W as g G. inversion W; subst w. split; cbn [en_world en_dims en_units w_dims w_units]; [|exact R2].
    intros es d0 Hd. destruct (declare_guides _ _ _ _ _ _ _ _ G _ Hd) as [X|X].
    - inversion X; subst. split; [exact (proj1 (derived_made _ _ _ _ D'))|]. exists t. now left.
    - destruct (R1 _ _ X) as (V & o & O). split; [exact V|]. exists o. now right. }
  assert (B : forall t n s u, declare_base_entry e t n s u = Ok e' -> declared e').
  { intros t n s u B. unfold declare_base_entry in B. step B as cu C. step B as b B'. inversion B; subst e'.
    destruct R as [R1 R2]. split; cbn [en_world en_dims en_units]; [|exact R2].
    intros es d Hd. destruct (R1 _ _ Hd) as (V & o & O). split; [exact V|]. exists o. now right. }
  destruct x; try (step H as o O; destruct o as [ud|]; [exact (U ud H) | discriminate H]).
  - step H as r R1. step H as p P. step H as g G. inversion H; subst; auto.
  - exact (B _ _ _ _ H).
  - step H as s S. exact (B _ _ _ _ H).
  - step H as rec Rc. exact (D _ _ _ _ H).
  - step H as ds Ds. step H as r Rr. step H as rec Rc. exact (D _ _ _ _ H).
Qed.

Lemma elaborate_declared : forall est mode ts l e e', elaborate est mode ts e l = Ok e' -> declared e -> declared e'.
Proof.
  intros est mode ts l; induction l as [|x l IH]; cbn [elaborate]; intros e e' H R.
  - inversion H; subst; auto.
  - step H as m M. exact (IH m e' H (entry_declared _ _ _ _ _ _ M R)).
Qed.
Lemma empty_declared : declared empty_env.
Proof. split; intros ? ? []. Qed.

(** Guides and poison, by mode. *)
Definition dim_declared (e : env) (d : dimension) : Prop := is_derived d = true /\ exists o, In (o, d) (en_dims e).
Definition registered (mode : downcast_mode) (e : env) : Prop :=
  mode <> Off ->
  (forall d, dim_declared e d -> has_guide bexps_eq_dec (w_dims (en_world e)) (exponents d) = true) /\
  (forall k, In k (poison (w_dims (en_world e))) -> exists a b, dim_declared e a /\ dim_declared e b /\
     exponents a = k /\ exponents b = k /\ a <> b) /\
  (mode = On -> forall a b, dim_declared e a -> dim_declared e b -> exponents a = exponents b -> a = b).

Lemma has_guide_cons : forall (K T : Type) keq (g : registry K T) k t k',
  has_guide keq g k' = true -> has_guide keq (Registry ((k, t) :: guides g) (poison g)) k' = true.
Proof. intros K T keq g k t k' H. unfold has_guide in *. cbn [guides find_guide]. now destruct (keq k' k). Qed.
Lemma has_guide_head : forall (K T : Type) keq (g : registry K T) k t,
  has_guide keq (Registry ((k, t) :: guides g) (poison g)) k = true.
Proof. intros K T keq g k t. unfold has_guide. cbn [guides find_guide]. now destruct (keq k k). Qed.

Lemma entry_registered : forall est mode ts e x e', elaborate_entry est mode ts e x = Ok e' ->
  declared e -> consistent (en_world e) -> registered mode e -> registered mode e'.
Proof.
  intros est mode ts e x e' H Dc Co R. destruct (elaborate_yields _ _ _ _ _ _ H) as (Tk & _).
  unfold elaborate_entry in H. step H as v0 T. clear v0 T.
  assert (Same : forall e', w_dims (en_world e') = w_dims (en_world e) -> (forall d, dim_declared e' d -> dim_declared e d) ->
    (forall d, dim_declared e d -> dim_declared e' d) -> registered mode e').
  { intros e1 W B F M. destruct (R M) as (R1 & R2 & R3). rewrite W. split; [intros d Hd; apply R1, B, Hd|]. split.
    - intros k Hk. destruct (R2 k Hk) as (a & b & A1 & B1 & Q). exists a, b. split; [exact (F _ A1)|]. split; [exact (F _ B1)|exact Q].
    - intros O a b Ha Hb. apply (R3 O); auto. }
  assert (U : forall ud, declare_unit_entry est mode e ud = Ok e' -> registered mode e').
  { intros ud D. unfold declare_unit_entry in D. step D as us D1. destruct us as [|u us]; [discriminate|].
    step D as w W. inversion D; subst e'. apply Same; cbn [en_world en_dims]; try (intros d Hd; exact Hd).
    destruct (registers ud); [|now inversion W]. unfold declare_unit in W. step W as g G. now inversion W. }
  assert (B : forall t n s u, declare_base_entry e t n s u = Ok e' -> registered mode e').
  { intros t n s u B. unfold declare_base_entry in B. step B as cu C. step B as b B'. inversion B; subst e'.
    apply Same; cbn [en_world en_dims]; [reflexivity| |].
    - intros d (V & o & [O|O]); [inversion O; subst; discriminate|]. split; eauto.
    - intros d (V & o & O). split; [exact V|]. exists o. now right. }
  assert (D : forall t n u rec, n = entry_name x -> declare_dim_entry mode e t n u rec = Ok e' -> registered mode e').
  { intros t n u rec En D. unfold declare_dim_entry in D. step D as cu C. step D as d D'. step D as w W.
    inversion D; subst e'. clear D. unfold declare_dimension in W. rewrite D' in W. cbn [bind] in W.
    step W as g G. inversion W; subst w. clear W Same U B. destruct (derived_made _ _ _ _ D') as [V Nm].
    intros M. destruct (R M) as (R1 & R2 & R3). unfold dim_declared. cbn [en_world en_dims w_dims].
    assert (Keep : forall a, dim_declared e a -> is_derived a = true /\ exists o, In (o, a) ((t, d) :: en_dims e))
      by (intros a (A1 & o & A2); split; [exact A1|exists o; now right]).
    assert (New : is_derived d = true /\ exists o, In (o, d) ((t, d) :: en_dims e)) by (split; [exact V|exists t; now left]).
    assert (Old : forall a, (is_derived a = true /\ exists o, In (o, a) ((t, d) :: en_dims e)) -> a = d \/ dim_declared e a)
      by (intros a (A1 & o & [A2|A2]); [inversion A2; auto | right; split; eauto]).
    assert (Fresh : forall a, dim_declared e a -> a <> d).
    { intros a (_ & o & A) ->. unfold taken in Tk. apply orb_false_iff in Tk as [_ Tk].
      assert (existsb (fun d0 => String.eqb (entry_name x) (dim_name (snd d0))) (en_dims e) = true); [|congruence].
      apply existsb_exists. exists (o, d). split; [exact A|]. cbn [snd]. rewrite Nm, En. apply String.eqb_refl. }
    assert (Guided : has_guide bexps_eq_dec (w_dims (en_world e)) (exponents d) = true ->
      exists a, dim_declared e a /\ exponents a = exponents d).
    { intros G'. unfold has_guide in G'. destruct (find_guide _ _ _) as [a|] eqn:F; [|discriminate].
      apply find_guide_in in F. destruct (proj1 Dc _ _ F) as [X Y]. exists a. split; [split; auto|]. exact (proj1 Co _ _ F). }
    destruct mode; [contradiction| |]; cbn [declare] in G; destruct (has_guide _ _ (exponents d)) eqn:Hg.
    - discriminate.
    - inversion G; subst g. clear G. cbn [poison]. split; [|split].
      + intros a Ha. destruct (Old a Ha) as [->|Ha']; [apply has_guide_head|apply has_guide_cons; auto].
      + intros k Hk. destruct (R2 k Hk) as (a & b & A & B & Q). exists a, b. split; [exact (Keep a A)|]. split; [exact (Keep b B)|exact Q].
      + intros O a b Ha Hb E. destruct (Old a Ha) as [->|Ha'], (Old b Hb) as [->|Hb']; auto.
        * exfalso. pose proof (R1 b Hb') as Z. rewrite <- E, Hg in Z. discriminate.
        * exfalso. pose proof (R1 a Ha') as Z. rewrite E, Hg in Z. discriminate.
    - inversion G; subst g. clear G. cbn [poison]. split; [|split].
      + intros a Ha. destruct (Old a Ha) as [->|Ha']; [exact Hg|exact (R1 a Ha')].
      + intros k [<-|Hk].
        * destruct (Guided eq_refl) as (a & A & Ea). exists a, d. split; [exact (Keep a A)|]. split; [exact New|]. split; [exact Ea|]. split; [reflexivity|]. now apply Fresh.
        * destruct (R2 k Hk) as (a & b & A & B & Q). exists a, b. split; [exact (Keep a A)|]. split; [exact (Keep b B)|exact Q].
      + discriminate.
    - inversion G; subst g. clear G. cbn [poison]. split; [|split].
      + intros a Ha. destruct (Old a Ha) as [->|Ha']; [apply has_guide_head|apply has_guide_cons; auto].
      + intros k Hk. destruct (R2 k Hk) as (a & b & A & B & Q). exists a, b. split; [exact (Keep a A)|]. split; [exact (Keep b B)|exact Q].
      + discriminate. }
  destruct x; try (step H as o O; destruct o as [ud|]; [exact (U ud H) | discriminate H]).
  - step H as r R1. step H as p P. step H as g G. inversion H; subst. apply Same; try reflexivity; auto.
  - exact (B _ _ _ _ H).
  - step H as s S. exact (B _ _ _ _ H).
  - step H as rec Rc. refine (D _ _ _ _ _ H). reflexivity.
  - step H as ds Ds. step H as r Rr. step H as rec Rc. refine (D _ _ _ _ _ H). reflexivity.
Qed.

Lemma elaborate_registered : forall est mode ts l e e', elaborate est mode ts e l = Ok e' ->
  declared e -> reachable (en_world e) -> registered mode e -> registered mode e'.
Proof.
  intros est mode ts l; induction l as [|x l IH]; cbn [elaborate]; intros e e' H D C R.
  - inversion H; subst; auto.
  - step H as m M. apply (IH m e' H).
    + exact (entry_declared _ _ _ _ _ _ M D).
    + exact (entry_reachable _ _ _ _ _ _ M C).
    + exact (entry_registered _ _ _ _ _ _ M D (reachable_consistent _ C) R).
Qed.
Lemma empty_registered : forall mode, registered mode empty_env.
Proof.
  intros mode M. split; [intros d (_ & o & [])|]. split; [intros k []|]. intros _ a b (_ & o & []).
Qed.

(** A dimension with exponents of its own is the one its exponents lead back to. *)
Lemma program_downcast : forall est mode ts l e, elaborate est mode ts empty_env l = Ok e -> mode <> Off ->
  forall d, dim_declared e d ->
  (mode = On \/ forall a, dim_declared e a -> exponents a = exponents d -> a = d) ->
  downcast bexps_eq_dec (w_dims (en_world e)) (exponents d) = Some d.
Proof.
  intros est mode ts l e H M d Hd U.
  pose proof (elaborate_declared _ _ _ _ _ _ H empty_declared) as [D1 D2].
  pose proof (reachable_consistent _ (elaborate_reachable _ _ _ _ _ _ H reach_empty)) as [C1 C2].
  destruct (elaborate_registered _ _ _ _ _ _ H empty_declared reach_empty (empty_registered mode) M) as (R1 & R2 & R3).
  assert (U' : forall a, dim_declared e a -> exponents a = exponents d -> a = d).
  { destruct U as [O|U]; [intros a Ha E; exact (R3 O a d Ha Hd E)|exact U]. }
  pose proof (R1 d Hd) as G. unfold has_guide in G. unfold downcast.
  destruct (find_guide bexps_eq_dec (guides (w_dims (en_world e))) (exponents d)) as [a|] eqn:F; [|discriminate].
  apply find_guide_in in F. assert (a = d) by (apply U'; [exact (D1 _ _ F)|exact (C1 _ _ F)]). subst a.
  unfold has_poison. destruct (in_dec bexps_eq_dec (exponents d) (poison (w_dims (en_world e)))) as [P|P]; [|reflexivity].
  exfalso. destruct (R2 _ P) as (a & b & A & B & Ea & Eb & N). apply N. rewrite (U' a A Ea), (U' b B Eb). reflexivity.
Qed.

(** ** Base dimensions *)

Lemma multiply_dims : forall n d es m, map_res (exponent_multiply n d) es = Ok m -> map e_dim m = map e_dim es.
Proof.
  intros n d es; induction es as [|e es IH]; cbn [map_res]; intros m H; [inversion H; reflexivity|].
  step H as x X. step H as y Y. inversion H; subst m. cbn [map]. rewrite (IH _ Y).
  unfold exponent_multiply in X. unbind. reflexivity.
Qed.
Lemma unpack_dims : forall l u, dim_unpack l = Ok u -> forall e, In e u ->
  exists d nd f, In (d, nd) l /\ In f (exponents d) /\ e_dim e = e_dim f.
Proof.
  induction l as [|[d [n k]] l IH]; cbn [dim_unpack]; intros u H e He; [inversion H; subst; destruct He|].
  assert (G : exists m t, dim_unpack l = Ok t /\ u = push_front t m /\ map e_dim m = map e_dim (exponents d)).
  { destruct d as [b|? ? ? ?|? ?].
    - step H as t T. inversion H; subst u. exists [BExp b n k], t. auto.
    - step H as m M. step H as t T. inversion H; subst u. exists m, t. split; auto. split; auto. exact (multiply_dims _ _ _ _ M).
    - step H as m M. step H as t T. inversion H; subst u. exists m, t. split; auto. split; auto. exact (multiply_dims _ _ _ _ M). }
  destruct G as (m & t & T & -> & Md). unfold push_front in He. apply in_app_or in He as [He|He].
  - assert (Hin : In (e_dim e) (map e_dim (exponents d))) by (rewrite <- Md; now apply in_map).
    apply in_map_iff in Hin as (f & Hf & Hin). exists d, (n, k), f. repeat split; auto. now left.
  - destruct (IH t T e He) as (d' & nd & f & X & Y & Z). exists d', nd, f. repeat split; auto. now right.
Qed.
Lemma make_dimension_dims : forall l es, make_dimension l = Ok es -> forall e, In e es ->
  exists d nd f, In (d, nd) l /\ In f (exponents d) /\ e_dim e = e_dim f.
Proof.
  intros l es H e He. unfold make_dimension in H. step H as u U.
  destruct (type_list_sort_spec exponent_less less_ntrans less_asym u) as [P _].
  destruct (dim_consolidate_dims _ _ H e He) as (g & G & E).
  apply (Permutation_in _ P) in G. destruct (unpack_dims _ _ U g G) as (d & nd & f & X & Y & Z).
  exists d, nd, f. repeat split; auto. congruence.
Qed.

(** The base dimensions of a declared dimension are declared. *)
Definition closed (e : env) : Prop :=
  forall o d x, In (o, d) (en_dims e) -> In x (exponents d) -> exists o', In (o', DBase (e_dim x)) (en_dims e).
Lemma derived_closed : forall e n cu rec d, closed e -> mk_derived_dimension n cu rec = Ok d ->
  (forall y nd, In (y, nd) rec -> exists o, In (o, y) (en_dims e)) ->
  forall x, In x (exponents d) -> exists o', In (o', DBase (e_dim x)) (en_dims e).
Proof.
  intros e n cu rec d C H R x Hx. unfold mk_derived_dimension in H. step H as es E. inversion H; subst d. cbn [exponents] in Hx.
  destruct (make_dimension_dims _ _ E x Hx) as (y & nd & f & Y & F & D). destruct (R _ _ Y) as (o & O). rewrite D. exact (C _ _ _ O F).
Qed.
Lemma entry_closed : forall est mode ts e x e', elaborate_entry est mode ts e x = Ok e' -> closed e -> closed e'.
Proof.
  intros est mode ts e x e' H C. destruct (elaborate_yields _ _ _ _ _ _ H) as (_ & t & Y & A & _).
  destruct t as [p|u|o d]; cbn [adds] in A; destruct A as (_ & _ & A); unfold closed; rewrite A; try exact C.
  assert (G : forall y, In y (exponents d) -> exists o', In (o', DBase (e_dim y)) ((o, d) :: en_dims e)).
  { assert (K : forall y, (exists o', In (o', DBase (e_dim y)) (en_dims e)) -> exists o', In (o', DBase (e_dim y)) ((o, d) :: en_dims e))
      by (intros y (o' & O); exists o'; now right).
    destruct x; cbn [yields] in Y; try (destruct Y as (? & ? & _ & _ & Y); discriminate).
    - destruct Y as (cu & b & _ & _ & Y). inversion Y; subst. intros y [<-|[]]. exists None. now left.
    - destruct Y as (s & cu & b & _ & _ & _ & Y). inversion Y; subst. intros y [<-|[]]. exists (Some t). now left.
    - destruct Y as (rec & cu & d' & Rec & _ & D & Y). inversion Y; subst. intros y Hy. apply K.
      refine (derived_closed e _ _ _ _ C D _ y Hy). intros z nd Hz.
      destruct (map_res_in _ _ _ _ _ Rec _ Hz) as (q & _ & F). step F as w W. inversion F; subst.
      exists (fst w). apply find_dim_in in W. now destruct w.
    - destruct Y as (ds & r & rec & cu & d' & Ds & R & Rec & _ & D & Y). inversion Y; subst. intros y Hy. apply K.
      refine (derived_closed e _ _ _ _ C D _ y Hy). intros z nd Hz. unfold substitute in Rec.
      destruct (map_res_in _ _ _ _ _ Rec _ Hz) as (q & _ & F). destruct (nth_error (map snd ds) (fst q)) as [w|] eqn:W; [|discriminate].
      inversion F; subst. apply nth_error_In, in_map_iff in W as (v & <- & V).
      destruct (map_res_in _ _ _ _ _ Ds _ V) as (m & _ & F'). exists (fst v). apply find_dim_in in F'. now destruct v. }
  intros o' d' y [E|Hd] Hy; [inversion E; subst; exact (G y Hy)|].
  destruct (C _ _ _ Hd Hy) as (o2 & O). exists o2. now right.
Qed.
Lemma elaborate_closed : forall est mode ts l e e', elaborate est mode ts e l = Ok e' -> closed e -> closed e'.
Proof.
  intros est mode ts l; induction l as [|x l IH]; cbn [elaborate]; intros e e' H R.
  - inversion H; subst; auto.
  - step H as m M. exact (IH m e' H (entry_closed _ _ _ _ _ _ M R)).
Qed.
