(** Theorems about expressions of quantity kinds and points of kinds (C91). *)

From Coq Require Import ZArith QArith String List Bool.
From Verif Require Import Outcome CInt Root Ratio SpecRatio Unit Downcast Dim DimOp Equivalent SpecDim SpecUnit Rep QuantityCast Quantity SpecQuantity
  DimOpProofs DimOpProofs3 EquivProofs MagnitudeProofs Samples Point Kind PointKind SpecPoint Expr SpecExpr Affine SpecAffine AffineProofs
  KindExpr SpecKindExpr KindExprProofs Props_Dim Props_Quantity Props_Point Props_Expr Props_Affine.
Import ListNotations.
Local Open Scope string_scope.
Local Open Scope list_scope.
Local Open Scope Z_scope.

(** * The discipline of kinds *)

(** An expression that compiles and is defined, of whatever size, follows the discipline, and its
    number, unit, dimension and representation are those of the expression of quantities that is
    left when the kinds are taken away. *)
Theorem C91_discipline : forall U rb est w g gp e v, symbols_identify U -> reachable w -> kinds_declared g -> pkinds_declared gp ->
  legal (of_system U w) e -> keval rb est w g gp e = Ok v ->
  exists x, reads e (ksort_of v) x /\ aeval rb est w x = Ok (VQuantity (under v)).
Proof.
  intros U rb est w g gp e v HU R G GP L H. exact (proj2 (keval_sound U rb est w g gp HU (reachable_consistent w R) G GP e v H L)).
Qed.
Print Assumptions C91_discipline.

(** Nothing else is required: where the discipline is followed and the expression of quantities
    has a value, the expression of kinds has that value. *)
Theorem C91_defined : forall U rb est w g gp e s x q, symbols_identify U -> reachable w -> kinds_declared g -> pkinds_declared gp ->
  legal (of_system U w) e -> reads e s x -> aeval rb est w x = Ok (VQuantity q) ->
  exists v, keval rb est w g gp e = Ok v /\ ksort_of v = s /\ under v = q.
Proof.
  intros U rb est w g gp e s x q HU R G GP L Rd A.
  destruct (keval_complete U rb est w g gp HU (reachable_consistent w R) G GP e s x Rd L _ A) as (v & E & S & Q & _).
  exists v. split; [exact E|]. split; [exact S|]. now inversion Q.
Qed.
Print Assumptions C91_defined.

(** The discipline gives an expression at most one sort and one expression of quantities. *)
Theorem C91_unique : forall e s s' x x', reads e s x -> reads e s' x' -> s = s' /\ x = x'.
Proof. intros e s s' x x' R R'. exact (reads_unique e s x R s' x' R'). Qed.
Print Assumptions C91_unique.

(** An expression against the discipline has no value. *)
Theorem C91_rejected : forall U rb est w g gp e, symbols_identify U -> reachable w -> kinds_declared g -> pkinds_declared gp ->
  legal (of_system U w) e -> (forall s x, ~ reads e s x) -> forall v, keval rb est w g gp e <> Ok v.
Proof.
  intros U rb est w g gp e HU R G GP L N v H. destruct (C91_discipline U rb est w g gp e v HU R G GP L H) as (x & Rd & _). exact (N _ _ Rd).
Qed.
Print Assumptions C91_rejected.

(** Whatever stands on the two sides: different base kinds do not meet, and a kind or point of a
    kind is not added to, subtracted from or compared in a sum with a bare quantity. *)
Theorem C91_no_mixing : forall U rb est w g gp o a b s1 s2 x y, symbols_identify U -> reachable w -> kinds_declared g -> pkinds_declared gp ->
  legal (of_system U w) (KBinary o a b) -> reads a s1 x -> reads b s2 y ->
  (exists k1 k2, sort_base s1 = Some k1 /\ sort_base s2 = Some k2 /\ k1 <> k2) \/ ((o = BAdd \/ o = BSub) /\ (sort_base s1 = None <-> sort_base s2 <> None)) ->
  forall v, keval rb est w g gp (KBinary o a b) <> Ok v.
Proof.
  intros U rb est w g gp o a b s1 s2 x y HU R G GP L Ra Rb M. apply (C91_rejected U); auto. intros s z Rd.
  inversion Rd; subst;
    repeat match goal with
    | H : reads a _ _, H' : reads a s1 x |- _ => destruct (reads_unique _ _ _ H _ _ H'); subst; clear H
    | H : reads b _ _, H' : reads b s2 y |- _ => destruct (reads_unique _ _ _ H _ _ H'); subst; clear H
    end; cbn [sort_base] in M;
    (destruct M as [(k1 & k2 & E1 & E2 & N)|[Ho [N1 N2]]]; [congruence|]);
    try (destruct Ho; discriminate); try (match goal with H : product _ |- _ => destruct H end; destruct Ho; discriminate);
    try (apply N1; reflexivity); try (assert (X : @None bkind <> None) by (now apply N1); now apply X); discriminate N2; discriminate.
Qed.
Print Assumptions C91_no_mixing.

(** One kind throughout: without a cast to a named kind and without [common()], every object and
    type of a kind in the expression has one base kind, and so does the result. *)
Theorem C91_one_kind : forall U rb est w g gp e v b, symbols_identify U -> reachable w -> kinds_declared g -> pkinds_declared gp ->
  legal (of_system U w) e -> keval rb est w g gp e = Ok v -> keeps_kind e -> mentions b e -> sort_base (ksort_of v) = Some b.
Proof.
  intros U rb est w g gp e v b HU R G GP L H K M. destruct (C91_discipline U rb est w g gp e v HU R G GP L H) as (x & Rd & _).
  exact (reads_kind e _ x Rd K b M).
Qed.
Print Assumptions C91_one_kind.

(** Signed 64-bit numbers: the value is that of plain arithmetic on the values of the objects. *)
Theorem C91_value : forall U rb est w g gp at_ e s x r v, symbols_identify U -> good_system U w -> reachable w ->
  kinds_declared g -> pkinds_declared gp -> legal (in_system U w) e -> reads e s x -> stands_for rb est w at_ x v ->
  keval rb est w g gp e = Ok r -> valued est (under r) v.
Proof.
  intros U rb est w g gp at_ e s x r v HU Gs R G GP L Rd S H.
  assert (L' : legal (of_system U w) e).
  { assert (I : forall d, in_system U w d -> of_system U w d) by (intros d (N & K & _); split; assumption).
    assert (Ik : forall t, legal_ktype (in_system U w) t -> legal_ktype (of_system U w) t) by (intros t [D X]; split; auto).
    assert (Ip : forall t, legal_pktype (in_system U w) t -> legal_pktype (of_system U w) t) by (intros t [D X]; split; auto).
    assert (Iq : forall t, legal_qtype (in_system U w) t -> legal_qtype (of_system U w) t) by (intros t [D X]; split; auto).
    assert (Ic : forall c, legal_cast (in_system U w) c -> legal_cast (of_system U w) c) by (intros []; cbn; auto).
    assert (Ikc : forall c, match c with KToType t => legal_ktype (in_system U w) t | KToKind k => in_system U w (k_dim k) | KTo c => legal_cast (in_system U w) c end ->
      match c with KToType t => legal_ktype (of_system U w) t | KToKind k => of_system U w (k_dim k) | KTo c => legal_cast (of_system U w) c end)
      by (intros []; auto).
    clear - L I Ik Ip Iq Ic Ikc. induction e; cbn [legal] in *; auto.
    - destruct L as [L1 L2]. split; [destruct o; auto|auto].
    - destruct L as [L1 L2]. split; auto.
    - destruct L as [L1 L2]. split; auto.
    - destruct L as [L1 L2]. split; auto.
    - destruct L as [L1 L2]. split; [exact (Ikc _ L1)|auto].
    - destruct L as [L1 L2]. split; auto.
    - destruct L as [L1 L2]. split; auto.
    - destruct L as [L1 L2]. split; [exact (Ikc _ L1)|auto].
    - destruct L as [L1 L2]. split; auto. }
  destruct (C91_discipline U rb est w g gp e r HU R G GP L' H) as (x' & Rd' & A).
  destruct (reads_unique _ _ _ Rd _ _ Rd') as [_ <-].
  exact (C83_value U w rb est at_ x v _ HU Gs (reads_dims _ _ _ _ Rd L) S A).
Qed.
Print Assumptions C91_value.

(** (2 km wide + (altitude 500 m - altitude 200 m)) * 3 m: an area of a kind based on width, 6900
    square metres, and the same number without the kinds. *)
Definition strip : kexpr :=
  KBinary BMul (KBinary BAdd (KKind (of_kind width kilometre 2))
                             (KBinary BSub (KPoint (pk_at altitude_from_sea metre 500)) (KPoint (pk_at altitude_from_sea metre 200))))
               (KQuantity (Props_Point.len metre 3)).
Definition bare_strip : aexpr :=
  ABinary BMul (ABinary BAdd (AQuantity (Props_Point.len kilometre 2)) (ABinary BSub (AQuantity (Props_Point.len metre 500)) (AQuantity (Props_Point.len metre 200))))
               (AQuantity (Props_Point.len metre 3)).
Definition result_of (r : res kvalue) : option (ksort * number) := match r with Ok v => Some (ksort_of v, q_num (under v)) | _ => None end.
Example C91_ex : forall est, exists w, si_world = Ok w /\ symbols_identify si_base /\ reachable w /\ good_system si_base w /\
  kinds_declared some_kinds /\ pkinds_declared empty_registry /\ legal (in_system si_base w) strip /\ legal (of_system si_base w) strip /\
  reads strip (IsKind (k_base width)) bare_strip /\ keeps_kind strip /\ mentions (k_base width) strip /\
  (exists v, stands_for no_rebinding est w map_of_places bare_strip v /\ (v == 6900)%Q) /\
  result_of (keval no_rebinding est w some_kinds empty_registry strip) = Some (IsKind (k_base width), NInt 6900).
Proof.
  intros est. destruct si_world_reachable as (w & H & R). exists w. split; [exact H|]. split; [exact si_identify|]. split; [exact R|].
  split; [now apply si_good|]. split; [exact (proj1 C52_ex_hypotheses)|]. split; [constructor|].
  assert (L : in_system si_base w (DBase dim_L)) by (apply base_in_system; now left).
  assert (L' : of_system si_base w (DBase dim_L)) by (destruct L as (N & K & _); split; assumption).
  split; [cbn [legal strip]; split; [split; [split; [exact L|reflexivity]|split; (split; [split; [exact L|reflexivity]|reflexivity])]|split; [exact L|reflexivity]]|].
  split; [cbn [legal strip]; split; [split; [split; [exact L'|reflexivity]|split; (split; [split; [exact L'|reflexivity]|reflexivity])]|split; [exact L'|reflexivity]]|].
  split.
  { apply rd_times; [constructor| |exact (rd_quantity (Props_Point.len metre 3))].
    apply rd_same; [discriminate|exact (rd_kind (of_kind width kilometre 2))|].
    exact (rd_difference _ _ _ _ _ _ (rd_point (pk_at altitude_from_sea metre 500)) (rd_point (pk_at altitude_from_sea metre 200))). }
  split; [cbn; auto|]. split; [cbn; auto|]. split.
  { assert (V : forall u n, u = metre \/ u = kilometre -> in_range I64 n = true ->
      stands_for no_rebinding est w map_of_places (AQuantity (Props_Point.len u n)) (inject_Z n * rval (u_ratio u))).
    { intros u n Hu Hn. apply sf_quantity. destruct Hu; subst u; apply valued_length; try reflexivity; assumption || (vm_compute; repeat split; discriminate || reflexivity). }
    eexists. split; [apply sf_mul; [apply sf_add; [apply V; auto|apply sf_sub; apply V; auto]|apply V; auto]|vm_compute; reflexivity]. }
  vm_compute in H. injection H as <-. vm_compute. reflexivity.
Qed.

(** A width and a depth are not added even inside larger expressions; a width is not added to a
    length; and since moving a point forgets its named origin, a moved altitude is not
    subtracted from the altitude it came from. *)
Example C91_ex_rejected : forall u,
  (forall s x, ~ reads (KBinary BAdd (KUnary UNeg (KKind (of_kind width metre 1))) (KKind (of_kind depth metre 1))) s x) /\
  (forall s x, ~ reads (KBinary BAdd (KKind (of_kind width metre 1)) (KQuantity (Props_Point.len u 1))) s x) /\
  (forall s x, ~ reads (KBinary BSub (KBinary BAdd (KPoint (pk_at altitude_from_sea u 500)) (KKind (of_kind width u 1)))
                                     (KPoint (pk_at altitude_from_sea u 500))) s x) /\
  (exists x, reads (KBinary BSub (KBinary BAdd (KPoint (pk_at floating u 500)) (KKind (of_kind width u 1)))
                                 (KPoint (pk_at floating u 500))) (IsKind (k_base width)) x).
Proof.
  assert (K : forall x s y, reads (KKind x) s y -> s = IsKind (k_base (qk_kind x))) by (intros x s y R; inversion R; reflexivity).
  assert (P : forall x s y, reads (KPoint x) s y -> s = ksort_of (WPoint x)) by (intros x s y R; inversion R; reflexivity).
  assert (Q : forall q s y, reads (KQuantity q) s y -> s = IsQuantity) by (intros q s y R; inversion R; reflexivity).
  assert (N : forall x s y, reads (KUnary UNeg (KKind x)) s y -> s = IsKind (k_base (qk_kind x))).
  { intros x s y R. inversion R; subst; try (match goal with H : reads _ _ _ |- _ => apply K in H; exact H || discriminate H end). }
  intros u. split; [|split; [|split]].
  - intros s x R. inversion R; subst; repeat match goal with
      | H : reads (KUnary _ _) _ _ |- _ => apply N in H | H : reads (KKind _) _ _ |- _ => apply K in H end; cbn in *; try (match goal with X : product _ |- _ => inversion X end); congruence.
  - intros s x R. inversion R; subst; repeat match goal with
      | H : reads (KQuantity _) _ _ |- _ => apply Q in H | H : reads (KKind _) _ _ |- _ => apply K in H end; cbn in *; try (match goal with X : product _ |- _ => inversion X end); congruence.
  - assert (S : forall s x, reads (KBinary BAdd (KPoint (pk_at altitude_from_sea u 500)) (KKind (of_kind width u 1))) s x -> s = IsPoint (k_base width) None).
    { intros s x R. inversion R; subst; repeat match goal with
      | H : reads (KPoint _) _ _ |- _ => apply P in H | H : reads (KKind _) _ _ |- _ => apply K in H end; cbn in *; try (match goal with X : product _ |- _ => inversion X end); congruence. }
    intros s x R. inversion R; subst; repeat match goal with
      | H : reads (KPoint _) _ _ |- _ => apply P in H | H : reads (KBinary _ _ _) _ _ |- _ => apply S in H end; cbn in *; try (match goal with X : product _ |- _ => inversion X end); congruence.
  - eexists. apply rd_difference with (o := None).
    + eapply rd_forward; [exact (rd_point (pk_at floating u 500))|exact (rd_kind (of_kind width u 1))].
    + exact (rd_point (pk_at floating u 500)).
Qed.
