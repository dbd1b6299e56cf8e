(** C89: what equivalent types have in common.  C90: an expression means the same whatever the
    program declares, and in every downcasting mode. *)

From Coq Require Import ZArith QArith String List Bool Lia.
From Verif Require Import Outcome CInt Root Ratio SpecRatio FixedString Unit Downcast Dim DimOp Equivalent SpecDim DimOpProofs SpecUnit MagnitudeProofs Rep Reference QuantityCast
  CommonQuantity Quantity SpecQuantity Point Kind PointKind Affine Static SpecStatic StaticProofs UnitDecl EquivalentTypes SpecModes ModeProofs ModeProofs2 SpecPoint PointProofs KindProofs
  Samples Props_Dim Props_Unit Props_Quantity Props_Expr Props_Affine.
Import ListNotations.
Local Open Scope string_scope.
Local Open Scope list_scope.
Local Open Scope Z_scope.
Local Open Scope res_scope.

(** * C89: types that [equivalent] identifies *)

(** Within a system of decimal base units, whose units are declared by some program or are
    anonymous: types that [equivalent] identifies have units of one size. *)
Theorem C89_same_size : forall U est l env t1 t2 m1 m2, symbols_identify U -> decimal U -> unit_program est [] l = Ok env ->
  stated env (q_unit t1) -> stated env (q_unit t2) -> plain_type U t1 -> plain_type U t2 ->
  qtype_equivalent t1 t2 = Ok true -> magnitude (q_dim t1) (q_unit t1) m1 -> magnitude (q_dim t2) (q_unit t2) m2 -> (m1 == m2)%Q.
Proof.
  intros U est l env t1 t2 m1 m2 HU HD E S1 S2 P1 P2 H. destruct (equivalent_ratio U HU HD est l env t1 t2 E S1 S2 P1 P2 H) as [S R].
  exact (same_magnitude U t1 t2 m1 m2 P1 P2 S R).
Qed.
Print Assumptions C89_same_size.

(** A conversion between equivalent types of one representation leaves the number as it is,
    whichever the representation and the number. *)
Theorem C89_conversion : forall U est l env t q q', symbols_identify U -> decimal U -> unit_program est [] l = Ok env ->
  stated env (q_unit (q_type q)) -> stated env (q_unit t) -> plain_type U (q_type q) -> plain_type U t -> q_rep (q_type q) = q_rep t ->
  num_ok (q_rep t) (q_num q) = true -> qtype_equivalent (q_type q) t = Ok true -> q_to est t q = Ok q' -> q' = Quantity t (q_num q).
Proof.
  intros U est l env t q q' HU HD E S1 S2 P1 P2 R N H C. destruct (equivalent_ratio U HU HD est l env _ _ E S1 S2 P1 P2 H) as [S K].
  unfold q_to in C. step C as n X. inversion C; subst q'. rewrite <- R in N. now rewrite (convert_named U HU HD est (q_type q) t (q_num q) n P1 P2 R K N X).
Qed.
Print Assumptions C89_conversion.

(** Quantities of equivalent types and one representation compare as their numbers do. *)
Theorem C89_comparison : forall U est est' l env w a b c, symbols_identify U -> decimal U -> unit_program est [] l = Ok env -> reachable w ->
  stated env (q_unit (q_type a)) -> stated env (q_unit (q_type b)) -> plain_type U (q_type a) -> plain_type U (q_type b) ->
  q_rep (q_type a) = q_rep (q_type b) -> sound (VQuantity a) -> sound (VQuantity b) -> qtype_equivalent (q_type a) (q_type b) = Ok true ->
  q_compare est' w a b = Ok c -> n_compare (q_num a) (q_num b) = Ok c.
Proof.
  intros U est est' l env w a b c HU HD E W S1 S2 P1 P2 R Na Nb H C. destruct (equivalent_ratio U HU HD est l env _ _ E S1 S2 P1 P2 H) as [S K].
  unfold q_compare in C. step C as p P. unfold q_common in P. destruct (qtype_eq_dec (q_type a) (q_type b)) as [Q|Q].
  - inversion P; subst p. exact C.
  - step P as t T. step P as x X. step P as y Y. inversion P; subst p.
    destruct (common_named U HU HD est' w a b t x y (reachable_consistent w W) P1 P2 Na Nb R K T X Y) as [-> ->]. exact C.
Qed.
Print Assumptions C89_comparison.

(** It is an equivalence relation on the types of one system. *)
Theorem C89_reflexive : forall t, qtype_equivalent t t = Ok true.
Proof. intros t. unfold qtype_equivalent. destruct (qtype_eq_dec t t) as [_|N]; [reflexivity|]. now destruct N. Qed.
Print Assumptions C89_reflexive.

Theorem C89_symmetric : forall t1 t2 b, qtype_equivalent t1 t2 = Ok b -> qtype_equivalent t2 t1 = Ok b.
Proof.
  intros t1 t2 b H. unfold qtype_equivalent in *. destruct (qtype_eq_dec t1 t2) as [->|N].
  - destruct (qtype_eq_dec t2 t2) as [_|N]; [exact H|now destruct N].
  - destruct (qtype_eq_dec t2 t1) as [E|_]; [now destruct N|]. unfold and_then in *. cbn [bind] in *.
    destruct EquivProofs.dim_equivalent_equivalence as (_ & Sy & _).
    rewrite (Sy (q_dim t2)). destruct (dim_equivalent (q_dim t1) (q_dim t2)); [|exact H].
    unfold equivalent_unit in *. step H as x X. step H as y Y. rewrite X, Y. cbn [bind]. rewrite <- H. f_equal. f_equal.
    + unfold unit_equivalent. destruct (cunit_eq_dec (q_unit t2) (q_unit t1)) as [E|E], (cunit_eq_dec (q_unit t1) (q_unit t2)) as [F|F]; try congruence; cbn [orb]; try reflexivity.
      apply orb_comm.
    + unfold ratio_eqb. now rewrite (Z.eqb_sym (rnum y)), (Z.eqb_sym (rden y)), (Z.eqb_sym (rexp y)).
Qed.
Print Assumptions C89_symmetric.

Theorem C89_transitive : forall U est l env t1 t2 t3, symbols_identify U -> decimal U -> unit_program est [] l = Ok env ->
  stated env (q_unit t1) -> stated env (q_unit t2) -> stated env (q_unit t3) -> plain_type U t1 -> plain_type U t2 -> plain_type U t3 ->
  qtype_equivalent t1 t2 = Ok true -> qtype_equivalent t2 t3 = Ok true -> qtype_equivalent t1 t3 = Ok true.
Proof.
  intros U est l env t1 t2 t3 HU HD E S1 S2 S3 P1 P2 P3 H K. destruct (equivalent_comparable _ _ H) as [->|[A _]]; [exact K|].
  destruct (equivalent_ratio U HU HD est l env t1 t2 E S1 S2 P1 P2 H) as [[D1 B1] R1]. destruct (equivalent_ratio U HU HD est l env t2 t3 E S2 S3 P2 P3 K) as [[D2 B2] R2].
  apply (equivalent_intro U t1 t3 P1 P3); [split|..]; congruence.
Qed.
Print Assumptions C89_transitive.

(** ** Points and kinds *)

Theorem C89_points : forall U est l env rb t p p', symbols_identify U -> decimal U -> unit_program est [] l = Ok env ->
  stated env (p_unit (pt_type p)) -> stated env (p_unit t) -> plain_type U (p_qtype (pt_type p)) -> plain_type U (p_qtype t) -> p_rep (pt_type p) = p_rep t ->
  sound (VPoint p) -> ptype_equivalent rb (pt_type p) t = Ok true -> p_to rb est t p = Ok p' -> p' = Point t (pt_num p).
Proof.
  intros U est l env rb t p p' HU HD E S1 S2 P1 P2 R N H C.
  assert (Q : qtype_equivalent (p_qtype (pt_type p)) (p_qtype t) = Ok true).
  { unfold ptype_equivalent in H. destruct (ptype_eq_dec (pt_type p) t) as [->|_]; [apply C89_reflexive|]. unfold and_then in H. step H as b B. destruct b; [exact B|discriminate]. }
  destruct (equivalent_ratio U HU HD est l env (p_qtype (pt_type p)) (p_qtype t) E S1 S2 P1 P2 Q) as [S K].
  unfold p_to in C. step C as u V. unfold p_make in C. step C as n X. inversion C; subst p'.
  now rewrite (convert_named U HU HD est (p_qtype (pt_type p)) (p_qtype t) (pt_num p) n P1 P2 R K N X).
Qed.
Print Assumptions C89_points.

Theorem C89_kinds : forall U est l env t x x', symbols_identify U -> decimal U -> unit_program est [] l = Ok env ->
  stated env (kt_unit (qk_type x)) -> stated env (kt_unit t) -> plain_type U (kt_qtype (qk_type x)) -> plain_type U (kt_qtype t) -> kt_rep (qk_type x) = kt_rep t ->
  num_ok (kt_rep t) (qk_num x) = true -> ktype_equivalent (qk_type x) t = Ok true -> k_to est t x = Ok x' -> x' = QKind t (qk_num x).
Proof.
  intros U est l env t x x' HU HD E S1 S2 P1 P2 R N H C.
  assert (Q : qtype_equivalent (kt_qtype (qk_type x)) (kt_qtype t) = Ok true).
  { unfold ktype_equivalent in H. destruct (ktype_eq_dec (qk_type x) t) as [->|_]; [apply C89_reflexive|]. unfold and_then in H. cbn [bind] in H.
    destruct (kind_equivalent (kt_kind (qk_type x)) (kt_kind t)); [exact H|discriminate]. }
  destruct (equivalent_ratio U HU HD est l env (kt_qtype (qk_type x)) (kt_qtype t) E S1 S2 P1 P2 Q) as [S K]. rewrite <- R in N.
  unfold k_to in C. step C as u V. unfold k_construct in C. step C as n X. inversion C; subst x'.
  now rewrite (convert_named U HU HD est (kt_qtype (qk_type x)) (kt_qtype t) (qk_num x) n P1 P2 R K N X).
Qed.
Print Assumptions C89_kinds.

Theorem C89_point_kinds : forall U est l env rb t x x', symbols_identify U -> decimal U -> unit_program est [] l = Ok env ->
  stated env (pkt_unit (qpk_type x)) -> stated env (pkt_unit t) -> plain_type U (kt_qtype (pkt_ktype (qpk_type x))) -> plain_type U (kt_qtype (pkt_ktype t)) ->
  pkt_rep (qpk_type x) = pkt_rep t -> num_ok (pkt_rep t) (qpk_num x) = true -> pktype_equivalent rb (qpk_type x) t = Ok true ->
  pk_to rb est t x = Ok x' -> x' = QPKind t (qpk_num x).
Proof.
  intros U est l env rb t x x' HU HD E S1 S2 P1 P2 R N H C.
  assert (Q : ktype_equivalent (pkt_ktype (qpk_type x)) (pkt_ktype t) = Ok true).
  { unfold pktype_equivalent in H. destruct (pktype_eq_dec (qpk_type x) t) as [->|_].
    - unfold ktype_equivalent. destruct (ktype_eq_dec (pkt_ktype t) (pkt_ktype t)) as [_|M]; [reflexivity|now destruct M].
    - unfold and_then in H. step H as b B. destruct b; [exact B|discriminate]. }
  unfold pk_to in C. step C as u V. unfold pk_construct in C. step C as y Y. inversion C; subst x'.
  now rewrite (C89_kinds U est l env (pkt_ktype t) (pk_relative x) y HU HD E S1 S2 P1 P2 R N Q Y).
Qed.
Print Assumptions C89_point_kinds.

(** Equivalent types of points have one origin, those of kinds are of one kind, and those of
    points of kinds are both. *)
Theorem C89_origins : forall rb,
  (forall a b, ptype_equivalent rb a b = Ok true -> one_origin rb (p_origin a) (p_origin b)) /\
  (forall a b, ktype_equivalent a b = Ok true -> one_kind_of (kt_kind a) (kt_kind b)) /\
  (forall a b, pktype_equivalent rb a b = Ok true ->
    one_origin rb (pk_origin (pkt_kind a)) (pk_origin (pkt_kind b)) /\ one_kind_of (kt_kind (pkt_ktype a)) (kt_kind (pkt_ktype b))).
Proof.
  intros rb. assert (K : forall a b, ktype_equivalent a b = Ok true -> one_kind_of (kt_kind a) (kt_kind b)).
  { intros a b H. apply kind_equivalent_iff. unfold ktype_equivalent in H. destruct (ktype_eq_dec a b) as [->|_]; [unfold kind_equivalent; now destruct (kind_eq_dec _ _)|].
    unfold and_then in H. cbn [bind] in H. now destruct (kind_equivalent (kt_kind a) (kt_kind b)). }
  split; [|split; [exact K|]].
  - intros a b H. unfold ptype_equivalent in H. destruct (ptype_eq_dec a b) as [->|_]; [now left|]. unfold and_then in H. step H as x X. destruct x; [|discriminate].
    apply origin_equivalent_iff. now inversion H.
  - intros a b H. unfold pktype_equivalent in H. destruct (pktype_eq_dec a b) as [->|_].
    + split; [now left|]. apply K. unfold ktype_equivalent. now destruct (ktype_eq_dec _ _).
    + unfold and_then in H. step H as x X. destruct x; [|discriminate]. split; [|now apply K]. apply origin_equivalent_iff. now inversion H.
Qed.
Print Assumptions C89_origins.

(** ** Where it fails *)

(** Across systems the ratios to different coherent units are compared (equivalent.h:80-83): the
    metre of the SI is equivalent to the centimetre of the CGS, 100 times smaller, and a
    conversion between these equivalent types multiplies by 100. *)
Definition si_metre := QType (DBase dim_L) metre (RInt I32).
Definition si_centimetre := QType (DBase dim_L) centimetre (RInt I32).
Definition cgs_centimetre := QType (DBase cgs_L) centimetre (RInt I32).
Theorem C89_across_systems_refuted : forall est,
  qtype_equivalent si_metre cgs_centimetre = Ok true /\
  magnitude (q_dim si_metre) (q_unit si_metre) 1 /\ magnitude (q_dim cgs_centimetre) (q_unit cgs_centimetre) (1 # 100) /\
  q_to est cgs_centimetre (Quantity si_metre (NInt 5)) = Ok (Quantity cgs_centimetre (NInt 500)).
Proof.
  intros est. split; [vm_compute; reflexivity|]. split; [|split; [|vm_compute; reflexivity]].
  - exists 1%Q. split; [|reflexivity]. split; [|split; [reflexivity|reflexivity]]. constructor; [split; [discriminate|exists 2; reflexivity]|constructor].
  - exists (1 # 100)%Q. split; [|reflexivity]. split; [|split; [reflexivity|reflexivity]]. constructor; [split; [discriminate|exists 2; reflexivity]|constructor].
Qed.
Print Assumptions C89_across_systems_refuted.

(** and the equivalence is not transitive. *)
Theorem C89_transitive_across_refuted :
  qtype_equivalent si_metre cgs_centimetre = Ok true /\ qtype_equivalent cgs_centimetre si_centimetre = Ok true /\
  qtype_equivalent si_metre si_centimetre = Ok false.
Proof. vm_compute. auto. Qed.
Print Assumptions C89_transitive_across_refuted.

(** The converse of [C89_same_size] does not hold: two units of one size whose ratios are written
    differently are not equivalent. *)
Definition two_fifths : list unit_decl :=
  [UNamed "metre" (st_of_ascii "m") "si_prefix"; UScaled "a" (st_of_ascii "a") "no_prefix" (Ratio 2 5 0) "metre";
   UScaled "b" (st_of_ascii "b") "no_prefix" (Ratio 4 1 (-1)) "metre"].
Theorem C89_converse_refuted : forall est, exists m a b, unit_program est [] two_fifths = Ok [b; a; m] /\
  magnitude (DBase dim_L) a (2 # 5) /\ magnitude (DBase dim_L) b (2 # 5) /\
  qtype_equivalent (QType (DBase dim_L) a (RInt I32)) (QType (DBase dim_L) b (RInt I32)) = Ok false.
Proof.
  intros est. exists (CUnit (Some "metre") [] (Ratio 1 1 0) "metre" true (Some (st_of_ascii "m")) "si_prefix"),
    (CUnit (Some "a") [] (Ratio 2 5 0) "metre" true (Some (st_of_ascii "a")) "no_prefix"),
    (CUnit (Some "b") [] (Ratio 4 1 (-1)) "metre" true (Some (st_of_ascii "b")) "no_prefix").
  split; [vm_compute; reflexivity|]. split; [|split; [|vm_compute; reflexivity]].
  - exists 1%Q. split; [|reflexivity]. split; [|split; [reflexivity|reflexivity]]. constructor; [split; [discriminate|exists 2; reflexivity]|constructor].
  - exists 1%Q. split; [|reflexivity]. split; [|split; [reflexivity|reflexivity]]. constructor; [split; [discriminate|exists 2; reflexivity]|constructor].
Qed.
Print Assumptions C89_converse_refuted.

(** ** Examples *)

Lemma si_decimal : decimal si_base.
Proof. intros b [->|[->| ->]]; (split; [vm_compute; intuition congruence|eexists; reflexivity]). Qed.
Lemma si_base_plain : forall b u r, si_base b -> unit_good u -> u_ref u = u_ref (bd_unit b) -> plain_type si_base (QType (DBase b) u r).
Proof.
  intros b u r B G E. split; [|split; [exact G|]].
  - split; [|split; [repeat constructor|discriminate]]. split; [apply DimOpProofs.base_normal|]. intros e [<-|[]]. exact B.
  - unfold unit_of. cbn [q_unit q_dim dimension_unit]. unfold same_unit_reference. rewrite E. apply String.eqb_refl.
Qed.

(** Two aliases of the megagram, which are not equivalent as units (C43), are so as units of mass:
    5 t is 5 mt. *)
Example C89_ex : forall est, exists t mt l, unit_program est [] Props_Unit.alias_program = Ok l /\ stated l t /\ stated l mt /\
  plain_type si_base (QType (DBase dim_M) t (RInt I64)) /\ plain_type si_base (QType (DBase dim_M) mt (RInt I64)) /\
  unit_equivalent t mt = false /\ qtype_equivalent (QType (DBase dim_M) t (RInt I64)) (QType (DBase dim_M) mt (RInt I64)) = Ok true /\
  q_to est (QType (DBase dim_M) mt (RInt I64)) (Quantity (QType (DBase dim_M) t (RInt I64)) (NInt 5)) = Ok (Quantity (QType (DBase dim_M) mt (RInt I64)) (NInt 5)) /\
  exists o, q_compare est empty_world (Quantity (QType (DBase dim_M) t (RInt I64)) (NInt 5)) (Quantity (QType (DBase dim_M) mt (RInt I64)) (NInt 6)) = Ok o.
Proof.
  intros est. exists (CUnit (Some "tonne") ["megagram"] (Ratio 1 1 6) "gram" true (Some (st_of_ascii "t")) "si_prefix"),
    (CUnit (Some "metric_ton") ["megagram"] (Ratio 1 1 6) "gram" true (Some (st_of_ascii "mt")) "no_prefix").
  destruct (Props_Unit.C43_transitivity_refuted est) as (a & b & c & g & E & _). exists [a; b; c; g]. split; [exact E|].
  assert (B : si_base dim_M) by (right; now right).
  vm_compute in E. injection E as <- <- <- <-. split; [left; right; now left|]. split; [left; now left|].
  split; [apply si_base_plain; [exact B|vm_compute; intuition congruence|reflexivity]|]. split; [apply si_base_plain; [exact B|vm_compute; intuition congruence|reflexivity]|].
  split; [vm_compute; reflexivity|]. split; [vm_compute; reflexivity|]. split; [vm_compute; reflexivity|]. eexists. vm_compute. reflexivity.
Qed.

(** * C90: what the program declares does not matter *)

(** Two programs, with any declarations and in any downcasting modes, may find different types
    for an expression of one decimal system of units, but these types differ only in names, and
    the numbers are equal: integers of any width and floating-point numbers alike. *)
Theorem C90_same_value : forall U rb est w w' e v v', symbols_identify U -> decimal U -> honest rb -> plain_program U w -> plain_program U w' ->
  plain_expr U e -> expr_sound e -> aeval rb est w e = Ok v -> aeval rb est w' e = Ok v' -> same_value v v'.
Proof.
  intros U rb est w w' e v v' HU HD R P P' X S V V'. pose proof (aeval_same U HU HD w w' (plain_ok U w P) (plain_ok U w' P') rb R est e v v' X S V V') as A.
  destruct v as [q|p], v' as [q'|p']; cbn [vagree] in A; try contradiction; destruct A as (_ & _ & N & M); split; assumption.
Qed.
Print Assumptions C90_same_value.

(** An expression that both programs compile has a value in both, the same but for names, or its
    arithmetic is undefined in both. *)
Theorem C90_outcome : forall U rb est w w' e t t', symbols_identify U -> decimal U -> honest rb -> plain_program U w -> plain_program U w' ->
  plain_expr U e -> expr_sound e -> type_of rb est w e = Ok t -> type_of rb est w' e = Ok t' ->
  (exists v v', aeval rb est w e = Ok v /\ aeval rb est w' e = Ok v' /\ same_value v v') \/ (aeval rb est w e = Undef /\ aeval rb est w' e = Undef).
Proof.
  intros U rb est w w' e t t' HU HD R P P' X S T T'.
  destruct (type_sound rb est w e t S T) as [(v & V & _)|V].
  - destruct (aeval_too U HU HD w w' (plain_ok U w P) (plain_ok U w' P') rb R est e v t' X S V T') as [v' V']. left. exists v, v'.
    split; [exact V|]. split; [exact V'|]. exact (C90_same_value U rb est w w' e v v' HU HD R P P' X S V V').
  - right. split; [exact V|]. destruct (type_sound rb est w' e t' S T') as [(v' & V' & _)|V']; [|exact V'].
    destruct (aeval_too U HU HD w' w (plain_ok U w' P') (plain_ok U w P) rb R est e v' t X S V' T) as [v V2]. congruence.
Qed.
Print Assumptions C90_outcome.

(** In particular, downcasting switched off, when no declaration has any effect, changes no
    number. *)
Theorem C90_downcasting_off : forall U rb est w e v v', symbols_identify U -> decimal U -> honest rb -> plain_program U w ->
  plain_expr U e -> expr_sound e -> aeval rb est w e = Ok v -> aeval rb est empty_world e = Ok v' -> same_value v v'.
Proof.
  intros U rb est w e v v' HU HD R P. apply (C90_same_value U rb est w empty_world e v v' HU HD R P). split; [constructor|]. intros es d I. destruct I.
Qed.
Print Assumptions C90_downcasting_off.

(** The types of the results are [equivalent]. *)
Theorem C90_equivalent : forall U rb est w w' e q q' b, symbols_identify U -> decimal U -> honest rb -> plain_program U w -> plain_program U w' ->
  plain_expr U e -> expr_sound e -> aeval rb est w e = Ok (VQuantity q) -> aeval rb est w' e = Ok (VQuantity q') ->
  qtype_equivalent (q_type q) (q_type q') = Ok b -> b = true.
Proof.
  intros U rb est w w' e q q' b HU HD R P P' X S V V'. pose proof (aeval_same U HU HD w w' (plain_ok U w P) (plain_ok U w' P') rb R est e _ _ X S V V') as A.
  destruct A as (P1 & P2 & (D & E & _) & _). exact (equivalent_true U _ _ b P1 P2 D E).
Qed.
Print Assumptions C90_equivalent.

(** The magnitudes of their units are equal. *)
Theorem C90_same_unit : forall U rb est w w' e q q' m m', symbols_identify U -> decimal U -> honest rb -> plain_program U w -> plain_program U w' ->
  plain_expr U e -> expr_sound e -> aeval rb est w e = Ok (VQuantity q) -> aeval rb est w' e = Ok (VQuantity q') ->
  magnitude (q_dim (q_type q)) (q_unit (q_type q)) m -> magnitude (q_dim (q_type q')) (q_unit (q_type q')) m' -> (m == m')%Q.
Proof.
  intros U rb est w w' e q q' m m' HU HD R P P' X S V V'. pose proof (aeval_same U HU HD w w' (plain_ok U w P) (plain_ok U w' P') rb R est e _ _ X S V V') as A.
  destruct A as (P1 & P2 & (D & E & _) & _). exact (same_magnitude U _ _ m m' P1 P2 D E).
Qed.
Print Assumptions C90_same_unit.

(** Two expressions compare in one program as they do in the other. *)
Theorem C90_comparison : forall U rb est w w' e f a a' b b' c c', symbols_identify U -> decimal U -> honest rb -> plain_program U w -> plain_program U w' ->
  plain_expr U e -> plain_expr U f -> expr_sound e -> expr_sound f ->
  aeval rb est w e = Ok (VQuantity a) -> aeval rb est w' e = Ok (VQuantity a') -> aeval rb est w f = Ok (VQuantity b) -> aeval rb est w' f = Ok (VQuantity b') ->
  q_compare est w a b = Ok c -> q_compare est w' a' b' = Ok c' -> c' = c.
Proof.
  intros U rb est w w' e f a a' b b' c c' HU HD R P P' Xe Xf Se Sf Va Va' Vb Vb' C C'.
  pose proof (aeval_same U HU HD w w' (plain_ok U w P) (plain_ok U w' P') rb R est e _ _ Xe Se Va Va') as A.
  pose proof (aeval_same U HU HD w w' (plain_ok U w P) (plain_ok U w' P') rb R est f _ _ Xf Sf Vb Vb') as B.
  pose proof (aeval_sound rb est w e _ Se Va) as Na. pose proof (aeval_sound rb est w f _ Sf Vb) as Nb.
  unfold q_compare in C, C'. step C as p Q. step C' as p' Q'.
  rewrite (q_common_same U HU HD w w' (plain_ok U w P) (plain_ok U w' P') est a a' b b' p p' Na Nb A B Q Q') in C'. congruence.
Qed.
Print Assumptions C90_comparison.

Theorem C90_equality : forall U rb est w w' e f a a' b b' c c', symbols_identify U -> decimal U -> honest rb -> plain_program U w -> plain_program U w' ->
  plain_expr U e -> plain_expr U f -> expr_sound e -> expr_sound f ->
  aeval rb est w e = Ok (VQuantity a) -> aeval rb est w' e = Ok (VQuantity a') -> aeval rb est w f = Ok (VQuantity b) -> aeval rb est w' f = Ok (VQuantity b') ->
  q_eqb est w a b = Ok c -> q_eqb est w' a' b' = Ok c' -> c' = c.
Proof.
  intros U rb est w w' e f a a' b b' c c' HU HD R P P' Xe Xf Se Sf Va Va' Vb Vb' C C'.
  pose proof (aeval_same U HU HD w w' (plain_ok U w P) (plain_ok U w' P') rb R est e _ _ Xe Se Va Va') as A.
  pose proof (aeval_same U HU HD w w' (plain_ok U w P) (plain_ok U w' P') rb R est f _ _ Xf Sf Vb Vb') as B.
  pose proof (aeval_sound rb est w e _ Se Va) as Na. pose proof (aeval_sound rb est w f _ Sf Vb) as Nb.
  unfold q_eqb in C, C'. step C as p Q. step C' as p' Q'.
  rewrite (q_common_same U HU HD w w' (plain_ok U w P) (plain_ok U w' P') est a a' b b' p p' Na Nb A B Q Q') in C'. congruence.
Qed.
Print Assumptions C90_equality.

(** Whether an expression compiles does depend on the declarations: m / s can be cast to the
    unit m/s, which belongs to the declared dimension, only in a program that declares it. *)
Definition cast_speed : aexpr := AUnary (UCast (ToUnit metre_per_second))
  (ABinary BDiv (AQuantity (Quantity (QType (DBase dim_L) metre (RInt I64)) (NInt 6))) (AQuantity (Quantity (QType (DBase dim_T) second (RInt I64)) (NInt 3)))).
Theorem C90_compiles_refuted : forall est, exists w, si_world = Ok w /\ plain_expr si_base cast_speed /\ expr_sound cast_speed /\
  aeval no_rebinding est w cast_speed = Ok (VQuantity (Quantity (QType dim_speed metre_per_second (RInt I64)) (NInt 2))) /\
  aeval no_rebinding est empty_world cast_speed = IllFormed.
Proof.
  intros est. destruct si_world_reachable as (w & H & R). exists w. split; [exact H|]. split; [|split; [cbn; auto|]].
  - cbn [plain_expr cast_speed plain_unary plain_cast]. split; [vm_compute; intuition congruence|].
    split; apply si_base_plain; try (vm_compute; intuition congruence); unfold si_base; auto.
  - split; [vm_compute in H; injection H as <-; vm_compute; reflexivity|vm_compute; reflexivity].
Qed.
Print Assumptions C90_compiles_refuted.

Lemma si_plain_program : forall w, si_world = Ok w -> plain_program si_base w.
Proof.
  intros w H. destruct si_world_reachable as (w' & H' & R). rewrite H in H'. inversion H'; subst w'. split; [exact R|].
  vm_compute in H. injection H as <-. intros es d [X|[X|[]]]; inversion X; subst; intros _; reflexivity.
Qed.
Lemma no_rebinding_honest : honest no_rebinding.
Proof. intros n d d' o H. discriminate H. Qed.

(** (1 km + 2 m) / 3 s plus 7 m/s, a speed in the one program and of unknown dimension in the
    other, is 341 in both. *)
Definition len (u : cunit) (n : Z) : aexpr := AQuantity (Quantity (QType (DBase dim_L) u (RInt I64)) (NInt n)).
Definition tim (u : cunit) (n : Z) : aexpr := AQuantity (Quantity (QType (DBase dim_T) u (RInt I64)) (NInt n)).
Definition pace : aexpr := ABinary BAdd (ABinary BDiv (ABinary BAdd (len kilometre 1) (len metre 2)) (tim second 3))
  (AQuantity (Quantity (QType dim_speed metre_per_second (RInt I64)) (NInt 7))).
Lemma pace_plain : plain_expr si_base pace.
Proof.
  assert (L : forall u n, u = metre \/ u = kilometre -> plain_expr si_base (len u n)).
  { intros u n Hu. apply si_base_plain; [now left|destruct Hu as [->| ->]; vm_compute; intuition congruence|destruct Hu as [->| ->]; reflexivity]. }
  split; [split; [split; apply L; auto|]|].
  - apply si_base_plain; [right; now left|vm_compute; intuition congruence|reflexivity].
  - split; [|split; [vm_compute; intuition congruence|reflexivity]]. split; [exact speed_ndim|]. split; [repeat constructor|reflexivity].
Qed.
Example C90_ex : forall est, exists w q q', si_world = Ok w /\ symbols_identify si_base /\ decimal si_base /\ honest no_rebinding /\
  plain_program si_base w /\ plain_program si_base empty_world /\ plain_expr si_base pace /\ expr_sound pace /\
  aeval no_rebinding est w pace = Ok (VQuantity q) /\ aeval no_rebinding est empty_world pace = Ok (VQuantity q') /\
  q_dim (q_type q) = dim_speed /\ q_num q = NInt 341 /\ q_num q' = NInt 341 /\ qtype_equivalent (q_type q) (q_type q') = Ok true.
Proof.
  intros est. destruct si_world_reachable as (w & H & R). exists w.
  assert (K : exists q, aeval no_rebinding est w pace = Ok (VQuantity q) /\ q_dim (q_type q) = dim_speed /\ q_num q = NInt 341).
  { vm_compute in H. injection H as <-. eexists. split; [vm_compute; reflexivity|]. split; reflexivity. }
  assert (K' : exists q, aeval no_rebinding est empty_world pace = Ok (VQuantity q) /\ q_num q = NInt 341).
  { eexists. split; [vm_compute; reflexivity|]. reflexivity. }
  destruct K as (q & K & D & N), K' as (q' & K' & N'). exists q, q'.
  assert (P' : plain_program si_base empty_world) by (split; [constructor|intros es d []]).
  split; [exact H|]. split; [exact si_identify|]. split; [exact si_decimal|]. split; [exact no_rebinding_honest|]. split; [exact (si_plain_program w H)|].
  split; [exact P'|]. split; [exact pace_plain|]. split; [cbn; auto|]. split; [exact K|]. split; [exact K'|]. split; [exact D|]. split; [exact N|]. split; [exact N'|].
  vm_compute in H. injection H as <-. vm_compute in K. vm_compute in K'. injection K as <-. injection K' as <-. vm_compute. reflexivity.
Qed.

(** With 10^16 km in place of 1 km the sum overflows, in both programs. *)
Definition fast : aexpr := ABinary BAdd (ABinary BDiv (ABinary BAdd (len kilometre 10000000000000000) (len metre 2)) (tim second 3))
  (AQuantity (Quantity (QType dim_speed metre_per_second (RInt I64)) (NInt 7))).
Example C90_outcome_ex : forall est, exists w t t', si_world = Ok w /\ type_of no_rebinding est w fast = Ok t /\ type_of no_rebinding est empty_world fast = Ok t' /\
  aeval no_rebinding est w fast = Undef /\ aeval no_rebinding est empty_world fast = Undef.
Proof.
  intros est. destruct si_world_reachable as (w & H & R). exists w.
  assert (K : exists t, type_of no_rebinding est w fast = Ok t) by (vm_compute in H; injection H as <-; eexists; vm_compute; reflexivity).
  assert (K' : exists t, type_of no_rebinding est empty_world fast = Ok t) by (eexists; vm_compute; reflexivity).
  destruct K as [t K], K' as [t' K']. exists t, t'. split; [exact H|]. split; [exact K|]. split; [exact K'|].
  split; [vm_compute in H; injection H as <-; vm_compute; reflexivity|vm_compute; reflexivity].
Qed.
