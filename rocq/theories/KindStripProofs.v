(** Proofs: a program of kinds that compiles also compiles without the kinds. *)

From Coq Require Import ZArith QArith String List Bool Lia.
From Verif Require Import Outcome CInt Ratio SpecRatio Root Unit Downcast Dim DimOp Equivalent SpecDim SpecUnit
  DimProofs DimOpProofs DimOpProofs3 EquivProofs MagnitudeProofs Rep IntProofs Reference QuantityCast CommonQuantity Quantity
  SpecQuantity CastProofs QuantityProofs QuantityProofs2 QuantityProofs3 Point Kind PointKind SpecPoint PointProofs KindProofs
  Affine KindExpr SpecKindExpr KindExprProofs Static SpecStatic StaticProofs StaticKind SpecStaticKind StaticKindProofs
  Program SpecProgram ProgramProofs KindProgram SpecKindProgram KindProgramProofs KindEraseProofs.
Import ListNotations.
Local Open Scope res_scope.

Section Strip.
Variables (U : bdim -> Prop) (rb : rebinding) (est : estimate) (w : world) (g : kinds) (gp : pkinds).
Hypothesis (HU : symbols_identify U) (C : consistent w) (G : kinds_declared g) (GP : pkinds_declared gp).

Notation P := (of_system U w).
Notation fine := (legal_qtype P).

(** ** The result types of quantities stay in the system *)

Lemma t_addsub_fine : forall a b t, fine a -> fine b -> t_addsub est w a b = Ok t -> fine t /\ q_dim t = q_dim a.
Proof.
  intros a b t [Da _] [Db _] H. unfold t_addsub in H. step H as s T. step H as x X. step H as y Y. inversion H; subst s.
  unfold common_quantity in T. step T as c0 C0. apply constrained_ok in C0. step T as du DU. unfold mk_qtype in T. step T as c1 C1.
  inversion T; subst t. cbn [q_dim q_unit]. apply constrained_ok in C1.
  assert (E : fst du = q_dim a).
  { pose proof (one_equivalent U w HU _ _ Db Da C0) as E. unfold common_dim_unit in DU.
    destruct (dimension_eq_dec (q_dim a) (q_dim b)) as [_|N]; [|congruence].
    destruct (cunit_eq_dec (q_unit a) (q_unit b)); [inversion DU; reflexivity|]. step DU as c2 C2. step DU as u2 U2. inversion DU. reflexivity. }
  split; [|exact E]. split; [cbn [q_dim]; rewrite E; exact Da|exact C1].
Qed.
Lemma t_times_fine : forall a b t, fine a -> fine b -> t_times w a b = Ok t -> fine t.
Proof.
  intros a b t [[N1 _] _] [[N2 _] _] H. unfold t_times in H. step H as r R. inversion H; subst t. unfold reference_multiply in R. step R as d D.
  cbn [ref_dim] in D. destruct (dimension_multiply_ok U HU w _ _ d C N1 N2 D) as (N & K & _).
  repeat match type of R with bind _ _ = Ok _ => let x := fresh in let E := fresh in step R as x E end.
  unfold mk_reference in R. step R as c0 C0. inversion R; subst r. apply constrained_ok in C0. split; [split; assumption|exact C0].
Qed.
Lemma t_over_fine : forall a b t, fine a -> fine b -> t_over w a b = Ok t -> fine t.
Proof.
  intros a b t [[N1 _] _] [[N2 _] _] H. unfold t_over in H. step H as r R. inversion H; subst t. unfold reference_divide in R. step R as d D.
  cbn [ref_dim] in D. destruct (dimension_divide_ok U HU w _ _ d C N1 N2 D) as (N & K & _).
  repeat match type of R with bind _ _ = Ok _ => let x := fresh in let E := fresh in step R as x E end.
  unfold mk_reference in R. step R as c0 C0. inversion R; subst r. apply constrained_ok in C0. split; [split; assumption|exact C0].
Qed.
Lemma t_rem_fine : forall a b t, fine a -> t_rem a b = Ok t -> fine t /\ q_dim t = q_dim a.
Proof. intros a b t F H. unfold t_rem in H. step H as c0 C0. inversion H. split; [exact F|reflexivity]. Qed.
Lemma t_value_over_fine : forall r a t, fine a -> t_value_over w r a = Ok t -> fine t.
Proof.
  intros r a t [[N K] _] H. unfold t_value_over in H. step H as c0 C0. step H as d D. step H as i I. step H as u Eu. inversion H; subst t.
  destruct (dim_invert_ok U w _ C N) as (d' & D' & N' & K' & _). rewrite D in D'. inversion D'; subst d'.
  destruct (downcast_unit_ratio _ _ _ _ C Eu) as (_ & Ou & _). split; [split; assumption|exact Ou].
Qed.
Lemma t_cast_one : forall a b, P (q_dim a) -> P (q_dim b) -> t_cast est a b = Ok tt -> q_dim b = q_dim a.
Proof. intros a b A B H. unfold t_cast in H. step H as c0 C0. apply constrained_ok in C0. exact (one_equivalent U w HU _ _ B A C0). Qed.
Lemma t_qcast_fine : forall c a t, fine a -> legal_cast P c -> t_qcast est w c a = Ok t -> fine t /\ q_dim t = q_dim a.
Proof.
  intros c a t [D Hu] L H. unfold t_qcast in H. step H as s T. step H as u V. destruct u. inversion H; subst s. clear H.
  destruct c as [t'|d|u|r]; cbn [legal_cast] in L.
  - inversion T; subst t'. split; [exact L|]. apply t_cast_one; auto. apply L.
  - step T as c0 C0. step T as u E. unfold mk_qtype in T. step T as c1 C1. inversion T; subst t. apply constrained_ok in C1.
    split; [split; assumption|]. apply t_cast_one; auto.
  - unfold mk_qtype in T. step T as c1 C1. inversion T; subst t. apply constrained_ok in C1. split; [split; assumption|reflexivity].
  - inversion T. split; [split; assumption|reflexivity].
Qed.
Lemma t_scale_fine : forall a r t, fine a -> t_scale a r = Ok t -> fine t /\ q_dim t = q_dim a.
Proof. intros a r t F H. unfold t_scale in H. step H as c0 C0. inversion H. split; [exact F|reflexivity]. Qed.
Lemma t_unary_fine : forall o a t, fine a -> match o with UConv s => fine s | UCast c => legal_cast P c | _ => True end ->
  t_unary est w o a = Ok t -> fine t /\ match o with UVDiv _ _ | UConv _ => True | _ => q_dim t = q_dim a end.
Proof.
  intros o a t F L H. destruct o as [| |r v|r v|r v|r v|r v|s|c]; cbn [t_unary] in H.
  - inversion H. split; [exact F|reflexivity].
  - inversion H. split; [exact F|reflexivity].
  - exact (t_scale_fine a r t F H).
  - exact (t_scale_fine a r t F H).
  - exact (t_scale_fine a r t F H).
  - split; [exact (t_value_over_fine r a t F H)|exact I].
  - step H as c0 C0. exact (t_scale_fine a r t F H).
  - step H as u V. inversion H; subst s. now split.
  - exact (t_qcast_fine c a t F L H).
Qed.
Lemma t_binary_fine : forall o a b t, fine a -> fine b -> t_binary_quantity est w o a b = Ok t -> fine t.
Proof.
  intros o a b t A B H. destruct o; cbn [t_binary_quantity] in H.
  - exact (proj1 (t_addsub_fine a b t A B H)).
  - exact (proj1 (t_addsub_fine a b t A B H)).
  - exact (t_times_fine a b t A B H).
  - exact (t_over_fine a b t A B H).
  - exact (proj1 (t_rem_fine a b t A H)).
Qed.

(** ** The operators *)

Lemma t_make_same : forall k q t, q_dim q = k_dim k -> t_k_make est k q = Ok t -> kt_qtype t = q.
Proof.
  intros k [d u r] t D H. unfold t_k_make in H. step H as s T. unfold t_k_construct in H. step H as x X. inversion H; subst s.
  unfold mk_ktype in T. step T as y Y. inversion T. unfold kt_qtype. cbn in *. now subst d.
Qed.
Lemma t_downcasted_same : forall x q t, t_k_downcasted est g x q = Ok t -> kt_qtype t = q.
Proof.
  intros x q t H. unfold t_k_downcasted in H. refine (t_make_same _ _ _ _ H).
  destruct (downcast_kind_spec g (base_kind (kt_kind x)) (q_dim q) G) as [_ D]. now symmetry.
Qed.
Lemma t_deduced_same : forall x p, t_pk_deduced gp x = Ok p -> pkt_ktype p = x /\ o_dim (pk_origin (pkt_kind p)) = k_dim (pk_base (pkt_kind p)).
Proof.
  intros x p H. unfold t_pk_deduced in H. step H as k K. inversion H; subst p. destruct (downcast_point_kind_spec _ _ _ _ GP K) as [B O].
  unfold pkt_ktype. cbn. rewrite B, O. split; [now destruct x|reflexivity].
Qed.
Lemma fine_same : forall t q, kt_qtype t = q -> fine q -> legal_ktype P t.
Proof. intros t q <- F. exact F. Qed.

(** The type under a type of the system is a quantity type of the system. *)
Lemma under_fine : forall t, legal_typ P t -> fine (under_type t).
Proof. intros [q|x|x] H; try exact H. exact (proj1 H). Qed.

Definition t_unary_left (o : unary) (t : ktyp) : res qtype :=
  match o, t with UPos, TyKind x => Ok (kt_qtype x) | _, _ => t_unary est w o (under_type t) end.
Lemma t_unary_same : forall o t s, legal_typ P t -> match o with UConv t => legal_qtype P t | UCast c => legal_cast P c | _ => True end ->
  t_kunary est w g o t = Ok s -> t_unary_left o t = Ok (under_type s) /\ legal_typ P s.
Proof.
  intros o [q|x|x] s L Lo H; cbn [t_kunary] in H; try discriminate.
  - step H as p Q. inversion H; subst s. cbn [under_type legal_typ]. split; [unfold t_unary_left; now destruct o|].
    exact (proj1 (t_unary_fine o q p L Lo Q)).
  - step H as p Q. inversion H; subst s. cbn [under_type legal_typ] in *.
    assert (F : fine (kt_qtype x)) by exact L.
    assert (K : forall r, t_unary est w o (kt_qtype x) = Ok r -> kt_qtype p = r -> t_unary est w o (kt_qtype x) = Ok (kt_qtype p) /\ legal_ktype P p).
    { intros r R E. rewrite E. split; [exact R|]. apply (fine_same p r E). exact (proj1 (t_unary_fine o _ _ F Lo R)). }
    destruct o as [| |r v|r v|r v|r v|r v|s|c]; cbn [t_unary_kind] in Q; try discriminate; cbn [t_unary_left under_type].
    + inversion Q. subst p. split; [reflexivity|exact L].
    + step Q as y Y. apply (K y Y). refine (t_make_same _ _ _ _ Q). exact (proj2 (t_unary_fine UNeg _ _ F Lo Y)).
    + step Q as y Y. apply (K y Y). refine (t_make_same _ _ _ _ Q). exact (proj2 (t_unary_fine (UMulV r v) _ _ F Lo Y)).
    + step Q as y Y. apply (K y Y). refine (t_make_same _ _ _ _ Q). exact (proj2 (t_unary_fine (UVMul r v) _ _ F Lo Y)).
    + step Q as y Y. apply (K y Y). refine (t_make_same _ _ _ _ Q). exact (proj2 (t_unary_fine (UDivV r v) _ _ F Lo Y)).
    + step Q as y Y. apply (K y Y). exact (t_downcasted_same _ _ _ Q).
    + step Q as y Y. apply (K y Y). refine (t_make_same _ _ _ _ Q). exact (proj2 (t_unary_fine (URemV r v) _ _ F Lo Y)).
Qed.
Lemma t_k_addsub_same : forall a b s, legal_ktype P a -> legal_ktype P b -> t_k_addsub est w a b = Ok s ->
  t_addsub est w (kt_qtype a) (kt_qtype b) = Ok (kt_qtype s) /\ legal_ktype P s.
Proof.
  intros a b s A B H. unfold t_k_addsub in H. step H as c0 C0. step H as q Q. destruct (t_addsub_fine (kt_qtype a) (kt_qtype b) q A B Q) as [F D].
  pose proof (t_make_same _ _ _ D H) as E. rewrite E. split; [exact Q|exact (fine_same s q E F)].
Qed.
Lemma t_binary_same : forall o x y s, legal_typ P x -> legal_typ P y -> t_kbinary rb est w g gp o x y = Ok s ->
  t_binary_quantity est w o (under_type x) (under_type y) = Ok (under_type s) /\ legal_typ P s.
Proof.
  intros o x y s X Y H. pose proof (under_fine x X) as FX. pose proof (under_fine y Y) as FY.
  assert (K : forall q p, t_binary_quantity est w o (under_type x) (under_type y) = Ok q -> kt_qtype p = q -> TyKind p = s ->
    t_binary_quantity est w o (under_type x) (under_type y) = Ok (under_type s) /\ legal_typ P s).
  { intros q p Q E <-. cbn [under_type legal_typ]. rewrite E. split; [exact Q|]. apply (fine_same p q E). exact (t_binary_fine o _ _ _ FX FY Q). }
  assert (KP : forall t p, t_binary_quantity est w o (under_type x) (under_type y) = Ok (kt_qtype t) -> t_pk_deduced gp t = Ok p -> TyPoint p = s ->
    t_binary_quantity est w o (under_type x) (under_type y) = Ok (under_type s) /\ legal_typ P s).
  { intros t p Q E <-. destruct (t_deduced_same t p E) as [T O]. cbn [under_type legal_typ]. rewrite T. split; [exact Q|]. split; [|exact O].
    rewrite T. exact (t_binary_fine o _ _ _ FX FY Q). }
  destruct x as [a|a|a], y as [b|b|b].
  1:{ assert (H' : (s <- t_binary_quantity est w o a b; Ok (TyQuantity s)) = Ok s) by (now destruct o). clear H. step H' as q Q. inversion H'; subst s.
      split; [exact Q|exact (t_binary_fine o a b q FX FY Q)]. }
  all: destruct o; cbn [t_kbinary] in H; try discriminate; cbn [under_type t_binary_quantity] in *.
  - step H as p Q. step H as t T. apply (K p t Q); [exact (t_downcasted_same _ _ _ T)|now inversion H].
  - step H as p Q. step H as t T. apply (K p t Q); [exact (t_downcasted_same _ _ _ T)|now inversion H].
  - step H as p Q. step H as t T. apply (K p t Q); [exact (t_downcasted_same _ _ _ T)|now inversion H].
  - step H as p Q. step H as t T. apply (K p t Q); [exact (t_downcasted_same _ _ _ T)|now inversion H].
  - step H as t T. unfold t_k_rem_q in T. step T as c0 C0. step T as q Q. apply (K q t Q); [|now inversion H].
    refine (t_make_same _ _ _ _ T). exact (proj2 (t_rem_fine _ _ _ FX Q)).
  - step H as t T. destruct (t_k_addsub_same a b t FX FY T) as [Q F]. apply (K _ t Q); [reflexivity|now inversion H].
  - step H as t T. destruct (t_k_addsub_same a b t FX FY T) as [Q F]. apply (K _ t Q); [reflexivity|now inversion H].
  - step H as t T. unfold t_k_times in T. step T as c0 C0. step T as q Q. apply (K q t Q); [exact (t_downcasted_same _ _ _ T)|now inversion H].
  - step H as t T. unfold t_k_over in T. step T as c0 C0. step T as q Q. apply (K q t Q); [exact (t_downcasted_same _ _ _ T)|now inversion H].
  - step H as t T. unfold t_k_rem in T. step T as c0 C0. step T as q Q. apply (K q t Q); [|now inversion H].
    refine (t_make_same _ _ _ _ T). exact (proj2 (t_rem_fine _ _ _ FX Q)).
  - step H as t T. unfold t_pk_addsub in T. step T as k Q. destruct (t_k_addsub_same _ _ _ FX FY Q) as [R _]. apply (KP k t R T). now inversion H.
  - step H as t T. unfold t_pk_addsub in T. step T as k Q. destruct (t_k_addsub_same _ _ _ FX FY Q) as [R _]. apply (KP k t R T). now inversion H.
  - step H as t T. unfold t_pk_addsub in T. step T as k Q. destruct (t_k_addsub_same _ _ _ FX FY Q) as [R _]. apply (KP k t R T). now inversion H.
  - step H as t T. unfold t_pk_diff in T. step T as c0 C0. destruct (t_k_addsub_same _ _ _ FX FY T) as [Q F]. apply (K _ t Q); [reflexivity|now inversion H].
Qed.
Lemma t_construct_same : forall t q s, t_k_construct est t q = Ok s -> s = t /\ t_convert est q (kt_qtype t) = Ok tt.
Proof. intros t q s H. unfold t_k_construct in H. step H as u V. destruct u. injection H as <-. split; [reflexivity|exact V]. Qed.
Lemma t_k_to_same : forall t x s, t_k_to est t x = Ok s -> s = t /\ t_convert est (kt_qtype x) (kt_qtype t) = Ok tt.
Proof. intros t x s H. unfold t_k_to in H. step H as c0 C0. now apply t_construct_same. Qed.
Lemma t_pk_construct_same : forall t x s, t_pk_construct est t x = Ok s -> s = t /\ t_convert est (kt_qtype x) (kt_qtype (pkt_ktype t)) = Ok tt.
Proof. intros t x s H. unfold t_pk_construct in H. step H as k K. apply t_k_to_same in K. injection H as <-. split; [reflexivity|exact (proj2 K)]. Qed.
Lemma t_pk_to_same : forall t x s, t_pk_to rb est t x = Ok s -> s = t /\ t_convert est (kt_qtype (pkt_ktype x)) (kt_qtype (pkt_ktype t)) = Ok tt.
Proof. intros t x s H. unfold t_pk_to in H. step H as c0 C0. now apply t_pk_construct_same. Qed.
Definition t_cast_left (c : kcastspec) (q : qtype) : res qtype :=
  match c with KToType t => t_qcast est w (ToQuantity (kt_qtype t)) q | KToKind _ => Ok q | KTo c => t_qcast est w c q end.
Lemma t_kcast_same : forall c x s, legal_ktype P x -> SpecKindProgram.legal_kcast P c -> t_kcast est w c x = Ok s ->
  t_cast_left c (kt_qtype x) = Ok (kt_qtype s) /\ legal_ktype P s.
Proof.
  intros c x s X L H. destruct c as [t|k|c]; cbn [t_kcast t_cast_left SpecKindProgram.legal_kcast] in *.
  - step H as u V. inversion H; subst s. split; [|exact L]. unfold t_qcast. cbn [bind]. now rewrite V.
  - step H as t T. apply t_construct_same in H as [-> V]. unfold mk_ktype in T. step T as y Y. inversion T; subst t.
    apply t_convert_equivalent in V. unfold kt_qtype in V. cbn in V.
    assert (E : k_dim k = k_dim (kt_kind x)) by (apply (one_equivalent U w HU); [exact L|apply X|exact V]).
    assert (E2 : kt_qtype (KType k (kt_unit x) (kt_rep x)) = kt_qtype x) by (unfold kt_qtype; cbn; now rewrite E).
    rewrite E2. split; [reflexivity|]. exact (fine_same _ _ E2 X).
  - step H as q Q. destruct (t_qcast_fine c (kt_qtype x) q X L Q) as [F D]. pose proof (t_make_same _ _ _ D H) as E. rewrite E. split; [exact Q|exact (fine_same s q E F)].
Qed.

(** ** Expressions *)

Notation vty := (vtype_of rb est w g gp).
Notation pty := (ptype_of rb est w).

Lemma pty_unary : forall d o x q t, pty d x = Ok (TQuantity q) -> t_unary est w o q = Ok t -> pty d (EUnary o x) = Ok (TQuantity t).
Proof. intros d o x q t X T. cbn [ptype_of]. rewrite X. unfold t_on_quantity. cbn [bind t_want_quantity]. now rewrite T. Qed.
Lemma pty_conv : forall d x q t, pty d x = Ok (TQuantity q) -> t_convert est q t = Ok tt -> pty d (EUnary (UConv t) x) = Ok (TQuantity t).
Proof. intros d x q t X T. apply (pty_unary d _ x q t X). cbn [t_unary]. now rewrite T. Qed.
Lemma pty_cast : forall d c x q t, pty d x = Ok (TQuantity q) -> t_cast_left c q = Ok t -> pty d (strip_cast c x) = Ok (TQuantity t).
Proof.
  intros d c x q t X T. destruct c as [t'|k|c]; cbn [strip_cast t_cast_left] in *.
  - apply (pty_unary d _ x q t X). exact T.
  - inversion T. now subst q.
  - apply (pty_unary d _ x q t X). exact T.
Qed.
Lemma strip_type : forall d e t, Forall (legal_typ P) d -> vlegal P e -> vty d e = Ok t ->
  pty (bare_types d) (strip (map is_quantity d) e) = Ok (TQuantity (under_type t)) /\ legal_typ P t.
Proof.
  intros d e t D. revert t.
  induction e as [x|v|o e IH|o e IHa f IHb|t' e IH|t' e IH|e IH|c e IH|t' e IH|e IH|t' e IH|e IH|c e IH|t' e IH]; intros t L T; cbn [strip vlegal vtype_of] in *.
  - cbn [ptype_of]. unfold bare_types. rewrite nth_error_map. destruct (nth_error d x) as [s|] eqn:E; [|discriminate]. inversion T; subst s.
    split; [reflexivity|]. rewrite Forall_forall in D. apply D. exact (nth_error_In _ _ E).
  - inversion T. split; [now destruct v|]. now destruct v.
  - destruct L as [Lo L]. step T as a A. destruct (IH a L A) as [E F]. destruct (t_unary_same o a t F Lo T) as [Q K]. split; [|exact K].
    destruct o; try (apply (pty_unary _ _ _ _ _ E); exact Q). rewrite (plain_type rb est w g gp d e a A). destruct (is_quantity a) eqn:Ea.
    + destruct a; try discriminate Ea. apply (pty_unary _ _ _ _ _ E); exact Q.
    + destruct a as [q|x|x]; try discriminate Ea; [|discriminate T]. cbn [t_unary_left] in Q. injection Q as Q'. rewrite <- Q'. exact E.
  - destruct L as [La Lb]. step T as a A. step T as b B. destruct (IHa a La A) as [Ea Fa]. destruct (IHb b Lb B) as [Eb Fb].
    destruct (t_binary_same o a b t Fa Fb T) as [Q K]. split; [|exact K]. cbn [ptype_of]. rewrite Ea, Eb. cbn [bind].
    transitivity (s <- t_binary_quantity est w o (under_type a) (under_type b); Ok (TQuantity s)); [now destruct o|now rewrite Q].
  - destruct L as [Lt L]. step T as a A. step T as q Q. step T as s S. destruct (IH a L A) as [E F]. apply t_construct_same in S as [-> V].
    inversion T; subst t. destruct a; try discriminate Q. inversion Q; subst q. split; [exact (pty_conv _ _ _ _ E V)|exact Lt].
  - destruct L as [Lt L]. step T as a A. step T as q Q. step T as s S. destruct (IH a L A) as [E F]. apply t_k_to_same in S as [-> V].
    inversion T; subst t. destruct a; try discriminate Q. inversion Q; subst q. split; [exact (pty_conv _ _ _ _ E V)|exact Lt].
  - step T as a A. step T as q Q. destruct (IH a L A) as [E F]. inversion T; subst t. destruct a; try discriminate Q. inversion Q; subst q. split; [exact E|exact F].
  - destruct L as [Lt L]. step T as a A. step T as q Q. step T as s S. destruct (IH a L A) as [E F]. inversion T; subst t.
    destruct a; try discriminate Q. inversion Q; subst q. destruct (t_kcast_same c _ s F Lt S) as [V K]. split; [exact (pty_cast _ _ _ _ _ E V)|exact K].
  - destruct L as [Lt L]. step T as a A. step T as q Q. step T as s S. destruct (IH a L A) as [E F]. apply t_pk_construct_same in S as [-> V].
    inversion T; subst t. destruct a; try discriminate Q. inversion Q; subst q. split; [exact (pty_conv _ _ _ _ E V)|exact Lt].
  - step T as a A. step T as q Q. step T as s S. destruct (IH a L A) as [E F]. inversion T; subst t. destruct a; try discriminate Q. inversion Q; subst q.
    destruct (t_deduced_same _ _ S) as [K O]. cbn [under_type legal_typ]. unfold legal_pktype. rewrite K. split; [exact E|split; [exact F|exact O]].
  - destruct L as [Lt L]. step T as a A. step T as q Q. step T as s S. destruct (IH a L A) as [E F]. apply t_pk_to_same in S as [-> V].
    inversion T; subst t. destruct a; try discriminate Q. inversion Q; subst q. split; [exact (pty_conv _ _ _ _ E V)|exact Lt].
  - step T as a A. step T as q Q. destruct (IH a L A) as [E F]. inversion T; subst t. destruct a; try discriminate Q. inversion Q; subst q.
    split; [exact E|exact (proj1 F)].
  - destruct L as [Lt L]. step T as a A. step T as q Q. step T as s S. destruct (IH a L A) as [E F]. inversion T; subst t.
    destruct a; try discriminate Q. inversion Q; subst q. unfold t_pk_cast in S. step S as k K. destruct (t_kcast_same c _ k (proj1 F) Lt K) as [V Fk].
    destruct (t_deduced_same _ _ S) as [Ks O]. cbn [under_type legal_typ]. unfold legal_pktype. rewrite Ks. split; [exact (pty_cast _ _ _ _ _ E V)|split; [exact Fk|exact O]].
  - destruct L as [Lt L]. step T as a A. step T as q Q. step T as s S. destruct (IH a L A) as [E F]. inversion T; subst t.
    destruct a; try discriminate Q. inversion Q; subst q. unfold t_pk_cast_to in S. step S as c0 C0. step S as u V. inversion S; subst s.
    split; [|exact Lt]. apply (pty_unary _ _ _ _ _ E). cbn [t_unary]. unfold t_qcast. cbn [bind under_type]. now rewrite V.
Qed.

(** ** Programs *)

Lemma t_compare_same : forall x y, t_kcompare rb est w x y = Ok tt -> t_common est w (under_type x) (under_type y) = Ok tt.
Proof.
  intros [a|a|a] [b|b|b] H; cbn [t_kcompare] in H; try discriminate; try exact H.
  - now step H as c0 C0.
  - step H as c0 C0. now step H as c1 C1.
Qed.
Lemma strip_cond_compiles : forall d c, Forall (legal_typ P) d -> vlegal_cond P c -> vcompiles_cond rb est w g gp d c = Ok tt ->
  compiles_cond rb est w (bare_types d) (strip_cond (map is_quantity d) c) = Ok tt.
Proof.
  intros d c D. induction c as [o a b|c IH|c IHc e IHe|c IHc e IHe]; intros L H; cbn [vcompiles_cond strip_cond compiles_cond vlegal_cond] in *.
  - destruct L as [La Lb]. step H as x X. step H as y Y. rewrite (proj1 (strip_type d a x D La X)), (proj1 (strip_type d b y D Lb Y)).
    cbn [bind t_compare]. now apply t_compare_same.
  - auto.
  - destruct L as [La Lb]. step H as u V. destruct u. rewrite (IHc La V). cbn [bind]. auto.
  - destruct L as [La Lb]. step H as u V. destruct u. rewrite (IHc La V). cbn [bind]. auto.
Qed.
Lemma strip_assigned : forall old new, t_kassigned rb est old new = Ok tt ->
  t_assigned rb est (TQuantity (under_type old)) (TQuantity (under_type new)) = Ok tt.
Proof.
  intros [a|a|a] [b|b|b] H; cbn [t_kassigned t_assigned under_type] in *; try discriminate; try exact H; step H as s T.
  - exact (proj2 (t_k_to_same _ _ _ T)).
  - exact (proj2 (t_pk_to_same _ _ _ T)).
Qed.
Lemma strip_changed : forall d old h o, Forall (legal_typ P) d -> (match h with VAdd e | VSub e | VRem e => vlegal P e | _ => True end) ->
  t_operand rb est w g gp d h = Ok o -> t_kchanged est old h o = Ok tt ->
  t_changed rb est w (bare_types d) (TQuantity (under_type old)) (strip_change (map is_quantity d) h) = Ok tt.
Proof.
  intros d old h o D L O H. destruct h as [| |e|e|e|r v|r v|r v]; cbn [t_operand strip_change t_changed] in *; try reflexivity.
  - step O as t T. inversion O; subst o. rewrite (proj1 (strip_type d e t D L T)). cbn [bind t_want_quantity].
    destruct old as [q|x|x], t as [q'|x'|x']; cbn [t_kchanged] in H; try discriminate; cbn [under_type]; try exact H; step H as s S; exact (proj2 (t_k_to_same _ _ _ S)).
  - step O as t T. inversion O; subst o. rewrite (proj1 (strip_type d e t D L T)). cbn [bind t_want_quantity].
    destruct old as [q|x|x], t as [q'|x'|x']; cbn [t_kchanged] in H; try discriminate; cbn [under_type]; try exact H; step H as s S; exact (proj2 (t_k_to_same _ _ _ S)).
  - step O as t T. inversion O; subst o. rewrite (proj1 (strip_type d e t D L T)). cbn [bind t_want_quantity].
    destruct old as [q|x|x], t as [q'|x'|x']; cbn [t_kchanged] in H; try discriminate; cbn [under_type]; try exact H. step H as c0 C0. exact H.
  - destruct old as [q|x|x]; cbn [t_kchanged] in H; try discriminate; exact H.
Qed.
Theorem strip_compiles : forall s d, Forall (legal_typ P) d -> vlegal_stmt P s -> vcompiles rb est w g gp d s = Ok tt ->
  compiles rb est w (bare_types d) (strip_stmt (map is_quantity d) s) = Ok tt.
Proof.
  intros s d D. induction s as [|a IHa b IHb|x e|x h|c a IHa b IHb|c a IHa]; intros L H; cbn [vcompiles strip_stmt compiles vlegal_stmt] in *.
  - reflexivity.
  - destruct L as [La Lb]. step H as u V. destruct u. rewrite (IHa La V). cbn [bind]. auto.
  - step H as old O. step H as new N. unfold declared_type, bare_types. rewrite nth_error_map. unfold kdeclared_type in O.
    destruct (nth_error d x) as [t|]; [|discriminate]. inversion O; subst old. cbn [option_map bind].
    change (map (fun t => TQuantity (under_type t)) d) with (bare_types d).
    rewrite (proj1 (strip_type d e new D L N)). cbn [bind]. now apply strip_assigned.
  - step H as old O. step H as o N. unfold declared_type, bare_types. rewrite nth_error_map. unfold kdeclared_type in O.
    destruct (nth_error d x) as [t|]; [|discriminate]. inversion O; subst old. cbn [option_map bind].
    change (map (fun t => TQuantity (under_type t)) d) with (bare_types d). exact (strip_changed d t h o D L N H).
  - destruct L as (Lc & La & Lb). step H as u V. step H as u' V'. destruct u, u'. rewrite (strip_cond_compiles d c D Lc V). cbn [bind].
    rewrite (IHa La V'). cbn [bind]. auto.
  - destruct L as (Lc & La). step H as u V. destruct u. rewrite (strip_cond_compiles d c D Lc V). cbn [bind]. auto.
Qed.
End Strip.
