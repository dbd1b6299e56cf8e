(** Expressions of kinds: the discipline of kinds, and the expression of quantities they stand
    for. *)

From Coq Require Import ZArith QArith String List Bool Lia.
From Verif Require Import Outcome CInt Ratio SpecRatio Root Unit Downcast Dim DimOp Equivalent SpecDim SpecUnit
  DimProofs DimOpProofs DimOpProofs3 EquivProofs MagnitudeProofs Rep IntProofs Reference QuantityCast CommonQuantity Quantity
  SpecQuantity CastProofs QuantityProofs QuantityProofs2 QuantityProofs3 Point Kind PointKind SpecPoint PointProofs KindProofs Expr SpecExpr
  ExprProofs ExprProofs2 Affine SpecAffine AffineProofs KindExpr SpecKindExpr.
Import ListNotations.
Local Open Scope Z_scope.
Local Open Scope res_scope.

(** ** A kind around a quantity *)

Definition with_kind (k : kind) (q : quantity) : qkind := QKind (KType k (q_unit (q_type q)) (q_rep (q_type q))) (q_num q).
Lemma with_kind_common : forall k q, k_dim k = q_dim (q_type q) -> common (with_kind k q) = q.
Proof. intros k [[d u r] n] E. unfold common, with_kind, kt_qtype. cbn in *. now rewrite E. Qed.
Lemma with_kind_of : forall x, with_kind (qk_kind x) (common x) = x.
Proof. intros [[k u r] n]. reflexivity. Qed.
Lemma k_make_eq : forall est k q, k_dim k = q_dim (q_type q) -> unit_of (q_unit (q_type q)) (q_dim (q_type q)) = true ->
  k_make est k q = Ok (with_kind k q).
Proof.
  intros est k [[d u r] n] D Hu. unfold k_make, mk_ktype, mk_qtype, k_construct, with_kind. cbn in *. subst d. rewrite Hu. cbn.
  unfold kt_qtype. cbn. rewrite q_convert_same. reflexivity.
Qed.
Lemma k_downcasted_eq : forall est g x q, kinds_declared g -> unit_of (q_unit (q_type q)) (q_dim (q_type q)) = true ->
  exists k, k_downcasted est g x q = Ok (with_kind k q) /\ k_dim k = q_dim (q_type q) /\ k_base k = k_base (qk_kind x).
Proof.
  intros est g x q G Hu. unfold k_downcasted. destruct (downcast_kind_spec g (base_kind (qk_kind x)) (q_dim (q_type q)) G) as [B D].
  eexists. split; [apply k_make_eq; assumption|]. split; [exact D|exact B].
Qed.

(** ** Readings *)

Lemma cast_reads_unique : forall b x c b1 x1 b2 x2, cast_reads b x c b1 x1 -> cast_reads b x c b2 x2 -> b1 = b2 /\ x1 = x2.
Proof. intros b x c b1 x1 b2 x2 R1 R2. destruct R1; inversion R2; subst; auto. Qed.
Lemma reads_unique : forall e s x, reads e s x -> forall s' x', reads e s' x' -> s = s' /\ x = x'.
Proof.
  intros e s x R. induction R; intros s' x'' R';
    inversion R'; subst;
    repeat match goal with
    | IH : (forall s x, reads ?a s x -> _), H : reads ?a _ _ |- _ => apply IH in H; destruct H
    end; subst; try discriminate; try (split; congruence);
    try match goal with H : IsKind _ = IsKind _ |- _ => inversion H; subst end;
    try match goal with H : IsPoint _ _ = IsPoint _ _ |- _ => inversion H; subst end;
    try match goal with H : scaling UPos |- _ => inversion H end;
    try match goal with H1 : cast_reads _ _ _ _ _, H2 : cast_reads _ _ _ _ _ |- _ => destruct (cast_reads_unique _ _ _ _ _ _ _ H1 H2); subst end;
    auto; congruence.
Qed.

Lemma cast_reads_dims : forall Q b x c b' x', cast_reads b x c b' x' ->
  match c with KToType t => legal_ktype Q t | KToKind k => Q (k_dim k) | KTo c => legal_cast Q c end ->
  aall_dims Q x -> aall_dims Q x'.
Proof.
  intros Q b x c b' x' R L A. destruct R as [t|k T|c]; cbn [aall_dims].
  - split; [apply L|exact A].
  - exact A.
  - split; [|exact A]. destruct c; cbn in *; auto. apply L.
Qed.
Lemma reads_dims : forall Q e s x, reads e s x -> legal Q e -> aall_dims Q x.
Proof.
  intros Q e s x R. induction R; intros L; cbn [legal aall_dims] in *.
  all: try (destruct L as [L1 L2]; eapply cast_reads_dims; eauto; fail).
  all: try (apply L; fail).
  all: try (apply (proj1 L); fail).
  all: try (destruct L as [L1 L2]; split; auto; fail).
  { destruct L as [L1 L2]. split; [|auto]. destruct o as [| | | | | | |t|[t|d|u|r]]; cbn in *; auto; apply L1. }
  all: try (destruct L as [_ L]; auto; fail).
  all: try (auto; fail).
  all: destruct L as [L1 L2]; split; [|auto; fail]; first [exact (proj1 L1)|exact (proj1 (proj1 L1))|destruct H; exact I].
Qed.

(** One kind throughout. *)
Lemma reads_kind : forall e s x, reads e s x -> keeps_kind e -> forall b, mentions b e -> sort_base s = Some b.
Proof.
  intros e s x R. induction R; intros K b' M; cbn [keeps_kind mentions sort_base] in *;
    repeat match goal with H : _ /\ _ |- _ => destruct H | H : _ \/ _ |- _ => destruct H | H : exists _, _ |- _ => destruct H end;
    subst; try contradiction; try reflexivity;
    repeat match goal with IH : keeps_kind ?a -> forall b, mentions b ?a -> _, K : keeps_kind ?a |- _ => specialize (IH K) end;
    try match goal with IH : forall b, mentions b ?a -> _, M : mentions _ ?a |- _ => pose proof (IH _ M); clear IH end; cbn in *; try congruence; auto.
  all: try match goal with H : cast_reads _ _ (KTo _) _ _ |- _ => inversion H; subst end; cbn in *; congruence.
Qed.

Section System.
Variables (U : bdim -> Prop) (rb : rebinding) (est : estimate) (w : world) (g : kinds) (gp : pkinds).
Hypothesis (HU : symbols_identify U) (C : consistent w) (G : kinds_declared g) (GP : pkinds_declared gp).

Notation P := (of_system U w).

(** ** Dimensions *)

Lemma one_dimension : forall d1 d2, P d1 -> P d2 -> same_exps (dim_exps d1) (dim_exps d2) -> d1 = d2.
Proof.
  intros d1 d2 (N1 & K1) (N2 & K2) S. apply (canonical_unique U HU w); auto.
  intros b Ub. unfold dim_expo. rewrite <- !(class_is_expo U HU); auto; [apply S|apply N2|apply N1].
Qed.
Lemma one_equivalent : forall d1 d2, P d1 -> P d2 -> dim_equivalent d1 d2 = true -> d1 = d2.
Proof. intros d1 d2 H1 H2 E. apply one_dimension; auto. now apply equivalent_exps. Qed.
Lemma equivalent_refl : forall d, dim_equivalent d d = true.
Proof. intros d. apply dim_equivalent_equivalence. Qed.
Lemma without_dimension : forall d, P d -> same_exps (dim_exps d) no_exps -> dim_equivalent d dim_one = true.
Proof.
  intros d ([N O] & _) S. assert (E : exponents d = []).
  { apply (zero_normal U); auto. intros b. destruct (in_dec bdim_eq_dec b (map e_dim (exponents d))) as [I|I].
    - apply in_map_iff in I as (e & <- & I). rewrite <- (class_is_expo U HU); auto. apply S.
    - clear S N O. induction (exponents d) as [|e l IH]; [reflexivity|]. cbn [expo map] in *.
      rewrite IH by (intros X; apply I; now right). destruct (bdim_eq_dec (e_dim e) b) as [Eb|]; [destruct I; now left|reflexivity]. }
  unfold dim_equivalent. destruct d as [b| |]; cbn in E; try discriminate E; cbn; now rewrite E.
Qed.
Lemma dimensionless_exps : same_exps (dim_exps dim_one) no_exps.
Proof. intros s r. reflexivity. Qed.

(** ** The operators of quantities stay in the system *)

Definition good (q : quantity) : Prop := legal_qtype P (q_type q).

Lemma cast_good : forall c q s, good q -> legal_cast P c -> q_cast est w c q = Ok s -> good s.
Proof.
  intros c q s [D Hu] L H. destruct c as [t|d|u|r]; cbn [q_cast legal_cast] in *.
  - step H as n N. inversion H; subst s. exact L.
  - step H as p Hp. inversion H; subst s. unfold quantity_cast_dim in Hp. step Hp as c0 C0. step Hp as u Eu. step Hp as t T. step Hp as n N.
    inversion Hp; subst p. unfold mk_qtype in T. step T as c1 C1. inversion T; subst t. apply constrained_ok in C1. split; assumption.
  - step H as p Hp. inversion H; subst s. unfold quantity_cast_unit in Hp. step Hp as t T. step Hp as n N.
    inversion Hp; subst p. unfold mk_qtype in T. step T as c1 C1. inversion T; subst t. apply constrained_ok in C1. split; assumption.
  - step H as p Hp. inversion H; subst s. unfold quantity_cast_rep in Hp. cbv zeta in Hp. step Hp as n N. inversion Hp; subst p. split; assumption.
Qed.
Lemma cast_same : forall c q s, good q -> legal_cast P c -> q_cast est w c q = Ok s -> q_dim (q_type s) = q_dim (q_type q).
Proof.
  intros c q s Q L H. pose proof (cast_good c q s Q L H) as [S _]. apply one_dimension; [exact S|apply Q|].
  pose proof (eval_has_dim est w C (ECast c (ELit q)) s H) as D. inversion D as [| | | | | | | | | | | | | |c0 a0 f0 Lq A]; subst.
  inversion Lq as [q0 f0 E| | | | | | | | | | | | | |]; subst. now apply exps_sym.
Qed.
Lemma unary_good : forall o q s, good q ->
  match o with UConv t => legal_qtype P t | UCast c => legal_cast P c | _ => True end -> unary_quantity est w o q = Ok s -> good s.
Proof.
  intros o q s Q L H. destruct o as [| |r v|r v|r v|r v|r v|t|c]; cbn [unary_quantity] in H.
  - unfold q_plus in H. cbv zeta in H. unbind. exact Q.
  - unfold q_neg in H. cbv zeta in H. unbind. exact Q.
  - unfold q_mul_value, q_scale in H. cbv zeta in H. unbind. exact Q.
  - unfold value_mul_q, q_scale in H. cbv zeta in H. unbind. exact Q.
  - unfold q_div_value, q_scale in H. cbv zeta in H. unbind. exact Q.
  - unfold value_div_q in H. cbv zeta in H. step H as c0 C0. step H as d D. step H as i I. step H as u Eu. step H as x X. inversion H; subst s.
    destruct Q as [[N K] _]. destruct (dim_invert_ok U w _ C N) as (d' & D' & N' & K' & _). rewrite D in D'. inversion D'; subst d'.
    destruct (downcast_unit_ratio _ _ _ _ C Eu) as (_ & Ou & _). split; [split; assumption|exact Ou].
  - unfold q_rem_value, q_scale in H. cbv zeta in H. unbind. exact Q.
  - unfold q_to in H. unbind. exact L.
  - exact (cast_good c q s Q L H).
Qed.
Lemma sum_good : forall o a b s, good a -> good b -> q_addsub o est w a b = Ok s ->
  good s /\ q_dim (q_type s) = q_dim (q_type a) /\ q_dim (q_type b) = q_dim (q_type a).
Proof.
  intros o a b s [Da Ua] [Db Ub] H. pose proof (q_addsub_unit _ _ _ _ _ _ H) as Us. destruct (addsub_dims _ _ _ _ _ _ H) as [E1 E2].
  pose proof (one_equivalent _ _ Db Da E1) as E.
  assert (Es : q_dim (q_type s) = q_dim (q_type a)).
  { unfold q_addsub in H. cbv zeta in H. step H as t T. step H as x X. step H as y Y. step H as z Z. step H as z' Z'. inversion H; subst s. cbn [q_type].
    unfold common_quantity in T. step T as c0 C0. step T as du DU. unfold mk_qtype in T. step T as c1 C1. inversion T; subst t. cbn [q_dim].
    unfold common_dim_unit in DU. destruct (dimension_eq_dec (q_dim (q_type a)) (q_dim (q_type b))) as [_|N]; [|congruence].
    destruct (cunit_eq_dec (q_unit (q_type a)) (q_unit (q_type b))); [inversion DU; reflexivity|]. step DU as c2 C2. step DU as u2 U2.
    inversion DU. reflexivity. }
  split; [|split; assumption]. split; [rewrite Es; exact Da|exact Us].
Qed.
Lemma times_good : forall a b s, good a -> good b -> q_times w a b = Ok s -> good s.
Proof.
  intros a b s [Da _] [Db _] H. split; [|exact (times_unit_of w a b s H)]. unfold q_times in H. cbv zeta in H. step H as r R. step H as x X.
  inversion H; subst s. cbn [q_type q_dim]. unfold reference_multiply in R. step R as d D.
  destruct Da as [N1 _], Db as [N2 _]. cbn [ref_dim] in D. destruct (dimension_multiply_ok U HU w _ _ d C N1 N2 D) as (N & K & _).
  repeat match type of R with bind _ _ = Ok _ => let x := fresh in let E := fresh in step R as x E end.
  unfold mk_reference in R. step R as c0 C0. inversion R; subst r. split; assumption.
Qed.
Lemma over_good : forall a b s, good a -> good b -> q_over w a b = Ok s -> good s.
Proof.
  intros a b s [Da _] [Db _] H. split; [|exact (over_unit_of w a b s H)]. unfold q_over in H. cbv zeta in H. step H as r R. step H as x X.
  inversion H; subst s. cbn [q_type q_dim]. unfold reference_divide in R. step R as d D.
  destruct Da as [N1 _], Db as [N2 _]. cbn [ref_dim] in D. destruct (dimension_divide_ok U HU w _ _ d C N1 N2 D) as (N & K & _).
  repeat match type of R with bind _ _ = Ok _ => let x := fresh in let E := fresh in step R as x E end.
  unfold mk_reference in R. step R as c0 C0. inversion R; subst r. split; assumption.
Qed.
Lemma rem_good : forall a b s, good a -> q_rem a b = Ok s -> good s /\ q_dim (q_type s) = q_dim (q_type a).
Proof. intros a b s Q H. unfold q_rem in H. cbv zeta in H. unbind. split; [exact Q|reflexivity]. Qed.
Lemma binary_good : forall o a b s, good a -> good b -> binary_quantity est w o a b = Ok s -> good s.
Proof.
  intros o a b s Qa Qb H. destruct o; cbn [binary_quantity] in H.
  - exact (proj1 (sum_good OpAdd a b s Qa Qb H)).
  - exact (proj1 (sum_good OpSub a b s Qa Qb H)).
  - exact (times_good a b s Qa Qb H).
  - exact (over_good a b s Qa Qb H).
  - exact (proj1 (rem_good a b s Qa H)).
Qed.

(** ** The operators of kinds are those of quantities *)

Definition kgood (x : qkind) : Prop := legal_ktype P (qk_type x).
Lemma kgood_good : forall x, kgood x <-> good (common x).
Proof. intros x. reflexivity. Qed.

(** One result for both: [r] is a kind of the base [b] around what [m] computes. *)
Definition around (b : bkind) (m : res quantity) (r : res qkind) : Prop :=
  (forall s, r = Ok s -> m = Ok (common s) /\ k_base (qk_kind s) = b) /\
  (forall q, m = Ok q -> exists s, r = Ok s /\ common s = q /\ k_base (qk_kind s) = b).

Lemma around_make : forall k m, (forall q, m = Ok q -> q_dim (q_type q) = k_dim k /\ unit_of (q_unit (q_type q)) (q_dim (q_type q)) = true) ->
  around (k_base k) m (q <- m; k_make est k q).
Proof.
  intros k m H. split.
  - intros s E. step E as q Q. destruct (H q Q) as [D Hu]. rewrite k_make_eq in E by auto. inversion E; subst s.
    rewrite with_kind_common by auto. auto.
  - intros q Q. destruct (H q Q) as [D Hu]. exists (with_kind k q). rewrite Q. cbn [bind]. rewrite k_make_eq by auto.
    rewrite with_kind_common by auto. auto.
Qed.
Lemma around_downcasted : forall x m, (forall q, m = Ok q -> unit_of (q_unit (q_type q)) (q_dim (q_type q)) = true) ->
  around (k_base (qk_kind x)) m (q <- m; k_downcasted est g x q).
Proof.
  intros x m H. split.
  - intros s E. step E as q Q. destruct (k_downcasted_eq est g x q G (H q Q)) as (k & K & D & B). rewrite K in E. inversion E; subst s.
    rewrite with_kind_common by auto. auto.
  - intros q Q. destruct (k_downcasted_eq est g x q G (H q Q)) as (k & K & D & B). exists (with_kind k q). rewrite Q. cbn [bind]. rewrite K.
    rewrite with_kind_common by auto. auto.
Qed.
Lemma around_constrained : forall b m c r, around b m r -> (forall q, m = Ok q -> c = true) -> around b m (_ <- constrained c; r).
Proof.
  intros b m c r [S T] H. split.
  - intros s E. apply constrained_iff in E as [_ E]. auto.
  - intros q Q. destruct (T q Q) as (s & E & X). exists s. split; [|exact X]. apply constrained_iff. eauto.
Qed.

Lemma scaling_around : forall o x, scaling o -> kgood x ->
  around (k_base (qk_kind x)) (unary_quantity est w o (common x)) (unary_kind est w g o x).
Proof.
  intros o x S X. assert (K : forall q, unary_quantity est w o (common x) = Ok q -> good q).
  { intros q Q. apply (unary_good o (common x) q); auto. destruct S; exact I. }
  destruct S; cbn [unary_kind].
  - apply around_make. intros q Q. split; [|apply (K q Q)]. cbn [unary_quantity] in Q. unfold q_neg in Q. cbv zeta in Q. unbind. reflexivity.
  - apply around_make. intros q Q. split; [|apply (K q Q)]. cbn [unary_quantity] in Q. unfold q_mul_value, q_scale in Q. cbv zeta in Q. unbind. reflexivity.
  - apply around_make. intros q Q. split; [|apply (K q Q)]. cbn [unary_quantity] in Q. unfold value_mul_q, q_scale in Q. cbv zeta in Q. unbind. reflexivity.
  - apply around_make. intros q Q. split; [|apply (K q Q)]. cbn [unary_quantity] in Q. unfold q_div_value, q_scale in Q. cbv zeta in Q. unbind. reflexivity.
  - apply around_downcasted. intros q Q. apply (K q Q).
  - apply around_make. intros q Q. split; [|apply (K q Q)]. cbn [unary_quantity] in Q. unfold q_rem_value, q_scale in Q. cbv zeta in Q. unbind. reflexivity.
Qed.

Definition two_kinds (o : binary) (a b : qkind) : res qkind :=
  match o with
  | BAdd => k_add est w a b | BSub => k_sub est w a b | BMul => k_times_k est w g a b | BDiv => k_over_k est w g a b | BRem => k_rem est a b
  end.
Lemma same_kind : forall a b, k_base a = k_base b -> k_dim a = k_dim b -> kind_equivalent a b = true.
Proof. intros a b B D. apply kind_equivalent_iff. split; [exact B|]. rewrite D. apply equivalent_refl. Qed.
Lemma two_around : forall o a b, kgood a -> kgood b -> k_base (qk_kind a) = k_base (qk_kind b) ->
  (o = BRem -> k_dim (qk_kind a) = k_dim (qk_kind b)) ->
  around (k_base (qk_kind a)) (binary_quantity est w o (common a) (common b)) (two_kinds o a b).
Proof.
  intros o a b Ka Kb B DR. pose proof (binary_good o (common a) (common b)) as K.
  destruct o; cbn [two_kinds binary_quantity] in *.
  - unfold k_add, k_addsub. apply around_constrained; [apply around_make|].
    + intros q Q. destruct (sum_good _ (common a) (common b) _ Ka Kb Q) as ([_ Hu] & D & _). auto.
    + intros q Q. destruct (sum_good _ (common a) (common b) _ Ka Kb Q) as (_ & _ & D). apply same_kind; auto.
  - unfold k_sub, k_addsub. apply around_constrained; [apply around_make|].
    + intros q Q. destruct (sum_good _ (common a) (common b) _ Ka Kb Q) as ([_ Hu] & D & _). auto.
    + intros q Q. destruct (sum_good _ (common a) (common b) _ Ka Kb Q) as (_ & _ & D). apply same_kind; auto.
  - unfold k_times_k. apply around_constrained; [apply around_downcasted|].
    + intros q Q. apply (K q Ka Kb Q).
    + intros _ _. apply related_iff. auto.
  - unfold k_over_k. apply around_constrained; [apply around_downcasted|].
    + intros q Q. apply (K q Ka Kb Q).
    + intros _ _. apply related_iff. auto.
  - unfold k_rem. apply around_constrained; [apply around_make|].
    + intros q Q. destruct (rem_good (common a) _ _ Ka Q) as [[_ Hu] D]. auto.
    + intros _ _. apply same_kind; auto. symmetry. auto.
Qed.
(** Two kinds meet only if they have one base. *)
Lemma two_base : forall o a b s, two_kinds o a b = Ok s -> k_base (qk_kind a) = k_base (qk_kind b).
Proof.
  intros o a b s H. destruct (bkind_eq_dec (k_base (qk_kind a)) (k_base (qk_kind b))) as [E|N]; [exact E|].
  destruct (kinds_do_not_mix a b N OpAdd est w g) as (A1 & A2 & _ & _ & A3 & A4 & _).
  destruct (kinds_do_not_mix a b N OpSub est w g) as (A5 & _). unfold k_add, k_sub in *.
  destruct o; cbn [two_kinds] in H; unfold k_add, k_sub in H; congruence.
Qed.
Lemma rem_dims : forall a b s, kgood a -> kgood b -> k_rem est a b = Ok s -> k_dim (qk_kind a) = k_dim (qk_kind b).
Proof.
  intros a b s Ka Kb H. unfold k_rem in H. apply constrained_iff in H as [E _]. apply kind_equivalent_iff in E as [_ E].
  symmetry. apply one_equivalent; [apply Kb|apply Ka|exact E].
Qed.

Definition kind_quantity (o : binary) (a : qkind) (b : quantity) : res qkind :=
  match o with BMul => k_times_q est w g a b | BDiv => k_over_q est w g a b | _ => IllFormed end.
Definition quantity_kind (o : binary) (a : quantity) (b : qkind) : res qkind :=
  match o with BMul => q_times_k est w g a b | BDiv => q_over_k est w g a b | _ => IllFormed end.
Lemma kind_quantity_around : forall o a b, product o -> kgood a -> good b ->
  around (k_base (qk_kind a)) (binary_quantity est w o (common a) b) (kind_quantity o a b).
Proof.
  intros o a b Po Ka Kb. pose proof (fun q => binary_good o (common a) b q Ka Kb) as K.
  destruct Po; cbn [kind_quantity binary_quantity] in *; apply around_downcasted; intros q Q; apply (K q Q).
Qed.
Lemma quantity_kind_around : forall o a b, product o -> good a -> kgood b ->
  around (k_base (qk_kind b)) (binary_quantity est w o a (common b)) (quantity_kind o a b).
Proof.
  intros o a b Po Ka Kb. pose proof (fun q => binary_good o a (common b) q Ka Kb) as K.
  destruct Po; cbn [quantity_kind binary_quantity] in *; apply around_downcasted; intros q Q; apply (K q Q).
Qed.
Lemma rem_q_around : forall a b, kgood a -> dim_equivalent (q_dim (q_type b)) dim_one = true ->
  around (k_base (qk_kind a)) (q_rem (common a) b) (k_rem_q est a b).
Proof.
  intros a b Ka D. unfold k_rem_q. apply around_constrained; [apply around_make|auto].
  intros q Q. destruct (rem_good (common a) _ _ Ka Q) as [[_ Hu] E]. auto.
Qed.

(** Conversions and casts. *)
Lemma construct_around : forall t q, around (k_base (kt_kind t)) (q_to est (kt_qtype t) q) (k_construct est t q).
Proof.
  intros t q. unfold k_construct, q_to. split.
  - intros s E. step E as n N. inversion E; subst s. rewrite N. split; reflexivity.
  - intros r E. step E as n N. inversion E; subst r. rewrite N. eexists. split; [reflexivity|]. split; reflexivity.
Qed.
Lemma convert_around : forall t x, kgood x -> legal_ktype P t -> k_base (qk_kind x) = k_base (kt_kind t) ->
  around (k_base (kt_kind t)) (q_to est (kt_qtype t) (common x)) (k_to est t x).
Proof.
  intros t x X T B. unfold k_to. apply around_constrained; [apply construct_around|].
  intros q Q. unfold q_to in Q. step Q as n N. pose proof (convert_equivalent _ _ _ _ _ N) as E. cbn in E.
  apply same_kind; [exact B|]. symmetry. apply one_equivalent; [apply T|apply X|exact E].
Qed.
Definition legal_kcast (c : kcastspec) : Prop :=
  match c with KToType t => legal_ktype P t | KToKind k => P (k_dim k) | KTo c => legal_cast P c end.
Lemma cast_type_around : forall t x, around (k_base (kt_kind t)) (q_cast est w (ToQuantity (kt_qtype t)) (common x)) (kind_cast est w (KToType t) x).
Proof.
  intros t x. cbn [kind_cast q_cast]. unfold kind_cast_to. cbn [common q_type q_num]. split.
  - intros s E. step E as n N. inversion E; subst s. rewrite N. split; reflexivity.
  - intros r E. step E as n N. inversion E; subst r. rewrite N. eexists. split; [reflexivity|]. split; reflexivity.
Qed.
Lemma cast_kind_around : forall k x, kgood x -> k_dim k = k_dim (qk_kind x) ->
  kind_cast est w (KToKind k) x = Ok (with_kind k (common x)).
Proof.
  intros k x [D Hu] E. cbn [kind_cast]. exact (k_make_eq est k (common x) E Hu).
Qed.
Lemma cast_kind_dim : forall k x s, kgood x -> P (k_dim k) -> kind_cast est w (KToKind k) x = Ok s -> k_dim k = k_dim (qk_kind x).
Proof.
  intros k x s [D Hu] K H. cbn [kind_cast] in H. apply kind_cast_kind_spec in H as [_ H]. unfold q_to in H. step H as n N.
  pose proof (convert_equivalent _ _ _ _ _ N) as E. cbn in E. apply one_equivalent; [exact K|exact D|exact E].
Qed.
Lemma cast_other_around : forall c x, kgood x -> legal_cast P c ->
  around (k_base (qk_kind x)) (q_cast est w c (common x)) (kind_cast est w (KTo c) x).
Proof.
  intros c x X L. cbn [kind_cast]. apply around_make. intros q Q. split; [exact (cast_same c (common x) q X L Q)|].
  apply (cast_good c (common x) q X L Q).
Qed.

(** The kinds that result stay in the system. *)
Lemma around_good : forall b m r s, around b m r -> (forall q, m = Ok q -> good q) -> r = Ok s -> kgood s.
Proof. intros b m r s [S _] H E. destruct (S s E) as [M _]. exact (H _ M). Qed.

(** ** Points *)

Definition pgood (x : qpkind) : Prop := legal_pktype P (qpk_type x).
Lemma deduced_eq : forall x, exists p, pk_deduced gp x = Ok p /\ pk_relative p = x /\ pk_origin (qpk_kind p) = ODynamic (k_dim (qk_kind x)).
Proof.
  intros x. destruct (pk_deduced_ok gp x GP) as [p Ep]. exists p. split; [exact Ep|]. exact (pk_deduced_spec gp x p GP Ep).
Qed.
Lemma deduced_good : forall x p, kgood x -> pk_relative p = x -> pk_origin (qpk_kind p) = ODynamic (k_dim (qk_kind x)) -> pgood p.
Proof.
  intros x p X <- O. split; [exact X|]. change (pk_origin (pkt_kind (qpk_type p))) with (pk_origin (qpk_kind p)). rewrite O. reflexivity.
Qed.
(** Origins of one name and dimension are one. *)
Lemma origin_named : forall o o', origin_name o = origin_name o' -> o_dim o = o_dim o' -> o = o'.
Proof. intros [d|n d] [d'|n' d'] N D; cbn in *; congruence. Qed.
Lemma origin_one : forall o o', P (o_dim o) -> P (o_dim o') -> one_origin rb o o' -> o = o'.
Proof. intros o o' D D' [E|(N & Q & _)]; [exact E|]. destruct N. now apply one_equivalent. Qed.
Lemma pgood_origin : forall x, pgood x -> P (o_dim (pk_origin (qpk_kind x))).
Proof. intros x [[D _] O]. change (pk_origin (qpk_kind x)) with (pk_origin (pkt_kind (qpk_type x))). rewrite O. exact D. Qed.

(** ** Expressions *)

Definition vgood (v : kvalue) : Prop := match v with WQuantity q => good q | WKind x => kgood x | WPoint x => pgood x end.
Lemma vgood_under : forall v, vgood v -> good (under v).
Proof. intros [q|x|x]; cbn; auto. intros [H _]. exact H. Qed.

Notation ev := (keval rb est w g gp).
Notation av := (aeval rb est w).

Lemma av_unary : forall o x q s, av x = Ok (VQuantity q) -> unary_quantity est w o q = Ok s -> av (AUnary o x) = Ok (VQuantity s).
Proof. intros o x q s H K. cbn [aeval]. rewrite H. cbn [bind want_quantity]. now rewrite K. Qed.
Lemma av_binary : forall o x y q r s, av x = Ok (VQuantity q) -> av y = Ok (VQuantity r) -> binary_quantity est w o q r = Ok s ->
  av (ABinary o x y) = Ok (VQuantity s).
Proof. intros o x y q r s H K L. cbn [aeval]. rewrite H, K. cbn [bind]. destruct o; cbn [binary_value binary_quantity] in *; now rewrite L. Qed.
Lemma av_typed : forall x q, av x = Ok (VQuantity q) -> typed x 0 (dim_exps (q_dim (q_type q))).
Proof. intros x q H. exact (aeval_typed rb est w C x _ H). Qed.

Lemma cast_sound : forall c x s, kgood x -> legal_kcast c -> kind_cast est w c x = Ok s -> forall a, av a = Ok (VQuantity (common x)) ->
  kgood s /\ exists a', cast_reads (k_base (qk_kind x)) a c (k_base (qk_kind s)) a' /\ av a' = Ok (VQuantity (common s)).
Proof.
  intros c x s X L H a A. destruct c as [t|k|c]; cbn [legal_kcast] in L.
  - destruct (cast_type_around t x) as [S _]. destruct (S s H) as [M B]. split.
    + cbn [kind_cast] in H. unfold kind_cast_to in H. step H as n N. inversion H; subst s. exact L.
    + rewrite B. eexists. split; [constructor|]. exact (av_unary (UCast _) _ _ _ A M).
  - pose proof (cast_kind_dim k x s X L H) as D. rewrite (cast_kind_around k x X D) in H. inversion H; subst s. split.
    + split; [exact L|]. cbn. rewrite D. apply X.
    + exists a. split; [|rewrite with_kind_common; [exact A|exact D]]. apply (cr_kind _ a k). rewrite D. exact (av_typed _ _ A).
  - destruct (cast_other_around c x X L) as [S _]. destruct (S s H) as [M B]. split.
    + exact (cast_good c (common x) _ X L M).
    + rewrite B. eexists. split; [constructor|]. exact (av_unary (UCast _) _ _ _ A M).
Qed.

Theorem keval_sound : forall e v, ev e = Ok v -> legal P e ->
  vgood v /\ exists x, reads e (ksort_of v) x /\ av x = Ok (VQuantity (under v)).
Proof.
  induction e as [q|x|x|o a IH|o a IHa b IHb|t a IH|t a IH|a IH|c a IH|t a IH|a IH|t a IH|a IH|c a IH|t a IH]; intros v H L; cbn [keval] in H.
  - inversion H; subst v. split; [exact L|]. eexists. split; [constructor|reflexivity].
  - inversion H; subst v. split; [exact L|]. eexists. split; [constructor|reflexivity].
  - inversion H; subst v. split; [exact L|]. eexists. split; [constructor|reflexivity].
  - step H as u Eu. destruct L as [Lo La]. destruct (IH u Eu La) as (Gu & x & R & A).
    destruct u as [q|k|p]; cbn [kunary] in H; [| |discriminate H]; step H as s S; inversion H; subst v; cbn [ksort_of under vgood] in *.
    + split; [exact (unary_good o q s Gu Lo S)|]. eexists. split; [constructor; exact R|]. exact (av_unary o x q s A S).
    + assert (K : o = UPos \/ scaling o \/ unary_kind est w g o k = IllFormed).
      { destruct o; cbn; auto; right; left; constructor. }
      destruct K as [->|[Sc|Bad]]; [|destruct (scaling_around o k Sc Gu) as [T _]; destruct (T s S) as [M B]|rewrite Bad in S; discriminate S].
      * inversion S; subst s. split; [exact Gu|]. exists x. split; [apply rd_plus; exact R|exact A].
      * split.
        { apply kgood_good. apply (unary_good o (common k)); auto. }
        rewrite B. eexists. split; [apply rd_scale; [exact Sc|exact R]|]. exact (av_unary o x _ _ A M).
  - step H as u Eu. step H as u' Eu'. destruct L as [La Lb]. destruct (IHa u Eu La) as (Gu & x & R & A). destruct (IHb u' Eu' Lb) as (Gu' & y & R' & A').
    destruct u as [q|k|p], u' as [q'|k'|p']; cbn [ksort_of under vgood] in *.
    + assert (H' : (s <- binary_quantity est w o q q'; Ok (WQuantity s)) = Ok v) by (destruct o; exact H).
      step H' as s S. inversion H'; subst v. cbn [ksort_of under vgood]. split; [exact (binary_good o q q' s Gu Gu' S)|].
      eexists. split; [apply rd_binary; eassumption|]. exact (av_binary o x y _ _ _ A A' S).
    + assert (K : exists s, product o /\ quantity_kind o q k' = Ok s /\ v = WKind s).
      { destruct o; try discriminate H; cbn [kbinary] in H; step H as s S; inversion H; subst v; exists s; repeat split; auto; constructor. }
      destruct K as (s & Po & S & ->). destruct (quantity_kind_around o q k' Po Gu Gu') as [T _]. destruct (T s S) as [M B].
      cbn [ksort_of under vgood]. split; [exact (binary_good o q (common k') (common s) Gu Gu' M)|]. rewrite B.
      eexists. split; [apply rd_timed; eassumption|]. exact (av_binary o x y _ _ _ A A' M).
    + destruct o; discriminate H.
    + destruct o; try discriminate H; cbn [kbinary] in H; step H as s S; inversion H; subst v; cbn [ksort_of under vgood].
      * destruct (kind_quantity_around BMul k q' pr_mul Gu Gu') as [T _]. destruct (T s S) as [M B].
        split; [exact (binary_good BMul (common k) q' (common s) Gu Gu' M)|]. rewrite B.
        eexists. split; [apply rd_times; try eassumption; constructor|]. exact (av_binary BMul x y _ _ _ A A' M).
      * destruct (kind_quantity_around BDiv k q' pr_div Gu Gu') as [T _]. destruct (T s S) as [M B].
        split; [exact (binary_good BDiv (common k) q' (common s) Gu Gu' M)|]. rewrite B.
        eexists. split; [apply rd_times; try eassumption; constructor|]. exact (av_binary BDiv x y _ _ _ A A' M).
      * pose proof S as S'. unfold k_rem_q in S'. apply constrained_iff in S' as [D _].
        destruct (rem_q_around k q' Gu D) as [T _]. destruct (T s S) as [M B]. split; [exact (proj1 (rem_good (common k) _ _ Gu M))|]. rewrite B.
        eexists. split; [apply rd_rem_number; try eassumption|].
        -- eapply typed_ext; [exact (av_typed _ _ A')|]. eapply exps_trans; [apply equivalent_exps; exact D|apply dimensionless_exps].
        -- exact (av_binary BRem x y _ _ _ A A' M).
    + assert (K : exists s, two_kinds o k k' = Ok s /\ v = WKind s).
      { destruct o; cbn [kbinary] in H; step H as s S; inversion H; subst v; exists s; auto. }
      destruct K as (s & S & ->). pose proof (two_base o k k' s S) as B.
      assert (DR : o = BRem -> k_dim (qk_kind k) = k_dim (qk_kind k')).
      { intros ->. exact (rem_dims k k' s Gu Gu' S). }
      destruct (two_around o k k' Gu Gu' B DR) as [T _]. destruct (T s S) as [M Bs].
      cbn [ksort_of under vgood]. split; [exact (binary_good o (common k) (common k') (common s) Gu Gu' M)|]. rewrite Bs.
      exists (ABinary o x y). split; [|exact (av_binary o x y _ _ _ A A' M)]. rewrite <- B in R'.
      destruct o; try (apply rd_same; [discriminate|exact R|exact R']).
      apply rd_rem with (f := dim_exps (k_dim (qk_kind k))); auto.
      * exact (av_typed _ _ A).
      * rewrite (DR eq_refl). exact (av_typed _ _ A').
    + destruct o; try discriminate H; cbn [kbinary] in H. step H as s S. inversion H; subst v. cbn [ksort_of under vgood].
      unfold k_plus_pk in S. step S as z Z. destruct (deduced_eq z) as (p & Ep & Rp & Op). rewrite Ep in S. inversion S; subst s.
      destruct Gu' as [Gk Go]. pose proof (two_base BAdd k (pk_relative p') z Z) as B.
      destruct (two_around BAdd k (pk_relative p') Gu Gk B ltac:(discriminate)) as [T _]. destruct (T z Z) as [M Bz].
      split; [apply (deduced_good z); auto; exact (binary_good BAdd (common k) (common (pk_relative p')) (common z) Gu Gk M)|].
      rewrite Op. cbn [origin_name]. change (pk_base (qpk_kind p)) with (qk_kind (pk_relative p)). rewrite Rp, Bz.
      exists (ABinary BAdd x y). split; [|exact (av_binary BAdd x y _ _ _ A A' M)]. eapply rd_added; [exact R|]. rewrite B. exact R'.
    + destruct o; discriminate H.
    + assert (K : exists s z, (o = BAdd \/ o = BSub) /\ two_kinds o (pk_relative p) k' = Ok z /\ pk_deduced gp z = Ok s /\ v = WPoint s).
      { destruct o; try discriminate H; cbn [kbinary] in H; step H as s S; inversion H; subst v; unfold pk_add, pk_sub, pk_addsub in S; step S as z Z;
          exists s, z; auto. }
      destruct K as (s & z & Ho & Z & S & ->). destruct (deduced_eq z) as (p2 & Ep & Rp & Op). rewrite Ep in S. inversion S; subst s.
      destruct Gu as [Gk Go]. pose proof (two_base o (pk_relative p) k' z Z) as B.
      assert (DR : o = BRem -> k_dim (qk_kind (pk_relative p)) = k_dim (qk_kind k')) by (intros ->; destruct Ho; discriminate).
      destruct (two_around o (pk_relative p) k' Gk Gu' B DR) as [T _]. destruct (T z Z) as [M Bz].
      cbn [ksort_of under vgood]. split; [apply (deduced_good z); auto; exact (binary_good o (common (pk_relative p)) (common k') (common z) Gk Gu' M)|].
      rewrite Op. cbn [origin_name]. change (pk_base (qpk_kind p2)) with (qk_kind (pk_relative p2)). rewrite Rp, Bz.
      exists (ABinary o x y). split; [|exact (av_binary o x y _ _ _ A A' M)]. rewrite <- B in R'.
      destruct Ho as [->| ->]; [eapply rd_forward|eapply rd_back]; try exact R; exact R'.
    + destruct o; try discriminate H; cbn [kbinary] in H. step H as s S. inversion H; subst v. cbn [ksort_of under vgood].
      apply pk_diff_iff in S as [Oo S]. pose proof (origin_one _ _ (pgood_origin p Gu) (pgood_origin p' Gu') Oo) as Oe.
      pose proof (two_base BSub (pk_relative p) (pk_relative p') s S) as B.
      destruct Gu as [Gk Go], Gu' as [Gk' Go'].
      destruct (two_around BSub (pk_relative p) (pk_relative p') Gk Gk' B ltac:(discriminate)) as [T _]. destruct (T s S) as [M Bs].
      split; [exact (binary_good BSub (common (pk_relative p)) (common (pk_relative p')) (common s) Gk Gk' M)|]. rewrite Bs.
      exists (ABinary BSub x y). split; [|exact (av_binary BSub x y _ _ _ A A' M)].
      change (k_base (qk_kind (pk_relative p))) with (k_base (pk_base (qpk_kind p))) in B.
      change (k_base (qk_kind (pk_relative p'))) with (k_base (pk_base (qpk_kind p'))) in B.
      assert (R2 : reads b (IsPoint (k_base (pk_base (qpk_kind p))) (origin_name (pk_origin (qpk_kind p)))) y) by (rewrite B, Oe; exact R').
      exact (rd_difference a b _ _ x y R R2).
  - step H as u Eu. destruct L as [Lt La]. destruct (IH u Eu La) as (Gu & x & R & A). step H as q Q. destruct u as [u|u|u]; try discriminate Q.
    inversion Q; subst u. step H as s S. inversion H; subst v. destruct (construct_around t q) as [T _]. destruct (T s S) as [M B].
    cbn [ksort_of under vgood] in *. split.
    { unfold k_construct in S. step S as n N. inversion S; subst s. exact Lt. }
    rewrite B. eexists. split; [apply rd_make; exact R|]. exact (av_unary (UConv _) x _ _ A M).
  - step H as u Eu. destruct L as [Lt La]. destruct (IH u Eu La) as (Gu & x & R & A). step H as q Q. destruct u as [u|u|u]; try discriminate Q.
    inversion Q; subst u. step H as s S. inversion H; subst v. cbn [ksort_of under vgood] in *.
    pose proof S as S'. apply k_to_iff in S' as ([B _] & Ts & M). split; [unfold kgood; rewrite Ts; exact Lt|].
    replace (qk_kind s) with (kt_kind t) by (unfold qk_kind; now rewrite Ts).
    eexists. split; [apply rd_convert; rewrite <- B; exact R|]. exact (av_unary (UConv _) x _ _ A M).
  - step H as u Eu. destruct (IH u Eu L) as (Gu & x & R & A). step H as q Q. destruct u as [u|u|u]; try discriminate Q.
    inversion Q; subst u. inversion H; subst v. split; [exact Gu|]. exists x. split; [eapply rd_common; exact R|exact A].
  - step H as u Eu. destruct L as [Lt La]. destruct (IH u Eu La) as (Gu & x & R & A). step H as q Q. destruct u as [u|u|u]; try discriminate Q.
    inversion Q; subst u. step H as s S. inversion H; subst v. cbn [ksort_of under vgood] in *.
    destruct (cast_sound c q s Gu Lt S x A) as (Gs & x' & Cr & A'). split; [exact Gs|]. exists x'. split; [eapply rd_cast; eassumption|exact A'].
  - step H as u Eu. destruct L as [Lt La]. destruct (IH u Eu La) as (Gu & x & R & A). step H as q Q. destruct u as [u|u|u]; try discriminate Q.
    inversion Q; subst u. step H as s S. inversion H; subst v. cbn [ksort_of under vgood] in *.
    unfold pk_construct in S. step S as z Z. inversion S; subst s. apply k_to_iff in Z as ([B _] & Ts & M). split; [exact Lt|].
    eexists. split; [apply (rd_pmake t); cbn in B; rewrite <- B; exact R|].
    assert (E : common (pk_relative (QPKind t (qk_num z))) = common z).
    { unfold common, pk_relative. cbn. now rewrite Ts. }
    rewrite E. exact (av_unary (UConv _) x _ _ A M).
  - step H as u Eu. destruct (IH u Eu L) as (Gu & x & R & A). step H as q Q. destruct u as [u|u|u]; try discriminate Q.
    inversion Q; subst u. step H as s S. inversion H; subst v. cbn [ksort_of under vgood] in *.
    destruct (deduced_eq q) as (p & Ep & Rp & Op). rewrite Ep in S. inversion S; subst s.
    split; [apply (deduced_good q); auto|]. rewrite Op. cbn [origin_name]. change (pk_base (qpk_kind p)) with (qk_kind (pk_relative p)). rewrite Rp.
    exists x. split; [apply rd_deduce; exact R|exact A].
  - step H as u Eu. destruct L as [Lt La]. destruct (IH u Eu La) as (Gu & x & R & A). step H as q Q. destruct u as [u|u|u]; try discriminate Q.
    inversion Q; subst u. step H as s S. inversion H; subst v. cbn [ksort_of under vgood] in *.
    apply pk_to_iff in S as (Oo & Ts & S). pose proof S as S'. apply k_to_iff in S' as ([B _] & _ & M).
    assert (Dt : P (o_dim (pk_origin (pkt_kind t)))) by (destruct Lt as [[D _] O]; rewrite O; exact D).
    pose proof (origin_one _ _ (pgood_origin q Gu) Dt Oo) as Oe.
    split; [unfold pgood; rewrite Ts; exact Lt|]. replace (qpk_kind s) with (pkt_kind t) by (unfold qpk_kind; now rewrite Ts).
    eexists. split; [apply (rd_pconvert t)|exact (av_unary (UConv _) x _ _ A M)].
    cbn in B. rewrite <- B, <- Oe. exact R.
  - step H as u Eu. destruct (IH u Eu L) as (Gu & x & R & A). step H as q Q. destruct u as [u|u|u]; try discriminate Q.
    inversion Q; subst u. inversion H; subst v. split; [apply Gu|]. exists x. split; [eapply rd_relative; exact R|exact A].
  - step H as u Eu. destruct L as [Lt La]. destruct (IH u Eu La) as (Gu & x & R & A). step H as q Q. destruct u as [u|u|u]; try discriminate Q.
    inversion Q; subst u. step H as s S. inversion H; subst v. cbn [ksort_of under vgood] in *.
    unfold pk_cast in S. step S as z Z. destruct (deduced_eq z) as (p & Ep & Rp & Op). rewrite Ep in S. inversion S; subst s.
    destruct (cast_sound c (pk_relative q) z (proj1 Gu) Lt Z x A) as (Gs & x' & Cr & A').
    split; [apply (deduced_good z); auto|]. rewrite Op. cbn [origin_name]. change (pk_base (qpk_kind p)) with (qk_kind (pk_relative p)). rewrite Rp.
    exists x'. split; [eapply rd_pcast; eassumption|exact A'].
  - step H as u Eu. destruct L as [Lt La]. destruct (IH u Eu La) as (Gu & x & R & A). step H as q Q. destruct u as [u|u|u]; try discriminate Q.
    inversion Q; subst u. step H as s S. inversion H; subst v. cbn [ksort_of under vgood] in *.
    unfold pk_cast_to in S. step S as c0 C0. apply constrained_ok in C0. apply origin_equivalent_iff in C0. step S as z Z. inversion S; subst s.
    assert (Dt : P (o_dim (pk_origin (pkt_kind t)))) by (destruct Lt as [[D _] O]; rewrite O; exact D).
    pose proof (origin_one _ _ (pgood_origin q Gu) Dt C0) as Oe.
    destruct (cast_type_around (pkt_ktype t) (pk_relative q)) as [T _]. destruct (T z Z) as [M B].
    split; [exact Lt|].
    assert (E : common (pk_relative (QPKind t (qk_num z))) = common z).
    { unfold kind_cast_to in Z. step Z as n N. inversion Z; subst z. reflexivity. }
    rewrite E. eexists. split; [eapply (rd_pcastto t)|exact (av_unary (UCast _) x _ _ A M)]. rewrite <- Oe. exact R.
Qed.

Lemma sort_quantity : forall v, ksort_of v = IsQuantity -> exists q, v = WQuantity q.
Proof. intros [q|k|p] E; try discriminate E. eauto. Qed.
Lemma sort_kind : forall v b, ksort_of v = IsKind b -> exists k, v = WKind k /\ k_base (qk_kind k) = b.
Proof. intros [q|k|p] b E; try discriminate E. inversion E. eauto. Qed.
Lemma sort_point : forall v b o, ksort_of v = IsPoint b o ->
  exists p, v = WPoint p /\ k_base (pk_base (qpk_kind p)) = b /\ origin_name (pk_origin (qpk_kind p)) = o.
Proof. intros [q|k|p] b o E; try discriminate E. inversion E. eauto. Qed.

(** What a reading computes is the quantity under the value. *)
Definition has_value (e : kexpr) (s : ksort) (x : aexpr) : Prop :=
  forall r, av x = Ok r -> exists v, ev e = Ok v /\ ksort_of v = s /\ r = VQuantity (under v) /\ vgood v.

Lemma value_quantity : forall e x r, has_value e IsQuantity x -> av x = Ok r -> exists q, ev e = Ok (WQuantity q) /\ r = VQuantity q /\ good q.
Proof. intros e x r H A. destruct (H r A) as (v & E & S & -> & Gv). destruct (sort_quantity v S) as (q & ->). eauto. Qed.
Lemma value_kind : forall e x r b, has_value e (IsKind b) x -> av x = Ok r ->
  exists k, ev e = Ok (WKind k) /\ r = VQuantity (common k) /\ kgood k /\ k_base (qk_kind k) = b.
Proof. intros e x r b H A. destruct (H r A) as (v & E & S & -> & Gv). destruct (sort_kind v b S) as (k & -> & B). eauto 6. Qed.
Lemma value_point : forall e x r b o, has_value e (IsPoint b o) x -> av x = Ok r ->
  exists p, ev e = Ok (WPoint p) /\ r = VQuantity (common (pk_relative p)) /\ pgood p /\ k_base (pk_base (qpk_kind p)) = b /\
    origin_name (pk_origin (qpk_kind p)) = o.
Proof. intros e x r b o H A. destruct (H r A) as (v & E & S & -> & Gv). destruct (sort_point v b o S) as (p & -> & B & O). eauto 8. Qed.

Lemma av_unary_inv : forall o x r, av (AUnary o x) = Ok r ->
  exists q s, av x = Ok (VQuantity q) /\ unary_quantity est w o q = Ok s /\ r = VQuantity s.
Proof.
  intros o x r H. cbn [aeval] in H. step H as v V. step H as q Q. step H as s S. inversion H; subst r.
  destruct v as [v|]; [|discriminate Q]. inversion Q; subst v. eauto.
Qed.
Lemma av_binary_inv : forall o x y r, av (ABinary o x y) = Ok r -> exists u v, av x = Ok u /\ av y = Ok v /\
  forall p q, u = VQuantity p -> v = VQuantity q -> exists s, binary_quantity est w o p q = Ok s /\ r = VQuantity s.
Proof.
  intros o x y r H. cbn [aeval] in H. step H as u Hu. step H as v Hv. exists u, v. split; [exact Hu|]. split; [exact Hv|].
  intros p q -> ->. assert (H' : (s <- binary_quantity est w o p q; Ok (VQuantity s)) = Ok r) by (destruct o; exact H).
  step H' as s S. inversion H'. eauto.
Qed.
Lemma typed_dim : forall x q f, av x = Ok (VQuantity q) -> typed x 0 f -> same_exps (dim_exps (q_dim (q_type q))) f.
Proof. intros x q f A T. exact (proj2 (typed_unique _ _ _ (av_typed _ _ A) _ _ T)). Qed.

Lemma cast_complete : forall c x k a a', kgood x -> legal_kcast c -> av a = Ok (VQuantity (common x)) ->
  cast_reads (k_base (qk_kind x)) a c k a' -> forall r, av a' = Ok r ->
  exists s, kind_cast est w c x = Ok s /\ r = VQuantity (common s) /\ k_base (qk_kind s) = k /\ kgood s.
Proof.
  intros c x k a a' X L A R r A'.
  assert (K : exists s, kind_cast est w c x = Ok s /\ r = VQuantity (common s) /\ k_base (qk_kind s) = k).
  { inversion R as [t E1 E2 E3|k0 T E1 E2 E3|c0 E1 E2 E3]; subst.
    - apply av_unary_inv in A' as (q & s & Aq & S & ->). rewrite A in Aq. inversion Aq; subst q.
      destruct (cast_type_around t x) as [_ T]. destruct (T s S) as (z & Z & <- & B). eauto.
    - pose proof (typed_dim _ _ _ A T) as D. rewrite A in A'. inversion A'; subst r.
      assert (E : k_dim k0 = k_dim (qk_kind x)) by (symmetry; apply one_dimension; [apply X|exact L|exact D]).
      exists (with_kind k0 (common x)). rewrite (cast_kind_around k0 x X E), with_kind_common by exact E. auto.
    - apply av_unary_inv in A' as (q & s & Aq & S & ->). rewrite A in Aq. inversion Aq; subst q.
      destruct (cast_other_around c0 x X L) as [_ T]. destruct (T s S) as (z & Z & <- & B). eauto. }
  destruct K as (s & S & -> & B). exists s. split; [exact S|]. split; [reflexivity|]. split; [exact B|].
  exact (proj1 (cast_sound c x s X L S a A)).
Qed.

Lemma cast_operand : forall b x c b' x' r, cast_reads b x c b' x' -> av x' = Ok r -> exists r', av x = Ok r'.
Proof.
  intros b x c b' x' r R A. inversion R; subst; try (apply av_unary_inv in A as (q & s & A & _)); eauto.
Qed.

Theorem keval_complete : forall e s x, reads e s x -> legal P e -> has_value e s x.
Proof.
  assert (Fin : forall e s r v, legal P e -> ev e = Ok v -> ksort_of v = s -> r = VQuantity (under v) ->
    exists v, ev e = Ok v /\ ksort_of v = s /\ r = VQuantity (under v) /\ vgood v).
  { intros e s r v L E S R. exists v. split; [exact E|]. split; [exact S|]. split; [exact R|]. exact (proj1 (keval_sound e v E L)). }
  intros e s x R. induction R as [q|x|x|o a x R IH|a b x R IH|o a b x Sc R IH|o a b x y Ra IHa Rb IHb|o a b k x y No Ra IHa Rb IHb
    |a b k x y f Ra IHa Rb IHb Tx Ty|o a b k x y Po Ra IHa Rb IHb|o a b k x y Po Ra IHa Rb IHb|a b k x y Ra IHa Rb IHb Ty
    |a b k o x y Ra IHa Rb IHb|a b k o x y Ra IHa Rb IHb|a b k o x y Ra IHa Rb IHb|a b k o x y Ra IHa Rb IHb
    |t a x R IH|t a x R IH|a k x R IH|c a k k' x x' R IH Cr|t a x R IH|a k x R IH|t a x R IH|a k o x R IH|c a k o k' x x' R IH Cr|t a k x R IH];
    intros L r A; cbn [legal] in L.
  - inversion A; subst r. eapply Fin; [exact L|reflexivity|reflexivity|reflexivity].
  - inversion A; subst r. eapply Fin; [exact L|reflexivity|reflexivity|reflexivity].
  - inversion A; subst r. eapply Fin; [exact L|reflexivity|reflexivity|reflexivity].
  - apply av_unary_inv in A as (q & s & A & S & ->). destruct (value_quantity _ _ _ (IH (proj2 L)) A) as (q' & E & Q & _). inversion Q; subst q'.
    apply (Fin _ _ _ (WQuantity s)); [exact L| |reflexivity|reflexivity]. cbn [keval]. rewrite E. cbn [bind kunary]. now rewrite S.
  - destruct (value_kind _ _ _ _ (IH (proj2 L)) A) as (k & E & -> & _ & B).
    apply (Fin _ _ _ (WKind k)); [exact L| |cbn; now rewrite B|reflexivity]. cbn [keval]. now rewrite E.
  - apply av_unary_inv in A as (q & s & A & S & ->). destruct (value_kind _ _ _ _ (IH (proj2 L)) A) as (k & E & Q & Gk & B). inversion Q; subst q.
    destruct (scaling_around o k Sc Gk) as [_ T]. destruct (T s S) as (z & Z & <- & Bz).
    apply (Fin _ _ _ (WKind z)); [exact L| |cbn; now rewrite Bz, B|reflexivity]. cbn [keval]. rewrite E. cbn [bind kunary]. now rewrite Z.
  - apply av_binary_inv in A as (u & v & Au & Av & K). destruct L as [La Lb].
    destruct (value_quantity _ _ _ (IHa La) Au) as (q & E & -> & _). destruct (value_quantity _ _ _ (IHb Lb) Av) as (q' & E' & -> & _).
    destruct (K q q' eq_refl eq_refl) as (s & S & ->).
    apply (Fin _ _ _ (WQuantity s)); [split; assumption| |reflexivity|reflexivity]. cbn [keval]. rewrite E, E'. cbn [bind].
    destruct o; cbn [kbinary binary_quantity] in *; now rewrite S.
  - apply av_binary_inv in A as (u & v & Au & Av & K). destruct L as [La Lb].
    destruct (value_kind _ _ _ _ (IHa La) Au) as (q & E & -> & Gq & B). destruct (value_kind _ _ _ _ (IHb Lb) Av) as (q' & E' & -> & Gq' & B').
    destruct (K _ _ eq_refl eq_refl) as (s & S & ->).
    destruct (two_around o q q' Gq Gq' (eq_trans B (eq_sym B')) (fun X => match No X with end)) as [_ T]. destruct (T s S) as (z & Z & <- & Bz).
    apply (Fin _ _ _ (WKind z)); [split; assumption| |cbn; now rewrite Bz, B|reflexivity]. cbn [keval]. rewrite E, E'. cbn [bind].
    destruct o; cbn [kbinary two_kinds] in *; now rewrite Z.
  - apply av_binary_inv in A as (u & v & Au & Av & K). destruct L as [La Lb].
    destruct (value_kind _ _ _ _ (IHa La) Au) as (q & E & -> & Gq & B). destruct (value_kind _ _ _ _ (IHb Lb) Av) as (q' & E' & -> & Gq' & B').
    destruct (K _ _ eq_refl eq_refl) as (s & S & ->).
    assert (D : k_dim (qk_kind q) = k_dim (qk_kind q')).
    { apply one_dimension; [apply Gq|apply Gq'|]. eapply exps_trans; [exact (typed_dim _ _ _ Au Tx)|]. apply exps_sym. exact (typed_dim _ _ _ Av Ty). }
    destruct (two_around BRem q q' Gq Gq' (eq_trans B (eq_sym B')) (fun _ => D)) as [_ T]. destruct (T s S) as (z & Z & <- & Bz).
    apply (Fin _ _ _ (WKind z)); [split; assumption| |cbn; now rewrite Bz, B|reflexivity]. cbn [keval]. rewrite E, E'. cbn [bind kbinary].
    cbn [two_kinds] in Z. now rewrite Z.
  - apply av_binary_inv in A as (u & v & Au & Av & K). destruct L as [La Lb].
    destruct (value_kind _ _ _ _ (IHa La) Au) as (q & E & -> & Gq & B). destruct (value_quantity _ _ _ (IHb Lb) Av) as (q' & E' & -> & Gq').
    destruct (K _ _ eq_refl eq_refl) as (s & S & ->).
    destruct (kind_quantity_around o q q' Po Gq Gq') as [_ T]. destruct (T s S) as (z & Z & <- & Bz).
    apply (Fin _ _ _ (WKind z)); [split; assumption| |cbn; now rewrite Bz, B|reflexivity]. cbn [keval]. rewrite E, E'. cbn [bind].
    destruct Po; cbn [kbinary kind_quantity] in *; now rewrite Z.
  - apply av_binary_inv in A as (u & v & Au & Av & K). destruct L as [La Lb].
    destruct (value_quantity _ _ _ (IHa La) Au) as (q & E & -> & Gq). destruct (value_kind _ _ _ _ (IHb Lb) Av) as (q' & E' & -> & Gq' & B).
    destruct (K _ _ eq_refl eq_refl) as (s & S & ->).
    destruct (quantity_kind_around o q q' Po Gq Gq') as [_ T]. destruct (T s S) as (z & Z & <- & Bz).
    apply (Fin _ _ _ (WKind z)); [split; assumption| |cbn; now rewrite Bz, B|reflexivity]. cbn [keval]. rewrite E, E'. cbn [bind].
    destruct Po; cbn [kbinary quantity_kind] in *; now rewrite Z.
  - apply av_binary_inv in A as (u & v & Au & Av & K). destruct L as [La Lb].
    destruct (value_kind _ _ _ _ (IHa La) Au) as (q & E & -> & Gq & B). destruct (value_quantity _ _ _ (IHb Lb) Av) as (q' & E' & -> & Gq').
    destruct (K _ _ eq_refl eq_refl) as (s & S & ->).
    assert (D : dim_equivalent (q_dim (q_type q')) dim_one = true).
    { apply without_dimension; [apply Gq'|]. exact (typed_dim _ _ _ Av Ty). }
    destruct (rem_q_around q q' Gq D) as [_ T]. destruct (T s S) as (z & Z & <- & Bz).
    apply (Fin _ _ _ (WKind z)); [split; assumption| |cbn; now rewrite Bz, B|reflexivity]. cbn [keval]. rewrite E, E'. cbn [bind kbinary].
    now rewrite Z.
  - apply av_binary_inv in A as (u & v & Au & Av & K). destruct L as [La Lb].
    destruct (value_point _ _ _ _ _ (IHa La) Au) as (q & E & -> & Gq & B & _). destruct (value_kind _ _ _ _ (IHb Lb) Av) as (q' & E' & -> & Gq' & B').
    destruct (K _ _ eq_refl eq_refl) as (s & S & ->).
    destruct (two_around BAdd (pk_relative q) q' (proj1 Gq) Gq' (eq_trans B (eq_sym B')) ltac:(discriminate)) as [_ T].
    destruct (T s S) as (z & Z & <- & Bz). destruct (deduced_eq z) as (p & Ep & Rp & Op).
    apply (Fin _ _ _ (WPoint p)); [split; assumption| | |cbn; now rewrite Rp].
    + cbn [keval]. rewrite E, E'. cbn [bind kbinary]. unfold pk_add, pk_addsub. cbn [two_kinds] in Z. unfold k_add in Z. rewrite Z. cbn [bind]. now rewrite Ep.
    + cbn [ksort_of]. rewrite Op. change (pk_base (qpk_kind p)) with (qk_kind (pk_relative p)). rewrite Rp, Bz. cbn. now rewrite <- B.
  - apply av_binary_inv in A as (u & v & Au & Av & K). destruct L as [La Lb].
    destruct (value_kind _ _ _ _ (IHa La) Au) as (q & E & -> & Gq & B). destruct (value_point _ _ _ _ _ (IHb Lb) Av) as (q' & E' & -> & Gq' & B' & _).
    destruct (K _ _ eq_refl eq_refl) as (s & S & ->).
    destruct (two_around BAdd q (pk_relative q') Gq (proj1 Gq') (eq_trans B (eq_sym B')) ltac:(discriminate)) as [_ T].
    destruct (T s S) as (z & Z & <- & Bz). destruct (deduced_eq z) as (p & Ep & Rp & Op).
    apply (Fin _ _ _ (WPoint p)); [split; assumption| | |cbn; now rewrite Rp].
    + cbn [keval]. rewrite E, E'. cbn [bind kbinary]. unfold k_plus_pk. cbn [two_kinds] in Z. rewrite Z. cbn [bind]. now rewrite Ep.
    + cbn [ksort_of]. rewrite Op. change (pk_base (qpk_kind p)) with (qk_kind (pk_relative p)). rewrite Rp, Bz. cbn. now rewrite <- B.
  - apply av_binary_inv in A as (u & v & Au & Av & K). destruct L as [La Lb].
    destruct (value_point _ _ _ _ _ (IHa La) Au) as (q & E & -> & Gq & B & _). destruct (value_kind _ _ _ _ (IHb Lb) Av) as (q' & E' & -> & Gq' & B').
    destruct (K _ _ eq_refl eq_refl) as (s & S & ->).
    destruct (two_around BSub (pk_relative q) q' (proj1 Gq) Gq' (eq_trans B (eq_sym B')) ltac:(discriminate)) as [_ T].
    destruct (T s S) as (z & Z & <- & Bz). destruct (deduced_eq z) as (p & Ep & Rp & Op).
    apply (Fin _ _ _ (WPoint p)); [split; assumption| | |cbn; now rewrite Rp].
    + cbn [keval]. rewrite E, E'. cbn [bind kbinary]. unfold pk_sub, pk_addsub. cbn [two_kinds] in Z. unfold k_sub in Z. rewrite Z. cbn [bind]. now rewrite Ep.
    + cbn [ksort_of]. rewrite Op. change (pk_base (qpk_kind p)) with (qk_kind (pk_relative p)). rewrite Rp, Bz. cbn. now rewrite <- B.
  - apply av_binary_inv in A as (u & v & Au & Av & K). destruct L as [La Lb].
    destruct (value_point _ _ _ _ _ (IHa La) Au) as (q & E & -> & Gq & B & O). destruct (value_point _ _ _ _ _ (IHb Lb) Av) as (q' & E' & -> & Gq' & B' & O').
    destruct (K _ _ eq_refl eq_refl) as (s & S & ->).
    destruct (two_around BSub (pk_relative q) (pk_relative q') (proj1 Gq) (proj1 Gq') (eq_trans B (eq_sym B')) ltac:(discriminate)) as [_ T].
    destruct (T s S) as (z & Z & <- & Bz).
    assert (D : k_dim (pk_base (qpk_kind q')) = k_dim (pk_base (qpk_kind q))).
    { destruct (sum_good OpSub (common (pk_relative q)) (common (pk_relative q')) _ (proj1 Gq) (proj1 Gq') S) as (_ & _ & D). exact D. }
    assert (Oe : pk_origin (qpk_kind q) = pk_origin (qpk_kind q')).
    { apply origin_named; [congruence|]. destruct Gq as [_ G1], Gq' as [_ G2]. unfold qpk_kind in *. congruence. }
    apply (Fin _ _ _ (WKind z)); [split; assumption| |cbn [ksort_of]; rewrite Bz; cbn; now rewrite <- B|reflexivity].
    cbn [keval]. rewrite E, E'. cbn [bind kbinary].
    assert (X : pk_diff rb est w q q' = Ok z) by (apply pk_diff_iff; split; [now left|exact Z]). now rewrite X.
  - apply av_unary_inv in A as (q & s & A & S & ->). destruct (value_quantity _ _ _ (IH (proj2 L)) A) as (q' & E & Q & _). inversion Q; subst q'.
    destruct (construct_around t q) as [_ T]. destruct (T s S) as (z & Z & <- & Bz).
    apply (Fin _ _ _ (WKind z)); [exact L| |cbn; now rewrite Bz|reflexivity]. cbn [keval]. rewrite E. cbn [bind as_quantity]. now rewrite Z.
  - apply av_unary_inv in A as (q & s & A & S & ->). destruct (value_kind _ _ _ _ (IH (proj2 L)) A) as (k & E & Q & Gk & B). inversion Q; subst q.
    destruct (convert_around t k Gk (proj1 L) B) as [_ T]. destruct (T s S) as (z & Z & <- & Bz).
    apply (Fin _ _ _ (WKind z)); [exact L| |cbn; now rewrite Bz|reflexivity]. cbn [keval]. rewrite E. cbn [bind as_kind]. now rewrite Z.
  - destruct (value_kind _ _ _ _ (IH L) A) as (q & E & -> & _). apply (Fin _ _ _ (WQuantity (common q))); [exact L| |reflexivity|reflexivity].
    cbn [keval]. now rewrite E.
  - destruct (cast_operand _ _ _ _ _ _ Cr A) as [r' A']. destruct (value_kind _ _ _ _ (IH (proj2 L)) A') as (q & E & -> & Gq & B).
    rewrite <- B in Cr. destruct (cast_complete c q k' x x' Gq (proj1 L) A' Cr r A) as (z & Z & -> & Bz & _).
    apply (Fin _ _ _ (WKind z)); [exact L| |cbn; now rewrite Bz|reflexivity]. cbn [keval]. rewrite E. cbn [bind as_kind]. now rewrite Z.
  - apply av_unary_inv in A as (q & s & A & S & ->). destruct (value_kind _ _ _ _ (IH (proj2 L)) A) as (k & E & Q & Gk & B). inversion Q; subst q.
    destruct (convert_around (pkt_ktype t) k Gk (proj1 (proj1 L)) B) as [_ T]. destruct (T s S) as (z & Z & <- & Bz).
    pose proof Z as Z'. apply k_to_iff in Z' as (_ & Tz & _).
    apply (Fin _ _ _ (WPoint (QPKind t (qk_num z)))); [exact L| |reflexivity|].
    + cbn [keval]. rewrite E. cbn [bind as_kind]. unfold pk_construct. now rewrite Z.
    + cbn [under]. unfold common, pk_relative. cbn. now rewrite Tz.
  - destruct (value_kind _ _ _ _ (IH L) A) as (q & E & -> & Gq & B). destruct (deduced_eq q) as (p & Ep & Rp & Op).
    apply (Fin _ _ _ (WPoint p)); [exact L| | |cbn; now rewrite Rp].
    + cbn [keval]. rewrite E. cbn [bind as_kind]. now rewrite Ep.
    + cbn [ksort_of]. rewrite Op. change (pk_base (qpk_kind p)) with (qk_kind (pk_relative p)). now rewrite Rp, B.
  - apply av_unary_inv in A as (q & s & A & S & ->). destruct (value_point _ _ _ _ _ (IH (proj2 L)) A) as (p & E & Q & Gp & B & O). inversion Q; subst q.
    destruct (convert_around (pkt_ktype t) (pk_relative p) (proj1 Gp) (proj1 (proj1 L)) B) as [_ T]. destruct (T s S) as (z & Z & <- & Bz).
    pose proof Z as Z'. apply k_to_iff in Z' as ([_ Dz] & Tz & _).
    assert (D : k_dim (pk_base (qpk_kind p)) = k_dim (pk_base (pkt_kind t))).
    { apply one_equivalent; [apply (proj1 Gp)|apply (proj1 (proj1 L))|exact Dz]. }
    assert (Oe : pk_origin (qpk_kind p) = pk_origin (pkt_kind t)).
    { apply origin_named; [exact O|]. destruct Gp as [_ G1], L as [[_ G2] _]. unfold qpk_kind in *. congruence. }
    assert (X : pk_to rb est t p = Ok (QPKind t (qk_num z))).
    { apply pk_to_iff. split; [now left|]. split; [reflexivity|]. rewrite Z. f_equal. unfold pk_relative. cbn. rewrite <- Tz. now destruct z. }
    apply (Fin _ _ _ (WPoint (QPKind t (qk_num z)))); [exact L| |reflexivity|].
    + cbn [keval]. rewrite E. cbn [bind as_point]. now rewrite X.
    + cbn [under]. unfold common, pk_relative. cbn. now rewrite Tz.
  - destruct (value_point _ _ _ _ _ (IH L) A) as (p & E & -> & Gp & B & O). apply (Fin _ _ _ (WKind (pk_relative p))); [exact L| |cbn; now rewrite <- B|reflexivity].
    cbn [keval]. now rewrite E.
  - destruct (cast_operand _ _ _ _ _ _ Cr A) as [r' A']. destruct (value_point _ _ _ _ _ (IH (proj2 L)) A') as (q & E & -> & Gq & B & _).
    change (pk_base (qpk_kind q)) with (qk_kind (pk_relative q)) in B. rewrite <- B in Cr.
    destruct (cast_complete c (pk_relative q) k' x x' (proj1 Gq) (proj1 L) A' Cr r A) as (z & Z & -> & Bz & _).
    destruct (deduced_eq z) as (p & Ep & Rp & Op).
    apply (Fin _ _ _ (WPoint p)); [exact L| | |cbn; now rewrite Rp].
    + cbn [keval]. rewrite E. cbn [bind as_point]. unfold pk_cast. rewrite Z. cbn [bind]. now rewrite Ep.
    + cbn [ksort_of]. rewrite Op. change (pk_base (qpk_kind p)) with (qk_kind (pk_relative p)). now rewrite Rp, Bz.
  - apply av_unary_inv in A as (q & s & A & S & ->). destruct (value_point _ _ _ _ _ (IH (proj2 L)) A) as (p & E & Q & Gp & B & O). inversion Q; subst q.
    destruct (cast_type_around (pkt_ktype t) (pk_relative p)) as [_ T]. destruct (T s S) as (z & Z & <- & Bz).
    assert (D : k_dim (pk_base (qpk_kind p)) = k_dim (pk_base (pkt_kind t))).
    { cbn [unary_quantity q_cast] in S. step S as n N. unfold quantity_cast in N. apply constrained_iff in N as [N _].
      symmetry. apply one_equivalent; [apply (proj1 (proj1 L))|apply (proj1 Gp)|exact N]. }
    assert (Oe : pk_origin (qpk_kind p) = pk_origin (pkt_kind t)).
    { apply origin_named; [exact O|]. destruct Gp as [_ G1], L as [[_ G2] _]. unfold qpk_kind in *. congruence. }
    apply (Fin _ _ _ (WPoint (QPKind t (qk_num z)))); [exact L| |reflexivity|].
    + cbn [keval]. rewrite E. cbn [bind as_point]. unfold pk_cast_to.
      assert (X : origin_equivalent rb (pk_origin (qpk_kind p)) (pk_origin (pkt_kind t)) = true) by (apply origin_equivalent_iff; now left).
      rewrite X. cbn [bind constrained]. cbn [kind_cast] in Z. rewrite Z. reflexivity.
    + cbn [kind_cast] in Z. unfold kind_cast_to in Z. step Z as n N. inversion Z; subst z. reflexivity.
Qed.
End System.
