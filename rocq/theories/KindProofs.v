(** Proofs about quantity kinds and quantity point kinds. *)

From Coq Require Import ZArith QArith Qpower Qabs String List Bool Lia Lqa.
From Verif Require Import Outcome CInt Ratio SpecRatio QTen Root Unit Downcast Dim DimOp Equivalent SpecDim SpecUnit
  DimOpProofs EquivProofs Rep IntProofs Reference QuantityCast CommonQuantity Quantity SpecQuantity CastProofs
  QuantityProofs QuantityProofs2 QuantityProofs3 QuantityProofs4 QuantityProofs5 Point Kind PointKind SpecPoint PointProofs.
Import ListNotations.
Local Open Scope Z_scope.
Local Open Scope res_scope.

(** ** Equivalence of kinds *)

Lemma kind_equivalent_iff : forall a b, kind_equivalent a b = true <-> one_kind_of a b.
Proof.
  intros a b. unfold kind_equivalent, one_kind_of. destruct (kind_eq_dec a b) as [E|E].
  - subst. split; auto. intros _. split; auto. apply dim_equivalent_equivalence.
  - rewrite andb_true_iff. destruct (bkind_eq_dec (k_base a) (k_base b)); split; intros []; auto; discriminate.
Qed.
Lemma one_kind_sym : forall a b, one_kind_of a b -> one_kind_of b a.
Proof. intros a b [E D]. split; auto. now rewrite (proj1 (proj2 dim_equivalent_equivalence)). Qed.
Lemma one_kind_refl : forall a, one_kind_of a a.
Proof. intros a. split; auto. apply dim_equivalent_equivalence. Qed.
Lemma one_kind_trans : forall a b c, one_kind_of a b -> one_kind_of b c -> one_kind_of a c.
Proof.
  intros a b c [E D] [E' D']. split; [congruence|]. exact (proj2 (proj2 dim_equivalent_equivalence) _ _ _ D D').
Qed.
Lemma related_iff : forall a b, related a b = true <-> k_base (qk_kind a) = k_base (qk_kind b).
Proof.
  intros a b. unfold related. rewrite kind_equivalent_iff. unfold one_kind_of, base_kind. cbn [k_base k_dim]. split.
  - now intros [].
  - intros E. split; auto. rewrite E. apply dim_equivalent_equivalence.
Qed.

Lemma constrained_iff : forall b (A : Type) (x : res A) r, (_ <- constrained b; x) = Ok r <-> b = true /\ x = Ok r.
Proof. intros [|] A x r; cbn; split; try tauto; try discriminate. intros []; discriminate. Qed.

(** ** Building a kind from a quantity *)

Lemma k_make_spec : forall est k q x, k_make est k q = Ok x ->
  qk_kind x = k /\ kt_unit (qk_type x) = q_unit (q_type q) /\ kt_rep (qk_type x) = q_rep (q_type q) /\
  (k_dim k = q_dim (q_type q) -> common x = q).
Proof.
  intros est k q x H. unfold k_make in H. step H as t Et. unfold mk_ktype in Et. step Et as u Eu. inversion Et; subst t.
  unfold k_construct in H. step H as n En. inversion H; subst x. cbn. repeat (split; auto). intros D.
  unfold common. cbn [qk_type qk_num].
  assert (T : kt_qtype (KType k (q_unit (q_type q)) (q_rep (q_type q))) = q_type q).
  { unfold kt_qtype. cbn. rewrite D. now destruct (q_type q). }
  rewrite T in *. rewrite q_convert_same in En. inversion En. now destruct q.
Qed.
Lemma k_make_ok : forall est k q, k_dim k = q_dim (q_type q) -> unit_of (q_unit (q_type q)) (q_dim (q_type q)) = true ->
  exists x, k_make est k q = Ok x.
Proof.
  intros est k q D U. unfold k_make, mk_ktype, mk_qtype. rewrite D, U. cbn. unfold k_construct.
  assert (T : kt_qtype (KType k (q_unit (q_type q)) (q_rep (q_type q))) = q_type q).
  { unfold kt_qtype. cbn. rewrite D. now destruct (q_type q). }
  rewrite T, q_convert_same. cbn. eauto.
Qed.

(** ** Declared kinds *)

Definition kinds_consistent (g : kinds) : Prop := forall key t, In (key, t) (guides g) -> key = (k_base t, k_dim t).
Lemma declared_consistent : forall g, kinds_declared g -> kinds_consistent g.
Proof.
  intros g H. induction H as [|mode n d g g' _ IH E|mode n d bk g g' _ IH E]; intros key t I.
  - contradiction.
  - destruct (declare_guides _ _ _ _ _ _ _ _ E _ I) as [I'|I']; [|auto]. clear I. rename I' into I. inversion I; subst. reflexivity.
  - unfold declare_derived_kind in E. apply constrained_iff in E. destruct E as [_ E]. 
    destruct (declare_guides _ _ _ _ _ _ _ _ E _ I) as [I'|I']; [|auto]. clear I. rename I' into I. inversion I; subst. reflexivity.
Qed.
Lemma downcast_kind_spec : forall g k d, kinds_declared g ->
  k_base (downcast_kind g k d) = k_base k /\ k_dim (downcast_kind g k d) = d.
Proof.
  intros g k d H. unfold downcast_kind. destruct (downcast kind_key_eq_dec g (k_base k, d)) as [t|] eqn:E; [|auto].
  apply downcast_in in E. apply (declared_consistent _ H) in E. inversion E. auto.
Qed.
Lemma k_downcasted_spec : forall est g x q r, kinds_declared g -> k_downcasted est g x q = Ok r ->
  k_base (qk_kind r) = k_base (qk_kind x) /\ k_dim (qk_kind r) = q_dim (q_type q) /\ common r = q.
Proof.
  intros est g x q r G H. unfold k_downcasted in H. apply k_make_spec in H. destruct H as (K & _ & _ & E).
  destruct (downcast_kind_spec g (base_kind (qk_kind x)) (q_dim (q_type q)) G) as [B D]. rewrite K. auto.
Qed.

(** ** Operations *)

Lemma k_addsub_spec : forall o est w a b s, k_addsub o est w a b = Ok s ->
  one_kind_of (qk_kind a) (qk_kind b) /\ qk_kind s = qk_kind a /\
  exists q, q_addsub o est w (common a) (common b) = Ok q /\ kt_unit (qk_type s) = q_unit (q_type q) /\
    kt_rep (qk_type s) = q_rep (q_type q) /\ (q_dim (q_type q) = k_dim (qk_kind a) -> common s = q).
Proof.
  intros o est w a b s H. unfold k_addsub in H. apply constrained_iff in H. destruct H as [E H].
  apply kind_equivalent_iff in E. split; [now apply one_kind_sym|]. step H as q Eq.
  destruct (k_make_spec _ _ _ _ H) as (K & U & R & X). split; auto. exists q. repeat (split; auto).
Qed.

Lemma q_addsub_unit : forall o est w a b q, q_addsub o est w a b = Ok q ->
  unit_of (q_unit (q_type q)) (q_dim (q_type q)) = true.
Proof.
  intros o est w a b q H. unfold q_addsub in H. cbv zeta in H. step H as t Et. step H as x Ex. step H as y Ey. step H as k Ek.
  step H as k' Ek'. inversion H; subst q. cbn [q_type]. unfold common_quantity in Et. step Et as u Eu. step Et as du Edu.
  unfold mk_qtype in Et. apply constrained_iff in Et. destruct Et as [U Et]. inversion Et; subst t. exact U.
Qed.
Lemma k_addsub_available : forall o est w a b q, one_kind_of (qk_kind a) (qk_kind b) ->
  q_addsub o est w (common a) (common b) = Ok q -> q_dim (q_type q) = k_dim (qk_kind a) ->
  exists s, k_addsub o est w a b = Ok s /\ common s = q /\ qk_kind s = qk_kind a.
Proof.
  intros o est w a b q K H D. pose proof (q_addsub_unit _ _ _ _ _ _ H) as U.
  destruct (k_make_ok est (qk_kind a) q (eq_sym D) U) as (s & Es). exists s. split.
  - unfold k_addsub. apply constrained_iff. split; [now apply kind_equivalent_iff, one_kind_sym|].
    rewrite H. exact Es.
  - apply k_make_spec in Es. destruct Es as (E & _ & _ & X). auto.
Qed.

Lemma k_compare_iff : forall est w a b c, k_compare est w a b = Ok c <->
  one_kind_of (qk_kind a) (qk_kind b) /\ q_compare est w (common a) (common b) = Ok c.
Proof.
  intros. unfold k_compare. rewrite constrained_iff, kind_equivalent_iff. split; intros [K H]; split; auto; now apply one_kind_sym.
Qed.
Lemma k_eqb_iff : forall est w a b c, k_eqb est w a b = Ok c <->
  one_kind_of (qk_kind a) (qk_kind b) /\ q_eqb est w (common a) (common b) = Ok c.
Proof.
  intros. unfold k_eqb. rewrite constrained_iff, kind_equivalent_iff. split; intros [K H]; split; auto; now apply one_kind_sym.
Qed.
Lemma k_to_iff : forall est t x r, k_to est t x = Ok r <->
  one_kind_of (qk_kind x) (kt_kind t) /\ qk_type r = t /\ q_to est (kt_qtype t) (common x) = Ok (common r).
Proof.
  intros est t x r. unfold k_to. rewrite constrained_iff, kind_equivalent_iff. unfold k_construct, q_to.
  cbn [common q_type q_num]. destruct (q_convert est (kt_qtype (qk_type x)) (kt_qtype t) (qk_num x)); cbn [bind];
    split; intros (K & H); (split; [exact K|]); try discriminate; try (destruct H; discriminate).
  - inversion H; subst. auto.
  - destruct H as [<- H]. inversion H. now destruct r.
Qed.

Lemma k_scale_spec : forall o (sw : bool) est x r v s, k_scale o sw est x r v = Ok s ->
  qk_kind s = qk_kind x /\ q_scale o sw (common x) r v = Ok (common s).
Proof.
  intros o sw est x r v s H. unfold k_scale in H. step H as q Eq. destruct (k_make_spec _ _ _ _ H) as (K & _ & _ & X).
  split; auto. rewrite X; auto. unfold q_scale in Eq. cbv zeta in Eq. step Eq as u Eu. step Eq as y Ey.
  inversion Eq; subst q. reflexivity.
Qed.
Lemma k_rem_value_spec : forall est x r v s, k_rem_value est x r v = Ok s ->
  qk_kind s = qk_kind x /\ q_rem_value (common x) r v = Ok (common s).
Proof.
  intros est x r v s H. unfold k_rem_value in H. step H as q Eq. destruct (k_make_spec _ _ _ _ H) as (K & _ & _ & X).
  split; auto. rewrite X; auto. unfold q_rem_value in Eq. step Eq as u' Eu'. unfold q_scale in Eq. cbv zeta in Eq. step Eq as u Eu. step Eq as y Ey.
  inversion Eq; subst q. reflexivity.
Qed.
Lemma k_neg_spec : forall est x s, k_neg est x = Ok s -> qk_kind s = qk_kind x /\ q_neg (common x) = Ok (common s).
Proof.
  intros est x s H. unfold k_neg in H. step H as q Eq. destruct (k_make_spec _ _ _ _ H) as (K & _ & _ & X).
  split; auto. rewrite X; auto. unfold q_neg in Eq. cbv zeta in Eq. step Eq as y Ey.
  inversion Eq; subst q. reflexivity.
Qed.
Lemma k_rem_spec : forall est a b s, k_rem est a b = Ok s ->
  one_kind_of (qk_kind a) (qk_kind b) /\ qk_kind s = qk_kind a /\ q_rem (common a) (common b) = Ok (common s).
Proof.
  intros est a b s H. unfold k_rem in H. apply constrained_iff in H. destruct H as [E H].
  apply kind_equivalent_iff in E. split; [now apply one_kind_sym|]. step H as q Eq.
  destruct (k_make_spec _ _ _ _ H) as (K & _ & _ & X). split; auto. rewrite X; auto.
  unfold q_rem in Eq. cbv zeta in Eq. step Eq as u Eu. step Eq as y Ey. inversion Eq; subst q. reflexivity.
Qed.

(** A product or quotient has the base kind of its kind operand and the dimension of the
    product of the quantities. *)
Lemma k_products : forall est w g x q r, kinds_declared g ->
  (k_times_q est w g x q = Ok r -> q_times w (common x) q = Ok (common r) /\ k_base (qk_kind r) = k_base (qk_kind x)) /\
  (q_times_k est w g q x = Ok r -> q_times w q (common x) = Ok (common r) /\ k_base (qk_kind r) = k_base (qk_kind x)) /\
  (k_over_q est w g x q = Ok r -> q_over w (common x) q = Ok (common r) /\ k_base (qk_kind r) = k_base (qk_kind x)) /\
  (q_over_k est w g q x = Ok r -> q_over w q (common x) = Ok (common r) /\ k_base (qk_kind r) = k_base (qk_kind x)).
Proof.
  intros est w g x q r G. unfold k_times_q, q_times_k, k_over_q, q_over_k.
  repeat split; step H as p Ep; destruct (k_downcasted_spec _ _ _ _ _ G H) as (B & D & E); congruence.
Qed.
Lemma k_products_k : forall est w g a b r, kinds_declared g ->
  (k_times_k est w g a b = Ok r -> k_base (qk_kind a) = k_base (qk_kind b) /\
     q_times w (common a) (common b) = Ok (common r) /\ k_base (qk_kind r) = k_base (qk_kind a)) /\
  (k_over_k est w g a b = Ok r -> k_base (qk_kind a) = k_base (qk_kind b) /\
     q_over w (common a) (common b) = Ok (common r) /\ k_base (qk_kind r) = k_base (qk_kind a)).
Proof.
  intros est w g a b r G. unfold k_times_k, k_over_k.
  split; intros H; apply constrained_iff in H; destruct H as [R H]; apply related_iff in R; (split; [auto|]);
    step H as p Ep; destruct (k_downcasted_spec _ _ _ _ _ G H) as (B & D & E); split; congruence.
Qed.
Lemma value_div_k_spec : forall est w g r v x s, kinds_declared g -> value_div_k est w g r v x = Ok s ->
  value_div_q w r v (common x) = Ok (common s) /\ k_base (qk_kind s) = k_base (qk_kind x).
Proof.
  intros est w g r v x s G H. unfold value_div_k in H. step H as q Eq.
  destruct (k_downcasted_spec _ _ _ _ _ G H) as (B & D & E). split; congruence.
Qed.

(** ** Kinds of different bases do not mix *)

Lemma different_kinds : forall a b, k_base (qk_kind a) <> k_base (qk_kind b) ->
  kind_equivalent (qk_kind b) (qk_kind a) = false /\ related b a = false.
Proof.
  intros a b N. split.
  - destruct (kind_equivalent (qk_kind b) (qk_kind a)) eqn:E; auto. apply kind_equivalent_iff in E. destruct E. congruence.
  - destruct (related b a) eqn:E; auto. apply related_iff in E. congruence.
Qed.
Lemma kinds_do_not_mix : forall a b, k_base (qk_kind a) <> k_base (qk_kind b) -> forall o est w g,
  k_addsub o est w a b = IllFormed /\ k_rem est a b = IllFormed /\ k_compare est w a b = IllFormed /\
  k_eqb est w a b = IllFormed /\ k_times_k est w g a b = IllFormed /\ k_over_k est w g a b = IllFormed /\
  k_to est (qk_type a) b = IllFormed.
Proof.
  intros a b N o est w g. destruct (different_kinds _ _ N) as [K R].
  unfold k_addsub, k_rem, k_compare, k_eqb, k_times_k, k_over_k, k_to.
  change (kt_kind (qk_type a)) with (qk_kind a). rewrite K, R. cbn. auto 10.
Qed.

(** ** Histories *)

Lemma q_act_num : forall est q a q', q_act est q a = Ok q' -> q' = Quantity (q_type q) (q_num q').
Proof. intros est q a q' H. unfold q_act in H. cbv zeta in H. step H as n En. inversion H; subst. reflexivity. Qed.

Lemma k_act_quantity : forall est g x a x', k_act est g x a = Ok x' ->
  qk_type x' = qk_type x /\ q_act est (common x) (kq_action a) = Ok (common x').
Proof.
  intros est g x a x' H. unfold k_act in H. cbv zeta in H. step H as q Eq. inversion H; subst x'. cbn [qk_type]. split; auto.
  assert (A : q_act est (common x) (kq_action a) = Ok q).
  { destruct a as [| |y|y|y|r v|r v|r v|y|y|y]; cbn [kq_action]; auto;
      try (apply constrained_iff in Eq; destruct Eq as [_ Eq]; exact Eq).
    - step Eq as y' Ey. apply k_to_iff in Ey. destruct Ey as (_ & T & Q). unfold q_to in Q. step Q as n En.
      assert (N : n = qk_num y') by (unfold common in Q; congruence). subst n.
      unfold q_act in *. cbv zeta in *. cbn [common q_type q_num] in *. rewrite T, q_convert_same in Eq. cbn [bind] in Eq.
      rewrite En. exact Eq.
    - step Eq as y' Ey. apply k_to_iff in Ey. destruct Ey as (_ & T & Q). unfold q_to in Q. step Q as n En.
      assert (N : n = qk_num y') by (unfold common in Q; congruence). subst n.
      unfold q_act in *. cbv zeta in *. cbn [common q_type q_num] in *. rewrite T, q_convert_same in Eq. cbn [bind] in Eq.
      rewrite En. exact Eq. }
  rewrite A. f_equal. apply q_act_num in A. exact A.
Qed.
Lemma k_run_quantity : forall est g l x x', k_run est g x l = Ok x' ->
  qk_type x' = qk_type x /\ q_run est (common x) (map kq_action l) = Ok (common x').
Proof.
  intros est g l. induction l as [|a l IH]; intros x x' H; simpl in H.
  - inversion H; subst. auto.
  - step H as y Ey. destruct (k_act_quantity _ _ _ _ _ Ey) as [T1 Q1]. destruct (IH _ _ H) as [T Q].
    split; [congruence|]. cbn [map q_run]. rewrite Q1. exact Q.
Qed.

(** ** Signed 64-bit kinds *)

Section Kinds.
Variables (est : estimate) (w : world) (C : consistent w).

Lemma valued_ksum : forall o a b x y s, sum_op o -> valued est (common a) x -> valued est (common b) y ->
  k_dim (qk_kind a) = k_dim (qk_kind b) -> k_addsub o est w a b = Ok s ->
  valued est (common s) (exact_sum o x y) /\ qk_kind s = qk_kind a.
Proof.
  intros o a b x y s O Va Vb D H. destruct (k_addsub_spec _ _ _ _ _ _ H) as (_ & K & q & Eq & _ & _ & E).
  destruct (valued_sum _ _ C _ _ _ _ _ _ O Va Vb D Eq) as [V Dq]. rewrite E; auto.
Qed.
Lemma valued_kcompare : forall a b x y c, valued est (common a) x -> valued est (common b) y ->
  compatible (kt_qtype (qk_type a)) (kt_qtype (qk_type b)) -> k_compare est w a b = Ok c -> c = Some (x ?= y)%Q.
Proof.
  intros a b x y c Va Vb Co H. apply k_compare_iff in H. destruct H as [_ H].
  exact (valued_compare est w C _ _ _ _ _ Va Vb Co H).
Qed.
Lemma valued_keqb : forall a b x y c, valued est (common a) x -> valued est (common b) y ->
  compatible (kt_qtype (qk_type a)) (kt_qtype (qk_type b)) -> k_eqb est w a b = Ok c -> (c = true <-> (x == y)%Q).
Proof.
  intros a b x y c Va Vb Co H. apply k_eqb_iff in H. destruct H as [_ H].
  exact (valued_eqb est w C _ _ _ _ _ Va Vb Co H).
Qed.
End Kinds.

(** ** Point kinds *)

Definition pkinds_consistent (g : pkinds) : Prop := forall key t, In (key, t) (guides g) -> key = (pk_base t, pk_origin t).
Lemma pdeclared_consistent : forall g, pkinds_declared g -> pkinds_consistent g.
Proof.
  intros g H. induction H as [|mode n k o g g' _ IH E]; intros key t I.
  - contradiction.
  - destruct (declare_guides _ _ _ _ _ _ _ _ E _ I) as [I'|I']; [|auto]. inversion I'; subst. reflexivity.
Qed.
Lemma downcast_point_kind_spec : forall g k o p, pkinds_declared g -> downcast_point_kind g k o = Ok p ->
  pk_base p = k /\ pk_origin p = o.
Proof.
  intros g k o p G H. unfold downcast_point_kind in H. cbv zeta in H. apply constrained_iff in H. destruct H as [_ H].
  inversion H. destruct (downcast pkind_key_eq_dec g (k, o)) as [t|] eqn:E; [|auto].
  apply downcast_in in E. apply (pdeclared_consistent _ G) in E. inversion E. auto.
Qed.
Lemma pk_deduced_spec : forall g k x, pkinds_declared g -> pk_deduced g k = Ok x ->
  pk_relative x = k /\ pk_origin (qpk_kind x) = ODynamic (k_dim (qk_kind k)).
Proof.
  intros g k x G H. unfold pk_deduced in H. step H as p Ep. inversion H; subst x.
  destruct (downcast_point_kind_spec _ _ _ _ G Ep) as [B O]. split; [|exact O].
  unfold pk_relative, pkt_ktype. cbn. rewrite B. unfold qk_kind. destruct k as [[kk u r] n]. reflexivity.
Qed.
Lemma pk_deduced_ok : forall g k, pkinds_declared g -> exists x, pk_deduced g k = Ok x.
Proof.
  intros g k G. unfold pk_deduced, downcast_point_kind. cbv zeta.
  assert (E : is_point_kind match downcast pkind_key_eq_dec g (qk_kind k, ODynamic (k_dim (qk_kind k))) with
              | Some t => t | None => PKind None (qk_kind k) (ODynamic (k_dim (qk_kind k))) end = true).
  { unfold is_point_kind. destruct (downcast pkind_key_eq_dec g (qk_kind k, ODynamic (k_dim (qk_kind k)))) as [t|] eqn:E.
    - apply downcast_in in E. apply (pdeclared_consistent _ G) in E. 
      assert (B : pk_base t = qk_kind k) by congruence. assert (O : pk_origin t = ODynamic (k_dim (qk_kind k))) by congruence.
      rewrite B, O. cbn [o_dim]. destruct (dimension_eq_dec (k_dim (qk_kind k)) (k_dim (qk_kind k))); congruence.
    - cbn. destruct (dimension_eq_dec (k_dim (qk_kind k)) (k_dim (qk_kind k))); congruence. }
  rewrite E. cbn. eauto.
Qed.

Lemma pkind_equivalent_iff : forall rb a b, pkind_equivalent rb a b = true <->
  one_kind_of (pk_base a) (pk_base b) /\ one_origin rb (pk_origin a) (pk_origin b).
Proof.
  intros rb a b. unfold pkind_equivalent. destruct (pkind_eq_dec a b) as [E|E].
  - subst. split; auto. intros _. split; [apply one_kind_refl|now left].
  - rewrite andb_true_iff, kind_equivalent_iff, origin_equivalent_iff. tauto.
Qed.
Lemma pk_diff_iff : forall rb est w a b k, pk_diff rb est w a b = Ok k <->
  one_origin rb (pk_origin (qpk_kind a)) (pk_origin (qpk_kind b)) /\ k_sub est w (pk_relative a) (pk_relative b) = Ok k.
Proof.
  intros. unfold pk_diff. rewrite constrained_iff, pkind_equivalent_iff. split.
  - intros [[K O] H]. split; [now apply one_origin_sym|exact H].
  - intros [O H]. split; [|exact H]. split; [|now apply one_origin_sym].
    unfold k_sub in H. destruct (k_addsub_spec _ _ _ _ _ _ H) as [K _]. now apply one_kind_sym.
Qed.
Lemma pk_compare_iff : forall rb est w a b c, pk_compare rb est w a b = Ok c <->
  one_origin rb (pk_origin (qpk_kind a)) (pk_origin (qpk_kind b)) /\ k_compare est w (pk_relative a) (pk_relative b) = Ok c.
Proof.
  intros. unfold pk_compare. rewrite constrained_iff, pkind_equivalent_iff. split.
  - intros [[K O] H]. split; [now apply one_origin_sym|exact H].
  - intros [O H]. split; [|exact H]. split; [|now apply one_origin_sym].
    apply k_compare_iff in H. destruct H as [K _]. now apply one_kind_sym.
Qed.
Lemma pk_eqb_iff : forall rb est w a b c, pk_eqb rb est w a b = Ok c <->
  one_origin rb (pk_origin (qpk_kind a)) (pk_origin (qpk_kind b)) /\ k_eqb est w (pk_relative a) (pk_relative b) = Ok c.
Proof.
  intros. unfold pk_eqb. rewrite constrained_iff, pkind_equivalent_iff. split.
  - intros [[K O] H]. split; [now apply one_origin_sym|exact H].
  - intros [O H]. split; [|exact H]. split; [|now apply one_origin_sym].
    apply k_eqb_iff in H. destruct H as [K _]. now apply one_kind_sym.
Qed.
Lemma pk_to_iff : forall rb est t x r, pk_to rb est t x = Ok r <->
  one_origin rb (pk_origin (qpk_kind x)) (pk_origin (pkt_kind t)) /\ qpk_type r = t /\
  k_to est (pkt_ktype t) (pk_relative x) = Ok (pk_relative r).
Proof.
  intros rb est t x r. unfold pk_to. rewrite constrained_iff, pkind_equivalent_iff. unfold pk_construct. split.
  - intros [[K O] H]. split; auto. step H as y Ey. inversion H; subst r. split; auto.
    pose proof Ey as E'. apply k_to_iff in E'. destruct E' as (_ & T & _). rewrite Ey. f_equal.
    unfold pk_relative. cbn [qpk_type qpk_num]. rewrite <- T. now destruct y.
  - intros (O & T & H). pose proof H as K. apply k_to_iff in K. destruct K as [K _]. split; [auto|].
    rewrite H. cbn. destruct r; cbn in *. now subst.
Qed.

Lemma pk_addsub_spec : forall o est w g x k s, pkinds_declared g -> pk_addsub o est w g x k = Ok s ->
  k_addsub o est w (pk_relative x) k = Ok (pk_relative s) /\
  pk_base (qpk_kind s) = pk_base (qpk_kind x) /\ pk_origin (qpk_kind s) = ODynamic (k_dim (pk_base (qpk_kind x))).
Proof.
  intros o est w g x k s G H. unfold pk_addsub in H. step H as q Eq. destruct (pk_deduced_spec _ _ _ G H) as [R O].
  destruct (k_addsub_spec _ _ _ _ _ _ Eq) as (_ & K & _). rewrite R. split; auto.
  change (pk_base (qpk_kind x)) with (qk_kind (pk_relative x)). rewrite K in O. split; auto.
  change (pk_base (qpk_kind s)) with (qk_kind (pk_relative s)). congruence.
Qed.

Section PointKinds.
Variables (rb : rebinding) (est : estimate) (w : world) (g : pkinds).
Hypothesis (C : consistent w) (G : pkinds_declared g).

Lemma pk_located_sum : forall o x k u v s, sum_op o -> pk_located est x u -> valued est (common k) v ->
  k_dim (qk_kind k) = k_dim (pk_base (qpk_kind x)) -> pk_addsub o est w g x k = Ok s ->
  pk_located est s (exact_sum o u v) /\ pk_base (qpk_kind s) = pk_base (qpk_kind x) /\
  pk_origin (qpk_kind s) = ODynamic (k_dim (pk_base (qpk_kind x))).
Proof.
  intros o x k u v s O L V D H. destruct (pk_addsub_spec _ _ _ _ _ _ _ G H) as (E & B & Or). split; auto.
  exact (proj1 (valued_ksum _ _ C _ _ _ _ _ _ O L V (eq_sym D) E)).
Qed.
Lemma pk_located_diff : forall a b u v k, pk_located est a u -> pk_located est b v ->
  k_dim (pk_base (qpk_kind a)) = k_dim (pk_base (qpk_kind b)) -> pk_diff rb est w a b = Ok k ->
  valued est (common k) (u - v) /\ qk_kind k = pk_base (qpk_kind a).
Proof.
  intros a b u v k La Lb D H. apply pk_diff_iff in H. destruct H as [_ H]. unfold k_sub in H.
  exact (valued_ksum _ _ C OpSub _ _ _ _ _ (or_intror eq_refl) La Lb D H).
Qed.

Lemma pk_sum_minus_point : forall x k u v s d e, pk_located est x u -> valued est (common k) v ->
  k_dim (qk_kind k) = k_dim (pk_base (qpk_kind x)) ->
  pk_add est w g x k = Ok s -> pk_diff rb est w s x = Ok d -> k_eqb est w d k = Ok e -> e = true.
Proof.
  intros x k u v s d e L V D Hs Hd He. unfold pk_add in Hs.
  destruct (pk_located_sum _ _ _ _ _ _ (or_introl eq_refl) L V D Hs) as (Ls & B & _). cbn [exact_sum] in Ls.
  assert (D' : k_dim (pk_base (qpk_kind s)) = k_dim (pk_base (qpk_kind x))) by congruence.
  destruct (pk_located_diff _ _ _ _ _ Ls L D' Hd) as [Vd Kd].
  apply k_eqb_iff in He. destruct He as [_ He]. eapply valued_equal; [exact C| |exact V| |exact He].
  - eapply valued_ext; [|exact Vd]. ring.
  - cbn. change (kt_kind (qk_type d)) with (qk_kind d). rewrite Kd. unfold qk_kind in *. congruence.
Qed.
Lemma pk_point_plus_difference : forall x y u v d r e, pk_located est x u -> pk_located est y v ->
  k_dim (pk_base (qpk_kind x)) = k_dim (pk_base (qpk_kind y)) ->
  pk_diff rb est w y x = Ok d -> pk_add est w g x d = Ok r -> pk_eqb rb est w r y = Ok e -> e = true.
Proof.
  intros x y u v d r e Lx Ly D Hd Hr He. unfold pk_add in Hr.
  destruct (pk_located_diff _ _ _ _ _ Ly Lx (eq_sym D) Hd) as [Vd Kd].
  assert (D' : k_dim (qk_kind d) = k_dim (pk_base (qpk_kind x))) by congruence.
  destruct (pk_located_sum _ _ _ _ _ _ (or_introl eq_refl) Lx Vd D' Hr) as (Lr & Br & _). cbn [exact_sum] in Lr.
  apply pk_eqb_iff in He. destruct He as [_ He]. apply k_eqb_iff in He. destruct He as [_ He].
  eapply valued_equal; [exact C| |exact Ly| |exact He].
  - eapply valued_ext; [|exact Lr]. ring.
  - cbn. change (pk_base (pkt_kind (qpk_type r))) with (pk_base (qpk_kind r)).
    change (pk_base (pkt_kind (qpk_type y))) with (pk_base (qpk_kind y)). congruence.
Qed.
Lemma pk_associative : forall p a b u v z s1 s2 ab s3 e, pk_located est p u -> valued est (common a) v -> valued est (common b) z ->
  k_dim (qk_kind a) = k_dim (pk_base (qpk_kind p)) -> k_dim (qk_kind b) = k_dim (pk_base (qpk_kind p)) ->
  pk_add est w g p a = Ok s1 -> pk_add est w g s1 b = Ok s2 ->
  k_add est w a b = Ok ab -> pk_add est w g p ab = Ok s3 -> pk_eqb rb est w s2 s3 = Ok e -> e = true.
Proof.
  intros p a b u v z s1 s2 ab s3 e L Va Vb Da Db H1 H2 Hab H3 He. unfold pk_add, k_add in *.
  assert (O : sum_op OpAdd) by now left.
  destruct (pk_located_sum _ _ _ _ _ _ O L Va Da H1) as (L1 & B1 & _).
  assert (D1 : k_dim (qk_kind b) = k_dim (pk_base (qpk_kind s1))) by congruence.
  destruct (pk_located_sum _ _ _ _ _ _ O L1 Vb D1 H2) as (L2 & B2 & _).
  destruct (valued_ksum _ _ C _ _ _ _ _ _ O Va Vb (eq_trans Da (eq_sym Db)) Hab) as [Vab Kab].
  assert (D3 : k_dim (qk_kind ab) = k_dim (pk_base (qpk_kind p))) by congruence.
  destruct (pk_located_sum _ _ _ _ _ _ O L Vab D3 H3) as (L3 & B3 & _). cbn [exact_sum] in *.
  apply pk_eqb_iff in He. destruct He as [_ He]. apply k_eqb_iff in He. destruct He as [_ He].
  eapply valued_equal; [exact C| |exact L3| |exact He].
  - eapply valued_ext; [|exact L2]. ring.
  - cbn. change (pk_base (pkt_kind (qpk_type s2))) with (pk_base (qpk_kind s2)).
    change (pk_base (pkt_kind (qpk_type s3))) with (pk_base (qpk_kind s3)). congruence.
Qed.
End PointKinds.

(** ** Member operators of point kinds *)

Lemma pk_act_kind : forall est g x a x', pk_act est g x a = Ok x' ->
  qpk_type x' = qpk_type x /\ k_act est g (pk_relative x) (pk_action a) = Ok (pk_relative x').
Proof.
  intros est g x a x' H. unfold pk_act in H. step H as s Es. inversion H; subst x'. split; auto. rewrite Es. f_equal.
  destruct (k_act_quantity _ _ _ _ _ Es) as [T _]. unfold pk_relative in *. cbn in *. rewrite <- T. now destruct s.
Qed.
Lemma pk_run_kind : forall est g l x x', pk_run est g x l = Ok x' ->
  qpk_type x' = qpk_type x /\ k_run est g (pk_relative x) (map pk_action l) = Ok (pk_relative x').
Proof.
  intros est g l. induction l as [|a l IH]; intros x x' H; simpl in H.
  - inversion H; subst. auto.
  - step H as y Ey. destruct (pk_act_kind _ _ _ _ _ Ey) as [T1 Q1]. destruct (IH _ _ H) as [T Q].
    split; [congruence|]. cbn [map k_run]. rewrite Q1. exact Q.
Qed.

(** ** A named origin is lost *)

Lemma named_origin_lost : forall o rb est w g x k n d s, pkinds_declared g -> pk_origin (qpk_kind x) = OUser n d ->
  pk_addsub o est w g x k = Ok s ->
  pk_diff rb est w s x = IllFormed /\ pk_compare rb est w s x = IllFormed /\ pk_eqb rb est w s x = IllFormed /\
  pk_to rb est (qpk_type x) s = IllFormed.
Proof.
  intros o rb est w g x k n d s G O H. destruct (pk_addsub_spec _ _ _ _ _ _ _ G H) as (_ & _ & Os).
  assert (N : ~ one_origin rb (pk_origin (qpk_kind x)) (pk_origin (qpk_kind s))).
  { rewrite O, Os. intros X. apply one_origin_sym in X. exact (user_not_dynamic _ _ _ _ X). }
  assert (E : pkind_equivalent rb (qpk_kind x) (qpk_kind s) = false).
  { destruct (pkind_equivalent rb (qpk_kind x) (qpk_kind s)) eqn:E; auto. apply pkind_equivalent_iff in E. tauto. }
  assert (E' : pkind_equivalent rb (qpk_kind s) (qpk_kind x) = false).
  { destruct (pkind_equivalent rb (qpk_kind s) (qpk_kind x)) eqn:E2; auto. apply pkind_equivalent_iff in E2.
    exfalso. apply N. apply one_origin_sym. tauto. }
  unfold pk_diff, pk_compare, pk_eqb, pk_to. change (pkt_kind (qpk_type x)) with (qpk_kind x). rewrite E, E'. auto.
Qed.
Lemma k_plus_pk_spec : forall est w g k x s, pkinds_declared g -> k_plus_pk est w g k x = Ok s ->
  k_add est w k (pk_relative x) = Ok (pk_relative s) /\
  pk_base (qpk_kind s) = qk_kind k /\ pk_origin (qpk_kind s) = ODynamic (k_dim (qk_kind k)).
Proof.
  intros est w g k x s G H. unfold k_plus_pk in H. step H as q Eq. destruct (pk_deduced_spec _ _ _ G H) as [R O].
  unfold k_add in Eq. destruct (k_addsub_spec _ _ _ _ _ _ Eq) as (_ & K & _). rewrite K in O. unfold k_add. rewrite R.
  split; auto. split; auto. change (pk_base (qpk_kind s)) with (qk_kind (pk_relative s)). congruence.
Qed.

(** ** Casts of kinds *)

Lemma kind_cast_to_spec : forall est t x r, kind_cast_to est t x = Ok r ->
  qk_type r = t /\ quantity_cast est (kt_qtype (qk_type x)) (kt_qtype t) (qk_num x) = Ok (qk_num r).
Proof. intros est t x r H. unfold kind_cast_to in H. step H as n En. inversion H; subst. auto. Qed.
Lemma kind_cast_kind_spec : forall est k x r, kind_cast_kind est k x = Ok r ->
  qk_kind r = k /\ q_to est (QType (k_dim k) (kt_unit (qk_type x)) (kt_rep (qk_type x))) (common x) = Ok (common r).
Proof.
  intros est k x r H. unfold kind_cast_kind in H. step H as t Et. unfold mk_ktype in Et. step Et as y Ey. inversion Et; subst t.
  unfold k_construct in H. step H as n En. inversion H; subst r. split; auto. unfold q_to.
  change (kt_qtype (KType k (kt_unit (qk_type x)) (kt_rep (qk_type x)))) with
    (QType (k_dim k) (kt_unit (qk_type x)) (kt_rep (qk_type x))) in En. rewrite En. reflexivity.
Qed.
Lemma kind_cast_unit_spec : forall est w c x r, (forall t, c <> ToQuantity t) -> (forall d, c <> ToDim d) ->
  kind_cast est w (KTo c) x = Ok r -> qk_kind r = qk_kind x /\ q_cast est w c (common x) = Ok (common r).
Proof.
  intros est w c x r N1 N2 H. cbn [kind_cast] in H. step H as q Eq. destruct (k_make_spec _ _ _ _ H) as (K & _ & _ & X).
  split; auto. rewrite Eq. f_equal. symmetry. apply X. destruct c as [t|d|u|r']; [now destruct (N1 t)|now destruct (N2 d)| |];
    cbn [q_cast] in Eq; step Eq as y Ey; inversion Eq; subst q; cbn [q_type].
  - unfold quantity_cast_unit in Ey. step Ey as t Et. step Ey as n En. inversion Ey; subst y. cbn [fst].
    unfold mk_qtype in Et. apply constrained_iff in Et. destruct Et as [_ Et]. inversion Et. reflexivity.
  - unfold quantity_cast_rep in Ey. cbv zeta in Ey. step Ey as n En. inversion Ey; subst y. reflexivity.
Qed.
