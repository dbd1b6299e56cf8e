(** Proofs: the library's run follows the ideal program. *)

From Coq Require Import ZArith QArith List Bool Lia Lqa.
From Verif Require Import Outcome CInt RatioMaths Root Ratio SpecRatio Unit Downcast Dim DimOp Equivalent SpecDim SpecUnit Rep Reference QuantityCast
  CommonQuantity Quantity SpecQuantity DimOpProofs DimOpProofs3 EquivProofs MagnitudeProofs QuantityProofs2 QuantityProofs4 QuantityProofs5 Point SpecPoint
  PointProofs Expr SpecExpr ExprProofs ExprProofs2 Affine SpecAffine AffineProofs Static SpecStatic StaticProofs Program SpecProgram SpecIdeal.
Import ListNotations.
Local Open Scope Z_scope.
Local Open Scope res_scope.

Section Follow.
Variable U : bdim -> Prop.
Variable w : world.
Hypothesis HU : symbols_identify U.
Hypothesis G : good_system U w.
Variable rb : rebinding.
Variable est : estimate.
Variable at_ : frame.
Let P := in_system U w.

(** ** Stores *)

Definition dims_in (m : store) : Prop := Forall (fun v => P (dim_of v)) m.

Lemma represents_at : forall m vs x v, represents est at_ m vs -> nth_error m x = Some v -> exists u, nth_error vs x = Some u /\ at_value est at_ v u.
Proof.
  intros m vs x v R. revert x. induction R as [|v0 u0 m vs V R IH]; intros x E; destruct x as [|x]; cbn in *; try discriminate.
  - inversion E. subst v0. eauto.
  - now apply IH.
Qed.
Lemma represents_set : forall m vs x v u, represents est at_ m vs -> at_value est at_ v u -> represents est at_ (update m x v) (set_value vs x u).
Proof.
  intros m vs x v u R. revert x. induction R as [|v0 u0 m vs V R IH]; intros x E; destruct x as [|x]; cbn; constructor; auto. now apply IH.
Qed.
Lemma dims_at : forall m x v, dims_in m -> nth_error m x = Some v -> P (dim_of v).
Proof. intros m x v D E. apply nth_error_In in E. unfold dims_in in D. rewrite Forall_forall in D. exact (D v E). Qed.
Lemma dims_update : forall m x v, dims_in m -> P (dim_of v) -> dims_in (update m x v).
Proof. intros m x v D. revert x. induction D as [|v0 m V D IH]; intros x E; destruct x as [|x]; cbn; constructor; auto. now apply IH. Qed.

(** ** Expressions *)

Lemma object_stands : forall c v, at_value est at_ c v -> exists v', stands_for rb est w at_ (object c) v' /\ (v' == v)%Q.
Proof.
  intros [q|p] v H; cbn in H |- *.
  - exists v. split; [now constructor|reflexivity].
  - destruct H as (x & V & E). exists (at_ (p_origin (pt_type p)) + x)%Q. split; [exact (sf_point rb est w at_ p x V)|exact E].
Qed.
Lemma object_dims : forall c, P (dim_of c) -> aall_dims P (object c).
Proof. intros [q|p] H; exact H. Qed.
Lemma signed_value : forall c, signed64 est c -> exists v, at_value est at_ c v.
Proof. intros [q|p] (x & V); cbn; [now exists x|]. exists (at_ (p_origin (pt_type p)) + x)%Q, x. split; [exact V|reflexivity]. Qed.
Theorem close_stands : forall m vs e a r, represents est at_ m vs -> dims_in m -> simple P est e -> close m e = Some a -> even rb est w a ->
  aeval rb est w a = Ok r -> aall_dims P a /\ exists v, stands_for rb est w at_ a v /\ ideal_expr est at_ vs e v.
Proof.
  intros m vs e. induction e as [x|c|o a IH|o a IHa b IHb|t a IH|c a IH|t a IH|a IH|t a IH]; intros a' r R D S C E H; cbn [close simple] in *; try contradiction.
  - destruct (nth_error m x) as [c|] eqn:X; [|discriminate]. cbn in C. inversion C. subst a'. destruct (represents_at m vs x c R X) as (u & Xu & V).
    split; [apply object_dims; exact (dims_at m x c D X)|]. destruct (object_stands c u V) as (v & Sv & Ev). exists v. split; [exact Sv|].
    eapply id_var; [exact Xu|]. now symmetry.
  - inversion C. subst a'. destruct S as [S Sd]. destruct (signed_value c S) as (u & V). split; [now apply object_dims|].
    destruct (object_stands c u V) as (v & Sv & Ev). exists v. split; [exact Sv|]. apply id_const. eapply at_ext; [|exact V]. now symmetry.
  - destruct (close m a) as [a0|] eqn:Ca; [|discriminate]. cbn in C. inversion C. subst a'. cbn [even] in E. destruct E as [E Eo].
    cbn [aeval] in H. step H as y Y. step H as q Q. step H as s S0.
    assert (Sa : simple P est a) by (destruct o as [| | | | | | | |]; tauto).
    destruct (IH a0 y R D Sa eq_refl E Y) as [A (v & St & Id)].
    destruct (aeval_exact U w HU G rb est at_ a0 v St A y Y) as [_ V].
    assert (N : exists n, anumber rb est w a0 n).
    { destruct y as [y|y]; [|discriminate]. inversion Q. subst y. destruct V as (n & mm & (_ & N & _) & _). exists n, q. now split. }
    destruct N as [n N].
    destruct o as [| |k z|k z|k z|k z|k z|t|c]; try contradiction.
    + split; [now split|]. exists v. split; now constructor.
    + split; [now split|]. exists (- v)%Q. split; now constructor.
    + destruct S as [(i & z' & -> & -> & Rz & Ni) _]. split; [now split|]. eexists. split; [exact (sf_mulv rb est w at_ a0 i z' v St Rz Ni)|now constructor].
    + destruct S as [(i & z' & -> & -> & Rz & Ni) _]. split; [now split|]. eexists. split; [exact (sf_vmul rb est w at_ a0 i z' v St Rz Ni)|now constructor].
    + destruct S as [(i & z' & -> & -> & Rz & Ni) _]. split; [now split|]. eexists.
      split; [apply (sf_divv rb est w at_ a0 i z' v n); auto; now apply Eo|now constructor].
    + destruct S as [(Rt & Dt & St') _]. split; [now split|]. exists v. split; [now apply sf_conv|now constructor].
  - destruct (close m a) as [a0|] eqn:Ca; [|discriminate]. destruct (close m b) as [b0|] eqn:Cb; [|discriminate]. inversion C. subst a'.
    cbn [even] in E. destruct E as (Ea & Eb & Eo). cbn [aeval] in H. step H as p Y. step H as q Z.
    assert (Sa : simple P est a /\ simple P est b) by (destruct o; try contradiction; exact S). destruct Sa as [Sa Sb].
    destruct (IHa a0 p R D Sa eq_refl Ea Y) as [A (x & Sx & Ix)]. destruct (IHb b0 q R D Sb eq_refl Eb Z) as [B (y & Sy & Iy)].
    split; [now split|].
    destruct o; try contradiction.
    + eexists. split; [exact (sf_add rb est w at_ a0 b0 x y Sx Sy)|now constructor].
    + eexists. split; [exact (sf_sub rb est w at_ a0 b0 x y Sx Sy)|now constructor].
    + eexists. split; [exact (sf_mul rb est w at_ a0 b0 x y Sx Sy)|now constructor].
    + destruct (aeval_exact U w HU G rb est at_ a0 x Sx A p Y) as [_ Vp]. destruct (aeval_exact U w HU G rb est at_ b0 y Sy B q Z) as [_ Vq].
      cbn [binary_value] in H. destruct p as [p|p], q as [q|q]; try discriminate. cbn in Vp, Vq.
      destruct Vp as (n & mp & (_ & Np & _) & _), Vq as (k & mq & (_ & Nq & _) & _).
      assert (Na : anumber rb est w a0 n) by (exists p; now split). assert (Nb : anumber rb est w b0 k) by (exists q; now split).
      eexists. split; [eapply (sf_div rb est w at_ a0 b0 x y n k); auto|now constructor].
  - destruct (close m a) as [a0|] eqn:Ca; [|discriminate]. cbn in C. inversion C. subst a'. cbn [even] in E.
    cbn [aeval] in H. step H as y Y. destruct S as [(Rt & Dt & St') Sa]. destruct (IH a0 y R D Sa eq_refl E Y) as [A (v & St & Id)].
    split; [now split|]. exists v. split; [now apply sf_move|now constructor].
Qed.

Theorem peval_follows : forall m vs e r, represents est at_ m vs -> dims_in m -> simple P est e -> even_at rb est w m e ->
  peval rb est w m e = Ok r -> exists v, ideal_expr est at_ vs e v /\ at_value est at_ r v /\ P (dim_of r).
Proof.
  intros m vs e r R D S E H. unfold peval in H. destruct (close m e) as [a|] eqn:C; [|discriminate].
  destruct (close_stands m vs e a r R D S C (E a C) H) as [A (v & St & Id)]. exists v. split; [exact Id|].
  destruct (aeval_exact U w HU G rb est at_ a v St A r H) as [Dr V]. split; [exact V|]. destruct r; exact Dr.
Qed.

(** ** Conditions *)

Lemma compare_follows : forall x y u v, P (dim_of x) -> P (dim_of y) -> at_value est at_ x u -> at_value est at_ y v ->
  (forall c, v_compare rb est w x y = Ok c -> c = Some (u ?= v)%Q) /\ (forall b, v_eqb rb est w x y = Ok b -> (b = true <-> (u == v)%Q)).
Proof.
  intros x y u v Dx Dy X Y. pose proof (proj1 G) as C. destruct x as [a|a], y as [b|b]; cbn [v_compare v_eqb]; try (split; intros ? H0; discriminate H0); cbn in X, Y, Dx, Dy.
  - assert (K : forall p, q_common est w a b = Ok p -> compatible (q_type a) (q_type b)).
    { intros p H. unfold q_common in H. apply compatible_same. destruct (qtype_eq_dec (q_type a) (q_type b)) as [E|E]; [now rewrite E|].
      step H as t T. unfold common_quantity in T. step T as c1 C1. apply constrained_ok, equivalent_exps in C1.
      symmetry. now apply (same_dimension U w HU). }
    split.
    + intros c H. pose proof H as H'. unfold q_compare in H'. step H' as p Pp. exact (valued_compare est w C a b u v c X Y (K p Pp) H).
    + intros c H. pose proof H as H'. unfold q_eqb in H'. step H' as p Pp. exact (valued_eqb est w C a b u v c X Y (K p Pp) H).
  - destruct X as (x & X & E1), Y as (y & Y & E2). split.
    + intros c H. pose proof H as H'. apply compare_iff in H'. destruct H' as [O _]. pose proof (origin_same U w HU rb _ _ Dx Dy O) as Oe.
      assert (Co : compatible (p_qtype (pt_type a)) (p_qtype (pt_type b))) by (apply compatible_same; cbn; now rewrite Oe).
      rewrite (located_compare rb est w C _ _ _ _ _ X Y Co H). f_equal. rewrite Oe in E1.
      destruct (Qcompare_spec x y) as [E|E|E]; symmetry; [apply (proj1 (Qeq_alt _ _))|apply (proj1 (Qlt_alt _ _))|apply (proj1 (Qgt_alt _ _))]; lra.
    + intros c H. pose proof H as H'. apply eqb_iff in H'. destruct H' as [O _]. pose proof (origin_same U w HU rb _ _ Dx Dy O) as Oe.
      assert (Co : compatible (p_qtype (pt_type a)) (p_qtype (pt_type b))) by (apply compatible_same; cbn; now rewrite Oe).
      rewrite (located_eqb rb est w C _ _ _ _ _ X Y Co H). rewrite Oe in E1. split; intros K; lra.
Qed.
Lemma relation_follows : forall o x y u v b, P (dim_of x) -> P (dim_of y) -> at_value est at_ x u -> at_value est at_ y v ->
  relation rb est w o x y = Ok b -> b = ideal_relation o u v.
Proof.
  intros o x y u v b Dx Dy X Y H. destruct (compare_follows x y u v Dx Dy X Y) as [C E]. unfold ideal_relation.
  destruct o; cbn [relation] in H.
  - step H as c Hc. rewrite (C c Hc) in H. inversion H. now destruct (u ?= v)%Q.
  - step H as c Hc. rewrite (C c Hc) in H. inversion H. now destruct (u ?= v)%Q.
  - step H as c Hc. rewrite (C c Hc) in H. inversion H. now destruct (u ?= v)%Q.
  - step H as c Hc. rewrite (C c Hc) in H. inversion H. now destruct (u ?= v)%Q.
  - pose proof (E b H) as B. destruct b.
    + apply proj1 in B. specialize (B eq_refl). apply (proj1 (Qeq_alt _ _)) in B. now rewrite B.
    + destruct (Qcompare_spec u v) as [K|K|K]; auto. now apply B in K.
  - step H as c Hc. inversion H. subst b. pose proof (E c Hc) as B. destruct c; cbn.
    + apply proj1 in B. specialize (B eq_refl). apply (proj1 (Qeq_alt _ _)) in B. now rewrite B.
    + destruct (Qcompare_spec u v) as [K|K|K]; auto. now apply B in K.
Qed.
Lemma holds_follows : forall m vs c b, represents est at_ m vs -> dims_in m -> simple_cond P est c -> even_cond rb est w m c ->
  holds rb est w m c = Ok b -> ideal_cond est at_ vs c b.
Proof.
  intros m vs c. induction c as [o e1 e2|c IH|c IHc d IHd|c IHc d IHd]; intros b R D S E H; cbn [holds simple_cond even_cond] in *.
  - destruct S as [S1 S2], E as [E1 E2]. step H as x X. step H as y Y. destruct (peval_follows m vs e1 x R D S1 E1 X) as (u & I1 & V1 & D1).
    destruct (peval_follows m vs e2 y R D S2 E2 Y) as (v & I2 & V2 & D2). rewrite (relation_follows o x y u v b D1 D2 V1 V2 H). now constructor.
  - step H as t T. inversion H. constructor. now apply IH.
  - destruct S as [S1 S2], E as [E1 E2]. step H as t T. destruct t.
    + apply ic_and_true; [now apply IHc|]. apply IHd; auto.
    + inversion H. apply ic_and_false. now apply IHc.
  - destruct S as [S1 S2], E as [E1 E2]. step H as t T. destruct t.
    + inversion H. apply ic_or_true. now apply IHc.
    + apply ic_or_false; [now apply IHc|]. apply IHd; auto.
Qed.

(** ** Changes *)

Lemma assigned_follows : forall old new v r, at_value est at_ old v -> P (dim_of old) -> forall u, at_value est at_ new u -> P (dim_of new) ->
  assigned rb est old new = Ok r -> at_value est at_ r u /\ dim_of r = dim_of old.
Proof.
  intros old new v r O Do u N Dn H. destruct old as [a|a], new as [b|b]; cbn [assigned] in H; try discriminate; step H as q Q; inversion H; subst r; cbn in *.
  - destruct O as (n & mm & (Ra & _) & Sa & _).
    assert (M : means est w (EConv (q_type a) (ELit b)) u) by (apply mn_conv; [now constructor|exact Ra|now exists mm]).
    destruct (one_node U w HU G est _ _ q M (conj Do Dn) Q) as [_ V]. split; [exact V|]. unfold q_to in Q. step Q as z Z. now inversion Q.
  - destruct O as (x & (n & mm & (Ra & _) & Sa & _) & _). destruct N as (y & Vy & Ey). apply to_iff in Q. destruct Q as (Oo & Tq & Q).
    pose proof (origin_same U w HU rb _ _ Dn Do Oo) as Oe.
    assert (M : means est w (EConv (p_qtype (pt_type a)) (ELit (relative b))) y) by (apply mn_conv; [now constructor|exact Ra|now exists mm]).
    destruct (one_node U w HU G est _ _ _ M (conj Do Dn) Q) as [_ V]. split; [|now rewrite Tq]. exists y. split; [exact V|]. now rewrite Tq, <- Oe.
Qed.

Lemma conv64 : forall i z, in_range i z = true -> i <> U64 -> wrap I64 z = z /\ arith_conv I64 i = I64.
Proof.
  intros i z R N. split; [|destruct i as [[] []]; try reflexivity; now destruct N]. apply wrap_id. apply in_range_spec in R. apply in_range_spec.
  assert (imin I64 <= imin i /\ imax i <= imax I64); [|lia].
  destruct i as [[] []]; try (now destruct N); vm_compute; split; discriminate.
Qed.

(** One change of a quantity. *)
Lemma act_follows : forall q a x r, P (q_dim (q_type q)) -> valued est q x -> q_act est q a = Ok r ->
  match a with
  | AAdd b => forall y, P (q_dim (q_type b)) -> valued est b y -> valued est r (x + y)
  | ASub b => forall y, P (q_dim (q_type b)) -> valued est b y -> valued est r (x - y)
  | AMulV k v => forall i z, k = RInt i -> v = NInt z -> in_range i z = true -> i <> U64 -> valued est r (x * inject_Z z)
  | ADivV k v => forall i z, k = RInt i -> v = NInt z -> in_range i z = true -> i <> U64 -> (forall n, q_num q = NInt n -> (z | n)) -> valued est r (x / inject_Z z)
  | _ => True
  end /\ q_type r = q_type q.
Proof.
  intros q a x r D (n & mm & I & S & X) H. pose proof I as (Rq & Nq & Rn). unfold q_act in H. cbv zeta in H. step H as k K. inversion H. subst r. clear H.
  split; [|reflexivity]. rewrite Rq, Nq in K.
  assert (Cv : forall b y, P (q_dim (q_type b)) -> valued est b y -> forall t, q_convert est (q_type b) (q_type q) (q_num b) = Ok t ->
    exists z, t = NInt z /\ in_range I64 z = true /\ (y == inject_Z z * mm)%Q).
  { intros b y Db Vb t T. assert (M : means est w (EConv (q_type q) (ELit b)) y) by (apply mn_conv; [now constructor|exact Rq|now exists mm]).
    assert (Q : q_to est (q_type q) b = Ok (Quantity (q_type q) t)) by (unfold q_to; now rewrite T).
    destruct (one_node U w HU G est _ _ _ M (conj D Db) Q) as [_ (z & m2 & (_ & Nz & Rz) & (_ & _ & _ & M2) & E)]. cbn in Nz, M2.
    exists z. split; [exact Nz|]. split; [exact Rz|]. destruct S as (_ & _ & _ & M1). now rewrite E, (magnitude_unique _ _ _ _ M1 M2). }
  assert (Op : forall o u z, in_range I64 u = true -> n_assign o (RInt I64) (RInt I64) (NInt n) (NInt u) = Ok z -> exists t, int_op o I64 n u = Ok t /\ z = NInt t).
  { intros o u z Ru Hz. unfold n_assign, n_op in Hz. cbv zeta in Hz. cbn [arith_rep] in Hz. change (arith_conv I64 I64) with I64 in Hz.
    cbn [n_convert bind] in Hz. rewrite !wrap_id in Hz by assumption. cbn [op_in] in Hz. step Hz as z1 Z1. step Z1 as z2 Z2. inversion Z1. subst z1.
    cbn [n_convert] in Hz. inversion Hz. exists z2. split; [exact Z2|]. f_equal. apply wrap_id.
    apply (CustomProofs.int_op_ok o I64 n u z2 Rn Ru Z2). }
  assert (Op2 : forall o i u z, in_range i u = true -> i <> U64 -> n_assign o (RInt I64) (RInt i) (NInt n) (NInt u) = Ok z ->
    exists t, int_op o I64 n u = Ok t /\ z = NInt t).
  { intros o i u z Ru Ni Hz. destruct (conv64 i u Ru Ni) as [Wu Ac]. apply (Op o u z).
    - rewrite <- Wu. apply wrap_in_range.
    - unfold n_assign, n_op in *. cbv zeta in *. cbn [arith_rep] in *. rewrite Ac in Hz. exact Hz. }
  assert (Fin : forall t v, in_range I64 t = true -> (v == inject_Z t * mm)%Q -> valued est (Quantity (q_type q) (NInt t)) v).
  { intros t v Rt E. exists t, mm. split; [split; [exact Rq|split; [reflexivity|exact Rt]]|]. split; [exact S|exact E]. }
  destruct a as [| |b|b|b|r v|r v|r v]; try exact Logic.I.
  - intros y Db Vb. step K as t T. destruct (Cv b y Db Vb t T) as (z & -> & Rz & E). destruct (Op OpAdd z k Rz K) as (s & Hs & ->).
    cbn [int_op] in Hs. apply cadd_ok in Hs as [-> Rs]. apply Fin; [exact Rs|]. rewrite X, E, inject_Z_plus. ring.
  - intros y Db Vb. step K as t T. destruct (Cv b y Db Vb t T) as (z & -> & Rz & E). destruct (Op OpSub z k Rz K) as (s & Hs & ->).
    cbn [int_op] in Hs. apply csub_ok in Hs as [-> Rs]. apply Fin; [exact Rs|]. rewrite X, E. unfold Z.sub. rewrite inject_Z_plus, inject_Z_opp. ring.
  - intros i z -> -> Rz Ni. destruct (Op2 OpMul i z k Rz Ni K) as (s & Hs & ->). cbn [int_op] in Hs. apply cmul_ok in Hs as [-> Rs].
    apply Fin; [exact Rs|]. rewrite X, inject_Z_mult. ring.
  - intros i z -> -> Rz Ni Dv. specialize (Dv n Nq). destruct (Op2 OpDiv i z k Rz Ni K) as (s & Hs & ->). cbn [int_op] in Hs. unfold cdiv in Hs.
    destruct (z =? 0) eqn:Z0; [discriminate|]. apply Z.eqb_neq in Z0. apply arith_ok_signed in Hs as [-> Rs]; [|reflexivity]. apply Fin; [exact Rs|].
    destruct Dv as [c ->]. rewrite Z.quot_mul by exact Z0. rewrite X, inject_Z_mult. field. intros Q0. apply Z0. apply inject_Z_injective. exact Q0.
Qed.

Lemma change_follows : forall m vs x old u h a r, represents est at_ m vs -> dims_in m -> nth_error m x = Some old -> at_value est at_ old u ->
  simple_change P est h -> even_change rb est w m x h -> action_of rb est w m h = Ok a -> changed est old a = Ok r ->
  exists v, ideal_change est at_ vs u h v /\ at_value est at_ r v /\ dim_of r = dim_of old.
Proof.
  intros m vs x old u h a r R D X V S E A H. pose proof (dims_at m x old D X) as Do.
  assert (Sub : forall e (f : quantity -> action), simple P est e -> even_at rb est w m e -> (y <- peval rb est w m e; q <- want_quantity y; Ok (f q)) = Ok a ->
    exists q y, a = f q /\ ideal_expr est at_ vs e y /\ valued est q y /\ P (q_dim (q_type q))).
  { intros e f Se Ee He. step He as y Y. step He as q Q. inversion He. destruct y as [y|]; [|discriminate]. inversion Q. subst y.
    destruct (peval_follows m vs e _ R D Se Ee Y) as (v & I & V' & D'). exists q, v. split; [reflexivity|]. split; [exact I|]. split; [exact V'|exact D']. }
  destruct old as [q|p]; cbn [changed at_value dim_of] in *.
  - step H as s Hs. inversion H. subst r. clear H. cbn [at_value dim_of]. destruct h as [| |e|e|e|k z|k z|k z]; try contradiction; cbn [action_of simple_change even_change] in *.
    + destruct (Sub e AAdd S E A) as (b & y & -> & I & Vb & Db). destruct (act_follows q _ u s Do V Hs) as [K T].
      exists (u + y)%Q. split; [now constructor|]. split; [now apply K|now rewrite T].
    + destruct (Sub e ASub S E A) as (b & y & -> & I & Vb & Db). destruct (act_follows q _ u s Do V Hs) as [K T].
      exists (u - y)%Q. split; [now constructor|]. split; [now apply K|now rewrite T].
    + inversion A. subst a. destruct S as (i & z' & -> & -> & Rz & Ni). destruct (act_follows q _ u s Do V Hs) as [K T].
      exists (u * inject_Z z')%Q. split; [constructor|]. split; [now apply (K i)|now rewrite T].
    + inversion A. subst a. destruct S as (i & z' & -> & -> & Rz & Ni). destruct (act_follows q _ u s Do V Hs) as [K T].
      exists (u / inject_Z z')%Q. split; [constructor|]. split; [|now rewrite T]. apply (K i); auto. intros n Nq. exact (E _ n X Nq).
  - destruct V as (x0 & V & Ex). step H as pa Pa. step H as s Hs. inversion H. subst r. clear H. cbn [at_value dim_of]. unfold p_act in Hs. step Hs as t T. inversion Hs. subst s. clear Hs.
    destruct h as [| |e|e|e|k z|k z|k z]; try contradiction; cbn [action_of simple_change even_change] in *.
    + destruct (Sub e AAdd S E A) as (b & y & -> & I & Vb & Db). inversion Pa. subst pa. cbn [p_action] in T.
      destruct (act_follows (relative p) _ x0 t Do V T) as [K Tt]. exists (u + y)%Q. split; [now constructor|]. split; [|reflexivity].
      cbn [pt_type]. exists (x0 + y)%Q. split; [|rewrite <- Ex; ring]. specialize (K y Db Vb).
      replace (relative (Point (pt_type p) (q_num t))) with t; [exact K|]. destruct t as [tt nn]. cbn in Tt |- *. now subst tt.
    + destruct (Sub e ASub S E A) as (b & y & -> & I & Vb & Db). inversion Pa. subst pa. cbn [p_action] in T.
      destruct (act_follows (relative p) _ x0 t Do V T) as [K Tt]. exists (u - y)%Q. split; [now constructor|]. split; [|reflexivity].
      cbn [pt_type]. exists (x0 - y)%Q. split; [|rewrite <- Ex; ring]. specialize (K y Db Vb).
      replace (relative (Point (pt_type p) (q_num t))) with t; [exact K|]. destruct t as [tt nn]. cbn in Tt |- *. now subst tt.
    + inversion A. subst a. discriminate.
    + inversion A. subst a. discriminate.
Qed.

(** ** Programs *)

Theorem run_follows : forall n s m vs m', represents est at_ m vs -> dims_in m -> simple_stmt P est s -> even_run rb est w n s m ->
  run rb est w n s m = Ok m' -> exists vs', ideal_run est at_ s vs vs' /\ represents est at_ m' vs' /\ dims_in m'.
Proof.
  induction n as [|n IH]; intros s m vs m' R D S E H; [discriminate|]. destruct s as [|a b|x e|x h|c a b|c a]; cbn [run simple_stmt even_run] in *.
  - inversion H. subst m'. exists vs. split; [constructor|now split].
  - destruct S as [Sa Sb], E as [Ea Eb]. step H as m1 H1. destruct (IH a m vs m1 R D Sa Ea H1) as (vs1 & I1 & R1 & D1).
    destruct (IH b m1 vs1 m' R1 D1 Sb (Eb m1 H1) H) as (vs2 & I2 & R2 & D2). exists vs2. split; [econstructor; eauto|now split].
  - step H as old O. step H as v V. step H as v' V'. inversion H. subst m'. clear H. unfold lookup in O. destruct (nth_error m x) as [o|] eqn:X; [|discriminate].
    inversion O. subst o. destruct (represents_at m vs x old R X) as (u & Xu & Vo). destruct (peval_follows m vs e v R D S E V) as (y & I & Vy & Dy).
    pose proof (dims_at m x old D X) as Do. destruct (assigned_follows old v u v' Vo Do y Vy Dy V') as [Vr Dr].
    exists (set_value vs x y). split; [now constructor|]. split; [now apply represents_set|]. apply dims_update; [exact D|now rewrite Dr].
  - step H as old O. step H as ac A. step H as v' V'. inversion H. subst m'. clear H. unfold lookup in O. destruct (nth_error m x) as [o|] eqn:X; [|discriminate].
    inversion O. subst o. destruct (represents_at m vs x old R X) as (u & Xu & Vo).
    destruct (change_follows m vs x old u h ac v' R D X Vo S E A V') as (y & I & Vy & Dy). pose proof (dims_at m x old D X) as Do.
    exists (set_value vs x y). split; [econstructor; eauto|]. split; [now apply represents_set|]. apply dims_update; [exact D|now rewrite Dy].
  - destruct S as (Sc & Sa & Sb), E as (Ec & Ea & Eb). step H as t T. pose proof (holds_follows m vs c t R D Sc Ec T) as I.
    destruct t.
    + destruct (IH a m vs m' R D Sa (Ea T) H) as (vs' & I' & R' & D'). exists vs'. split; [now apply ir_then|now split].
    + destruct (IH b m vs m' R D Sb (Eb T) H) as (vs' & I' & R' & D'). exists vs'. split; [now apply ir_else|now split].
  - destruct S as (Sc & Sa), E as (Ec & Ea). step H as t T. pose proof (holds_follows m vs c t R D Sc Ec T) as I. destruct t.
    + destruct (Ea T) as [E1 E2]. step H as m1 H1. destruct (IH a m vs m1 R D Sa E1 H1) as (vs1 & I1 & R1 & D1).
      destruct (IH (SWhile c a) m1 vs1 m' R1 D1 (conj Sc Sa) (E2 m1 H1) H) as (vs2 & I2 & R2 & D2).
      exists vs2. split; [eapply ir_again; eauto|now split].
    + inversion H. subst m'. exists vs. split; [now apply ir_stop|now split].
Qed.

(** ** The ideal program has one outcome, whatever the units it is written in *)

Lemma valued_one : forall q a b, valued est q a -> valued est q b -> (a == b)%Q.
Proof.
  intros q a b (n & mm & I & Z & X) (n' & mm' & I' & Z' & X'). destruct I as (_ & N & _), I' as (_ & N' & _).
  assert (n = n') by congruence. subst n'. destruct Z as (_ & _ & _ & M), Z' as (_ & _ & _ & M').
  rewrite X, X', (magnitude_unique _ _ _ _ M M'). reflexivity.
Qed.
Lemma at_one : forall c a b, at_value est at_ c a -> at_value est at_ c b -> (a == b)%Q.
Proof.
  intros [q|p] a b A B; cbn in *; [now apply (valued_one q)|]. destruct A as (x & X & <-), B as (y & Y & <-). now rewrite (valued_one _ _ _ X Y).
Qed.
Definition same_values (vs vs' : values) : Prop := Forall2 Qeq vs vs'.
Lemma same_at : forall vs vs' x u u', same_values vs vs' -> nth_error vs x = Some u -> nth_error vs' x = Some u' -> (u == u')%Q.
Proof.
  intros vs vs' x u u' S. revert x. induction S as [|a b vs vs' E S IH]; intros x A B; destruct x as [|x]; cbn in *; try discriminate.
  - inversion A. inversion B. now subst.
  - now apply (IH x).
Qed.
Lemma same_set : forall vs vs' x u u', same_values vs vs' -> (u == u')%Q -> same_values (set_value vs x u) (set_value vs' x u').
Proof. intros vs vs' x u u' S E. revert x. induction S as [|a b vs vs' F S IH]; intros x; destruct x as [|x]; cbn; constructor; auto. apply IH. Qed.

Lemma expr_one : forall e e', respelled_expr est at_ e e' -> forall vs vs' v v', same_values vs vs' ->
  ideal_expr est at_ vs e v -> ideal_expr est at_ vs' e' v' -> (v == v')%Q.
Proof.
  intros e e' R. induction R as [x|c c' v0 A A'|a a' R IH|a a' R IH|r r' z a a' R IH|r r' z a a' R IH|r r' z a a' R IH|t t' a a' R IH|o a a' b b' Ra IHa Rb IHb|t t' a a' R IH];
    intros vs vs' v v' S I I'; inversion I; subst; inversion I'; subst;
    try (match goal with H1 : ideal_expr _ _ vs a _, H2 : ideal_expr _ _ vs' a' _ |- _ => pose proof (IH _ _ _ _ S H1 H2) as E; rewrite E; reflexivity end);
    try (match goal with H1 : ideal_expr _ _ vs a _, H2 : ideal_expr _ _ vs' a' _, H3 : ideal_expr _ _ vs b _, H4 : ideal_expr _ _ vs' b' _ |- _ =>
           pose proof (IHa _ _ _ _ S H1 H2) as E; pose proof (IHb _ _ _ _ S H3 H4) as F; rewrite E, F; reflexivity end).
  - match goal with H1 : nth_error vs x = Some ?u, H2 : nth_error vs' x = Some ?u', E1 : (?u == v)%Q, E2 : (?u' == v')%Q |- _ =>
      rewrite <- E1, <- E2; exact (same_at _ _ _ _ _ S H1 H2) end.
  - match goal with H1 : at_value _ _ c v, H2 : at_value _ _ c' v' |- _ => rewrite (at_one c v v0 H1 A); symmetry; exact (at_one c' v' v0 H2 A') end.
Qed.
Lemma relation_one : forall o x x' y y', (x == x')%Q -> (y == y')%Q -> ideal_relation o x y = ideal_relation o x' y'.
Proof. intros o x x' y y' E F. unfold ideal_relation. assert (Q : (x ?= y)%Q = (x' ?= y')%Q) by (now rewrite E, F). now rewrite Q. Qed.
Lemma cond_one : forall c c', respelled_cond est at_ c c' -> forall vs vs' b b', same_values vs vs' ->
  ideal_cond est at_ vs c b -> ideal_cond est at_ vs' c' b' -> b = b'.
Proof.
  intros c c' R. induction R as [o a a' b b' Ra Rb|c c' R IH|c c' d d' Rc IHc Rd IHd|c c' d d' Rc IHc Rd IHd]; intros vs vs' t t' S I I'.
  - inversion I; subst. inversion I'; subst. match goal with H1 : ideal_expr _ _ vs a _, H2 : ideal_expr _ _ vs' a' _, H3 : ideal_expr _ _ vs b _, H4 : ideal_expr _ _ vs' b' _ |- _ =>
      exact (relation_one o _ _ _ _ (expr_one a a' Ra _ _ _ _ S H1 H2) (expr_one b b' Rb _ _ _ _ S H3 H4)) end.
  - inversion I; subst. inversion I'; subst. f_equal. eapply IH; eauto.
  - inversion I; subst; inversion I'; subst; auto; try (eapply IHd; eauto; fail);
      match goal with H1 : ideal_cond _ _ vs c _, H2 : ideal_cond _ _ vs' c' _ |- _ => pose proof (IHc _ _ _ _ S H1 H2); discriminate end.
  - inversion I; subst; inversion I'; subst; auto; try (eapply IHd; eauto; fail);
      match goal with H1 : ideal_cond _ _ vs c _, H2 : ideal_cond _ _ vs' c' _ |- _ => pose proof (IHc _ _ _ _ S H1 H2); discriminate end.
Qed.
Lemma change_one : forall h h', respelled_change est at_ h h' -> forall vs vs' u u' v v', same_values vs vs' -> (u == u')%Q ->
  ideal_change est at_ vs u h v -> ideal_change est at_ vs' u' h' v' -> (v == v')%Q.
Proof.
  intros h h' R vs vs' u u' v v' S E I I'. destruct R as [e e' R|e e' R|r r' z|r r' z]; inversion I; subst; inversion I'; subst; rewrite E; try reflexivity;
    match goal with H1 : ideal_expr _ _ vs e _, H2 : ideal_expr _ _ vs' e' _ |- _ => rewrite (expr_one e e' R _ _ _ _ S H1 H2); reflexivity end.
Qed.
Theorem run_one : forall s vs v1, ideal_run est at_ s vs v1 -> forall s' vs' v2, respelled est at_ s s' -> same_values vs vs' ->
  ideal_run est at_ s' vs' v2 -> same_values v1 v2.
Proof.
  intros s vs v1 I. induction I as [vs|a b vs vs1 vs2 I1 IH1 I2 IH2|x e v vs Ie|x h u v vs X Ih|c a b vs vs1 Ic Ia IHa|c a b vs vs1 Ic Ib IHb|c a vs vs1 vs2 Ic Ia IHa Iw IHw|c a vs Ic];
    intros s' vs' v2 R S I'; inversion R; subst; inversion I'; subst; auto.
  - eapply IH2; [eassumption| |eassumption]. eapply IH1; eassumption.
  - apply same_set; [exact S|]. eapply expr_one; eassumption.
  - apply same_set; [exact S|]. eapply change_one; try eassumption. exact (same_at vs vs' x _ _ S X ltac:(eassumption)).
  - eapply IHa; eassumption.
  - match goal with H1 : respelled_cond _ _ c ?c', H2 : ideal_cond _ _ vs' ?c' false |- _ => pose proof (cond_one c c' H1 _ _ _ _ S Ic H2); discriminate end.
  - match goal with H1 : respelled_cond _ _ c ?c', H2 : ideal_cond _ _ vs' ?c' true |- _ => pose proof (cond_one c c' H1 _ _ _ _ S Ic H2); discriminate end.
  - eapply IHb; eassumption.
  - eapply IHw; [exact R| |eassumption]. eapply IHa; eassumption.
  - match goal with H1 : respelled_cond _ _ c ?c', H2 : ideal_cond _ _ _ ?c' false |- _ => pose proof (cond_one c c' H1 _ _ _ _ S Ic H2); discriminate end.
  - match goal with H1 : respelled_cond _ _ c ?c', H2 : ideal_cond _ _ _ ?c' true |- _ => pose proof (cond_one c c' H1 _ _ _ _ S Ic H2); discriminate end.
Qed.

(** ** Programs without divisions *)

Lemma no_division_even : forall m e a, no_division e -> close m e = Some a -> even rb est w a.
Proof.
  intros m e. induction e as [x|c|o e IH|o e1 IH1 e2 IH2|t e IH|c e IH|t e IH|e IH|t e IH]; intros a N C; cbn [close no_division] in *.
  - destruct (nth_error m x) as [[q|p]|]; inversion C; exact Logic.I.
  - inversion C. now destruct c.
  - destruct (close m e) as [b|] eqn:E; inversion C. cbn [even]. destruct o; try contradiction; split; auto.
  - destruct (close m e1) as [b1|] eqn:E1; [|discriminate]. destruct (close m e2) as [b2|] eqn:E2; inversion C. cbn [even].
    destruct o; try contradiction; destruct N; repeat split; auto.
  - destruct (close m e) as [b|] eqn:E; inversion C. cbn [even]. auto.
  - destruct (close m e) as [b|] eqn:E; inversion C. exact Logic.I.
  - destruct (close m e) as [b|] eqn:E; inversion C. exact Logic.I.
  - destruct (close m e) as [b|] eqn:E; inversion C. exact Logic.I.
  - destruct (close m e) as [b|] eqn:E; inversion C. exact Logic.I.
Qed.
Lemma no_division_even_cond : forall m c, no_division_cond c -> even_cond rb est w m c.
Proof.
  intros m c. induction c as [o a b|c IH|c IHc d IHd|c IHc d IHd]; intros N; cbn [no_division_cond even_cond] in *; auto; try (destruct N; auto; fail).
  destruct N as [N1 N2]. split; intros e E; [exact (no_division_even m a e N1 E)|exact (no_division_even m b e N2 E)].
Qed.
Theorem no_division_run : forall n s m, no_division_stmt s -> even_run rb est w n s m.
Proof.
  induction n as [|n IH]; intros s m N; [exact Logic.I|]. destruct s as [|a b|x e|x h|c a b|c a]; cbn [no_division_stmt even_run] in *; auto.
  - destruct N. split; auto.
  - intros a A. exact (no_division_even m e a N A).
  - destruct h as [| |e|e|e|r v|r v|r v]; cbn [even_change]; try exact Logic.I; try contradiction; intros a A; exact (no_division_even m e a N A).
  - destruct N as (Nc & Na & Nb). split; [now apply no_division_even_cond|]. split; auto.
  - destruct N as (Nc & Na). split; [now apply no_division_even_cond|]. intros _. split; [auto|]. intros m' _. apply IH. now split.
Qed.
End Follow.
