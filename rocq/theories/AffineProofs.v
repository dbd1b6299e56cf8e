(** Expressions of quantities and points. *)

From Coq Require Import ZArith QArith String List Bool Lia Lqa.
From Verif Require Import Outcome CInt Ratio SpecRatio Root Unit Downcast Dim DimOp Equivalent SpecDim SpecUnit
  DimProofs DimOpProofs DimOpProofs3 EquivProofs MagnitudeProofs Rep IntProofs Reference QuantityCast CommonQuantity Quantity
  SpecQuantity CastProofs QuantityProofs QuantityProofs2 QuantityProofs3 QuantityProofs4 QuantityProofs5 Point SpecPoint PointProofs Expr SpecExpr
  ExprProofs ExprProofs2 Affine SpecAffine.
Import ListNotations.
Local Open Scope Z_scope.
Local Open Scope res_scope.

(** ** A node of a tree of quantities *)

Definition unary_expr (o : unary) (a : qexpr) : qexpr :=
  match o with
  | UPos => EPos a | UNeg => ENeg a | UMulV r v => EMulV a r v | UVMul r v => EVMul r v a | UDivV r v => EDivV a r v
  | UVDiv r v => EVDiv r v a | URemV r v => ERemV a r v | UConv t => EConv t a | UCast c => ECast c a
  end.
Definition binary_expr (o : binary) (a b : qexpr) : qexpr :=
  match o with BAdd => EAdd a b | BSub => ESub a b | BMul => EMul a b | BDiv => EDiv a b | BRem => ERem a b end.
Lemma unary_eval : forall est w o q, unary_quantity est w o q = eval est w (unary_expr o (ELit q)).
Proof. intros est w [] q; reflexivity. Qed.
Lemma binary_eval : forall est w o a b, binary_quantity est w o a b = eval est w (binary_expr o (ELit a) (ELit b)).
Proof. intros est w [] a b; reflexivity. Qed.

(** ** Affine dimensional analysis *)

Lemma exps_refl : forall f, same_exps f f.
Proof. intros f s r. reflexivity. Qed.
Lemma exps_sym : forall f g, same_exps f g -> same_exps g f.
Proof. intros f g H s r. symmetry. apply H. Qed.
Lemma exps_trans : forall f g h, same_exps f g -> same_exps g h -> same_exps f h.
Proof. intros f g h H K s r. rewrite (H s r). apply K. Qed.
Lemma asks_ext : forall c f g, same_exps f g -> asks_for c f -> asks_for c g.
Proof. intros [t|d|u|r] f g E H; cbn in *; auto; eapply exps_trans; eauto. Qed.

Lemma typed_ext : forall e k f, typed e k f -> forall g, same_exps f g -> typed e k g.
Proof.
  intros e k f T. induction T; intros g' E; try (econstructor; eauto using exps_trans, asks_ext; fail).
  - eapply ty_rem; eauto. destruct H as [H|H]; [left|right]; eauto using exps_trans, exps_refl.
Qed.

Lemma sum_exps : forall f f0 g g0 h h', same_exps f f0 -> same_exps g g0 ->
  same_exps (fun s r => f s r + g s r)%Q h -> same_exps (fun s r => f0 s r + g0 s r)%Q h' -> same_exps h h'.
Proof. intros f f0 g g0 h h' F G H H' s r. rewrite <- (H s r), <- (H' s r), (F s r), (G s r). reflexivity. Qed.
Lemma diff_exps : forall f f0 g g0 h h', same_exps f f0 -> same_exps g g0 ->
  same_exps (fun s r => f s r - g s r)%Q h -> same_exps (fun s r => f0 s r - g0 s r)%Q h' -> same_exps h h'.
Proof. intros f f0 g g0 h h' F G H H' s r. rewrite <- (H s r), <- (H' s r), (F s r), (G s r). reflexivity. Qed.

Lemma typed_unique : forall e k f, typed e k f -> forall l g, typed e l g -> k = l /\ same_exps f g.
Proof.
  intros e k f T. induction T; intros k' f' T'; inversion T'; subst;
    repeat match goal with
    | IH : (forall l g, typed ?a l g -> _), H : typed ?a _ _ |- _ => apply IH in H; destruct H; subst
    end; (split; [reflexivity || lia|]); eauto using exps_trans, exps_sym.
  all: repeat match goal with H : same_exps ?f ?f |- _ => clear H end.
  - eapply exps_trans; [apply exps_sym; exact H|]. eapply exps_trans; [|exact H6]. intros s' r'. cbn. now rewrite (H1 s' r').
  - eapply sum_exps; [| |exact H|eassumption]; assumption.
  - eapply diff_exps; [| |exact H|eassumption]; assumption.
Qed.

Section Typing.
Variable rb : rebinding.
Variable est : estimate.
Variable w : world.
Hypothesis C : consistent w.

Lemma typed_unary : forall o a q s f, typed a 0 f -> same_exps (dim_exps (q_dim (q_type q))) f ->
  unary_quantity est w o q = Ok s -> typed (AUnary o a) 0 (dim_exps (q_dim (q_type s))).
Proof.
  intros o a q s f T E H. rewrite unary_eval in H. pose proof (eval_has_dim est w C _ _ H) as D.
  assert (L : forall g, has_dim (ELit q) g -> typed a 0 g).
  { intros g K. inversion K; subst. eapply typed_ext; [exact T|]. eapply exps_trans; [apply exps_sym; exact E|assumption]. }
  destruct o; cbn [unary_expr] in D; inversion D; subst; try (econstructor; eauto; fail).
  eapply ty_vdiv; [|eassumption]. auto.
Qed.
Lemma typed_binary : forall o a b x y s f g, typed a 0 f -> typed b 0 g ->
  same_exps (dim_exps (q_dim (q_type x))) f -> same_exps (dim_exps (q_dim (q_type y))) g ->
  binary_quantity est w o x y = Ok s -> typed (ABinary o a b) 0 (dim_exps (q_dim (q_type s))).
Proof.
  intros o a b x y s f g Ta Tb Ea Eb H. rewrite binary_eval in H. pose proof (eval_has_dim est w C _ _ H) as D.
  assert (La : forall k, has_dim (ELit x) k -> typed a 0 k).
  { intros k K. inversion K; subst. eapply typed_ext; [exact Ta|]. eapply exps_trans; [apply exps_sym; exact Ea|assumption]. }
  assert (Lb : forall k, has_dim (ELit y) k -> typed b 0 k).
  { intros k K. inversion K; subst. eapply typed_ext; [exact Tb|]. eapply exps_trans; [apply exps_sym; exact Eb|assumption]. }
  destruct o; cbn [binary_expr] in D; inversion D; subst; try (econstructor; eauto; fail).
  - apply (ty_add a b 0 0); auto. lia.
  - apply (ty_sub a b 0 0); auto. lia.
  - eapply ty_mul; [| |eassumption]; auto.
  - eapply ty_div; [| |eassumption]; auto.
  - eapply ty_rem; [| |eassumption]; auto.
Qed.

(** Sums that have a point on a side. *)
Lemma p_addsub_dims : forall o p q s, p_addsub o rb est w p q = Ok s ->
  same_exps (dim_exps (q_dim (q_type q))) (dim_exps (o_dim (p_origin (pt_type p)))) /\
  same_exps (dim_exps (o_dim (p_origin (pt_type s)))) (dim_exps (o_dim (p_origin (pt_type p)))).
Proof.
  intros o p q s H. unfold p_addsub in H. step H as x X. pose proof (addsub_dims _ _ _ _ _ _ X) as [E1 E2].
  apply equivalent_exps in E1. apply equivalent_exps in E2. cbn in E1, E2. split; [exact E1|].
  destruct (rebind rb (p_origin (pt_type p)) (q_dim (q_type x))) as [og|]; [|discriminate H].
  step H as t T. unfold mk_ptype in T. step T as u0 U0. inversion T; subst t. unfold p_make in H. step H as n N. inversion H; subst s. cbn.
  pose proof (convert_equivalent _ _ _ _ _ N) as E3. apply equivalent_exps in E3. cbn in E3. eapply exps_trans; eauto.
Qed.

Theorem aeval_typed : forall e v, aeval rb est w e = Ok v -> typed e (sort_of v) (value_exps v).
Proof.
  induction e as [q|p|o a IH|o a IHa b IHb|t a IH|c a IH|t a IH|a IH|t a IH]; intros v H; cbn [aeval] in H.
  - inversion H; subst v. constructor. apply exps_refl.
  - inversion H; subst v. constructor. apply exps_refl.
  - step H as x X. step H as q Q. step H as s S. inversion H; subst v. destruct x as [x|]; [|discriminate Q]. inversion Q; subst x.
    exact (typed_unary _ _ _ _ _ (IH _ X) (exps_refl _) S).
  - step H as x X. step H as y Y. specialize (IHa _ X). specialize (IHb _ Y). unfold binary_value in H.
    destruct x as [x|x], y as [y|y].
    + assert (H' : (s <- binary_quantity est w o x y; Ok (VQuantity s)) = Ok v) by (destruct o; exact H).
      step H' as s S. inversion H'; subst v. exact (typed_binary _ _ _ _ _ _ _ _ IHa IHb (exps_refl _) (exps_refl _) S).
    + destruct o; try discriminate H. step H as s S. inversion H; subst v. unfold q_plus_point in S.
      destruct (p_addsub_dims _ _ _ _ S) as [E1 E2]. cbn [sort_of value_exps] in *. apply (ty_add a b 0 1); [| |lia].
      * eapply typed_ext; [exact IHa|]. eapply exps_trans; [exact E1|]. now apply exps_sym.
      * eapply typed_ext; [exact IHb|]. now apply exps_sym.
    + destruct o; try discriminate H; step H as s S; inversion H; subst v; destruct (p_addsub_dims _ _ _ _ S) as [E1 E2];
        cbn [sort_of value_exps] in *; [apply (ty_add a b 1 0)|apply (ty_sub a b 1 0)]; try lia;
        try (eapply typed_ext; [exact IHa|]; now apply exps_sym);
        (eapply typed_ext; [exact IHb|]; eapply exps_trans; [exact E1|]; now apply exps_sym).
    + destruct o; try discriminate H. step H as s S. inversion H; subst v. unfold p_diff in S. step S as u0 U0.
      pose proof (addsub_dims _ _ _ _ _ _ S) as [E1 E2]. apply equivalent_exps in E1. apply equivalent_exps in E2.
      cbn [sort_of value_exps] in *. apply (ty_sub a b 1 1); [| |lia].
      * eapply typed_ext; [exact IHa|]. now apply exps_sym.
      * eapply typed_ext; [exact IHb|]. eapply exps_trans; [exact E1|]. now apply exps_sym.
  - step H as x X. step H as p P. step H as s S. inversion H; subst v. destruct x as [|x]; [discriminate P|]. inversion P; subst x.
    unfold p_to in S. step S as u0 U0. unfold p_make in S. step S as n N. inversion S; subst s. cbn [sort_of value_exps pt_type].
    pose proof (convert_equivalent _ _ _ _ _ N) as E. apply equivalent_exps in E.
    apply ty_move; [|apply exps_refl]. eapply typed_ext; [exact (IH _ X)|]. now apply exps_sym.
  - step H as x X. step H as p P. step H as s S. inversion H; subst v. destruct x as [|x]; [discriminate P|]. inversion P; subst x.
    unfold point_cast in S. step S as q Q. inversion S; subst s. cbn [sort_of value_exps pt_type p_deduced p_origin o_dim].
    pose proof (eval_has_dim est w C (ECast c (ELit (relative p))) _ Q) as D. inversion D as [| | | | | | | | | | | | | |c0 a0 f0 L A]; subst.
    apply ty_pcast; [|exact A]. inversion L; subst. eapply typed_ext; [exact (IH _ X)|]. assumption.
  - step H as x X. step H as p P. step H as s S. inversion H; subst v. destruct x as [|x]; [discriminate P|]. inversion P; subst x.
    unfold point_cast_to in S. step S as u0 U0. step S as n N. inversion S; subst s. cbn [sort_of value_exps pt_type p_deduced p_origin o_dim q_type p_qtype q_dim].
    unfold quantity_cast in N. step N as u1 U1. apply constrained_ok in U1. apply equivalent_exps in U1.
    apply ty_pcastto; [|apply exps_refl]. eapply typed_ext; [exact (IH _ X)|]. now apply exps_sym.
  - step H as x X. step H as p P. inversion H; subst v. destruct x as [|x]; [discriminate P|]. inversion P; subst x.
    constructor. exact (IH _ X).
  - step H as x X. step H as q Q. step H as s S. inversion H; subst v. destruct x as [x|]; [|discriminate Q]. inversion Q; subst x.
    unfold p_make in S. step S as n N. inversion S; subst s. cbn [sort_of value_exps pt_type].
    pose proof (convert_equivalent _ _ _ _ _ N) as E. apply equivalent_exps in E.
    apply ty_make; [|apply exps_refl]. eapply typed_ext; [exact (IH _ X)|]. now apply exps_sym.
Qed.
End Typing.

(** ** Values and positions *)

Section Values.
Variable U : bdim -> Prop.
Variable w : world.
Hypothesis HU : symbols_identify U.
Hypothesis G : good_system U w.
Variable rb : rebinding.
Variable est : estimate.
Variable at_ : frame.

Definition value_dim (v : avalue) : dimension :=
  match v with VQuantity q => q_dim (q_type q) | VPoint p => o_dim (p_origin (pt_type p)) end.

Lemma one_node : forall e v s, means est w e v -> all_dims (in_system U w) e -> eval est w e = Ok s ->
  in_system U w (q_dim (q_type s)) /\ valued est s v.
Proof. intros e v s M A H. exact (eval_exact U w HU G est e v M A s H). Qed.

Lemma point_sum : forall o p q x y s, sum_op o -> in_system U w (o_dim (p_origin (pt_type p))) -> in_system U w (q_dim (q_type q)) ->
  valued est (relative p) x -> valued est q y -> p_addsub o rb est w p q = Ok s ->
  p_origin (pt_type s) = p_origin (pt_type p) /\ valued est (relative s) (exact_sum o x y).
Proof.
  intros o p q x y s So Dp Dq Vp Vq H. pose proof (proj1 G) as C. destruct (p_addsub_dims rb est w o p q s H) as [E1 _].
  pose proof (same_dimension U w HU _ _ Dq Dp E1) as E.
  destruct (located_sum rb est w C o p q x y s So Vp Vq E H) as [L O]. auto.
Qed.

(** Origins of one dimension that are equivalent are one. *)
Lemma origin_same : forall o o', in_system U w (o_dim o) -> in_system U w (o_dim o') -> one_origin rb o o' -> o = o'.
Proof.
  intros o o' D D' [E|(N & Q & _)]; [exact E|]. destruct N. apply (same_dimension U w HU); auto. now apply equivalent_exps.
Qed.

Lemma unary_exact : forall o q x v s, in_system U w (q_dim (q_type q)) -> valued est q x ->
  match o with UConv t | UCast (ToQuantity t) => in_system U w (q_dim t) | UCast (ToDim d) => in_system U w d | _ => True end ->
  means est w (unary_expr o (ELit q)) v -> unary_quantity est w o q = Ok s ->
  in_system U w (q_dim (q_type s)) /\ valued est s v.
Proof.
  intros o q x v s D V A M H. rewrite unary_eval in H. apply (one_node _ _ _ M); [|exact H].
  destruct o as [| | | | | | | |[]]; cbn [unary_expr all_dims]; auto.
Qed.
Lemma binary_exact : forall o a b v s, in_system U w (q_dim (q_type a)) -> in_system U w (q_dim (q_type b)) ->
  means est w (binary_expr o (ELit a) (ELit b)) v -> binary_quantity est w o a b = Ok s ->
  in_system U w (q_dim (q_type s)) /\ valued est s v.
Proof.
  intros o a b v s Da Db M H. rewrite binary_eval in H. apply (one_node _ _ _ M); [|exact H].
  destruct o; cbn [binary_expr all_dims]; auto.
Qed.

Lemma at_ext : forall r v v', (v == v')%Q -> at_value est at_ r v -> at_value est at_ r v'.
Proof.
  intros [q|p] v v' E H; cbn in *.
  - eapply valued_ext; eauto.
  - destruct H as (x & V & X). exists x. split; auto. now rewrite X.
Qed.

Theorem aeval_exact : forall e v, stands_for rb est w at_ e v -> aall_dims (in_system U w) e ->
  forall r, aeval rb est w e = Ok r -> in_system U w (value_dim r) /\ at_value est at_ r v.
Proof.
  intros e v S. pose proof (proj1 G) as C. assert (SO : sum_op OpAdd) by now left. assert (SS : sum_op OpSub) by now right.
  assert (Un : forall o a x v r, (aall_dims (in_system U w) a -> forall r, aeval rb est w a = Ok r -> in_system U w (value_dim r) /\ at_value est at_ r x) ->
    aall_dims (in_system U w) (AUnary o a) -> aeval rb est w (AUnary o a) = Ok r ->
    (forall q, aeval rb est w a = Ok (VQuantity q) -> valued est q x -> means est w (unary_expr o (ELit q)) v) ->
    in_system U w (value_dim r) /\ at_value est at_ r v).
  { intros o a x v0 r IH [Ao A] H M. cbn [aeval] in H. step H as y Y. step H as q Q. step H as s S0. inversion H; subst r.
    destruct y as [y|]; [|discriminate Q]. inversion Q; subst y. destruct (IH A _ Y) as [D V]. cbn in D, V.
    exact (unary_exact o q x v0 s D V Ao (M q Y V) S0). }
  assert (Bi : forall o a b x y v r,
    (aall_dims (in_system U w) a -> forall r, aeval rb est w a = Ok r -> in_system U w (value_dim r) /\ at_value est at_ r x) ->
    (aall_dims (in_system U w) b -> forall r, aeval rb est w b = Ok r -> in_system U w (value_dim r) /\ at_value est at_ r y) ->
    o = BMul \/ o = BDiv \/ o = BRem ->
    aall_dims (in_system U w) (ABinary o a b) -> aeval rb est w (ABinary o a b) = Ok r ->
    (forall p q, aeval rb est w a = Ok (VQuantity p) -> valued est p x -> aeval rb est w b = Ok (VQuantity q) -> valued est q y ->
       means est w (binary_expr o (ELit p) (ELit q)) v) ->
    in_system U w (value_dim r) /\ at_value est at_ r v).
  { intros o a b x y v0 r IHa IHb Ho [Aa Ab] H M. cbn [aeval] in H. step H as p P. step H as q Q.
    destruct (IHa Aa _ P) as [Da Va]. destruct (IHb Ab _ Q) as [Db Vb]. unfold binary_value in H.
    destruct p as [p|p], q as [q|q]; try (destruct Ho as [->|[->| ->]]; discriminate H).
    assert (H' : (s <- binary_quantity est w o p q; Ok (VQuantity s)) = Ok r) by (destruct o; exact H).
    step H' as s S0. inversion H'; subst r. exact (binary_exact o p q v0 s Da Db (M p q P Va Q Vb) S0). }
  induction S as [q v V|p v V|a v S IH|a v S IH|a b x y S1 IH1 S2 IH2|a b x y S1 IH1 S2 IH2|a b x y S1 IH1 S2 IH2
    |a b x y n k S1 IH1 S2 IH2 N1 N2 Dv|a b x y k S1 IH1 S2 IH2 Su T|a i z x S IH R Ni|a i z x S IH R Ni|a i z x n S IH R Ni N1 Dv
    |a i z x k S IH R Ni N1 Dv Co|t a x S IH Rt St|t a x S IH Rt St]; intros A r H.
  - inversion H; subst r. cbn in *. auto.
  - inversion H; subst r. cbn in *. split; [auto|]. exists v. split; [auto|reflexivity].
  - apply (Un UPos a v v r IH A H). intros q _ V. constructor. now constructor.
  - apply (Un UNeg a v (- v)%Q r IH A H). intros q _ V. apply (mn_neg est w (ELit q)). now constructor.
  - destruct A as [Aa Ab]. cbn [aeval] in H. step H as p P. step H as q Q. destruct (IH1 Aa _ P) as [Da Va].
    destruct (IH2 Ab _ Q) as [Db Vb]. cbn [binary_value] in H. destruct p as [p|p], q as [q|q]; cbn in Da, Db, Va, Vb; try discriminate H; step H as s S0; inversion H; subst r; cbn.
    + refine (binary_exact BAdd p q _ s Da Db _ S0). apply (mn_add est w (ELit p) (ELit q)); now constructor.
    + destruct Vb as (z & Vb & E). destruct (point_sum OpAdd q p z x s SO Db Da Vb Va S0) as [O L]. rewrite O. split; [exact Db|].
      exists (z + x)%Q. split; [exact L|]. rewrite <- E. ring.
    + destruct Va as (z & Va & E). destruct (point_sum OpAdd p q z y s SO Da Db Va Vb S0) as [O L]. rewrite O. split; [exact Da|].
      exists (z + y)%Q. split; [exact L|]. rewrite <- E. ring.
  - destruct A as [Aa Ab]. cbn [aeval] in H. step H as p P. step H as q Q. destruct (IH1 Aa _ P) as [Da Va].
    destruct (IH2 Ab _ Q) as [Db Vb]. cbn [binary_value] in H. destruct p as [p|p], q as [q|q]; cbn in Da, Db, Va, Vb; try discriminate H; step H as s S0; inversion H; subst r; cbn.
    + refine (binary_exact BSub p q _ s Da Db _ S0). apply (mn_sub est w (ELit p) (ELit q)); now constructor.
    + destruct Va as (z & Va & E). destruct (point_sum OpSub p q z y s SS Da Db Va Vb S0) as [O L]. rewrite O. split; [exact Da|].
      exists (z - y)%Q. split; [exact L|]. rewrite <- E. ring.
    + destruct Va as (z & Va & E). destruct Vb as (z' & Vb & E'). pose proof S0 as S1'. apply diff_iff in S1'. destruct S1' as [O _].
      pose proof (origin_same _ _ Da Db O) as Oe.
      destruct (located_diff rb est w C p q z z' s Va Vb (f_equal o_dim Oe) S0) as [Vs Ds]. rewrite Ds. split; [exact Da|].
      eapply valued_ext; [|exact Vs]. rewrite <- E, <- E', Oe. ring.
  - apply (Bi BMul a b x y _ r IH1 IH2 (or_introl eq_refl) A H). intros p q _ Vp _ Vq.
    apply (mn_mul est w (ELit p) (ELit q)); now constructor.
  - apply (Bi BDiv a b x y _ r IH1 IH2 (or_intror (or_introl eq_refl)) A H). intros p q P Vp Q Vq.
    destruct N1 as (q1 & E1 & F1). destruct N2 as (q2 & E2 & F2). rewrite P in E1. rewrite Q in E2. inversion E1; subst q1. inversion E2; subst q2.
    apply (mn_div est w (ELit p) (ELit q) x y n k); try (now constructor); [exists p|exists q|exact Dv]; auto.
  - apply (Bi BRem a b x y _ r IH1 IH2 (or_intror (or_intror eq_refl)) A H). intros p q P Vp Q Vq.
    apply (mn_rem est w (ELit p) (ELit q) x y k); try (now constructor); [|exact T].
    intros p' q' E1 E2. inversion E1; subst p'. inversion E2; subst q'. exact (Su _ _ P Q).
  - apply (Un _ a x _ r IH A H). intros q _ V. apply (mn_mulv est w (ELit q)); auto. now constructor.
  - apply (Un _ a x _ r IH A H). intros q _ V. apply (mn_vmul est w (ELit q)); auto. now constructor.
  - apply (Un _ a x _ r IH A H). intros q Q V. destruct N1 as (q1 & E1 & F1). rewrite Q in E1. inversion E1; subst q1.
    apply (mn_divv est w (ELit q) i z x n); auto; [now constructor|]. exists q. auto.
  - apply (Un _ a x _ r IH A H). intros q Q V. destruct N1 as (q1 & E1 & F1). rewrite Q in E1. inversion E1; subst q1.
    apply (mn_vdiv est w (ELit q) i z x k); auto; [now constructor|exists q; auto|].
    intros q' d E2. inversion E2; subst q'. exact (Co _ _ Q).
  - apply (Un _ a x _ r IH A H). intros q Q V. apply (mn_conv est w t (ELit q)); auto. now constructor.
  - destruct A as [At A]. cbn [aeval] in H. step H as y Y. step H as p P. step H as s S0. inversion H; subst r.
    destruct y as [|y]; [discriminate P|]. inversion P; subst y. destruct (IH A _ Y) as [D (z & V & E)]. cbn in D, V.
    apply to_iff in S0. destruct S0 as (O & Ts & Q). pose proof (origin_same _ _ D At O) as Oe.
    assert (M : means est w (EConv (p_qtype t) (ELit (relative p))) z).
    { apply mn_conv; [now constructor|exact Rt|exact St]. }
    assert (AA : all_dims (in_system U w) (EConv (p_qtype t) (ELit (relative p)))) by (cbn; auto).
    destruct (one_node _ _ _ M AA Q) as [Ds Vs]. cbn [value_dim at_value]. split; [exact Ds|]. exists z. split; [exact Vs|].
    now rewrite Ts, <- Oe.
Qed.

(** The place of origins does not matter. *)
Lemma stands_rewritten : forall e e', rewritten est at_ e e' -> forall v v', stands_for rb est w at_ e v -> stands_for rb est w at_ e' v' -> (v == v')%Q.
Proof.
  intros e e' R. induction R as [q|p p' x x' V V' E|o a a' R IH|o a a' b b' Ra IHa Rb IHb|t t' a a' R IH]; intros v v' S S'.
  - inversion S as [q0 v0 W| | | | | | | | | | | | | |]; subst. inversion S' as [q0 v1 W'| | | | | | | | | | | | | |]; subst.
    destruct W as (n & m & I & Z & X), W' as (n' & m' & I' & Z' & X'). destruct I as (_ & N & _), I' as (_ & N' & _).
    assert (n = n') by congruence. subst n'. destruct Z as (_ & _ & _ & M), Z' as (_ & _ & _ & M').
    rewrite X, X', (magnitude_unique _ _ _ _ M M'). reflexivity.
  - assert (K : forall q a b, valued est q a -> valued est q b -> (a == b)%Q).
    { intros q a b (n & m & I & Z & X) (n' & m' & I' & Z' & X'). destruct I as (_ & N & _), I' as (_ & N' & _).
      assert (n = n') by congruence. subst n'. destruct Z as (_ & _ & _ & M), Z' as (_ & _ & _ & M').
      rewrite X, X', (magnitude_unique _ _ _ _ M M'). reflexivity. }
    inversion S as [|p0 v0 W| | | | | | | | | | | | |]; subst. inversion S' as [|p0 v1 W'| | | | | | | | | | | | |]; subst.
    rewrite (K _ _ _ W V), (K _ _ _ W' V'). exact E.
  - inversion S; subst; inversion S'; subst;
      match goal with H1 : stands_for _ _ _ _ a _, H2 : stands_for _ _ _ _ a' _ |- _ => pose proof (IH _ _ H1 H2) as E end; rewrite E; reflexivity.
  - inversion S; subst; inversion S'; subst;
      match goal with H1 : stands_for _ _ _ _ a _, H2 : stands_for _ _ _ _ a' _ |- _ => pose proof (IHa _ _ H1 H2) as E end;
      match goal with H1 : stands_for _ _ _ _ b _, H2 : stands_for _ _ _ _ b' _ |- _ => pose proof (IHb _ _ H1 H2) as F end;
      try (rewrite E, F; reflexivity).
    match goal with T1 : trunc_of _ ?k, T2 : trunc_of _ ?k' |- _ =>
      assert (K : k = k') by (eapply trunc_unique; [exact T1|]; eapply trunc_ext; [|exact T2]; rewrite E, F; reflexivity) end.
    rewrite E, F, K. reflexivity.
  - inversion S; subst; inversion S'; subst. eauto.
Qed.
End Values.
