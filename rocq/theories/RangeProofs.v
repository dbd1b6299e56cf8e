(** Proofs: ranges of expressions of integral quantities and points of any types. *)

From Coq Require Import ZArith QArith String List Bool Lia Lqa.
From Verif Require Import Outcome CInt Ratio SpecRatio Root Unit Downcast Dim DimOp Equivalent SpecDim SpecUnit
  DimProofs DimOpProofs DimOpProofs3 EquivProofs MagnitudeProofs Rep IntProofs Reference QuantityCast CommonQuantity Quantity
  SpecQuantity CastProofs QuantityProofs QuantityProofs2 QuantityProofs3 QuantityProofs4 QuantityProofs5 Point SpecPoint PointProofs Expr SpecExpr
  QTen ExprProofs ExprProofs2 Affine SpecAffine AffineProofs Static SpecStatic StaticProofs SpecRange.
Import ListNotations.
Local Open Scope Z_scope.
Local Open Scope res_scope.

(** ** Numbers *)

Lemma op_stays_runs : forall o i j la ha lb hb lo hi x y, op_stays o i j la ha lb hb lo hi -> la <= x <= ha -> lb <= y <= hb ->
  in_range i x = true -> in_range j y = true ->
  n_op o (RInt i) (RInt j) (NInt x) (NInt y) = Ok (NInt (exact_op o x y)) /\ in_range (arith_conv i j) (exact_op o x y) = true /\
  (divides_op o = true -> y <> 0) /\ lo <= exact_op o x y <= hi.
Proof.
  intros o i j la ha lb hb lo hi x y S X Y Ix Iy. destruct (S x y X Y) as (F & R & D & Q & B).
  split; [|auto]. apply n_op_total; auto.
Qed.
Lemma quotient_between : forall lo hi z m x, (0 < m)%Q -> (inject_Z z * m == x)%Q -> (inject_Z lo <= x / m <= inject_Z hi)%Q -> lo <= z <= hi.
Proof.
  intros lo hi z m x P E [L H]. assert (Z : (x / m == inject_Z z)%Q) by (rewrite <- E; field; lra).
  rewrite Z in L, H. rewrite <- Zle_Qle in L. rewrite <- Zle_Qle in H. lia.
Qed.

Section System.
Variables (U : bdim -> Prop) (w : world).
Hypothesis (HU : symbols_identify U) (G : good_system U w).
Variables (rb : rebinding) (est : estimate) (at_ : frame).

Lemma equivalent_dims : forall d1 d2, in_system U w d1 -> in_system U w d2 -> dim_equivalent d1 d2 = true -> d1 = d2.
Proof. intros d1 d2 D1 D2 E. apply (same_dimension U w HU); auto. now apply equivalent_exps. Qed.

Lemma t_cast_dims : forall from to x, t_cast est from to = Ok x -> dim_equivalent (q_dim to) (q_dim from) = true.
Proof. intros from to x H. unfold t_cast in H. step H as c C. now apply constrained_ok in C. Qed.
Lemma t_convert_dims : forall from to x, t_convert est from to = Ok x -> from = to \/ dim_equivalent (q_dim to) (q_dim from) = true.
Proof.
  intros from to x H. unfold t_convert in H. destruct (qtype_eq_dec from to); [auto|]. step H as b B. step H as c C. right. eapply t_cast_dims; eauto.
Qed.
Lemma t_convert_accepted : forall from to x, t_convert est from to = Ok x -> accepted est from to.
Proof.
  intros from to x H. unfold t_convert in H. destruct (qtype_eq_dec from to); [now left|]. step H as b B. step H as c C. right.
  apply constrained_ok in C. now subst b.
Qed.
Lemma t_convert_same_dim : forall from to x, in_system U w (q_dim from) -> in_system U w (q_dim to) -> t_convert est from to = Ok x ->
  q_dim to = q_dim from.
Proof. intros from to x F T H. destruct (t_convert_dims _ _ _ H) as [->|E]; [reflexivity|]. now apply equivalent_dims. Qed.

Lemma convert_node : forall from to a b m1 m2 n lo hi lo' hi', sized est from m1 -> sized est to m2 -> q_dim to = q_dim from ->
  q_rep from = RInt a -> q_rep to = RInt b -> in_range a n = true -> t_convert est from to = Ok tt ->
  conversion_stays est from to lo hi lo' hi' -> lo <= n <= hi ->
  exists z, q_convert est from to (NInt n) = Ok (NInt z) /\ in_range b z = true /\ lo' <= z <= hi' /\ (inject_Z z * m2 == inject_Z n * m1)%Q.
Proof.
  intros from to a b m1 m2 n lo hi lo' hi' S1 S2 D Ra Rb I T C N. destruct (C n N) as [Cv B].
  pose proof (references_ok_refl from to (eq_sym D)) as Ref.
  destruct (convert_defined est from to a b m1 m2 n S1 S2 Ref Ra Rb (t_convert_accepted _ _ _ T) Cv) as [z E].
  destruct (convert_exact est from to a b m1 m2 n _ S1 S2 Ref Ra Rb I Cv E) as (z' & Ez & Iz & SV). inversion Ez; subst z'.
  exists z. split; [exact E|]. split; [exact Iz|]. unfold same_value in SV. split; [|now symmetry].
  apply (quotient_between lo' hi' z m2 (inject_Z n * m1)%Q (sized_pos _ _ _ S2)); [now symmetry|].
  apply B; [apply S1|apply S2].
Qed.
Lemma cast_node : forall from to a b m1 m2 n lo hi lo' hi', sized est from m1 -> sized est to m2 -> q_dim to = q_dim from ->
  q_rep from = RInt a -> q_rep to = RInt b -> cast_stays est from to lo hi lo' hi' -> lo <= n <= hi ->
  exists z, quantity_cast est from to (NInt n) = Ok (NInt z) /\ in_range b z = true /\ lo' <= z <= hi' /\
    (is_int (inject_Z n * m1 / m2) -> (inject_Z z * m2 == inject_Z n * m1)%Q).
Proof.
  intros from to a b m1 m2 n lo hi lo' hi' S1 S2 D Ra Rb C N. destruct (C n N) as [Nv B].
  pose proof (references_ok_refl from to (eq_sym D)) as Ref.
  assert (M1 : magnitude (q_dim from) (q_unit from) m1) by apply S1. assert (M2 : magnitude (q_dim to) (q_unit to) m2) by apply S2.
  destruct (B m1 m2 M1 M2) as [F L]. assert (E : dim_equivalent (q_dim to) (q_dim from) = true) by (rewrite D; apply dim_equivalent_equivalence).
  destruct (cast_value est from to a b m1 m2 n S1 S2 Ref Ra Rb E Nv F) as (z & H & Tr & Iz).
  exists z. split; [exact H|]. split; [exact Iz|]. split; [now apply L|]. intros [k K].
  pose proof (sized_pos _ _ _ S2) as P. assert (z = k) as ->.
  { eapply trunc_unique; [exact Tr|]. now apply trunc_int. }
  rewrite <- K. field. lra.
Qed.

Lemma sum_node : forall o a b ia ib na nb ma mb t i la ha lb hb la' ha' lb' hb' lo hi, sum_op o ->
  integral a ia na -> integral b ib nb -> sized est (q_type a) ma -> sized est (q_type b) mb ->
  in_system U w (q_dim (q_type a)) -> in_system U w (q_dim (q_type b)) -> la <= na <= ha -> lb <= nb <= hb ->
  t_addsub est w (q_type a) (q_type b) = Ok t -> q_rep t = RInt i ->
  conversion_stays est (q_type a) t la ha la' ha' -> conversion_stays est (q_type b) t lb hb lb' hb' ->
  op_stays o i i la' ha' lb' hb' lo hi ->
  exists n m, q_addsub o est w a b = Ok (Quantity t (NInt n)) /\ in_range i n = true /\ lo <= n <= hi /\ sized est t m /\
    q_dim t = q_dim (q_type a) /\ (inject_Z n * m == exact_sum o (inject_Z na * ma) (inject_Z nb * mb))%Q.
Proof.
  intros o a b ia ib na nb ma mb t i la ha lb hb la' ha' lb' hb' lo hi So Ia Ib Sa Sb Da Db La Lb T Rt Ca Cb O.
  pose proof Ia as (Ra & Na & Ra'). pose proof Ib as (Rb & Nb & Rb').
  unfold t_addsub in T. rewrite Ra, Rb in T. cbn [arith_rep] in T. step T as t' Ct. step T as x Tx. step T as y Ty. inversion T; subst t'. clear T.
  destruct x, y.
  assert (E : q_dim (q_type a) = q_dim (q_type b)).
  { symmetry. apply equivalent_dims; auto. unfold common_quantity in Ct. step Ct as c0 C0. now apply constrained_ok in C0. }
  destruct (common_quantity_sized est w _ _ _ t ma mb (proj1 G) Sa Sb (compatible_same _ _ E) Ct) as (m & St & _ & Rq & _ & _ & _ & _ & Dt).
  assert (Dt' : q_dim t = q_dim (q_type a)) by (destruct Dt as [->| ->]; congruence).
  assert (Ei : i = arith_conv ia ib) by congruence.
  destruct (convert_node _ _ _ _ _ _ _ _ _ _ _ Sa St Dt' Ra Rt Ra' Tx Ca La) as (x & X & Ix & Bx & Vx).
  destruct (convert_node _ _ _ _ _ _ _ _ _ _ _ Sb St (eq_trans Dt' E) Rb Rt Rb' Ty Cb Lb) as (y & Y & Iy & By & Vy).
  destruct (op_stays_runs _ _ _ _ _ _ _ _ _ _ _ O Bx By Ix Iy) as (H & I & _ & B).
  rewrite arith_conv_self in I by (subst i; apply arith_conv_type).
  exists (exact_op o x y), m. split.
  - unfold q_addsub. cbv zeta. rewrite Ra, Rb. cbn [arith_rep]. rewrite Ct. cbn [bind]. rewrite Na, X. cbn [bind]. rewrite Nb, Y. cbn [bind].
    rewrite <- Ei, H. cbn [bind n_convert]. rewrite wrap_id by exact I. reflexivity.
  - split; [exact I|]. split; [exact B|]. split; [exact St|]. split; [exact Dt'|].
    destruct So as [->| ->]; cbn [exact_op exact_sum]; rewrite <- Vx, <- Vy; [rewrite inject_Z_plus|unfold Z.sub; rewrite inject_Z_plus, inject_Z_opp]; ring.
Qed.

(** ** Expressions *)

Definition bounded_result (e : aexpr) (lo hi : Z) (r : avalue) : Prop :=
  exists i n m, integral (distance r) i n /\ lo <= n <= hi /\ sized est (q_type (distance r)) m /\ in_system U w (q_dim (q_type (distance r))) /\
  forall v, worth rb est w at_ e v -> (v == place at_ r + inject_Z n * m)%Q.

Lemma has_result_type : forall e r t, aeval rb est w e = Ok r -> has_type rb est w e t -> q_type (distance r) = t.
Proof.
  intros e r t H (T & HT & <-). apply type_complete in H. rewrite H in HT. inversion HT. now destruct r.
Qed.
Lemma point_dim : forall p, q_dim (q_type (relative p)) = o_dim (p_origin (pt_type p)).
Proof. reflexivity. Qed.
Lemma sized_as : forall t t' m, sized est t m -> q_dim t' = q_dim t -> q_unit t' = q_unit t -> sized est t' m.
Proof. intros [d u r] [d' u' r'] m S D U'. cbn in D, U'. subst. exact (sized_rep _ _ _ r' S). Qed.
Lemma anumber_is : forall e r n z, aeval rb est w e = Ok r -> anumber rb est w e z -> q_num (distance r) = NInt n -> z = n.
Proof. intros e r n z H (q & Q & E) N. rewrite H in Q. inversion Q; subst r. cbn in N. congruence. Qed.

(** Casts. *)
Lemma t_qcast_cast : forall c a to, t_qcast est w c (q_type a) = Ok to -> t_cast est (q_type a) to = Ok tt /\
  forall x, quantity_cast est (q_type a) to (q_num a) = Ok x -> q_cast est w c a = Ok (Quantity to x).
Proof.
  intros c a to H. unfold t_qcast in H. step H as t T. step H as y Y. destruct y. inversion H; subst t. clear H. split; [exact Y|]. intros x E.
  destruct c as [t|d|u|r]; cbn [q_cast].
  - inversion T; subst t. rewrite E. reflexivity.
  - unfold quantity_cast_dim. step T as c C. step T as v V. rewrite C; cbn [bind]. rewrite V; cbn [bind]. rewrite T; cbn [bind]. rewrite E. reflexivity.
  - unfold quantity_cast_unit. rewrite T; cbn [bind]. rewrite E. reflexivity.
  - unfold quantity_cast_rep. cbv zeta. inversion T as [E']. rewrite E'. rewrite E. reflexivity.
Qed.
Lemma t_qcast_dim : forall c t to, t_qcast est w c t = Ok to -> in_system U w (q_dim t) ->
  match c with ToQuantity t => in_system U w (q_dim t) | ToDim d => in_system U w d | _ => True end ->
  in_system U w (q_dim to).
Proof.
  intros c t to H D A. unfold t_qcast in H. step H as t' T. step H as y Y. inversion H; subst t'. clear H.
  destruct c as [t'|d|u|r]; [inversion T; now subst| | |inversion T; exact D].
  - step T as c C. step T as v V. unfold mk_qtype in T. step T as k K. inversion T. exact A.
  - unfold mk_qtype in T. step T as k K. inversion T. exact D.
Qed.

Lemma scale_value : forall o (sw : bool) q r z t x, t_scale (q_type q) r = Ok t ->
  (if sw then n_op o r (q_rep (q_type q)) z (q_num q) else n_op o (q_rep (q_type q)) r (q_num q) z) = Ok x ->
  q_scale o sw q r z = Ok (Quantity t x).
Proof.
  intros o sw q r z t x H E. unfold t_scale in H. step H as c C. inversion H; subst t. unfold q_scale. cbv zeta. rewrite C. cbn [bind]. now rewrite E.
Qed.

Lemma t_addsub_dim : forall a b s ma mb, sized est a ma -> sized est b mb -> in_system U w (q_dim a) -> in_system U w (q_dim b) ->
  t_addsub est w a b = Ok s -> q_dim s = q_dim a.
Proof.
  intros a b s ma mb Sa Sb Da Db T. unfold t_addsub in T. step T as t' Ct. step T as x Tx. step T as y Ty. inversion T; subst t'. clear T.
  assert (E : q_dim a = q_dim b).
  { symmetry. apply equivalent_dims; auto. unfold common_quantity in Ct. step Ct as c0 C0. now apply constrained_ok in C0. }
  destruct (common_quantity_sized est w _ _ _ s ma mb (proj1 G) Sa Sb (compatible_same _ _ E) Ct) as (m & _ & _ & _ & _ & _ & _ & _ & Dt).
  destruct Dt as [->| ->]; congruence.
Qed.
Lemma t_point_sum : forall p q s mp mq, sized est (q_type (relative p)) mp -> sized est (q_type q) mq ->
  in_system U w (q_dim (q_type (relative p))) -> in_system U w (q_dim (q_type q)) ->
  t_point_addsub rb est w (pt_type p) (q_type q) = Ok s ->
  t_addsub est w (q_type (relative p)) (q_type q) = Ok (p_qtype s) /\ p_origin s = p_origin (pt_type p).
Proof.
  intros p q s mp mq Sp Sq Dp Dq H. unfold t_point_addsub in H. step H as t T.
  pose proof (t_addsub_dim _ _ _ _ _ Sp Sq Dp Dq T) as E. cbn [relative q_type p_qtype q_dim] in E. rewrite E, rebind_same in H.
  step H as t' T'. step H as u0 U0. inversion H; subst t'. unfold mk_ptype in T'. step T' as k K. inversion T'; subst s.
  split; [|reflexivity]. unfold p_qtype. cbn [p_origin p_unit p_rep]. rewrite <- E. cbn [relative q_type]. rewrite T. now destruct t.
Qed.

Theorem stays_bounded : forall e lo hi, stays rb est w e lo hi -> aall_dims (in_system U w) e -> forall T, type_of rb est w e = Ok T ->
  exists r, aeval rb est w e = Ok r /\ vtype r = T /\ bounded_result e lo hi r.
Proof.
  assert (Fin : forall e lo hi T, type_of rb est w e = Ok T -> (exists r, aeval rb est w e = Ok r /\ bounded_result e lo hi r) ->
    exists r, aeval rb est w e = Ok r /\ vtype r = T /\ bounded_result e lo hi r).
  { intros e lo hi T HT (r & E & B). exists r. split; [exact E|]. split; [|exact B]. apply type_complete in E. rewrite HT in E. now inversion E. }
  pose proof (proj1 G) as C.
  induction 1 as [q i n m lo hi I S B|p i n m lo hi I S B|o a t t' lo hi lo' hi' Sa IH Ta T' O
    |o a b ta tb t i la ha lb hb la' ha' lb' hb' lo hi Ho Sa IHa Sb IHb Ta Tb Tt Rt Ca Cb O
    |o a b ta tb i j la ha lb hb lo hi Ho Sa IHa Sb IHb Ta Tb Ra Rb O
    |t a ta i m lo hi lo' hi' Sa IH Ta Sm Rt Cv|t a ta i m lo hi lo' hi' Sa IH Ta Sm Rt Cv|a lo hi Sa IH
    |c a t t' i m lo hi lo' hi' Sa IH Ta Tt Sm Rt Cv|t a ta i m lo hi lo' hi' Sa IH Ta Sm Rt Cv];
    intros A T HT; (apply Fin; [exact HT|]); cbn [aall_dims] in A.
  - exists (VQuantity q). split; [reflexivity|]. exists i, n, m. split; [exact I|]. split; [exact B|]. split; [exact S|]. split; [exact A|].
    intros v V. inversion V as [q0 v0 (n' & m' & Nn & M & E)| | | | | | | | | | | | | | | | | |]; subst. destruct I as (_ & N & _). assert (n' = n) by congruence. subst n'.
    destruct S as (_ & _ & _ & M'). rewrite E, (magnitude_unique _ _ _ _ M M'). cbn [place]. ring.
  - exists (VPoint p). split; [reflexivity|]. exists i, n, m. split; [exact I|]. split; [exact B|]. split; [exact S|]. split; [exact A|].
    intros v V. inversion V as [|q0 v0 (n' & m' & Nn & M & E)| | | | | | | | | | | | | | | | |]; subst. destruct I as (_ & N & _). assert (n' = n) by (rewrite N in Nn; now inversion Nn). subst n'.
    destruct S as (_ & _ & _ & M'). rewrite E, (magnitude_unique _ _ _ _ M M'). reflexivity.
  - destruct A as [Ao A]. cbn [type_of] in HT. unfold t_on_quantity in HT. step HT as T0 HT0. step HT as t0 Q0. step HT as t1 U1.
    destruct T0 as [t00|]; [|discriminate Q0]. inversion Q0; subst t00. clear Q0. destruct (IH A _ HT0) as (r & E & Vt & i & n & m & I & B & S & D & W).
    destruct r as [q|]; [|discriminate Vt]. cbn [vtype distance place] in *. inversion Vt; subst t0. clear Vt.
    pose proof (has_result_type _ _ _ E Ta) as Et. cbn [distance] in Et. subst t.
    assert (Et' : t1 = t').
    { destruct T' as (TT & H1 & <-). cbn [type_of] in H1. unfold t_on_quantity in H1. rewrite HT0 in H1. cbn [bind t_want_quantity] in H1. rewrite U1 in H1. now inversion H1. }
    subst t1. pose proof I as (Ri & Ni & Ii).
    assert (Goal' : forall k i' m', unary_quantity est w o q = Ok (Quantity t' (NInt k)) -> q_rep t' = RInt i' -> in_range i' k = true -> lo' <= k <= hi' ->
      sized est t' m' -> in_system U w (q_dim t') -> (forall v, worth rb est w at_ (AUnary o a) v -> (v == inject_Z k * m')%Q) ->
      exists r, aeval rb est w (AUnary o a) = Ok r /\ bounded_result (AUnary o a) lo' hi' r).
    { intros k i' m' Eu Rk Ik Bk Sk Dk Wk. exists (VQuantity (Quantity t' (NInt k))). split; [cbn [aeval]; rewrite E; cbn [bind want_quantity]; now rewrite Eu|].
      exists i', k, m'. cbn [distance q_type place]. split; [split; [exact Rk|split; [reflexivity|exact Ik]]|]. split; [exact Bk|]. split; [exact Sk|]. split; [exact Dk|].
      intros v V. rewrite (Wk v V). ring. }
    assert (W' : forall v, worth rb est w at_ a v -> (v == inject_Z n * m)%Q) by (intros v V; rewrite (W v V); ring). clear W.
    assert (Sc : forall op (sw : bool) j z, t_scale (q_type q) (RInt j) = Ok t' -> in_range j z = true ->
      op_stays op (if sw then j else i) (if sw then i else j) (if sw then z else lo) (if sw then z else hi) (if sw then lo else z) (if sw then hi else z) lo' hi' ->
      let k := if sw then exact_op op z n else exact_op op n z in
      q_scale op sw q (RInt j) (NInt z) = Ok (Quantity t' (NInt k)) /\ q_rep t' = RInt (arith_conv i j) /\ in_range (arith_conv i j) k = true /\ lo' <= k <= hi' /\
      sized est t' m /\ in_system U w (q_dim t') /\ (divides_op op = true -> (if sw then n else z) <> 0)).
    { intros op sw j z Ts Rj Os k.
      assert (Et : t' = with_rep (q_type q) (arith_rep (q_rep (q_type q)) (RInt j))) by (unfold t_scale in Ts; step Ts as c0 C0; now inversion Ts).
      assert (Bz : z <= z <= z) by lia.
      assert (X : (if sw then n_op op (RInt j) (RInt i) (NInt z) (NInt n) else n_op op (RInt i) (RInt j) (NInt n) (NInt z)) = Ok (NInt k) /\
        in_range (arith_conv i j) k = true /\ (divides_op op = true -> (if sw then n else z) <> 0) /\ lo' <= k <= hi').
      { subst k. destruct sw.
        - rewrite (arith_conv_sym i j). exact (op_stays_runs _ _ _ _ _ _ _ _ _ _ _ Os Bz B Rj Ii).
        - exact (op_stays_runs _ _ _ _ _ _ _ _ _ _ _ Os B Bz Ii Rj). }
      destruct X as (X1 & X2 & X3 & X4). split; [apply scale_value; [exact Ts|]; rewrite Ri, Ni; exact X1|].
      split; [rewrite Et, Ri; reflexivity|]. split; [exact X2|]. split; [exact X4|]. split; [rewrite Et; exact (sized_rep _ _ _ _ S)|].
      split; [rewrite Et; exact D|exact X3]. }
    destruct o as [| |r x|r x|r x|r x|r x|t|c]; cbn [t_unary unary_stays] in U1, O.
    + inversion U1; subst t'. rewrite Ri in *. cbn [promote_rep] in *.
      refine (Goal' n (promote i) m _ eq_refl (promote_holds _ _ Ii) _ (sized_rep _ _ _ _ S) D _); [|lia|].
      * unfold unary_quantity, q_plus. cbv zeta. rewrite Ri, Ni. cbn [promote_rep n_convert bind]. rewrite wrap_id by (now apply promote_holds). reflexivity.
      * intros v V. inversion V; subst. auto.
    + inversion U1; subst t'. rewrite Ri in *. cbn [promote_rep] in *. destruct O as (j & Ej & O). cbn in Ej. inversion Ej; subst j. destruct (O n B) as [Rn Bn].
      refine (Goal' (- n) (promote i) m _ eq_refl Rn Bn (sized_rep _ _ _ _ S) D _).
      * unfold unary_quantity, q_neg. cbv zeta. rewrite Ri, Ni. cbn [promote_rep n_neg]. unfold cneg. rewrite arith_in_range by exact Rn. reflexivity.
      * intros v V. inversion V as [| | |a0 v0 V0| | | | | | | | | | | | | | |]; subst. rewrite (W' _ V0), inject_Z_opp. ring.
    + destruct r as [j|], x as [z|]; try contradiction. destruct O as (i' & Ei & Rj & O). assert (i' = i) by congruence. subst i'.
      destruct (Sc OpMul false j z U1 Rj O) as (X1 & X2 & X3 & X4 & X5 & X6 & _). refine (Goal' _ _ m X1 X2 X3 X4 X5 X6 _).
      intros v V. inversion V as [| | | | | | | | |a0 r0 z0 x0 V0| | | | | | | | |]; subst. rewrite (W' _ V0). cbn [exact_op]. rewrite inject_Z_mult. ring.
    + destruct r as [j|], x as [z|]; try contradiction. destruct O as (i' & Ei & Rj & O). assert (i' = i) by congruence. subst i'.
      destruct (Sc OpMul true j z U1 Rj O) as (X1 & X2 & X3 & X4 & X5 & X6 & _). refine (Goal' _ _ m X1 X2 X3 X4 X5 X6 _).
      intros v V. inversion V as [| | | | | | | | | |a0 r0 z0 x0 V0| | | | | | | |]; subst. rewrite (W' _ V0). cbn [exact_op]. rewrite inject_Z_mult. ring.
    + destruct r as [j|], x as [z|]; try contradiction. destruct O as (i' & Ei & Rj & O). assert (i' = i) by congruence. subst i'.
      destruct (Sc OpDiv false j z U1 Rj O) as (X1 & X2 & X3 & X4 & X5 & X6 & X7). refine (Goal' _ _ m X1 X2 X3 X4 X5 X6 _).
      specialize (X7 eq_refl). cbn in X7.
      intros v V. inversion V as [| | | | | | | | | | |a0 r0 z0 x0 n0 V0 N0 Dv| | | | | | |]; subst. rewrite (W' _ V0). cbn [exact_op].
      rewrite (anumber_is _ _ _ _ E N0 Ni) in Dv. rewrite even_quot by auto. field. now apply injZ_nz.
    + destruct r as [j|], x as [z|]; try contradiction. destruct O as (i' & Ei & Rj & O). assert (i' = i) by congruence. subst i'.
      assert (Bz : z <= z <= z) by lia. destruct (op_stays_runs _ _ _ _ _ _ _ _ _ _ _ O Bz B Rj Ii) as (X1 & X2 & X3 & X4). specialize (X3 eq_refl).
      assert (Rt' : q_rep t' = RInt (arith_conv j i) /\ dim_invert w (q_dim (q_type q)) = Ok (q_dim t')).
      { unfold t_value_over in U1. step U1 as c0 C0. step U1 as d0 D0. step U1 as i0 I0. step U1 as u0 U0. inversion U1. cbn [q_rep q_dim]. rewrite Ri. auto. }
      destruct Rt' as [Rt' Di].
      assert (Ev : value_div_q w (RInt j) (NInt z) q = Ok (Quantity t' (NInt (exact_op OpDiv z n)))).
      { unfold t_value_over in U1. unfold value_div_q. cbv zeta. step U1 as c0 C0. step U1 as d0 D0. step U1 as i0 I0. step U1 as u0 U0. inversion U1. subst t'.
        rewrite C0; cbn [bind]. rewrite D0; cbn [bind]. rewrite I0; cbn [bind]. rewrite U0; cbn [bind]. rewrite Ri, Ni. cbn [n_op]. rewrite X1. reflexivity. }
      pose proof (invert_in_system U w G _ _ D Di) as Dq. destruct (O z n Bz B) as (Of & Oi & _).
      destruct (value_div_values est w j z q i n m _ C Rj I S Of (or_intror Oi) Ev (system_unit_good U w G _ Dq)) as (_ & _ & _ & Mg). cbn [q_type] in Mg.
      destruct (value_div_good U w G est (RInt j) (NInt z) q m (Quantity t' (NInt (exact_op OpDiv z n))) D S Dq Ev) as (Gt & Ou). cbn [q_type] in Gt, Ou.
      refine (Goal' _ _ _ Ev Rt' X2 X4 (conj Gt (conj Ou (conj (system_roots U w _ _ Dq) Mg))) Dq _).
      intros v V. inversion V as [| | | | | | | | | | | |a0 r0 z0 x0 n0 V0 N0 Dv Co| | | | | |]; subst. rewrite (W' _ V0). cbn [exact_op].
      rewrite (anumber_is _ _ _ _ E N0 Ni) in Dv. rewrite even_quot by auto. rewrite (Co _ _ E Di).
      pose proof (sized_pos _ _ _ S) as P. field. split; [lra|]. now apply injZ_nz.
    + destruct r as [j|], x as [z|]; try contradiction. destruct O as (i' & Ei & Rj & O). assert (i' = i) by congruence. subst i'.
      step U1 as c0 C0. destruct (Sc OpRem false j z U1 Rj O) as (X1 & X2 & X3 & X4 & X5 & X6 & X7).
      assert (Ev : unary_quantity est w (URemV (RInt j) (NInt z)) q = Ok (Quantity t' (NInt (exact_op OpRem n z)))).
      { cbn [unary_quantity]. unfold q_rem_value. rewrite C0. cbn [bind]. exact X1. }
      refine (Goal' _ _ m Ev X2 X3 X4 X5 X6 _). specialize (X7 eq_refl). cbn in X7.
      intros v V. inversion V as [| | | | | | | | | | | | |a0 r0 z0 x0 t0 m0 k0 V0 (TT & HTT & ET) M0 Tr| | | | |]; subst. rewrite HT0 in HTT. inversion HTT; subst TT.
      cbn [distance_type] in M0. assert (M1 : magnitude (q_dim (q_type q)) (q_unit (q_type q)) m) by apply S.
      pose proof (magnitude_unique _ _ _ _ M0 M1) as Em. pose proof (sized_pos _ _ _ S) as P. rewrite (W' _ V0).
      assert (K : k0 = Z.quot n z).
      { eapply trunc_unique; [exact Tr|]. eapply trunc_ext; [|apply quot_trunc_any; exact X7]. rewrite (W' _ V0), Em. field. split; [lra|]. now apply injZ_nz. }
      subst k0. cbn [exact_op]. pose proof (Z.quot_rem' n z) as QR.
      assert (Er : (inject_Z (Z.rem n z) == inject_Z n - inject_Z z * inject_Z (Z.quot n z))%Q).
      { rewrite <- inject_Z_mult. rewrite QR at 2. rewrite inject_Z_plus. ring. }
      rewrite Er, Em. ring.
    + destruct O as ((mt & St) & (j & Rj) & O). step U1 as u0 U0. destruct u0. inversion U1; subst t'. clear U1.
      destruct (convert_node _ _ _ _ _ _ _ _ _ _ _ S St (t_convert_same_dim _ _ _ D Ao U0) Ri Rj Ii U0 O B) as (z & Z1 & Z2 & Z3 & Z4).
      refine (Goal' z j mt _ Rj Z2 Z3 St Ao _).
      * cbn [unary_quantity]. unfold q_to. rewrite Ni, Z1. reflexivity.
      * intros v V. inversion V as [| | | | | | | | | | | | | |t0 a0 x0 V0| | | |]; subst. now rewrite (W' _ V0), Z4.
    + destruct O as ((mt & St) & (j & Rj) & O). destruct (t_qcast_cast _ _ _ U1) as [Tc Ec].
      assert (Ao' : match c with ToQuantity t => in_system U w (q_dim t) | ToDim d => in_system U w d | _ => True end) by (destruct c; exact Ao).
      pose proof (t_qcast_dim _ _ _ U1 D Ao') as Dt.
      destruct (cast_node _ _ _ _ _ _ _ _ _ _ _ S St (equivalent_dims _ _ Dt D (t_cast_dims _ _ _ Tc)) Ri Rj O B) as (z & Z1 & Z2 & Z3 & Z4).
      rewrite <- Ni in Z1. refine (Goal' z j mt (Ec _ Z1) Rj Z2 Z3 St Dt _).
      intros v V. inversion V as [| | | | | | | | | | | | | | |c0 a0 x0 t0 m0 V0 HTc M0 Wh| | |]; subst.
      assert (t0 = t').
      { destruct HTc as (T1 & HT1 & <-). destruct T' as (T2 & HT2 & <-). congruence. }
      subst t0. assert (M1 : magnitude (q_dim t') (q_unit t') mt) by apply St. pose proof (magnitude_unique _ _ _ _ M0 M1) as Em.
      rewrite (W' _ V0). symmetry. apply Z4. destruct Wh as [k K]. exists k. rewrite <- K, (W' _ V0), Em. reflexivity.
  - destruct A as [A1 A2]. pose proof HT as HT'. cbn [type_of] in HT'. step HT' as T1 HT1. step HT' as T2 HT2.
    destruct (IHa A1 _ HT1) as (ra & E1 & V1 & i1 & n1 & m1 & I1 & B1 & S1 & D1 & W1).
    destruct (IHb A2 _ HT2) as (rb' & E2 & V2 & i2 & n2 & m2 & I2 & B2 & S2 & D2 & W2).
    pose proof (has_result_type _ _ _ E1 Ta) as Et1. pose proof (has_result_type _ _ _ E2 Tb) as Et2. subst ta tb.
    assert (ET : distance_type T = t) by (destruct Tt as (TT & HTT & <-); rewrite HT in HTT; now inversion HTT). clear Tt HT1 HT2. subst T1 T2.
    assert (So : sum_op (op_of o)) by (destruct Ho as [->| ->]; [now left|now right]).
    assert (Goal' : forall r n' m', aeval rb est w (ABinary o a b) = Ok r -> distance r = Quantity t (NInt n') -> in_range i n' = true -> lo <= n' <= hi ->
      sized est t m' -> in_system U w (q_dim t) ->
      (forall x y, (x == place at_ ra + inject_Z n1 * m1)%Q -> (y == place at_ rb' + inject_Z n2 * m2)%Q -> (exact_sum (op_of o) x y == place at_ r + inject_Z n' * m')%Q) ->
      exists r, aeval rb est w (ABinary o a b) = Ok r /\ bounded_result (ABinary o a b) lo hi r).
    { intros r n' m' Er Dr In Bn Sn Dn Wn. exists r. split; [exact Er|]. exists i, n', m'. rewrite Dr. cbn [q_type].
      split; [split; [exact Rt|split; [reflexivity|exact In]]|]. split; [exact Bn|]. split; [exact Sn|]. split; [exact Dn|].
      intros v V. destruct Ho as [->| ->]; inversion V; subst; (apply (Wn x y); auto). }
    assert (Node : t_addsub est w (q_type (distance ra)) (q_type (distance rb')) = Ok t ->
      exists n m, q_addsub (op_of o) est w (distance ra) (distance rb') = Ok (Quantity t (NInt n)) /\ in_range i n = true /\ lo <= n <= hi /\ sized est t m /\
      q_dim t = q_dim (q_type (distance ra)) /\ (inject_Z n * m == exact_sum (op_of o) (inject_Z n1 * m1) (inject_Z n2 * m2))%Q).
    { intros Ta'. exact (sum_node _ _ _ _ _ _ _ _ _ _ _ _ _ _ _ _ _ _ _ _ _ So I1 I2 S1 S2 D1 D2 B1 B2 Ta' Rt Ca Cb O). }
    destruct ra as [qa|pa], rb' as [qb|pb]; cbn [vtype distance place] in *.
    + assert (Ts : t_addsub est w (q_type qa) (q_type qb) = Ok t).
      { destruct Ho as [->| ->]; cbn [t_binary t_binary_quantity] in HT'; step HT' as s Hs; inversion HT'; subst T; cbn in ET; now subst s. }
      destruct (Node Ts) as (n' & m' & H & In & Bn & Sn & Dn & Vn).
      refine (Goal' (VQuantity (Quantity t (NInt n'))) n' m' _ eq_refl In Bn Sn _ _).
      * cbn [aeval]. rewrite E1; cbn [bind]. rewrite E2; cbn [bind]. destruct Ho as [->| ->]; cbn [binary_value binary_quantity]; unfold q_add, q_sub; cbn [op_of] in H; now rewrite H.
      * now rewrite Dn.
      * intros x y X Y. cbn [place]. rewrite Vn. destruct So as [->| ->]; cbn [exact_sum]; rewrite X, Y; ring.
    + destruct Ho as [->| ->]; cbn [t_binary] in HT'; [|discriminate HT']. step HT' as s Hs. inversion HT'; subst T. cbn [distance_type] in ET.
      destruct (t_point_sum _ _ _ _ _ S2 S1 D2 D1 Hs) as (Ts & Os). rewrite ET in Ts.
      assert (O' : op_stays OpAdd i i lb' hb' la' ha' lo hi).
      { intros x y X Y. destruct (O y x Y X) as (F & R & _ & _ & Bd). cbn [op_of exact_op] in *. rewrite (Z.add_comm x y).
        split; [destruct F as [F|F]; [now left|right; tauto]|]. split; [exact R|]. split; [discriminate|]. split; [discriminate|exact Bd]. }
      destruct (sum_node _ _ _ _ _ _ _ _ _ _ _ _ _ _ _ _ _ _ _ _ _ So I2 I1 S2 S1 D2 D1 B2 B1 Ts Rt Cb Ca O') as (n' & m' & H & In & Bn & Sn & Dn & Vn).
      cbn [op_of] in H. destruct (p_addsub_available OpAdd rb est w pb qa _ H Dn) as (r & Hr & Rr & Or).
      refine (Goal' (VPoint r) n' m' _ Rr In Bn Sn _ _).
      * cbn [aeval]. rewrite E1; cbn [bind]. rewrite E2; cbn [bind]. cbn [binary_value]. unfold q_plus_point, p_add. now rewrite Hr.
      * now rewrite Dn.
      * intros x y X Y. cbn [place op_of exact_sum] in *. rewrite X, Y, Vn, Or. ring.
    + assert (Hs : exists s, t_point_addsub rb est w (pt_type pa) (q_type qb) = Ok s /\ T = TPoint s).
      { destruct Ho as [->| ->]; cbn [t_binary] in HT'; step HT' as s Hs; inversion HT'; eauto. }
      destruct Hs as (s & Hs & ->). cbn [distance_type] in ET.
      destruct (t_point_sum _ _ _ _ _ S1 S2 D1 D2 Hs) as (Ts & Os). rewrite ET in Ts.
      destruct (Node Ts) as (n' & m' & H & In & Bn & Sn & Dn & Vn).
      destruct (p_addsub_available (op_of o) rb est w pa qb _ H Dn) as (r & Hr & Rr & Or).
      refine (Goal' (VPoint r) n' m' _ Rr In Bn Sn _ _).
      * cbn [aeval]. rewrite E1; cbn [bind]. rewrite E2; cbn [bind]. destruct Ho as [->| ->]; cbn [binary_value op_of] in *; unfold p_add, p_sub; now rewrite Hr.
      * now rewrite Dn.
      * intros x y X Y. cbn [place]. rewrite Or, Vn. destruct So as [->| ->]; cbn [exact_sum]; rewrite X, Y; ring.
    + destruct Ho as [->| ->]; cbn [t_binary] in HT'; [discriminate HT'|]. step HT' as s Hs. inversion HT'; subst T. cbn [distance_type] in ET. subst s.
      unfold t_point_diff in Hs. step Hs as c0 C0. apply constrained_ok in C0. apply origin_equivalent_iff in C0.
      destruct (Node Hs) as (n' & m' & H & In & Bn & Sn & Dn & Vn). cbn [op_of] in *.
      refine (Goal' (VQuantity (Quantity t (NInt n'))) n' m' _ eq_refl In Bn Sn _ _).
      * cbn [aeval]. rewrite E1; cbn [bind]. rewrite E2; cbn [bind]. cbn [binary_value].
        assert (Pd : p_diff rb est w pa pb = Ok (Quantity t (NInt n'))) by (apply diff_iff; split; [now apply one_origin_sym|exact H]). now rewrite Pd.
      * now rewrite Dn.
      * intros x y X Y. cbn [place exact_sum] in *. pose proof (origin_same U w HU rb _ _ D2 D1 C0) as Oe. rewrite X, Y, Vn, Oe. ring.
  - destruct A as [A1 A2]. cbn [type_of] in HT. step HT as T1 HT1. step HT as T2 HT2.
    destruct (IHa A1 _ HT1) as (ra & E1 & V1 & i1 & n1 & m1 & I1 & B1 & S1 & D1 & W1).
    destruct (IHb A2 _ HT2) as (rb' & E2 & V2 & i2 & n2 & m2 & I2 & B2 & S2 & D2 & W2).
    pose proof (has_result_type _ _ _ E1 Ta) as Et1. pose proof (has_result_type _ _ _ E2 Tb) as Et2. subst ta tb. clear HT1 HT2. subst T1 T2.
    assert (Hq : exists qa qb, ra = VQuantity qa /\ rb' = VQuantity qb).
    { destruct ra, rb'; [eauto| | |]; exfalso; destruct Ho as [->|[->| ->]]; discriminate HT. }
    destruct Hq as (qa & qb & -> & ->). cbn [vtype distance place] in *.
    pose proof I1 as (R1 & N1 & J1). pose proof I2 as (R2 & N2 & J2). assert (i1 = i) by congruence. assert (i2 = j) by congruence. subst i1 i2.
    destruct (op_stays_runs _ _ _ _ _ _ _ _ _ _ _ O B1 B2 J1 J2) as (X1 & X2 & X3 & X4).
    destruct (O n1 n2 B1 B2) as (Of & _).
    assert (W1' : forall v, worth rb est w at_ a v -> (v == inject_Z n1 * m1)%Q) by (intros v V; rewrite (W1 v V); ring). clear W1.
    assert (W2' : forall v, worth rb est w at_ b v -> (v == inject_Z n2 * m2)%Q) by (intros v V; rewrite (W2 v V); ring). clear W2.
    pose proof (sized_pos _ _ _ S1) as P1. pose proof (sized_pos _ _ _ S2) as P2.
    assert (HT' : exists t, t_binary_quantity est w o (q_type qa) (q_type qb) = Ok t).
    { destruct Ho as [->|[->| ->]]; cbn [t_binary] in HT; step HT as s Hs; eauto. }
    destruct HT' as [t HT']. clear HT.
    assert (Ev : binary_quantity est w o qa qb = Ok (Quantity t (NInt (exact_op (op_of o) n1 n2))) /\ q_rep t = RInt (arith_conv i j)).
    { destruct Ho as [->|[->| ->]]; cbn [t_binary_quantity binary_quantity op_of] in *.
      - unfold t_times in HT'. step HT' as r0 Q0. inversion HT'. subst t. unfold q_times. cbv zeta. rewrite Q0; cbn [bind]. rewrite R1, R2, N1, N2, X1. cbn [bind]. auto.
      - unfold t_over in HT'. step HT' as r0 Q0. inversion HT'. subst t. unfold q_over. cbv zeta. rewrite Q0; cbn [bind]. rewrite R1, R2, N1, N2, X1. cbn [bind]. auto.
      - unfold t_rem in HT'. step HT' as r0 Q0. inversion HT'. subst t. unfold q_rem. cbv zeta. rewrite Q0; cbn [bind]. rewrite R1, R2, N1, N2, X1. cbn [bind]. auto. }
    destruct Ev as [Ev Rt].
    assert (Goal' : forall m', sized est t m' -> in_system U w (q_dim t) ->
      (forall v, worth rb est w at_ (ABinary o a b) v -> (v == inject_Z (exact_op (op_of o) n1 n2) * m')%Q) ->
      exists r, aeval rb est w (ABinary o a b) = Ok r /\ bounded_result (ABinary o a b) lo hi r).
    { intros m' Sm Dm Wm. exists (VQuantity (Quantity t (NInt (exact_op (op_of o) n1 n2)))). split.
      - cbn [aeval]. rewrite E1; cbn [bind]. rewrite E2; cbn [bind]. destruct Ho as [->|[->| ->]]; cbn [binary_value]; now rewrite Ev.
      - exists (arith_conv i j), (exact_op (op_of o) n1 n2), m'. cbn [distance q_type place]. split; [split; [exact Rt|split; [reflexivity|exact X2]]|].
        split; [exact X4|]. split; [exact Sm|]. split; [exact Dm|]. intros v V. rewrite (Wm v V). ring. }
    destruct Ho as [->|[->| ->]]; cbn [op_of binary_quantity exact_op divides_op] in *.
    + pose proof (multiply_in_system U w HU G _ _ _ D1 D2 (times_dim _ _ _ _ Ev)) as Dt. cbn [q_type] in Dt.
      destruct (q_times_values est w qa qb i j n1 n2 m1 m2 C I1 I2 S1 S2 Of _ Ev (system_unit_good U w G _ Dt) (or_intror X2)) as (_ & Gd & Mg & _).
      refine (Goal' _ (conj Gd (conj (times_unit_of _ _ _ _ Ev) (conj (system_roots U w _ _ Dt) Mg))) Dt _).
      intros v V. inversion V as [| | | | | |a0 b0 x y Va Vb| | | | | | | | | | | |]; subst. rewrite (W1' _ Va), (W2' _ Vb), inject_Z_mult. ring.
    + specialize (X3 eq_refl). pose proof (divide_in_system U w HU G _ _ _ D1 D2 (over_dim _ _ _ _ Ev)) as Dt. cbn [q_type] in Dt.
      destruct (q_over_values est w qa qb i j n1 n2 m1 m2 C I1 I2 S1 S2 Of _ Ev (system_unit_good U w G _ Dt) (or_intror X2)) as (_ & _ & Gd & Mg & _).
      refine (Goal' _ (conj Gd (conj (over_unit_of _ _ _ _ Ev) (conj (system_roots U w _ _ Dt) Mg))) Dt _).
      intros v V. inversion V as [| | | | | | |a0 b0 x y n k Va Vb Na Nb Dv| | | | | | | | | | |]; subst.
      rewrite (anumber_is _ _ _ _ E1 Na N1), (anumber_is _ _ _ _ E2 Nb N2) in Dv. rewrite (W1' _ Va), (W2' _ Vb), even_quot by auto.
      field. repeat split; try lra. now apply injZ_nz.
    + specialize (X3 eq_refl). assert (Et : t = with_rep (q_type qa) (RInt (arith_conv i j))).
      { cbn [t_binary_quantity] in HT'. unfold t_rem in HT'. step HT' as c0 C0. inversion HT'. now rewrite R1, R2. }
      refine (Goal' m1 _ _ _); [rewrite Et; exact (sized_rep _ _ _ _ S1)|rewrite Et; exact D1|].
      intros v V. inversion V as [| | | | | | | |a0 b0 x y k Va Vb Su Tr| | | | | | | | | |]; subst. destruct (Su _ _ E1 E2) as [Ed Eu].
      assert (Em : (m1 == m2)%Q).
      { destruct S1 as (_ & _ & _ & Ma), S2 as (_ & _ & _ & Mb). rewrite Ed, Eu in Ma. eapply magnitude_unique; eauto. }
      assert (K : k = Z.quot n1 n2).
      { eapply trunc_unique; [exact Tr|]. eapply trunc_ext; [|apply quot_trunc_any; exact X3]. rewrite (W1' _ Va), (W2' _ Vb), Em. field.
        split; [lra|]. now apply injZ_nz. }
      subst k. rewrite (W1' _ Va), (W2' _ Vb), <- Em. pose proof (Z.quot_rem' n1 n2) as QR.
      assert (Er : (inject_Z (Z.rem n1 n2) == inject_Z n1 - inject_Z n2 * inject_Z (Z.quot n1 n2))%Q).
      { rewrite <- inject_Z_mult. rewrite QR at 2. rewrite inject_Z_plus. ring. }
      rewrite Er. ring.
  - destruct A as [At A]. cbn [type_of] in HT. unfold t_on_point in HT. step HT as T0 HT0. step HT as t0 Q0. step HT as u0 U0.
    destruct T0 as [|t00]; [discriminate Q0|]. inversion Q0; subst t00. clear Q0. destruct (IH A _ HT0) as (r & E & Vt & i' & n & m' & I & B & S & D & W).
    destruct r as [|p]; [discriminate Vt|]. cbn [vtype distance place] in *. inversion Vt; subst t0. clear Vt.
    pose proof (has_result_type _ _ _ E Ta) as Et. cbn [distance] in Et. subst ta. pose proof I as (Ri & Ni & Ii).
    unfold t_move in U0. step U0 as c0 C0. apply constrained_ok in C0. apply origin_equivalent_iff in C0. destruct u0.
    pose proof (origin_same U w HU rb _ _ D At C0) as Oe.
    destruct (convert_node _ (p_qtype t) _ i _ _ _ _ _ _ _ S Sm (f_equal o_dim (eq_sym Oe)) Ri Rt Ii U0 Cv B) as (z & Z1 & Z2 & Z3 & Z4).
    exists (VPoint (Point t (NInt z))). split.
    + cbn [aeval]. rewrite E. cbn [bind want_point].
      assert (Pt : p_to rb est t p = Ok (Point t (NInt z))).
      { apply to_iff. split; [exact C0|]. split; [reflexivity|]. unfold q_to. rewrite Ni, Z1. reflexivity. }
      now rewrite Pt.
    + exists i, z, m. cbn [distance place pt_type]. split; [split; [exact Rt|split; [reflexivity|exact Z2]]|]. split; [exact Z3|]. split; [exact Sm|]. split; [exact At|].
      intros v V. inversion V as [| | | | | | | | | | | | | | | |t0 a0 x0 V0| |]; subst. now rewrite (W _ V0), Z4, Oe.
  - destruct A as [At A]. cbn [type_of] in HT. unfold t_on_quantity in HT. step HT as T0 HT0. step HT as t0 Q0. step HT as u0 U0.
    destruct T0 as [t00|]; [|discriminate Q0]. inversion Q0; subst t00. clear Q0. destruct (IH A _ HT0) as (r & E & Vt & i' & n & m' & I & B & S & D & W).
    destruct r as [q|]; [|discriminate Vt]. cbn [vtype distance place] in *. inversion Vt; subst t0. clear Vt.
    pose proof (has_result_type _ _ _ E Ta) as Et. cbn [distance] in Et. subst ta. pose proof I as (Ri & Ni & Ii). destruct u0.
    destruct (convert_node _ (p_qtype t) _ i _ _ _ _ _ _ _ S Sm (t_convert_same_dim _ (p_qtype t) _ D At U0) Ri Rt Ii U0 Cv B) as (z & Z1 & Z2 & Z3 & Z4).
    exists (VPoint (Point t (NInt z))). split.
    + cbn [aeval]. rewrite E. cbn [bind want_quantity]. unfold p_make. rewrite Ni, Z1. reflexivity.
    + exists i, z, m. cbn [distance place pt_type]. split; [split; [exact Rt|split; [reflexivity|exact Z2]]|]. split; [exact Z3|]. split; [exact Sm|]. split; [exact At|].
      intros v V. inversion V as [| | | | | | | | | | | | | | | | |t0 a0 x0 V0|]; subst. rewrite (W _ V0), Z4. ring.
  - cbn [type_of] in HT. unfold t_on_point in HT. step HT as T0 HT0. step HT as t0 Q0.
    destruct T0 as [|t00]; [discriminate Q0|]. inversion Q0; subst t00. clear Q0. destruct (IH A _ HT0) as (r & E & Vt & i & n & m & I & B & S & D & W).
    destruct r as [|p]; [discriminate Vt|]. cbn [vtype distance place] in *. inversion Vt; subst t0. clear Vt.
    exists (VQuantity (relative p)). split; [cbn [aeval]; rewrite E; reflexivity|].
    exists i, n, m. split; [exact I|]. split; [exact B|]. split; [exact S|]. split; [exact D|]. cbn [place].
    intros v V. inversion V as [| | | | | | | | | | | | | | | | | |a0 p0 x0 V0 Tp]; subst. rewrite HT0 in Tp. inversion Tp; subst p0. rewrite (W _ V0). ring.
  - destruct A as [Ac A]. pose proof HT as HT'. cbn [type_of] in HT. unfold t_on_point in HT. step HT as T0 HT0. step HT as t0 Q0. step HT as s U0.
    destruct T0 as [|t00]; [discriminate Q0|]. inversion Q0; subst t00. clear Q0. destruct (IH A _ HT0) as (r & E & Vt & i' & n & m' & I & B & S & D & W).
    destruct r as [|p]; [discriminate Vt|]. cbn [vtype distance place] in *. inversion Vt; subst t0. clear Vt.
    pose proof (has_result_type _ _ _ E Ta) as Et. cbn [distance] in Et. subst t. pose proof I as (Ri & Ni & Ii).
    assert (s = t') as ->.
    { destruct Tt as (TT & HTT & <-). rewrite HT' in HTT. inversion HT; subst T. inversion HTT; subst TT. now destruct s. }
    destruct (t_qcast_cast c (relative p) t' U0) as [Tc Ec]. pose proof (t_qcast_dim _ _ _ U0 D Ac) as Dt.
    destruct (cast_node _ _ _ _ _ _ _ _ _ _ _ S Sm (equivalent_dims _ _ Dt D (t_cast_dims _ _ _ Tc)) Ri Rt Cv B) as (z & Z1 & Z2 & Z3 & Z4).
    rewrite <- Ni in Z1. exists (VPoint (p_deduced (Quantity t' (NInt z)))). split.
    + cbn [aeval]. rewrite E. cbn [bind want_point]. unfold point_cast. now rewrite (Ec _ Z1).
    + exists i, z, m. assert (Dd : distance (VPoint (p_deduced (Quantity t' (NInt z)))) = Quantity t' (NInt z)) by (destruct t'; reflexivity). rewrite Dd.
      split; [split; [exact Rt|split; [reflexivity|exact Z2]]|]. split; [exact Z3|]. split; [exact Sm|]. split; [exact Dt|]. intros v V. inversion V.
  - destruct A as [At A]. cbn [type_of] in HT. unfold t_on_point in HT. step HT as T0 HT0. step HT as t0 Q0. step HT as u0 U0. step HT as u1 U1.
    destruct T0 as [|t00]; [discriminate Q0|]. inversion Q0; subst t00. clear Q0. destruct (IH A _ HT0) as (r & E & Vt & i' & n & m' & I & B & S & D & W).
    destruct r as [|p]; [discriminate Vt|]. cbn [vtype distance place] in *. inversion Vt; subst t0. clear Vt.
    pose proof (has_result_type _ _ _ E Ta) as Et. cbn [distance] in Et. subst ta. pose proof I as (Ri & Ni & Ii).
    destruct (cast_node _ (p_qtype t) _ i _ _ _ _ _ _ _ S Sm (equivalent_dims _ _ At D (t_cast_dims _ _ _ U1)) Ri Rt Cv B) as (z & Z1 & Z2 & Z3 & Z4).
    rewrite <- Ni in Z1. exists (VPoint (p_deduced (Quantity (p_qtype t) (NInt z)))). split.
    + cbn [aeval]. rewrite E. cbn [bind want_point]. unfold point_cast_to. rewrite U0; cbn [bind]. cbn [q_type relative q_num] in Z1. now rewrite Z1.
    + exists i, z, m. split; [split; [exact Rt|split; [reflexivity|exact Z2]]|]. split; [exact Z3|]. split; [exact Sm|]. split; [exact At|]. intros v V. inversion V.
Qed.
End System.
