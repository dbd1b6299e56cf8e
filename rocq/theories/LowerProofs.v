(** Proofs: the operations on quantities and points as operations on numbers. *)

From Coq Require Import ZArith List Bool Lia SpecFloat.
From Verif Require Import Outcome CInt RatioMaths Pow Root Ratio Unit Downcast Dim DimOp Equivalent Rep Reference QuantityCast CommonQuantity Quantity
  CustomProofs CustomProofs2 Point Affine Static SpecStatic StaticProofs Program SpecProgram ProgramProofs SpecNumbers KindEraseProofs.
Import ListNotations.
Local Open Scope res_scope.

(** ** Functions that expressions compute *)

Definition ok (r : rep) (x : number) : Prop := num_ok r x = true.
Definition low1 (k : nat) (P Q : number -> Prop) (F : number -> res number) : Prop :=
  (forall x, P x -> runs Q (F x)) /\
  exists f, (forall a, nops (f a) <= nops a + k) /\ forall m a, runs P (neval m a) -> neval m (f a) = (x <- neval m a; F x).
Definition low2 (k : nat) (P Q R : number -> Prop) (F : number -> number -> res number) : Prop :=
  (forall x y, P x -> Q y -> runs R (F x y)) /\
  exists f, (forall a b, nops (f a b) <= nops a + nops b + k) /\
    forall m a b, runs P (neval m a) -> runs Q (neval m b) -> neval m (f a b) = (x <- neval m a; y <- neval m b; F x y).

Lemma low1_ext : forall k (P Q : number -> Prop) F G, (forall x, P x -> F x = G x) -> low1 k P Q G -> low1 k P Q F.
Proof.
  intros k P Q F G E [R (f & N & H)]. split; [intros x X; rewrite (E x X); auto|]. exists f. split; [exact N|]. intros m a A. rewrite (H m a A).
  destruct A as [(x & -> & X)| ->]; cbn [bind]; [now rewrite E|reflexivity].
Qed.
Lemma low1_more : forall k k' P Q F, k <= k' -> low1 k P Q F -> low1 k' P Q F.
Proof. intros k k' P Q F L [R (f & N & H)]. split; [exact R|]. exists f. split; [intros a; specialize (N a); lia|exact H]. Qed.
Lemma low1_any : forall k (P P' Q : number -> Prop) F, (forall x, P x -> P' x) -> low1 k P' Q F -> low1 k P Q F.
Proof.
  intros k P P' Q F I [R (f & N & H)]. split; [auto|]. exists f. split; [exact N|]. intros m a A. apply H. eapply runs_weaken; eauto.
Qed.
Lemma low1_id : forall P, low1 0 P P Ok.
Proof.
  intros P. split; [intros; now apply runs_ok|]. exists (fun a => a). split; [intros; lia|]. intros m a _. now destruct (neval m a).
Qed.
Lemma low1_comp : forall k k' P Q R F G, low1 k P Q F -> low1 k' Q R G -> low1 (k + k') P R (fun x => y <- F x; G y).
Proof.
  intros k k' P Q R F G [A (f & N & H)] [B (g & N' & H')]. split.
  - intros x X. eapply runs_bind; [exact (A x X)|exact B].
  - exists (fun a => g (f a)). split; [intros a; specialize (N a); specialize (N' (f a)); lia|]. intros m a X. rewrite H'.
    + rewrite (H m a X). now destruct (neval m a).
    + rewrite (H m a X). eapply runs_bind; [exact X|exact A].
Qed.
Lemma low1_undef : forall (P Q : number -> Prop) F, (forall x, P x -> F x = Undef) -> low1 0 P Q F.
Proof.
  intros P Q F E. split; [intros x X; rewrite E; auto; now right|]. exists (fun _ => NUndef). split; [intros; cbn; lia|]. intros m a A.
  destruct A as [(x & -> & X)| ->]; cbn [neval bind]; [now rewrite E|reflexivity].
Qed.

Definition cast_cost (a b : rep) : nat := if rep_eq_dec a b then 0 else 1.
Lemma cast_cost_le : forall a b, cast_cost a b <= 1.
Proof. intros a b. unfold cast_cost. destruct (rep_eq_dec a b); lia. Qed.
Lemma cast_cost_same : forall a, cast_cost a a = 0.
Proof. intros a. unfold cast_cost. now destruct (rep_eq_dec a a). Qed.
Lemma low1_cast : forall P a b, low1 (cast_cost a b) P (ok b) (n_convert b).
Proof.
  intros P a b. split; [intros x _; apply convert_runs|]. exists (NCast a b). split; [|reflexivity]. intros e. cbn [nops]. unfold cast_cost. destruct (rep_eq_dec a b); lia.
Qed.
Lemma low1_right : forall o r c, (o = OpRem -> floating r = false) -> ok r c -> low1 1 (ok r) (ok r) (fun x => op_in o r x c).
Proof.
  intros o r c O C. split; [intros x X; now apply op_in_runs|]. exists (fun a => NOp o r a (NLit c)). split; [intros a; cbn [nops]; lia|]. reflexivity.
Qed.
Lemma low1_left : forall o r c, (o = OpRem -> floating r = false) -> ok r c -> low1 1 (ok r) (ok r) (fun x => op_in o r c x).
Proof.
  intros o r c O C. split; [intros x X; now apply op_in_runs|]. exists (fun a => NOp o r (NLit c) a). split; [intros a; cbn [nops]; lia|]. reflexivity.
Qed.
Lemma low2_op : forall o r, (o = OpRem -> floating r = false) -> low2 1 (ok r) (ok r) (ok r) (op_in o r).
Proof.
  intros o r O. split; [intros x y X Y; now apply op_in_runs|]. exists (fun a b => NOp o r a b). split; [intros a b; cbn [nops]; lia|]. reflexivity.
Qed.
Lemma low2_pre : forall k1 k2 k P P' Q Q' R F1 F2 G, low1 k1 P P' F1 -> low1 k2 Q Q' F2 -> low2 k P' Q' R G ->
  low2 (k1 + k2 + k) P Q R (fun x y => x' <- F1 x; y' <- F2 y; G x' y').
Proof.
  intros k1 k2 k P P' Q Q' R F1 F2 G [A1 (f1 & N1 & H1)] [A2 (f2 & N2 & H2)] [A (g & N & H)]. split.
  - intros x y X Y. eapply runs_bind; [exact (A1 x X)|]. intros x' X'. eapply runs_bind; [exact (A2 y Y)|]. auto.
  - exists (fun a b => g (f1 a) (f2 b)). split; [intros a b; specialize (N (f1 a) (f2 b)); specialize (N1 a); specialize (N2 b); lia|]. intros m a b X Y.
    assert (X' : runs P' (neval m (f1 a))) by (rewrite (H1 m a X); eapply runs_bind; [exact X|exact A1]).
    assert (Y' : runs Q' (neval m (f2 b))) by (rewrite (H2 m b Y); eapply runs_bind; [exact Y|exact A2]).
    rewrite (H m _ _ X' Y'), (H1 m a X), (H2 m b Y). destruct X as [(x & -> & X)| ->]; cbn [bind]; [|reflexivity].
    destruct Y as [(y & -> & Y)| ->]; cbn [bind]; [reflexivity|]. destruct (A1 x X) as [(x' & -> & _)| ->]; reflexivity.
Qed.
Lemma low2_post : forall k k' P Q R T F G, low2 k P Q R F -> low1 k' R T G -> low2 (k + k') P Q T (fun x y => z <- F x y; G z).
Proof.
  intros k k' P Q R T F G [A (f & N & H)] [B (g & N' & H')]. split.
  - intros x y X Y. eapply runs_bind; [exact (A x y X Y)|exact B].
  - exists (fun a b => g (f a b)). split; [intros a b; specialize (N a b); specialize (N' (f a b)); lia|]. intros m a b X Y. rewrite H'.
    + rewrite (H m a b X Y). destruct (neval m a); cbn [bind]; auto. now destruct (neval m b).
    + rewrite (H m a b X Y). eapply runs_bind; [exact X|]. intros x Px. eapply runs_bind; [exact Y|]. auto.
Qed.
Lemma low2_swap : forall k P Q R F, low2 k P Q R F -> low2 k Q P R (fun y x => F x y).
Proof.
  intros k P Q R F [A (f & N & H)]. split; [auto|]. exists (fun a b => f b a). split; [intros a b; specialize (N b a); lia|]. intros m a b X Y.
  rewrite (H m b a Y X). destruct X as [(x & -> & X)| ->], Y as [(y & -> & Y)| ->]; reflexivity.
Qed.
Lemma low2_ext : forall k (P Q R : number -> Prop) F G, (forall x y, P x -> Q y -> F x y = G x y) -> low2 k P Q R G -> low2 k P Q R F.
Proof.
  intros k P Q R F G E [A (f & N & H)]. split; [intros x y X Y; rewrite E; auto|]. exists f. split; [exact N|]. intros m a b X Y. rewrite (H m a b X Y).
  destruct X as [(x & -> & X)| ->], Y as [(y & -> & Y)| ->]; cbn [bind]; auto. now rewrite E.
Qed.
Lemma low2_more : forall k k' P Q R F, k <= k' -> low2 k P Q R F -> low2 k' P Q R F.
Proof. intros k k' P Q R F L [A (f & N & H)]. split; [exact A|]. exists f. split; [intros a b; specialize (N a b); lia|exact H]. Qed.

(** ** Arithmetic *)

Lemma low2_n_op : forall o a b, (o = OpRem -> floating (arith_rep a b) = false) ->
  low2 (cast_cost a (arith_rep a b) + cast_cost b (arith_rep a b) + 1) (ok a) (ok b) (ok (arith_rep a b)) (n_op o a b).
Proof.
  intros o a b O. unfold n_op. cbv zeta.
  exact (low2_pre _ _ _ _ _ _ _ _ _ _ _ (low1_cast (ok a) a (arith_rep a b)) (low1_cast (ok b) b (arith_rep a b)) (low2_op o _ O)).
Qed.
Lemma low1_n_op_right : forall o a b v, (o = OpRem -> floating (arith_rep a b) = false) ->
  low1 (cast_cost a (arith_rep a b) + 1) (ok a) (ok (arith_rep a b)) (fun x => n_op o a b x v).
Proof.
  intros o a b v O. unfold n_op. cbv zeta. destruct (convert_runs (arith_rep a b) v) as [(c & -> & C)| ->]; cbn [bind].
  - exact (low1_comp _ _ _ _ _ _ _ (low1_cast (ok a) a (arith_rep a b)) (low1_right o _ c O C)).
  - apply (low1_more 0); [lia|]. apply low1_undef. intros x _. destruct (convert_runs (arith_rep a b) x) as [(c & -> & C)| ->]; reflexivity.
Qed.
Lemma low1_n_op_left : forall o a b v, (o = OpRem -> floating (arith_rep b a) = false) ->
  low1 (cast_cost a (arith_rep b a) + 1) (ok a) (ok (arith_rep b a)) (fun x => n_op o b a v x).
Proof.
  intros o a b v O. unfold n_op. cbv zeta. destruct (convert_runs (arith_rep b a) v) as [(c & -> & C)| ->]; cbn [bind].
  - exact (low1_comp _ _ _ _ _ _ _ (low1_cast (ok a) a (arith_rep b a)) (low1_left o _ c O C)).
  - apply (low1_more 0); [lia|]. now apply low1_undef.
Qed.

(** ** Conversions *)

Lemma low1_chain : forall a t b k l, ok (RInt t) k -> ok (RInt t) l ->
  low1 4 (ok a) (ok b) (fun x => x0 <- n_convert (RInt t) x; y <- op_in OpMul (RInt t) x0 k; z <- op_in OpDiv (RInt t) y l; n_convert b z).
Proof.
  intros a t b k l K L. apply (low1_more (cast_cost a (RInt t) + (1 + (1 + cast_cost (RInt t) b)))).
  - pose proof (cast_cost_le a (RInt t)). pose proof (cast_cost_le (RInt t) b). lia.
  - apply (low1_comp _ _ _ (ok (RInt t)) _ _ _ (low1_cast (ok a) a (RInt t))).
    apply (low1_comp _ _ _ (ok (RInt t)) _ _ (fun y => z <- op_in OpDiv (RInt t) y l; n_convert b z)).
    + apply low1_right; [discriminate|exact K].
    + apply (low1_comp _ _ _ (ok (RInt t)) _ _ (n_convert b)); [apply low1_right; [discriminate|exact L]|apply low1_cast].
Qed.
Lemma low1_times : forall f k, low1 1 (ok (RFlt f)) (fun _ => True) (fun x => op_in OpMul (RFlt f) x (NFlt k)).
Proof.
  intros f k. split; [intros [z|v] X; [discriminate|now apply runs_ok]|]. exists (fun a => NOp OpMul (RFlt f) a (NLit (NFlt k))).
  split; [intros a; cbn [nops]; lia|reflexivity].
Qed.
Lemma low1_cast_number : forall c a b, low1 4 (ok a) (ok b) (cast_number c a b).
Proof.
  intros c a b. unfold cast_number. cbv zeta. set (rt := cast_rep a b). destruct rt as [t|f] eqn:E.
  - destruct (convert_runs (RInt t) (NInt (rnum c))) as [(num & Hn & N)|Hn].
    2: { apply (low1_more 0); [lia|]. apply low1_undef. intros x _. rewrite Hn. destruct (convert_runs (RInt t) x) as [(y & -> & _)| ->]; reflexivity. }
    destruct (convert_runs (RInt t) (NInt (rden c))) as [(den & Hd & D)|Hd].
    2: { apply (low1_more 0); [lia|]. apply low1_undef. intros x _. rewrite Hn, Hd. destruct (convert_runs (RInt t) x) as [(y & -> & _)| ->]; reflexivity. }
    destruct (0 <? rexp c)%Z eqn:L.
    + apply Z.ltb_lt in L. destruct (ipow10_runs (rexp c)) as [(p & Hp & _)|Hp]; [lia| |].
      2: { apply (low1_more 0); [lia|]. apply low1_undef. intros x _. rewrite Hn, Hd, Hp. destruct (convert_runs (RInt t) x) as [(y & -> & _)| ->]; reflexivity. }
      destruct (convert_runs (RInt t) (NInt p)) as [(p' & Hp' & P')|Hp'].
      2: { apply (low1_more 0); [lia|]. apply low1_undef. intros x _. rewrite Hn, Hd, Hp; cbn [bind]; rewrite Hp'.
           destruct (convert_runs (RInt t) x) as [(y & -> & _)| ->]; reflexivity. }
      destruct (op_in_runs OpMul (RInt t) num p' N P') as [(k & Hk & K)|Hk]; [discriminate| |].
      2: { apply (low1_more 0); [lia|]. apply low1_undef. intros x _. rewrite Hn, Hd, Hp; cbn [bind]; rewrite Hp'; cbn [bind]; rewrite Hk.
           destruct (convert_runs (RInt t) x) as [(y & -> & _)| ->]; reflexivity. }
      eapply low1_ext; [intros x _; rewrite Hn, Hd, Hp; cbn [bind]; rewrite Hp'; cbn [bind]; rewrite Hk; cbn [bind]; reflexivity|].
      now apply low1_chain.
    + apply Z.ltb_ge in L. destruct (cneg I64 (rexp c)) as [e| | | |] eqn:He.
      2,4,5: exfalso; unfold cneg, arith in He; cbn [isigned I64] in He; destruct (in_range I64 (- rexp c)); discriminate.
      2: { apply (low1_more 0); [lia|]. apply low1_undef. intros x _. rewrite Hn, Hd. destruct (convert_runs (RInt t) x) as [(y & -> & Y)| ->]; [|reflexivity]. cbn [bind].
           destruct (op_in_runs OpMul (RInt t) y num Y N) as [(z & -> & _)| ->]; [discriminate| |]; reflexivity. }
      assert (E0 : (0 <= e)%Z) by (unfold cneg, arith in He; cbn [isigned I64] in He; destruct (in_range I64 (- rexp c)); inversion He; lia).
      assert (U : forall x (k : res number), k = Undef -> (x0 <- n_convert (RInt t) x; y <- op_in OpMul (RInt t) x0 num; k0 <- k; z <- op_in OpDiv (RInt t) y k0; n_convert b z) = Undef).
      { intros x k ->. destruct (convert_runs (RInt t) x) as [(y & -> & Y)| ->]; [|reflexivity]. cbn [bind].
        destruct (op_in_runs OpMul (RInt t) y num Y N) as [(z & -> & _)| ->]; [discriminate| |]; reflexivity. }
      assert (KR : runs (ok (RInt t)) (p <- ipow10 e; p <- n_convert (RInt t) (NInt p); op_in OpMul (RInt t) den p)).
      { eapply runs_bind; [now apply ipow10_runs|]. intros p _. eapply runs_bind; [apply convert_runs|]. intros p' P. apply op_in_runs; auto; discriminate. }
      eapply low1_ext with (G := fun x => x0 <- n_convert (RInt t) x; y <- op_in OpMul (RInt t) x0 num;
        k0 <- (p <- ipow10 e; p <- n_convert (RInt t) (NInt p); op_in OpMul (RInt t) den p); z <- op_in OpDiv (RInt t) y k0; n_convert b z).
      { intros x _. rewrite Hn, Hd; cbn [bind]. destruct (n_convert (RInt t) x) as [x0| | | |]; cbn [bind]; auto.
        destruct (op_in OpMul (RInt t) x0 num); cbn [bind]; auto. destruct (ipow10 e) as [p| | | |]; cbn [bind]; reflexivity. }
      destruct KR as [(k & Hk & K)|Hk]; [|apply (low1_more 0); [lia|]; apply low1_undef; intros x _; now apply U].
      rewrite Hk. cbn [bind].
      now apply low1_chain.
  - apply (low1_more (cast_cost a (RFlt f) + (1 + cast_cost (RFlt f) b))).
    + pose proof (cast_cost_le a (RFlt f)). pose proof (cast_cost_le (RFlt f) b). lia.
    + apply (low1_comp _ _ _ (ok (RFlt f)) _ _ _ (low1_cast (ok a) a (RFlt f))).
      apply (low1_comp _ _ _ (fun _ => True) _ _ (n_convert b)); [apply low1_times|apply low1_cast].
Qed.
Lemma low1_quantity_cast : forall est from to, t_cast est from to = Ok tt -> low1 4 (ok (q_rep from)) (ok (q_rep to)) (quantity_cast est from to).
Proof.
  intros est from to H. unfold t_cast in H. step H as c C. step H as r R. unfold quantity_cast.
  eapply low1_ext; [intros x _; rewrite C; cbn [bind]; rewrite R; cbn [bind]; reflexivity|]. apply low1_cast_number.
Qed.
Definition convert_cost (a b : qtype) : nat := if qtype_eq_dec a b then 0 else 4.
Lemma convert_cost_le : forall a b, convert_cost a b <= 4.
Proof. intros a b. unfold convert_cost. destruct (qtype_eq_dec a b); lia. Qed.
Lemma convert_cost_same : forall a, convert_cost a a = 0.
Proof. intros a. unfold convert_cost. now destruct (qtype_eq_dec a a). Qed.
Lemma low1_convert : forall est from to, t_convert est from to = Ok tt -> low1 (convert_cost from to) (ok (q_rep from)) (ok (q_rep to)) (q_convert est from to).
Proof.
  intros est from to H. unfold t_convert in H. unfold q_convert, convert_cost. destruct (qtype_eq_dec from to) as [<-|Ne]; [apply low1_id|].
  step H as b B. step H as c C. eapply low1_ext; [intros x _; rewrite B; cbn [bind]; rewrite C; cbn [bind]; reflexivity|]. now apply low1_quantity_cast.
Qed.

(** ** Operators of quantities *)

Lemma arith_rep_idem : forall a b, arith_rep (arith_rep a b) (arith_rep a b) = arith_rep a b.
Proof. intros [[[] []]|[]] [[[] []]|[]]; reflexivity. Qed.
Lemma common_rep_of : forall est w a b r t, common_quantity est w a b r = Ok t -> q_rep t = r.
Proof. intros est w a b r t T. unfold common_quantity in T. step T as c C. step T as du DU. unfold mk_qtype in T. step T as d D. inversion T. reflexivity. Qed.
Lemma common_same : forall est w a r t, common_quantity est w a a r = Ok t -> t = with_rep a r.
Proof.
  intros est w a r t T. unfold common_quantity in T. step T as c C. step T as du DU. unfold common_dim_unit in DU.
  destruct (dimension_eq_dec (q_dim a) (q_dim a)) as [_|Ne]; [|contradiction]. destruct (cunit_eq_dec (q_unit a) (q_unit a)) as [_|Ne]; [|contradiction].
  injection DU as DU. subst du. unfold mk_qtype in T. step T as d D. injection T as T. now subst t.
Qed.
Lemma with_own_rep : forall a, with_rep a (q_rep a) = a.
Proof. now intros []. Qed.

(** An operation on the number of a quantity of type [a] giving one of type [t]. *)
Definition on1 (a t : qtype) (F : quantity -> res quantity) (k : nat) : Prop :=
  low1 k (ok (q_rep a)) (ok (q_rep t)) (fun x => rmap q_num (F (Quantity a x))).
Definition on2 (a b t : qtype) (F : quantity -> quantity -> res quantity) (k : nat) : Prop :=
  low2 k (ok (q_rep a)) (ok (q_rep b)) (ok (q_rep t)) (fun x y => rmap q_num (F (Quantity a x) (Quantity b y))).

Lemma on_addsub : forall o est w a b t, o <> OpRem -> t_addsub est w a b = Ok t ->
  exists k, k <= 9 /\ (a = b -> arith_rep (q_rep a) (q_rep b) = q_rep a -> k <= 1 /\ t = a) /\ on2 a b t (q_addsub o est w) k.
Proof.
  intros o est w a b t O H. unfold t_addsub in H. step H as t' T. step H as u U. step H as v V. injection H as H. subst t'. destruct u, v.
  pose proof (common_rep_of _ _ _ _ _ _ T) as R. set (r := arith_rep (q_rep a) (q_rep b)) in *.
  exists (convert_cost a t + convert_cost b t + 1). split; [pose proof (convert_cost_le a t); pose proof (convert_cost_le b t); lia|]. split.
  - intros <- W. apply common_same in T. rewrite W, with_own_rep in T. subst t. rewrite convert_cost_same. split; [lia|reflexivity].
  - unfold on2, q_addsub. cbv zeta. cbn [q_type q_num]. fold r.
    eapply low2_ext with (G := fun x y => x' <- q_convert est a t x; y' <- q_convert est b t y; (z <- n_op o r r x' y'; n_convert r z)).
    { intros x y _ _. rewrite T; cbn [bind]. unfold rmap. destruct (q_convert est a t x) as [x'| | | |]; cbn [bind]; auto. destruct (q_convert est b t y) as [y'| | | |]; cbn [bind]; auto.
      destruct (n_op o r r x' y') as [z| | | |]; cbn [bind]; auto. now destruct (n_convert r z). }
    rewrite R. eapply (low2_pre _ _ _ _ _ _ _ _ _ _ _ (low1_convert est a t U) (low1_convert est b t V)). rewrite R.
    assert (I : arith_rep r r = r) by apply arith_rep_idem.
    pose proof (low2_n_op o r r (fun E => False_ind _ (O E))) as L. rewrite I, cast_cost_same in L.
    pose proof (low2_post _ _ _ _ _ _ _ _ L (low1_cast (ok r) r r)) as L2. rewrite cast_cost_same in L2. exact L2.
Qed.
Lemma on_op : forall o a b d u, (o = OpRem -> floating (arith_rep (q_rep a) (q_rep b)) = false) ->
  exists k, k <= 9 /\ (q_rep a = q_rep b -> arith_rep (q_rep a) (q_rep b) = q_rep a -> k <= 1) /\
    on2 a b (QType d u (arith_rep (q_rep a) (q_rep b))) (fun p q => x <- n_op o (q_rep (q_type p)) (q_rep (q_type q)) (q_num p) (q_num q);
      Ok (Quantity (QType d u (arith_rep (q_rep (q_type p)) (q_rep (q_type q)))) x)) k.
Proof.
  intros o a b d u O. eexists. split; [|split; [|eapply low2_ext; [|apply (low2_n_op o (q_rep a) (q_rep b) O)]]].
  - pose proof (cast_cost_le (q_rep a) (arith_rep (q_rep a) (q_rep b))). pose proof (cast_cost_le (q_rep b) (arith_rep (q_rep a) (q_rep b))). lia.
  - intros E W. rewrite W, <- E, cast_cost_same. lia.
  - intros x y _ _. cbn [q_type q_num]. unfold rmap. now destruct (n_op o (q_rep a) (q_rep b) x y).
Qed.
Lemma on_binary : forall est w o a b t, t_binary_quantity est w o a b = Ok t ->
  exists k, k <= 9 /\ (arith_rep (q_rep a) (q_rep b) = q_rep a -> q_rep a = q_rep b -> match o with BAdd | BSub => a = b | _ => True end -> k <= 1) /\
    on2 a b t (binary_quantity est w o) k.
Proof.
  intros est w o a b t H. destruct o; cbn [t_binary_quantity binary_quantity] in *.
  - destruct (on_addsub OpAdd est w a b t ltac:(discriminate) H) as (k & K1 & K2 & L). exists k. split; [exact K1|]. split; [|exact L]. intros W _ E. now apply K2.
  - destruct (on_addsub OpSub est w a b t ltac:(discriminate) H) as (k & K1 & K2 & L). exists k. split; [exact K1|]. split; [|exact L]. intros W _ E. now apply K2.
  - unfold t_times in H. step H as r R. injection H as H. subst t. destruct (on_op OpMul a b (ref_dim r) (ref_unit r) ltac:(discriminate)) as (k & K1 & K2 & L).
    exists k. split; [exact K1|]. split; [auto|]. eapply low2_ext; [|exact L]. intros x y _ _. cbn [binary_quantity]. unfold q_times. cbv zeta. cbn [q_type]. now rewrite R.
  - unfold t_over in H. step H as r R. injection H as H. subst t. destruct (on_op OpDiv a b (ref_dim r) (ref_unit r) ltac:(discriminate)) as (k & K1 & K2 & L).
    exists k. split; [exact K1|]. split; [auto|]. eapply low2_ext; [|exact L]. intros x y _ _. cbn [binary_quantity]. unfold q_over. cbv zeta. cbn [q_type]. now rewrite R.
  - unfold t_rem in H. step H as c C. injection H as H. subst t.
    assert (F : OpRem = OpRem -> floating (arith_rep (q_rep a) (q_rep b)) = false).
    { intros _. apply constrained_ok in C. apply andb_prop in C as [C _]. apply andb_prop in C as [C1 C2]. apply negb_true_iff in C1, C2. now apply arith_floating. }
    destruct (on_op OpRem a b (q_dim a) (q_unit a) F) as (k & K1 & K2 & L).
    exists k. split; [exact K1|]. split; [auto|]. eapply low2_ext; [|exact L]. intros x y _ _. cbn [binary_quantity]. unfold q_rem. cbv zeta. cbn [q_type]. rewrite C. reflexivity.
Qed.
Lemma on_scale : forall o s a r v t, (o = OpRem -> floating (q_rep a) = false /\ floating r = false) -> t_scale a r = Ok t ->
  exists k, k <= 4 /\ (arith_rep (q_rep a) r = q_rep a -> k <= 1) /\ on1 a t (fun q => q_scale o s q r v) k.
Proof.
  intros o s a r v t O H. unfold t_scale in H. step H as c C. injection H as H. subst t. exists (cast_cost (q_rep a) (arith_rep (q_rep a) r) + 1).
  split; [pose proof (cast_cost_le (q_rep a) (arith_rep (q_rep a) r)); lia|]. split; [intros W; rewrite W, cast_cost_same; lia|].
  assert (F : o = OpRem -> floating (arith_rep (q_rep a) r) = false) by (intros E; destruct (O E); now apply arith_floating).
  unfold on1, q_scale. cbv zeta. cbn [q_type q_num with_rep q_rep].
  destruct s.
  - eapply low1_ext; [|pose proof (low1_n_op_left o (q_rep a) r v) as L; rewrite (arith_rep_comm r (q_rep a)) in L; exact (L F)].
    intros x _. rewrite C; cbn [bind]. unfold rmap. now destruct (n_op o r (q_rep a) v x).
  - eapply low1_ext; [|exact (low1_n_op_right o (q_rep a) r v F)]. intros x _. rewrite C; cbn [bind]. unfold rmap. now destruct (n_op o (q_rep a) r x v).
Qed.
Lemma on_qcast : forall est w c a t, t_qcast est w c a = Ok t -> on1 a t (q_cast est w c) 4.
Proof.
  intros est w c a t H. unfold t_qcast in H. step H as to T. step H as u U. destruct u. injection H as H. subst to.
  unfold on1. eapply low1_ext; [|exact (low1_quantity_cast est a t U)]. intros x _.
  destruct c as [y|d|u|r]; cbn [q_cast q_type q_num].
  - injection T as T. subst y. unfold rmap. now destruct (quantity_cast est a t x).
  - unfold quantity_cast_dim. step T as c C. step T as v V. rewrite C; cbn [bind]. rewrite V; cbn [bind]. rewrite T; cbn [bind].
    unfold rmap. now destruct (quantity_cast est a t x).
  - unfold quantity_cast_unit. rewrite T; cbn [bind]. unfold rmap. now destruct (quantity_cast est a t x).
  - unfold quantity_cast_rep. cbv zeta. injection T as T. rewrite T. unfold rmap. now destruct (quantity_cast est a t x).
Qed.
Definition direct_unary (t : qtype) (o : unary) : Prop :=
  match o with
  | UPos | UNeg => works_in (q_rep t) (q_rep t)
  | UMulV r _ | UVMul r _ | UDivV r _ | UVDiv r _ | URemV r _ => works_in (q_rep t) r
  | UConv t' => t' = t
  | UCast _ => False
  end.
Lemma on_unary : forall est w o a t, t_unary est w o a = Ok t ->
  exists k, k <= 4 /\ (direct_unary a o -> k <= 1) /\ on1 a t (unary_quantity est w o) k.
Proof.
  intros est w o a t H. destruct o as [| |r v|r v|r v|r v|r v|u|c]; cbn [t_unary unary_quantity direct_unary] in *; unfold works_in.
  - injection H as H. subst t. exists (cast_cost (q_rep a) (promote_rep (q_rep a))). pose proof (cast_cost_le (q_rep a) (promote_rep (q_rep a))).
    split; [lia|]. split; [lia|]. eapply low1_ext; [|exact (low1_cast (ok (q_rep a)) (q_rep a) (promote_rep (q_rep a)))]. intros x _. cbn [unary_quantity]. unfold q_plus. cbv zeta. cbn [q_type q_num]. unfold rmap.
    now destruct (n_convert (promote_rep (q_rep a)) x).
  - injection H as H. subst t. exists 1. split; [lia|]. split; [lia|]. split.
    + intros x X. cbn [unary_quantity]. unfold q_neg. cbv zeta. cbn [q_type q_num]. unfold rmap. eapply runs_bind; [eapply runs_bind; [exact (n_neg_runs _ _ X)|]|].
      * intros y Y. apply (runs_ok _ (fun q => ok (promote_rep (q_rep a)) (q_num q))). exact Y.
      * intros q Q. now apply runs_ok.
    + exists (NNegate (q_rep a)). split; [intros e; cbn [nops]; lia|]. intros m e _. cbn [neval]. destruct (neval m e) as [x| | | |]; cbn [bind]; auto.
      cbn [unary_quantity]. unfold q_neg. cbv zeta. cbn [q_type q_num]. unfold rmap. now destruct (n_neg (q_rep a) x).
  - apply on_scale; [discriminate|exact H].
  - apply on_scale; [discriminate|exact H].
  - apply on_scale; [discriminate|exact H].
  - unfold t_value_over in H. step H as c C. step H as d D. step H as i I. step H as u U. injection H as H. subst t.
    exists (cast_cost (q_rep a) (arith_rep r (q_rep a)) + 1). split; [pose proof (cast_cost_le (q_rep a) (arith_rep r (q_rep a))); lia|].
    split; [intros W; rewrite (arith_rep_comm r (q_rep a)), W, cast_cost_same; lia|].
    eapply low1_ext; [|exact (low1_n_op_left OpDiv (q_rep a) r v ltac:(discriminate))]. intros x _. cbn [unary_quantity]. unfold value_div_q. cbv zeta. cbn [q_type q_num].
    rewrite C; cbn [bind]. rewrite D; cbn [bind]. rewrite I; cbn [bind]. rewrite U; cbn [bind]. unfold rmap. now destruct (n_op OpDiv r (q_rep a) v x).
  - step H as c C. apply constrained_ok in C as C'. apply andb_prop in C' as [C1 C2]. apply negb_true_iff in C1, C2.
    destruct (on_scale OpRem false a r v t (fun _ => conj C1 C2) H) as (k & K1 & K2 & L). exists k. split; [exact K1|]. split; [exact K2|].
    eapply low1_ext; [|exact L]. intros x _. cbn [unary_quantity]. unfold q_rem_value. cbn [q_type]. rewrite C. reflexivity.
  - step H as x X. destruct x. injection H as H. subst u. exists (convert_cost a t). split; [apply convert_cost_le|].
    split; [intros ->; rewrite convert_cost_same; lia|]. eapply low1_ext; [|exact (low1_convert est a t X)]. intros x _. cbn [unary_quantity]. unfold q_to. cbn [q_type q_num]. unfold rmap.
    now destruct (q_convert est a t x).
  - exists 4. split; [lia|]. split; [contradiction|]. now apply on_qcast.
Qed.

(** ** Operators of points *)

Lemma on_point_addsub : forall o rb est w p q t, o <> OpRem -> t_point_addsub rb est w p q = Ok t ->
  exists k, k <= 13 /\ (p_qtype p = q -> arith_rep (p_rep p) (q_rep q) = p_rep p -> k <= 1) /\
    low2 k (ok (p_rep p)) (ok (q_rep q)) (ok (p_rep t)) (fun x y => rmap pt_num (p_addsub o rb est w (Point p x) (Quantity q y))).
Proof.
  intros o rb est w p q t O H. unfold t_point_addsub in H. step H as s S.
  destruct (on_addsub o est w (p_qtype p) q s O S) as (k & K1 & K2 & L).
  destruct (rebind rb (p_origin p) (q_dim s)) as [og|] eqn:G; [|discriminate]. step H as t' T. step H as u U. destruct u. injection H as H. subst t'.
  exists (k + convert_cost s (p_qtype t)). split; [pose proof (convert_cost_le s (p_qtype t)); lia|]. split.
  - intros E W. destruct (K2 E W) as [K3 ->]. unfold rebind in G. cbn [p_qtype q_dim] in G. destruct (dimension_eq_dec (o_dim (p_origin p)) (o_dim (p_origin p))) as [_|Ne]; [|contradiction].
    injection G as G. subst og. unfold mk_ptype in T. step T as v V. injection T as T. subst t. cbn [p_qtype p_origin p_unit p_rep q_unit q_rep]. rewrite convert_cost_same. lia.
  - eapply low2_ext; [|apply (low2_post _ _ _ _ _ _ _ _ L (low1_convert est s (p_qtype t) U))]. intros x y X Y. unfold p_addsub. change (relative (Point p x)) with (Quantity (p_qtype p) x).
    cbn [pt_type]. pose proof (addsub_runs o est w (Quantity (p_qtype p) x) (Quantity q y) s O X Y S) as R.
    destruct R as [(z & -> & <- & Z)| ->]; [|reflexivity]. cbn [bind rmap]. rewrite G, T; cbn [bind]. unfold p_make, rmap. cbn [bind].
    now destruct (q_convert est (q_type z) (p_qtype t) (q_num z)).
Qed.
