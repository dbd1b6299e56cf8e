(** Proofs: types are decided before the program runs. *)

From Coq Require Import ZArith List Bool Lia SpecFloat.
From Verif Require Import Outcome CInt RatioMaths Pow Root Ratio Unit Downcast Dim DimOp Equivalent Rep Reference QuantityCast CommonQuantity Quantity
  FloatProofs FloatCastProofs Custom CustomProofs CustomProofs2 Point Affine Static SpecStatic.
Import ListNotations.
Local Open Scope Z_scope.
Local Open Scope res_scope.

(** ** Outcomes *)

Lemma runs_ok : forall A (P : A -> Prop) x, P x -> runs P (Ok x).
Proof. intros A P x H. left. eauto. Qed.
Lemma runs_bind : forall A B (P : A -> Prop) (Q : B -> Prop) r f, runs P r -> (forall x, P x -> runs Q (f x)) -> runs Q (bind r f).
Proof. intros A B P Q r f [(x & -> & Px)| ->] H; cbn; [now apply H|now right]. Qed.
Lemma runs_weaken : forall A (P Q : A -> Prop) r, runs P r -> (forall x, P x -> Q x) -> runs Q r.
Proof. intros A P Q r [(x & -> & Px)| ->] H; [left; eauto|now right]. Qed.
Lemma runs_post : forall A (P : A -> Prop) r, runs (fun _ => True) r -> (forall x, r = Ok x -> P x) -> runs P r.
Proof. intros A P r [(x & -> & _)| ->] H; [left; eauto|now right]. Qed.

(** ** Numbers *)

Lemma convert_runs : forall r x, runs (fun y => num_ok r y = true) (n_convert r x).
Proof.
  intros r x. apply runs_post; [|apply convert_ok].
  destruct r as [t|f], x as [z|v]; cbn [n_convert]; try (left; eauto; fail).
  destruct (float_trunc v) as [z|]; [|now right]. destruct (in_range t z); [left; eauto|now right].
Qed.
Lemma arith_runs : forall t z, runs (fun _ => True) (arith t z).
Proof. intros t z. unfold arith. destruct (isigned t); [destruct (in_range t z)|]; try (left; eauto; fail); now right. Qed.
Lemma int_op_runs : forall o t a b, runs (fun _ => True) (int_op o t a b).
Proof.
  intros o t a b. destruct o; cbn [int_op]; unfold cadd, csub, cmul, cdiv, crem; try apply arith_runs.
  - destruct (b =? 0); [now right|apply arith_runs].
  - destruct (b =? 0); [now right|]. destruct (_ && _); [now right|left; eauto].
Qed.
Lemma op_in_runs : forall o r x y, num_ok r x = true -> num_ok r y = true -> (o = OpRem -> floating r = false) ->
  runs (fun z => num_ok r z = true) (op_in o r x y).
Proof.
  intros o r x y X Y F. apply runs_post; [|intros z; now apply op_in_ok].
  destruct r as [t|f], x as [a|a], y as [b|b]; try discriminate; cbn [op_in].
  - apply (runs_bind _ _ _ _ _ _ (int_op_runs o t a b)). intros. now apply runs_ok.
  - destruct o; cbn [float_op]; try (now apply runs_ok). discriminate (F eq_refl).
Qed.
Lemma arith_floating : forall a b, floating a = false -> floating b = false -> floating (arith_rep a b) = false.
Proof. intros [t|f] [u|g] A B; try discriminate; reflexivity. Qed.
Lemma n_op_runs : forall o a b x y, (o = OpRem -> floating (arith_rep a b) = false) ->
  runs (fun z => num_ok (arith_rep a b) z = true) (n_op o a b x y).
Proof.
  intros o a b x y F. unfold n_op. cbv zeta. eapply runs_bind; [apply convert_runs|]. intros x' X. eapply runs_bind; [apply convert_runs|].
  intros y' Y. now apply op_in_runs.
Qed.
Lemma n_assign_runs : forall o a b x y, (o = OpRem -> floating (arith_rep a b) = false) ->
  runs (fun z => num_ok a z = true) (n_assign o a b x y).
Proof. intros. unfold n_assign. eapply runs_bind; [now apply n_op_runs|]. intros. apply convert_runs. Qed.
Lemma n_neg_runs : forall a x, num_ok a x = true -> runs (fun z => num_ok (promote_rep a) z = true) (n_neg a x).
Proof.
  intros a x X. apply runs_post; [|intros z; now apply n_neg_ok]. destruct a as [t|f], x as [z|v]; try discriminate; cbn [n_neg].
  - unfold cneg. apply (runs_bind _ _ _ _ _ _ (arith_runs (promote t) (- z))). intros. now apply runs_ok.
  - now apply runs_ok.
Qed.
Lemma ipow10_loop_runs : forall n r, runs (fun _ => True) (ipow10_loop n r).
Proof. induction n as [|n IH]; intros r; cbn [ipow10_loop]; [now apply runs_ok|]. apply (runs_bind _ _ _ _ _ _ (arith_runs I64 (r * 10))). auto. Qed.
Lemma ipow10_runs : forall e, 0 <= e -> runs (fun _ => True) (ipow10 e).
Proof. intros e H. unfold ipow10. replace (0 <=? e) with true by (symmetry; now apply Z.leb_le). cbn. apply ipow10_loop_runs. Qed.

Lemma cast_number_runs : forall c a b n, runs (fun z => num_ok b z = true) (cast_number c a b n).
Proof.
  intros c a b n. unfold cast_number. cbv zeta. destruct (cast_rep a b) as [t|f] eqn:E.
  - eapply runs_bind; [apply convert_runs|]. intros x X. eapply runs_bind; [apply convert_runs|]. intros num N.
    eapply runs_bind; [apply convert_runs|]. intros den D.
    assert (M : forall u v, num_ok (RInt t) u = true -> num_ok (RInt t) v = true -> runs (fun z => num_ok (RInt t) z = true) (op_in OpMul (RInt t) u v))
      by (intros; apply op_in_runs; auto; discriminate).
    assert (M' : forall u v, num_ok (RInt t) u = true -> num_ok (RInt t) v = true -> runs (fun z => num_ok (RInt t) z = true) (op_in OpDiv (RInt t) u v))
      by (intros; apply op_in_runs; auto; discriminate).
    destruct (0 <? rexp c) eqn:L.
    + apply Z.ltb_lt in L. eapply runs_bind; [apply ipow10_runs; lia|]. intros p _. eapply runs_bind; [apply convert_runs|]. intros p' P.
      eapply runs_bind; [now apply M|]. intros k K. eapply runs_bind; [now apply M|]. intros y Y.
      eapply runs_bind; [now apply M'|]. intros z Z. apply convert_runs.
    + apply Z.ltb_ge in L. eapply runs_bind; [now apply M|]. intros y Y. eapply (runs_bind _ _ (fun e => 0 <= e)).
      { unfold cneg, arith. cbn [isigned I64]. destruct (in_range I64 (- rexp c)); [left; eexists; split; [reflexivity|lia]|now right]. }
      intros e He. eapply runs_bind; [now apply ipow10_runs|]. intros p _. eapply runs_bind; [apply convert_runs|]. intros p' P.
      eapply runs_bind; [now apply M|]. intros k K. eapply runs_bind; [now apply M'|]. intros z Z. apply convert_runs.
  - eapply runs_bind; [apply convert_runs|]. intros x X. destruct x as [z|v]; [discriminate|]. cbn [op_in float_op bind]. apply convert_runs.
Qed.

(** ** Conversions *)

Lemma cast_runs : forall est from to n, t_cast est from to = Ok tt -> runs (fun z => num_ok (q_rep to) z = true) (quantity_cast est from to n).
Proof.
  intros est from to n H. unfold t_cast in H. step H as c C. step H as r R. unfold quantity_cast. rewrite C; cbn [bind]. rewrite R; cbn [bind].
  apply cast_number_runs.
Qed.
Lemma cast_static : forall est from to n z, quantity_cast est from to n = Ok z -> t_cast est from to = Ok tt.
Proof. intros est from to n z H. unfold quantity_cast in H. step H as c C. step H as r R. unfold t_cast. rewrite C; cbn [bind]. rewrite R. reflexivity. Qed.
Lemma q_convert_runs : forall est from to n, num_ok (q_rep from) n = true -> t_convert est from to = Ok tt ->
  runs (fun z => num_ok (q_rep to) z = true) (q_convert est from to n).
Proof.
  intros est from to n N H. unfold t_convert in H. unfold q_convert. destruct (qtype_eq_dec from to) as [<-|Ne]; [now apply runs_ok|].
  step H as b B. step H as c C. rewrite B; cbn [bind]. rewrite C; cbn [bind]. now apply cast_runs.
Qed.
Lemma q_convert_static : forall est from to n z, q_convert est from to n = Ok z -> t_convert est from to = Ok tt.
Proof.
  intros est from to n z H. unfold q_convert in H. unfold t_convert. destruct (qtype_eq_dec from to); [reflexivity|].
  step H as b B. step H as c C. rewrite B; cbn [bind]. rewrite C; cbn [bind]. now apply cast_static in H.
Qed.

(** ** Operators of quantities *)

Definition q_sound (q : quantity) : Prop := num_ok (q_rep (q_type q)) (q_num q) = true.
Definition q_has (t : qtype) (q : quantity) : Prop := q_type q = t /\ q_sound q.
Lemma has : forall t n, num_ok (q_rep t) n = true -> q_has t (Quantity t n).
Proof. intros. now split. Qed.

Lemma addsub_runs : forall o est w a b t, o <> OpRem -> q_sound a -> q_sound b -> t_addsub est w (q_type a) (q_type b) = Ok t ->
  runs (q_has t) (q_addsub o est w a b).
Proof.
  intros o est w a b t O A B H. unfold t_addsub in H. step H as t' T. step H as u U. step H as v V. inversion H; subst t'. clear H.
  destruct u, v. assert (R : q_rep t = arith_rep (q_rep (q_type a)) (q_rep (q_type b))).
  { unfold common_quantity in T. step T as c C. step T as du DU. unfold mk_qtype in T. step T as d D. inversion T. reflexivity. }
  unfold q_addsub. cbv zeta. rewrite T; cbn [bind]. eapply runs_bind; [now apply q_convert_runs|]. intros x X.
  eapply runs_bind; [now apply q_convert_runs|]. intros y Y. eapply runs_bind; [apply n_op_runs; intros; contradiction|]. intros z Z.
  eapply runs_bind; [apply convert_runs|]. intros z' Z'. apply runs_ok, has. now rewrite R.
Qed.
Lemma addsub_static : forall o est w a b s, q_addsub o est w a b = Ok s -> t_addsub est w (q_type a) (q_type b) = Ok (q_type s).
Proof.
  intros o est w a b s H. unfold q_addsub in H. cbv zeta in H. step H as t T. step H as x X. step H as y Y. step H as z Z. step H as z' Z'.
  inversion H; subst s. clear H. unfold t_addsub. rewrite T; cbn [bind]. apply q_convert_static in X, Y. rewrite X; cbn [bind]. now rewrite Y.
Qed.
Lemma times_runs : forall w a b t, t_times w (q_type a) (q_type b) = Ok t -> runs (q_has t) (q_times w a b).
Proof.
  intros w a b t H. unfold t_times in H. step H as r R. inversion H. subst t. unfold q_times. cbv zeta. rewrite R; cbn [bind].
  eapply runs_bind; [apply n_op_runs; discriminate|]. intros. now apply runs_ok, has.
Qed.
Lemma times_static : forall w a b s, q_times w a b = Ok s -> t_times w (q_type a) (q_type b) = Ok (q_type s).
Proof. intros w a b s H. unfold q_times in H. cbv zeta in H. step H as r R. step H as x X. inversion H. unfold t_times. now rewrite R. Qed.
Lemma over_runs : forall w a b t, t_over w (q_type a) (q_type b) = Ok t -> runs (q_has t) (q_over w a b).
Proof.
  intros w a b t H. unfold t_over in H. step H as r R. inversion H. subst t. unfold q_over. cbv zeta. rewrite R; cbn [bind].
  eapply runs_bind; [apply n_op_runs; discriminate|]. intros. now apply runs_ok, has.
Qed.
Lemma over_static : forall w a b s, q_over w a b = Ok s -> t_over w (q_type a) (q_type b) = Ok (q_type s).
Proof. intros w a b s H. unfold q_over in H. cbv zeta in H. step H as r R. step H as x X. inversion H. unfold t_over. now rewrite R. Qed.
Lemma rem_runs : forall a b t, t_rem (q_type a) (q_type b) = Ok t -> runs (q_has t) (q_rem a b).
Proof.
  intros a b t H. unfold t_rem in H. step H as r R. inversion H. subst t. unfold q_rem. cbv zeta. rewrite R; cbn [bind].
  apply constrained_ok in R. apply andb_prop in R as [R _]. apply andb_prop in R as [R1 R2]. apply negb_true_iff in R1, R2.
  eapply runs_bind; [apply n_op_runs; intros; now apply arith_floating|]. intros. now apply runs_ok, has.
Qed.
Lemma rem_static : forall a b s, q_rem a b = Ok s -> t_rem (q_type a) (q_type b) = Ok (q_type s).
Proof. intros a b s H. unfold q_rem in H. cbv zeta in H. step H as r R. step H as x X. inversion H. unfold t_rem. now rewrite R. Qed.

Lemma arith_rep_comm : forall a b, arith_rep a b = arith_rep b a.
Proof. intros [[[] []]|[]] [[[] []]|[]]; reflexivity. Qed.
Lemma scale_runs : forall o s a r v t, (o = OpRem -> floating (q_rep (q_type a)) = false /\ floating r = false) ->
  t_scale (q_type a) r = Ok t -> runs (q_has t) (q_scale o s a r v).
Proof.
  intros o s a r v t O H. unfold t_scale in H. step H as c C. inversion H. subst t. unfold q_scale. cbv zeta. rewrite C; cbn [bind].
  eapply (runs_bind _ _ (fun z => num_ok (arith_rep (q_rep (q_type a)) r) z = true)).
  - destruct s; [rewrite (arith_rep_comm (q_rep (q_type a)) r)|]; apply n_op_runs; intros E; destruct (O E); now apply arith_floating.
  - intros. now apply runs_ok, has.
Qed.
Lemma scale_static : forall o s a r v q, q_scale o s a r v = Ok q -> t_scale (q_type a) r = Ok (q_type q).
Proof. intros o s a r v q H. unfold q_scale in H. cbv zeta in H. step H as c C. step H as x X. inversion H. unfold t_scale. now rewrite C. Qed.
Lemma value_over_runs : forall w r v a t, t_value_over w r (q_type a) = Ok t -> runs (q_has t) (value_div_q w r v a).
Proof.
  intros w r v a t H. unfold t_value_over in H. step H as c C. step H as d D. step H as i I. step H as u U. inversion H. subst t.
  unfold value_div_q. cbv zeta. rewrite C; cbn [bind]. rewrite D; cbn [bind]. rewrite I; cbn [bind]. rewrite U; cbn [bind].
  eapply runs_bind; [apply n_op_runs; discriminate|]. intros. now apply runs_ok, has.
Qed.
Lemma value_over_static : forall w r v a q, value_div_q w r v a = Ok q -> t_value_over w r (q_type a) = Ok (q_type q).
Proof.
  intros w r v a q H. unfold value_div_q in H. cbv zeta in H. step H as c C. step H as d D. step H as i I. step H as u U. step H as x X.
  inversion H. unfold t_value_over. rewrite C; cbn [bind]. rewrite D; cbn [bind]. rewrite I; cbn [bind]. now rewrite U.
Qed.

Lemma qcast_runs : forall est w c a t, t_qcast est w c (q_type a) = Ok t -> runs (q_has t) (q_cast est w c a).
Proof.
  intros est w c a t H. unfold t_qcast in H. step H as to T. step H as u U. destruct u. inversion H. subst to. clear H.
  destruct c as [x|d|u|r]; cbn [q_cast].
  - inversion T. subst x. eapply runs_bind; [now apply cast_runs|]. intros. now apply runs_ok, has.
  - unfold quantity_cast_dim. step T as c C. step T as v V. rewrite C; cbn [bind]. rewrite V; cbn [bind]. rewrite T; cbn [bind].
    eapply (runs_bind _ _ (fun p => fst p = t /\ num_ok (q_rep t) (snd p) = true)).
    + eapply runs_bind; [now apply cast_runs|]. intros. now apply runs_ok.
    + intros [t' n] [E N]. cbn in E, N. subst t'. now apply runs_ok, has.
  - unfold quantity_cast_unit. rewrite T; cbn [bind].
    eapply (runs_bind _ _ (fun p => fst p = t /\ num_ok (q_rep t) (snd p) = true)).
    + eapply runs_bind; [now apply cast_runs|]. intros. now apply runs_ok.
    + intros [t' n] [E N]. cbn in E, N. subst t'. now apply runs_ok, has.
  - unfold quantity_cast_rep. cbv zeta. inversion T. rewrite H0.
    eapply (runs_bind _ _ (fun p => fst p = t /\ num_ok (q_rep t) (snd p) = true)).
    + eapply runs_bind; [now apply cast_runs|]. intros. now apply runs_ok.
    + intros [t' n] [E N]. cbn in E, N. subst t'. now apply runs_ok, has.
Qed.
Lemma qcast_static : forall est w c a q, q_cast est w c a = Ok q -> t_qcast est w c (q_type a) = Ok (q_type q).
Proof.
  intros est w c a q H. destruct c as [x|d|u|r]; cbn [q_cast] in H; step H as p P; inversion H; subst q; clear H; unfold t_qcast; cbn [bind q_type].
  - apply cast_static in P. rewrite P. reflexivity.
  - unfold quantity_cast_dim in P. step P as c C. step P as u U. step P as to T. step P as y Y. inversion P. subst p. cbn [fst].
    rewrite C; cbn [bind]. rewrite U; cbn [bind]. rewrite T; cbn [bind]. apply cast_static in Y. now rewrite Y.
  - unfold quantity_cast_unit in P. step P as to T. step P as y Y. inversion P. subst p. cbn [fst].
    rewrite T; cbn [bind]. apply cast_static in Y. now rewrite Y.
  - unfold quantity_cast_rep in P. cbv zeta in P. step P as y Y. inversion P. subst p. cbn [fst].
    apply cast_static in Y. now rewrite Y.
Qed.

Lemma unary_runs : forall est w o a t, q_sound a -> t_unary est w o (q_type a) = Ok t -> runs (q_has t) (unary_quantity est w o a).
Proof.
  intros est w o a t A H. destruct o as [| |r v|r v|r v|r v|r v|u|c]; cbn [t_unary unary_quantity] in *.
  - inversion H. unfold q_plus. cbv zeta. eapply runs_bind; [apply convert_runs|]. intros. now apply runs_ok, has.
  - inversion H. unfold q_neg. cbv zeta. eapply runs_bind; [now apply n_neg_runs|]. intros. now apply runs_ok, has.
  - apply scale_runs; [discriminate|exact H].
  - apply scale_runs; [discriminate|exact H].
  - apply scale_runs; [discriminate|exact H].
  - now apply value_over_runs.
  - unfold q_rem_value. step H as c C. rewrite C; cbn [bind]. apply constrained_ok in C. apply andb_prop in C as [C1 C2].
    apply negb_true_iff in C1, C2. apply scale_runs; [now split|exact H].
  - step H as x X. destruct x. inversion H. subst u. unfold q_to. eapply runs_bind; [now apply q_convert_runs|]. intros. now apply runs_ok, has.
  - now apply qcast_runs.
Qed.
Lemma unary_static : forall est w o a q, unary_quantity est w o a = Ok q -> t_unary est w o (q_type a) = Ok (q_type q).
Proof.
  intros est w o a q H. destruct o as [| |r v|r v|r v|r v|r v|u|c]; cbn [t_unary unary_quantity] in *.
  - unfold q_plus in H. cbv zeta in H. step H as x X. now inversion H.
  - unfold q_neg in H. cbv zeta in H. step H as x X. now inversion H.
  - eapply scale_static, H.
  - eapply scale_static, H.
  - eapply scale_static, H.
  - eapply value_over_static, H.
  - unfold q_rem_value in H. step H as c C. rewrite C; cbn [bind]. eapply scale_static, H.
  - unfold q_to in H. step H as x X. inversion H. apply q_convert_static in X. now rewrite X.
  - eapply qcast_static, H.
Qed.
Lemma binary_quantity_runs : forall est w o a b t, q_sound a -> q_sound b -> t_binary_quantity est w o (q_type a) (q_type b) = Ok t ->
  runs (q_has t) (binary_quantity est w o a b).
Proof.
  intros est w o a b t A B H. destruct o; cbn [t_binary_quantity binary_quantity] in *.
  - apply addsub_runs; auto. discriminate.
  - apply addsub_runs; auto. discriminate.
  - now apply times_runs.
  - now apply over_runs.
  - now apply rem_runs.
Qed.
Lemma binary_quantity_static : forall est w o a b q, binary_quantity est w o a b = Ok q ->
  t_binary_quantity est w o (q_type a) (q_type b) = Ok (q_type q).
Proof.
  intros est w o a b q H. destruct o; cbn [t_binary_quantity binary_quantity] in *.
  - eapply addsub_static, H.
  - eapply addsub_static, H.
  - now apply times_static.
  - now apply over_static.
  - now apply rem_static.
Qed.

(** ** Operators of points *)

Definition p_sound (p : point) : Prop := num_ok (p_rep (pt_type p)) (pt_num p) = true.
Definition p_has (t : ptype) (p : point) : Prop := pt_type p = t /\ p_sound p.
Lemma phas : forall t n, num_ok (p_rep t) n = true -> p_has t (Point t n).
Proof. intros. now split. Qed.
Lemma relative_sound : forall p, p_sound p -> q_sound (relative p).
Proof. intros p H. exact H. Qed.

Lemma make_runs : forall est t q, q_sound q -> t_convert est (q_type q) (p_qtype t) = Ok tt -> runs (p_has t) (p_make est t q).
Proof. intros est t q Q H. unfold p_make. eapply runs_bind; [now apply q_convert_runs|]. intros. now apply runs_ok, phas. Qed.
Lemma make_static : forall est t q p, p_make est t q = Ok p -> t_convert est (q_type q) (p_qtype t) = Ok tt /\ pt_type p = t.
Proof. intros est t q p H. unfold p_make in H. step H as n N. inversion H. apply q_convert_static in N. now split. Qed.
Lemma move_runs : forall rb est t p, p_sound p -> t_move rb est (pt_type p) t = Ok tt -> runs (p_has t) (p_to rb est t p).
Proof. intros rb est t p P H. unfold t_move in H. step H as c C. unfold p_to. rewrite C; cbn [bind]. now apply make_runs. Qed.
Lemma move_static : forall rb est t p p', p_to rb est t p = Ok p' -> t_move rb est (pt_type p) t = Ok tt /\ pt_type p' = t.
Proof. intros rb est t p p' H. unfold p_to in H. step H as c C. unfold t_move. rewrite C; cbn [bind]. now apply make_static in H. Qed.
Lemma p_addsub_runs : forall o rb est w p q t, o <> OpRem -> p_sound p -> q_sound q -> t_point_addsub rb est w (pt_type p) (q_type q) = Ok t ->
  runs (p_has t) (p_addsub o rb est w p q).
Proof.
  intros o rb est w p q t O P Q H. unfold t_point_addsub in H. step H as s S. unfold p_addsub.
  eapply runs_bind; [apply (addsub_runs o est w (relative p) q s); auto|]. intros x [<- X].
  destruct (rebind rb (p_origin (pt_type p)) (q_dim (q_type x))) as [og|]; [|discriminate]. step H as t' T. step H as u U. destruct u.
  inversion H. subst t'. rewrite T; cbn [bind]. now apply make_runs.
Qed.
Lemma p_addsub_static : forall o rb est w p q p', p_addsub o rb est w p q = Ok p' -> t_point_addsub rb est w (pt_type p) (q_type q) = Ok (pt_type p').
Proof.
  intros o rb est w p q p' H. unfold p_addsub in H. step H as s S. apply addsub_static in S. unfold t_point_addsub.
  change (q_type (relative p)) with (p_qtype (pt_type p)) in S. rewrite S; cbn [bind].
  destruct (rebind rb (p_origin (pt_type p)) (q_dim (q_type s))) as [og|]; [|discriminate]. step H as t T. rewrite T; cbn [bind].
  apply make_static in H as [H ->]. now rewrite H.
Qed.
Lemma p_diff_runs : forall rb est w a b t, p_sound a -> p_sound b -> t_point_diff rb est w (pt_type a) (pt_type b) = Ok t ->
  runs (q_has t) (p_diff rb est w a b).
Proof.
  intros rb est w a b t A B H. unfold t_point_diff in H. step H as c C. unfold p_diff. rewrite C; cbn [bind].
  apply (addsub_runs _ est w (relative a) (relative b)); auto. discriminate.
Qed.
Lemma p_diff_static : forall rb est w a b q, p_diff rb est w a b = Ok q -> t_point_diff rb est w (pt_type a) (pt_type b) = Ok (q_type q).
Proof. intros rb est w a b q H. unfold p_diff in H. step H as c C. unfold t_point_diff. rewrite C; cbn [bind]. exact (addsub_static _ est w (relative a) (relative b) q H). Qed.

(** ** Expressions *)

Definition v_has (t : atype) (v : avalue) : Prop := vtype v = t /\ sound v.
Lemma runs_quantity : forall r t, runs (q_has t) r -> runs (v_has (TQuantity t)) (s <- r; Ok (VQuantity s)).
Proof. intros r t H. eapply runs_bind; [exact H|]. intros q [<- Q]. apply runs_ok. now split. Qed.
Lemma runs_point : forall r t, runs (p_has t) r -> runs (v_has (TPoint t)) (s <- r; Ok (VPoint s)).
Proof. intros r t H. eapply runs_bind; [exact H|]. intros q [<- Q]. apply runs_ok. now split. Qed.

Lemma binary_runs : forall rb est w o x y t, sound x -> sound y -> t_binary rb est w o (vtype x) (vtype y) = Ok t ->
  runs (v_has t) (binary_value rb est w o x y).
Proof.
  intros rb est w o x y t X Y H.
  assert (QQ : forall a b, x = VQuantity a -> y = VQuantity b ->
    (s <- t_binary_quantity est w o (q_type a) (q_type b); Ok (TQuantity s)) = Ok t ->
    runs (v_has t) (s <- binary_quantity est w o a b; Ok (VQuantity s))).
  { intros a b -> -> E. step E as s S. inversion E. now apply runs_quantity, binary_quantity_runs. }
  assert (PQ : forall o' a b, o' <> OpRem -> p_sound a -> q_sound b -> (s <- t_point_addsub rb est w (pt_type a) (q_type b); Ok (TPoint s)) = Ok t ->
    runs (v_has t) (s <- p_addsub o' rb est w a b; Ok (VPoint s))).
  { intros o' a b N A B E. step E as s S. inversion E. now apply runs_point, p_addsub_runs. }
  destruct o, x as [a|a], y as [b|b]; cbn [vtype t_binary] in H; try discriminate; cbn [binary_value];
    try (exact (QQ a b eq_refl eq_refl H)).
  - apply PQ; auto; discriminate.
  - apply PQ; auto; discriminate.
  - apply PQ; auto; discriminate.
  - step H as s S. inversion H. now apply runs_quantity, p_diff_runs.
Qed.
Lemma binary_static : forall rb est w o x y v, binary_value rb est w o x y = Ok v -> t_binary rb est w o (vtype x) (vtype y) = Ok (vtype v).
Proof.
  intros rb est w o x y v H.
  assert (QQ : forall a b, (s <- binary_quantity est w o a b; Ok (VQuantity s)) = Ok v ->
    (s <- t_binary_quantity est w o (q_type a) (q_type b); Ok (TQuantity s)) = Ok (vtype v)).
  { intros a b E. step E as s S. inversion E. apply binary_quantity_static in S. now rewrite S. }
  assert (PQ : forall o' a b, (s <- p_addsub o' rb est w a b; Ok (VPoint s)) = Ok v ->
    (s <- t_point_addsub rb est w (pt_type a) (q_type b); Ok (TPoint s)) = Ok (vtype v)).
  { intros o' a b E. step E as s S. inversion E. apply p_addsub_static in S. now rewrite S. }
  destruct o, x as [a|a], y as [b|b]; cbn [binary_value] in H; try discriminate; cbn [vtype t_binary];
    try (exact (QQ a b H)); try (exact (PQ _ _ _ H)).
  step H as s S. inversion H. apply p_diff_static in S. now rewrite S.
Qed.

Lemma want_q : forall v t q, v_has t v -> t_want_quantity t = Ok q -> exists x, v = VQuantity x /\ q_type x = q /\ q_sound x.
Proof. intros v t q [T S] H. destruct v as [x|x]; subst t; cbn in H; [|discriminate]. exists x. inversion H. now split. Qed.
Lemma want_p : forall v t p, v_has t v -> t_want_point t = Ok p -> exists x, v = VPoint x /\ pt_type x = p /\ p_sound x.
Proof. intros v t p [T S] H. destruct v as [x|x]; subst t; cbn in H; [discriminate|]. exists x. inversion H. now split. Qed.

Lemma pcast_runs : forall est w c p q, t_qcast est w c (p_qtype (pt_type p)) = Ok q -> runs (p_has (t_deduced q)) (point_cast est w c p).
Proof.
  intros est w c p q H. unfold point_cast. eapply runs_bind; [apply (qcast_runs est w c (relative p) q H)|]. intros x [<- X]. apply runs_ok. now split.
Qed.
Lemma pcastto_runs : forall rb est t p, constrained (origin_equivalent rb (p_origin (pt_type p)) (p_origin t)) = Ok tt ->
  t_cast est (p_qtype (pt_type p)) (p_qtype t) = Ok tt -> runs (p_has (t_deduced (p_qtype t))) (point_cast_to rb est t p).
Proof.
  intros rb est t p O H. unfold point_cast_to. rewrite O; cbn [bind]. eapply runs_bind; [now apply cast_runs|]. intros x X. apply runs_ok. now split.
Qed.

Theorem type_sound : forall rb est w e t, expr_sound e -> type_of rb est w e = Ok t -> runs (v_has t) (aeval rb est w e).
Proof.
  intros rb est w. induction e as [q|p|o a IH|o a IHa b IHb|u a IH|c a IH|u a IH|a IH|u a IH]; intros t S H; cbn [type_of aeval expr_sound] in *.
  - inversion H. apply runs_ok. now split.
  - inversion H. apply runs_ok. now split.
  - destruct S as [O S]. unfold t_on_quantity in H. step H as x X. step H as q Q. step H as s T. inversion H. subst t.
    eapply runs_bind; [exact (IH _ S X)|]. intros v V. destruct (want_q v x q V Q) as (z & -> & <- & Z). cbn [want_quantity bind].
    now apply runs_quantity, unary_runs.
  - destruct S as [A B]. step H as x X. step H as y Y. eapply runs_bind; [exact (IHa _ A X)|]. intros v [<- V].
    eapply runs_bind; [exact (IHb _ B Y)|]. intros v' [<- V']. now apply binary_runs.
  - unfold t_on_point in H. step H as x X. step H as q Q. step H as s T. destruct s. inversion H. subst t.
    eapply runs_bind; [exact (IH _ S X)|]. intros v V. destruct (want_p v x q V Q) as (z & -> & <- & Z). cbn [want_point bind].
    now apply runs_point, move_runs.
  - unfold t_on_point in H. step H as x X. step H as q Q. step H as s T. inversion H. subst t.
    eapply runs_bind; [exact (IH _ S X)|]. intros v V. destruct (want_p v x q V Q) as (z & -> & <- & Z). cbn [want_point bind].
    now apply runs_point, pcast_runs.
  - unfold t_on_point in H. step H as x X. step H as q Q. step H as s1 T1. step H as s T. destruct s1, s. inversion H. subst t.
    eapply runs_bind; [exact (IH _ S X)|]. intros v V. destruct (want_p v x q V Q) as (z & -> & <- & Z). cbn [want_point bind].
    now apply runs_point, pcastto_runs.
  - unfold t_on_point in H. step H as x X. step H as q Q. inversion H. subst t.
    eapply runs_bind; [exact (IH _ S X)|]. intros v V. destruct (want_p v x q V Q) as (z & -> & <- & Z). cbn [want_point bind].
    apply runs_ok. now split.
  - unfold t_on_quantity in H. step H as x X. step H as q Q. step H as s T. destruct s. inversion H. subst t.
    eapply runs_bind; [exact (IH _ S X)|]. intros v V. destruct (want_q v x q V Q) as (z & -> & <- & Z). cbn [want_quantity bind].
    now apply runs_point, make_runs.
Qed.

Theorem type_complete : forall rb est w e v, aeval rb est w e = Ok v -> type_of rb est w e = Ok (vtype v).
Proof.
  intros rb est w.
  assert (WQ : forall x q, want_quantity x = Ok q -> t_want_quantity (vtype x) = Ok (q_type q)).
  { intros [x|x] q H; cbn in *; [|discriminate]. now inversion H. }
  assert (WP : forall x q, want_point x = Ok q -> t_want_point (vtype x) = Ok (pt_type q)).
  { intros [x|x] q H; cbn in *; [discriminate|]. now inversion H. }
  induction e as [q|p|o a IH|o a IHa b IHb|u a IH|c a IH|u a IH|a IH|u a IH]; intros v H; cbn [type_of aeval] in *.
  - now inversion H.
  - now inversion H.
  - step H as x X. step H as q Q. step H as s T. inversion H. subst v. rewrite (IH _ X). unfold t_on_quantity; cbn [bind].
    rewrite (WQ _ _ Q); cbn [bind]. apply unary_static in T. now rewrite T.
  - step H as x X. step H as y Y. rewrite (IHa _ X); cbn [bind]. rewrite (IHb _ Y); cbn [bind]. now apply binary_static in H.
  - step H as x X. step H as q Q. step H as s T. inversion H. subst v. rewrite (IH _ X). unfold t_on_point; cbn [bind].
    rewrite (WP _ _ Q); cbn [bind]. apply move_static in T as [T E]. rewrite T; cbn [bind vtype]. now rewrite E.
  - step H as x X. step H as q Q. step H as s T. inversion H. subst v. rewrite (IH _ X). unfold t_on_point; cbn [bind].
    rewrite (WP _ _ Q); cbn [bind]. unfold point_cast in T. step T as z Z. apply qcast_static in Z. cbn [q_type relative] in Z. rewrite Z; cbn [bind].
    now inversion T.
  - step H as x X. step H as q Q. step H as s T. inversion H. subst v. rewrite (IH _ X). unfold t_on_point; cbn [bind].
    rewrite (WP _ _ Q); cbn [bind]. unfold point_cast_to in T. step T as z Z. rewrite Z; cbn [bind]. step T as n N. apply cast_static in N.
    rewrite N; cbn [bind]. now inversion T.
  - step H as x X. step H as q Q. inversion H. subst v. rewrite (IH _ X). unfold t_on_point; cbn [bind].
    now rewrite (WP _ _ Q).
  - step H as x X. step H as q Q. step H as s T. inversion H. subst v. rewrite (IH _ X). unfold t_on_quantity; cbn [bind].
    rewrite (WQ _ _ Q); cbn [bind]. apply make_static in T as [T E]. rewrite T; cbn [bind vtype]. now rewrite E.
Qed.

(** The types read no numbers. *)
Lemma unary_text : forall est w o o' t, same_unary o o' -> t_unary est w o t = t_unary est w o' t.
Proof. intros est w o o' t H. destruct H; reflexivity. Qed.
Theorem type_text : forall rb est w e e', same_text e e' -> type_of rb est w e = type_of rb est w e'.
Proof.
  intros rb est w e e' H. induction H as [t n n'|t n n'|o o' a a' O H IH|o a a' b b' HA IHa HB IHb|t a a' H IH|c a a' H IH|t a a' H IH|a a' H IH|t a a' H IH];
    cbn [type_of]; rewrite ?IH, ?IHa, ?IHb; try reflexivity.
  unfold t_on_quantity. destruct (type_of rb est w a') as [x| | | |]; cbn; try reflexivity. destruct (t_want_quantity x); cbn; try reflexivity.
  now rewrite (unary_text est w o o' a0 O).
Qed.

(** ** Comparisons *)

Lemma compare_total : forall r x y, num_ok r x = true -> num_ok r y = true -> runs (fun _ => True) (n_compare x y) /\ runs (fun _ => True) (n_eqb x y).
Proof. intros [t|f] [a|a] [b|b] X Y; try discriminate; split; left; eexists; split; reflexivity || exact I. Qed.
Lemma common_runs : forall est w a b, q_sound a -> q_sound b -> t_common est w (q_type a) (q_type b) = Ok tt ->
  runs (fun p => exists r, num_ok r (fst p) = true /\ num_ok r (snd p) = true) (q_common est w a b).
Proof.
  intros est w a b A B H. unfold t_common in H. unfold q_common. destruct (qtype_eq_dec (q_type a) (q_type b)) as [E|E].
  - apply runs_ok. exists (q_rep (q_type a)). split; [exact A|]. rewrite E. exact B.
  - step H as t T. step H as u U. destruct u. rewrite T; cbn [bind]. eapply runs_bind; [now apply q_convert_runs|]. intros x X.
    eapply runs_bind; [now apply q_convert_runs|]. intros y Y. apply runs_ok. now exists (q_rep t).
Qed.
Lemma common_static : forall est w a b p, q_common est w a b = Ok p -> t_common est w (q_type a) (q_type b) = Ok tt.
Proof.
  intros est w a b p H. unfold q_common in H. unfold t_common. destruct (qtype_eq_dec (q_type a) (q_type b)); [reflexivity|].
  step H as t T. step H as x X. step H as y Y. rewrite T; cbn [bind]. apply q_convert_static in X, Y. now rewrite X; cbn [bind].
Qed.
