(** An expression that has a value in one program has one in every program that compiles it. *)

From Coq Require Import ZArith QArith String List Bool Lia.
From Verif Require Import Outcome CInt Root Ratio SpecRatio Unit Downcast Dim DimOp Equivalent SpecDim DimOpProofs SpecUnit Rep Reference QuantityCast CommonQuantity Quantity
  SpecQuantity MagnitudeProofs Point Expr SpecExpr Affine Static SpecStatic StaticProofs SpecModes ModeProofs.
Import ListNotations.
Local Open Scope Z_scope.
Local Open Scope res_scope.

Section System.
Variable U : bdim -> Prop.
Hypothesis HU : symbols_identify U.
Hypothesis HD : decimal U.

Lemma cast_too : forall est from to from' to' n z, plain_type U from -> plain_type U to -> plain_type U from' -> plain_type U to' ->
  same_but_names from from' -> same_but_names to to' -> quantity_cast est from to n = Ok z -> t_cast est from' to' = Ok tt ->
  exists z', quantity_cast est from' to' n = Ok z'.
Proof.
  intros est from to from' to' n z (F & Gf & _) (T & Gt & _) (F' & Gf' & _) (T' & Gt' & _) (_ & Rf & Pf) (_ & Rt & Pt) H K.
  unfold quantity_cast in *. unfold t_cast in K. step H as u E. step K as u' E'. rewrite E'; cbn [bind]. apply constrained_ok in E, E'. step H as c C. step K as c' C'. rewrite C'; cbn [bind].
  destruct (cast_ratio_scaled U HU HD _ _ _ _ _ _ F T Gf Gt E C) as (k & Ga & Gb & D).
  destruct (cast_ratio_scaled U HU HD _ _ _ _ _ _ F' T' Gf' Gt' E' C') as (l & _ & _ & D'). rewrite <- Rf, <- Rt in D'.
  pose proof (rdiv_agree _ _ _ _ _ _ Ga Gb D D') as ->. rewrite <- Pf, <- Pt. eauto.
Qed.
Lemma cast_named_too : forall est from to n, plain_type U from -> plain_type U to -> q_rep from = q_rep to -> u_ratio (q_unit from) = u_ratio (q_unit to) ->
  num_ok (q_rep from) n = true -> t_cast est from to = Ok tt -> exists z, quantity_cast est from to n = Ok z.
Proof.
  intros est from to n (F & Gf & _) (T & Gt & _) R E N H. unfold t_cast in H. unfold quantity_cast. step H as u De. rewrite De; cbn [bind]. apply constrained_ok in De. step H as c C.
  rewrite C; cbn [bind]. destruct (cast_ratio_scaled U HU HD _ _ _ _ _ _ F T Gf Gt De C) as (k & Ga & Gb & D). rewrite <- E in D. pose proof (rdiv_self _ _ Ga D) as ->.
  rewrite <- R, cast_one by exact N. eauto.
Qed.
Lemma convert_too : forall est from to from' to' n z, plain_type U from -> plain_type U to -> plain_type U from' -> plain_type U to' ->
  same_but_names from from' -> same_but_names to to' -> num_ok (q_rep from) n = true ->
  q_convert est from to n = Ok z -> t_convert est from' to' = Ok tt -> exists z', q_convert est from' to' n = Ok z'.
Proof.
  intros est from to from' to' n z F T F' T' Sf St N H K. unfold q_convert in *. unfold t_convert in K. destruct (qtype_eq_dec from' to') as [<-|Ne']; [eauto|].
  step K as b B. step K as u V. rewrite B; cbn [bind]. rewrite V; cbn [bind]. destruct (qtype_eq_dec from to) as [<-|Ne].
  - destruct Sf as (_ & R & P), St as (_ & R' & P'). apply cast_named_too; auto; congruence.
  - step H as b' B'. step H as u' V'. exact (cast_too _ _ _ _ _ _ _ F T F' T' Sf St H K).
Qed.

Section Programs.
Variables w w' : world.
Hypothesis HP : program_ok U w.
Hypothesis HP' : program_ok U w'.
Notation agree := (agree U).

Lemma times_too : forall a a' b b' s t, agree a a' -> agree b b' -> q_times w a b = Ok s -> t_times w' (q_type a') (q_type b') = Ok t -> exists s', q_times w' a' b' = Ok s'.
Proof.
  intros a a' b b' s t A B H K. unfold q_times in *. unfold t_times in K. step H as r R. step H as x X. step K as r' R'. cbv zeta. rewrite R'; cbn [bind].
  rewrite <- (agree_rep U a a' A), <- (agree_num U a a' A), <- (agree_rep U b b' B), <- (agree_num U b b' B), X. cbn [bind]. eauto.
Qed.
Lemma over_too : forall a a' b b' s t, agree a a' -> agree b b' -> q_over w a b = Ok s -> t_over w' (q_type a') (q_type b') = Ok t -> exists s', q_over w' a' b' = Ok s'.
Proof.
  intros a a' b b' s t A B H K. unfold q_over in *. unfold t_over in K. step H as r R. step H as x X. step K as r' R'. cbv zeta. rewrite R'; cbn [bind].
  rewrite <- (agree_rep U a a' A), <- (agree_num U a a' A), <- (agree_rep U b b' B), <- (agree_num U b b' B), X. cbn [bind]. eauto.
Qed.
Lemma rem_too : forall a a' b b' s t, agree a a' -> agree b b' -> q_rem a b = Ok s -> t_rem (q_type a') (q_type b') = Ok t -> exists s', q_rem a' b' = Ok s'.
Proof.
  intros a a' b b' s t A B H K. unfold q_rem in *. unfold t_rem in K. step H as r R. step H as x X. step K as r' R'. cbv zeta. rewrite R'; cbn [bind].
  rewrite <- (agree_rep U a a' A), <- (agree_num U a a' A), <- (agree_rep U b b' B), <- (agree_num U b b' B), X. cbn [bind]. eauto.
Qed.
Lemma value_over_too : forall r v a a' s t, agree a a' -> value_div_q w r v a = Ok s -> t_value_over w' r (q_type a') = Ok t -> exists s', value_div_q w' r v a' = Ok s'.
Proof.
  intros r v a a' s t A H K. unfold value_div_q in *. unfold t_value_over in K. cbv zeta in *. step H as c C. step H as d D. step H as i I. step H as u V. step H as x X.
  step K as c' C'. step K as d' D'. step K as i' I'. step K as u' V'. rewrite C'; cbn [bind]. rewrite D'; cbn [bind]. rewrite I'; cbn [bind]. rewrite V'; cbn [bind].
  rewrite <- (agree_rep U a a' A), <- (agree_num U a a' A), X. cbn [bind]. eauto.
Qed.
Lemma scale_too : forall o sw r v a a' s t, agree a a' -> q_scale o sw a r v = Ok s -> t_scale (q_type a') r = Ok t -> exists s', q_scale o sw a' r v = Ok s'.
Proof.
  intros o sw r v a a' s t A H K. unfold q_scale in *. unfold t_scale in K. cbv zeta in *. step H as c C. step H as x X. step K as c' C'. rewrite C'; cbn [bind].
  rewrite <- (agree_rep U a a' A), <- (agree_num U a a' A), X. cbn [bind]. eauto.
Qed.
Lemma addsub_too : forall o est a a' b b' s t, q_sound a -> q_sound b -> agree a a' -> agree b b' -> q_addsub o est w a b = Ok s ->
  t_addsub est w' (q_type a') (q_type b') = Ok t -> exists s', q_addsub o est w' a' b' = Ok s'.
Proof.
  intros o est a a' b b' s t2 Ka Kb (Pa & Pa' & Sa & Na) (Pb & Pb' & Sb & Nb) H K. unfold q_addsub in *. unfold t_addsub in K. cbv zeta in *.
  step H as t T. step H as x X. step H as y Y. step K as t' T'. step K as u' X'. step K as v' Y'. rewrite T'; cbn [bind]. destruct u', v'.
  replace (q_rep (q_type a')) with (q_rep (q_type a)) in * by apply Sa. replace (q_rep (q_type b')) with (q_rep (q_type b)) in * by apply Sb.
  destruct (common_same U HU HD est w w' _ _ _ _ _ _ _ (proj1 HP) (proj1 HP') Pa Pb Pa' Pb' Sa Sb T T') as (Pt & Pt' & St).
  destruct (convert_too est _ _ _ _ _ _ Pa Pt Pa' Pt' Sa St Ka X X') as [x' Cx]. destruct (convert_too est _ _ _ _ _ _ Pb Pt Pb' Pt' Sb St Kb Y Y') as [y' Cy].
  rewrite <- Na, <- Nb, Cx, Cy. cbn [bind].
  pose proof (convert_same U HU HD _ _ _ _ _ _ _ _ Pa Pt Pa' Pt' Sa St Ka X Cx) as ->. pose proof (convert_same U HU HD _ _ _ _ _ _ _ _ Pb Pt Pb' Pt' Sb St Kb Y Cy) as ->.
  step H as z Z. rewrite Z; cbn [bind]. step H as z1 Z1. rewrite Z1; cbn [bind]. eauto.
Qed.
Lemma qcast_too : forall est c a a' s t, plain_cast U c -> q_sound a -> agree a a' -> q_cast est w c a = Ok s -> t_qcast est w' c (q_type a') = Ok t ->
  exists s', q_cast est w' c a' = Ok s'.
Proof.
  intros est c a a' s t2 Pc N (Pa & Pa' & Sa & Na) H K. unfold t_qcast in K. step K as to' To'. step K as v' V'. destruct v'. inversion K; subst t2; clear K.
  destruct c as [t|d|u|r]; cbn [q_cast plain_cast] in *.
  - inversion To'; subst to'. step H as x X. rewrite <- Na. destruct (cast_too est _ _ _ _ _ _ Pa Pc Pa' Pc Sa (same_refl_names _) X V') as [z ->]. cbn [bind]. eauto.
  - step H as x X. unfold quantity_cast_dim in *. step X as e E. step X as u Vu. step X as t T. step X as y Y.
    step To' as e' E'. step To' as u' Vu'. rewrite E'; cbn [bind]. rewrite Vu'; cbn [bind]. rewrite To'; cbn [bind].
    unfold mk_qtype in T, To'. step T as o O. step To' as o' O'. apply constrained_ok in O, O'. inversion T; inversion To'; subst t to'; clear T To'.
    apply downcast_unit_ratio in Vu; [|apply HP]. apply downcast_unit_ratio in Vu'; [|apply HP']. destruct Vu as (V1 & _), Vu' as (V2 & _).
    destruct Sa as (Sd & Ru & Rr).
    assert (A : plain_type U (QType d u (q_rep (q_type a)))).
    { unfold plain_type, unit_good. cbn [q_dim q_unit]. split; [exact Pc|]. rewrite V1. split; [apply Pa|exact O]. }
    assert (A' : plain_type U (QType d u' (q_rep (q_type a')))).
    { unfold plain_type, unit_good. cbn [q_dim q_unit]. split; [exact Pc|]. rewrite V2. split; [apply Pa'|exact O']. }
    assert (S : same_but_names (QType d u (q_rep (q_type a))) (QType d u' (q_rep (q_type a')))).
    { unfold same_but_names. cbn [q_dim q_unit q_rep]. split; [now split|]. split; [congruence|exact Rr]. }
    rewrite <- Na. destruct (cast_too est _ _ _ _ _ _ Pa A Pa' A' ltac:(now repeat split; try apply Sd) S Y V') as [z ->]. cbn [bind]. eauto.
  - step H as x X. unfold quantity_cast_unit in *. step X as t T. step X as y Y. rewrite To'; cbn [bind].
    unfold mk_qtype in T, To'. step T as o O. step To' as o' O'. apply constrained_ok in O, O'. inversion T; inversion To'; subst t to'; clear T To'.
    destruct Sa as (Sd & Ru & Rr).
    assert (A : plain_type U (QType (q_dim (q_type a)) u (q_rep (q_type a)))) by (unfold plain_type; cbn [q_dim q_unit]; split; [apply Pa|auto]).
    assert (A' : plain_type U (QType (q_dim (q_type a')) u (q_rep (q_type a')))) by (unfold plain_type; cbn [q_dim q_unit]; split; [apply Pa'|auto]).
    assert (S : same_but_names (QType (q_dim (q_type a)) u (q_rep (q_type a))) (QType (q_dim (q_type a')) u (q_rep (q_type a')))).
    { unfold same_but_names. cbn [q_dim q_unit q_rep]. auto. }
    rewrite <- Na. destruct (cast_too est _ _ _ _ _ _ Pa A Pa' A' ltac:(now repeat split; try apply Sd) S Y V') as [z ->]. cbn [bind]. eauto.
  - step H as x X. unfold quantity_cast_rep in *. cbv zeta in *. step X as y Y. inversion To'; subst to'; clear To'.
    destruct Sa as (Sd & Ru & Rr).
    assert (A : plain_type U (QType (q_dim (q_type a)) (q_unit (q_type a)) r)) by exact Pa.
    assert (A' : plain_type U (QType (q_dim (q_type a')) (q_unit (q_type a')) r)) by exact Pa'.
    assert (S : same_but_names (QType (q_dim (q_type a)) (q_unit (q_type a)) r) (QType (q_dim (q_type a')) (q_unit (q_type a')) r)).
    { unfold same_but_names. cbn [q_dim q_unit q_rep]. auto. }
    rewrite <- Na. destruct (cast_too est _ _ _ _ _ _ Pa A Pa' A' ltac:(now repeat split; try apply Sd) S Y V') as [z ->]. cbn [bind]. eauto.
Qed.
Lemma unary_too : forall est o a a' s t, plain_unary U o -> q_sound a -> agree a a' -> unary_quantity est w o a = Ok s -> t_unary est w' o (q_type a') = Ok t ->
  exists s', unary_quantity est w' o a' = Ok s'.
Proof.
  intros est o a a' s t P N A H K. destruct o as [| |r v|r v|r v|r v|r v|t0|c]; cbn [unary_quantity plain_unary t_unary] in *.
  - unfold q_plus in *. cbv zeta in *. rewrite <- (agree_rep U a a' A), <- (agree_num U a a' A). step H as x X. rewrite X; cbn [bind]. eauto.
  - unfold q_neg in *. cbv zeta in *. rewrite <- (agree_rep U a a' A), <- (agree_num U a a' A). step H as x X. rewrite X; cbn [bind]. eauto.
  - exact (scale_too OpMul false r v a a' s t A H K).
  - exact (scale_too OpMul true r v a a' s t A H K).
  - exact (scale_too OpDiv false r v a a' s t A H K).
  - exact (value_over_too r v a a' s t A H K).
  - unfold q_rem_value in *. step H as u1 U1. step K as u2 U2. rewrite U2; cbn [bind]. exact (scale_too OpRem false r v a a' s t A H K).
  - step K as u V. destruct u. destruct A as (Pa & Pa' & Sa & Na). unfold q_to in *. step H as x X. rewrite <- Na.
    destruct (convert_too est _ _ _ _ _ _ Pa P Pa' P Sa (same_refl_names _) N X V) as [z ->]. cbn [bind]. eauto.
  - exact (qcast_too est c a a' s t P N A H K).
Qed.
Lemma binary_quantity_too : forall est o a a' b b' s t, q_sound a -> q_sound b -> agree a a' -> agree b b' ->
  binary_quantity est w o a b = Ok s -> t_binary_quantity est w' o (q_type a') (q_type b') = Ok t -> exists s', binary_quantity est w' o a' b' = Ok s'.
Proof.
  intros est o a a' b b' s t Na Nb A B H K. destruct o; cbn [binary_quantity t_binary_quantity] in *.
  - exact (addsub_too OpAdd est a a' b b' s t Na Nb A B H K).
  - exact (addsub_too OpSub est a a' b b' s t Na Nb A B H K).
  - exact (times_too a a' b b' s t A B H K).
  - exact (over_too a a' b b' s t A B H K).
  - exact (rem_too a a' b b' s t A B H K).
Qed.

Variable rb : rebinding.
Hypothesis HR : honest rb.
Notation pagree := (pagree U).
Notation vagree := (vagree U).

Lemma make_too : forall est t t' a a' s, plain_type U (p_qtype t) -> plain_type U (p_qtype t') -> same_but_names (p_qtype t) (p_qtype t') ->
  q_sound a -> agree a a' -> p_make est t a = Ok s -> t_convert est (q_type a') (p_qtype t') = Ok tt -> exists s', p_make est t' a' = Ok s'.
Proof.
  intros est t t' a a' s T T' St N (Pa & Pa' & Sa & Na) H K. unfold p_make in *. step H as x X. rewrite <- Na.
  destruct (convert_too est _ _ _ _ _ _ Pa T Pa' T' Sa St N X K) as [z ->]. cbn [bind]. eauto.
Qed.
Lemma p_addsub_too : forall o est p p' q q' s t, o <> OpRem -> p_sound p -> q_sound q -> pagree p p' -> agree q q' ->
  p_addsub o rb est w p q = Ok s -> t_point_addsub rb est w' (pt_type p') (q_type q') = Ok t -> exists s', p_addsub o rb est w' p' q' = Ok s'.
Proof.
  intros o est p p' q q' s t0 Ho Np Nq A B H K. unfold p_addsub in *. unfold t_point_addsub in K. step H as x X. step K as tx TX.
  destruct (addsub_too o est _ _ _ _ _ _ (relative_sound p Np) Nq A B X TX) as [x' X']. rewrite X'; cbn [bind].
  pose proof (addsub_static _ _ _ _ _ _ X') as Y'. change (q_type (relative p')) with (p_qtype (pt_type p')) in Y'. rewrite TX in Y'. inversion Y'; subst tx; clear Y'.
  pose proof (addsub_same U HU HD w w' HP HP' o est _ _ _ _ _ _ (relative_sound p Np) Nq A B X X') as C.
  destruct (rebind rb (p_origin (pt_type p)) (q_dim (q_type x))) as [g|] eqn:G; [|discriminate].
  destruct (rebind rb (p_origin (pt_type p')) (q_dim (q_type x'))) as [g'|] eqn:G'; [|discriminate].
  apply (rebind_dim rb HR) in G, G'. step H as t T. step K as t' T'. rewrite T'; cbn [bind]. step K as k Ck. destruct k. unfold mk_ptype in T, T'. step T as y Y. step T' as y' Y'. clear Y Y'.
  inversion T; inversion T'; subst t t'; clear T T'.
  assert (E : p_qtype (PType g (q_unit (q_type x)) (q_rep (q_type x))) = q_type x) by (unfold p_qtype; cbn; rewrite G; now destruct (q_type x)).
  assert (E' : p_qtype (PType g' (q_unit (q_type x')) (q_rep (q_type x'))) = q_type x') by (unfold p_qtype; cbn; rewrite G'; now destruct (q_type x')).
  assert (N : q_sound x).
  { pose proof (addsub_static _ _ _ _ _ _ X) as S. destruct (addsub_runs o est w _ _ _ Ho (relative_sound p Np) Nq S) as [(z & Z & [_ V])|Z]; congruence. }
  apply (make_too est (PType g (q_unit (q_type x)) (q_rep (q_type x))) (PType g' (q_unit (q_type x')) (q_rep (q_type x'))) x x' s); auto;
    rewrite ?E, ?E'; apply C.
Qed.
Lemma p_diff_too : forall est a a' b b' s t, p_sound a -> p_sound b -> pagree a a' -> pagree b b' ->
  p_diff rb est w a b = Ok s -> t_point_diff rb est w' (pt_type a') (pt_type b') = Ok t -> exists s', p_diff rb est w' a' b' = Ok s'.
Proof.
  intros est a a' b b' s t Na Nb A B H K. unfold p_diff in *. unfold t_point_diff in K. step H as u V. step K as u' V'. rewrite V'; cbn [bind].
  exact (addsub_too OpSub est _ _ _ _ s t (relative_sound a Na) (relative_sound b Nb) A B H K).
Qed.

Lemma binary_too : forall est o x x' y y' v t, sound x -> sound y -> vagree x x' -> vagree y y' ->
  binary_value rb est w o x y = Ok v -> t_binary rb est w' o (vtype x') (vtype y') = Ok t -> exists v', binary_value rb est w' o x' y' = Ok v'.
Proof.
  intros est o x x' y y' v t Nx Ny A B H K. destruct x as [a|a], x' as [a'|a']; try contradiction; destruct y as [b|b], y' as [b'|b']; try contradiction; cbn [vtype] in K.
  - assert (H' : (s <- binary_quantity est w o a b; Ok (VQuantity s)) = Ok v) by (destruct o; exact H).
    assert (K' : (s <- t_binary_quantity est w' o (q_type a') (q_type b'); Ok (TQuantity s)) = Ok t) by (destruct o; exact K).
    step H' as s S. step K' as s' S'. destruct (binary_quantity_too est o a a' b b' s s' Nx Ny A B S S') as [z Z].
    exists (VQuantity z). assert (G : (s <- binary_quantity est w' o a' b'; Ok (VQuantity s)) = Ok (VQuantity z)) by now rewrite Z. destruct o; exact G.
  - destruct o; try discriminate. cbn [binary_value t_binary] in *. step H as s S. step K as s' S'.
    destruct (p_addsub_too OpAdd est b b' a a' s s' ltac:(discriminate) Ny Nx B A S S') as [z Z]. unfold q_plus_point, p_add. exists (VPoint z). now rewrite Z.
  - destruct o; try discriminate; cbn [binary_value t_binary] in *; step H as s S; step K as s' S'.
    + destruct (p_addsub_too OpAdd est a a' b b' s s' ltac:(discriminate) Nx Ny A B S S') as [z Z]. unfold p_add. exists (VPoint z). now rewrite Z.
    + destruct (p_addsub_too OpSub est a a' b b' s s' ltac:(discriminate) Nx Ny A B S S') as [z Z]. unfold p_sub. exists (VPoint z). now rewrite Z.
  - destruct o; try discriminate. cbn [binary_value t_binary] in *. step H as s S. step K as s' S'.
    destruct (p_diff_too est a a' b b' s s' Nx Ny A B S S') as [z Z]. exists (VQuantity z). now rewrite Z.
Qed.

Theorem aeval_too : forall est e v t, plain_expr U e -> expr_sound e -> aeval rb est w e = Ok v -> type_of rb est w' e = Ok t -> exists v', aeval rb est w' e = Ok v'.
Proof.
  intros est. induction e as [q|p|o a IH|o a IHa b IHb|u a IH|c a IH|u a IH|a IH|u a IH]; intros v t P S H K; cbn [aeval plain_expr expr_sound type_of] in *.
  - eauto.
  - eauto.
  - destruct P as [Po P], S as [_ S]. unfold t_on_quantity in K. step H as x X. step K as tx TX. destruct (IH _ _ P S X TX) as [x' X']. rewrite X'; cbn [bind].
    rewrite (type_complete rb est w' a x' X') in TX. inversion TX; subst tx; clear TX. step H as q Q. step K as q' Q'. step H as s T. step K as s' T'.
    pose proof (aeval_same U HU HD w w' HP HP' rb HR est a x x' P S X X') as A. pose proof (aeval_sound rb est w a x S X) as N. destruct x as [x|x]; [|discriminate]. destruct x' as [x'|x']; [|discriminate].
    inversion Q; inversion Q'; subst q q'. cbn [want_quantity bind]. destruct (unary_too est o x x' s s' Po N A T T') as [z ->]. cbn [bind]. eauto.
  - destruct P as [Pa Pb], S as [Sa Sb]. step H as x X. step H as y Y. step K as tx TX. step K as ty TY. destruct (IHa _ _ Pa Sa X TX) as [x' X']. destruct (IHb _ _ Pb Sb Y TY) as [y' Y'].
    rewrite X', Y'; cbn [bind]. rewrite (type_complete rb est w' a x' X') in TX. inversion TX; subst tx; clear TX. rewrite (type_complete rb est w' b y' Y') in TY. inversion TY; subst ty; clear TY.
    exact (binary_too est o x x' y y' v t (aeval_sound rb est w a x Sa X) (aeval_sound rb est w b y Sb Y) (aeval_same U HU HD w w' HP HP' rb HR est a x x' Pa Sa X X')
      (aeval_same U HU HD w w' HP HP' rb HR est b y y' Pb Sb Y Y') H K).
  - destruct P as [Pu P]. unfold t_on_point in K. step H as x X. step K as tx TX. destruct (IH _ _ P S X TX) as [x' X']. rewrite X'; cbn [bind].
    rewrite (type_complete rb est w' a x' X') in TX. inversion TX; subst tx; clear TX. step H as q Q. step K as q' Q'. step H as s T. step K as s' T'.
    pose proof (aeval_same U HU HD w w' HP HP' rb HR est a x x' P S X X') as A. pose proof (aeval_sound rb est w a x S X) as N. destruct x as [x|x]; [discriminate|]. destruct x' as [x'|x']; [discriminate|].
    inversion Q; inversion Q'; subst q q'. cbn [want_point bind]. unfold p_to in *. unfold t_move in T'. step T as d D. step T' as d' D'. rewrite D'; cbn [bind]. destruct s'.
    destruct (make_too est u u _ _ s Pu Pu (same_refl_names _) (relative_sound x N) A T T') as [z ->]. cbn [bind]. eauto.
  - destruct P as [Pu P]. unfold t_on_point in K. step H as x X. step K as tx TX. destruct (IH _ _ P S X TX) as [x' X']. rewrite X'; cbn [bind].
    rewrite (type_complete rb est w' a x' X') in TX. inversion TX; subst tx; clear TX. step H as q Q. step K as q' Q'. step H as s T. step K as s' T'.
    pose proof (aeval_same U HU HD w w' HP HP' rb HR est a x x' P S X X') as A. pose proof (aeval_sound rb est w a x S X) as N. destruct x as [x|x]; [discriminate|]. destruct x' as [x'|x']; [discriminate|].
    inversion Q; inversion Q'; subst q q'. cbn [want_point bind]. unfold point_cast in *. step T as y Y.
    destruct (qcast_too est c _ _ _ _ Pu (relative_sound x N) A Y T') as [z ->]. cbn [bind]. eauto.
  - destruct P as [Pu P]. unfold t_on_point in K. step H as x X. step K as tx TX. destruct (IH _ _ P S X TX) as [x' X']. rewrite X'; cbn [bind].
    rewrite (type_complete rb est w' a x' X') in TX. inversion TX; subst tx; clear TX. step H as q Q. step K as q' Q'. step H as s T. step K as d' D'. step K as s' T'. destruct s'.
    pose proof (aeval_same U HU HD w w' HP HP' rb HR est a x x' P S X X') as A. destruct x as [x|x]; [discriminate|]. destruct x' as [x'|x']; [discriminate|].
    inversion Q; inversion Q'; subst q q'. cbn [want_point bind]. unfold point_cast_to in *. step T as d D. step T as y Y. rewrite D'; cbn [bind].
    destruct A as (Pa & Pa' & Sa & Na). cbn [relative q_num] in Na. rewrite <- Na. destruct (cast_too est _ _ _ _ _ _ Pa Pu Pa' Pu Sa (same_refl_names _) Y T') as [z Z].
    cbn [relative q_type] in Z. rewrite Z. cbn [bind]. eauto.
  - unfold t_on_point in K. step H as x X. step K as tx TX. destruct (IH _ _ P S X TX) as [x' X']. rewrite X'; cbn [bind].
    rewrite (type_complete rb est w' a x' X') in TX. inversion TX; subst tx; clear TX. step K as q' Q'. destruct x' as [x'|x']; [discriminate|]. cbn [want_point bind]. eauto.
  - destruct P as [Pu P]. unfold t_on_quantity in K. step H as x X. step K as tx TX. destruct (IH _ _ P S X TX) as [x' X']. rewrite X'; cbn [bind].
    rewrite (type_complete rb est w' a x' X') in TX. inversion TX; subst tx; clear TX. step H as q Q. step K as q' Q'. step H as s T. step K as s' T'. destruct s'.
    pose proof (aeval_same U HU HD w w' HP HP' rb HR est a x x' P S X X') as A. pose proof (aeval_sound rb est w a x S X) as N. destruct x as [x|x]; [|discriminate]. destruct x' as [x'|x']; [|discriminate].
    inversion Q; inversion Q'; subst q q'. cbn [want_quantity bind]. destruct (make_too est u u x x' s Pu Pu (same_refl_names _) N A T T') as [z ->]. cbn [bind]. eauto.
Qed.
End Programs.
End System.
