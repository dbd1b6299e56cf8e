(** Proofs: a program runs alike whatever else is declared. *)

From Coq Require Import ZArith QArith String List Bool Lia.
From Verif Require Import Outcome CInt Root Ratio SpecRatio Unit Downcast Dim DimOp Equivalent SpecDim DimOpProofs SpecUnit Rep Reference QuantityCast CommonQuantity Quantity
  SpecQuantity MagnitudeProofs QTen RatioProofs RatioProofs2 Point Expr SpecExpr Affine Static SpecStatic StaticProofs Program SpecProgram ProgramProofs SpecModes ModeProofs ModeProofs2 SpecProgramModes.
Import ListNotations.
Local Open Scope Z_scope.
Local Open Scope res_scope.

(** Two computations with related results, both undefined, or both out of steps. *)
Definition both {A B : Type} (R : A -> B -> Prop) (r : res A) (r' : res B) : Prop :=
  (exists x y, r = Ok x /\ r' = Ok y /\ R x y) \/ (r = Undef /\ r' = Undef) \/ (r = Stuck /\ r' = Stuck).
Lemma both_ok : forall A B (R : A -> B -> Prop) x y, R x y -> both R (Ok x) (Ok y).
Proof. intros. left. eauto. Qed.
Lemma both_bind : forall A B A' B' (R : A -> A' -> Prop) (Q : B -> B' -> Prop) r r' f f', both R r r' -> (forall x y, R x y -> both Q (f x) (f' y)) -> both Q (bind r f) (bind r' f').
Proof. intros A B A' B' R Q r r' f f' [(x & y & -> & -> & H)|[[-> ->]|[-> ->]]] K; cbn [bind]; [now apply K|right; now left|right; now right]. Qed.
Lemma both_same : forall A (r : res A), runs (fun _ => True) r -> both eq r r.
Proof. intros A r [(x & -> & _)| ->]; [left; eauto|right; now left]. Qed.

Section System.
Variable U : bdim -> Prop.
Hypothesis HU : symbols_identify U.
Hypothesis HD : decimal U.
Notation agree := (agree U).
Notation pagree := (pagree U).
Notation vagree := (vagree U).

Lemma names_sym : forall t t', same_but_names t t' -> same_but_names t' t.
Proof. intros t t' ([E B] & R & P). split; [split|split]; congruence. Qed.
Lemma agree_sym : forall q q', agree q q' -> agree q' q.
Proof. intros q q' (P & P' & S & N). split; [exact P'|]. split; [exact P|]. split; [now apply names_sym|congruence]. Qed.
Lemma vagree_sym : forall v v', vagree v v' -> vagree v' v.
Proof. intros [q|p] [q'|p'] H; try contradiction; exact (agree_sym _ _ H). Qed.

(** Expressions that differ only in the names of the types of their objects. *)
Inductive alike : aexpr -> aexpr -> Prop :=
| al_quantity q q' : agree q q' -> alike (AQuantity q) (AQuantity q')
| al_point p p' : pagree p p' -> alike (APoint p) (APoint p')
| al_unary o a a' : plain_unary U o -> alike a a' -> alike (AUnary o a) (AUnary o a')
| al_binary o a a' b b' : alike a a' -> alike b b' -> alike (ABinary o a b) (ABinary o a' b')
| al_move t a a' : plain_type U (p_qtype t) -> alike a a' -> alike (AMove t a) (AMove t a')
| al_cast c a a' : plain_cast U c -> alike a a' -> alike (APointCast c a) (APointCast c a')
| al_cast_to t a a' : plain_type U (p_qtype t) -> alike a a' -> alike (APointCastTo t a) (APointCastTo t a')
| al_relative a a' : alike a a' -> alike (ARelative a) (ARelative a')
| al_make t a a' : plain_type U (p_qtype t) -> alike a a' -> alike (AMake t a) (AMake t a').
Lemma alike_sym : forall e e', alike e e' -> alike e' e.
Proof. induction 1; constructor; auto using agree_sym; now apply agree_sym. Qed.
Lemma alike_object : forall v v', vagree v v' -> alike (object v) (object v').
Proof. intros [q|p] [q'|p'] H; try contradiction; now constructor. Qed.

Lemma close_alike : forall m m' e, Forall2 vagree m m' -> plain_pexpr U e ->
  match close m e, close m' e with Some a, Some a' => alike a a' | None, None => True | _, _ => False end.
Proof.
  intros m m' e M. induction e as [x|v|o a IH|o a IHa b IHb|t a IH|c a IH|t a IH|a IH|t a IH]; intros P; cbn [close plain_pexpr] in *.
  - clear P. revert x. induction M as [|v v' m m' V M IH]; intros [|x]; cbn [nth_error option_map]; auto. now apply alike_object. apply IH.
  - apply alike_object. destruct v as [q|p]; (split; [exact P|split; [exact P|split; [apply same_refl_names|reflexivity]]]).
  - destruct P as [Po P]. specialize (IH P). destruct (close m a), (close m' a); try contradiction; cbn [option_map]; [now constructor|exact I].
  - destruct P as [Pa Pb]. specialize (IHa Pa). specialize (IHb Pb).
    destruct (close m a), (close m' a); try contradiction; [|exact I]. destruct (close m b), (close m' b); try contradiction; [now constructor|exact I].
  - destruct P as [Po P]. specialize (IH P). destruct (close m a), (close m' a); try contradiction; cbn [option_map]; [now constructor|exact I].
  - destruct P as [Po P]. specialize (IH P). destruct (close m a), (close m' a); try contradiction; cbn [option_map]; [now constructor|exact I].
  - destruct P as [Po P]. specialize (IH P). destruct (close m a), (close m' a); try contradiction; cbn [option_map]; [now constructor|exact I].
  - specialize (IH P). destruct (close m a), (close m' a); try contradiction; cbn [option_map]; [now constructor|exact I].
  - destruct P as [Po P]. specialize (IH P). destruct (close m a), (close m' a); try contradiction; cbn [option_map]; [now constructor|exact I].
Qed.

Section Programs.
Variables w w' : world.
Hypothesis HP : program_ok U w.
Hypothesis HP' : program_ok U w'.
Variable rb : rebinding.
Hypothesis HR : honest rb.

Theorem alike_same : forall est e e', alike e e' -> forall v v', expr_sound e -> aeval rb est w e = Ok v -> aeval rb est w' e' = Ok v' -> vagree v v'.
Proof.
  intros est e e' L. induction L as [q q' A|p p' A|o a a2 Po L IH|o a a2 b b2 La IHa Lb IHb|u a a2 Pu L IH|c a a2 Pu L IH|u a a2 Pu L IH|a a2 L IH|u a a2 Pu L IH];
    intros v v' S H K; cbn [aeval expr_sound] in *.
  - inversion H; inversion K; subst v v'. exact A.
  - inversion H; inversion K; subst v v'. exact A.
  - destruct S as [_ S]. step H as x X. step K as x' X'. step H as q Q. step K as q' Q'. step H as s T. step K as s' T'. inversion H; inversion K; subst v v'.
    pose proof (IH _ _ S X X') as A. pose proof (aeval_sound rb est w a x S X) as N. destruct x as [x|x]; [|discriminate]. destruct x' as [x'|x']; [|discriminate].
    inversion Q; inversion Q'; subst q q'. exact (unary_same U HU HD w w' HP HP' est o x x' s s' Po N A T T').
  - destruct S as [Sa Sb]. step H as x X. step K as x' X'. step H as y Y. step K as y' Y'.
    exact (binary_same U HU HD w w' HP HP' rb HR est o x x' y y' v v' (aeval_sound rb est w a x Sa X) (aeval_sound rb est w b y Sb Y) (IHa _ _ Sa X X') (IHb _ _ Sb Y Y') H K).
  - step H as x X. step K as x' X'. step H as q Q. step K as q' Q'. step H as s T. step K as s' T'. inversion H; inversion K; subst v v'.
    pose proof (IH _ _ S X X') as A. pose proof (aeval_sound rb est w a x S X) as N. destruct x as [x|x]; [discriminate|]. destruct x' as [x'|x']; [discriminate|].
    inversion Q; inversion Q'; subst q q'. exact (move_same U HU HD rb est u x x' s s' Pu N A T T').
  - step H as x X. step K as x' X'. step H as q Q. step K as q' Q'. step H as s T. step K as s' T'. inversion H; inversion K; subst v v'.
    pose proof (IH _ _ S X X') as A. pose proof (aeval_sound rb est w a x S X) as N. destruct x as [x|x]; [discriminate|]. destruct x' as [x'|x']; [discriminate|].
    inversion Q; inversion Q'; subst q q'. exact (point_cast_same U HU HD w w' HP HP' est c x x' s s' Pu N A T T').
  - step H as x X. step K as x' X'. step H as q Q. step K as q' Q'. step H as s T. step K as s' T'. inversion H; inversion K; subst v v'.
    pose proof (IH _ _ S X X') as A. destruct x as [x|x]; [discriminate|]. destruct x' as [x'|x']; [discriminate|].
    inversion Q; inversion Q'; subst q q'. exact (point_cast_to_same U HU HD rb est u x x' s s' Pu A T T').
  - step H as x X. step K as x' X'. step H as q Q. step K as q' Q'. inversion H; inversion K; subst v v'.
    pose proof (IH _ _ S X X') as A. destruct x as [x|x]; [discriminate|]. destruct x' as [x'|x']; [discriminate|].
    inversion Q; inversion Q'; subst q q'. exact A.
  - step H as x X. step K as x' X'. step H as q Q. step K as q' Q'. step H as s T. step K as s' T'. inversion H; inversion K; subst v v'.
    pose proof (IH _ _ S X X') as A. pose proof (aeval_sound rb est w a x S X) as N. destruct x as [x|x]; [|discriminate]. destruct x' as [x'|x']; [|discriminate].
    inversion Q; inversion Q'; subst q q'. exact (make_same U HU HD est u u x x' s s' Pu Pu (same_refl_names _) N A T T').
Qed.

Theorem alike_too : forall est e e', alike e e' -> forall v t, expr_sound e -> aeval rb est w e = Ok v -> type_of rb est w' e' = Ok t -> exists v', aeval rb est w' e' = Ok v'.
Proof.
  intros est e e' L. induction L as [q q' A|p p' A|o a a2 Po L IH|o a a2 b b2 La IHa Lb IHb|u a a2 Pu L IH|c a a2 Pu L IH|u a a2 Pu L IH|a a2 L IH|u a a2 Pu L IH];
    intros v t S H K; cbn [aeval expr_sound type_of] in *.
  - eauto.
  - eauto.
  - destruct S as [_ S]. unfold t_on_quantity in K. step H as x X. step K as tx TX. destruct (IH _ _ S X TX) as [x' X']. rewrite X'; cbn [bind].
    rewrite (type_complete rb est w' a2 x' X') in TX. inversion TX; subst tx; clear TX. step H as q Q. step K as q' Q'. step H as s T. step K as s' T'.
    pose proof (alike_same est a a2 L x x' S X X') as A. pose proof (aeval_sound rb est w a x S X) as N. destruct x as [x|x]; [|discriminate]. destruct x' as [x'|x']; [|discriminate].
    inversion Q; inversion Q'; subst q q'. cbn [want_quantity bind]. destruct (unary_too U HU HD w w' HP HP' est o x x' s s' Po N A T T') as [z ->]. cbn [bind]. eauto.
  - destruct S as [Sa Sb]. step H as x X. step H as y Y. step K as tx TX. step K as ty TY. destruct (IHa _ _ Sa X TX) as [x' X']. destruct (IHb _ _ Sb Y TY) as [y' Y'].
    rewrite X', Y'; cbn [bind]. rewrite (type_complete rb est w' a2 x' X') in TX. inversion TX; subst tx; clear TX. rewrite (type_complete rb est w' b2 y' Y') in TY. inversion TY; subst ty; clear TY.
    exact (binary_too U HU HD w w' HP HP' rb HR est o x x' y y' v t (aeval_sound rb est w a x Sa X) (aeval_sound rb est w b y Sb Y) (alike_same est a a2 La x x' Sa X X')
      (alike_same est b b2 Lb y y' Sb Y Y') H K).
  - unfold t_on_point in K. step H as x X. step K as tx TX. destruct (IH _ _ S X TX) as [x' X']. rewrite X'; cbn [bind].
    rewrite (type_complete rb est w' a2 x' X') in TX. inversion TX; subst tx; clear TX. step H as q Q. step K as q' Q'. step H as s T. step K as s' T'.
    pose proof (alike_same est a a2 L x x' S X X') as A. pose proof (aeval_sound rb est w a x S X) as N. destruct x as [x|x]; [discriminate|]. destruct x' as [x'|x']; [discriminate|].
    inversion Q; inversion Q'; subst q q'. cbn [want_point bind]. unfold p_to in *. unfold t_move in T'. step T as d D. step T' as d' D'. rewrite D'; cbn [bind]. destruct s'.
    destruct (make_too U HU HD est u u _ _ s Pu Pu (same_refl_names _) (relative_sound x N) A T T') as [z ->]. cbn [bind]. eauto.
  - unfold t_on_point in K. step H as x X. step K as tx TX. destruct (IH _ _ S X TX) as [x' X']. rewrite X'; cbn [bind].
    rewrite (type_complete rb est w' a2 x' X') in TX. inversion TX; subst tx; clear TX. step H as q Q. step K as q' Q'. step H as s T. step K as s' T'.
    pose proof (alike_same est a a2 L x x' S X X') as A. pose proof (aeval_sound rb est w a x S X) as N. destruct x as [x|x]; [discriminate|]. destruct x' as [x'|x']; [discriminate|].
    inversion Q; inversion Q'; subst q q'. cbn [want_point bind]. unfold point_cast in *. step T as y Y.
    destruct (qcast_too U HU HD w w' HP HP' est c _ _ _ _ Pu (relative_sound x N) A Y T') as [z ->]. cbn [bind]. eauto.
  - unfold t_on_point in K. step H as x X. step K as tx TX. destruct (IH _ _ S X TX) as [x' X']. rewrite X'; cbn [bind].
    rewrite (type_complete rb est w' a2 x' X') in TX. inversion TX; subst tx; clear TX. step H as q Q. step K as q' Q'. step H as s T. step K as d' D'. step K as s' T'. destruct s'.
    pose proof (alike_same est a a2 L x x' S X X') as A. destruct x as [x|x]; [discriminate|]. destruct x' as [x'|x']; [discriminate|].
    inversion Q; inversion Q'; subst q q'. cbn [want_point bind]. unfold point_cast_to in *. step T as d D. step T as y Y. rewrite D'; cbn [bind].
    destruct A as (Pa & Pa' & Sa & Na). cbn [relative q_num] in Na. rewrite <- Na. destruct (cast_too U HU HD est _ _ _ _ _ _ Pa Pu Pa' Pu Sa (same_refl_names _) Y T') as [z Z].
    cbn [relative q_type] in Z. rewrite Z. cbn [bind]. eauto.
  - unfold t_on_point in K. step H as x X. step K as tx TX. destruct (IH _ _ S X TX) as [x' X']. rewrite X'; cbn [bind].
    rewrite (type_complete rb est w' a2 x' X') in TX. inversion TX; subst tx; clear TX. step K as q' Q'. destruct x' as [x'|x']; [discriminate|]. cbn [want_point bind]. eauto.
  - unfold t_on_quantity in K. step H as x X. step K as tx TX. destruct (IH _ _ S X TX) as [x' X']. rewrite X'; cbn [bind].
    rewrite (type_complete rb est w' a2 x' X') in TX. inversion TX; subst tx; clear TX. step H as q Q. step K as q' Q'. step H as s T. step K as s' T'. destruct s'.
    pose proof (alike_same est a a2 L x x' S X X') as A. pose proof (aeval_sound rb est w a x S X) as N. destruct x as [x|x]; [|discriminate]. destruct x' as [x'|x']; [|discriminate].
    inversion Q; inversion Q'; subst q q'. cbn [want_quantity bind]. destruct (make_too U HU HD est u u x x' s Pu Pu (same_refl_names _) N A T T') as [z ->]. cbn [bind]. eauto.
Qed.

Lemma common_too : forall est a a' b b' p, q_sound a -> q_sound b -> agree a a' -> agree b b' ->
  q_common est w a b = Ok p -> t_common est w' (q_type a') (q_type b') = Ok tt -> exists p', q_common est w' a' b' = Ok p'.
Proof.
  intros est a a' b b' p Ka Kb (Pa & Pa' & Sa & Na) (Pb & Pb' & Sb & Nb) H K. unfold q_common in *. unfold t_common in K.
  assert (Ka' : num_ok (q_rep (q_type a')) (q_num a') = true) by (rewrite <- Na; replace (q_rep (q_type a')) with (q_rep (q_type a)) by apply Sa; exact Ka).
  assert (Kb' : num_ok (q_rep (q_type b')) (q_num b') = true) by (rewrite <- Nb; replace (q_rep (q_type b')) with (q_rep (q_type b)) by apply Sb; exact Kb).
  destruct (qtype_eq_dec (q_type a') (q_type b')) as [E'|E']; [eauto|]. step K as t' T'. step K as u' X'. destruct u'. rewrite T'; cbn [bind].
  destruct (qtype_eq_dec (q_type a) (q_type b)) as [E|E].
  - assert (R : q_rep (q_type a') = q_rep (q_type b')) by (destruct Sa as (_ & _ & Qa), Sb as (_ & _ & Qb); congruence).
    assert (Eu : u_ratio (q_unit (q_type a')) = u_ratio (q_unit (q_type b'))) by (destruct Sa as (_ & Ra & _), Sb as (_ & Rb & _); congruence).
    destruct (common_plain U HU HD est w' _ _ _ _ (proj1 HP') Pa' Pb' T') as (Pt & _ & Rt & k & c & Ga & Gb & D & F).
    rewrite <- R, common_rep_self in Rt. rewrite <- Eu in D. rewrite common_ratio_idem in D by apply Ga. inversion D; subst c. rewrite shift_shift, Z.add_opp_diag_r, shift_0 in F.
    assert (C : forall q, plain_type U (q_type q) -> q_rep (q_type q) = q_rep t' -> u_ratio (q_unit (q_type q)) = u_ratio (q_unit t') ->
      num_ok (q_rep (q_type q)) (q_num q) = true -> t_convert est (q_type q) t' = Ok tt -> exists z, q_convert est (q_type q) t' (q_num q) = Ok z).
    { intros q Pq Rq Uq Nq X. unfold q_convert. unfold t_convert in X. destruct (qtype_eq_dec (q_type q) t'); [eauto|]. step X as x1 X1. step X as x2 X2. rewrite X1; cbn [bind]. rewrite X2; cbn [bind].
      exact (cast_named_too U HU HD est _ _ _ Pq Pt Rq Uq Nq X). }
    destruct (C a' Pa' (eq_sym Rt) (eq_sym F) Ka' X') as [x ->]. cbn [bind].
    destruct (C b' Pb' ltac:(congruence) ltac:(congruence) Kb' K) as [y ->]. cbn [bind]. eauto.
  - replace (q_rep (q_type a')) with (q_rep (q_type a)) in T' by apply Sa. replace (q_rep (q_type b')) with (q_rep (q_type b)) in T' by apply Sb.
    step H as t T. step H as x X. step H as y Y.
    destruct (common_same U HU HD est w w' _ _ _ _ _ _ _ (proj1 HP) (proj1 HP') Pa Pb Pa' Pb' Sa Sb T T') as (Pt & Pt' & St).
    rewrite <- Na, <- Nb. destruct (convert_too U HU HD est _ _ _ _ _ _ Pa Pt Pa' Pt' Sa St Ka X X') as [x' ->].
    destruct (convert_too U HU HD est _ _ _ _ _ _ Pb Pt Pb' Pt' Sb St Kb Y K) as [y' ->]. cbn [bind]. eauto.
Qed.
End Programs.

(** ** Both programs side by side *)

Section Both.
Variables w w' : world.
Hypothesis HP : program_ok U w.
Hypothesis HP' : program_ok U w'.
Variable rb : rebinding.
Hypothesis HR : honest rb.
Variable est : estimate.

Lemma agree_sound : forall q q', agree q q' -> q_sound q -> q_sound q'.
Proof. intros q q' (_ & _ & (_ & _ & R) & N) H. unfold q_sound in *. rewrite <- R, <- N. exact H. Qed.

Lemma aeval_both : forall e e' t t', alike e e' -> expr_sound e -> expr_sound e' -> type_of rb est w e = Ok t -> type_of rb est w' e' = Ok t' ->
  both (fun v v' => vagree v v' /\ (vtype v = t /\ sound v) /\ (vtype v' = t' /\ sound v')) (aeval rb est w e) (aeval rb est w' e').
Proof.
  intros e e' t t' L S S' T T'. destruct (type_sound rb est w e t S T) as [(v & V & Hv)|V], (type_sound rb est w' e' t' S' T') as [(v' & V' & Hv')|V'].
  - left. exists v, v'. split; [exact V|]. split; [exact V'|]. split; [exact (alike_same w w' HP HP' rb HR est e e' L v v' S V V')|]. split; assumption.
  - destruct (alike_too w w' HP HP' rb HR est e e' L v t' S V T') as [z Z]. congruence.
  - destruct (alike_too w' w HP' HP rb HR est e' e (alike_sym _ _ L) v' t S' V' T) as [z Z]. congruence.
  - right. left. split; assumption.
Qed.
Lemma peval_both : forall g g' m m' e t t', well_typed g m -> well_typed g' m' -> Forall2 vagree m m' -> plain_pexpr U e -> pexpr_sound e ->
  ptype_of rb est w g e = Ok t -> ptype_of rb est w' g' e = Ok t' ->
  both (fun v v' => vagree v v' /\ (vtype v = t /\ sound v) /\ (vtype v' = t' /\ sound v')) (peval rb est w m e) (peval rb est w' m' e).
Proof.
  intros g g' m m' e t t' W W' M P S T T'. pose proof (close_type rb est w g m e W) as C. pose proof (close_type rb est w' g' m' e W') as C'.
  pose proof (close_alike m m' e M P) as L. unfold peval. destruct (close m e) as [a|], (close m' e) as [a'|]; try contradiction.
  - destruct C as [C1 C2], C' as [C1' C2']. apply aeval_both; auto; congruence.
  - now destruct (C t).
Qed.

Lemma convert_both : forall from to from' to' n, plain_type U from -> plain_type U to -> plain_type U from' -> plain_type U to' ->
  same_but_names from from' -> same_but_names to to' -> num_ok (q_rep from) n = true -> t_convert est from to = Ok tt -> t_convert est from' to' = Ok tt ->
  both eq (q_convert est from to n) (q_convert est from' to' n).
Proof.
  intros from to from' to' n F T F' T' Sf St N H K. assert (N' : num_ok (q_rep from') n = true) by (replace (q_rep from') with (q_rep from) by apply Sf; exact N).
  destruct (q_convert_runs est from to n N H) as [(z & Z & _)|Z], (q_convert_runs est from' to' n N' K) as [(z' & Z' & _)|Z'].
  - left. exists z, z'. split; [exact Z|]. split; [exact Z'|]. symmetry. exact (convert_same U HU HD est _ _ _ _ _ _ _ F T F' T' Sf St N Z Z').
  - destruct (convert_too U HU HD est _ _ _ _ _ _ F T F' T' Sf St N Z K) as [y Y]. congruence.
  - destruct (convert_too U HU HD est _ _ _ _ _ _ F' T' F T (names_sym _ _ Sf) (names_sym _ _ St) N' Z' H) as [y Y]. congruence.
  - right. left. split; assumption.
Qed.
Lemma to_both : forall t t' q q', plain_type U t -> plain_type U t' -> same_but_names t t' -> agree q q' -> q_sound q ->
  t_convert est (q_type q) t = Ok tt -> t_convert est (q_type q') t' = Ok tt -> both agree (q_to est t q) (q_to est t' q').
Proof.
  intros t t' q q' T T' S (P & P' & Sq & Nq) K H H'. unfold q_to. rewrite <- Nq. eapply both_bind; [now apply (convert_both (q_type q) t (q_type q') t')|].
  intros x y <-. apply both_ok. split; [exact T|]. split; [exact T'|]. split; [exact S|reflexivity].
Qed.
Lemma make_both : forall t t' q q', plain_type U (p_qtype t) -> plain_type U (p_qtype t') -> same_but_names (p_qtype t) (p_qtype t') -> agree q q' -> q_sound q ->
  t_convert est (q_type q) (p_qtype t) = Ok tt -> t_convert est (q_type q') (p_qtype t') = Ok tt -> both pagree (p_make est t q) (p_make est t' q').
Proof.
  intros t t' q q' T T' S (P & P' & Sq & Nq) K H H'. unfold p_make. rewrite <- Nq. eapply both_bind; [now apply (convert_both (q_type q) (p_qtype t) (q_type q') (p_qtype t'))|].
  intros x y <-. apply both_ok. split; [exact T|]. split; [exact T'|]. split; [exact S|reflexivity].
Qed.

Lemma assigned_both : forall old old' v v', vagree old old' -> vagree v v' -> sound v -> t_assigned rb est (vtype old) (vtype v) = Ok tt -> t_assigned rb est (vtype old') (vtype v') = Ok tt ->
  both vagree (assigned rb est old v) (assigned rb est old' v').
Proof.
  intros [a|a] [a'|a'] [b|b] [b'|b'] O V S H H'; try contradiction; cbn [vtype t_assigned] in H, H'; try discriminate; cbn [assigned].
  - eapply both_bind; [now apply to_both; [apply O|apply O|apply O|exact V|exact S|exact H|exact H']|]. intros x y A. now apply both_ok.
  - unfold p_to, t_move in *. step H as u E. step H' as u' E'. rewrite E, E'; cbn [bind].
    eapply both_bind; [apply make_both; [apply O|apply O|apply O|exact V|exact (relative_sound b S)|exact H|exact H']|]. intros x y A. now apply both_ok.
Qed.

(** The operators that change an object, with operands that agree. *)
Definition aagree (a a' : action) : Prop :=
  match a, a' with
  | AAdd q, AAdd q' | ASub q, ASub q' | ARem q, ARem q' => agree q q'
  | _, _ => a = a'
  end.
Lemma n_assign_both : forall o a b x y, (o = OpRem -> floating (arith_rep a b) = false) -> both (fun z z' => z = z') (n_assign o a b x y) (n_assign o a b x y).
Proof.
  intros o a b x y H. apply both_same. destruct (n_assign_runs o a b x y H) as [(z & Z & _)|Z]; [left; eauto|right; exact Z].
Qed.
Lemma act_both : forall q q' a a', agree q q' -> aagree a a' -> action_fits est (q_type q) a -> action_fits est (q_type q') a' -> both agree (q_act est q a) (q_act est q' a').
Proof.
  intros q q' a a' (P & P' & S & N) A F F'. unfold q_act. cbv zeta. replace (q_rep (q_type q')) with (q_rep (q_type q)) in * by apply S. rewrite <- N.
  assert (E : forall z z' : number, z = z' -> both agree (Ok (Quantity (q_type q) z)) (Ok (Quantity (q_type q') z'))).
  { intros z z' <-. apply both_ok. split; [exact P|]. split; [exact P'|]. split; [exact S|reflexivity]. }
  eapply both_bind; [|exact E].
  assert (C : forall b b' o, agree b b' -> q_sound b -> (o = OpRem -> floating (q_rep (q_type q)) = false) -> t_convert est (q_type b) (q_type q) = Ok tt -> t_convert est (q_type b') (q_type q') = Ok tt ->
    both eq (x <- q_convert est (q_type b) (q_type q) (q_num b); n_assign o (q_rep (q_type q)) (q_rep (q_type q)) (q_num q) x)
            (x <- q_convert est (q_type b') (q_type q') (q_num b'); n_assign o (q_rep (q_type q)) (q_rep (q_type q)) (q_num q) x)).
  { intros b b' o (Pb & Pb' & Sb & Nb) Kb Ho Cb Cb'. rewrite <- Nb. eapply both_bind; [now apply (convert_both (q_type b) (q_type q) (q_type b') (q_type q'))|].
    intros x y <-. apply n_assign_both. intros O. apply arith_floating; now apply Ho. }
  destruct a as [| |b|b|b|r v|r v|r v], a' as [| |b'|b'|b'|r' v'|r' v'|r' v']; cbn [aagree action_fits] in *; try discriminate A; try (inversion A; subst r' v').
  - apply n_assign_both; discriminate.
  - apply n_assign_both; discriminate.
  - apply C; try tauto; discriminate.
  - apply C; try tauto; discriminate.
  - destruct F as (B & X & F), F' as (B' & X' & F').
    replace (q_rep (q_type q')) with (q_rep (q_type q)) in X' by apply S. rewrite X; cbn [bind].
    apply C; try tauto. intros _. now apply constrained_ok, negb_true_iff in X.
  - apply n_assign_both; discriminate.
  - apply n_assign_both; discriminate.
  - rewrite F; cbn [bind]. apply constrained_ok, andb_prop in F as [F1 F2]. apply negb_true_iff in F1, F2. apply n_assign_both. intros _. now apply arith_floating.
Qed.

Definition vqtype (v : avalue) : qtype := match v with VQuantity q => q_type q | VPoint p => p_qtype (pt_type p) end.
Definition pointy (v : avalue) (a : action) : Prop :=
  match v, a with VPoint _, (ARem _ | AMulV _ _ | ADivV _ _ | ARemV _ _) => False | _, _ => True end.
Lemma changed_agree : forall old old' a a', vagree old old' -> aagree a a' -> action_fits est (vqtype old) a -> action_fits est (vqtype old') a' -> pointy old a ->
  both vagree (changed est old a) (changed est old' a').
Proof.
  intros [q|p] [q'|p'] a a' O A F F' Y; try contradiction; cbn [changed vqtype] in *.
  - eapply both_bind; [now apply act_both|]. intros x y X. now apply both_ok.
  - assert (E : exists pa pa', point_action a = Ok pa /\ point_action a' = Ok pa' /\ p_action pa = a /\ p_action pa' = a').
    { destruct a, a'; cbn [aagree pointy] in *; try discriminate A; try contradiction; do 2 eexists; repeat split; reflexivity. }
    destruct E as (pa & pa' & -> & -> & Ea & Ea'). cbn [bind]. unfold p_act. rewrite Ea, Ea'.
    eapply both_bind; [|intros x y X; apply both_ok; exact X].
    eapply both_bind; [apply (act_both (relative p) (relative p') a a' O A F F')|]. intros x y (_ & _ & _ & N). apply both_ok.
    destruct O as (P & P' & S & _). split; [exact P|]. split; [exact P'|]. split; [exact S|exact N].
Qed.
Lemma operand_both : forall g g' m m' e o o' (f : quantity -> action), well_typed g m -> well_typed g' m' -> Forall2 vagree m m' -> plain_pexpr U e -> pexpr_sound e ->
  (x <- ptype_of rb est w g e; t_want_quantity x) = Ok o -> (x <- ptype_of rb est w' g' e; t_want_quantity x) = Ok o' ->
  both (fun a a' => exists q q', a = f q /\ a' = f q' /\ agree q q' /\ (q_type q = o /\ q_sound q) /\ (q_type q' = o' /\ q_sound q'))
    (x <- peval rb est w m e; q <- want_quantity x; Ok (f q)) (x <- peval rb est w' m' e; q <- want_quantity x; Ok (f q)).
Proof.
  intros g g' m m' e o o' f W W' M P S T T'. step T as t X. step T' as t' X'. eapply both_bind; [exact (peval_both g g' m m' e t t' W W' M P S X X')|].
  intros v v' (V & (E & K) & (E' & K')). subst t t'. destruct v as [q|p], v' as [q'|p']; try contradiction; cbn [vtype t_want_quantity] in T, T'; try discriminate.
  inversion T; inversion T'; subst o o'. cbn [want_quantity bind]. apply both_ok. exists q, q'. repeat split; try apply V; assumption.
Qed.
Lemma changed_both : forall g g' m m' old old' h, well_typed g m -> well_typed g' m' -> Forall2 vagree m m' -> plain_change U h -> change_sound h -> vagree old old' ->
  t_changed rb est w g (vtype old) h = Ok tt -> t_changed rb est w' g' (vtype old') h = Ok tt ->
  both vagree (a <- action_of rb est w m h; changed est old a) (a <- action_of rb est w' m' h; changed est old' a).
Proof.
  intros g g' m m' old old' h W W' M P S O H H'. apply both_bind with
    (R := fun a a' => aagree a a' /\ action_fits est (vqtype old) a /\ action_fits est (vqtype old') a' /\ pointy old a); [|intros a a' (A & F & F' & Y); now apply changed_agree].
  assert (E : forall e (f : quantity -> action), plain_pexpr U e -> pexpr_sound e ->
    (exists o o', (x <- ptype_of rb est w g e; t_want_quantity x) = Ok o /\ (x <- ptype_of rb est w' g' e; t_want_quantity x) = Ok o' /\
      forall q q', agree q q' -> q_type q = o -> q_type q' = o' -> q_sound q -> q_sound q' ->
        aagree (f q) (f q') /\ action_fits est (vqtype old) (f q) /\ action_fits est (vqtype old') (f q') /\ pointy old (f q)) ->
    both (fun a a' => aagree a a' /\ action_fits est (vqtype old) a /\ action_fits est (vqtype old') a' /\ pointy old a)
      (x <- peval rb est w m e; q <- want_quantity x; Ok (f q)) (x <- peval rb est w' m' e; q <- want_quantity x; Ok (f q))).
  { intros e f Pe Se (o & o' & T & T' & K). destruct (operand_both g g' m m' e o o' f W W' M Pe Se T T') as [(a & a' & A & A' & q & q' & -> & -> & G & (Q1 & Q2) & (Q3 & Q4))|[R|R]].
    - left. exists (f q), (f q'). split; [exact A|]. split; [exact A'|]. now apply K.
    - right. now left.
    - right. now right. }
  destruct h as [| |e|e|e|r v|r v|r v], old as [q|p], old' as [q'|p']; try contradiction; cbn [vtype t_changed action_of plain_change change_sound vqtype] in *; try discriminate.
  all: try (apply both_ok; cbn [aagree action_fits pointy]; repeat split; assumption).
  all: apply E; [exact P|exact S|]; step H as x X; step H' as x' X'; step H as o T; step H' as o' T'; exists o, o'; rewrite X, X'; cbn [bind]; (split; [exact T|]); (split; [exact T'|]).
  all: intros b b' G <- <- B B'; cbn [aagree action_fits pointy].
  5: step H as c C; step H' as c' C'; destruct c, c'; exact (conj G (conj (conj B (conj C H)) (conj (conj B' (conj C' H')) I))).
  all: exact (conj G (conj (conj B H) (conj (conj B' H') I))).
Qed.

Lemma common_both : forall a a' b b', q_sound a -> q_sound b -> agree a a' -> agree b b' ->
  t_common est w (q_type a) (q_type b) = Ok tt -> t_common est w' (q_type a') (q_type b') = Ok tt ->
  both (fun p p' => p' = p /\ exists r, num_ok r (fst p) = true /\ num_ok r (snd p) = true) (q_common est w a b) (q_common est w' a' b').
Proof.
  intros a a' b b' A B Ga Gb H H'.
  destruct (common_runs est w a b A B H) as [(p & E & N)|E], (common_runs est w' a' b' (agree_sound _ _ Ga A) (agree_sound _ _ Gb B) H') as [(p' & E' & N')|E'].
  - left. exists p, p'. split; [exact E|]. split; [exact E'|]. split; [|exact N]. exact (q_common_same U HU HD w w' HP HP' est a a' b b' p p' A B Ga Gb E E').
  - destruct (common_too w w' HP HP' est a a' b b' p A B Ga Gb E H') as [z Z]. congruence.
  - destruct (common_too w' w HP' HP est a' a b' b p' (agree_sound _ _ Ga A) (agree_sound _ _ Gb B) (agree_sym _ _ Ga) (agree_sym _ _ Gb) E' H) as [z Z]. congruence.
  - right. left. split; assumption.
Qed.
Lemma compare_both : forall x x' y y', sound x -> sound y -> vagree x x' -> vagree y y' ->
  t_compare rb est w (vtype x) (vtype y) = Ok tt -> t_compare rb est w' (vtype x') (vtype y') = Ok tt ->
  both eq (v_compare rb est w x y) (v_compare rb est w' x' y') /\ both eq (v_eqb rb est w x y) (v_eqb rb est w' x' y').
Proof.
  intros x x' y y' X Y Gx Gy H H'.
  assert (C : forall a a' b b', q_sound a -> q_sound b -> agree a a' -> agree b b' -> t_common est w (q_type a) (q_type b) = Ok tt -> t_common est w' (q_type a') (q_type b') = Ok tt ->
    both eq (q_compare est w a b) (q_compare est w' a' b') /\ both eq (q_eqb est w a b) (q_eqb est w' a' b')).
  { intros a a' b b' A B Ga Gb K K'. pose proof (common_both a a' b b' A B Ga Gb K K') as R. unfold q_compare, q_eqb.
    split; (eapply both_bind; [exact R|]); intros p p' (-> & r & N1 & N2); apply both_same; now apply (compare_total r). }
  destruct x as [a|a], x' as [a'|a']; try contradiction; destruct y as [b|b], y' as [b'|b']; try contradiction; cbn [vtype t_compare] in H, H'; try discriminate; cbn [v_compare v_eqb].
  - now apply C.
  - step H as u O. step H' as u' O'. unfold p_compare, p_eqb. rewrite O, O'; cbn [bind]. now apply (C (relative a) (relative a') (relative b) (relative b')).
Qed.
Lemma relation_both : forall o x x' y y', sound x -> sound y -> vagree x x' -> vagree y y' ->
  t_compare rb est w (vtype x) (vtype y) = Ok tt -> t_compare rb est w' (vtype x') (vtype y') = Ok tt ->
  both eq (relation rb est w o x y) (relation rb est w' o x' y').
Proof.
  intros o x x' y y' X Y Gx Gy H H'. destruct (compare_both x x' y y' X Y Gx Gy H H') as [C E].
  destruct o; cbn [relation]; try exact E; (eapply both_bind; [eassumption|]); intros u v <-; now apply both_ok.
Qed.
Lemma holds_both : forall g g' m m' c, well_typed g m -> well_typed g' m' -> Forall2 vagree m m' -> plain_cond U c -> pcond_sound c ->
  compiles_cond rb est w g c = Ok tt -> compiles_cond rb est w' g' c = Ok tt -> both eq (holds rb est w m c) (holds rb est w' m' c).
Proof.
  intros g g' m m' c W W' M. induction c as [o a b|c IH|c IHc d IHd|c IHc d IHd]; intros P S H H'; cbn [holds compiles_cond pcond_sound plain_cond] in *.
  - destruct P as [Pa Pb], S as [A B]. step H as x X. step H' as x' X'. step H as y Y. step H' as y' Y'.
    eapply both_bind; [exact (peval_both g g' m m' a x x' W W' M Pa A X X')|]. intros u u' (G & (<- & K) & (<- & _)).
    eapply both_bind; [exact (peval_both g g' m m' b y y' W W' M Pb B Y Y')|]. intros v v' (G2 & (<- & K2) & (<- & _)). now apply relation_both.
  - eapply both_bind; [now apply IH|]. intros u v <-. now apply both_ok.
  - destruct P as [Pa Pb], S as [A B]. step H as u X. destruct u. step H' as u X'. destruct u. eapply both_bind; [now apply IHc|]. intros [|] v <-; [now apply IHd|now apply both_ok].
  - destruct P as [Pa Pb], S as [A B]. step H as u X. destruct u. step H' as u X'. destruct u. eapply both_bind; [now apply IHc|]. intros [|] v <-; [now apply both_ok|now apply IHd].
Qed.

Lemma agree_at : forall m m' x v, Forall2 vagree m m' -> nth_error m x = Some v -> exists v', nth_error m' x = Some v' /\ vagree v v'.
Proof.
  intros m m' x v M. revert x. induction M as [|a b m m' A M IH]; intros [|x] H; cbn [nth_error] in *; try discriminate; [|now apply IH].
  inversion H; subst v. eauto.
Qed.
Lemma agree_update : forall m m' x v v', Forall2 vagree m m' -> vagree v v' -> Forall2 vagree (update m x v) (update m' x v').
Proof. intros m m' x v v' M V. revert x. induction M as [|a b m m' A M IH]; intros [|x]; cbn [update]; constructor; auto. Qed.

Theorem run_both : forall n s g g' m m', well_typed g m -> well_typed g' m' -> Forall2 vagree m m' -> plain_stmt U s -> pstmt_sound s ->
  compiles rb est w g s = Ok tt -> compiles rb est w' g' s = Ok tt ->
  both (fun k k' => Forall2 vagree k k' /\ well_typed g k /\ well_typed g' k') (run rb est w n s m) (run rb est w' n s m').
Proof.
  intros n s g g' m m' W W' M P S H H'. cut (both (Forall2 vagree) (run rb est w n s m) (run rb est w' n s m')).
  { pose proof (run_goes rb est w n s g m W S H) as G. pose proof (run_goes rb est w' n s g' m' W' S H') as G'.
    intros [(k & k' & E & E' & K)|[R|R]]; [|right; now left|right; now right]. rewrite E in G. rewrite E' in G'.
    destruct G as [[(z & Z & G)|Z]|Z]; [|discriminate|discriminate]. destruct G' as [[(z' & Z' & G')|Z']|Z']; [|discriminate|discriminate].
    inversion Z; inversion Z'; subst z z'. left. exists k, k'. split; [exact E|]. split; [exact E'|]. split; [exact K|]. split; assumption. }
  revert s m m' W W' M P S H H'. induction n as [|n IH]; intros s m m' W W' M P S H H'; [right; right; split; reflexivity|].
  destruct s as [|a b|x e|x h|c a b|c a]; cbn [run compiles pstmt_sound plain_stmt] in *.
  - now apply both_ok.
  - destruct P as [Pa Pb], S as [Sa Sb]. step H as u X. destruct u. step H' as u X'. destruct u.
    pose proof (run_goes rb est w n a g m W Sa X) as G. pose proof (run_goes rb est w' n a g' m' W' Sa X') as G'.
    destruct (IH a m m' W W' M Pa Sa X X') as [(k & k' & E & E' & K)|[[E E']|[E E']]]; rewrite E, E'; cbn [bind]; [|right; left; split; reflexivity|right; right; split; reflexivity].
    rewrite E in G. rewrite E' in G'. destruct G as [[(z & Z & G)|Z]|Z]; [|discriminate|discriminate]. destruct G' as [[(z' & Z' & G')|Z']|Z']; [|discriminate|discriminate].
    inversion Z; inversion Z'; subst z z'. now apply IH.
  - step H as old O. step H' as old' O'. step H as new N. step H' as new' N'. unfold declared_type in O, O'.
    destruct (nth_error g x) as [t|] eqn:E; [|discriminate]. inversion O; subst old. destruct (nth_error g' x) as [t'|] eqn:E'; [|discriminate]. inversion O'; subst old'.
    destruct (typed_at g m x t W E) as (v & V & T & Sv). destruct (typed_at g' m' x t' W' E') as (v' & V' & T' & Sv'). unfold lookup. rewrite V, V'; cbn [bind].
    destruct (agree_at m m' x v M V) as (v2 & V2 & A). rewrite V' in V2. inversion V2; subst v2.
    eapply both_bind; [exact (peval_both g g' m m' e new new' W W' M P S N N')|]. intros y y' (G & (<- & Y) & (<- & Y')). subst t t'.
    eapply both_bind; [now apply assigned_both|]. intros z z' Z. apply both_ok. now apply agree_update.
  - step H as old O. step H' as old' O'. unfold declared_type in O, O'.
    destruct (nth_error g x) as [t|] eqn:E; [|discriminate]. inversion O; subst old. destruct (nth_error g' x) as [t'|] eqn:E'; [|discriminate]. inversion O'; subst old'.
    destruct (typed_at g m x t W E) as (v & V & T & Sv). destruct (typed_at g' m' x t' W' E') as (v' & V' & T' & Sv'). unfold lookup. rewrite V, V'; cbn [bind].
    destruct (agree_at m m' x v M V) as (v2 & V2 & A). rewrite V' in V2. inversion V2; subst v2. subst t t'.
    pose proof (changed_both g g' m m' v v' h W W' M P S A H H') as R.
    assert (Q : forall A B (r : res action) (f : action -> res A) (k : A -> res B), (a <- r; v <- f a; k v) = (v <- (a <- r; f a); k v)) by (intros; destruct r; reflexivity).
    rewrite !Q. eapply both_bind; [exact R|]. intros z z' Z. apply both_ok. now apply agree_update.
  - destruct P as (Pc & Pa & Pb), S as (C & A & B). step H as u X. step H as u2 X2. destruct u, u2. step H' as u X'. step H' as u2 X2'. destruct u, u2.
    eapply both_bind; [now apply (holds_both g g' m m' c)|]. intros [|] t <-; now apply IH.
  - destruct P as (Pc & Pa), S as (C & A). pose proof H as H0. pose proof H' as H0'. step H as u X. destruct u. step H' as u X'. destruct u.
    eapply both_bind; [now apply (holds_both g g' m m' c)|]. intros [|] t <-; [|now apply both_ok].
    pose proof (run_goes rb est w n a g m W A H) as G. pose proof (run_goes rb est w' n a g' m' W' A H') as G'.
    destruct (IH a m m' W W' M Pa A H H') as [(k & k' & E & E' & K)|[[E E']|[E E']]]; rewrite E, E'; cbn [bind]; [|right; left; split; reflexivity|right; right; split; reflexivity].
    rewrite E in G. rewrite E' in G'. destruct G as [[(z & Z & G)|Z]|Z]; [|discriminate|discriminate]. destruct G' as [[(z' & Z' & G')|Z']|Z']; [|discriminate|discriminate].
    inversion Z; inversion Z'; subst z z'. apply (IH (SWhile c a)); auto. now split. now split.
Qed.
End Both.
End System.
