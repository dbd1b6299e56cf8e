(** Expressions of quantities: dimensional analysis. *)

From Coq Require Import ZArith QArith Qpower Qabs String List Bool Lia Permutation Sorted Lqa SpecFloat.
From Verif Require Import Outcome CInt Ratio SpecRatio Root FixedString TypeList TypeListProofs Unit Downcast Dim DimOp Equivalent SpecDim SpecUnit
  StringProofs DimProofs DimOpProofs DimOpProofs2 DimOpProofs3 EquivProofs Rep Reference QuantityCast CommonQuantity Quantity SpecQuantity
  Point Expr SpecExpr.
Import ListNotations.
Local Open Scope Z_scope.
Local Open Scope res_scope.

(** ** Exponents of classes are sums of exponents of base dimensions *)

Definition in_class (s r : string) (b : bdim) : bool := (String.eqb (bd_symbol b) s && String.eqb (u_ref (bd_unit b)) r)%bool.

Fixpoint class_sum (s r : string) (f : bdim -> Q) (B : list bdim) : Q :=
  match B with [] => 0%Q | b :: B' => ((if in_class s r b then f b else 0) + class_sum s r f B')%Q end.

Lemma class_sum_ext : forall s r f g B, (forall b, In b B -> f b == g b)%Q -> (class_sum s r f B == class_sum s r g B)%Q.
Proof.
  intros s r f g B. induction B as [|b B IH]; intros H; simpl; [reflexivity|].
  rewrite IH by (intros; apply H; now right). destruct (in_class s r b); [|reflexivity]. rewrite H by now left. reflexivity.
Qed.

Lemma class_sum_plus : forall s r f g B, (class_sum s r (fun b => f b + g b) B == class_sum s r f B + class_sum s r g B)%Q.
Proof. intros s r f g B. induction B as [|b B IH]; simpl; [ring|]. rewrite IH. destruct (in_class s r b); ring. Qed.
Lemma class_sum_opp : forall s r f B, (class_sum s r (fun b => - f b) B == - class_sum s r f B)%Q.
Proof. intros s r f B. induction B as [|b B IH]; simpl; [ring|]. rewrite IH. destruct (in_class s r b); ring. Qed.

Lemma class_sum_zero : forall s r B, (class_sum s r (fun _ => 0) B == 0)%Q.
Proof. intros s r B. induction B as [|b B IH]; simpl; [reflexivity|]. rewrite IH. destruct (in_class s r b); ring. Qed.

Lemma class_sum_single : forall s r c x B, NoDup B -> In c B ->
  (class_sum s r (fun b => if bdim_eq_dec c b then x else 0) B == if in_class s r c then x else 0)%Q.
Proof.
  intros s r c x B N. induction N as [|b B Nb N IH]; intros H; [contradiction|]. simpl.
  destruct (bdim_eq_dec c b) as [->|E].
  - assert (Z : (class_sum s r (fun b0 => if bdim_eq_dec b b0 then x else 0) B == 0)%Q).
    { rewrite <- (class_sum_zero s r B). apply class_sum_ext. intros b' Hb. destruct (bdim_eq_dec b b'); [subst; contradiction|reflexivity]. }
    rewrite Z. ring.
  - destruct H as [H|H]; [congruence|]. rewrite IH by auto. destruct (in_class s r b); ring.
Qed.

Lemma class_as_sum : forall s r B es, NoDup B -> (forall e, In e es -> In (e_dim e) B) ->
  (class_expo es s r == class_sum s r (expo es) B)%Q.
Proof.
  intros s r B es N. induction es as [|e es IH]; intros H.
  - simpl. symmetry. apply class_sum_zero.
  - cbn [class_expo]. rewrite IH by (intros; apply H; now right).
    assert (E : (class_sum s r (expo (e :: es)) B ==
       class_sum s r (fun b => if bdim_eq_dec (e_dim e) b then equot e else 0) B + class_sum s r (expo es) B)%Q).
    { rewrite <- class_sum_plus. apply class_sum_ext. intros b _. reflexivity. }
    rewrite E, class_sum_single by (auto; apply H; now left). reflexivity.
Qed.

Definition dims_of (ls : list (list bexp)) : list bdim := nodup bdim_eq_dec (map e_dim (concat ls)).
Lemma dims_of_nodup : forall ls, NoDup (dims_of ls).
Proof. intros. apply NoDup_nodup. Qed.
Lemma dims_of_in : forall ls es e, In es ls -> In e es -> In (e_dim e) (dims_of ls).
Proof. intros ls es e H1 H2. apply nodup_In, in_map, in_concat. eauto. Qed.

Lemma class_linear2 : forall es es1 es2, (forall b, expo es b == expo es1 b + expo es2 b)%Q ->
  forall s r, (class_expo es s r == class_expo es1 s r + class_expo es2 s r)%Q.
Proof.
  intros es es1 es2 H s r. pose (B := dims_of [es; es1; es2]).
  assert (N : NoDup B) by apply dims_of_nodup.
  rewrite (class_as_sum s r B es), (class_as_sum s r B es1), (class_as_sum s r B es2); auto;
    try (intros e He; eapply dims_of_in; [|exact He]; simpl; auto; fail).
  rewrite <- class_sum_plus. apply class_sum_ext. intros b _. apply H.
Qed.
Lemma class_opposite : forall es es1, (forall b, expo es b == - expo es1 b)%Q ->
  forall s r, (class_expo es s r == - class_expo es1 s r)%Q.
Proof.
  intros es es1 H s r. pose (B := dims_of [es; es1]).
  assert (N : NoDup B) by apply dims_of_nodup.
  rewrite (class_as_sum s r B es), (class_as_sum s r B es1); auto;
    try (intros e He; eapply dims_of_in; [|exact He]; simpl; auto; fail).
  rewrite <- class_sum_opp. apply class_sum_ext. intros b _. apply H.
Qed.

(** ** Operations on arbitrary dimensions *)

Lemma to_dimension_expo : forall w es d, consistent w -> to_dimension w es = Ok d -> forall b, (dim_expo d b == expo es b)%Q.
Proof.
  intros w es d C H b. unfold to_dimension in H.
  destruct es as [|e [|f l]]; try (eapply downcast_dimension_expo; eauto; fail).
  destruct (is_plus_one e) eqn:E; [|eapply downcast_dimension_expo; eauto].
  apply is_plus_one_iff in E. inversion H; subst d. unfold dim_expo. cbn [exponents]. rewrite <- E. reflexivity.
Qed.

Lemma multiply_expo : forall w d1 d2 d, consistent w -> dimension_multiply w d1 d2 = Ok d ->
  forall b, (dim_expo d b == dim_expo d1 b + dim_expo d2 b)%Q.
Proof.
  intros w d1 d2 d C H b. destruct (dimension_multiply_shape w d1 d2) as [E|E]; rewrite E in H;
    unfold merge_dimension in H; unbind; rewrite (to_dimension_expo _ _ _ C H b), (merge_expo _ _ _ E0 b); unfold dim_expo; ring.
Qed.

Lemma invert_list_expo : forall es i, map_res exponent_invert es = Ok i -> forall b, (expo i b == - expo es b)%Q.
Proof.
  induction es as [|e es IH]; intros i H b; cbn [map_res] in H.
  - inversion H; subst. reflexivity.
  - step H as x X. step H as y Y. inversion H; subst i. cbn [expo]. rewrite (IH _ Y b). unfold exponent_invert in X.
    step X as n N. inversion X; subst x. apply cneg_ok in N as [-> _]. cbn [e_dim e_num e_den].
    destruct (bdim_eq_dec (e_dim e) b); [|ring]. unfold equot. cbn [e_num e_den]. rewrite inject_Z_opp. unfold Qdiv. ring.
Qed.

Lemma invert_expo : forall w d d', consistent w -> dim_invert w d = Ok d' -> forall b, (dim_expo d' b == - dim_expo d b)%Q.
Proof.
  intros w d d' C H b.
  assert (G : forall es, (match es with
    | [e] => if is_minus_one e then Ok (DBase (e_dim e))
             else i <- map_res exponent_invert [e]; downcast_dimension w i
    | _ => i <- map_res exponent_invert es; downcast_dimension w i
    end) = Ok d' -> (dim_expo d' b == - expo es b)%Q).
  { intros es E. destruct es as [|e [|f l]].
    - step E as i I. rewrite (downcast_dimension_expo _ _ _ C E b). now apply invert_list_expo.
    - destruct (is_minus_one e) eqn:M.
      + apply is_minus_one_iff in M. inversion E; subst d'. unfold dim_expo. cbn [exponents expo e_dim]. rewrite M. cbn [e_dim].
        destruct (bdim_eq_dec (e_dim e) b); [|ring]. unfold equot. cbn [e_num e_den]. field.
      + step E as i I. rewrite (downcast_dimension_expo _ _ _ C E b). now apply invert_list_expo.
    - step E as i I. rewrite (downcast_dimension_expo _ _ _ C E b). now apply invert_list_expo. }
  destruct d as [b0|n es cu rc|args es].
  - simpl in H. rewrite (downcast_dimension_expo _ _ _ C H b). unfold dim_expo. cbn [exponents expo e_dim].
    destruct (bdim_eq_dec b0 b); [|ring]. unfold equot. cbn [e_num e_den]. field.
  - apply G. destruct es as [|e [|f l]]; exact H.
  - apply G. destruct es as [|e [|f l]]; exact H.
Qed.

Lemma multiply_exps : forall w d1 d2 d, consistent w -> dimension_multiply w d1 d2 = Ok d ->
  same_exps (fun s r => dim_exps d1 s r + dim_exps d2 s r)%Q (dim_exps d).
Proof. intros w d1 d2 d C H s r. symmetry. apply class_linear2. intros b. now apply (multiply_expo w d1 d2 d C H). Qed.
Lemma invert_exps : forall w d d', consistent w -> dim_invert w d = Ok d' ->
  same_exps (fun s r => - dim_exps d s r)%Q (dim_exps d').
Proof. intros w d d' C H s r. symmetry. apply class_opposite. intros b. now apply (invert_expo w d d' C H). Qed.
Lemma divide_exps : forall w d1 d2 d, consistent w -> dimension_divide w d1 d2 = Ok d ->
  same_exps (fun s r => dim_exps d1 s r - dim_exps d2 s r)%Q (dim_exps d).
Proof.
  intros w d1 d2 d C H s r. unfold dimension_divide in H. step H as i I.
  rewrite <- (multiply_exps _ _ _ _ C H s r), <- (invert_exps _ _ _ C I s r). ring.
Qed.
Lemma equivalent_exps : forall d1 d2, dim_equivalent d1 d2 = true -> same_exps (dim_exps d1) (dim_exps d2).
Proof. intros d1 d2 H s r. apply dim_equivalent_shape in H as [_ H]. now apply exps_equivalent_class. Qed.

Lemma same_refl : forall f, same_exps f f. Proof. intros f s r. reflexivity. Qed.
Lemma same_sym : forall f g, same_exps f g -> same_exps g f. Proof. intros f g H s r. symmetry. apply H. Qed.
Lemma same_trans : forall f g h, same_exps f g -> same_exps g h -> same_exps f h.
Proof. intros f g h H K s r. rewrite (H s r). apply K. Qed.

(** [has_dim] does not tell equal exponents apart. *)
Lemma has_dim_ext : forall e f g, has_dim e f -> same_exps f g -> has_dim e g.
Proof.
  induction 1; intros S.
  - constructor. eapply same_trans; eauto.
  - constructor; auto.
  - constructor; auto.
  - constructor; auto.
  - constructor; auto.
  - econstructor; eauto. eapply same_trans; eauto.
  - econstructor; eauto. eapply same_trans; eauto.
  - econstructor; eauto. destruct H1 as [H1|H1]; [left; eapply same_trans; eauto|now right].
  - constructor; auto.
  - constructor; auto.
  - constructor; auto.
  - econstructor; eauto. eapply same_trans; eauto.
  - constructor; auto.
  - constructor; auto. eapply same_trans; eauto.
  - constructor; auto. destruct c; simpl in *; auto; eapply same_trans; eauto.
Qed.

(** ** Results of the operators *)

Lemma convert_equivalent : forall est from to n x, q_convert est from to n = Ok x -> dim_equivalent (q_dim to) (q_dim from) = true.
Proof.
  intros est from to n x H. unfold q_convert in H. destruct (qtype_eq_dec from to) as [->|_].
  - apply dim_equivalent_equivalence.
  - step H as b B. step H as u0 C. apply constrained_ok in C. subst b. unfold quantity_cast in H. step H as u1 D.
    now apply constrained_ok in D.
Qed.

Lemma addsub_dims : forall o est w a b s, q_addsub o est w a b = Ok s ->
  dim_equivalent (q_dim (q_type b)) (q_dim (q_type a)) = true /\
  dim_equivalent (q_dim (q_type s)) (q_dim (q_type a)) = true.
Proof.
  intros o est w a b s H. unfold q_addsub in H. cbv zeta in H. step H as t Et. step H as x Ex. step H as y Ey. step H as k Ek. step H as k' Ek'.
  inversion H; subst s. cbn [q_type]. split.
  - unfold common_quantity in Et. step Et as u0 C. now apply constrained_ok in C.
  - exact (convert_equivalent _ _ _ _ _ Ex).
Qed.

Lemma q_cast_dims : forall est w c q s, q_cast est w c q = Ok s ->
  dim_equivalent (q_dim (q_type s)) (q_dim (q_type q)) = true /\
  match c with ToQuantity t => q_dim (q_type s) = q_dim t | ToDim d => q_dim (q_type s) = d | _ => True end.
Proof.
  assert (K : forall est from to n x, quantity_cast est from to n = Ok x -> dim_equivalent (q_dim to) (q_dim from) = true).
  { intros est from to n x H. unfold quantity_cast in H. step H as u C. now apply constrained_ok in C. }
  intros est w [t|d|u|r] q s H; unfold q_cast in H.
  - step H as n E. inversion H; subst s. cbn [q_type]. split; [eauto|reflexivity].
  - step H as x E. inversion H; subst s. cbn [q_type]. unfold quantity_cast_dim in E. step E as u0 C. step E as u U. step E as t T. step E as n N.
    inversion E; subst x. cbn [fst]. split; [eauto|]. unfold mk_qtype in T. step T as u1 C1. now inversion T.
  - step H as x E. inversion H; subst s. cbn [q_type]. unfold quantity_cast_unit in E. step E as t T. step E as n N.
    inversion E; subst x. cbn [fst]. split; [eauto|exact I].
  - step H as x E. inversion H; subst s. cbn [q_type]. unfold quantity_cast_rep in E. cbv zeta in E. step E as n N.
    inversion E; subst x. cbn [fst]. split; [eauto|exact I].
Qed.

Lemma scale_dim : forall o sw q r v s, q_scale o sw q r v = Ok s -> q_dim (q_type s) = q_dim (q_type q).
Proof. intros o sw q r v s H. unfold q_scale in H. cbv zeta in H. step H as u C. step H as x X. inversion H; subst s. reflexivity. Qed.

Lemma times_dim : forall w a b s, q_times w a b = Ok s ->
  dimension_multiply w (q_dim (q_type a)) (q_dim (q_type b)) = Ok (q_dim (q_type s)).
Proof.
  intros w a b s H. unfold q_times in H. cbv zeta in H. step H as r R. step H as x X. inversion H; subst s. cbn [q_type q_dim].
  unfold reference_multiply in R. step R as d D. repeat (let x := fresh "x" in let E := fresh "E" in step R as x E).
  inversion R; subst r. exact D.
Qed.
Lemma over_dim : forall w a b s, q_over w a b = Ok s ->
  dimension_divide w (q_dim (q_type a)) (q_dim (q_type b)) = Ok (q_dim (q_type s)).
Proof.
  intros w a b s H. unfold q_over in H. cbv zeta in H. step H as r R. step H as x X. inversion H; subst s. cbn [q_type q_dim].
  unfold reference_divide in R. step R as d D. repeat (let x := fresh "x" in let E := fresh "E" in step R as x E).
  inversion R; subst r. exact D.
Qed.

(** ** Soundness of dimensional analysis *)

Lemma eval_has_dim : forall est w, consistent w -> forall e q, eval est w e = Ok q -> has_dim e (dim_exps (q_dim (q_type q))).
Proof.
  intros est w C. induction e as [q0|a IHa|a IHa|a IHa b IHb|a IHa b IHb|a IHa b IHb|a IHa b IHb|a IHa b IHb|a IHa r v|r v a IHa|a IHa r v|r v a IHa|a IHa r v|t a IHa|c a IHa];
    intros q H; cbn [eval] in H.
  - inversion H; subst q. constructor. apply same_refl.
  - step H as x X. unfold q_plus in H. cbv zeta in H. step H as n N. inversion H; subst q. constructor. exact (IHa _ X).
  - step H as x X. unfold q_neg in H. cbv zeta in H. step H as n N. inversion H; subst q. constructor. exact (IHa _ X).
  - step H as x X. step H as y Y. apply addsub_dims in H as [D1 D2]. constructor.
    + eapply has_dim_ext; [exact (IHa _ X)|]. now apply same_sym, equivalent_exps.
    + eapply has_dim_ext; [exact (IHb _ Y)|]. eapply same_trans; [apply equivalent_exps; exact D1|]. now apply same_sym, equivalent_exps.
  - step H as x X. step H as y Y. apply addsub_dims in H as [D1 D2]. constructor.
    + eapply has_dim_ext; [exact (IHa _ X)|]. now apply same_sym, equivalent_exps.
    + eapply has_dim_ext; [exact (IHb _ Y)|]. eapply same_trans; [apply equivalent_exps; exact D1|]. now apply same_sym, equivalent_exps.
  - step H as x X. step H as y Y. apply times_dim in H. econstructor; [exact (IHa _ X)|exact (IHb _ Y)|]. exact (multiply_exps _ _ _ _ C H).
  - step H as x X. step H as y Y. apply over_dim in H. econstructor; [exact (IHa _ X)|exact (IHb _ Y)|]. exact (divide_exps _ _ _ _ C H).
  - step H as x X. step H as y Y. unfold q_rem in H. cbv zeta in H. step H as u0 K. step H as n N. inversion H; subst q.
    apply constrained_ok in K. apply andb_true_iff in K as [_ K].
    econstructor; [exact (IHa _ X)|exact (IHb _ Y)|]. apply orb_true_iff in K as [K|K].
    + left. apply same_sym. exact (equivalent_exps _ _ K).
    + right. exact (equivalent_exps _ _ K).
  - step H as x X. apply scale_dim in H. rewrite H. constructor. exact (IHa _ X).
  - step H as x X. apply scale_dim in H. rewrite H. constructor. exact (IHa _ X).
  - step H as x X. apply scale_dim in H. rewrite H. constructor. exact (IHa _ X).
  - step H as x X. unfold value_div_q in H. cbv zeta in H. step H as u0 K. step H as d D. step H as i I. step H as u U. step H as n N.
    inversion H; subst q. econstructor; [exact (IHa _ X)|]. exact (invert_exps _ _ _ C D).
  - step H as x X. unfold q_rem_value in H. step H as u0 K. apply scale_dim in H. rewrite H. constructor. exact (IHa _ X).
  - step H as x X. unfold q_to in H. step H as n N. inversion H; subst q. cbn [q_type]. apply convert_equivalent in N. constructor.
    + eapply has_dim_ext; [exact (IHa _ X)|]. now apply same_sym, equivalent_exps.
    + apply same_refl.
  - step H as x X. apply q_cast_dims in H as [D1 D2]. constructor.
    + eapply has_dim_ext; [exact (IHa _ X)|]. now apply same_sym, equivalent_exps.
    + destruct c; simpl; auto; rewrite D2; apply same_refl.
Qed.

(** Dimensional analysis assigns at most one dimension. *)
Lemma has_dim_unique : forall e f g, has_dim e f -> has_dim e g -> same_exps f g.
Proof.
  intros e f g H. revert g. induction H; intros k K; inversion K; subst; auto.
  - eapply same_trans; [apply same_sym; eassumption|assumption].
  - intros s r. rewrite <- (H1 s r), <- (H7 s r), (IHhas_dim1 _ H4 s r), (IHhas_dim2 _ H5 s r). reflexivity.
  - intros s r. rewrite <- (H1 s r), <- (H7 s r), (IHhas_dim1 _ H4 s r), (IHhas_dim2 _ H5 s r). reflexivity.
  - intros s t. rewrite <- (H0 s t), <- (H6 s t), (IHhas_dim _ H5 s t). reflexivity.
Qed.

(** Comparison. *)
Lemma common_dims : forall est w a b p, q_common est w a b = Ok p -> dim_equivalent (q_dim (q_type b)) (q_dim (q_type a)) = true.
Proof.
  intros est w a b p H. unfold q_common in H. destruct (qtype_eq_dec (q_type a) (q_type b)) as [->|_].
  - apply dim_equivalent_equivalence.
  - step H as t T. unfold common_quantity in T. step T as u0 C. now apply constrained_ok in C.
Qed.
