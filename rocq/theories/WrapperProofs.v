(** Proofs for C93. *)

From Coq Require Import ZArith QArith String List Bool Lia SpecFloat.
From Verif Require Import Outcome CInt RatioMaths Pow Root Ratio SpecRatio RatioProofs2 Unit Dim DimOp Equivalent SpecDim SpecUnit EquivProofs Rep
  Reference QuantityCast CommonQuantity Quantity Point Expr SpecQuantity ChronoProofs FloatCastProofs CustomProofs CustomProofs2 ModeProofs Static SpecStatic StaticProofs Wrapper SpecWrapper.
Local Open Scope Z_scope.
Local Open Scope res_scope.

Lemma rdiv_itself : forall r, invertible r -> rdiv r r = Ok rone.
Proof. intros r ((L & S & P) & E). apply rdiv_same; auto. lia. Qed.

(** Converting to the same type through a cast changes nothing. *)
Lemma cast_itself : forall est t n, has_size est t -> num_ok (q_rep t) n = true ->
  safe_castable_to est t t = Ok true /\ quantity_cast est t t n = Ok n.
Proof.
  intros est t n (_ & V & s & S & I) N.
  assert (De : dim_equivalent (q_dim t) (q_dim t) = true) by apply dim_equivalent_equivalence.
  split.
  - unfold safe_castable_to. rewrite De. cbn [negb]. destruct (floating (q_rep t)) eqn:F; [reflexivity|].
    unfold harmonic. rewrite S. cbn [bind]. rewrite rdiv_itself by auto. reflexivity.
  - unfold quantity_cast. rewrite De. cbn [constrained bind]. unfold cast_ratio, same_unit_reference. rewrite String.eqb_refl.
    rewrite rdiv_itself by auto. cbn [bind]. now apply cast_one.
Qed.

Lemma convert_plain : forall est from to n, (is_wrapped from -> has_size est (number_type from)) ->
  (is_wrapped to -> has_size est (number_type to)) -> num_ok (value_type (wt_rep from)) n = true ->
  w_convert est from to n = q_convert est (number_type from) (number_type to) n.
Proof.
  intros est from to n Hf Ht N. unfold w_convert, q_convert. destruct (wtype_eq_dec from to) as [->|D].
  - destruct (qtype_eq_dec (number_type to) (number_type to)) as [_|X]; [reflexivity|now contradiction X].
  - destruct (qtype_eq_dec (number_type from) (number_type to)) as [E|_]; [|reflexivity]. rewrite <- E.
    assert (S : has_size est (number_type from)).
    { destruct from as [d u [r|r]]; [|now apply Hf]. destruct to as [d' u' [r'|r']]; [contradict D|].
      - unfold number_type in E. cbn in E. congruence.
      - rewrite E. now apply Ht. }
    destruct (cast_itself est _ n S N) as [-> ->]. reflexivity.
Qed.

(** What is known of every object: its number is of its type, and a wrapped type has a size. *)
Definition well (est : estimate) (q : wquantity) : Prop :=
  num_ok (value_type (wt_rep (wq_type q))) (wq_num q) = true /\ (is_wrapped (wq_type q) -> has_size est (number_type (wq_type q))).

Lemma number_bare : forall t, number_type (bare_type t) = t.
Proof. now intros []. Qed.
Lemma number_with : forall t r, number_type (with_bare t r) = with_rep (number_type t) r.
Proof. now intros []. Qed.
Lemma number_rewrap : forall r t, number_type (rewrap r t) = t.
Proof. now intros [r|r] []. Qed.

Lemma common_well : forall est w a b r f, well est a -> well est b ->
  (t <- common_quantity est w (number_type (wq_type a)) (number_type (wq_type b)) r;
   x <- w_convert est (wq_type a) (bare_type t) (wq_num a);
   y <- w_convert est (wq_type b) (bare_type t) (wq_num b); f t x y) =
  (t <- common_quantity est w (number_type (wq_type a)) (number_type (wq_type b)) r;
   x <- q_convert est (number_type (wq_type a)) t (wq_num a);
   y <- q_convert est (number_type (wq_type b)) t (wq_num b); (f t x y : res wquantity)).
Proof.
  intros est w a b r f [Na Sa] [Nb Sb]. destruct (common_quantity est w _ _ r) as [t| | | |]; [|reflexivity..]. cbn [bind].
  rewrite !convert_plain by (auto; cbn; contradiction). now rewrite number_bare.
Qed.

(** ** Numbers of results *)

Lemma cast_num : forall est from to n z, quantity_cast est from to n = Ok z -> num_ok (q_rep to) z = true.
Proof.
  intros est from to n z H. unfold quantity_cast in H. step H as u U. step H as c C.
  destruct (cast_number_runs c (q_rep from) (q_rep to) n) as [(y & E & Y)|E]; rewrite E in H; [|discriminate H]. now injection H as <-.
Qed.
Lemma convert_num : forall est from to n z, num_ok (q_rep from) n = true -> q_convert est from to n = Ok z -> num_ok (q_rep to) z = true.
Proof.
  intros est from to n z N H. unfold q_convert in H. destruct (qtype_eq_dec from to) as [<-|_]; [now injection H as <-|].
  step H as b B. step H as u U. now apply cast_num in H.
Qed.
Lemma cast_type_num : forall est w c q z, q_cast est w c q = Ok z -> num_ok (q_rep (q_type z)) (q_num z) = true.
Proof.
  intros est w c q z H. destruct c; cbn [q_cast] in H.
  - step H as n E. injection H as <-. now apply cast_num in E.
  - step H as n E. injection H as <-. unfold quantity_cast_dim in E. unbind. cbn [q_type q_num fst snd]. eapply cast_num; eauto.
  - step H as n E. injection H as <-. unfold quantity_cast_unit in E. unbind. cbn [q_type q_num fst snd]. eapply cast_num; eauto.
  - step H as n E. injection H as <-. unfold quantity_cast_rep in E. unbind. cbn [q_type q_num fst snd]. eapply cast_num; eauto.
Qed.

(** ** Operators *)

Section ops.
Context (est : estimate) (w : world).

(** [r] is [p] with a wrapper, and its object is as required. *)
Definition faithful (r : res wquantity) (p : res quantity) : Prop :=
  unwrapped r = p /\ forall q, r = Ok q -> well est q.

Lemma faithful_bind : forall r p f g, faithful r p -> (forall q, well est q -> faithful (f q) (g (unwrap q))) ->
  faithful (bind r f) (bind p g).
Proof.
  intros r p f g [<- W] H. destruct r as [q| | | |]; try (split; [reflexivity|discriminate]).
  cbn [bind unwrapped]. apply H. now apply W.
Qed.
Lemma bare_faithful : forall t x (r : res number), (forall z, r = Ok z -> num_ok (q_rep t) z = true) ->
  (forall z, x z = WQuantity (bare_type t) z) ->
  faithful (bind r (fun z => Ok (x z))) (bind r (fun z => Ok (Quantity t z))).
Proof.
  intros t x r N X. destruct r as [z| | | |]; try (split; [reflexivity|discriminate]). cbn [bind]. rewrite X. split.
  - cbn. unfold unwrap. cbn [wq_type wq_num]. now rewrite number_bare.
  - intros q Q. injection Q as <-. split; [now apply N|cbn; contradiction].
Qed.
Lemma plus_faithful : forall q, well est q -> faithful (w_plus q) (q_plus (unwrap q)).
Proof.
  intros q W. unfold w_plus, q_plus. cbv zeta. apply (bare_faithful (with_rep (q_type (unwrap q)) (promote_rep (w_vt q))) (fun x => WQuantity (with_bare (wq_type q) (promote_rep (w_vt q))) x)); [|reflexivity].
  intros z Z. now apply convert_ok in Z.
Qed.
Lemma neg_faithful : forall q, well est q -> faithful (w_neg q) (q_neg (unwrap q)).
Proof.
  intros q [W _]. unfold w_neg, q_neg. cbv zeta. apply (bare_faithful (with_rep (q_type (unwrap q)) (promote_rep (w_vt q))) (fun x => WQuantity (with_bare (wq_type q) (promote_rep (w_vt q))) x)); [|reflexivity].
  intros z Z. now apply n_neg_ok in Z.
Qed.
Lemma addsub_faithful : forall o a b, well est a -> well est b -> faithful (w_addsub o est w a b) (q_addsub o est w (unwrap a) (unwrap b)).
Proof.
  intros o a b Wa Wb. unfold w_addsub, q_addsub. cbv zeta. rewrite common_well by assumption. unfold unwrap at 1 2 3 4 5 6 7 8 9 10. cbn [q_type q_num].
  change (q_rep (number_type (wq_type a))) with (w_vt a). change (q_rep (number_type (wq_type b))) with (w_vt b).
  destruct (common_quantity est w _ _ _) as [t| | | |] eqn:T; try (split; [reflexivity|discriminate]). cbn [bind].
  assert (R : q_rep t = arith_rep (w_vt a) (w_vt b)).
  { unfold common_quantity, mk_qtype in T. unbind. reflexivity. }
  destruct (q_convert est (number_type (wq_type a)) t (wq_num a)) as [x| | | |]; try (split; [reflexivity|discriminate]). cbn [bind].
  destruct (q_convert est (number_type (wq_type b)) t (wq_num b)) as [y| | | |]; try (split; [reflexivity|discriminate]). cbn [bind].
  destruct (n_op o _ _ x y) as [z| | | |]; try (split; [reflexivity|discriminate]). cbn [bind].
  apply (bare_faithful t (fun z => WQuantity (bare_type t) z)); [|reflexivity]. intros v V. rewrite R. now apply convert_ok in V.
Qed.
Lemma times_faithful : forall a b, well est a -> well est b -> faithful (w_times w a b) (q_times w (unwrap a) (unwrap b)).
Proof.
  intros a b _ _. unfold w_times, q_times. cbv zeta. cbn [unwrap q_type q_num number_type q_dim q_unit q_rep].
  destruct (reference_multiply w _ _) as [r| | | |]; try (split; [reflexivity|discriminate]). cbn [bind].
  apply (bare_faithful (QType (ref_dim r) (ref_unit r) (arith_rep (w_vt a) (w_vt b))) (fun x => WQuantity (WType (ref_dim r) (ref_unit r) (Bare (arith_rep (w_vt a) (w_vt b)))) x)); [|reflexivity].
  intros z Z. now apply n_op_ok in Z.
Qed.
Lemma over_faithful : forall a b, well est a -> well est b -> faithful (w_over w a b) (q_over w (unwrap a) (unwrap b)).
Proof.
  intros a b _ _. unfold w_over, q_over. cbv zeta. cbn [unwrap q_type q_num number_type q_dim q_unit q_rep].
  destruct (reference_divide w _ _) as [r| | | |]; try (split; [reflexivity|discriminate]). cbn [bind].
  apply (bare_faithful (QType (ref_dim r) (ref_unit r) (arith_rep (w_vt a) (w_vt b))) (fun x => WQuantity (WType (ref_dim r) (ref_unit r) (Bare (arith_rep (w_vt a) (w_vt b)))) x)); [|reflexivity].
  intros z Z. now apply n_op_ok in Z.
Qed.
Lemma arith_comm : forall a b, arith_rep a b = arith_rep b a.
Proof. intros [[[] []]|[]] [[[] []]|[]]; reflexivity. Qed.
Lemma scale_faithful : forall o s q v, well est q -> faithful (w_scale o s q v) (q_scale o s (unwrap q) (value_type (wv_rep v)) (wv_num v)).
Proof.
  intros o s q v _. unfold w_scale, q_scale. cbv zeta. cbn [unwrap q_type q_num number_type q_rep].
  change (value_type (wt_rep (wq_type q))) with (w_vt q).
  destruct (constrained _) as [[]| | | |]; try (split; [reflexivity|discriminate]). cbn [bind].
  apply (bare_faithful (with_rep (number_type (wq_type q)) (arith_rep (w_vt q) (value_type (wv_rep v)))) (fun x => WQuantity (with_bare (wq_type q) (arith_rep (w_vt q) (value_type (wv_rep v)))) x)); [|reflexivity].
  intros z Z. cbn [with_rep q_rep]. destruct s; [rewrite arith_comm|]; now apply n_op_ok in Z.
Qed.
Lemma value_div_faithful : forall v q, well est q -> faithful (w_value_div w v q) (value_div_q w (value_type (wv_rep v)) (wv_num v) (unwrap q)).
Proof.
  intros v q _. unfold w_value_div, value_div_q. cbv zeta. cbn [unwrap q_type q_num number_type q_rep q_dim q_unit].
  change (value_type (wt_rep (wq_type q))) with (w_vt q).
  destruct (constrained _) as [[]| | | |]; try (split; [reflexivity|discriminate]). cbn [bind].
  destruct (dim_invert w _) as [d| | | |]; try (split; [reflexivity|discriminate]). cbn [bind].
  destruct (rinv _) as [i| | | |]; try (split; [reflexivity|discriminate]). cbn [bind].
  destruct (downcast_unit w d i) as [u| | | |]; try (split; [reflexivity|discriminate]). cbn [bind].
  apply (bare_faithful (QType d u (arith_rep (value_type (wv_rep v)) (w_vt q))) (fun x => WQuantity (WType d u (Bare (arith_rep (value_type (wv_rep v)) (w_vt q)))) x)); [|reflexivity].
  intros z Z. now apply n_op_ok in Z.
Qed.
Lemma rem_value_faithful : forall q v, well est q -> faithful (w_rem_value q v) (q_rem_value (unwrap q) (value_type (wv_rep v)) (wv_num v)).
Proof.
  intros q v W. unfold w_rem_value, q_rem_value. cbn [unwrap q_type number_type q_rep]. change (value_type (wt_rep (wq_type q))) with (w_vt q).
  destruct (constrained _) as [[]| | | |]; try (split; [reflexivity|discriminate]). cbn [bind]. now apply (scale_faithful OpRem false).
Qed.
Lemma rem_faithful : forall a b, well est a -> well est b -> faithful (w_rem a b) (q_rem (unwrap a) (unwrap b)).
Proof.
  intros a b _ _. unfold w_rem, q_rem. cbv zeta. cbn [unwrap q_type q_num number_type q_rep q_dim].
  change (value_type (wt_rep (wq_type a))) with (w_vt a). change (value_type (wt_rep (wq_type b))) with (w_vt b).
  destruct (constrained _) as [[]| | | |]; try (split; [reflexivity|discriminate]). cbn [bind].
  apply (bare_faithful (with_rep (number_type (wq_type a)) (arith_rep (w_vt a) (w_vt b))) (fun x => WQuantity (with_bare (wq_type a) (arith_rep (w_vt a) (w_vt b))) x)); [|reflexivity].
  intros z Z. now apply n_op_ok in Z.
Qed.
Lemma to_faithful : forall t q, well est q -> (is_wrapped t -> has_size est (number_type t)) ->
  faithful (w_to est t q) (q_to est (number_type t) (unwrap q)).
Proof.
  intros t q [N S] T. unfold w_to, q_to. rewrite convert_plain by auto. cbn [unwrap q_type q_num].
  destruct (q_convert est (number_type (wq_type q)) (number_type t) (wq_num q)) as [z| | | |] eqn:Z; try (split; [reflexivity|discriminate]).
  split; [reflexivity|]. intros r R. injection R as <-. split; [|exact T]. now apply convert_num in Z.
Qed.
Lemma cast_unwrapped : forall c q, unwrapped (w_cast est w c q) = q_cast est w (unwrap_cast c) (unwrap q).
Proof.
  intros c q. destruct c; cbn [w_cast unwrap_cast q_cast]; cbv zeta; cbn [unwrap q_type q_num].
  - destruct (quantity_cast est _ _ _); reflexivity.
  - destruct (quantity_cast_dim est w _ _ _); try reflexivity. cbn. unfold unwrap. cbn [wq_type wq_num]. now rewrite number_rewrap.
  - destruct (quantity_cast_unit est _ _ _); try reflexivity. cbn. unfold unwrap. cbn [wq_type wq_num]. now rewrite number_rewrap.
  - destruct (quantity_cast_rep est _ _ _); try reflexivity. cbn. unfold unwrap. cbn [wq_type wq_num]. now rewrite number_rewrap.
Qed.

Lemma faithful_eval : forall e, wrapped_sized est w e -> faithful (weval est w e) (eval est w (unwrap_expr e)).
Proof.
  induction e as [q|a IHa|a IHa|a IHa b IHb|a IHa b IHb|a IHa b IHb|a IHa b IHb|a IHa b IHb|a IHa v|v a IHa|a IHa v|v a IHa|a IHa v|t a IHa|c a IHa];
    cbn [weval eval unwrap_expr wrapped_sized]; intros H.
  - split; [reflexivity|]. intros r R. injection R as <-. exact H.
  - apply faithful_bind; [now apply IHa|]. apply plus_faithful.
  - apply faithful_bind; [now apply IHa|]. apply neg_faithful.
  - destruct H as [Ha Hb]. apply faithful_bind; [now apply IHa|]. intros x X. apply faithful_bind; [now apply IHb|]. intros y Y. now apply addsub_faithful.
  - destruct H as [Ha Hb]. apply faithful_bind; [now apply IHa|]. intros x X. apply faithful_bind; [now apply IHb|]. intros y Y. now apply addsub_faithful.
  - destruct H as [Ha Hb]. apply faithful_bind; [now apply IHa|]. intros x X. apply faithful_bind; [now apply IHb|]. intros y Y. now apply times_faithful.
  - destruct H as [Ha Hb]. apply faithful_bind; [now apply IHa|]. intros x X. apply faithful_bind; [now apply IHb|]. intros y Y. now apply over_faithful.
  - destruct H as [Ha Hb]. apply faithful_bind; [now apply IHa|]. intros x X. apply faithful_bind; [now apply IHb|]. intros y Y. now apply rem_faithful.
  - apply faithful_bind; [now apply IHa|]. intros x X. now apply scale_faithful.
  - apply faithful_bind; [now apply IHa|]. intros x X. now apply scale_faithful.
  - apply faithful_bind; [now apply IHa|]. intros x X. now apply scale_faithful.
  - apply faithful_bind; [now apply IHa|]. intros x X. now apply value_div_faithful.
  - apply faithful_bind; [now apply IHa|]. intros x X. now apply rem_value_faithful.
  - destruct H as [Ha Ht]. apply faithful_bind; [now apply IHa|]. intros x X. now apply to_faithful.
  - destruct H as [Ha Hc]. destruct (IHa Ha) as [E W]. cbn [weval] in Hc. split.
    + rewrite <- E. destruct (weval est w a) as [x| | | |]; try reflexivity. cbn [bind unwrapped]. apply cast_unwrapped.
    + intros q Q. split; [|now apply Hc]. destruct (weval est w a) as [x| | | |]; try discriminate Q. cbn [bind] in Q.
      pose proof (cast_unwrapped c x) as U. rewrite Q in U. symmetry in U. apply cast_type_num in U. exact U.
Qed.

Lemma common_faithful : forall a b, well est a -> well est b -> w_common est w a b = q_common est w (unwrap a) (unwrap b).
Proof.
  intros a b [Na Sa] [Nb Sb]. unfold w_common, q_common. cbn [unwrap q_type q_num].
  change (q_rep (number_type (wq_type a))) with (w_vt a). change (q_rep (number_type (wq_type b))) with (w_vt b).
  assert (G : (t <- common_quantity est w (number_type (wq_type a)) (number_type (wq_type b)) (common_rep (w_vt a) (w_vt b));
     x <- w_convert est (wq_type a) (bare_type t) (wq_num a); y <- w_convert est (wq_type b) (bare_type t) (wq_num b); Ok (x, y)) =
    (t <- common_quantity est w (number_type (wq_type a)) (number_type (wq_type b)) (common_rep (w_vt a) (w_vt b));
     x <- q_convert est (number_type (wq_type a)) t (wq_num a); y <- q_convert est (number_type (wq_type b)) t (wq_num b); Ok (x, y))).
  { destruct (common_quantity est w _ _ _) as [t| | | |]; try reflexivity. cbn [bind]. rewrite !convert_plain by (auto; cbn; contradiction). now rewrite number_bare. }
  destruct (wtype_eq_dec (wq_type a) (wq_type b)) as [E|D].
  - rewrite E. destruct (qtype_eq_dec (number_type (wq_type b)) (number_type (wq_type b))) as [_|X]; [reflexivity|now contradiction X].
  - destruct (qtype_eq_dec (number_type (wq_type a)) (number_type (wq_type b))) as [E|_]; [|exact G]. rewrite G.
    (* the types differ in the wrapper only *)
    assert (R : common_rep (w_vt a) (w_vt b) = w_vt b).
    { replace (w_vt a) with (w_vt b); [apply common_rep_self|]. apply (f_equal q_rep) in E. symmetry. exact E. }
    rewrite R, E. unfold common_quantity, common_dim_unit. rewrite (proj1 dim_equivalent_equivalence). cbn [constrained bind].
    destruct (dimension_eq_dec _ _) as [_|X]; [|now contradiction X]. destruct (cunit_eq_dec _ _) as [_|X]; [|now contradiction X].
    cbn [bind fst snd]. unfold mk_qtype.
    assert (S : has_size est (number_type (wq_type b))).
    { destruct (wq_type a) as [d u [r|r]] eqn:A; [|rewrite <- E; now apply Sa]. destruct (wq_type b) as [d' u' [r'|r']] eqn:B; [|now apply Sb].
      contradict D. unfold number_type in E. cbn in E. congruence. }
    rewrite (proj1 S). cbn [constrained bind]. unfold q_convert.
    replace (QType (q_dim (number_type (wq_type b))) (q_unit (number_type (wq_type b))) (w_vt b)) with (number_type (wq_type b)) by reflexivity.
    destruct (qtype_eq_dec _ _) as [_|X]; [reflexivity|now contradiction X].
Qed.

Lemma act_faithful : forall q a, well est q ->
  (forall b, a = WAddTo b \/ a = WSubFrom b \/ a = WRemBy b -> well est b) -> ~ is_wrapped (wq_type q) ->
  unwrapped (w_act est q a) = q_act est (unwrap q) (unwrap_action a) /\ forall r, w_act est q a = Ok r -> wq_type r = wq_type q.
Proof.
  intros q a [N S] A B. destruct q as [[d u r] n]. destruct r as [r|r]; [|contradict B; exact I]. clear B. unfold w_act, q_act. cbv zeta.
  cbn [wq_type wt_rep unwrap q_type q_num wq_num q_rep value_type wt_dim wt_unit] in *.
  change (q_rep (number_type (WType d u (Bare r)))) with r.
  assert (P : forall b, well est b -> w_convert est (wq_type b) (WType d u (Bare r)) (wq_num b) =
    q_convert est (q_type (unwrap b)) (number_type (WType d u (Bare r))) (q_num (unwrap b))).
  { intros b [Nb Sb]. now apply convert_plain. }
  destruct a; cbn [unwrap_action]; try (rewrite P by (apply A; auto)).
  all: match goal with |- unwrapped (bind ?m _) = _ /\ _ => destruct m as [z| | | |]; (split; [reflexivity|intros s H; try discriminate H; now injection H as <-]) end.
Qed.
End ops.
