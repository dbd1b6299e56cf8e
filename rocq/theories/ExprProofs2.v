(** Expressions of quantities: exact values. *)

From Coq Require Import ZArith QArith Qpower Qabs String List Bool Lia Permutation Sorted Lqa.
From Verif Require Import Outcome CInt Ratio SpecRatio QTen Root TypeList Unit Downcast Dim DimOp Equivalent SpecDim SpecUnit
  StringProofs DimProofs DimOpProofs DimOpProofs2 DimOpProofs3 EquivProofs MagnitudeProofs Rep IntProofs Reference QuantityCast CommonQuantity Quantity
  SpecQuantity CastProofs QuantityProofs QuantityProofs2 QuantityProofs3 QuantityProofs4 Point Expr SpecExpr ExprProofs.
Import ListNotations.
Local Open Scope Z_scope.
Local Open Scope res_scope.

Section System.
Variables (U : bdim -> Prop) (w : world).
Hypothesis (HU : symbols_identify U) (G : good_system U w).

Lemma system_consistent : consistent w. Proof. exact (proj1 G). Qed.

(** ** Dimensions in the system *)

Lemma class_is_expo : forall es b, over U es -> U b -> (class_expo es (bd_symbol b) (u_ref (bd_unit b)) == expo es b)%Q.
Proof.
  intros es b O Ub. induction es as [|e es IH]; [reflexivity|]. cbn [class_expo expo].
  rewrite IH by (intros x Hx; apply O; now right).
  destruct (bdim_eq_dec (e_dim e) b) as [->|N].
  - rewrite !String.eqb_refl. reflexivity.
  - destruct (String.eqb_spec (bd_symbol (e_dim e)) (bd_symbol b)) as [S|S]; [|reflexivity].
    exfalso. apply N. apply HU; auto. apply O. now left.
Qed.

Lemma same_dimension : forall d1 d2, in_system U w d1 -> in_system U w d2 -> same_exps (dim_exps d1) (dim_exps d2) -> d1 = d2.
Proof.
  intros d1 d2 (N1 & K1 & _) (N2 & K2 & _) S. apply (canonical_unique U HU w); auto.
  intros b Ub. unfold dim_expo. rewrite <- !class_is_expo; auto; [apply S|apply N2|apply N1].
Qed.

Lemma expo_entry : forall l e, strictly_sorted l -> In e l -> (expo l (e_dim e) == equot e)%Q.
Proof.
  induction l as [|f l IH]; intros e S H; [contradiction|]. destruct H as [->|H]; [now apply expo_head|].
  cbn [expo]. inversion S as [|? ? S' F]; subst. rewrite IH by auto.
  destruct (bdim_eq_dec (e_dim f) (e_dim e)) as [E|E]; [|ring]. exfalso.
  rewrite Forall_forall in F. specialize (F _ H). unfold symbol_lt in F. rewrite E, str_compare_refl in F. discriminate.
Qed.

Lemma whole_int : forall d, ndim U d -> (whole d <-> forall b, U b -> is_int (dim_expo d b)).
Proof.
  intros d [[S P] O]. unfold whole, dim_expo. rewrite Forall_forall. split.
  - intros H b _. clear S P O. induction (exponents d) as [|e l IH].
    + exists 0. reflexivity.
    + cbn [expo]. apply is_int_plus; [|apply IH; intros; apply H; now right].
      destruct (bdim_eq_dec (e_dim e) b); [|exists 0; reflexivity].
      exists (e_num e). unfold equot. rewrite (H e) by now left. change (inject_Z 1) with 1%Q. field.
  - intros H e He. rewrite Forall_forall in P. destruct (P e He) as (_ & D & Gc & _).
    destruct (H (e_dim e) (O e He)) as [z Z]. rewrite (expo_entry _ _ S He) in Z. unfold equot in Z.
    assert (E : e_num e = z * e_den e).
    { assert (inject_Z (e_num e) == inject_Z (z * e_den e))%Q as X.
      { rewrite inject_Z_mult, <- Z. field. apply injZ_nz. lia. }
      apply inject_Z_injective. exact X. }
    rewrite E, Z.mul_comm, Z.gcd_comm, Z.gcd_mul_diag_l in Gc by lia. exact Gc.
Qed.

Lemma multiply_in_system : forall d1 d2 d, in_system U w d1 -> in_system U w d2 -> dimension_multiply w d1 d2 = Ok d -> in_system U w d.
Proof.
  intros d1 d2 d (N1 & K1 & W1) (N2 & K2 & W2) H.
  destruct (dimension_multiply_ok U HU w d1 d2 d system_consistent N1 N2 H) as (N & K & V).
  split; [exact N|]. split; [exact K|]. apply whole_int; auto. intros b Ub.
  destruct (proj1 (whole_int d1 N1) W1 b Ub) as [x X]. destruct (proj1 (whole_int d2 N2) W2 b Ub) as [y Y].
  exists (x + y). now rewrite V, X, Y, inject_Z_plus.
Qed.
Lemma divide_in_system : forall d1 d2 d, in_system U w d1 -> in_system U w d2 -> dimension_divide w d1 d2 = Ok d -> in_system U w d.
Proof.
  intros d1 d2 d (N1 & K1 & W1) (N2 & K2 & W2) H.
  destruct (dimension_divide_ok U HU w d1 d2 d system_consistent N1 N2 H) as (N & K & V).
  split; [exact N|]. split; [exact K|]. apply whole_int; auto. intros b Ub.
  destruct (proj1 (whole_int d1 N1) W1 b Ub) as [x X]. destruct (proj1 (whole_int d2 N2) W2 b Ub) as [y Y].
  exists (x - y). unfold Z.sub. now rewrite V, X, Y, inject_Z_plus, inject_Z_opp.
Qed.

Lemma unit_one_good : ratio_good (Ratio 1 1 0).
Proof. vm_compute. intuition congruence. Qed.
Lemma system_unit_good : forall d, in_system U w d -> unit_good (dimension_unit d).
Proof.
  intros d (([_ _] & O) & K & _). destruct G as (_ & B & D).
  assert (X : forall es, downcast_dimension w es = Ok d -> unit_good (dimension_unit d)).
  { intros es H. unfold downcast_dimension in H. destruct (downcast bexps_eq_dec (w_dims w) es) as [d'|] eqn:E.
    - inversion H; subst d'. apply downcast_in in E. eapply D; eauto.
    - unfold mk_unknown_dimension in H. step H as l L. inversion H; subst d. exact unit_one_good. }
  unfold canonical, to_dimension in K. destruct (exponents d) as [|e [|f l]] eqn:E; try (eapply X; eassumption).
  destruct (is_plus_one e); [|eapply X; eassumption]. inversion K; subst d. apply B. apply O. now left.
Qed.

Lemma system_roots : forall est d, in_system U w d -> Forall (exact_root est) (exponents d).
Proof.
  intros est d (_ & _ & W). unfold whole in W. rewrite Forall_forall in *. intros e He E. specialize (W e He). congruence.
Qed.

(** ** Values *)

Lemma valued_ext : forall est q v v', (v == v')%Q -> valued est q v -> valued est q v'.
Proof. intros est q v v' E (n & m & I & S & V). exists n, m. rewrite <- E. auto. Qed.

Lemma conv64 : forall i, i <> U64 -> arith_conv I64 i = I64.
Proof. intros [[] []] H; try reflexivity. now contradiction H. Qed.

Lemma even_quot : forall n k, k <> 0 -> (k | n) -> (inject_Z (Z.quot n k) == inject_Z n / inject_Z k)%Q.
Proof.
  intros n k K [z ->]. rewrite Z.quot_mul by auto. rewrite inject_Z_mult. field. now apply injZ_nz.
Qed.

Lemma times_unit_of : forall a b s, q_times w a b = Ok s -> unit_of (q_unit (q_type s)) (q_dim (q_type s)) = true.
Proof.
  intros a b s H. unfold q_times in H. cbv zeta in H. step H as r R. step H as x X. inversion H; subst s. cbn [q_type q_dim q_unit].
  unfold reference_multiply in R. step R as d0 D0. step R as x1 X1. step R as x2 X2. step R as x3 X3. step R as x4 X4. step R as u0 U0.
  unfold mk_reference in R. step R as c0 C0. apply constrained_ok in C0. inversion R; subst r. exact C0.
Qed.
Lemma over_unit_of : forall a b s, q_over w a b = Ok s -> unit_of (q_unit (q_type s)) (q_dim (q_type s)) = true.
Proof.
  intros a b s H. unfold q_over in H. cbv zeta in H. step H as r R. step H as x X. inversion H; subst s. cbn [q_type q_dim q_unit].
  unfold reference_divide in R. step R as d0 D0. step R as x1 X1. step R as x2 X2. step R as x3 X3. step R as x4 X4. step R as u0 U0.
  unfold mk_reference in R. step R as c0 C0. apply constrained_ok in C0. inversion R; subst r. exact C0.
Qed.

Lemma value_div_dim : forall i v q s, value_div_q w i v q = Ok s -> dim_invert w (q_dim (q_type q)) = Ok (q_dim (q_type s)).
Proof.
  intros i v q s H. unfold value_div_q in H. cbv zeta in H. step H as c0 C0. step H as d D. step H as r R. step H as u0 U0. step H as x X.
  inversion H; subst s. exact D.
Qed.
Lemma invert_in_system : forall d d', in_system U w d -> dim_invert w d = Ok d' -> in_system U w d'.
Proof.
  intros d d' (N & K & W) H. destruct (dim_invert_ok U w d system_consistent N) as (d2 & H2 & N2 & K2 & V). rewrite H in H2.
  inversion H2; subst d2. split; [exact N2|]. split; [exact K2|]. apply whole_int; auto. intros b Ub.
  destruct (proj1 (whole_int d N) W b Ub) as [x X]. exists (- x). now rewrite V, X, inject_Z_opp.
Qed.
Lemma value_div_good : forall est i v q m s, in_system U w (q_dim (q_type q)) -> sized est (q_type q) m -> in_system U w (q_dim (q_type s)) ->
  value_div_q w i v q = Ok s -> qtype_good (q_type s) /\ unit_of (q_unit (q_type s)) (q_dim (q_type s)) = true.
Proof.
  intros est i v q m s Dq S Ds H. pose proof S as (([De Du] & Gu) & _). pose proof (value_div_dim _ _ _ _ H) as Di.
  destruct (invert_entries _ _ _ system_consistent De Di) as [_ En].
  unfold value_div_q in H. cbv zeta in H. step H as c0 C0. step H as d D. step H as r R. step H as u0 U0. step H as x X.
  inversion H; subst s. cbn [q_type q_dim q_unit] in *.
  destruct (rinv_good _ _ Gu R) as [_ Gr]. destruct (downcast_unit_ratio _ _ _ _ system_consistent U0) as (Ru & Ou & _).
  split; [|exact Ou]. split; [|unfold unit_good; cbn [q_unit]; now rewrite Ru]. split; [exact En|].
  now apply system_unit_good.
Qed.

Theorem eval_exact : forall est e v, means est w e v -> all_dims (in_system U w) e ->
  forall q, eval est w e = Ok q -> in_system U w (q_dim (q_type q)) /\ valued est q v.
Proof.
  intros est e v M. pose proof system_consistent as C. assert (SO : sum_op OpAdd) by now left.
  assert (SS : sum_op OpSub) by now right.
  assert (Sums : forall o a b x y q, sum_op o -> in_system U w (q_dim (q_type a)) -> in_system U w (q_dim (q_type b)) ->
    valued est a x -> valued est b y -> q_addsub o est w a b = Ok q ->
    in_system U w (q_dim (q_type q)) /\ valued est q (exact_sum o x y)).
  { intros o a b x y q Ho Da Db (na & ma & Ia & Sa & Va) (nb & mb & Ib & Sb & Vb) H.
    pose proof (addsub_dims _ _ _ _ _ _ H) as [E1 _]. apply equivalent_exps in E1.
    pose proof (same_dimension _ _ Db Da E1) as E.
    destruct (add64 o est w a b na nb ma mb q Ho C Ia Ib Sa Sb (eq_sym E) H) as (m & z & S & _ & I & D & V).
    split; [now rewrite D|]. exists z, m. split; [exact I|]. split; [exact S|]. rewrite V. unfold exact_sum.
    destruct o; try (rewrite Va, Vb; reflexivity). }
  assert (Scale : forall o (sw : bool) a i z x q, in_range i z = true -> i <> U64 -> in_system U w (q_dim (q_type a)) ->
    valued est a x -> q_scale o sw a (RInt i) (NInt z) = Ok q ->
    in_system U w (q_dim (q_type q)) /\ exists n m, integral a I64 n /\ (x == inject_Z n * m)%Q /\ sized est (q_type q) m /\
      integral q I64 (if sw then exact_op o z n else exact_op o n z) /\ (divides_op o = true -> (if sw then n else z) <> 0)).
  { intros o sw a i z x q R Ni Da (n & m & I & S & V) H.
    assert (SG : isigned (arith_conv I64 i) = true) by (now rewrite conv64).
    destruct (q_scale_values o sw a i z I64 n q R I (or_introl SG) (or_introl SG) H) as (I' & D' & U' & Z').
    rewrite conv64 in I' by auto. split; [now rewrite D'|]. exists n, m. split; [exact I|]. split; [exact V|].
    split; [|auto]. destruct q as [t x0]. cbn [q_type] in *. destruct t as [d u r]. cbn [q_dim q_unit] in *. subst d u.
    exact (sized_rep _ _ _ r S). }
  induction M as [q0 v V|a v M IH|a v M IH|a b x y M1 IH1 M2 IH2|a b x y M1 IH1 M2 IH2|a b x y M1 IH1 M2 IH2
    |a b x y n k M1 IH1 M2 IH2 N1 N2 Dv|a i z x M IH R Ni|a i z x M IH R Ni|a i z x n M IH R Ni N1 Dv|a i z x k M IH R Ni N1 Dv Co|a b x y k M1 IH1 M2 IH2 Su T|t a x M IH Rt [mt St]];
    intros A q H; cbn [eval all_dims] in *.
  - inversion H; subst q0. auto.
  - step H as x X. destruct (IH A _ X) as (D & n & m & I & S & V). pose proof I as (Rx & Nx & Ix). unfold q_plus in H. cbv zeta in H.
    rewrite Rx, Nx in H. cbn [promote_rep n_convert] in H. change (promote I64) with I64 in H. rewrite wrap_id in H by auto.
    cbn [bind] in H. inversion H; subst q. split; [exact D|]. exists n, m. split; [split; [reflexivity|split; [reflexivity|exact Ix]]|].
    split; [|exact V]. exact (sized_rep _ _ _ _ S).
  - step H as x X. destruct (IH A _ X) as (D & n & m & I & S & V).
    destruct (q_neg_values _ _ _ _ I eq_refl H) as (I' & D' & U'). split; [now rewrite D'|].
    exists (- n), m. split; [exact I'|]. split; [|rewrite V, inject_Z_opp; ring].
    destruct q as [[d u r] x0]. cbn [q_type q_dim q_unit] in *. subst d u. exact (sized_rep _ _ _ r S).
  - destruct A as [A1 A2]. step H as qa X. step H as qb Y. destruct (IH1 A1 _ X) as (D1 & V1). destruct (IH2 A2 _ Y) as (D2 & V2).
    exact (Sums OpAdd _ _ _ _ _ SO D1 D2 V1 V2 H).
  - destruct A as [A1 A2]. step H as qa X. step H as qb Y. destruct (IH1 A1 _ X) as (D1 & V1). destruct (IH2 A2 _ Y) as (D2 & V2).
    exact (Sums OpSub _ _ _ _ _ SS D1 D2 V1 V2 H).
  - destruct A as [A1 A2]. step H as qa X. step H as qb Y.
    destruct (IH1 A1 _ X) as (D1 & na & ma & Ia & Sa & Va). destruct (IH2 A2 _ Y) as (D2 & nb & mb & Ib & Sb & Vb).
    pose proof (multiply_in_system _ _ _ D1 D2 (times_dim _ _ _ _ H)) as D. split; [exact D|].
    destruct (q_times_values est w qa qb I64 I64 na nb ma mb C Ia Ib Sa Sb (or_introl eq_refl) q H (system_unit_good _ D) (or_introl eq_refl))
      as (I & Gd & M & _).
    exists (na * nb), (ma * mb)%Q. split; [exact I|]. split; [|rewrite Va, Vb, inject_Z_mult; ring].
    split; [exact Gd|]. split; [exact (times_unit_of _ _ _ H)|]. split; [now apply system_roots|exact M].
  - destruct A as [A1 A2]. step H as qa X. step H as qb Y.
    destruct (IH1 A1 _ X) as (D1 & na & ma & Ia & Sa & Va). destruct (IH2 A2 _ Y) as (D2 & nb & mb & Ib & Sb & Vb).
    assert (En : n = na).
    { destruct N1 as (q1 & E1 & F1). rewrite X in E1. inversion E1; subst q1. destruct Ia as (_ & Na & _). congruence. }
    assert (Ek : k = nb).
    { destruct N2 as (q1 & E1 & F1). rewrite Y in E1. inversion E1; subst q1. destruct Ib as (_ & Nb & _). congruence. }
    subst n k.
    pose proof (divide_in_system _ _ _ D1 D2 (over_dim _ _ _ _ H)) as D. split; [exact D|].
    destruct (q_over_values est w qa qb I64 I64 na nb ma mb C Ia Ib Sa Sb (or_introl eq_refl) q H (system_unit_good _ D) (or_introl eq_refl))
      as (Z & I & Gd & M & _).
    pose proof (sized_pos _ _ _ Sa) as Pa. pose proof (sized_pos _ _ _ Sb) as Pb.
    exists (Z.quot na nb), (ma / mb)%Q. split; [exact I|]. split.
    + split; [exact Gd|]. split; [exact (over_unit_of _ _ _ H)|]. split; [now apply system_roots|exact M].
    + rewrite Va, Vb, even_quot by auto. field. repeat split; try lra. now apply injZ_nz.
  - step H as qa X. destruct (IH A _ X) as (D & V). destruct (Scale OpMul false _ _ _ _ _ R Ni D V H) as (D' & n & m & I & Vx & S & I' & _).
    split; [exact D'|]. exists (n * z), m. split; [exact I'|]. split; [exact S|]. rewrite Vx, inject_Z_mult. ring.
  - step H as qa X. destruct (IH A _ X) as (D & V). destruct (Scale OpMul true _ _ _ _ _ R Ni D V H) as (D' & n & m & I & Vx & S & I' & _).
    split; [exact D'|]. exists (z * n), m. split; [exact I'|]. split; [exact S|]. rewrite Vx, inject_Z_mult. ring.
  - step H as qa X. destruct (IH A _ X) as (D & V). destruct (Scale OpDiv false _ _ _ _ _ R Ni D V H) as (D' & n' & m & I & Vx & S & I' & Z).
    specialize (Z eq_refl). cbn in Z.
    assert (En : n = n').
    { destruct N1 as (q1 & E1 & F1). rewrite X in E1. inversion E1; subst q1. destruct I as (_ & Na & _). congruence. }
    subst n'. split; [exact D'|]. exists (Z.quot n z), m. split; [exact I'|]. split; [exact S|].
    rewrite Vx, even_quot by auto. field. now apply injZ_nz.
  - step H as qa X. destruct (IH A _ X) as (D & n & m & I & S & V).
    assert (Ek : k = n).
    { destruct N1 as (q1 & E1 & F1). rewrite X in E1. inversion E1; subst q1. destruct I as (_ & Na & _). congruence. }
    subst k. assert (SG : isigned (arith_conv i I64) = true) by (rewrite arith_conv_sym; now rewrite conv64).
    pose proof (value_div_dim _ _ _ _ H) as Di. pose proof (invert_in_system _ _ D Di) as Dq. split; [exact Dq|].
    destruct (value_div_values est w i z qa I64 n m q C R I S (or_introl SG) (or_introl SG) H (system_unit_good _ Dq)) as (Z & I' & _ & Mg).
    rewrite arith_conv_sym, conv64 in I' by auto. specialize (Co _ _ X Di).
    pose proof (sized_pos _ _ _ S) as P.
    exists (Z.quot z n), (/ m)%Q. split; [exact I'|]. split.
    + destruct (value_div_good _ _ _ _ _ _ D S Dq H) as (Gt & Ou). split; [exact Gt|]. split; [exact Ou|]. split; [now apply system_roots|].
      eapply magnitude_ext; [|exact Mg]. rewrite Co. field. lra.
    + rewrite V, even_quot by auto. field. split; [lra|]. now apply injZ_nz.
  - destruct A as [A1 A2]. step H as qa X. step H as qb Y.
    destruct (IH1 A1 _ X) as (D1 & na & ma & Ia & Sa & Va). destruct (IH2 A2 _ Y) as (D2 & nb & mb & Ib & Sb & Vb).
    destruct (Su _ _ X Y) as [Ed Eu].
    assert (Em : (ma == mb)%Q).
    { destruct Sa as (_ & _ & _ & Ma), Sb as (_ & _ & _ & Mb). rewrite Ed, Eu in Ma. eapply magnitude_unique; eauto. }
    destruct (q_rem_values _ _ _ _ _ _ _ Ia Ib (or_introl eq_refl) H) as (Z & I & Dq & Uq). pose proof (sized_pos _ _ _ Sb) as P.
    assert (K : k = Z.quot na nb).
    { eapply trunc_unique; [exact T|]. eapply trunc_ext; [|apply quot_trunc_any; exact Z]. rewrite Va, Vb, Em. field.
      split; [lra|]. now apply injZ_nz. }
    subst k. split; [now rewrite Dq|]. exists (Z.rem na nb), ma. split; [exact I|]. split.
    + destruct q as [[d u r] x0]. cbn [q_type q_dim q_unit] in *. subst d u. exact (sized_rep _ _ _ r Sa).
    + rewrite Va, Vb, <- Em. pose proof (Z.quot_rem' na nb) as QR.
      assert (E : (inject_Z (Z.rem na nb) == inject_Z na - inject_Z nb * inject_Z (Z.quot na nb))%Q).
      { rewrite <- inject_Z_mult. rewrite QR at 2. rewrite inject_Z_plus. ring. }
      rewrite E. ring.
  - destruct A as [At A]. step H as qa X. destruct (IH A _ X) as (D & n & m & I & S & V). unfold q_to in H. step H as r E.
    inversion H; subst q. cbn [q_type]. split; [exact At|]. destruct I as (Ra & Na & Ia). rewrite Na in E.
    pose proof (convert_equivalent _ _ _ _ _ E) as DE. apply equivalent_exps in DE.
    pose proof (same_dimension _ _ At D DE) as Ed.
    pose proof (references_ok_refl (q_type qa) t (eq_sym Ed)) as Ref.
    assert (N64 : I64 <> U64) by discriminate.
    pose proof (convert_int64 est (q_type qa) t I64 m mt n r S St Ref Ra N64 Rt Ia E) as Cv.
    destruct (convert_exact _ _ _ _ _ _ _ _ _ S St Ref Ra Rt Ia Cv E) as (z & -> & Iz & SV).
    exists z, mt. split; [split; [exact Rt|split; [reflexivity|exact Iz]]|]. split; [exact St|]. rewrite V. exact SV.
Qed.
End System.
