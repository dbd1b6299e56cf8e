(** Proofs about the dimension operations of [DimOp.v]. *)

From Coq Require Import ZArith QArith Qreduction Qcanon String List Bool Lia Permutation Sorted Lqa.
From Verif Require Import Outcome CInt Ratio SpecRatio QTen RatioMaths RatioMathsProofs RatioProofs
  FixedString TypeList Unit Downcast Dim DimOp SpecDim
  TypeListProofs StringProofs DimProofs.
Import ListNotations.
Close Scope Qc_scope.
Local Open Scope Z_scope.
Local Open Scope res_scope.

(** ** Worlds *)

(** Every guide leads to a type whose base is the key. *)
Definition consistent (w : world) : Prop :=
  (forall es d, In (es, d) (guides (w_dims w)) -> exponents d = es) /\
  (forall r ref u, In ((r, ref), u) (guides (w_units w)) -> u_ratio u = r /\ u_ref u = ref).

Inductive reachable : world -> Prop :=
| reach_empty : reachable empty_world
| reach_dim : forall mode name cu recipe w w', reachable w ->
    declare_dimension mode name cu recipe w = Ok w' -> reachable w'
| reach_unit : forall mode u w w', reachable w -> declare_unit mode u w = Ok w' -> reachable w'.

Lemma declare_guides : forall (K T : Type) keq mode (k : K) (t : T) g g',
  declare keq mode k t g = Ok g' ->
  forall x, In x (guides g') -> x = (k, t) \/ In x (guides g).
Proof.
  intros K T keq mode k t g g' H x Hx. unfold declare in H.
  destruct mode.
  - inversion H; subst; auto.
  - destruct (has_guide keq g k); inversion H; subst. simpl in Hx. destruct Hx; auto.
  - destruct (has_guide keq g k); inversion H; subst; simpl in Hx; auto.
    destruct Hx; auto.
Qed.

Lemma reachable_consistent : forall w, reachable w -> consistent w.
Proof.
  induction 1 as [|mode name cu recipe w w' _ [IH1 IH2] H|mode u w w' _ [IH1 IH2] H].
  - split; simpl; contradiction.
  - unfold declare_dimension in H. unbind. split; simpl; auto.
    intros es d Hin. destruct (declare_guides _ _ _ _ _ _ _ _ E0 _ Hin) as [X|X]; auto.
    inversion X; subst; auto.
  - unfold declare_unit in H. unbind. split; simpl; auto.
    intros r ref u0 Hin. destruct (declare_guides _ _ _ _ _ _ _ _ E _ Hin) as [X|X]; auto.
    inversion X; subst; auto.
Qed.

Lemma find_guide_in : forall (K T : Type) keq (l : list (K * T)) k t,
  find_guide keq l k = Some t -> In (k, t) l.
Proof.
  induction l as [|[k' t'] l IH]; simpl; intros k t H; [discriminate|].
  destruct (keq k k'); [inversion H; subst; auto|right; auto].
Qed.

Lemma downcast_in : forall (K T : Type) keq (g : registry K T) k t,
  downcast keq g k = Some t -> In (k, t) (guides g).
Proof.
  unfold downcast; intros K T keq g k t H.
  destruct (find_guide keq (guides g) k) eqn:E; [|discriminate].
  destruct (has_poison keq g k); [discriminate|]. inversion H; subst.
  now apply find_guide_in in E.
Qed.

(** ** make_dimension *)

Definition as_recipe (es : list bexp) := map (fun e => (DBase (e_dim e), (e_num e, e_den e))) es.

Lemma unpack_as_recipe : forall es, dim_unpack (as_recipe es) = Ok es.
Proof. induction es as [|[b n d] es IH]; simpl; auto. now rewrite IH. Qed.

Lemma unknown_expo : forall es d, mk_unknown_dimension es = Ok d ->
  forall b, (dim_expo d b == expo es b)%Q.
Proof.
  intros es d H b. unfold mk_unknown_dimension, make_dimension in H.
  change (map _ es) with (as_recipe es) in H. rewrite unpack_as_recipe in H. simpl in H. unbind.
  unfold dim_expo; simpl. rewrite (dim_consolidate_expo _ _ E b).
  apply expo_perm. apply (type_list_sort_spec exponent_less less_ntrans less_asym).
Qed.

Lemma unknown_strict : forall es, strictly_sorted es -> mk_unknown_dimension es = Ok (DUnknown es es).
Proof.
  intros es S. unfold mk_unknown_dimension, make_dimension.
  change (map _ es) with (as_recipe es). rewrite unpack_as_recipe. simpl.
  rewrite sort_strict, consolidate_strict by auto. reflexivity.
Qed.

Lemma downcast_dimension_expo : forall w es d, consistent w -> downcast_dimension w es = Ok d ->
  forall b, (dim_expo d b == expo es b)%Q.
Proof.
  intros w es d [C _] H b. unfold downcast_dimension in H.
  destruct (downcast bexps_eq_dec (w_dims w) es) as [d'|] eqn:E.
  - inversion H; subst. apply downcast_in, C in E. unfold dim_expo. now rewrite E.
  - now apply unknown_expo.
Qed.

Lemma downcast_dimension_strict : forall w es, consistent w -> strictly_sorted es ->
  exists d, downcast_dimension w es = Ok d /\ exponents d = es.
Proof.
  intros w es [C _] S. unfold downcast_dimension.
  destruct (downcast bexps_eq_dec (w_dims w) es) as [d'|] eqn:E.
  - exists d'; split; auto. now apply downcast_in, C in E.
  - rewrite unknown_strict by auto. eexists; split; reflexivity.
Qed.

(** ** Canonical types *)

Lemma to_dimension_strict : forall w es, consistent w -> strictly_sorted es ->
  exists d, to_dimension w es = Ok d /\ exponents d = es.
Proof.
  intros w es C S. unfold to_dimension. destruct es as [|e [|f l]];
    try (apply downcast_dimension_strict; auto; fail).
  destruct (is_plus_one e) eqn:E; [|apply downcast_dimension_strict; auto].
  unfold is_plus_one in E. apply andb_true_iff in E as [E1 E2].
  apply Z.eqb_eq in E1, E2. destruct e as [b n d]; simpl in *; subst.
  eexists; split; reflexivity.
Qed.

Lemma is_plus_one_iff : forall e, is_plus_one e = true <-> e = BExp (e_dim e) 1 1.
Proof.
  intros [b n d]; unfold is_plus_one; simpl. rewrite andb_true_iff, !Z.eqb_eq.
  split; [intros [-> ->]; auto|intros H; inversion H; auto].
Qed.
Lemma is_minus_one_iff : forall e, is_minus_one e = true <-> e = BExp (e_dim e) (-1) 1.
Proof.
  intros [b n d]; unfold is_minus_one; simpl. rewrite andb_true_iff, !Z.eqb_eq.
  split; [intros [-> ->]; auto|intros H; inversion H; auto].
Qed.

(** ** Inversion *)

Definition neg_exp (e : bexp) : bexp := BExp (e_dim e) (- e_num e) (e_den e).

Lemma exponent_invert_proper : forall e, proper e -> exponent_invert e = Ok (neg_exp e).
Proof.
  intros e (_ & _ & _ & B & _). unfold exponent_invert, cneg. rewrite arith_in_range; auto.
  apply in_range_I64. unfold INTMAX_MIN, INTMAX_MAX in *. lia.
Qed.

Lemma map_invert : forall es, Forall proper es -> map_res exponent_invert es = Ok (map neg_exp es).
Proof.
  induction 1; simpl; auto. rewrite exponent_invert_proper, IHForall by auto. reflexivity.
Qed.

Lemma neg_proper : forall e, proper e -> proper (neg_exp e).
Proof.
  intros [b n d] (A & B & C & D & E); unfold proper; simpl in *.
  rewrite Z.gcd_opp_l, Z.abs_opp. repeat split; auto; lia.
Qed.

Lemma neg_normal : forall es, normal es -> normal (map neg_exp es).
Proof.
  intros es [S P]. split.
  - induction S as [|e l S IH F]; simpl; constructor; auto.
    + apply IH. inversion P; auto.
    + rewrite Forall_forall in *. intros x Hx. apply in_map_iff in Hx as (y & <- & Hy).
      simpl. auto.
  - rewrite Forall_forall in *. intros x Hx. apply in_map_iff in Hx as (y & <- & Hy).
    apply neg_proper; auto.
Qed.

Lemma neg_over : forall U es, over U es -> over U (map neg_exp es).
Proof.
  intros U es O x Hx. apply in_map_iff in Hx as (y & <- & Hy). simpl; auto.
Qed.

Lemma expo_neg : forall es b, (expo (map neg_exp es) b == - expo es b)%Q.
Proof.
  induction es as [|e es IH]; intros b; simpl; [reflexivity|].
  rewrite IH. destruct (bdim_eq_dec (e_dim e) b); [|lra].
  unfold equot, neg_exp; simpl. rewrite inject_Z_opp. unfold Qdiv. lra.
Qed.

Lemma neg_neg : forall es, map neg_exp (map neg_exp es) = es.
Proof.
  intros es. rewrite map_map. rewrite <- (map_id es) at 2. apply map_ext.
  intros [b n d]; unfold neg_exp; simpl. now rewrite Z.opp_involutive.
Qed.

(** Inversion of a dimension in normal form is the canonical type of the negated list. *)
Lemma dim_invert_canonical : forall w d, normal (exponents d) ->
  dim_invert w d = to_dimension w (map neg_exp (exponents d)).
Proof.
  intros w d [S P].
  assert (G : forall es, Forall proper es ->
    match es with
    | [e] => if is_minus_one e then Ok (DBase (e_dim e))
             else i <- map_res exponent_invert [e]; downcast_dimension w i
    | _ => i <- map_res exponent_invert es; downcast_dimension w i
    end = to_dimension w (map neg_exp es)).
  { clear. intros es P. destruct es as [|e [|f l]].
    - reflexivity.
    - rewrite map_invert by auto. simpl.
      destruct (is_minus_one e) eqn:E.
      + apply is_minus_one_iff in E. rewrite E. reflexivity.
      + destruct (is_plus_one (neg_exp e)) eqn:E'; auto.
        exfalso. apply is_plus_one_iff in E'. destruct e as [b n m]; unfold neg_exp in E'; simpl in E'.
        inversion E'; subst. unfold is_minus_one in E; simpl in E.
        apply andb_false_iff in E as [E|E]; apply Z.eqb_neq in E; lia.
    - rewrite map_invert by auto. reflexivity. }
  destruct d as [b|name es cu rc|args es].
  - reflexivity.
  - specialize (G es P). destruct es as [|e [|f l]]; exact G.
  - specialize (G es P). destruct es as [|e [|f l]]; exact G.
Qed.

(** ** Products *)

Lemma base_normal : forall b, normal [BExp b 1 1].
Proof. intros b; split; repeat constructor; vm_compute; discriminate. Qed.

Lemma merge_dim_canonical : forall w l1 l2 es,
  dim_consolidate (merge_sorted exponent_less l1 l2) = Ok es ->
  merge_dimension w l1 l2 = to_dimension w es.
Proof. intros w l1 l2 es H. unfold merge_dimension. now rewrite H. Qed.

Lemma merge_over : forall U l1 l2 es, over U l1 -> over U l2 ->
  dim_consolidate (merge_sorted exponent_less l1 l2) = Ok es -> over U es.
Proof.
  intros U l1 l2 es O1 O2 H f Hf.
  destruct (dim_consolidate_dims _ _ H f Hf) as (g & Hg & <-).
  apply (Permutation_in _ (merge_sorted_perm _ _ _)) in Hg.
  apply in_app_or in Hg as [Hg|Hg]; auto.
Qed.

Lemma merge_normal : forall U, symbols_identify U -> forall l1 l2 es, over U l1 -> over U l2 ->
  normal l1 -> normal l2 ->
  dim_consolidate (merge_sorted exponent_less l1 l2) = Ok es -> normal es.
Proof.
  intros U HU l1 l2 es O1 O2 [S1 P1] [S2 P2] H. split.
  - apply (dim_consolidate_sorted U HU _ _ H).
    + intros f Hf. apply (Permutation_in _ (merge_sorted_perm _ _ _)) in Hf.
      apply in_app_or in Hf as [Hf|Hf]; auto.
    + apply (merge_sorted_sorted exponent_less less_ntrans less_asym);
        apply strictly_weakly; auto.
  - apply (dim_consolidate_proper _ _ H).
    rewrite Forall_forall in *. intros f Hf.
    apply (Permutation_in _ (merge_sorted_perm _ _ _)) in Hf.
    apply in_app_or in Hf as [Hf|Hf]; auto.
Qed.

Lemma merge_expo : forall l1 l2 es,
  dim_consolidate (merge_sorted exponent_less l1 l2) = Ok es ->
  forall b, (expo es b == expo l1 b + expo l2 b)%Q.
Proof.
  intros l1 l2 es H b. rewrite (dim_consolidate_expo _ _ H b).
  rewrite (expo_perm _ _ (merge_sorted_perm _ _ _)). apply expo_app.
Qed.

(** Whatever the shapes of the operands, the product is computed from the two
    exponent lists in one of the two orders. *)
Lemma dimension_multiply_shape : forall w d1 d2,
  dimension_multiply w d1 d2 = merge_dimension w (exponents d1) (exponents d2) \/
  dimension_multiply w d1 d2 = merge_dimension w (exponents d2) (exponents d1).
Proof. intros w [b1|? ? ? ?|? ?] [b2|? ? ? ?|? ?]; simpl; auto. Qed.

Definition ndim (U : bdim -> Prop) (d : dimension) : Prop :=
  normal (exponents d) /\ over U (exponents d).

Lemma dimension_multiply_merge : forall U, symbols_identify U -> forall w d1 d2,
  ndim U d1 -> ndim U d2 ->
  dimension_multiply w d1 d2 = merge_dimension w (exponents d1) (exponents d2).
Proof.
  intros U HU w d1 d2 [N1 O1] [N2 O2].
  destruct (dimension_multiply_shape w d1 d2) as [H|H]; auto.
  rewrite H. unfold merge_dimension. now rewrite (merge_comm U HU (exponents d2) (exponents d1)) by auto.
Qed.

Lemma dimension_multiply_ok : forall U, symbols_identify U -> forall w d1 d2 d, consistent w ->
  ndim U d1 -> ndim U d2 -> dimension_multiply w d1 d2 = Ok d ->
  ndim U d /\ to_dimension w (exponents d) = Ok d /\
  forall b, (dim_expo d b == dim_expo d1 b + dim_expo d2 b)%Q.
Proof.
  intros U HU w d1 d2 d C N1 N2 H.
  rewrite (dimension_multiply_merge U HU) in H by auto.
  unfold merge_dimension in H. unbind.
  destruct N1 as [N1 O1]. destruct N2 as [N2 O2].
  pose proof (merge_normal U HU _ _ _ O1 O2 N1 N2 E) as N.
  pose proof (merge_over U _ _ _ O1 O2 E) as O.
  destruct (to_dimension_strict w v C (proj1 N)) as (d' & Hd & Ee).
  rewrite H in Hd. inversion Hd; subst d'. rewrite Ee.
  split; [|split].
  - unfold ndim. rewrite Ee. auto.
  - exact H.
  - intros b. unfold dim_expo. rewrite Ee. apply merge_expo; auto.
Qed.

Lemma dimension_multiply_complete : forall U, symbols_identify U -> forall w d1 d2, consistent w ->
  ndim U d1 -> ndim U d2 ->
  (forall b, U b -> representable (dim_expo d1 b + dim_expo d2 b)) ->
  exists d, dimension_multiply w d1 d2 = Ok d.
Proof.
  intros U HU w d1 d2 C [N1 O1] [N2 O2] R.
  rewrite (dimension_multiply_merge U HU) by (split; auto).
  destruct (merge_complete U HU _ _ O1 O2 N1 N2 R) as [es E].
  pose proof (merge_normal U HU _ _ _ O1 O2 N1 N2 E) as N.
  rewrite (merge_dim_canonical w _ _ _ E).
  destruct (to_dimension_strict w es C (proj1 N)) as (d & Hd & _). eauto.
Qed.

Lemma dim_invert_ok : forall U w d, consistent w -> ndim U d ->
  exists d', dim_invert w d = Ok d' /\ ndim U d' /\ to_dimension w (exponents d') = Ok d' /\
  forall b, (dim_expo d' b == - dim_expo d b)%Q.
Proof.
  intros U w d C [N O]. rewrite dim_invert_canonical by auto.
  pose proof (neg_normal _ N) as N'. pose proof (neg_over U _ O) as O'.
  destruct (to_dimension_strict w _ C (proj1 N')) as (d' & Hd & Ee).
  exists d'. rewrite Hd. split; auto. split; [unfold ndim; now rewrite Ee|].
  split; [now rewrite Ee|]. intros b. unfold dim_expo. rewrite Ee. apply expo_neg.
Qed.

Lemma dimension_divide_ok : forall U, symbols_identify U -> forall w d1 d2 d, consistent w ->
  ndim U d1 -> ndim U d2 -> dimension_divide w d1 d2 = Ok d ->
  ndim U d /\ to_dimension w (exponents d) = Ok d /\
  forall b, (dim_expo d b == dim_expo d1 b - dim_expo d2 b)%Q.
Proof.
  intros U HU w d1 d2 d C N1 N2 H. unfold dimension_divide in H. unbind.
  destruct (dim_invert_ok U w d2 C N2) as (d' & Hd & N' & _ & V). rewrite E in Hd.
  inversion Hd; subst d'.
  destruct (dimension_multiply_ok U HU w d1 v d C N1 N' H) as (A & B & V').
  split; auto. split; auto. intros b. rewrite V', V. lra.
Qed.

Lemma dimension_divide_complete : forall U, symbols_identify U -> forall w d1 d2, consistent w ->
  ndim U d1 -> ndim U d2 ->
  (forall b, U b -> representable (dim_expo d1 b - dim_expo d2 b)) ->
  exists d, dimension_divide w d1 d2 = Ok d.
Proof.
  intros U HU w d1 d2 C N1 N2 R. unfold dimension_divide.
  destruct (dim_invert_ok U w d2 C N2) as (d' & Hd & N' & _ & V). rewrite Hd. simpl.
  apply (dimension_multiply_complete U HU); auto.
  intros b Hb. specialize (R b Hb). unfold representable in *.
  rewrite (Qred_complete (dim_expo d1 b + dim_expo d' b) (dim_expo d1 b - dim_expo d2 b)); auto.
  rewrite V. lra.
Qed.

(** Two canonical types over one set of base dimensions with the same exponents
    are the same type. *)
Lemma canonical_unique : forall U, symbols_identify U -> forall w d1 d2,
  ndim U d1 -> ndim U d2 -> to_dimension w (exponents d1) = Ok d1 -> to_dimension w (exponents d2) = Ok d2 ->
  (forall b, U b -> (dim_expo d1 b == dim_expo d2 b)%Q) -> d1 = d2.
Proof.
  intros U HU w d1 d2 [N1 O1] [N2 O2] T1 T2 H.
  assert (E : exponents d1 = exponents d2) by (apply (normal_unique U HU); auto).
  rewrite E in T1. congruence.
Qed.

(** ** Expressions *)

Inductive dexpr :=
| XDim (d : dimension)
| XMul (a b : dexpr)
| XDiv (a b : dexpr)
| XInv (a : dexpr).

(** The dimension the library computes for an expression. *)
Fixpoint deval (w : world) (x : dexpr) : res dimension :=
  match x with
  | XDim d => Ok d
  | XMul a b => da <- deval w a; db <- deval w b; dimension_multiply w da db
  | XDiv a b => da <- deval w a; db <- deval w b; dimension_divide w da db
  | XInv a => da <- deval w a; dim_invert w da
  end.

(** The mathematical exponent of [b] in the expression. *)
Fixpoint xexpo (x : dexpr) (b : bdim) : Q :=
  match x with
  | XDim d => dim_expo d b
  | XMul x y => (xexpo x b + xexpo y b)%Q
  | XDiv x y => (xexpo x b - xexpo y b)%Q
  | XInv x => (- xexpo x b)%Q
  end.

(** All dimensions mentioned are in normal form over [U]. *)
Fixpoint xgood (U : bdim -> Prop) (x : dexpr) : Prop :=
  match x with
  | XDim d => ndim U d
  | XMul a b | XDiv a b => xgood U a /\ xgood U b
  | XInv a => xgood U a
  end.

Definition is_operation (x : dexpr) : Prop := match x with XDim _ => False | _ => True end.

Lemma deval_ok : forall U, symbols_identify U -> forall w, consistent w -> forall x d,
  xgood U x -> deval w x = Ok d ->
  ndim U d /\ (forall b, (dim_expo d b == xexpo x b)%Q) /\
  (is_operation x -> to_dimension w (exponents d) = Ok d).
Proof.
  intros U HU w C x; induction x as [d0|x1 IH1 x2 IH2|x1 IH1 x2 IH2|x IH]; intros d G H; simpl in *.
  - inversion H; subst. split; auto. split; [reflexivity|tauto].
  - destruct G as [G1 G2]. unbind.
    destruct (IH1 _ G1 E) as (N1 & V1 & _). destruct (IH2 _ G2 E0) as (N2 & V2 & _).
    destruct (dimension_multiply_ok U HU w _ _ _ C N1 N2 H) as (N & T & V).
    split; auto. split; auto. intros b. now rewrite V, V1, V2.
  - destruct G as [G1 G2]. unbind.
    destruct (IH1 _ G1 E) as (N1 & V1 & _). destruct (IH2 _ G2 E0) as (N2 & V2 & _).
    destruct (dimension_divide_ok U HU w _ _ _ C N1 N2 H) as (N & T & V).
    split; auto. split; auto. intros b. now rewrite V, V1, V2.
  - unbind. destruct (IH _ G E) as (N1 & V1 & _).
    destruct (dim_invert_ok U w v C N1) as (d' & Hd & N & T & V).
    rewrite H in Hd; inversion Hd; subst d'.
    split; auto. split; auto. intros b. now rewrite V, V1.
Qed.

Lemma deval_unique : forall U, symbols_identify U -> forall w, consistent w -> forall x y dx dy,
  xgood U x -> xgood U y -> is_operation x -> is_operation y ->
  (forall b, U b -> (xexpo x b == xexpo y b)%Q) ->
  deval w x = Ok dx -> deval w y = Ok dy -> dx = dy.
Proof.
  intros U HU w C x y dx dy Gx Gy Ox Oy H Hx Hy.
  destruct (deval_ok U HU w C _ _ Gx Hx) as (Nx & Vx & Tx).
  destruct (deval_ok U HU w C _ _ Gy Hy) as (Ny & Vy & Ty).
  apply (canonical_unique U HU w); auto.
  intros b Hb. now rewrite Vx, Vy, H.
Qed.

(** ** Exponent multiplication *)

Lemma Qred_div : forall n d, d <> 0 ->
  exists g, g <> 0 /\ n = Qnum (Qred (inject_Z n / inject_Z d)) * g /\
            d = Zpos (Qden (Qred (inject_Z n / inject_Z d))) * g /\ Z.abs g = Z.gcd n d.
Proof.
  intros n d Hd. set (q := Qred (inject_Z n / inject_Z d)).
  assert (Hq : (q == inject_Z n / inject_Z d)%Q) by apply Qred_correct.
  assert (Hg : Z.gcd (Qnum q) (Zpos (Qden q)) = 1).
  { apply Qcanon.Qred_iff. unfold q. apply Qcanon.Qred_involutive. }
  set (a := Qnum q) in *. set (b := Zpos (Qden q)) in *.
  assert (X : a * d = n * b).
  { apply (proj1 (inject_Z_injective _ _)). rewrite !inject_Z_mult.
    assert (E : (inject_Z a / inject_Z b == q)%Q).
    { unfold a, b. destruct q as [x y]; simpl. symmetry. apply Qmake_Qdiv. }
    assert (~ inject_Z b == 0)%Q by (apply inject_Z_nz; discriminate).
    assert (~ inject_Z d == 0)%Q by (apply inject_Z_nz; auto).
    rewrite <- (Qmult_div_r (inject_Z a) (inject_Z b)) by auto.
    rewrite <- (Qmult_div_r (inject_Z n) (inject_Z d)) by auto.
    rewrite E, Hq. ring. }
  assert (Hb : 0 < b) by reflexivity.
  assert (D : (b | d)).
  { apply Z.gauss with a; [exists n; lia|rewrite Z.gcd_comm; auto]. }
  destruct D as [g Dg]. exists g.
  assert (g <> 0) by (intros ->; lia).
  assert (N : n = a * g).
  { apply Z.mul_reg_r with b; [lia|]. rewrite <- X, Dg. ring. }
  split; auto. split; auto. split; [lia|].
  rewrite N, Dg, (Z.mul_comm g b), Z.gcd_mul_mono_r, Hg. lia.
Qed.

Lemma ten_free_ext : forall p q, (p == q)%Q -> ten_free p -> ten_free q.
Proof. intros p q H. unfold ten_free. now rewrite (Qred_complete p q H). Qed.
Lemma representable_ext : forall p q, (p == q)%Q -> representable p -> representable q.
Proof. intros p q H. unfold representable. now rewrite (Qred_complete p q H). Qed.

Lemma Qred_num_0 : forall q, Qnum (Qred q) = 0 -> (q == 0)%Q.
Proof.
  intros q H. rewrite <- (Qred_correct q). destruct (Qred q) as [a b]; simpl in *; subst.
  reflexivity.
Qed.

Lemma mk_ratio_ten_free : forall n d e r, mk_ratio n d e = Ok r -> n <> 0 -> d <> 0 ->
  ten_free (inject_Z n / inject_Z d) ->
  r = Ratio (Qnum (Qred (inject_Z n / inject_Z d))) (Zpos (Qden (Qred (inject_Z n / inject_Z d)))) e.
Proof.
  intros n d e r H Hn Hd [T1 T2]. unfold mk_ratio in H. unbind. destruct v0 as [[n' d'] e'].
  inversion H; subst r.
  destruct (normalize_sound _ _ _ _ _ _ Hn Hd E0) as (kn & kd & Kn & Kd & -> & En & Ed & _).
  destruct (Qred_div n d Hd) as (g & Hg & Ng & Dg & Gg).
  set (a := Qnum (Qred (inject_Z n / inject_Z d))) in *.
  set (b := Zpos (Qden (Qred (inject_Z n / inject_Z d)))) in *.
  assert (Hb : 0 < b) by reflexivity. clearbody a b. clear H E E0 v.
  assert (G0 : 0 < Z.gcd n d) by lia.
  set (G := Z.gcd n d) in *. clearbody G. subst G.
  assert (Sd : Z.sgn d = Z.sgn g).
  { rewrite Dg, Z.sgn_mul. rewrite (Z.sgn_pos b) by lia. ring. }
  assert (Hgs : g = Z.sgn g * Z.abs g) by (rewrite Z.mul_comm; symmetry; apply Z.abs_sgn).
  assert (A : a = n' * 10 ^ kn).
  { rewrite Sd in En. rewrite Ng in En.
    assert (X : a * g = n' * 10 ^ kn * g).
    { transitivity (n' * 10 ^ kn * (Z.sgn g * Z.abs g)); [|now rewrite <- Hgs].
      transitivity (Z.sgn g * (n' * 10 ^ kn) * Z.abs g); [exact En|ring]. }
    apply Z.mul_reg_r in X; auto. }
  assert (B : b = d' * 10 ^ kd).
  { rewrite Dg, Z.abs_mul in Ed. apply Z.mul_reg_r in Ed; lia. }
  assert (a <> 0) by (intros ->; lia).
  assert (kn = 0).
  { destruct (Z.eq_dec kn 0); auto. exfalso. apply T1; auto. rewrite A.
    replace kn with (1 + (kn - 1)) by lia. rewrite Z.pow_add_r by lia.
    replace (n' * (10 ^ 1 * 10 ^ (kn - 1))) with (n' * 10 ^ (kn - 1) * 10) by ring.
    apply Z_mod_mult. }
  assert (kd = 0).
  { destruct (Z.eq_dec kd 0); auto. exfalso. apply T2. rewrite B.
    replace kd with (1 + (kd - 1)) by lia. rewrite Z.pow_add_r by lia.
    replace (d' * (10 ^ 1 * 10 ^ (kd - 1))) with (d' * 10 ^ (kd - 1) * 10) by ring.
    apply Z_mod_mult. }
  subst kn kd. rewrite A, B. f_equal; [ring|ring|lia].
Qed.

Lemma mk_ratio_zero : forall d e r, mk_ratio 0 d e = Ok r -> r = Ratio 0 1 0.
Proof. intros d e r H. unfold mk_ratio in H. unbind. simpl in E0. inversion E0; subst. now inversion H. Qed.

(** A fraction without factors of ten is stored with exponent 0 (and zero too). *)
Lemma mk_ratio_ten_free0 : forall n d r, mk_ratio n d 0 = Ok r -> d <> 0 ->
  ten_free (inject_Z n / inject_Z d) ->
  r = Ratio (Qnum (Qred (inject_Z n / inject_Z d))) (Zpos (Qden (Qred (inject_Z n / inject_Z d)))) 0.
Proof.
  intros n d r H Hd T. destruct (Z.eq_dec n 0) as [->|Hn].
  - apply mk_ratio_zero in H. subst.
    rewrite (Qred_complete (inject_Z 0 / inject_Z d) 0); [reflexivity|].
    unfold Qdiv. change (inject_Z 0) with 0%Q. lra.
  - apply mk_ratio_ten_free; auto.
Qed.

Lemma rval_0 : forall n d, (rval (Ratio n d 0) == inject_Z n / inject_Z d)%Q.
Proof. intros. unfold rval, frac; cbn [rnum rden rexp]. change ((10#1)^0)%Q with 1%Q. lra. Qed.

Lemma Qred_frac : forall q, (inject_Z (Qnum (Qred q)) / inject_Z (Zpos (Qden (Qred q))) == q)%Q.
Proof.
  intros q. rewrite <- (Qred_correct q) at 3. destruct (Qred q) as [a b]; simpl.
  symmetry; apply Qmake_Qdiv.
Qed.

Definition red_exp (b : bdim) (q : Q) : bexp := BExp b (Qnum (Qred q)) (Zpos (Qden (Qred q))).

Lemma exponent_multiply_exact : forall N D e e', D <> 0 -> e_den e <> 0 ->
  ten_free (equot e) -> ten_free (inject_Z N / inject_Z D) ->
  ten_free (equot e * (inject_Z N / inject_Z D)) ->
  exponent_multiply N D e = Ok e' ->
  e' = red_exp (e_dim e) (equot e * (inject_Z N / inject_Z D)).
Proof.
  intros N D e e' HD He T1 T2 T3 H. unfold exponent_multiply in H. unbind.
  destruct (mk_ratio_sound _ _ _ _ E) as (_ & V1 & L1).
  destruct (mk_ratio_sound _ _ _ _ E0) as (_ & V2 & L2).
  assert (B' : INTMAX_MIN <= 0 <= INTMAX_MAX) by (unfold INTMAX_MIN, INTMAX_MAX; lia).
  pose proof (mk_ratio_storable _ _ _ _ B' E) as S1.
  pose proof (mk_ratio_storable _ _ _ _ B' E0) as S2.
  apply mk_ratio_ten_free0 in E; auto. apply mk_ratio_ten_free0 in E0; auto.
  destruct (rmul_sound _ _ _ L1 L2 E1) as (V & L & S).
  rewrite rmul_unfold in E1; auto; try (subst; discriminate). cbv zeta in E1. unbind.
  assert (X : v4 = 0).
  { rewrite E, E0 in E4. cbn [rexp] in E4. apply cadd_ok in E4. lia. }
  subst v4.
  destruct (mk_ratio_sound _ _ _ _ E1) as (Hm & Vm & _).
  assert (P : (inject_Z v2 / inject_Z v3 == equot e * (inject_Z N / inject_Z D))%Q).
  { transitivity (frac v2 v3 0).
    - unfold frac. change ((10#1)^0)%Q with 1%Q. lra.
    - rewrite <- Vm, V, V1, V2. unfold frac, equot. change ((10#1)^0)%Q with 1%Q. ring. }
  apply mk_ratio_ten_free0 in E1; auto; [|apply (ten_free_ext _ _ (Qeq_sym _ _ P)); auto].
  rewrite E1. unfold red_exp. cbn [rnum rden].
  now rewrite (Qred_complete _ _ P).
Qed.

Lemma exponent_multiply_complete : forall N D e, D <> 0 -> e_den e <> 0 ->
  Z.abs N <= INTMAX_MAX -> Z.abs D <= INTMAX_MAX ->
  Z.abs (e_num e) <= INTMAX_MAX -> Z.abs (e_den e) <= INTMAX_MAX ->
  ten_free (equot e) -> ten_free (inject_Z N / inject_Z D) ->
  representable (equot e * (inject_Z N / inject_Z D)) ->
  exists e', exponent_multiply N D e = Ok e'.
Proof.
  intros N D e HD He AN AD An Ad T1 T2 [R1 R2]. unfold exponent_multiply.
  assert (B : INTMAX_MIN + 18 <= 0 <= INTMAX_MAX - 18) by (unfold INTMAX_MIN, INTMAX_MAX; lia).
  assert (B' : INTMAX_MIN <= 0 <= INTMAX_MAX) by (unfold INTMAX_MIN, INTMAX_MAX; lia).
  destruct (mk_ratio_total (e_num e) (e_den e) 0 He An Ad B) as [a Ha].
  destruct (mk_ratio_total N D 0 HD AN AD B) as [b Hb]. rewrite Ha, Hb. cbn [bind].
  destruct (mk_ratio_sound _ _ _ _ Ha) as (_ & V1 & L1).
  destruct (mk_ratio_sound _ _ _ _ Hb) as (_ & V2 & L2).
  pose proof (mk_ratio_storable _ _ _ _ B' Ha) as S1.
  pose proof (mk_ratio_storable _ _ _ _ B' Hb) as S2.
  apply mk_ratio_ten_free0 in Ha; auto. apply mk_ratio_ten_free0 in Hb; auto.
  set (q := (equot e * (inject_Z N / inject_Z D))%Q) in *.
  destruct (rmul_complete a b (Qnum (Qred q)) (Zpos (Qden (Qred q))) L1 L2 S1 S2) as [p Hp]; auto.
  - discriminate.
  - apply (proj1 (inject_Z_injective _ _)). rewrite !inject_Z_mult.
    set (x := inject_Z (Qnum (Qred q))). set (y := inject_Z (Zpos (Qden (Qred q)))).
    assert (Hy : ~ (y == 0)%Q) by (apply inject_Z_nz; discriminate).
    assert (Hq : (x / y == q)%Q) by apply Qred_frac.
    rewrite <- (Qmult_div_r x y) by auto. rewrite Hq. unfold q, equot.
    rewrite Ha, Hb. cbn [rnum rden].
    pose proof (Qred_frac (inject_Z (e_num e) / inject_Z (e_den e))) as F1.
    pose proof (Qred_frac (inject_Z N / inject_Z D)) as F2.
    set (q1 := (inject_Z (e_num e) / inject_Z (e_den e))%Q) in *.
    set (q2 := (inject_Z N / inject_Z D)%Q) in *.
    transitivity (inject_Z (Qnum (Qred q1)) * inject_Z (Qnum (Qred q2)) * y)%Q; [reflexivity|].
    transitivity (((inject_Z (Qnum (Qred q1)) / inject_Z (Zpos (Qden (Qred q1))))
      * (inject_Z (Qnum (Qred q2)) / inject_Z (Zpos (Qden (Qred q2))))) * y
      * (inject_Z (Zpos (Qden (Qred q1))) * inject_Z (Zpos (Qden (Qred q2)))))%Q.
    + field. split; apply inject_Z_nz; discriminate.
    + rewrite F1, F2. ring.
  - rewrite Ha, Hb. cbn [rexp]. exact B.
  - rewrite Hp. eexists; reflexivity.
Qed.
