(** Whole expressions of quantities: dimensional analysis (C68), exact values (C69) and
    formulas in coherent units (C70). *)

From Coq Require Import ZArith QArith Qabs String List Bool Lia Lqa SpecFloat.
From Verif Require Import Outcome CInt Root Ratio SpecRatio Unit Downcast Dim DimOp Equivalent SpecDim SpecUnit Rep QuantityCast CommonQuantity Quantity
  SpecQuantity DimOpProofs DimOpProofs3 EquivProofs QuantityProofs2 QuantityProofs4 Point Expr SpecExpr ExprProofs ExprProofs2 ExprProofs3
  Samples Props_Dim Props_Quantity.
Import ListNotations.
Local Open Scope string_scope.
Local Open Scope list_scope.
Local Open Scope Z_scope.
Local Open Scope res_scope.

(** * C68: dimensional analysis *)

(** Whatever the representations, units and systems: an expression that compiles and evaluates
    obeys the rules of dimensional analysis, and the dimension of its result is the one these
    rules give. *)
Theorem C68_dimension : forall est w e q, reachable w -> eval est w e = Ok q ->
  has_dim e (dim_exps (q_dim (q_type q))).
Proof. intros est w e q R. apply eval_has_dim. now apply reachable_consistent. Qed.
Print Assumptions C68_dimension.

(** The rules give an expression at most one dimension. *)
Theorem C68_unique : forall e f g, has_dim e f -> has_dim e g -> same_exps f g.
Proof. exact has_dim_unique. Qed.
Print Assumptions C68_unique.

(** An expression against the rules has no value. *)
Theorem C68_rejected : forall est w e, reachable w -> (forall f, ~ has_dim e f) -> forall q, eval est w e <> Ok q.
Proof. intros est w e R N q H. exact (N _ (C68_dimension _ _ _ _ R H)). Qed.
Print Assumptions C68_rejected.

(** Comparison joins equal dimensions. *)
Theorem C68_comparison : forall est w e1 e2 q1 q2, reachable w -> eval est w e1 = Ok q1 -> eval est w e2 = Ok q2 ->
  (exists c, q_compare est w q1 q2 = Ok c) \/ (exists b, q_eqb est w q1 q2 = Ok b) ->
  exists f, has_dim e1 f /\ has_dim e2 f.
Proof.
  intros est w e1 e2 q1 q2 R H1 H2 K. exists (dim_exps (q_dim (q_type q1))). split; [now apply (C68_dimension est w)|].
  eapply has_dim_ext; [exact (C68_dimension _ _ _ _ R H2)|]. apply equivalent_exps.
  destruct K as [(c & K)|(b & K)]; [unfold q_compare in K|unfold q_eqb in K]; step K as p P; exact (common_dims _ _ _ _ _ P).
Qed.
Print Assumptions C68_comparison.

(** A plain number beside a quantity is checked by the unit alone: a dimension with the unit
    [one], as speed in the natural system (natural/speed.h), may be added to a number, and the
    result has no dimension. *)
Definition natural_speed : dimension := DDerived "dim_speed" [BExp dim_L 1 1; BExp dim_T (-1) 1] unit_one speed_recipe.
Theorem C68_plain_number_refuted : exists q s,
  q_addsub_value OpAdd false q (RInt I64) (NInt 1) = Ok s /\
  ~ same_exps (dim_exps (q_dim (q_type q))) no_exps /\ same_exps (dim_exps (q_dim (q_type s))) no_exps.
Proof.
  exists (Quantity (QType natural_speed unit_one (RInt I64)) (NInt 2)).
  exists (Quantity (QType dim_one unit_one (RInt I64)) (NInt 3)).
  split; [vm_compute; reflexivity|]. split; [|intros s r; reflexivity].
  intros H. specialize (H "L" "metre"). vm_compute in H. discriminate H.
Qed.
Print Assumptions C68_plain_number_refuted.

(** 3 m + 2 m/s * 4 s is a length; 3 m + 2 m/s is nothing. *)
Definition len (u : cunit) (n : Z) : qexpr := ELit (Quantity (lengths u I64) (NInt n)).
Definition tim (u : cunit) (n : Z) : qexpr := ELit (Quantity (times u I64) (NInt n)).
Definition spd (n : Z) : qexpr := ELit (Quantity (QType dim_speed metre_per_second (RInt I64)) (NInt n)).
Example C68_ex : forall est, exists w q, si_world = Ok w /\ eval est w (EAdd (len metre 3) (EMul (spd 2) (tim second 4))) = Ok q /\
  q_num q = NInt 11 /\ q_dim (q_type q) = DBase dim_L.
Proof.
  intros est. destruct si_world_reachable as (w & H & _). exists w. vm_compute in H. injection H as <-. eexists. split; [reflexivity|].
  split; [vm_compute; reflexivity|]. split; reflexivity.
Qed.
Example C68_ex_rejected : (forall f, ~ has_dim (EAdd (len metre 3) (spd 2)) f) /\
  forall est, exists w, si_world = Ok w /\ eval est w (EAdd (len metre 3) (spd 2)) = IllFormed.
Proof.
  split.
  - intros f H. inversion H as [| | |a b f0 Ha Hb| | | | | | | | | | |]; subst. inversion Ha as [q0 f0 S| | | | | | | | | | | | | |]; subst.
    inversion Hb as [q1 f1 S'| | | | | | | | | | | | | |]; subst.
    specialize (S "T" "second"). specialize (S' "T" "second"). rewrite <- S' in S. vm_compute in S. discriminate S.
  - intros est. destruct si_world_reachable as (w & H & _). exists w. split; [exact H|]. vm_compute in H. injection H as <-. vm_compute. reflexivity.
Qed.

(** * C69: exact values of integral expressions *)

(** In one system of units, with signed 64-bit numbers: whatever units the parts are written
    in and wherever the library converts between them, the result of an expression that is
    defined is its exact value, in the unit of the result. *)
Theorem C69_value : forall U w est e v q, symbols_identify U -> good_system U w ->
  all_dims (in_system U w) e -> means est w e v -> eval est w e = Ok q ->
  in_system U w (q_dim (q_type q)) /\ valued est q v.
Proof. intros U w est e v q HU G A M H. exact (eval_exact U w HU G est e v M A q H). Qed.
Print Assumptions C69_value.

(** So two ways of writing one value (sums regrouped, units exchanged, brackets multiplied out)
    give results of one dimension type, ordered as the values are. *)
Theorem C69_comparison : forall U w est e1 e2 v1 v2 q1 q2 f, symbols_identify U -> good_system U w ->
  all_dims (in_system U w) e1 -> all_dims (in_system U w) e2 -> means est w e1 v1 -> means est w e2 v2 ->
  has_dim e1 f -> has_dim e2 f -> eval est w e1 = Ok q1 -> eval est w e2 = Ok q2 ->
  q_dim (q_type q1) = q_dim (q_type q2) /\
  (forall c, q_compare est w q1 q2 = Ok c -> c = Some (v1 ?= v2)%Q) /\
  (forall b, q_eqb est w q1 q2 = Ok b -> (b = true <-> (v1 == v2)%Q)).
Proof.
  intros U w est e1 e2 v1 v2 q1 q2 f HU G A1 A2 M1 M2 D1 D2 H1 H2. pose proof (proj1 G) as C.
  destruct (C69_value _ _ _ _ _ _ HU G A1 M1 H1) as (S1 & n1 & m1 & I1 & Z1 & V1).
  destruct (C69_value _ _ _ _ _ _ HU G A2 M2 H2) as (S2 & n2 & m2 & I2 & Z2 & V2).
  assert (E : q_dim (q_type q1) = q_dim (q_type q2)).
  { apply (same_dimension U w HU); auto. intros s r.
    rewrite (has_dim_unique _ _ _ (eval_has_dim est w C _ _ H1) D1 s r), (has_dim_unique _ _ _ (eval_has_dim est w C _ _ H2) D2 s r). reflexivity. }
  assert (N : I64 <> U64) by discriminate. pose proof (compatible_same _ _ E) as Co.
  split; [exact E|]. split.
  - intros c H. rewrite (q_compare_int64 est w q1 q2 I64 I64 n1 n2 m1 m2 c C I1 I2 N N eq_refl Z1 Z2 Co H). f_equal.
    now rewrite V1, V2.
  - intros b H. rewrite (q_eqb_int64 est w q1 q2 I64 I64 n1 n2 m1 m2 b C I1 I2 N N eq_refl Z1 Z2 Co H). now rewrite V1, V2.
Qed.
Print Assumptions C69_comparison.

(** (2 km + 500 m) * 3 - 6 km = 1500 m, and 90 km / 5 h = 300 m/min: the conditions hold and
    the results are these.  The second comes out as 18 of 1000/3600 m/s. *)
Lemma length_sized : forall est u, u = metre \/ u = kilometre -> sized est (lengths u I64) (rval (u_ratio u)).
Proof. intros est u [->| ->]; (apply base_sized; [vm_compute; intuition congruence|vm_compute; intuition congruence|reflexivity]). Qed.
Lemma time_sized : forall est u, u = second \/ u = hour -> sized est (times u I64) (rval (u_ratio u)).
Proof. intros est u [->| ->]; (apply base_sized; [vm_compute; intuition congruence|vm_compute; intuition congruence|reflexivity]). Qed.
Lemma len_means : forall est w u n, u = metre \/ u = kilometre -> in_range I64 n = true ->
  means est w (len u n) (inject_Z n * rval (u_ratio u)).
Proof.
  intros est w u n Hu R. constructor. exists n, (rval (u_ratio u)). split; [split; [reflexivity|split; [reflexivity|exact R]]|].
  split; [now apply length_sized|reflexivity].
Qed.
Lemma tim_means : forall est w u n, u = second \/ u = hour -> in_range I64 n = true ->
  means est w (tim u n) (inject_Z n * rval (u_ratio u)).
Proof.
  intros est w u n Hu R. constructor. exists n, (rval (u_ratio u)). split; [split; [reflexivity|split; [reflexivity|exact R]]|].
  split; [now apply time_sized|reflexivity].
Qed.
Lemma si_good : forall w, si_world = Ok w -> good_system si_base w.
Proof.
  intros w H. destruct si_world_reachable as (w' & H' & R). rewrite H in H'. inversion H'; subst w'.
  split; [now apply reachable_consistent|]. split.
  - intros b [->|[->| ->]]; vm_compute; intuition congruence.
  - vm_compute in H. injection H as <-. intros es d [X|[X|[]]]; inversion X; subst; vm_compute; intuition congruence.
Qed.
Lemma base_in_system : forall w b, si_base b -> in_system si_base w (DBase b).
Proof.
  intros w b B. split; [|split; [apply canonical_base|repeat constructor]]. split; [split|].
  - repeat constructor.
  - constructor; [|constructor]. vm_compute. intuition congruence.
  - intros e [<-|[]]. exact B.
Qed.
Example C69_ex : forall est, exists w q1 q2 v1, si_world = Ok w /\
  let e1 := ESub (EMulV (EAdd (len kilometre 2) (len metre 500)) (RInt I32) (NInt 3)) (len kilometre 6) in
  let e2 := EDiv (len kilometre 90) (tim hour 5) in
  all_dims (in_system si_base w) e1 /\ means est w e1 v1 /\ (v1 == 1500)%Q /\
  eval est w e1 = Ok q1 /\ q_num q1 = NInt 1500 /\
  means est w e2 (inject_Z 90 * 1000 / (inject_Z 5 * 3600)) /\
  eval est w e2 = Ok q2 /\ q_num q2 = NInt 18.
Proof.
  intros est. destruct si_world_reachable as (w & H & R). exists w.
  assert (K1 : exists q, eval est w (ESub (EMulV (EAdd (len kilometre 2) (len metre 500)) (RInt I32) (NInt 3)) (len kilometre 6)) = Ok q
     /\ q_num q = NInt 1500).
  { vm_compute in H. injection H as <-. eexists. split; vm_compute; reflexivity. }
  assert (K2 : exists q, eval est w (EDiv (len kilometre 90) (tim hour 5)) = Ok q /\ q_num q = NInt 18).
  { vm_compute in H. injection H as <-. eexists. split; vm_compute; reflexivity. }
  destruct K1 as (q1 & K1 & N1). destruct K2 as (q2 & K2 & N2). exists q1, q2. eexists. split; [exact H|]. cbv zeta.
  assert (L : in_system si_base w (DBase dim_L)) by (apply base_in_system; now left).
  split; [cbn; auto|]. split.
  { apply mn_sub; [apply mn_mulv; [apply mn_add|reflexivity|discriminate]|]; apply len_means; auto. }
  split; [vm_compute; reflexivity|]. split; [exact K1|]. split; [exact N1|]. split; [|split; [exact K2|exact N2]].
  apply (mn_div est w _ _ _ _ 90 5).
  - exact (len_means est w kilometre 90 (or_intror eq_refl) eq_refl).
  - exact (tim_means est w hour 5 (or_intror eq_refl) eq_refl).
  - eexists. split; reflexivity.
  - eexists. split; reflexivity.
  - exists 18. reflexivity.
Qed.

(** * C70: formulas in coherent units *)

(** A formula of floating-point quantities in coherent units, of whatever length, compiles and
    evaluates if and only if it obeys dimensional analysis, and the number of the result is the
    very number the same formula gives on bare numbers: bit by bit, with no factor anywhere. *)
Theorem C70_formula : forall U w est f e, symbols_identify U -> good_system U w -> ordinary_system U w ->
  formula f e -> all_dims (in_system U w) e -> (forall b, U b -> weight e b <= inject_Z INTMAX_MAX)%Q ->
  ((exists q, eval est w e = Ok q) <-> (exists g, has_dim e g)) /\
  (forall q, eval est w e = Ok q -> q_num q = NFlt (bare f e) /\ q_rep (q_type q) = RFlt f /\ coherent (q_type q)).
Proof.
  intros U w est f e HU G GO F A W. pose proof (proj1 G) as C.
  assert (K : (exists g, has_dim e g) -> exists q, eval est w e = Ok q /\ q_num q = NFlt (bare f e) /\ q_rep (q_type q) = RFlt f /\ coherent (q_type q)).
  { intros (g & D). destruct (formula_defined U w est f HU G GO e g D F A W) as (q & E & (_ & Co & R) & N & _). exists q. auto. }
  split; [split|].
  - intros (q & E). eexists. exact (eval_has_dim est w C _ _ E).
  - intros D. destruct (K D) as (q & E & _). eauto.
  - intros q E. destruct K as (q' & E' & P); [eexists; exact (eval_has_dim est w C _ _ E)|]. rewrite E in E'. inversion E'; subst q'. exact P.
Qed.
Print Assumptions C70_formula.

(** d + v * t + d * 2 for doubles in metres and seconds: 3 + 2.5 * 4 + 6. *)
Definition flen (x : spec_float) : qexpr := ELit (Quantity (QType (DBase dim_L) metre (RFlt F64)) (NFlt x)).
Definition ftim (x : spec_float) : qexpr := ELit (Quantity (QType (DBase dim_T) second (RFlt F64)) (NFlt x)).
Definition fspd (x : spec_float) : qexpr := ELit (Quantity (QType dim_speed metre_per_second (RFlt F64)) (NFlt x)).
Definition two_half : spec_float := SFdiv 53 1024 (float_of_int F64 5) (float_of_int F64 2).
Definition path : qexpr :=
  EAdd (EAdd (flen (float_of_int F64 3)) (EMul (fspd two_half) (ftim (float_of_int F64 4))))
       (EMulV (flen (float_of_int F64 3)) (RInt I32) (NInt 2)).
Example C70_ex : forall est, exists w q, si_world = Ok w /\ symbols_identify si_base /\ good_system si_base w /\ ordinary_system si_base w /\
  formula F64 path /\ all_dims (in_system si_base w) path /\ (forall b, si_base b -> weight path b <= inject_Z INTMAX_MAX)%Q /\
  eval est w path = Ok q /\ q_num q = NFlt (float_of_int F64 19) /\ bare F64 path = float_of_int F64 19.
Proof.
  intros est. destruct si_world_reachable as (w & H & R). exists w.
  assert (K : exists q, eval est w path = Ok q /\ q_num q = NFlt (float_of_int F64 19)).
  { vm_compute in H. injection H as <-. eexists. split; vm_compute; reflexivity. }
  destruct K as (q & K & N). exists q. split; [exact H|]. split; [exact si_identify|]. split; [now apply si_good|]. split; [|split; [|split; [|split; [|split; [exact K|split; [exact N|vm_compute; reflexivity]]]]]].
  - split.
    + intros b [->|[->| ->]]; vm_compute; discriminate.
    + vm_compute in H. injection H as <-. intros es d [X|[X|[]]]; inversion X; subst; vm_compute; discriminate.
  - vm_compute. intuition reflexivity.
  - assert (L : in_system si_base w (DBase dim_L)) by (apply base_in_system; now left).
    assert (T : in_system si_base w (DBase dim_T)) by (apply base_in_system; right; now left).
    assert (S : in_system si_base w dim_speed).
    { split; [exact speed_ndim|]. split; [|repeat constructor]. vm_compute in H. injection H as <-. vm_compute. reflexivity. }
    cbn. auto.
  - intros b [->|[->| ->]]; vm_compute; discriminate.
Qed.
