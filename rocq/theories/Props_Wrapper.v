(** Theorems about representations that are transparent wrappers of numbers (C93). *)

From Coq Require Import ZArith QArith String List Bool Lia SpecFloat.
From Verif Require Import Outcome CInt Root Ratio SpecRatio FixedString Unit Downcast Dim DimOp Equivalent SpecDim SpecUnit Rep QuantityCast CommonQuantity
  Quantity Point Expr Wrapper SpecWrapper WrapperProofs Samples Props_Quantity.
Import ListNotations.
Local Open Scope Z_scope.
Local Open Scope res_scope.

(** * C93: a transparent wrapper of a number behaves like the number *)

(** An expression of wrapped and plain numbers in any mixture has the outcome of the same
    expression without wrappers: it compiles if that does, is undefined if that is, and has the
    same dimension, unit and number. *)
Theorem C93_transparent : forall est w e, wrapped_sized est w e ->
  unwrapped (weval est w e) = eval est w (unwrap_expr e).
Proof. intros est w e H. exact (proj1 (faithful_eval est w e H)). Qed.
Print Assumptions C93_transparent.

(** So have the comparisons of two such expressions. *)
Theorem C93_comparisons : forall est w e1 e2 q1 q2, wrapped_sized est w e1 -> wrapped_sized est w e2 ->
  weval est w e1 = Ok q1 -> weval est w e2 = Ok q2 ->
  w_compare est w q1 q2 = q_compare est w (unwrap q1) (unwrap q2) /\ w_eqb est w q1 q2 = q_eqb est w (unwrap q1) (unwrap q2).
Proof.
  intros est w e1 e2 q1 q2 S1 S2 H1 H2. unfold w_compare, q_compare, w_eqb, q_eqb.
  rewrite (common_faithful est w q1 q2); [split; reflexivity|exact (proj2 (faithful_eval est w e1 S1) _ H1)|exact (proj2 (faithful_eval est w e2 S2) _ H2)].
Qed.
Print Assumptions C93_comparisons.

(** The result of an operator is a plain number: the wrapper is lost, even in [+q] and in the
    sum of two equal types. *)
Theorem C93_results : forall est w e q, ends_in_operator e -> weval est w e = Ok q -> ~ is_wrapped (wq_type q).
Proof.
  intros est w e q O H. destruct e; try contradiction O; cbn [weval] in H.
  all: repeat match type of H with bind ?x _ = _ => let E := fresh in destruct x eqn:E; try discriminate H; cbn [bind] in H end.
  all: unfold w_plus, w_neg, w_addsub, w_times, w_over, w_rem, w_rem_value, w_value_div in H; cbv zeta in H; try unfold w_scale in H; cbv zeta in H.
  all: repeat match type of H with bind ?x _ = _ => let E := fresh in destruct x eqn:E; try discriminate H; cbn [bind] in H end.
  all: injection H as <-; exact (fun x => x).
Qed.
Print Assumptions C93_results.

(** A cast yields what it names: the whole type, the dimension, the unit or the representation;
    and it keeps the wrapper unless it names another representation. *)
Theorem C93_casts : forall est w c q s, w_cast est w c q = Ok s ->
  match c with
  | WToQuantity t => wq_type s = t
  | WToDim d => wt_dim (wq_type s) = d /\ wt_rep (wq_type s) = wt_rep (wq_type q)
  | WToUnit u => wq_type s = WType (wt_dim (wq_type q)) u (wt_rep (wq_type q))
  | WToRep r => wq_type s = WType (wt_dim (wq_type q)) (wt_unit (wq_type q)) r
  end.
Proof.
  intros est w c [[d u r] n] s H. destruct c as [t|e|v|k]; cbn [w_cast wq_type wq_num number_type wt_dim wt_unit wt_rep] in *; step H as x X; injection H as <-.
  - reflexivity.
  - unfold quantity_cast_dim in X. step X as c C. step X as v V. unfold mk_qtype in X. step X as t T. step T as c' C'. injection T as <-. step X as y Y. injection X as <-.
    split; [reflexivity|]. now destruct r.
  - unfold quantity_cast_unit in X. unfold mk_qtype in X. step X as t T. step T as c' C'. injection T as <-. step X as y Y. injection X as <-. now destruct r.
  - unfold quantity_cast_rep in X. step X as y Y. injection X as <-. now destruct k.
Qed.
Print Assumptions C93_casts.

(** Objects are made from a value, wrapped or not, as plain ones are; the construction is
    implicit exactly for [dimensionless<one, Rep>]. *)
Theorem C93_construction : forall t v,
  unwrapped (w_make t v) = q_make (number_type t) (value_type (wv_rep v)) (wv_num v) /\
  (forall q, w_make t v = Ok q -> wq_type q = t) /\
  (wt_dim t = dim_one /\ wt_unit t = unit_one -> w_implicit t v = w_make t v) /\
  (~ (wt_dim t = dim_one /\ wt_unit t = unit_one) -> w_implicit t v = IllFormed).
Proof.
  intros t v. split; [|split; [|split]].
  - unfold w_make, q_make. cbn [number_type q_rep]. destruct (constrained _) as [[]| | | |]; try reflexivity. cbn [bind].
    destruct (n_convert _ _); reflexivity.
  - intros q H. unfold w_make in H. destruct (constrained _) as [[]| | | |]; try discriminate H. cbn [bind] in H.
    destruct (n_convert _ _); try discriminate H. now injection H as <-.
  - intros [D U]. unfold w_implicit, is_unit_one. rewrite D, U.
    destruct (dimension_eq_dec dim_one dim_one) as [_|X]; [|now contradiction X].
    destruct (cunit_eq_dec unit_one unit_one) as [_|X]; [|now contradiction X]. reflexivity.
  - intros N. unfold w_implicit, is_unit_one.
    destruct (dimension_eq_dec (wt_dim t) dim_one) as [D|_]; [|reflexivity].
    destruct (cunit_eq_dec (wt_unit t) unit_one) as [U|_]; [|reflexivity]. contradict N. now split.
Qed.
Print Assumptions C93_construction.

(** A plain quantity is changed in place by wrapped operands as by plain ones; a wrapped one
    cannot be changed in place at all. *)
Theorem C93_in_place : forall est q a,
  num_ok (value_type (wt_rep (wq_type q))) (wq_num q) = true ->
  (forall b, a = WAddTo b \/ a = WSubFrom b \/ a = WRemBy b ->
     num_ok (value_type (wt_rep (wq_type b))) (wq_num b) = true /\ (is_wrapped (wq_type b) -> has_size est (number_type (wq_type b)))) ->
  (~ is_wrapped (wq_type q) -> unwrapped (w_act est q a) = q_act est (unwrap q) (unwrap_action a) /\
     forall r, w_act est q a = Ok r -> wq_type r = wq_type q) /\
  (is_wrapped (wq_type q) -> w_act est q a = IllFormed).
Proof.
  intros est q a N B. split.
  - intros W. apply act_faithful; auto. split; auto. intros X. contradiction.
  - intros W. unfold w_act, is_wrapped in *. destruct (wt_rep (wq_type q)); [contradiction|reflexivity].
Qed.
Print Assumptions C93_in_place.

(** zero() and one() are those of the numbers; so are min() and max() of a plain type.  For a
    wrapper the library takes them from the unspecialized [std::numeric_limits]. *)
Theorem C93_zero_one : forall t, unwrap (w_zero t) = q_zero (number_type t) /\ unwrap (w_one t) = q_one (number_type t) /\
  (~ is_wrapped t -> unwrap (w_min t) = q_min (number_type t) /\ unwrap (w_max t) = q_max (number_type t)).
Proof.
  intros [d u [r|r]]; (split; [reflexivity|]); (split; [reflexivity|]); intros H; [split; reflexivity|contradict H; exact I].
Qed.
Print Assumptions C93_zero_one.

(** They are then no bounds: every type of wrapped numbers has max() below one() and, if
    signed, min() above -1. *)
Theorem C93_bounds_refuted : forall est w t, is_wrapped t ->
  w_max t = w_zero t /\ w_min t = w_zero t /\ w_compare est w (w_one t) (w_max t) = Ok (Some Gt) /\
  (forall i n, wt_rep t = Wrapped (RInt i) -> n < 0 -> w_compare est w (WQuantity t (NInt n)) (w_min t) = Ok (Some Lt)).
Proof.
  intros est w [d u [r|r]] W; [contradiction W|]. unfold w_compare, w_common, w_max, w_min, w_zero, w_one. cbn [wt_rep wq_type wq_num value_type].
  split; [reflexivity|]. split; [reflexivity|].
  destruct (wtype_eq_dec (WType d u (Wrapped r)) (WType d u (Wrapped r))) as [_|X]; [|now contradiction X]. cbn [bind fst snd]. split.
  - destruct r as [i|[]]; reflexivity.
  - intros i n E L. injection E as ->. cbn. f_equal. f_equal. now apply Z.compare_lt_iff.
Qed.
Print Assumptions C93_bounds_refuted.

(** 1 km as a wrapped [int] and 1.5 m as a wrapped [double] make 1001.5 m, a plain [double]. *)
Definition wrapped_length (u : cunit) (r : rep) (n : number) : wquantity := WQuantity (WType (DBase dim_L) u (Wrapped r)) n.
Definition one_and_a_half : number := NFlt (SFdiv (fprec F64) (femax F64) (float_of_int F64 3) (float_of_int F64 2)).
Definition mixed_sum : wexpr :=
  WAdd (WLit (wrapped_length kilometre (RInt I32) (NInt 1))) (WLit (wrapped_length metre (RFlt F64) one_and_a_half)).
Lemma lengths_sized : forall est u r, u = metre \/ u = kilometre -> has_size est (number_type (WType (DBase dim_L) u (Wrapped r))).
Proof.
  intros est u r H. destruct good_units as (Gm & Gk & _).
  assert (V : invertible (u_ratio u)) by (destruct H as [-> | ->]; (split; [assumption|discriminate])).
  split; [destruct H as [-> | ->]; reflexivity|]. split; [exact V|]. exists (u_ratio u). split; [reflexivity|exact V].
Qed.
Example C93_ex : forall est, exists t,
  wrapped_sized est empty_world mixed_sum /\
  weval est empty_world mixed_sum =
    Ok (WQuantity t (NFlt (SFdiv (fprec F64) (femax F64) (float_of_int F64 2003) (float_of_int F64 2)))) /\
  wt_rep t = Bare (RFlt F64) /\ (Qeq (rval (u_ratio (wt_unit t))) 1).
Proof.
  intros est. eexists. split; [|split; [vm_compute; reflexivity|split; reflexivity]].
  split; (split; [vm_compute; reflexivity|]); intros _; apply lengths_sized; auto.
Qed.
(** 7 km in a wrapped int, cast to metres, are 7000 m in a wrapped int. *)
Example C93_ex_cast : forall est, w_cast est empty_world (WToUnit metre) (wrapped_length kilometre (RInt I32) (NInt 7)) = Ok (wrapped_length metre (RInt I32) (NInt 7000)).
Proof. intros est. vm_compute. reflexivity. Qed.
(** ... and a wrapped length converts to the plain one of the same unit and back. *)
Example C93_ex_convert : forall est,
  let e := WConv (WType (DBase dim_L) metre (Wrapped (RInt I32))) (WConv (WType (DBase dim_L) metre (Bare (RInt I32)))
             (WLit (wrapped_length metre (RInt I32) (NInt 7)))) in
  wrapped_sized est empty_world e /\ weval est empty_world e = Ok (wrapped_length metre (RInt I32) (NInt 7)).
Proof.
  intros est. split; [|vm_compute; reflexivity].
  split; [split; [split; [reflexivity|]|intros []]|]; intros _; apply lengths_sized; auto.
Qed.
