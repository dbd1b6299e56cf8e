(** Operators, casts and texts see the declarations of a program only through downcasting
    and the lookup of a name. *)

From Coq Require Import ZArith String List Bool.
From Verif Require Import Outcome CInt Root Ratio Unit Downcast Dim DimOp Equivalent DerivedUnit UnitDecl UnitText Rep Reference QuantityCast CommonQuantity
  Quantity Point Expr QuantityIo System.
Import ListNotations.
Local Open Scope res_scope.

Definition same_downcast (w w' : world) : Prop :=
  (forall k, downcast ukey_eq_dec (w_units w) k = downcast ukey_eq_dec (w_units w') k) /\
  (forall k, downcast bexps_eq_dec (w_dims w) k = downcast bexps_eq_dec (w_dims w') k).

Section Same.
Context (w w' : world) (S : same_downcast w w').

Lemma bind_same : forall (A B : Type) (r : res A) (f g : A -> res B), (forall x, f x = g x) -> bind r f = bind r g.
Proof. intros A B r f g H. destruct r; cbn [bind]; auto. Qed.

Lemma same_downcast_dimension : forall es, downcast_dimension w es = downcast_dimension w' es.
Proof. intros es. unfold downcast_dimension. now rewrite (proj2 S). Qed.
Lemma same_downcast_unit : forall d r, downcast_unit w d r = downcast_unit w' d r.
Proof. intros d r. unfold downcast_unit. now rewrite (proj1 S). Qed.
Ltac same := repeat first [rewrite same_downcast_dimension | rewrite same_downcast_unit | reflexivity
  | apply bind_same; intros ?
  | match goal with |- context [match ?x with _ => _ end] => destruct x end].

Lemma same_invert : forall d, dim_invert w d = dim_invert w' d.
Proof. intros d. unfold dim_invert. same. Qed.
Lemma same_to_dimension : forall es, to_dimension w es = to_dimension w' es.
Proof. intros d. unfold to_dimension. same. Qed.
Lemma same_merge : forall a b, merge_dimension w a b = merge_dimension w' a b.
Proof. intros a b. unfold merge_dimension. apply bind_same. intros es. apply same_to_dimension. Qed.
Lemma same_multiply : forall a b, dimension_multiply w a b = dimension_multiply w' a b.
Proof. intros a b. unfold dimension_multiply. destruct a, b; apply same_merge. Qed.
Lemma same_divide : forall a b, dimension_divide w a b = dimension_divide w' a b.
Proof. intros a b. unfold dimension_divide. rewrite same_invert. apply bind_same. intros i. apply same_multiply. Qed.
Lemma same_reference_multiply : forall a b, reference_multiply w a b = reference_multiply w' a b.
Proof. intros a b. unfold reference_multiply. rewrite same_multiply. do 5 (apply bind_same; intros ?). now rewrite same_downcast_unit. Qed.
Lemma same_reference_divide : forall a b, reference_divide w a b = reference_divide w' a b.
Proof. intros a b. unfold reference_divide. rewrite same_divide. do 5 (apply bind_same; intros ?). now rewrite same_downcast_unit. Qed.
Lemma same_common_dim_unit : forall est d1 u1 d2 u2, common_dim_unit est w d1 u1 d2 u2 = common_dim_unit est w' d1 u1 d2 u2.
Proof.
  intros est d1 u1 d2 u2. unfold common_dim_unit. destruct (dimension_eq_dec d1 d2).
  - destruct (cunit_eq_dec u1 u2); auto. apply bind_same. intros c. now rewrite same_downcast_unit.
  - destruct (same_unit_reference _ _).
    + apply bind_same. intros c. now rewrite same_downcast_unit.
    + do 7 (apply bind_same; intros ?). now rewrite same_downcast_unit.
Qed.
Lemma same_common_quantity : forall est a b r, common_quantity est w a b r = common_quantity est w' a b r.
Proof. intros est a b r. unfold common_quantity. now rewrite same_common_dim_unit. Qed.
Lemma same_addsub : forall o est a b, q_addsub o est w a b = q_addsub o est w' a b.
Proof. intros o est a b. unfold q_addsub. now rewrite same_common_quantity. Qed.
Lemma same_cast : forall est c q, q_cast est w c q = q_cast est w' c q.
Proof.
  intros est c q. unfold q_cast. destruct c; auto. unfold quantity_cast_dim. destruct (constrained _); cbn [bind]; auto. now rewrite same_downcast_unit.
Qed.

Lemma same_eval : forall est e, eval est w e = eval est w' e.
Proof.
  intros est e. induction e; cbn [eval]; auto; rewrite ?IHe, ?IHe1, ?IHe2; auto.
  - do 2 (apply bind_same; intros ?). apply same_addsub.
  - do 2 (apply bind_same; intros ?). apply same_addsub.
  - do 2 (apply bind_same; intros ?). unfold q_times. now rewrite same_reference_multiply.
  - do 2 (apply bind_same; intros ?). unfold q_over. now rewrite same_reference_divide.
  - apply bind_same. intros q. unfold value_div_q. rewrite same_invert. do 3 (apply bind_same; intros ?). now rewrite same_downcast_unit.
  - apply bind_same. intros q. apply same_cast.
Qed.
Lemma same_compare : forall est a b, q_compare est w a b = q_compare est w' a b /\ q_eqb est w a b = q_eqb est w' a b.
Proof.
  intros est a b. assert (H : q_common est w a b = q_common est w' a b) by (unfold q_common; now rewrite same_common_quantity).
  unfold q_compare, q_eqb. now rewrite H.
Qed.
End Same.

Lemma same_output : forall (F : Type) (put : F -> number -> string) default g g' us us' os q,
  (forall k, downcast prefix_key_eq_dec g k = downcast prefix_key_eq_dec g' k) -> (forall n, unit_lookup us n = unit_lookup us' n) ->
  output put default g us os q = output put default g' us' os q.
Proof.
  intros F put default g g' us us' os q G U. unfold output, unit_text. destruct (u_symbol _); [reflexivity|].
  unfold reference_of, prefix_or_ratio_text. rewrite U.
  f_equal. apply bind_same. intros s. do 2 (apply bind_same; intros ?). now rewrite G.
Qed.
