(** C87: expressions whose casts and divisions truncate. *)

From Coq Require Import ZArith QArith Qabs String List Bool Lia Lqa.
From Verif Require Import Outcome CInt Root Ratio SpecRatio Unit Downcast Dim DimOp Equivalent SpecDim SpecUnit Rep Reference QuantityCast CommonQuantity
  Quantity SpecQuantity MagnitudeProofs QuantityProofs2 QuantityProofs4 QuantityProofs5 Point SpecPoint PointProofs Expr SpecExpr ExprProofs ExprProofs2
  Affine SpecAffine AffineProofs Program SpecError ErrorProofs CatalogueProofs Samples Props_Dim Props_Quantity Props_Expr Props_Affine Props_Program.
Import ListNotations.
Local Open Scope string_scope.
Local Open Scope list_scope.
Local Open Scope Z_scope.
Local Open Scope res_scope.

(** In one system of units, with signed 64-bit numbers, wherever the origins lie: whatever casts
    and divisions an expression contains, its result is as close to the exact value as the
    rules of [near] say. *)
Theorem C87_bound : forall U w rb est at_ e v d r, symbols_identify U -> good_system U w ->
  aall_dims (in_system U w) e -> near rb est w at_ e v d -> aeval rb est w e = Ok r -> within est at_ r v d.
Proof. intros U w rb est at_ e v d r HU G A N H. exact (proj2 (eval_near U w HU G rb est at_ e v d N A r H)). Qed.
Print Assumptions C87_bound.

(** A comparison that the errors cannot reach decides as exact arithmetic would, for
    quantities and for points. *)
Theorem C87_decision : forall U w rb est at_ e1 e2 v1 v2 d1 d2 r1 r2 c, symbols_identify U -> good_system U w ->
  aall_dims (in_system U w) e1 -> aall_dims (in_system U w) e2 -> near rb est w at_ e1 v1 d1 -> near rb est w at_ e2 v2 d2 ->
  (d1 + d2 < Qabs (v1 - v2))%Q ->
  aeval rb est w e1 = Ok r1 -> aeval rb est w e2 = Ok r2 -> v_compare rb est w r1 r2 = Ok c -> c = Some (v1 ?= v2)%Q.
Proof.
  intros U w rb est at_ e1 e2 v1 v2 d1 d2 r1 r2 c HU G A1 A2 N1 N2 F H1 H2 H.
  destruct (eval_near U w HU G rb est at_ e1 v1 d1 N1 A1 r1 H1) as (D1 & x1 & V1 & B1).
  destruct (eval_near U w HU G rb est at_ e2 v2 d2 N2 A2 r2 H2) as (D2 & x2 & V2 & B2).
  assert (K : c = Some (x1 ?= x2)%Q).
  { destruct (object_stands U w rb est at_ r1 x1 V1 D1) as (y1 & S1 & E1 & O1 & L1).
    destruct (object_stands U w rb est at_ r2 x2 V2 D2) as (y2 & S2 & E2 & O2 & L2). rewrite <- E1, <- E2.
    destruct r1 as [q1|p1], r2 as [q2|p2]; try discriminate H.
    - cbn in V1, V2, D1, D2. cbn [v_compare] in H.
      assert (Co : compatible (q_type q1) (q_type q2)).
      { apply compatible_same. apply (same_dimension U w HU); auto. apply exps_sym. unfold q_compare in H. step H as s S.
        apply equivalent_exps. exact (common_dims _ _ _ _ _ S). }
      rewrite E1, E2. exact (valued_compare est w (proj1 G) _ _ _ _ _ V1 V2 Co H).
    - cbn [v_compare] in H. exact (proj1 (C83_comparison U w rb est at_ _ _ y1 y2 p1 p2 HU G O1 O2 S1 S2 L1 L2) c H). }
  rewrite K. f_equal. apply Qabs_Qle_condition in B1. apply Qabs_Qle_condition in B2.
  destruct (Qlt_le_dec v1 v2) as [L|L].
  - rewrite Qabs_neg in F by lra. rewrite (proj1 (Qlt_alt _ _) L). apply (proj1 (Qlt_alt _ _)). lra.
  - rewrite Qabs_pos in F by lra. assert (v2 < v1)%Q by (destruct (Qeq_dec v1 v2) as [E|E]; [exfalso; rewrite E in F; lra|apply Qle_lteq in L; destruct L as [L|L]; [exact L|now symmetry in L]]).
    rewrite (proj1 (Qgt_alt _ _) H0). apply (proj1 (Qgt_alt _ _)). lra.
Qed.
Print Assumptions C87_decision.

(** Casting [n] quantities and adding them loses less than [n] units... *)
Fixpoint sum_of_casts (t : qtype) (first : quantity) (rest : list quantity) : aexpr :=
  match rest with
  | nil => AUnary (UCast (ToQuantity t)) (AQuantity first)
  | cons q l => ABinary BAdd (AUnary (UCast (ToQuantity t)) (AQuantity first)) (sum_of_casts t q l)
  end.
Fixpoint sum_of (first : quantity) (rest : list quantity) : aexpr :=
  match rest with nil => AQuantity first | cons q l => ABinary BAdd (AQuantity first) (sum_of q l) end.
Fixpoint total (vs : list Q) : Q := match vs with nil => 0 | cons v l => v + total l end.

Theorem C87_casts : forall U w rb est at_ t m q qs v vs r, symbols_identify U -> good_system U w ->
  Forall (fun q => in_system U w (q_dim (q_type q))) (q :: qs) -> in_system U w (q_dim t) -> q_rep t = RInt I64 -> sized est t m ->
  Forall2 (valued est) (q :: qs) (v :: vs) -> aeval rb est w (sum_of_casts t q qs) = Ok r ->
  within est at_ r (total (v :: vs)) (inject_Z (Z.of_nat (length (q :: qs))) * m).
Proof.
  intros U w rb est at_ t m q qs v vs r HU G D Dt Rt St F H.
  assert (N : exists d v', near rb est w at_ (sum_of_casts t q qs) v' d /\ (v' == total (v :: vs))%Q /\
    (d == inject_Z (Z.of_nat (length (q :: qs))) * m)%Q /\ aall_dims (in_system U w) (sum_of_casts t q qs)).
  { clear H r.
    assert (Cn : forall q, counted_in rb est w (AUnary (UCast (ToQuantity t)) (AQuantity q)) m).
    { intros q0. split; intros x X; cbn [aeval bind want_quantity unary_quantity q_cast] in X; step X as s S; [|discriminate X].
      step S as n0 N0. inversion S; subst s. inversion X; subst x. auto. }
    assert (One : forall q v, valued est q v -> near rb est w at_ (AUnary (UCast (ToQuantity t)) (AQuantity q)) v (0 + m)).
    { intros q0 v0 V. apply nr_cast; [now constructor|apply Cn]. }
    revert q v vs D F. induction qs as [|q' qs IH]; intros q v vs D F; inversion F as [|? ? ? ? V F']; subst; inversion D as [|? ? Dq D']; subst.
    - inversion F'; subst. exists (0 + m)%Q, v. split; [exact (One q v V)|]. cbn [total length]. change (inject_Z (Z.of_nat 1)) with 1%Q.
      split; [ring|]. split; [ring|]. cbn. auto.
    - destruct vs as [|v' vs]; [inversion F'|]. destruct (IH q' v' vs D' F') as (d & x & N & E & Ed & A).
      exists (0 + m + d)%Q, (v + x)%Q. split; [cbn [sum_of_casts]; apply nr_add; [apply One; exact V|exact N]|].
      split; [rewrite E; reflexivity|]. split; [|cbn; auto].
      rewrite Ed. change (length (q :: q' :: qs)) with (S (length (q' :: qs))). rewrite Nat2Z.inj_succ. unfold Z.succ. rewrite inject_Z_plus.
      change (inject_Z 1) with 1%Q. ring. }
  destruct N as (d & v' & N & E & Ed & A). destruct (C87_bound U w rb est at_ _ _ _ r HU G A N H) as (x & X & B). exists x. split; [exact X|].
  rewrite <- E, <- Ed. exact B.
Qed.
Print Assumptions C87_casts.

(** ... while adding them first and casting the sum loses less than one. *)
Theorem C87_cast_of_sum : forall U w rb est at_ t m q qs v vs r, symbols_identify U -> good_system U w ->
  Forall (fun q => in_system U w (q_dim (q_type q))) (q :: qs) -> in_system U w (q_dim t) -> q_rep t = RInt I64 -> sized est t m ->
  Forall2 (valued est) (q :: qs) (v :: vs) -> aeval rb est w (AUnary (UCast (ToQuantity t)) (sum_of q qs)) = Ok r ->
  within est at_ r (total (v :: vs)) m.
Proof.
  intros U w rb est at_ t m q qs v vs r HU G D Dt Rt St F H.
  assert (N : exists d v', near rb est w at_ (sum_of q qs) v' d /\ (v' == total (v :: vs))%Q /\ (d == 0)%Q /\ aall_dims (in_system U w) (sum_of q qs)).
  { clear H r. revert q v vs D F. induction qs as [|q' qs IH]; intros q v vs D F; inversion F as [|? ? ? ? V F']; subst; inversion D as [|? ? Dq D']; subst.
    - inversion F'; subst. exists 0%Q, v. split; [now constructor|]. cbn [total]. split; [ring|]. split; [reflexivity|exact Dq].
    - destruct vs as [|v' vs]; [inversion F'|]. destruct (IH q' v' vs D' F') as (d & x & N & E & Ed & A).
      exists (0 + d)%Q, (v + x)%Q. split; [cbn [sum_of]; apply nr_add; [now constructor|exact N]|].
      split; [rewrite E; reflexivity|]. split; [rewrite Ed; ring|]. cbn. auto. }
  destruct N as (d & v' & N & E & Ed & A).
  assert (Cn : counted_in rb est w (AUnary (UCast (ToQuantity t)) (sum_of q qs)) m).
  { split; intros x X; cbn [aeval] in X; step X as y Y; step X as q0 Q0; step X as s S; [|discriminate X].
    cbn [unary_quantity q_cast] in S. step S as n0 N0. inversion S; subst s. inversion X; subst x. auto. }
  destruct (C87_bound U w rb est at_ (AUnary (UCast (ToQuantity t)) (sum_of q qs)) v' (d + m) r HU G) as (x & X & B); [cbn; auto|now apply nr_cast|exact H|].
  exists x. split; [exact X|]. rewrite <- E. rewrite Ed in B. assert (Z : (0 + m == m)%Q) by ring. rewrite Z in B. exact B.
Qed.
Print Assumptions C87_cast_of_sum.

(** * Cases *)

(** Three times 900 m cast to kilometres are 0 km, the sum cast is 2 km; the exact sum is 2700 m.
    The bound of one unit fails for the sum of casts. *)
Definition stage : quantity := Quantity (lengths metre I64) (NInt 900).
Definition in_km : qtype := lengths kilometre I64.
Definition quantity_result (r : res avalue) : option (number * ratio) :=
  match r with Ok (VQuantity q) => Some (q_num q, u_ratio (q_unit (q_type q))) | _ => None end.

Example C87_ex : forall est, exists w, si_world = Ok w /\ symbols_identify si_base /\ good_system si_base w /\
  Forall (fun q => in_system si_base w (q_dim (q_type q))) [stage; stage; stage] /\ in_system si_base w (q_dim in_km) /\ sized est in_km 1000 /\
  Forall2 (valued est) [stage; stage; stage] [900; 900; 900]%Q /\
  quantity_result (aeval no_rebinding est w (sum_of_casts in_km stage [stage; stage])) = Some (NInt 0, u_ratio kilometre) /\
  quantity_result (aeval no_rebinding est w (AUnary (UCast (ToQuantity in_km)) (sum_of stage [stage; stage]))) = Some (NInt 2, u_ratio kilometre).
Proof.
  intros est. destruct si_world_reachable as (w & H & R). exists w. split; [exact H|]. split; [exact si_identify|]. split; [now apply si_good|].
  assert (L : in_system si_base w (DBase dim_L)) by (apply base_in_system; now left).
  split; [apply Forall_cons; [exact L|apply Forall_cons; [exact L|apply Forall_cons; [exact L|apply Forall_nil]]]|]. split; [exact L|].
  assert (K : known kilometre) by (right; now left). assert (M : known metre) by now left.
  split. { pose proof (known_sized est kilometre K) as S. destruct S as (S1 & S2 & S3 & S4). split; [exact S1|]. split; [exact S2|]. split; [exact S3|].
    eapply magnitude_ext; [|exact S4]. vm_compute. reflexivity. }
  assert (V : valued est stage 900) by (apply (long_value est (fun _ => 0%Q) metre 900); auto; vm_compute; reflexivity).
  split; [apply Forall2_cons; [exact V|apply Forall2_cons; [exact V|apply Forall2_cons; [exact V|apply Forall2_nil]]]|]. vm_compute in H. injection H as <-. split; vm_compute; reflexivity.
Qed.

Theorem C87_one_unit_refuted : ~ (forall est w t m q qs v vs r, si_world = Ok w -> q_rep t = RInt I64 -> sized est t m ->
  Forall2 (valued est) (q :: qs) (v :: vs) -> aeval no_rebinding est w (sum_of_casts t q qs) = Ok r -> within est map_of_places r (total (v :: vs)) m).
Proof.
  intros F. destruct (C87_ex no_estimate) as (w & H & _ & _ & _ & _ & S & V & E & _).
  destruct (aeval no_rebinding no_estimate w (sum_of_casts in_km stage [stage; stage])) as [r| | | |] eqn:A; try discriminate E.
  pose proof (F no_estimate w in_km 1000%Q stage [stage; stage] 900%Q [900; 900]%Q r H eq_refl S V A) as (x & X & B).
  destruct r as [s|]; [|discriminate E]. cbn [quantity_result] in E. injection E as En _. cbn in X. destruct X as (n & mm & (_ & N & _) & _ & Ex).
  rewrite En in N. injection N as <-. rewrite Ex in B. apply Qabs_Qle_condition in B. cbn [total] in B. destruct B as [B _].
  assert (Z : (inject_Z 0 * mm == 0)%Q) by (change (inject_Z 0) with 0%Q; ring). rewrite Z in B. lra.
Qed.
Print Assumptions C87_one_unit_refuted.

(** The mean of 3 m and 4 m, in metres, is 3 m: half a unit from 7/2. *)
Example C87_ex_mean : forall est, exists w m, si_world = Ok w /\
  near no_rebinding est w map_of_places (AUnary (UDivV (RInt I64) (NInt 2)) (ABinary BAdd (AQuantity (Quantity (lengths metre I64) (NInt 3))) (AQuantity (Quantity (lengths metre I64) (NInt 4)))))
    ((3 + 4) / inject_Z 2) ((0 + 0) / Qabs (inject_Z 2) + m) /\ (m == 1)%Q /\
  quantity_result (aeval no_rebinding est w (AUnary (UDivV (RInt I64) (NInt 2)) (ABinary BAdd (AQuantity (Quantity (lengths metre I64) (NInt 3))) (AQuantity (Quantity (lengths metre I64) (NInt 4)))))) =
    Some (NInt 3, one_r).
Proof.
  intros est. destruct si_world_reachable as (w & H & R). exists w, (rval (u_ratio metre)). split; [exact H|].
  assert (M : known metre) by now left.
  assert (V : forall n v, in_range I64 n = true -> (v == inject_Z n * rval (u_ratio metre))%Q -> valued est (Quantity (lengths metre I64) (NInt n)) v)
    by (intros n v Hn E; apply (long_value est (fun _ => 0%Q) metre n); auto).
  split; [|split; [vm_compute; reflexivity|vm_compute in H; injection H as <-; vm_compute; reflexivity]].
  apply nr_divv; [apply nr_add; apply nr_quantity; apply V; auto; vm_compute; reflexivity|reflexivity|discriminate|].
  vm_compute in H. injection H as <-. split; intros x X; vm_compute in X; [|discriminate X]. injection X as <-. split; [reflexivity|].
  apply base_sized; [vm_compute; intuition congruence|vm_compute; intuition congruence|reflexivity].
Qed.
