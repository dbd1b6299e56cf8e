(** The law of quotient and remainder (C31) as it is written in the code, across units. *)

From Coq Require Import ZArith QArith Qabs String List Bool Lia Lqa.
From Verif Require Import Outcome CInt Ratio SpecRatio Root Unit Downcast Dim DimOp Equivalent SpecDim SpecUnit
  DimProofs DimOpProofs MagnitudeProofs Rep IntProofs Reference QuantityCast CommonQuantity Quantity
  SpecQuantity CastProofs QuantityProofs QuantityProofs2 QuantityProofs3 QuantityProofs4 QuantityProofs5 Expr SpecExpr ExprProofs ExprProofs2
  WorldProofs Samples Props_Dim Props_Quantity Props_Expr.
Import ListNotations.
Local Open Scope Z_scope.
Local Open Scope res_scope.

(** [quotient * q2 + remainder], test/unit_test/static/quantity_test.cpp:803-809. *)
Definition recompose (est : estimate) (w : world) (a b : quantity) : res quantity :=
  quotient <- q_over w a b;
  remainder <- q_rem a b;
  p <- q_times w quotient b;
  q_add est w p remainder.
Definition recompose_number (est : estimate) (w : world) (a : quantity) (r : rep) (n : number) : res quantity :=
  quotient <- q_div_value a r n;
  remainder <- q_rem_value a r n;
  p <- q_mul_value quotient r n;
  q_add est w p remainder.

Lemma common_of_same : forall m m', common_magnitude m m m' -> (0 < m)%Q -> (m' == m)%Q.
Proof.
  intros m m' H P. eapply common_magnitude_unique; [exact H|]. split; [exact P|]. split; [|split].
  - exists 1. ring.
  - exists 1. ring.
  - auto.
Qed.

Lemma sum_of_parts : forall est w p r z1 z2 m s, consistent w -> integral p I64 z1 -> integral r I64 z2 ->
  sized est (q_type p) m -> sized est (q_type r) m -> q_dim (q_type p) = q_dim (q_type r) -> q_add est w p r = Ok s ->
  integral s I64 (z1 + z2) /\ sized est (q_type s) m /\ q_dim (q_type s) = q_dim (q_type r).
Proof.
  intros est w p r z1 z2 m s C Ip Ir Sp Sr D H.
  destruct (add64 OpAdd est w p r z1 z2 m m s (or_introl eq_refl) C Ip Ir Sp Sr D H) as (m' & z & S & M & I & Ds & V).
  pose proof (sized_pos _ _ _ Sp) as P. pose proof (common_of_same _ _ M P) as E.
  assert (Z : z = z1 + z2).
  { cbn [exact_sum] in V. rewrite E in V. assert (K : (inject_Z z == inject_Z (z1 + z2))%Q).
    { rewrite inject_Z_plus. apply (Qmult_inj_r _ _ m); [lra|]. rewrite V. ring. }
    unfold inject_Z, Qeq in K. cbn in K. lia. }
  subst z. split; [exact I|]. split; [|now rewrite Ds, D].
  destruct S as (S1 & S2 & S3 & S4). split; [exact S1|]. split; [exact S2|]. split; [exact S3|].
  eapply magnitude_ext; [|exact S4]. now rewrite E.
Qed.

(** [(a / b) * b + a % b] gives [a] back: the same number in a unit of the same size and the
    same dimension.  The units of [a] and [b] need not be the same, and [b] may be a quantity
    without dimension in any unit. *)
Theorem C31_recovered : forall U w est a b na nb ma mb s, symbols_identify U -> good_system U w ->
  in_system U w (q_dim (q_type a)) -> in_system U w (q_dim (q_type b)) ->
  integral a I64 na -> integral b I64 nb -> sized est (q_type a) ma -> sized est (q_type b) mb ->
  recompose est w a b = Ok s ->
  integral s I64 na /\ sized est (q_type s) ma /\ q_dim (q_type s) = q_dim (q_type a).
Proof.
  intros U w est a b na nb ma mb s HU G Da Db Ia Ib Sa Sb H. pose proof (proj1 G) as C. unfold recompose in H.
  step H as k K. step H as r R. step H as p P.
  pose proof (divide_in_system U w HU G _ _ _ Da Db (over_dim _ _ _ _ K)) as Dk.
  destruct (q_over_values est w a b I64 I64 na nb ma mb C Ia Ib Sa Sb (or_introl eq_refl) k K (system_unit_good U w G _ Dk) (or_introl eq_refl))
    as (NZ & Ik & Gk & Mk & _).
  assert (Sk : sized est (q_type k) (ma / mb)).
  { split; [exact Gk|]. split; [exact (over_unit_of w _ _ _ K)|]. split; [now apply (system_roots U w)|exact Mk]. }
  pose proof (multiply_in_system U w HU G _ _ _ Dk Db (times_dim _ _ _ _ P)) as Dp.
  destruct (q_times_values est w k b I64 I64 _ nb _ mb C Ik Ib Sk Sb (or_introl eq_refl) p P (system_unit_good U w G _ Dp) (or_introl eq_refl))
    as (Ip & Gp & Mp & _).
  pose proof (sized_pos _ _ _ Sb) as Pb.
  assert (Sp : sized est (q_type p) ma).
  { split; [exact Gp|]. split; [exact (times_unit_of w _ _ _ P)|]. split; [now apply (system_roots U w)|].
    eapply magnitude_ext; [|exact Mp]. field. lra. }
  destruct (q_rem_values _ _ _ _ _ _ _ Ia Ib (or_introl eq_refl) R) as (_ & Ir & Dr & Ur).
  assert (Sr : sized est (q_type r) ma).
  { destruct r as [[d u rr] x0]. cbn [q_type q_dim q_unit] in *. subst d u. exact (sized_rep _ _ _ rr Sa). }
  pose proof (addsub_dims _ _ _ _ _ _ H) as [E1 _]. apply equivalent_exps in E1.
  assert (Dr' : in_system U w (q_dim (q_type r))) by now rewrite Dr.
  pose proof (same_dimension U w HU _ _ Dr' Dp E1) as E.
  destruct (sum_of_parts est w p r _ _ ma s C Ip Ir Sp Sr (eq_sym E) H) as (Is & Ss & Ds).
  rewrite Z.mul_comm, <- Z.quot_rem' in Is. split; [exact Is|]. split; [exact Ss|]. now rewrite Ds, Dr.
Qed.
Print Assumptions C31_recovered.

(** And by a number. *)
Theorem C31_recovered_number : forall w est a i z na ma s, consistent w ->
  integral a I64 na -> sized est (q_type a) ma -> i <> U64 -> in_range i z = true ->
  recompose_number est w a (RInt i) (NInt z) = Ok s ->
  integral s I64 na /\ sized est (q_type s) ma /\ q_dim (q_type s) = q_dim (q_type a).
Proof.
  intros w est a i z na ma s C Ia Sa Ni Rz H. unfold recompose_number in H. step H as k K. step H as r R. step H as p P.
  assert (SG : isigned (arith_conv I64 i) = true) by (now rewrite conv64).
  destruct (q_scale_values OpDiv false a i z I64 na k Rz Ia (or_introl SG) (or_introl SG) K) as (Ik & Dk & Uk & Z0).
  rewrite conv64 in Ik by auto.
  destruct (q_scale_values OpMul false k i z I64 _ p Rz Ik (or_introl SG) (or_introl SG) P) as (Ip & Dp & Up & _).
  rewrite conv64 in Ip by auto.
  unfold q_rem_value in R. step R as c0 C0.
  destruct (q_scale_values OpRem false a i z I64 na r Rz Ia (or_introl SG) (or_introl SG) R) as (Ir & Dr & Ur & _).
  rewrite conv64 in Ir by auto. cbn [exact_op] in *.
  assert (Sp : sized est (q_type p) ma).
  { destruct p as [[d u rr] x0]. cbn [q_type q_dim q_unit] in *. rewrite Dk in Dp. rewrite Uk in Up. subst d u. exact (sized_rep _ _ _ rr Sa). }
  assert (Sr : sized est (q_type r) ma).
  { destruct r as [[d u rr] x0]. cbn [q_type q_dim q_unit] in *. subst d u. exact (sized_rep _ _ _ rr Sa). }
  destruct (sum_of_parts est w p r _ _ ma s C Ip Ir Sp Sr) as (Is & Ss & Ds); [congruence|exact H|].
  rewrite Z.mul_comm, <- Z.quot_rem' in Is. split; [exact Is|]. split; [exact Ss|]. congruence.
Qed.
Print Assumptions C31_recovered_number.

(** 3 km / 400 m is 0 in the unit km/m and 3 km % 400 m is 3 km; -3000 m / 2 km is -1500 in the
    unit m/km and -3000 m % 2 km is 0 m; 3000 m / 400 is 7 m and 3000 m % 400 is 200 m.  (The
    kilometre is not declared in this system: the sum has the unnamed unit of 1000 m.) *)
Definition dist (u : cunit) (z : Z) : quantity := Quantity (lengths u I64) (NInt z).
Definition number_and_ratio (r : res quantity) : option (number * ratio) :=
  match r with Ok q => Some (q_num q, u_ratio (q_unit (q_type q))) | _ => None end.
Example C31_recovered_ex : forall est, exists w, si_world = Ok w /\ symbols_identify si_base /\ good_system si_base w /\
  in_system si_base w (DBase dim_L) /\
  number_and_ratio (recompose est w (dist kilometre 3) (dist metre 400)) = Some (NInt 3, Ratio 1 1 3) /\
  number_and_ratio (recompose est w (dist kilometre 7) (dist metre 2)) = Some (NInt 7, Ratio 1 1 3) /\
  number_and_ratio (recompose est w (dist metre (-3000)) (dist kilometre 2)) = Some (NInt (-3000), one_r) /\
  recompose_number est w (dist metre 3000) (RInt I32) (NInt 400) = Ok (dist metre 3000).
Proof.
  intros est. destruct si_world_reachable as (w & H & R). exists w. split; [exact H|]. split; [exact si_identify|].
  split; [now apply si_good|]. split; [apply base_in_system; now left|]. vm_compute in H. injection H as <-.
  repeat split; vm_compute; reflexivity.
Qed.
