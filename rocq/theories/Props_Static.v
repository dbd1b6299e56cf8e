(** C84: whether an expression compiles, and its type, are decided before the program runs. *)

From Coq Require Import ZArith QArith String List Bool Lia.
From Verif Require Import Outcome CInt Root Ratio Unit Downcast Dim DimOp Equivalent Rep Reference QuantityCast CommonQuantity Quantity
  Point Affine Static SpecStatic StaticProofs Samples Props_Dim Props_Quantity Props_Expr Props_Affine.
Import ListNotations.
Local Open Scope string_scope.
Local Open Scope list_scope.
Local Open Scope Z_scope.
Local Open Scope res_scope.

(** * Types without numbers *)

(** Whatever the world, units and representations: if the compiler finds a type, then with any
    numbers in the objects the expression evaluates to an object of that type, or its
    arithmetic is undefined on these numbers.  It is never rejected half way, violates no
    contract and does not get stuck. *)
Theorem C84_sound : forall rb est w e t, type_of rb est w e = Ok t -> expr_sound e ->
  runs (fun v => vtype v = t /\ sound v) (aeval rb est w e).
Proof. intros rb est w e t H S. exact (type_sound rb est w e t S H). Qed.
Print Assumptions C84_sound.

(** The compiler accepts every expression that has a value. *)
Theorem C84_complete : forall rb est w e v, aeval rb est w e = Ok v -> type_of rb est w e = Ok (vtype v).
Proof. exact type_complete. Qed.
Print Assumptions C84_complete.

(** * The same text with other numbers *)

(** If an expression has a value for some numbers, then for all other numbers of the same types
    it has a value of the same type, or its arithmetic is undefined on these. *)
Theorem C84_numbers : forall rb est w e e' v, same_text e e' -> expr_sound e' -> aeval rb est w e = Ok v ->
  runs (fun v' => vtype v' = vtype v /\ sound v') (aeval rb est w e').
Proof.
  intros rb est w e e' v T S H. apply (type_sound rb est w e' (vtype v) S). rewrite <- (type_text rb est w e e' T). now apply type_complete.
Qed.
Print Assumptions C84_numbers.

(** Every text either runs for all numbers, with one type, or for none. *)
Theorem C84_decided : forall rb est w e,
  (exists t, forall e', same_text e e' -> expr_sound e' -> runs (fun v => vtype v = t /\ sound v) (aeval rb est w e')) \/
  (forall e' v, same_text e e' -> aeval rb est w e' <> Ok v).
Proof.
  intros rb est w e. destruct (type_of rb est w e) as [t| | | |] eqn:E.
  - left. exists t. intros e' T S. apply type_sound; [exact S|]. now rewrite <- (type_text rb est w e e' T).
  - right. intros e' v T H. apply type_complete in H. rewrite <- (type_text rb est w e e' T), E in H. discriminate H.
  - right. intros e' v T H. apply type_complete in H. rewrite <- (type_text rb est w e e' T), E in H. discriminate H.
  - right. intros e' v T H. apply type_complete in H. rewrite <- (type_text rb est w e e' T), E in H. discriminate H.
  - right. intros e' v T H. apply type_complete in H. rewrite <- (type_text rb est w e e' T), E in H. discriminate H.
Qed.
Print Assumptions C84_decided.

(** An expression rejected for some numbers has no value for any. *)
Theorem C84_rejected : forall rb est w e e' v, same_text e e' -> expr_sound e ->
  aeval rb est w e <> Undef -> (forall x, aeval rb est w e <> Ok x) -> aeval rb est w e' <> Ok v.
Proof.
  intros rb est w e e' v T S U N H. apply type_complete in H. rewrite <- (type_text rb est w e e' T) in H.
  destruct (type_sound rb est w e _ S H) as [(x & X & _)|X]; [exact (N x X)|exact (U X)].
Qed.
Print Assumptions C84_rejected.

(** * Comparisons *)

(** Comparing quantities, or points, is decided by the types too. *)
Theorem C84_comparison : forall est w a b a' b' c,
  q_type a' = q_type a -> q_type b' = q_type b -> sound (VQuantity a') -> sound (VQuantity b') ->
  q_compare est w a b = Ok c -> runs (fun _ => True) (q_compare est w a' b') /\ runs (fun _ => True) (q_eqb est w a' b').
Proof.
  intros est w a b a' b' c Ea Eb A B H. unfold q_compare in H. step H as p P. apply common_static in P. rewrite <- Ea, <- Eb in P.
  pose proof (common_runs est w a' b' A B P) as R. split; (eapply runs_bind; [exact R|]); intros x (r & X & Y); now apply (compare_total r).
Qed.
Print Assumptions C84_comparison.
Theorem C84_point_comparison : forall rb est w a b a' b' c,
  pt_type a' = pt_type a -> pt_type b' = pt_type b -> sound (VPoint a') -> sound (VPoint b') ->
  p_compare rb est w a b = Ok c -> runs (fun _ => True) (p_compare rb est w a' b') /\ runs (fun _ => True) (p_eqb rb est w a' b').
Proof.
  intros rb est w a b a' b' c Ea Eb A B H. unfold p_compare in H. step H as u O. unfold p_compare, p_eqb. rewrite Ea, Eb, O. cbn [bind].
  apply (C84_comparison est w (relative a) (relative b) (relative a') (relative b') c); auto; cbn [relative q_type]; now rewrite ?Ea, ?Eb.
Qed.
Print Assumptions C84_point_comparison.

(** * Cases *)

Definition metres (n : Z) : quantity := Quantity (QType (DBase dim_L) metre (RInt I64)) (NInt n).
Definition kilometres (n : Z) : quantity := Quantity (QType (DBase dim_L) kilometre (RInt I64)) (NInt n).
(** [(a + b) * c] *)
Definition sum_times (a b c : quantity) : aexpr := ABinary BMul (ABinary BAdd (AQuantity a) (AQuantity b)) (AQuantity c).

(** [(a km + b m) * (c m)]: one type for all numbers; 1 km, 2 m and 3 m give 3006, and 10^16 km
    overflow. *)
Example C84_ex : forall est, exists w t, si_world = Ok w /\
  same_text (sum_times (kilometres 1) (metres 2) (metres 3)) (sum_times (kilometres 10000000000000000) (metres 2) (metres 3)) /\
  expr_sound (sum_times (kilometres 10000000000000000) (metres 2) (metres 3)) /\
  aeval no_rebinding est w (sum_times (kilometres 1) (metres 2) (metres 3)) = Ok (VQuantity (Quantity t (NInt 3006))) /\
  type_of no_rebinding est w (sum_times (kilometres 1) (metres 2) (metres 3)) = Ok (TQuantity t) /\
  aeval no_rebinding est w (sum_times (kilometres 10000000000000000) (metres 2) (metres 3)) = Undef.
Proof.
  intros est. destruct si_world as [w| | | |] eqn:W; try (vm_compute in W; discriminate W). exists w.
  assert (T : same_text (sum_times (kilometres 1) (metres 2) (metres 3)) (sum_times (kilometres 10000000000000000) (metres 2) (metres 3)))
    by repeat constructor.
  vm_compute in W. injection W as <-.
  eexists. split; [reflexivity|]. split; [exact T|]. split; [vm_compute; auto|]. split; [vm_compute; reflexivity|]. split; vm_compute; reflexivity.
Qed.

(** Metres and seconds have no sum, whatever the numbers. *)
Example C84_ex_rejected : forall est, exists w, si_world = Ok w /\ forall a b v,
  aeval no_rebinding est w (ABinary BAdd (AQuantity (metres a)) (AQuantity (Quantity (QType (DBase dim_T) second (RInt I64)) (NInt b)))) <> Ok v.
Proof.
  intros est. destruct si_world as [w| | | |] eqn:W; try (vm_compute in W; discriminate W). exists w. split; [reflexivity|]. intros a b v.
  apply (C84_rejected no_rebinding est w (ABinary BAdd (AQuantity (metres 1)) (AQuantity (Quantity (QType (DBase dim_T) second (RInt I64)) (NInt 1))))).
  - repeat constructor.
  - now vm_compute.
  - vm_compute. discriminate.
  - intros x. vm_compute. discriminate.
Qed.
