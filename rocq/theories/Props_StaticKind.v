(** C98: whether an expression of kinds compiles, and its type, are decided before the program runs. *)

From Coq Require Import ZArith QArith String List Bool Lia.
From Verif Require Import Outcome CInt Root Ratio Unit Downcast Dim DimOp Equivalent Rep Reference QuantityCast CommonQuantity Quantity
  Point Affine Static SpecStatic StaticProofs Kind PointKind KindExpr StaticKind SpecStaticKind StaticKindProofs
  Samples Props_Dim Props_Quantity Props_Point Props_Expr Props_Affine Props_KindExpr.
Import ListNotations.
Local Open Scope string_scope.
Local Open Scope list_scope.
Local Open Scope Z_scope.
Local Open Scope res_scope.

(** * Types without numbers *)

(** Whatever the world, the declared kinds, units and representations: if the compiler finds a
    type, then with any numbers in the objects the expression evaluates to an object of that
    type, so of that kind or point kind, or its arithmetic is undefined on these numbers.  It
    is never rejected half way, violates no contract and does not get stuck. *)
Theorem C98_sound : forall rb est w g gp e t, ktype_of rb est w g gp e = Ok t -> kexpr_sound e ->
  runs (fun v => kvtype v = t /\ ksound v) (keval rb est w g gp e).
Proof. intros rb est w g gp e t H S. exact (ktype_sound rb est w g gp e t S H). Qed.
Print Assumptions C98_sound.

(** The compiler accepts every expression that has a value. *)
Theorem C98_complete : forall rb est w g gp e v, keval rb est w g gp e = Ok v -> ktype_of rb est w g gp e = Ok (kvtype v).
Proof. exact ktype_complete. Qed.
Print Assumptions C98_complete.

(** * The same text with other numbers *)

(** If an expression has a value for some numbers, then for all other numbers of the same types
    it has a value of the same type, or its arithmetic is undefined on these. *)
Theorem C98_numbers : forall rb est w g gp e e' v, ksame_text e e' -> kexpr_sound e' -> keval rb est w g gp e = Ok v ->
  runs (fun v' => kvtype v' = kvtype v /\ ksound v') (keval rb est w g gp e').
Proof.
  intros rb est w g gp e e' v T S H. apply (ktype_sound rb est w g gp e' (kvtype v) S). rewrite <- (ktype_text rb est w g gp e e' T).
  now apply ktype_complete.
Qed.
Print Assumptions C98_numbers.

(** Every text either runs for all numbers, with one type, or for none. *)
Theorem C98_decided : forall rb est w g gp e,
  (exists t, forall e', ksame_text e e' -> kexpr_sound e' -> runs (fun v => kvtype v = t /\ ksound v) (keval rb est w g gp e')) \/
  (forall e' v, ksame_text e e' -> keval rb est w g gp e' <> Ok v).
Proof.
  intros rb est w g gp e. destruct (ktype_of rb est w g gp e) as [t| | | |] eqn:E; [|right|right|right|right];
    try (intros e' v T H; apply ktype_complete in H; rewrite <- (ktype_text rb est w g gp e e' T), E in H; discriminate H).
  left. exists t. intros e' T S. apply ktype_sound; [exact S|]. now rewrite <- (ktype_text rb est w g gp e e' T).
Qed.
Print Assumptions C98_decided.

(** An expression rejected for some numbers has no value for any. *)
Theorem C98_rejected : forall rb est w g gp e e' v, ksame_text e e' -> kexpr_sound e ->
  keval rb est w g gp e <> Undef -> (forall x, keval rb est w g gp e <> Ok x) -> keval rb est w g gp e' <> Ok v.
Proof.
  intros rb est w g gp e e' v T S U N H. apply ktype_complete in H. rewrite <- (ktype_text rb est w g gp e e' T) in H.
  destruct (ktype_sound rb est w g gp e _ S H) as [(x & X & _)|X]; [exact (N x X)|exact (U X)].
Qed.
Print Assumptions C98_rejected.

(** * Comparisons *)

(** Whether two values compare is decided by their types, and [<=>] and [==] agree on it. *)
Theorem C98_comparison : forall rb est w x y x' y', kvtype x' = kvtype x -> kvtype y' = kvtype y -> ksound x' -> ksound y' ->
  (exists c, w_compare rb est w x y = Ok c) \/ (exists b, w_eqb rb est w x y = Ok b) ->
  runs (fun _ => True) (w_compare rb est w x' y') /\ runs (fun _ => True) (w_eqb rb est w x' y').
Proof.
  intros rb est w x y x' y' Ex Ey X Y H. apply w_compare_runs; [exact X|exact Y|]. rewrite Ex, Ey.
  destruct H as [[c H]|[b H]]; [now apply w_compare_static in H|now apply w_eqb_static in H].
Qed.
Print Assumptions C98_comparison.

(** * Cases *)

(** [(w + (a - b)) * l] for a width, two altitudes and a length: one type, a kind, for all
    numbers.  2 km, 500 m, 200 m and 3 m give 6900; 10^16 km overflow. *)
Definition strips (n a b l : Z) : kexpr :=
  KBinary BMul (KBinary BAdd (KKind (of_kind width kilometre n))
                             (KBinary BSub (KPoint (pk_at altitude_from_sea metre a)) (KPoint (pk_at altitude_from_sea metre b))))
               (KQuantity (Props_Point.len metre l)).
Example C98_ex : forall est, exists w t, si_world = Ok w /\
  ksame_text (strips 2 500 200 3) (strips 10000000000000000 500 200 3) /\
  kexpr_sound (strips 10000000000000000 500 200 3) /\
  keval no_rebinding est w some_kinds empty_registry (strips 2 500 200 3) = Ok (WKind (QKind t (NInt 6900))) /\
  ktype_of no_rebinding est w some_kinds empty_registry (strips 2 500 200 3) = Ok (TyKind t) /\
  keval no_rebinding est w some_kinds empty_registry (strips 10000000000000000 500 200 3) = Undef.
Proof.
  intros est. destruct si_world as [w| | | |] eqn:W; try (vm_compute in W; discriminate W). exists w.
  assert (T : ksame_text (strips 2 500 200 3) (strips 10000000000000000 500 200 3)) by repeat constructor.
  vm_compute in W. injection W as <-.
  eexists. split; [reflexivity|]. split; [exact T|]. split; [vm_compute; auto|]. split; [vm_compute; reflexivity|]. split; vm_compute; reflexivity.
Qed.

(** A width and a depth have no sum and no order, a width and a length have no sum, whatever
    the numbers. *)
Example C98_ex_rejected : forall est, exists w, si_world = Ok w /\ forall a b v c,
  keval no_rebinding est w some_kinds empty_registry (KBinary BAdd (KKind (of_kind width metre a)) (KKind (of_kind depth metre b))) <> Ok v /\
  keval no_rebinding est w some_kinds empty_registry (KBinary BAdd (KKind (of_kind width metre a)) (KQuantity (Props_Point.len metre b))) <> Ok v /\
  w_compare no_rebinding est w (WKind (of_kind width metre a)) (WKind (of_kind depth metre b)) <> Ok c.
Proof.
  intros est. destruct si_world as [w| | | |] eqn:W; try (vm_compute in W; discriminate W). exists w. split; [reflexivity|]. intros a b v c.
  split; [|split].
  - apply (C98_rejected no_rebinding est w some_kinds empty_registry (KBinary BAdd (KKind (of_kind width metre 1)) (KKind (of_kind depth metre 1)))).
    + repeat constructor.
    + now vm_compute.
    + vm_compute. discriminate.
    + intros x. vm_compute. discriminate.
  - cbn. discriminate.
  - intros H. destruct (C98_comparison no_rebinding est w (WKind (of_kind width metre a)) (WKind (of_kind depth metre b))
      (WKind (of_kind width metre 1)) (WKind (of_kind depth metre 1)) eq_refl eq_refl eq_refl eq_refl (or_introl (ex_intro _ c H))) as [[(x & X & _)|X] _];
      vm_compute in X; discriminate X.
Qed.

(** Widths, and altitudes, compare across units. *)
Example C98_ex_compare : forall est, exists w, si_world = Ok w /\
  w_compare no_rebinding est w (WKind (of_kind width kilometre 1)) (WKind (of_kind width metre 900)) = Ok (Some Gt) /\
  w_eqb no_rebinding est w (WPoint (pk_at altitude_from_sea kilometre 1)) (WPoint (pk_at altitude_from_sea metre 1000)) = Ok true.
Proof.
  intros est. destruct si_world as [w| | | |] eqn:W; try (vm_compute in W; discriminate W). exists w. split; [reflexivity|].
  vm_compute in W. injection W as <-. split; vm_compute; reflexivity.
Qed.
