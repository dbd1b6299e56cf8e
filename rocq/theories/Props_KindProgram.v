(** C99: programs with variables of kinds and points of kinds. *)

From Coq Require Import ZArith QArith String List Bool Lia.
From Verif Require Import DimOpProofs DimOpProofs3 EquivProofs Expr SpecExpr SpecAffine KindExprProofs.
From Verif Require Import Outcome CInt Root Ratio SpecRatio Unit Downcast Dim DimOp Equivalent SpecDim SpecUnit MagnitudeProofs Rep Reference QuantityCast CommonQuantity
  Quantity SpecQuantity Point Affine AffineProofs Static SpecStatic StaticProofs Program SpecProgram ProgramProofs Kind PointKind SpecPoint KindExpr SpecKindExpr
  StaticKind SpecStaticKind StaticKindProofs KindProgram SpecKindProgram KindProgramProofs KindEraseProofs KindStripProofs QuantityProofs2 CatalogueProofs
  Samples Props_Dim Props_Quantity Props_Point Props_Expr Props_Affine Props_KindExpr.
Import ListNotations.
Local Open Scope string_scope.
Local Open Scope list_scope.
Local Open Scope Z_scope.
Local Open Scope res_scope.

(** * A program that compiles keeps its kinds *)

(** Whatever the kinds, units, representations and numbers, and however long it runs: every
    variable keeps the type, so the kind, it was declared with; no operation is rejected,
    violates a contract or gets stuck. *)
Theorem C99_safe : forall rb est w g gp d s m n, vcompiles rb est w g gp d s = Ok tt -> kwell_typed d m -> vstmt_sound s ->
  goes (kwell_typed d) (vrun rb est w g gp n s m).
Proof. intros rb est w g gp d s m n H W S. exact (vrun_goes rb est w g gp n s d m W S H). Qed.
Print Assumptions C99_safe.

(** The compiler rejects no program that runs: what is executed without branches compiles. *)
Theorem C99_accepted : forall rb est w g gp d s m m' n, vstraight s -> kwell_typed d m -> vstmt_sound s -> vrun rb est w g gp n s m = Ok m' ->
  vcompiles rb est w g gp d s = Ok tt.
Proof. intros rb est w g gp d s m m' n St W S H. exact (vstraight_compiles rb est w g gp n s d m m' St W S H). Qed.
Print Assumptions C99_accepted.

(** The outcome does not depend on the number of steps allowed. *)
Theorem C99_steps : forall rb est w g gp s m n k r, vrun rb est w g gp n s m = r -> r <> Stuck -> vrun rb est w g gp (k + n) s m = r.
Proof. intros rb est w g gp s m n k r H N. induction k as [|k IH]; [exact H|]. now apply vrun_more. Qed.
Print Assumptions C99_steps.

(** * One kind *)

(** In a program that compiles, an assignment, [+=], [-=], [%=] and a comparison bring together
    only things of one base kind, or two quantities. *)
Theorem C99_one_kind : forall rb est w g gp d,
  (forall x e, vcompiles rb est w g gp d (VAssign x e) = Ok tt ->
     exists t t', nth_error d x = Some t /\ vtype_of rb est w g gp d e = Ok t' /\ typ_base t' = typ_base t) /\
  (forall x e h, In h [VAdd e; VSub e; VRem e] -> vcompiles rb est w g gp d (VChange x h) = Ok tt ->
     exists t t', nth_error d x = Some t /\ vtype_of rb est w g gp d e = Ok t' /\ typ_base t' = typ_base t) /\
  (forall o a b, vcompiles_cond rb est w g gp d (VRel o a b) = Ok tt ->
     exists t t', vtype_of rb est w g gp d a = Ok t /\ vtype_of rb est w g gp d b = Ok t' /\ typ_base t' = typ_base t).
Proof.
  intros rb est w g gp d. split; [|split].
  - intros x e H. cbn [vcompiles] in H. step H as t T. step H as t' T'. exists t, t'. unfold kdeclared_type in T.
    destruct (nth_error d x); [|discriminate]. inversion T. split; [reflexivity|]. split; [exact T'|]. now apply (assigned_base rb est).
  - intros x e h I H. cbn [vcompiles] in H. step H as t T. step H as o O. unfold kdeclared_type in T.
    destruct (nth_error d x) as [t0|]; [|discriminate]. inversion T. subst t0.
    assert (E : exists t', vtype_of rb est w g gp d e = Ok t' /\ o = Some t' /\ match h with VAdd _ | VSub _ | VRem _ => True | _ => False end).
    { destruct I as [<-|[<-|[<-|[]]]]; cbn [t_operand] in O; step O as t' T'; inversion O; exists t'; auto. }
    destruct E as (t' & T' & -> & K). exists t, t'. split; [reflexivity|]. split; [exact T'|]. exact (changed_base est t h t' H K).
  - intros o a b H. cbn [vcompiles_cond] in H. step H as t T. step H as t' T'. exists t, t'. split; [exact T|]. split; [exact T'|].
    symmetry. exact (compared_base rb est w t t' H).
Qed.
Print Assumptions C99_one_kind.

(** * Kinds cost nothing *)

(** The program without the kinds, on the quantities under the variables, has step by step the
    same outcome: it ends with the same numbers in the same units, its arithmetic is undefined
    where that of the program is, and it is still running when the program is. *)
Theorem C99_erased : forall U rb est w g gp d s m n, symbols_identify U -> reachable w -> kinds_declared g -> pkinds_declared gp ->
  Forall (legal_typ (of_system U w)) d -> vlegal_stmt (of_system U w) s ->
  vcompiles rb est w g gp d s = Ok tt -> kwell_typed d m -> vstmt_sound s ->
  run rb est w n (strip_stmt (map is_quantity d) s) (bare m) = without_kinds (vrun rb est w g gp n s m).
Proof.
  intros U rb est w g gp d s m n HU R G GP D L H W S. exact (erased U rb est w g gp HU (reachable_consistent w R) G GP n s d m D W S L H).
Qed.
Print Assumptions C99_erased.

(** The program without the kinds compiles too, and the types of its expressions are the quantity
    types under those of the program: kinds only reject programs. *)
Theorem C99_compiles : forall U rb est w g gp d, symbols_identify U -> reachable w -> kinds_declared g -> pkinds_declared gp ->
  Forall (legal_typ (of_system U w)) d ->
  (forall s, vlegal_stmt (of_system U w) s -> vcompiles rb est w g gp d s = Ok tt ->
     compiles rb est w (bare_types d) (strip_stmt (map is_quantity d) s) = Ok tt) /\
  (forall e t, vlegal (of_system U w) e -> vtype_of rb est w g gp d e = Ok t ->
     ptype_of rb est w (bare_types d) (SpecKindProgram.strip (map is_quantity d) e) = Ok (TQuantity (under_type t))).
Proof.
  intros U rb est w g gp d HU R G GP D. split.
  - intros s L H. exact (strip_compiles U rb est w g gp HU (reachable_consistent w R) G GP s d D L H).
  - intros e t L H. exact (proj1 (strip_type U rb est w g gp HU (reachable_consistent w R) G GP d e t D L H)).
Qed.
Print Assumptions C99_compiles.

(** So which derived kinds and point kinds have been declared, and under which names, changes no
    number. *)
Theorem C99_declarations : forall U rb est w g gp g' gp' d s m n, symbols_identify U -> reachable w ->
  kinds_declared g -> pkinds_declared gp -> kinds_declared g' -> pkinds_declared gp' ->
  Forall (legal_typ (of_system U w)) d -> vlegal_stmt (of_system U w) s ->
  vcompiles rb est w g gp d s = Ok tt -> vcompiles rb est w g' gp' d s = Ok tt -> kwell_typed d m -> vstmt_sound s ->
  without_kinds (vrun rb est w g gp n s m) = without_kinds (vrun rb est w g' gp' n s m).
Proof.
  intros U rb est w g gp g' gp' d s m n HU R G GP G' GP' D L H H' W S.
  rewrite <- (C99_erased U rb est w g gp d s m n HU R G GP D L H W S). exact (C99_erased U rb est w g' gp' d s m n HU R G' GP' D L H' W S).
Qed.
Print Assumptions C99_declarations.

(** * Cases *)

(** [while (x < 3 km wide) { x += 1 km wide; a += +x; } l = x.common();] for a width [x] and an
    altitude [a] in metres and a length [l] in metres. *)
Definition climb : vstmt :=
  VSeq (VWhile (VRel RLt (VVar 0) (VConst (WKind (of_kind width kilometre 3))))
         (VSeq (VChange 0 (VAdd (VConst (WKind (of_kind width kilometre 1))))) (VChange 1 (VAdd (VUnary UPos (VVar 0))))))
       (VAssign 2 (VCommon (VVar 0))).
Definition climb_types : kdeclared :=
  [TyKind (KType width metre (RInt I64)); TyPoint (PKType altitude_from_sea metre (RInt I64)); TyQuantity (QType (DBase dim_L) metre (RInt I64))].
Definition climb_at (x a l : Z) : kstore :=
  [WKind (of_kind width metre x); WPoint (pk_at altitude_from_sea metre a); WQuantity (Props_Point.len metre l)].
Example C99_ex : forall est, exists w, si_world = Ok w /\ symbols_identify si_base /\ reachable w /\ kinds_declared some_kinds /\
  Forall (legal_typ (of_system si_base w)) climb_types /\ vlegal_stmt (of_system si_base w) climb /\
  vcompiles no_rebinding est w some_kinds empty_registry climb_types climb = Ok tt /\ kwell_typed climb_types (climb_at 500 100 0) /\ vstmt_sound climb /\
  vrun no_rebinding est w some_kinds empty_registry 9 climb (climb_at 500 100 0) = Ok (climb_at 3500 7600 3500) /\
  vrun no_rebinding est w some_kinds empty_registry 9 climb (climb_at 500 9223372036854775807 0) = Undef /\
  run no_rebinding est w 9 (strip_stmt [false; false; true] climb)
    [VQuantity (Props_Point.len metre 500); VQuantity (Props_Point.len metre 100); VQuantity (Props_Point.len metre 0)] =
    Ok [VQuantity (Props_Point.len metre 3500); VQuantity (Props_Point.len metre 7600); VQuantity (Props_Point.len metre 3500)].
Proof.
  intros est. destruct si_world_reachable as (w & H & R). exists w. split; [exact H|]. split; [exact si_identify|]. split; [exact R|].
  split; [exact (proj1 C52_ex_hypotheses)|].
  assert (L : of_system si_base w (DBase dim_L)).
  { assert (L : in_system si_base w (DBase dim_L)) by (apply base_in_system; now left). destruct L as (N & K & _). now split. }
  split. { constructor; [split; [exact L|reflexivity]|]. constructor; [split; [split; [exact L|reflexivity]|reflexivity]|].
    constructor; [split; [exact L|reflexivity]|constructor]. }
  split. { cbn [climb vlegal_stmt vlegal_cond vlegal legal_typ kvtype]. repeat (exact L || exact I || reflexivity || split). }
  clear R L. vm_compute in H. injection H as <-.
  split; [vm_compute; reflexivity|]. split; [repeat constructor|]. split; [vm_compute; auto|]. split; [vm_compute; reflexivity|].
  split; vm_compute; reflexivity.
Qed.

(** [x += 1 m deep], [x < 1 m deep] and [x = l] are rejected, [l += x] too; [l += x.common()] is
    accepted. *)
Example C99_ex_rejected : forall est, exists w, si_world = Ok w /\
  let ok s := vcompiles no_rebinding est w some_kinds empty_registry climb_types s = Ok tt in
  ~ ok (VChange 0 (VAdd (VConst (WKind (of_kind depth metre 1))))) /\
  ~ ok (VWhile (VRel RLt (VVar 0) (VConst (WKind (of_kind depth metre 1)))) VSkip) /\
  ~ ok (VAssign 0 (VVar 2)) /\ ~ ok (VChange 2 (VAdd (VVar 0))) /\ ok (VChange 2 (VAdd (VCommon (VVar 0)))).
Proof.
  intros est. destruct si_world as [w| | | |] eqn:W; try (vm_compute in W; discriminate W). exists w. split; [reflexivity|]. cbv zeta.
  vm_compute in W. injection W as <-. repeat split; try (intros H; vm_compute in H; discriminate H).
Qed.

(** Adding a depth to a width is a mistake that the program without the kinds does not show. *)
Example C99_ex_caught : forall est, exists w, si_world = Ok w /\
  let s := VChange 0 (VAdd (VConst (WKind (of_kind depth metre 1)))) in
  vcompiles no_rebinding est w some_kinds empty_registry climb_types s = IllFormed /\
  compiles no_rebinding est w (bare_types climb_types) (strip_stmt [false; false; true] s) = Ok tt /\
  vrun no_rebinding est w some_kinds empty_registry 1 s (climb_at 500 100 0) = IllFormed /\
  exists m, run no_rebinding est w 1 (strip_stmt [false; false; true] s) (bare (climb_at 500 100 0)) = Ok m.
Proof.
  intros est. destruct si_world as [w| | | |] eqn:W; try (vm_compute in W; discriminate W). exists w. split; [reflexivity|]. cbv zeta.
  vm_compute in W. injection W as <-. repeat (split; [vm_compute; reflexivity|]). eexists. vm_compute. reflexivity.
Qed.

(** Another kind declared, and what is derived from width for durations: the same numbers. *)
Definition more_kinds : kinds :=
  match declare_derived_kind Automatic "delay" (DBase dim_T) width some_kinds with Ok g => g | _ => empty_registry end.
Example C99_ex_declarations : more_kinds <> some_kinds /\ kinds_declared more_kinds /\
  forall est, exists w, si_world = Ok w /\ vcompiles no_rebinding est w more_kinds empty_registry climb_types climb = Ok tt.
Proof.
  split; [vm_compute; discriminate|]. split.
  { apply kinds_derived with Automatic "delay" (DBase dim_T) width some_kinds; [exact (proj1 C52_ex_hypotheses)|reflexivity]. }
  intros est. destruct si_world as [w| | | |] eqn:W; try (vm_compute in W; discriminate W). exists w. split; [reflexivity|].
  vm_compute in W. injection W as <-. vm_compute. reflexivity.
Qed.
