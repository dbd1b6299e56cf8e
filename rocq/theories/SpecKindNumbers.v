(** Specification vocabulary for what is left of kinds when a program runs: the numbers of the
    objects and the operators in the text, as [SpecNumbers] has them for quantities and points. *)

From Coq Require Import ZArith List Bool.
From Verif Require Import Outcome CInt Dim Rep Reference QuantityCast Quantity Point Affine Static Program Kind PointKind KindExpr StaticKind KindProgram SpecNumbers.
Import ListNotations.
Local Open Scope res_scope.

Definition knumber (v : kvalue) : number := match v with WQuantity q => q_num q | WKind x => qk_num x | WPoint x => qpk_num x end.
Definition knumbers (m : kstore) : list number := map knumber m.
Definition of_ktyp (t : ktyp) (n : number) : kvalue :=
  match t with TyQuantity q => WQuantity (Quantity q n) | TyKind x => WKind (QKind x n) | TyPoint x => WPoint (QPKind x n) end.
Fixpoint of_ktyps (d : kdeclared) (l : list number) : kstore :=
  match d, l with t :: d, n :: l => of_ktyp t n :: of_ktyps d l | _, _ => [] end.
(** The outcome with the types put back. *)
Definition kinds_back (d : kdeclared) (r : res (list number)) : res kstore := l <- r; Ok (of_ktyps d l).

(** The operators in the text; [common()], [relative()] and the deduction of a point type
    compute nothing. *)
Fixpoint voperators (e : vexpr) : nat :=
  match e with
  | VVar _ | VConst _ => 0
  | VBinary _ a b => 1 + voperators a + voperators b
  | VUnary _ a | VMake _ a | VConvert _ a | VCast _ a | VPMake _ a | VPConvert _ a | VPCast _ a | VPCastTo _ a => 1 + voperators a
  | VCommon a | VPDeduce a | VRelative a => voperators a
  end.
Fixpoint voperators_cond (c : vcond) : nat :=
  match c with
  | VRel _ a b => 1 + voperators a + voperators b
  | VNot c => voperators_cond c
  | VAnd c d | VOr c d => voperators_cond c + voperators_cond d
  end.
Fixpoint voperators_stmt (s : vstmt) : nat :=
  match s with
  | VSkip => 0
  | VSeq a b => voperators_stmt a + voperators_stmt b
  | VAssign _ e => 1 + voperators e
  | VChange _ h => match h with VAdd e | VSub e | VRem e => 1 + voperators e | _ => 1 end
  | VIf c a b => voperators_cond c + voperators_stmt a + voperators_stmt b
  | VWhile c a => voperators_cond c + voperators_stmt a
  end.
