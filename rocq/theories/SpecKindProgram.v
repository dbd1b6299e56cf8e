(** Specification vocabulary for programs of kinds: the program that is left when the kinds are
    taken away. *)

From Coq Require Import ZArith List Bool String.
From Verif Require Import Outcome CInt Dim Rep Reference QuantityCast Quantity Point Affine Static SpecStatic Program SpecProgram
  Kind PointKind KindExpr SpecKindExpr StaticKind SpecStaticKind KindProgram.
Import ListNotations.

(** Every variable holds an object of the type it was declared with. *)
Definition kwell_typed (d : kdeclared) (m : kstore) : Prop := Forall2 (fun t v => kvtype v = t /\ ksound v) d m.

(** The literals of the program are values of their types. *)
Fixpoint vexpr_sound (e : vexpr) : Prop :=
  match e with
  | VVar _ => True
  | VConst v => ksound v
  | VUnary o a => unary_sound o /\ vexpr_sound a
  | VBinary _ a b => vexpr_sound a /\ vexpr_sound b
  | VMake _ a | VConvert _ a | VCommon a | VCast _ a | VPMake _ a | VPDeduce a | VPConvert _ a | VRelative a | VPCast _ a | VPCastTo _ a => vexpr_sound a
  end.
Fixpoint vcond_sound (c : vcond) : Prop :=
  match c with
  | VRel _ a b => vexpr_sound a /\ vexpr_sound b
  | VNot c => vcond_sound c
  | VAnd c d | VOr c d => vcond_sound c /\ vcond_sound d
  end.
Definition vchange_sound (h : vchange) : Prop :=
  match h with
  | VInc | VDec => True
  | VAdd e | VSub e | VRem e => vexpr_sound e
  | VMulV r v | VDivV r v | VRemV r v => num_ok r v = true
  end.
Fixpoint vstmt_sound (s : vstmt) : Prop :=
  match s with
  | VSkip => True
  | VSeq a b => vstmt_sound a /\ vstmt_sound b
  | VAssign _ e => vexpr_sound e
  | VChange _ h => vchange_sound h
  | VIf c a b => vcond_sound c /\ vstmt_sound a /\ vstmt_sound b
  | VWhile c a => vcond_sound c /\ vstmt_sound a
  end.

(** ** Without the kinds *)

(** A variable of a kind becomes one of the quantity under it, a point of a kind its distance
    from the origin. *)
Definition bare (m : kstore) : store := map (fun v => VQuantity (under v)) m.

(** Whether an expression is a quantity already; [qs] says it of the variables. *)
Definition is_quantity (t : ktyp) : bool := match t with TyQuantity _ => true | _ => false end.
Fixpoint plain_quantity (qs : list bool) (e : vexpr) : bool :=
  match e with
  | VVar x => nth x qs false
  | VConst (WQuantity _) | VCommon _ => true
  | VUnary _ a => plain_quantity qs a
  | VBinary _ a b => plain_quantity qs a && plain_quantity qs b
  | _ => false
  end.
(** The expression without the kinds: constructions and conversions become conversions of
    quantities, casts become casts of quantities, [common()], [relative()], deduction of the
    point type and the cast to another kind disappear.  The unary [+] of kinds, unlike that of
    quantities, returns its operand (quantity_kind.h:140-144) and disappears too. *)
Definition strip_cast (c : kcastspec) (x : pexpr) : pexpr :=
  match c with
  | KToType t => EUnary (UCast (ToQuantity (kt_qtype t))) x
  | KToKind _ => x
  | KTo c => EUnary (UCast c) x
  end.
Fixpoint strip (qs : list bool) (e : vexpr) : pexpr :=
  match e with
  | VVar x => EVar x
  | VConst v => EConst (VQuantity (under v))
  | VUnary o a => match o with UPos => if plain_quantity qs a then EUnary UPos (strip qs a) else strip qs a | _ => EUnary o (strip qs a) end
  | VBinary o a b => EBinary o (strip qs a) (strip qs b)
  | VMake t a | VConvert t a => EUnary (UConv (kt_qtype t)) (strip qs a)
  | VPMake t a | VPConvert t a => EUnary (UConv (kt_qtype (pkt_ktype t))) (strip qs a)
  | VCast c a | VPCast c a => strip_cast c (strip qs a)
  | VPCastTo t a => EUnary (UCast (ToQuantity (kt_qtype (pkt_ktype t)))) (strip qs a)
  | VCommon a | VPDeduce a | VRelative a => strip qs a
  end.
Fixpoint strip_cond (qs : list bool) (c : vcond) : pcond :=
  match c with
  | VRel o a b => CRel o (strip qs a) (strip qs b)
  | VNot c => CNot (strip_cond qs c)
  | VAnd c d => CAnd (strip_cond qs c) (strip_cond qs d)
  | VOr c d => COr (strip_cond qs c) (strip_cond qs d)
  end.
Definition strip_change (qs : list bool) (h : vchange) : change :=
  match h with
  | VInc => HInc | VDec => HDec
  | VAdd e => HAdd (strip qs e) | VSub e => HSub (strip qs e) | VRem e => HRem (strip qs e)
  | VMulV r v => HMulV r v | VDivV r v => HDivV r v | VRemV r v => HRemV r v
  end.
Fixpoint strip_stmt (qs : list bool) (s : vstmt) : pstmt :=
  match s with
  | VSkip => SSkip
  | VSeq a b => SSeq (strip_stmt qs a) (strip_stmt qs b)
  | VAssign x e => SAssign x (strip qs e)
  | VChange x h => SChange x (strip_change qs h)
  | VIf c a b => SIf (strip_cond qs c) (strip_stmt qs a) (strip_stmt qs b)
  | VWhile c a => SWhile (strip_cond qs c) (strip_stmt qs a)
  end.

(** The same outcome, apart from the kinds. *)
Definition without_kinds (r : res kstore) : res store :=
  match r with Ok m => Ok (bare m) | Contract => Contract | Undef => Undef | IllFormed => IllFormed | Stuck => Stuck end.

(** The types of the variables without the kinds. *)
Definition under_type (t : ktyp) : qtype :=
  match t with TyQuantity q => q | TyKind x => kt_qtype x | TyPoint x => kt_qtype (pkt_ktype x) end.
Definition bare_types (d : kdeclared) : declared := map (fun t => TQuantity (under_type t)) d.

(** The types written in the program exist and their dimensions satisfy [P]. *)
Definition legal_typ (P : dimension -> Prop) (t : ktyp) : Prop :=
  match t with TyQuantity q => legal_qtype P q | TyKind x => legal_ktype P x | TyPoint x => legal_pktype P x end.
Definition legal_kcast (P : dimension -> Prop) (c : kcastspec) : Prop :=
  match c with KToType t => legal_ktype P t | KToKind k => P (k_dim k) | KTo c => legal_cast P c end.
Fixpoint vlegal (P : dimension -> Prop) (e : vexpr) : Prop :=
  match e with
  | VVar _ => True
  | VConst v => legal_typ P (kvtype v)
  | VUnary o a => match o with UConv t => legal_qtype P t | UCast c => legal_cast P c | _ => True end /\ vlegal P a
  | VBinary _ a b => vlegal P a /\ vlegal P b
  | VMake t a | VConvert t a => legal_ktype P t /\ vlegal P a
  | VPMake t a | VPConvert t a | VPCastTo t a => legal_pktype P t /\ vlegal P a
  | VCast c a | VPCast c a => legal_kcast P c /\ vlegal P a
  | VCommon a | VPDeduce a | VRelative a => vlegal P a
  end.
Fixpoint vlegal_cond (P : dimension -> Prop) (c : vcond) : Prop :=
  match c with
  | VRel _ a b => vlegal P a /\ vlegal P b
  | VNot c => vlegal_cond P c
  | VAnd c d | VOr c d => vlegal_cond P c /\ vlegal_cond P d
  end.
Fixpoint vlegal_stmt (P : dimension -> Prop) (s : vstmt) : Prop :=
  match s with
  | VSkip => True
  | VSeq a b => vlegal_stmt P a /\ vlegal_stmt P b
  | VAssign _ e => vlegal P e
  | VChange _ h => match h with VAdd e | VSub e | VRem e => vlegal P e | _ => True end
  | VIf c a b => vlegal_cond P c /\ vlegal_stmt P a /\ vlegal_stmt P b
  | VWhile c a => vlegal_cond P c /\ vlegal_stmt P a
  end.

(** ** One kind *)

(** The base kind of a type, none for quantities. *)
Definition typ_base (t : ktyp) : option bkind :=
  match t with TyQuantity _ => None | TyKind x => Some (k_base (kt_kind x)) | TyPoint x => Some (k_base (pk_base (pkt_kind x))) end.

(** A program without branches: all of it is executed. *)
Fixpoint vstraight (s : vstmt) : Prop :=
  match s with
  | VSkip | VAssign _ _ | VChange _ _ => True
  | VSeq a b => vstraight a /\ vstraight b
  | VIf _ _ _ | VWhile _ _ => False
  end.
