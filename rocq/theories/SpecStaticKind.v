(** Specification vocabulary for what is decided of expressions of kinds before the program
    runs, on top of SpecStatic.v. *)

From Coq Require Import ZArith List Bool.
From Verif Require Import Outcome CInt Rep Reference QuantityCast Quantity Point Affine Static SpecStatic Kind PointKind KindExpr StaticKind.

(** ** Objects *)

Definition kvtype (v : kvalue) : ktyp :=
  match v with WQuantity q => TyQuantity (q_type q) | WKind x => TyKind (qk_type x) | WPoint x => TyPoint (qpk_type x) end.
(** The number is one of its type, as that of every object is. *)
Definition ksound (v : kvalue) : Prop :=
  match v with
  | WQuantity q => num_ok (q_rep (q_type q)) (q_num q) = true
  | WKind x => num_ok (kt_rep (qk_type x)) (qk_num x) = true
  | WPoint x => num_ok (pkt_rep (qpk_type x)) (qpk_num x) = true
  end.
Fixpoint kexpr_sound (e : kexpr) : Prop :=
  match e with
  | KQuantity q => ksound (WQuantity q)
  | KKind x => ksound (WKind x)
  | KPoint x => ksound (WPoint x)
  | KUnary o a => unary_sound o /\ kexpr_sound a
  | KBinary _ a b => kexpr_sound a /\ kexpr_sound b
  | KMake _ a | KConvert _ a | KCommon a | KCast _ a | KPMake _ a | KPDeduce a | KPConvert _ a | KRelative a | KPCast _ a | KPCastTo _ a => kexpr_sound a
  end.

(** ** The same text with other numbers *)

Inductive ksame_text : kexpr -> kexpr -> Prop :=
| kt_quantity : forall t n n', ksame_text (KQuantity (Quantity t n)) (KQuantity (Quantity t n'))
| kt_kindobj : forall t n n', ksame_text (KKind (QKind t n)) (KKind (QKind t n'))
| kt_pointobj : forall t n n', ksame_text (KPoint (QPKind t n)) (KPoint (QPKind t n'))
| kt_unary : forall o o' a a', same_unary o o' -> ksame_text a a' -> ksame_text (KUnary o a) (KUnary o' a')
| kt_binary : forall o a a' b b', ksame_text a a' -> ksame_text b b' -> ksame_text (KBinary o a b) (KBinary o a' b')
| kt_make : forall t a a', ksame_text a a' -> ksame_text (KMake t a) (KMake t a')
| kt_convert : forall t a a', ksame_text a a' -> ksame_text (KConvert t a) (KConvert t a')
| kt_common : forall a a', ksame_text a a' -> ksame_text (KCommon a) (KCommon a')
| kt_cast : forall c a a', ksame_text a a' -> ksame_text (KCast c a) (KCast c a')
| kt_pmake : forall t a a', ksame_text a a' -> ksame_text (KPMake t a) (KPMake t a')
| kt_pdeduce : forall a a', ksame_text a a' -> ksame_text (KPDeduce a) (KPDeduce a')
| kt_pconvert : forall t a a', ksame_text a a' -> ksame_text (KPConvert t a) (KPConvert t a')
| kt_relative : forall a a', ksame_text a a' -> ksame_text (KRelative a) (KRelative a')
| kt_pcast : forall c a a', ksame_text a a' -> ksame_text (KPCast c a) (KPCast c a')
| kt_pcastto : forall t a a', ksame_text a a' -> ksame_text (KPCastTo t a) (KPCastTo t a').
