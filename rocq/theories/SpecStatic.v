(** Specification vocabulary for what is decided before the program runs. *)

From Coq Require Import ZArith List Bool.
From Verif Require Import Outcome CInt Rep Reference QuantityCast Quantity Point Affine Static.

(** ** Outcomes of a program that has compiled *)

(** The operation gives a value with [P], or is undefined on these numbers (an overflow, a
    division by zero, a floating-point number too large for an integer type).  It is not
    rejected, violates no contract and does not get stuck. *)
Definition runs {A : Type} (P : A -> Prop) (r : res A) : Prop := (exists x, r = Ok x /\ P x) \/ r = Undef.

(** ** Objects *)

Definition vtype (v : avalue) : atype := match v with VQuantity q => TQuantity (q_type q) | VPoint p => TPoint (pt_type p) end.
(** The number is one of its type, as that of every object is. *)
Definition sound (v : avalue) : Prop :=
  match v with
  | VQuantity q => num_ok (q_rep (q_type q)) (q_num q) = true
  | VPoint p => num_ok (p_rep (pt_type p)) (pt_num p) = true
  end.
Definition unary_sound (o : unary) : Prop :=
  match o with
  | UMulV r v | UVMul r v | UDivV r v | UVDiv r v | URemV r v => num_ok r v = true
  | _ => True
  end.
Fixpoint expr_sound (e : aexpr) : Prop :=
  match e with
  | AQuantity q => sound (VQuantity q)
  | APoint p => sound (VPoint p)
  | AUnary o a => unary_sound o /\ expr_sound a
  | ABinary _ a b => expr_sound a /\ expr_sound b
  | AMove _ a | APointCast _ a | APointCastTo _ a | ARelative a | AMake _ a => expr_sound a
  end.

(** ** The same text with other numbers *)

Inductive same_unary : unary -> unary -> Prop :=
| su_pos : same_unary UPos UPos
| su_neg : same_unary UNeg UNeg
| su_mulv : forall r v v', same_unary (UMulV r v) (UMulV r v')
| su_vmul : forall r v v', same_unary (UVMul r v) (UVMul r v')
| su_divv : forall r v v', same_unary (UDivV r v) (UDivV r v')
| su_vdiv : forall r v v', same_unary (UVDiv r v) (UVDiv r v')
| su_remv : forall r v v', same_unary (URemV r v) (URemV r v')
| su_conv : forall t, same_unary (UConv t) (UConv t)
| su_cast : forall c, same_unary (UCast c) (UCast c).
Inductive same_text : aexpr -> aexpr -> Prop :=
| st_quantity : forall t n n', same_text (AQuantity (Quantity t n)) (AQuantity (Quantity t n'))
| st_point : forall t n n', same_text (APoint (Point t n)) (APoint (Point t n'))
| st_unary : forall o o' a a', same_unary o o' -> same_text a a' -> same_text (AUnary o a) (AUnary o' a')
| st_binary : forall o a a' b b', same_text a a' -> same_text b b' -> same_text (ABinary o a b) (ABinary o a' b')
| st_move : forall t a a', same_text a a' -> same_text (AMove t a) (AMove t a')
| st_pcast : forall c a a', same_text a a' -> same_text (APointCast c a) (APointCast c a')
| st_pcastto : forall t a a', same_text a a' -> same_text (APointCastTo t a) (APointCastTo t a')
| st_relative : forall a a', same_text a a' -> same_text (ARelative a) (ARelative a')
| st_make : forall t a a', same_text a a' -> same_text (AMake t a) (AMake t a').
