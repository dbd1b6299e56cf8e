(** Programs with variables of quantity, quantity kind and quantity point kind types: as
    [Program], on top of the expressions of [KindExpr].

    The calls into the library are those of [src/core/include/units/quantity.h:155-285, 378-388,
    441-455], [quantity_kind.h:96-240, 365-377] and [quantity_point_kind.h:64-137, 169-182].  The
    operators of kinds [*=], [/=] and [%=] with a dimensionless kind or quantity are not part of
    the language. *)

From Coq Require Import ZArith String List Bool.
From Verif Require Import Outcome CInt Root Ratio Unit Downcast Dim DimOp Equivalent Rep Reference QuantityCast CommonQuantity Quantity Point Affine Static
  Kind PointKind KindExpr StaticKind Program.
Import ListNotations.
Local Open Scope res_scope.

(** Expressions with variables. *)
Inductive vexpr :=
| VVar (x : nat)
| VConst (v : kvalue)
| VUnary (o : unary) (a : vexpr)
| VBinary (o : binary) (a b : vexpr)
| VMake (t : ktype) (a : vexpr)
| VConvert (t : ktype) (a : vexpr)
| VCommon (a : vexpr)
| VCast (c : kcastspec) (a : vexpr)
| VPMake (t : pktype) (a : vexpr)
| VPDeduce (a : vexpr)
| VPConvert (t : pktype) (a : vexpr)
| VRelative (a : vexpr)
| VPCast (c : kcastspec) (a : vexpr)
| VPCastTo (t : pktype) (a : vexpr).

Inductive vcond := VRel (o : relop) (a b : vexpr) | VNot (c : vcond) | VAnd (c d : vcond) | VOr (c d : vcond).

(** [++x], [--x], [x += e], [x -= e], [x %= e] and [x *= v], [x /= v], [x %= v],
    quantity.h:186-285, quantity_kind.h:152-240, quantity_point_kind.h:99-137. *)
Inductive vchange :=
| VInc | VDec
| VAdd (e : vexpr) | VSub (e : vexpr) | VRem (e : vexpr)
| VMulV (r : rep) (v : number) | VDivV (r : rep) (v : number) | VRemV (r : rep) (v : number).

Inductive vstmt :=
| VSkip
| VSeq (a b : vstmt)
| VAssign (x : nat) (e : vexpr)
| VChange (x : nat) (h : vchange)
| VIf (c : vcond) (a b : vstmt)
| VWhile (c : vcond) (a : vstmt).

(** ** Running *)

Definition kstore := list kvalue.

(** The expression with the values of the variables in place. *)
Definition kobject (v : kvalue) : kexpr := match v with WQuantity q => KQuantity q | WKind x => KKind x | WPoint x => KPoint x end.
Fixpoint vclose (m : kstore) (e : vexpr) : option kexpr :=
  match e with
  | VVar x => option_map kobject (nth_error m x)
  | VConst v => Some (kobject v)
  | VUnary o a => option_map (KUnary o) (vclose m a)
  | VBinary o a b => match vclose m a, vclose m b with Some a, Some b => Some (KBinary o a b) | _, _ => None end
  | VMake t a => option_map (KMake t) (vclose m a)
  | VConvert t a => option_map (KConvert t) (vclose m a)
  | VCommon a => option_map KCommon (vclose m a)
  | VCast c a => option_map (KCast c) (vclose m a)
  | VPMake t a => option_map (KPMake t) (vclose m a)
  | VPDeduce a => option_map KPDeduce (vclose m a)
  | VPConvert t a => option_map (KPConvert t) (vclose m a)
  | VRelative a => option_map KRelative (vclose m a)
  | VPCast c a => option_map (KPCast c) (vclose m a)
  | VPCastTo t a => option_map (KPCastTo t) (vclose m a)
  end.

Section Library.
Variables (rb : rebinding) (est : estimate) (w : world) (g : kinds) (gp : pkinds).

Definition veval (m : kstore) (e : vexpr) : res kvalue :=
  match vclose m e with Some a => keval rb est w g gp a | None => IllFormed end.

(** The rewritten candidates of C++20, as in [Program.relation]. *)
Definition w_relation (o : relop) (x y : kvalue) : res bool :=
  match o with
  | RLt => c <- w_compare rb est w x y; Ok (match c with Some Lt => true | _ => false end)
  | RLe => c <- w_compare rb est w x y; Ok (match c with Some Lt | Some Eq => true | _ => false end)
  | RGt => c <- w_compare rb est w x y; Ok (match c with Some Gt => true | _ => false end)
  | RGe => c <- w_compare rb est w x y; Ok (match c with Some Gt | Some Eq => true | _ => false end)
  | REq => w_eqb rb est w x y
  | RNe => b <- w_eqb rb est w x y; Ok (negb b)
  end.
Fixpoint vholds (m : kstore) (c : vcond) : res bool :=
  match c with
  | VRel o a b => x <- veval m a; y <- veval m b; w_relation o x y
  | VNot c => b <- vholds m c; Ok (negb b)
  | VAnd c d => b <- vholds m c; if b then vholds m d else Ok false
  | VOr c d => b <- vholds m c; if b then Ok true else vholds m d
  end.

Definition klookup (m : kstore) (x : nat) : res kvalue := match nth_error m x with Some v => Ok v | None => IllFormed end.
Fixpoint kupdate (m : kstore) (x : nat) (v : kvalue) : kstore :=
  match m, x with
  | [], _ => []
  | _ :: r, O => v :: r
  | a :: r, S n => a :: kupdate r n v
  end.

(** [x = e] for [x] holding [old]: the implicit conversions quantity.h:155-156,
    quantity_kind.h:104-106 and quantity_point_kind.h:75-77; the constructors from another sort
    are explicit (quantity_kind.h:102, quantity_point_kind.h:66). *)
Definition kassigned (old new : kvalue) : res kvalue :=
  match old, new with
  | WQuantity a, WQuantity b => q <- q_to est (q_type a) b; Ok (WQuantity q)
  | WKind a, WKind b => x <- k_to est (qk_type a) b; Ok (WKind x)
  | WPoint a, WPoint b => x <- pk_to rb est (qpk_type a) b; Ok (WPoint x)
  | _, _ => IllFormed
  end.
(** The operand of a changing operator. *)
Definition voperand (m : kstore) (h : vchange) : res (option kvalue) :=
  match h with VAdd e | VSub e | VRem e => v <- veval m e; Ok (Some v) | _ => Ok None end.
(** The operator on a quantity, on a kind and on a point of a kind: the operand is a quantity
    for the first, a kind for the others. *)
Definition q_action (h : vchange) (v : option kvalue) : res action :=
  match h, v with
  | VInc, _ => Ok AInc
  | VDec, _ => Ok ADec
  | VAdd _, Some (WQuantity q) => Ok (AAdd q)
  | VSub _, Some (WQuantity q) => Ok (ASub q)
  | VRem _, Some (WQuantity q) => Ok (ARem q)
  | VMulV r n, _ => Ok (AMulV r n)
  | VDivV r n, _ => Ok (ADivV r n)
  | VRemV r n, _ => Ok (ARemV r n)
  | _, _ => IllFormed
  end.
Definition k_action (h : vchange) (v : option kvalue) : res kaction :=
  match h, v with
  | VInc, _ => Ok KInc
  | VDec, _ => Ok KDec
  | VAdd _, Some (WKind x) => Ok (KAdd x)
  | VSub _, Some (WKind x) => Ok (KSub x)
  | VRem _, Some (WKind x) => Ok (KRem x)
  | VMulV r n, _ => Ok (KMulV r n)
  | VDivV r n, _ => Ok (KDivV r n)
  | VRemV r n, _ => Ok (KRemV r n)
  | _, _ => IllFormed
  end.
Definition p_action (h : vchange) (v : option kvalue) : res pkaction :=
  match h, v with
  | VInc, _ => Ok PKInc
  | VDec, _ => Ok PKDec
  | VAdd _, Some (WKind x) => Ok (PKAdd x)
  | VSub _, Some (WKind x) => Ok (PKSub x)
  | _, _ => IllFormed
  end.
Definition kchanged (old : kvalue) (h : vchange) (v : option kvalue) : res kvalue :=
  match old with
  | WQuantity q => a <- q_action h v; s <- q_act est q a; Ok (WQuantity s)
  | WKind x => a <- k_action h v; s <- k_act est g x a; Ok (WKind s)
  | WPoint x => a <- p_action h v; s <- pk_act est g x a; Ok (WPoint s)
  end.

(** The program from the store [m]; [Stuck] when it takes more than [fuel] steps. *)
Fixpoint vrun (fuel : nat) (s : vstmt) (m : kstore) {struct fuel} : res kstore :=
  match fuel with
  | O => Stuck
  | S n =>
      match s with
      | VSkip => Ok m
      | VSeq a b => m' <- vrun n a m; vrun n b m'
      | VAssign x e => old <- klookup m x; v <- veval m e; v <- kassigned old v; Ok (kupdate m x v)
      | VChange x h => old <- klookup m x; o <- voperand m h; v <- kchanged old h o; Ok (kupdate m x v)
      | VIf c a b => t <- vholds m c; if t then vrun n a m else vrun n b m
      | VWhile c a => t <- vholds m c; if t then m' <- vrun n a m; vrun n (VWhile c a) m' else Ok m
      end
  end.

(** ** Compiling *)

Definition kdeclared := list ktyp.

(** [decltype] of an expression with variables. *)
Definition kconst_type (v : kvalue) : ktyp :=
  match v with WQuantity q => TyQuantity (q_type q) | WKind x => TyKind (qk_type x) | WPoint x => TyPoint (qpk_type x) end.
Fixpoint vtype_of (d : kdeclared) (e : vexpr) : res ktyp :=
  match e with
  | VVar x => match nth_error d x with Some t => Ok t | None => IllFormed end
  | VConst v => Ok (kconst_type v)
  | VUnary o a => t <- vtype_of d a; t_kunary est w g o t
  | VBinary o a b => x <- vtype_of d a; y <- vtype_of d b; t_kbinary rb est w g gp o x y
  | VMake t a => v <- vtype_of d a; q <- t_as_quantity v; s <- t_k_construct est t q; Ok (TyKind s)
  | VConvert t a => v <- vtype_of d a; x <- t_as_kind v; s <- t_k_to est t x; Ok (TyKind s)
  | VCommon a => v <- vtype_of d a; x <- t_as_kind v; Ok (TyQuantity (kt_qtype x))
  | VCast c a => v <- vtype_of d a; x <- t_as_kind v; s <- t_kcast est w c x; Ok (TyKind s)
  | VPMake t a => v <- vtype_of d a; x <- t_as_kind v; s <- t_pk_construct est t x; Ok (TyPoint s)
  | VPDeduce a => v <- vtype_of d a; x <- t_as_kind v; s <- t_pk_deduced gp x; Ok (TyPoint s)
  | VPConvert t a => v <- vtype_of d a; x <- t_as_point v; s <- t_pk_to rb est t x; Ok (TyPoint s)
  | VRelative a => v <- vtype_of d a; x <- t_as_point v; Ok (TyKind (pkt_ktype x))
  | VPCast c a => v <- vtype_of d a; x <- t_as_point v; s <- t_pk_cast est w gp c x; Ok (TyPoint s)
  | VPCastTo t a => v <- vtype_of d a; x <- t_as_point v; s <- t_pk_cast_to rb est t x; Ok (TyPoint s)
  end.
Fixpoint vcompiles_cond (d : kdeclared) (c : vcond) : res unit :=
  match c with
  | VRel _ a b => x <- vtype_of d a; y <- vtype_of d b; t_kcompare rb est w x y
  | VNot c => vcompiles_cond d c
  | VAnd c e | VOr c e => _ <- vcompiles_cond d c; vcompiles_cond d e
  end.
Definition kdeclared_type (d : kdeclared) (x : nat) : res ktyp := match nth_error d x with Some t => Ok t | None => IllFormed end.
Definition t_kassigned (old new : ktyp) : res unit :=
  match old, new with
  | TyQuantity a, TyQuantity b => t_convert est b a
  | TyKind a, TyKind b => _ <- t_k_to est a b; Ok tt
  | TyPoint a, TyPoint b => _ <- t_pk_to rb est a b; Ok tt
  | _, _ => IllFormed
  end.
(** The constraints of quantity.h:186-285, quantity_kind.h:152-240 and
    quantity_point_kind.h:99-137. *)
Definition t_operand (d : kdeclared) (h : vchange) : res (option ktyp) :=
  match h with VAdd e | VSub e | VRem e => t <- vtype_of d e; Ok (Some t) | _ => Ok None end.
Definition t_kchanged (t : ktyp) (h : vchange) (o : option ktyp) : res unit :=
  match t, h, o with
  | TyQuantity _, (VInc | VDec | VMulV _ _ | VDivV _ _), _ => Ok tt
  | TyQuantity q, (VAdd _ | VSub _), Some (TyQuantity b) => t_convert est b q
  | TyQuantity q, VRem _, Some (TyQuantity b) => _ <- constrained (negb (floating (q_rep q))); t_convert est b q
  | TyQuantity q, VRemV r _, _ => constrained (negb (floating (q_rep q)) && negb (floating r))
  | TyKind _, (VInc | VDec | VMulV _ _ | VDivV _ _), _ => Ok tt
  | TyKind x, (VAdd _ | VSub _), Some (TyKind b) => _ <- t_k_to est x b; Ok tt
  | TyKind x, VRem _, Some (TyKind b) =>
      _ <- constrained (kind_equivalent (kt_kind x) (kt_kind b));
      _ <- constrained (negb (floating (kt_rep x)));
      t_convert est (kt_qtype b) (kt_qtype x)
  | TyKind x, VRemV r _, _ => constrained (negb (floating (kt_rep x)) && negb (floating r))
  | TyPoint _, (VInc | VDec), _ => Ok tt
  | TyPoint x, (VAdd _ | VSub _), Some (TyKind b) => _ <- t_k_to est (pkt_ktype x) b; Ok tt
  | _, _, _ => IllFormed
  end.
(** The whole program compiles, also the branches that are not taken. *)
Fixpoint vcompiles (d : kdeclared) (s : vstmt) : res unit :=
  match s with
  | VSkip => Ok tt
  | VSeq a b => _ <- vcompiles d a; vcompiles d b
  | VAssign x e => old <- kdeclared_type d x; new <- vtype_of d e; t_kassigned old new
  | VChange x h => old <- kdeclared_type d x; o <- t_operand d h; t_kchanged old h o
  | VIf c a b => _ <- vcompiles_cond d c; _ <- vcompiles d a; vcompiles d b
  | VWhile c a => _ <- vcompiles_cond d c; vcompiles d a
  end.
End Library.
