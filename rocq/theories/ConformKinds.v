(** The expressions of the library's tests of points, kinds and points of kinds, for running
    these tests on the model (the file [Conform_Kinds]).  Like [Conform], a check of the model
    and not a property. *)

From Coq Require Import ZArith String List Bool SpecFloat.
From Verif Require Import Outcome CInt Root Ratio FixedString Unit Downcast Dim DimOp Equivalent Rep Reference QuantityCast CommonQuantity
  Quantity Point Kind PointKind Chrono Plain Construct System Catalogue Names Includes Conform.
Import ListNotations.
Local Open Scope string_scope.
Local Open Scope Z_scope.
Local Open Scope res_scope.

(** How the tests name origins, kinds, point kinds, units and types. *)
Inductive oref := OrDynamic (d : string) | OrUser (name d : string) | OrClock (c : string).
Inductive kref := KrName (n : string) | KrDown (k : kref) (d : string) (* downcast_kind<K, D> *) | KrBase (k : kref) (* K::_kind_base *).
Inductive pkref := PrName (n : string) | PrDown (k : kref) (* downcast_point_kind<K> *) | PrBase (p : pkref).
Inductive uref := UrName (u : string) | UrScaled (a b c : Z) (u : string).
Inductive xtype :=
| XQ (t : ctype)
| XK (k : kref) (u : uref) (r : rep)
| XP (o : oref) (u : uref) (r : rep)
| XX (p : pkref) (u : uref) (r : rep).
(** The declarations of a test: [kind], [derived_kind], [point_kind]. *)
Inductive kdecl :=
| KdBase (n d : string)
| KdDerived (n d base : string)
| KdPoint (n base : string) (o : oref).

Inductive xval := VC (v : cval) | VD (d : duration) | VT (t : time_point) | VK (x : qkind) | VP (p : point) | VX (x : qpkind).
Inductive bound := BZero | BOne | BMin | BMax.
Inductive family := FQuantity | FPoint | FKind | FPointKind.
Inductive xcast :=
| XsType (t : xtype) | XsDim (d : string) | XsUnit (u : string) | XsRep (r : rep) | XsDimUnit (d u : string)
| XsKind (k : kref) | XsKindUnit (k : kref) (u : string)
| XsPointKind (p : pkref) | XsPointKindUnit (p : pkref) (u : string).
Inductive xexpr :=
| XC (c : cexpr)
| XDur (num den : Z) (r : rep) (n : number)              (* a duration *)
| XTime (c : string) (d : xexpr)                         (* a time point *)
| XMake (t : xtype) (x : xexpr)                          (* t(x) *)
| XImplicit (t : xtype) (x : xexpr)                      (* a parameter of type t given the argument x *)
| XDeduce (f : family) (x : xexpr)                       (* quantity_point(x), ... *)
| XDefault (t : xtype)                                   (* t{} *)
| XStatic (b : bound) (t : xtype)
| XSet (x y : xexpr)                                     (* x = y *)
| XAssign (o : cop) (x y : xexpr)
| XStep (up : bool) (x : xexpr)
| XBin (o : cop) (x y : xexpr)
| XPos (x : xexpr)
| XNeg (x : xexpr)
| XCommon (x : xexpr)
| XRelative (x : xexpr)
| XNumber (x : xexpr)
| XCast (c : xcast) (x : xexpr).

Record kenv := KEnv { ke_kinds : kinds; ke_pkinds : pkinds; ke_named : list (string * kind); ke_pnamed : list (string * pkind) }.

Section Eval.
Variables (rb : rebinding) (est : estimate) (e : env).
Let w := en_world e.

Definition a_origin (o : oref) : res origin :=
  match o with
  | OrDynamic d => x <- a_dim e d; Ok (ODynamic x)
  | OrUser n d => x <- a_dim e d; Ok (OUser n x)
  | OrClock c => Ok (clock_origin c)
  end.
Definition assoc {A : Type} (n : string) (l : list (string * A)) : res A :=
  match find (fun x => String.eqb (fst x) n) l with Some x => Ok (snd x) | None => IllFormed end.
Definition a_unit_ref (u : uref) : res cunit :=
  match u with
  | UrName n => a_unit e n
  | UrScaled a b c n => y <- a_unit e n; k <- mk_ratio a b c; scaled_unit k (u_ref y)
  end.
Definition k_declare (d : kdecl) (g : kenv) : res kenv :=
  match d with
  | KdBase n d =>
      x <- a_dim e d; h <- declare_kind On n x (ke_kinds g);
      Ok (KEnv h (ke_pkinds g) ((n, Kind (Some n) (BKind n x) x) :: ke_named g) (ke_pnamed g))
  | KdDerived n d b =>
      x <- a_dim e d; k <- assoc b (ke_named g); h <- declare_derived_kind On n x k (ke_kinds g);
      Ok (KEnv h (ke_pkinds g) ((n, Kind (Some n) (k_base k) x) :: ke_named g) (ke_pnamed g))
  | KdPoint n b o =>
      k <- assoc b (ke_named g); o <- a_origin o; h <- declare_point_kind On n k o (ke_pkinds g);
      Ok (KEnv (ke_kinds g) h (ke_named g) ((n, PKind (Some n) k o) :: ke_pnamed g))
  end.
Fixpoint k_declare_all (l : list kdecl) (g : kenv) : res kenv :=
  match l with [] => Ok g | d :: r => h <- k_declare d g; k_declare_all r h end.

Variable g : kenv.
Fixpoint a_kind (k : kref) : res kind :=
  match k with
  | KrName n => assoc n (ke_named g)
  | KrDown k d => x <- a_kind k; y <- a_dim e d; Ok (downcast_kind (ke_kinds g) x y)
  | KrBase k => x <- a_kind k; Ok (Kind None (k_base x) (k_dim x))
  end.
Fixpoint a_pkind (p : pkref) : res pkind :=
  match p with
  | PrName n => assoc n (ke_pnamed g)
  | PrDown k => x <- a_kind k; downcast_point_kind (ke_pkinds g) x (ODynamic (k_dim x))
  | PrBase p => x <- a_pkind p; Ok (PKind None (pk_base x) (pk_origin x))
  end.

Inductive rtype := RQ (t : qtype) | RK (t : ktype) | RP (t : ptype) | RX (t : pktype).
Definition a_xtype (t : xtype) : res rtype :=
  match t with
  | XQ t => x <- a_type e t; Ok (RQ x)
  | XK k u r => k <- a_kind k; u <- a_unit_ref u; x <- mk_ktype k u r; Ok (RK x)
  | XP o u r => o <- a_origin o; u <- a_unit_ref u; x <- mk_ptype o u r; Ok (RP x)
  | XX p u r => p <- a_pkind p; u <- a_unit_ref u; _ <- mk_ktype (pk_base p) u r; Ok (RX (PKType p u r))
  end.

Definition as_argument (v : xval) : res argument :=
  match v with
  | VC (VQ q) => Ok (AQuantity q)
  | VC (VN r n) => Ok (ANumber r n)
  | VC (VR _) => IllFormed
  | VD d => Ok (ADuration d)
  | VT t => Ok (ATime t)
  | VK x => Ok (AKind x)
  | VP p => Ok (APoint p)
  | VX x => Ok (APointKind x)
  end.
Definition a_quantity (x : res quantity) : res xval := q <- x; Ok (VC (VQ q)).
Definition a_qkind (x : res qkind) : res xval := k <- x; Ok (VK k).
Definition a_point (x : res point) : res xval := p <- x; Ok (VP p).
Definition a_pointkind (x : res qpkind) : res xval := p <- x; Ok (VX p).
Definition x_make (t : rtype) (v : xval) : res xval :=
  a <- as_argument v;
  match t with
  | RQ t => a_quantity (q_new est w t a)
  | RK t => a_qkind (k_new est w t a)
  | RP t => a_point (p_new rb est w t a)
  | RX t => a_pointkind (pk_new rb est w t a)
  end.
Definition x_implicit (t : rtype) (v : xval) : res xval :=
  a <- as_argument v;
  match t with
  | RQ t => a_quantity (q_implicit est t a)
  | RK t => a_qkind (k_implicit est t a)
  | RP t => a_point (p_implicit rb est t a)
  | RX t => a_pointkind (pk_implicit rb est t a)
  end.
Definition x_deduce (f : family) (v : xval) : res xval :=
  a <- as_argument v;
  match f with
  | FQuantity => a_quantity (q_deduced w a)
  | FPoint => a_point (p_deduced_from est w a)
  | FKind => a_qkind (k_deduced_from a)
  | FPointKind => a_pointkind (pk_deduced_from (ke_pkinds g) a)
  end.
Definition x_default (t : rtype) : xval :=
  match t with
  | RQ t => VC (VQ (q_zero t))
  | RK t => VK (k_zero t)
  | RP t => VP (Point t (rep_zero (p_rep t)))
  | RX t => VX (QPKind t (rep_zero (pkt_rep t)))
  end.
Definition x_static (b : bound) (t : rtype) : res xval :=
  match b, t with
  | BZero, RQ t => Ok (VC (VQ (q_zero t))) | BOne, RQ t => Ok (VC (VQ (q_one t)))
  | BMin, RQ t => Ok (VC (VQ (q_min t))) | BMax, RQ t => Ok (VC (VQ (q_max t)))
  | BZero, RK t => Ok (VK (k_zero t)) | BOne, RK t => Ok (VK (k_one t))
  | BMin, RK t => Ok (VK (k_min t)) | BMax, RK t => Ok (VK (k_max t))
  | BMin, RP t => Ok (VP (p_min t)) | BMax, RP t => Ok (VP (p_max t))
  | BMin, RX t => Ok (VX (pk_min t)) | BMax, RX t => Ok (VX (pk_max t))
  | _, _ => IllFormed
  end.
Definition type_of (v : xval) : res rtype :=
  match v with
  | VC (VQ q) => Ok (RQ (q_type q))
  | VK x => Ok (RK (qk_type x))
  | VP p => Ok (RP (pt_type p))
  | VX x => Ok (RX (qpk_type x))
  | _ => IllFormed
  end.

(** The operators, by the operands. *)
Definition x_apply (o : cop) (x y : xval) : res xval :=
  match x, y with
  | VC a, VC b => z <- c_apply est e o a b; Ok (VC z)
  | VK a, VK b => a_qkind (match o with
      | CAdd => k_add est w a b | CSub => k_sub est w a b
      | CMul => k_times_k est w (ke_kinds g) a b | CDiv => k_over_k est w (ke_kinds g) a b | CRem => k_rem est a b end)
  | VK a, VC (VN r n) => match o with
      | CMul => a_qkind (k_mul_value est a r n) | CDiv => a_qkind (k_div_value est a r n)
      | CRem => a_qkind (k_rem_value est a r n) | _ => IllFormed end
  | VC (VN r n), VK a => match o with
      | CMul => a_qkind (value_mul_k est a r n) | CDiv => a_qkind (value_div_k est w (ke_kinds g) r n a) | _ => IllFormed end
  | VK a, VC (VQ q) => match o with
      | CMul => a_qkind (k_times_q est w (ke_kinds g) a q) | CDiv => a_qkind (k_over_q est w (ke_kinds g) a q)
      | CRem => a_qkind (k_rem_q est a q) | _ => IllFormed end
  | VC (VQ q), VK a => match o with
      | CMul => a_qkind (q_times_k est w (ke_kinds g) q a) | CDiv => a_qkind (q_over_k est w (ke_kinds g) q a) | _ => IllFormed end
  | VP p, VC (VQ q) => match o with
      | CAdd => a_point (p_add rb est w p q) | CSub => a_point (p_sub rb est w p q) | _ => IllFormed end
  | VC (VQ q), VP p => match o with CAdd => a_point (q_plus_point rb est w q p) | _ => IllFormed end
  | VP p, VP q => match o with CSub => a_quantity (p_diff rb est w p q) | _ => IllFormed end
  | VX x, VK k => match o with
      | CAdd => a_pointkind (pk_add est w (ke_pkinds g) x k) | CSub => a_pointkind (pk_sub est w (ke_pkinds g) x k) | _ => IllFormed end
  | VK k, VX x => match o with CAdd => a_pointkind (k_plus_pk est w (ke_pkinds g) k x) | _ => IllFormed end
  | VX x, VX y => match o with CSub => a_qkind (pk_diff rb est w x y) | _ => IllFormed end
  | _, _ => IllFormed
  end.
(** The compound assignments; the operand of [+=] and [-=] of points is converted to their
    quantity (or quantity kind). *)
Definition x_assign (o : cop) (x y : xval) : res xval :=
  match x, y with
  | VC (VQ q), VC v => a_quantity (c_assign est o q v)
  | VK a, VK b => a_qkind (match o with
      | CAdd => k_act est (ke_kinds g) a (KAdd b) | CSub => k_act est (ke_kinds g) a (KSub b)
      | CMul => k_act est (ke_kinds g) a (KMulK b) | CDiv => k_act est (ke_kinds g) a (KDivK b)
      | CRem => if kind_equivalent (qk_kind a) (qk_kind b) then k_act est (ke_kinds g) a (KRem b) else k_act est (ke_kinds g) a (KRemOne b) end)
  | VK a, VC (VN r n) => match o with
      | CMul => a_qkind (k_act est (ke_kinds g) a (KMulV r n)) | CDiv => a_qkind (k_act est (ke_kinds g) a (KDivV r n))
      | CRem => a_qkind (k_act est (ke_kinds g) a (KRemV r n)) | _ => IllFormed end
  | VK a, VC (VQ q) => match o with
      | CMul | CDiv | CRem =>
          _ <- constrained (dimensionless (q_dim (q_type q)));
          p <- c_assign est o (common a) (VQ q); Ok (VK (QKind (qk_type a) (q_num p)))
      | _ => IllFormed end
  | VP p, VC v => match o with
      | CAdd => q <- as_quantity (p_qtype (pt_type p)) v; a_point (p_act est p (PAdd q))
      | CSub => q <- as_quantity (p_qtype (pt_type p)) v; a_point (p_act est p (PSub q))
      | _ => IllFormed end
  | VX x, VK k => match o with
      | CAdd => a_pointkind (pk_act est (ke_kinds g) x (PKAdd k)) | CSub => a_pointkind (pk_act est (ke_kinds g) x (PKSub k)) | _ => IllFormed end
  | _, _ => IllFormed
  end.
Definition x_step (up : bool) (x : xval) : res xval :=
  match x with
  | VC (VQ q) => a_quantity (q_act est q (if up then AInc else ADec))
  | VK a => a_qkind (k_act est (ke_kinds g) a (if up then KInc else KDec))
  | VP p => a_point (p_act est p (if up then PInc else PDec))
  | VX x => a_pointkind (pk_act est (ke_kinds g) x (if up then PKInc else PKDec))
  | _ => IllFormed
  end.
(** The casts: [quantity_cast], [quantity_point_cast], [quantity_kind_cast],
    [quantity_point_kind_cast], by the object cast. *)
Definition x_castspec (c : xcast) : res castspec :=
  match c with
  | XsType t => t <- a_xtype t; match t with RQ t => Ok (ToQuantity t) | _ => IllFormed end
  | XsDim d => x <- a_dim e d; Ok (ToDim x)
  | XsUnit u => x <- a_unit e u; Ok (ToUnit x)
  | XsRep r => Ok (ToRep r)
  | _ => IllFormed
  end.
Definition x_kcastspec (c : xcast) : res kcastspec :=
  match c with
  | XsType t => t <- a_xtype t; match t with RQ t => Ok (KTo (ToQuantity t)) | RK t => Ok (KToType t) | _ => IllFormed end
  | XsKind k => k <- a_kind k; Ok (KToKind k)
  | _ => c <- x_castspec c; Ok (KTo c)
  end.
Definition x_cast (c : xcast) (x : xval) : res xval :=
  match x, c with
  | VC (VQ q), XsDimUnit d u =>
      d <- a_dim e d; u <- a_unit e u; p <- quantity_cast_dim_unit est d u (q_type q) (q_num q); Ok (VC (VQ (Quantity (fst p) (snd p))))
  | VC (VQ q), _ => c <- x_castspec c; a_quantity (q_cast est w c q)
  | VP p, XsDimUnit d u => d <- a_dim e d; u <- a_unit e u; a_point (point_cast_dim_unit rb est d u p)
  | VP p, XsType t => t <- a_xtype t; (match t with
      | RP t => a_point (point_cast_to rb est t p) | RQ t => a_point (point_cast est w (ToQuantity t) p) | _ => IllFormed end)
  | VP p, _ => c <- x_castspec c; a_point (point_cast est w c p)
  | VK a, XsKindUnit k u => k <- a_kind k; u <- a_unit e u; a_qkind (kind_cast_kind_unit est k u a)
  | VK a, _ => c <- x_kcastspec c; a_qkind (kind_cast est w c a)
  | VX a, XsPointKind p => p <- a_pkind p; a_pointkind (pk_cast_kind est (ke_pkinds g) p a)
  | VX a, XsPointKindUnit p u => p <- a_pkind p; u <- a_unit e u; a_pointkind (pk_cast_kind_unit rb est p u a)
  | VX a, XsType (XX p u r) => t <- a_xtype (XX p u r); (match t with RX t => a_pointkind (pk_cast_to rb est t a) | _ => IllFormed end)
  | VX a, _ => c <- x_kcastspec c; a_pointkind (pk_cast est w (ke_pkinds g) c a)
  | _, _ => IllFormed
  end.

Fixpoint x_eval (x : xexpr) : res xval :=
  match x with
  | XC c => v <- c_eval est e c; Ok (VC v)
  | XDur a b r n => Ok (VD (Duration (DType a b r) n))
  | XTime c d => v <- x_eval d; match v with VD d => Ok (VT (TimePoint c d)) | _ => IllFormed end
  | XMake t y => v <- x_eval y; t <- a_xtype t; x_make t v
  | XImplicit t y => v <- x_eval y; t <- a_xtype t; x_implicit t v
  | XDeduce f y => v <- x_eval y; x_deduce f v
  | XDefault t => t <- a_xtype t; Ok (x_default t)
  | XStatic b t => t <- a_xtype t; x_static b t
  | XSet a b => u <- x_eval a; v <- x_eval b; t <- type_of u; x_implicit t v
  | XAssign o a b => u <- x_eval a; v <- x_eval b; x_assign o u v
  | XStep up a => u <- x_eval a; x_step up u
  | XBin o a b => u <- x_eval a; v <- x_eval b; x_apply o u v
  | XPos a => u <- x_eval a; match u with VC (VQ q) => a_quantity (q_plus q) | VK x => a_qkind (k_plus x) | _ => IllFormed end
  | XNeg a => u <- x_eval a; match u with
      | VC (VQ q) => a_quantity (q_neg q) | VC (VN r n) => z <- n_neg r n; Ok (VC (VN (promote_rep r) z))
      | VK x => a_qkind (k_neg est x) | _ => IllFormed end
  | XCommon a => u <- x_eval a; match u with VK x => Ok (VC (VQ (common x))) | _ => IllFormed end
  | XRelative a => u <- x_eval a; match u with VP p => Ok (VC (VQ (relative p))) | VX x => Ok (VK (pk_relative x)) | _ => IllFormed end
  | XNumber a => u <- x_eval a; match u with VC (VQ q) => Ok (VC (VN (q_rep (q_type q)) (q_num q))) | _ => IllFormed end
  | XCast c a => u <- x_eval a; x_cast c u
  end.

Definition x_compare (o : ccmp) (x y : xexpr) : res bool :=
  u <- x_eval x; v <- x_eval y;
  match u, v with
  | VC a, VC b => c_compare_vals est e o a b
  | VK a, VK b => q <- k_eqb est w a b; c <- k_compare est w a b; Ok (holds o q c)
  | VP a, VP b => q <- p_eqb rb est w a b; c <- p_compare rb est w a b; Ok (holds o q c)
  | VX a, VX b => q <- pk_eqb rb est w a b; c <- pk_compare rb est w a b; Ok (holds o q c)
  | _, _ => IllFormed
  end.

Inductive xassert :=
| SCmp (o : ccmp) (x y : xexpr)
| SSame (x y : xexpr)                                    (* same(x, y): one type, and equal *)
| SType (x : xexpr) (t : xtype)                          (* is_same_v<decltype(x), t> *)
| SMember (t : xtype) (q : ctype)                        (* t::quantity_type, with its dimension, unit and rep *)
| SRep (x : xexpr) (r : rep)
| SWell (x : xexpr)
| SIll (x : xexpr)
| SWellCmp (o : ccmp) (x y : xexpr)
| SIllCmp (o : ccmp) (x y : xexpr)
| SIllType (t : xtype)                                   (* the type does not exist *)
| SSameType (t : xtype) (u : xtype)                      (* is_same_v<t, u> *)
| SCommonPoint (a b t : xtype)                           (* common_quantity_point<a, b> is t *)
| SKindSame (a b : kref) | SKindEquivalent (a b : kref)
| SPointKindSame (a b : pkref) | SPointKindEquivalent (a b : pkref)
| SKindDim (k : kref) (d : string)                       (* k::dimension *)
| SPointKindBase (p : pkref) (k : kref)                  (* p::base_kind *)
| SPointKindOrigin (p : pkref) (o : oref)                (* p::origin *)
| SKindBase (k b : kref)                                 (* k::base_kind *)
| SRebindable (o : oref) (d : string) | SRebind (o : oref) (d : string) (o' : oref)
| SOriginEquivalent (a b : oref)
| SNot (x : xassert)
| SAnd (x y : xassert).
Definition same_rtype (a b : rtype) : bool :=
  match a, b with
  | RQ a, RQ b => same_type a b
  | RK a, RK b => (if kind_eq_dec (kt_kind a) (kt_kind b) then true else false) && same_type (kt_qtype a) (kt_qtype b)
  | RP a, RP b => (if origin_eq_dec (p_origin a) (p_origin b) then true else false) && same_type (p_qtype a) (p_qtype b)
  | RX a, RX b => (if pkind_eq_dec (pkt_kind a) (pkt_kind b) then true else false) && same_type (kt_qtype (pkt_ktype a)) (kt_qtype (pkt_ktype b))
  | _, _ => false
  end.
Definition under (t : rtype) : qtype :=
  match t with RQ t => t | RK t => kt_qtype t | RP t => p_qtype t | RX t => kt_qtype (pkt_ktype t) end.
Definition ill {A : Type} (x : res A) : res bool := match x with IllFormed => Ok true | _ => Ok false end.
Definition well {A : Type} (x : res A) : res bool := match x with Ok _ => Ok true | _ => Ok false end.
Fixpoint x_check (a : xassert) : res bool :=
  match a with
  | SCmp o x y => x_compare o x y
  | SSame x y => u <- x_eval x; v <- x_eval y; s <- type_of u; t <- type_of v; b <- x_compare CEq x y; Ok (same_rtype s t && b)
  | SType x t => u <- x_eval x; s <- type_of u; t <- a_xtype t; Ok (same_rtype s t)
  | SMember t q => t <- a_xtype t; q <- a_type e q; Ok (same_type (under t) q)
  | SRep x r => u <- x_eval x; match u with VC (VN s _) => Ok (if rep_eq_dec s r then true else false) | _ => IllFormed end
  | SWell x => well (x_eval x)
  | SIll x => ill (x_eval x)
  | SWellCmp o x y => well (x_compare o x y)
  | SIllCmp o x y => ill (x_compare o x y)
  | SIllType t => ill (a_xtype t)
  | SSameType t u => t <- a_xtype t; u <- a_xtype u; Ok (same_rtype t u)
  | SCommonPoint a b t => a <- a_xtype a; b <- a_xtype b; t <- a_xtype t;
      (match a, b with RP a, RP b => c <- common_point rb est w a b; Ok (same_rtype (RP c) t) | _, _ => IllFormed end)
  | SKindSame a b => x <- a_kind a; y <- a_kind b; Ok (if kind_eq_dec x y then true else false)
  | SKindEquivalent a b => x <- a_kind a; y <- a_kind b; Ok (kind_equivalent x y)
  | SPointKindSame a b => x <- a_pkind a; y <- a_pkind b; Ok (if pkind_eq_dec x y then true else false)
  | SPointKindEquivalent a b => x <- a_pkind a; y <- a_pkind b; Ok (pkind_equivalent rb x y)
  | SKindDim k d => x <- a_kind k; y <- a_dim e d; Ok (if dimension_eq_dec (k_dim x) y then true else false)
  | SPointKindBase p k => x <- a_pkind p; y <- a_kind k; Ok (if kind_eq_dec (pk_base x) y then true else false)
  | SPointKindOrigin p o => x <- a_pkind p; y <- a_origin o; Ok (if origin_eq_dec (pk_origin x) y then true else false)
  | SKindBase k b => x <- a_kind k; y <- a_kind b; Ok (if kind_eq_dec (base_kind x) y then true else false)
  | SRebindable o d => o <- a_origin o; d <- a_dim e d; Ok (rebindable rb o d)
  | SRebind o d o' => o <- a_origin o; d <- a_dim e d; o' <- a_origin o';
      Ok (match rebind rb o d with Some x => if origin_eq_dec x o' then true else false | None => false end)
  | SOriginEquivalent a b => a <- a_origin a; b <- a_origin b; Ok (origin_equivalent rb a b)
  | SNot x => b <- x_check x; Ok (negb b)
  | SAnd x y => b <- x_check x; if b then x_check y else Ok false
  end.
End Eval.

(** The lines of a test that do not hold, after the declarations of the test. *)
Definition failing_kinds (rb : rebinding) (est : estimate) (e : env) (ds : list kdecl) (l : list (Z * xassert)) : list Z :=
  match k_declare_all e ds (KEnv empty_registry empty_registry [] []) with
  | Ok g => map fst (filter (fun x => match x_check rb est e g (snd x) with Ok true => false | _ => true end) l)
  | _ => [-2]
  end.
