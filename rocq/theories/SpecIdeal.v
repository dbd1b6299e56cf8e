(** Specification vocabulary: the program a physicist has in mind.

    The variables hold rational numbers (values of quantities in the base units of the system,
    places of points in a frame); there are no units, representations or conversions. *)

From Coq Require Import ZArith QArith List Bool.
From Verif Require Import Outcome CInt Root Ratio SpecRatio Unit Dim DimOp Equivalent SpecDim SpecUnit Rep QuantityCast Quantity SpecQuantity Point
  Expr SpecExpr Affine SpecAffine Program.
Import ListNotations.
Local Open Scope Q_scope.

(** ** The ideal program *)

Definition values := list Q.

Inductive ideal_expr (est : estimate) (at_ : frame) (vs : values) : pexpr -> Q -> Prop :=
| id_var : forall x u v, nth_error vs x = Some u -> u == v -> ideal_expr est at_ vs (EVar x) v
| id_const : forall c v, at_value est at_ c v -> ideal_expr est at_ vs (EConst c) v
| id_pos : forall a x, ideal_expr est at_ vs a x -> ideal_expr est at_ vs (EUnary UPos a) x
| id_neg : forall a x, ideal_expr est at_ vs a x -> ideal_expr est at_ vs (EUnary UNeg a) (- x)
| id_mulv : forall a r z x, ideal_expr est at_ vs a x -> ideal_expr est at_ vs (EUnary (UMulV r (NInt z)) a) (x * inject_Z z)
| id_vmul : forall a r z x, ideal_expr est at_ vs a x -> ideal_expr est at_ vs (EUnary (UVMul r (NInt z)) a) (inject_Z z * x)
| id_divv : forall a r z x, ideal_expr est at_ vs a x -> ideal_expr est at_ vs (EUnary (UDivV r (NInt z)) a) (x / inject_Z z)
| id_conv : forall t a x, ideal_expr est at_ vs a x -> ideal_expr est at_ vs (EUnary (UConv t) a) x
| id_add : forall a b x y, ideal_expr est at_ vs a x -> ideal_expr est at_ vs b y -> ideal_expr est at_ vs (EBinary BAdd a b) (x + y)
| id_sub : forall a b x y, ideal_expr est at_ vs a x -> ideal_expr est at_ vs b y -> ideal_expr est at_ vs (EBinary BSub a b) (x - y)
| id_mul : forall a b x y, ideal_expr est at_ vs a x -> ideal_expr est at_ vs b y -> ideal_expr est at_ vs (EBinary BMul a b) (x * y)
| id_div : forall a b x y, ideal_expr est at_ vs a x -> ideal_expr est at_ vs b y -> ideal_expr est at_ vs (EBinary BDiv a b) (x / y)
| id_move : forall t a x, ideal_expr est at_ vs a x -> ideal_expr est at_ vs (EMove t a) x.

Definition ideal_relation (o : relop) (x y : Q) : bool :=
  match o, x ?= y with
  | RLt, Lt | RLe, (Lt | Eq) | RGt, Gt | RGe, (Gt | Eq) | REq, Eq | RNe, (Lt | Gt) => true
  | _, _ => false
  end.
Inductive ideal_cond (est : estimate) (at_ : frame) (vs : values) : pcond -> bool -> Prop :=
| ic_rel : forall o a b x y, ideal_expr est at_ vs a x -> ideal_expr est at_ vs b y -> ideal_cond est at_ vs (CRel o a b) (ideal_relation o x y)
| ic_not : forall c b, ideal_cond est at_ vs c b -> ideal_cond est at_ vs (CNot c) (negb b)
| ic_and_true : forall c d b, ideal_cond est at_ vs c true -> ideal_cond est at_ vs d b -> ideal_cond est at_ vs (CAnd c d) b
| ic_and_false : forall c d, ideal_cond est at_ vs c false -> ideal_cond est at_ vs (CAnd c d) false
| ic_or_true : forall c d, ideal_cond est at_ vs c true -> ideal_cond est at_ vs (COr c d) true
| ic_or_false : forall c d b, ideal_cond est at_ vs c false -> ideal_cond est at_ vs d b -> ideal_cond est at_ vs (COr c d) b.

Fixpoint set_value (vs : values) (x : nat) (v : Q) : values :=
  match vs, x with
  | [], _ => []
  | _ :: r, O => v :: r
  | a :: r, S n => a :: set_value r n v
  end.
(** What the variable that held [u] holds after the change. *)
Inductive ideal_change (est : estimate) (at_ : frame) (vs : values) (u : Q) : change -> Q -> Prop :=
| ih_add : forall e x, ideal_expr est at_ vs e x -> ideal_change est at_ vs u (HAdd e) (u + x)
| ih_sub : forall e x, ideal_expr est at_ vs e x -> ideal_change est at_ vs u (HSub e) (u - x)
| ih_mulv : forall r z, ideal_change est at_ vs u (HMulV r (NInt z)) (u * inject_Z z)
| ih_divv : forall r z, ideal_change est at_ vs u (HDivV r (NInt z)) (u / inject_Z z).

Inductive ideal_run (est : estimate) (at_ : frame) : pstmt -> values -> values -> Prop :=
| ir_skip : forall vs, ideal_run est at_ SSkip vs vs
| ir_seq : forall a b vs vs1 vs2, ideal_run est at_ a vs vs1 -> ideal_run est at_ b vs1 vs2 -> ideal_run est at_ (SSeq a b) vs vs2
| ir_assign : forall x e v vs, ideal_expr est at_ vs e v -> ideal_run est at_ (SAssign x e) vs (set_value vs x v)
| ir_change : forall x h u v vs, nth_error vs x = Some u -> ideal_change est at_ vs u h v -> ideal_run est at_ (SChange x h) vs (set_value vs x v)
| ir_then : forall c a b vs vs', ideal_cond est at_ vs c true -> ideal_run est at_ a vs vs' -> ideal_run est at_ (SIf c a b) vs vs'
| ir_else : forall c a b vs vs', ideal_cond est at_ vs c false -> ideal_run est at_ b vs vs' -> ideal_run est at_ (SIf c a b) vs vs'
| ir_again : forall c a vs vs1 vs2, ideal_cond est at_ vs c true -> ideal_run est at_ a vs vs1 -> ideal_run est at_ (SWhile c a) vs1 vs2 ->
    ideal_run est at_ (SWhile c a) vs vs2
| ir_stop : forall c a vs, ideal_cond est at_ vs c false -> ideal_run est at_ (SWhile c a) vs vs.

(** The variables stand for the values. *)
Definition represents (est : estimate) (at_ : frame) (m : store) (vs : values) : Prop := Forall2 (at_value est at_) m vs.

(** ** Programs of the library the comparison is about *)

(** Signed 64-bit objects and conversions; sums, differences, products, quotients; whole
    factors.  Casts, remainders, [v / q], [relative()] and points made from quantities are
    not. *)
Definition signed64 (est : estimate) (v : avalue) : Prop :=
  match v with VQuantity q => exists x, valued est q x | VPoint p => exists x, valued est (relative p) x end.
Definition dim_of (v : avalue) : dimension :=
  match v with VQuantity q => q_dim (q_type q) | VPoint p => o_dim (p_origin (pt_type p)) end.
Definition whole (r : rep) (v : number) : Prop := exists i z, r = RInt i /\ v = NInt z /\ in_range i z = true /\ i <> U64.
Definition target (P : dimension -> Prop) (est : estimate) (t : qtype) : Prop := q_rep t = RInt I64 /\ P (q_dim t) /\ exists m, sized est t m.
Fixpoint simple (P : dimension -> Prop) (est : estimate) (e : pexpr) : Prop :=
  match e with
  | EVar _ => True
  | EConst v => signed64 est v /\ P (dim_of v)
  | EUnary (UPos | UNeg) a => simple P est a
  | EUnary (UMulV r v | UVMul r v | UDivV r v) a => whole r v /\ simple P est a
  | EUnary (UConv t) a => target P est t /\ simple P est a
  | EBinary (BAdd | BSub | BMul | BDiv) a b => simple P est a /\ simple P est b
  | EMove t a => target P est (p_qtype t) /\ simple P est a
  | _ => False
  end.
Fixpoint simple_cond (P : dimension -> Prop) (est : estimate) (c : pcond) : Prop :=
  match c with
  | CRel _ a b => simple P est a /\ simple P est b
  | CNot c => simple_cond P est c
  | CAnd c d | COr c d => simple_cond P est c /\ simple_cond P est d
  end.
Definition simple_change (P : dimension -> Prop) (est : estimate) (h : change) : Prop :=
  match h with
  | HAdd e | HSub e => simple P est e
  | HMulV r v | HDivV r v => whole r v
  | _ => False
  end.
Fixpoint simple_stmt (P : dimension -> Prop) (est : estimate) (s : pstmt) : Prop :=
  match s with
  | SSkip => True
  | SSeq a b => simple_stmt P est a /\ simple_stmt P est b
  | SAssign _ e => simple P est e
  | SChange _ h => simple_change P est h
  | SIf c a b => simple_cond P est c /\ simple_stmt P est a /\ simple_stmt P est b
  | SWhile c a => simple_cond P est c /\ simple_stmt P est a
  end.

(** ** Divisions that come out even *)

Local Open Scope Z_scope.
Fixpoint even (rb : rebinding) (est : estimate) (w : world) (e : aexpr) : Prop :=
  match e with
  | AUnary o a => even rb est w a /\
      match o with UDivV _ (NInt z) => forall n, anumber rb est w a n -> (z | n) | _ => True end
  | ABinary o a b => even rb est w a /\ even rb est w b /\
      match o with BDiv => forall n k, anumber rb est w a n -> anumber rb est w b k -> (k | n) | _ => True end
  | AMove _ a => even rb est w a
  | _ => True
  end.
Definition even_at (rb : rebinding) (est : estimate) (w : world) (m : store) (e : pexpr) : Prop :=
  forall a, close m e = Some a -> even rb est w a.
Fixpoint even_cond (rb : rebinding) (est : estimate) (w : world) (m : store) (c : pcond) : Prop :=
  match c with
  | CRel _ a b => even_at rb est w m a /\ even_at rb est w m b
  | CNot c => even_cond rb est w m c
  | CAnd c d => even_cond rb est w m c /\ (holds rb est w m c = Ok true -> even_cond rb est w m d)
  | COr c d => even_cond rb est w m c /\ (holds rb est w m c = Ok false -> even_cond rb est w m d)
  end.
Definition v_number (v : avalue) : number := match v with VQuantity q => q_num q | VPoint p => pt_num p end.
Definition even_change (rb : rebinding) (est : estimate) (w : world) (m : store) (x : nat) (h : change) : Prop :=
  match h with
  | HAdd e | HSub e => even_at rb est w m e
  | HDivV _ (NInt z) => forall v n, nth_error m x = Some v -> v_number v = NInt n -> (z | n)
  | _ => True
  end.
(** Every division of the run comes out even. *)
Fixpoint even_run (rb : rebinding) (est : estimate) (w : world) (fuel : nat) (s : pstmt) (m : store) : Prop :=
  match fuel with
  | O => True
  | S n =>
      match s with
      | SSkip => True
      | SSeq a b => even_run rb est w n a m /\ (forall m', run rb est w n a m = Ok m' -> even_run rb est w n b m')
      | SAssign _ e => even_at rb est w m e
      | SChange x h => even_change rb est w m x h
      | SIf c a b => even_cond rb est w m c /\ (holds rb est w m c = Ok true -> even_run rb est w n a m) /\
                     (holds rb est w m c = Ok false -> even_run rb est w n b m)
      | SWhile c a => even_cond rb est w m c /\
          (holds rb est w m c = Ok true -> even_run rb est w n a m /\
           (forall m', run rb est w n a m = Ok m' -> even_run rb est w n (SWhile c a) m'))
      end
  end.

(** A program without divisions. *)
Fixpoint no_division (e : pexpr) : Prop :=
  match e with
  | EVar _ | EConst _ => True
  | EUnary (UDivV _ _) _ | EBinary BDiv _ _ => False
  | EUnary _ a | EMove _ a | EPointCast _ a | EPointCastTo _ a | ERelative a | EMake _ a => no_division a
  | EBinary _ a b => no_division a /\ no_division b
  end.
Fixpoint no_division_cond (c : pcond) : Prop :=
  match c with
  | CRel _ a b => no_division a /\ no_division b
  | CNot c => no_division_cond c
  | CAnd c d | COr c d => no_division_cond c /\ no_division_cond d
  end.
Fixpoint no_division_stmt (s : pstmt) : Prop :=
  match s with
  | SSkip => True
  | SSeq a b => no_division_stmt a /\ no_division_stmt b
  | SAssign _ e | SChange _ (HAdd e | HSub e | HRem e) => no_division e
  | SChange _ (HDivV _ _) => False
  | SChange _ _ => True
  | SIf c a b => no_division_cond c /\ no_division_stmt a /\ no_division_stmt b
  | SWhile c a => no_division_cond c /\ no_division_stmt a
  end.

(** ** The same program in other units *)

(** The same text; the objects written in it have the same values, the types converted to and
    the types of whole factors may be others. *)
Inductive respelled_expr (est : estimate) (at_ : frame) : pexpr -> pexpr -> Prop :=
| rs_var : forall x, respelled_expr est at_ (EVar x) (EVar x)
| rs_const : forall c c' v, at_value est at_ c v -> at_value est at_ c' v -> respelled_expr est at_ (EConst c) (EConst c')
| rs_pos : forall a a', respelled_expr est at_ a a' -> respelled_expr est at_ (EUnary UPos a) (EUnary UPos a')
| rs_neg : forall a a', respelled_expr est at_ a a' -> respelled_expr est at_ (EUnary UNeg a) (EUnary UNeg a')
| rs_mulv : forall r r' v a a', respelled_expr est at_ a a' -> respelled_expr est at_ (EUnary (UMulV r v) a) (EUnary (UMulV r' v) a')
| rs_vmul : forall r r' v a a', respelled_expr est at_ a a' -> respelled_expr est at_ (EUnary (UVMul r v) a) (EUnary (UVMul r' v) a')
| rs_divv : forall r r' v a a', respelled_expr est at_ a a' -> respelled_expr est at_ (EUnary (UDivV r v) a) (EUnary (UDivV r' v) a')
| rs_conv : forall t t' a a', respelled_expr est at_ a a' -> respelled_expr est at_ (EUnary (UConv t) a) (EUnary (UConv t') a')
| rs_binary : forall o a a' b b', respelled_expr est at_ a a' -> respelled_expr est at_ b b' -> respelled_expr est at_ (EBinary o a b) (EBinary o a' b')
| rs_move : forall t t' a a', respelled_expr est at_ a a' -> respelled_expr est at_ (EMove t a) (EMove t' a').
Inductive respelled_cond (est : estimate) (at_ : frame) : pcond -> pcond -> Prop :=
| rc_rel : forall o a a' b b', respelled_expr est at_ a a' -> respelled_expr est at_ b b' -> respelled_cond est at_ (CRel o a b) (CRel o a' b')
| rc_not : forall c c', respelled_cond est at_ c c' -> respelled_cond est at_ (CNot c) (CNot c')
| rc_and : forall c c' d d', respelled_cond est at_ c c' -> respelled_cond est at_ d d' -> respelled_cond est at_ (CAnd c d) (CAnd c' d')
| rc_or : forall c c' d d', respelled_cond est at_ c c' -> respelled_cond est at_ d d' -> respelled_cond est at_ (COr c d) (COr c' d').
Inductive respelled_change (est : estimate) (at_ : frame) : change -> change -> Prop :=
| rh_add : forall e e', respelled_expr est at_ e e' -> respelled_change est at_ (HAdd e) (HAdd e')
| rh_sub : forall e e', respelled_expr est at_ e e' -> respelled_change est at_ (HSub e) (HSub e')
| rh_mulv : forall r r' v, respelled_change est at_ (HMulV r v) (HMulV r' v)
| rh_divv : forall r r' v, respelled_change est at_ (HDivV r v) (HDivV r' v).
Inductive respelled (est : estimate) (at_ : frame) : pstmt -> pstmt -> Prop :=
| rt_skip : respelled est at_ SSkip SSkip
| rt_seq : forall a a' b b', respelled est at_ a a' -> respelled est at_ b b' -> respelled est at_ (SSeq a b) (SSeq a' b')
| rt_assign : forall x e e', respelled_expr est at_ e e' -> respelled est at_ (SAssign x e) (SAssign x e')
| rt_change : forall x h h', respelled_change est at_ h h' -> respelled est at_ (SChange x h) (SChange x h')
| rt_if : forall c c' a a' b b', respelled_cond est at_ c c' -> respelled est at_ a a' -> respelled est at_ b b' -> respelled est at_ (SIf c a b) (SIf c' a' b')
| rt_while : forall c c' a a', respelled_cond est at_ c c' -> respelled est at_ a a' -> respelled est at_ (SWhile c a) (SWhile c' a').
