(** Specification vocabulary for programs. *)

From Coq Require Import ZArith List Bool.
From Verif Require Import Outcome CInt Rep Reference QuantityCast Quantity Point Affine Static SpecStatic Program.
Import ListNotations.

(** Every variable holds an object of the type it was declared with. *)
Definition well_typed (g : declared) (m : store) : Prop := Forall2 (fun t v => vtype v = t /\ sound v) g m.

(** The literals of the program are values of their types. *)
Fixpoint pexpr_sound (e : pexpr) : Prop :=
  match e with
  | EVar _ => True
  | EConst v => sound v
  | EUnary o a => unary_sound o /\ pexpr_sound a
  | EBinary _ a b => pexpr_sound a /\ pexpr_sound b
  | EMove _ a | EPointCast _ a | EPointCastTo _ a | ERelative a | EMake _ a => pexpr_sound a
  end.
Fixpoint pcond_sound (c : pcond) : Prop :=
  match c with
  | CRel _ a b => pexpr_sound a /\ pexpr_sound b
  | CNot c => pcond_sound c
  | CAnd c d | COr c d => pcond_sound c /\ pcond_sound d
  end.
Definition change_sound (h : change) : Prop :=
  match h with
  | HInc | HDec => True
  | HAdd e | HSub e | HRem e => pexpr_sound e
  | HMulV r v | HDivV r v | HRemV r v => num_ok r v = true
  end.
Fixpoint pstmt_sound (s : pstmt) : Prop :=
  match s with
  | SSkip => True
  | SSeq a b => pstmt_sound a /\ pstmt_sound b
  | SAssign _ e => pexpr_sound e
  | SChange _ h => change_sound h
  | SIf c a b => pcond_sound c /\ pstmt_sound a /\ pstmt_sound b
  | SWhile c a => pcond_sound c /\ pstmt_sound a
  end.

(** The program goes on: it ends with [P], is undefined on these numbers, or needs more steps. *)
Definition goes {A : Type} (P : A -> Prop) (r : res A) : Prop := runs P r \/ r = Stuck.

(** A program without branches: all of it is executed. *)
Fixpoint straight (s : pstmt) : Prop :=
  match s with
  | SSkip | SAssign _ _ | SChange _ _ => True
  | SSeq a b => straight a /\ straight b
  | SIf _ _ _ | SWhile _ _ => False
  end.
