(** Specification of what a user-defined representation owes to its elements: independent
    of how the library computes with it. *)

From Coq Require Import ZArith List Bool.
From Verif Require Import Outcome CInt Rep QuantityCast Quantity Custom.
Local Open Scope Z_scope.
Local Open Scope res_scope.

(** [O a v x]: the number [x] of type [a] is seen in the value [v] of type [V<a>] — a
    component of a vector, the central value of a measurement.  The class behaves like
    the numbers seen, for the operand types in [D]: whenever an operation of the class
    yields a value, the same operation of the numbers yields what is seen in it. *)
Record observation (cl : repclass) (D : rep -> rep -> Prop) (O : rep -> rc_val cl -> number -> Prop) : Prop := {
  ob_value : forall a v x, O a v x -> num_ok a x = true;
  ob_convert : forall a b v x v', D a b -> O a v x -> rc_convert cl a b v = Ok v' ->
    exists y, n_convert b x = Ok y /\ O b v' y;
  ob_inject : forall a b n v', D a b -> num_ok a n = true -> rc_inject cl a b n = Ok v' ->
    exists y, n_convert b n = Ok y /\ O b v' y;
  ob_result : forall o a b, D a b -> rc_result cl o a b = arith_rep a b;
  ob_scale : forall o a b v x k v', D a b -> O a v x -> num_ok b k = true -> rc_scale cl o a b v k = Ok v' ->
    exists y, n_op o a b x k = Ok y /\ O (arith_rep a b) v' y;
  ob_scale_left : forall a b v x k v', D a b -> O a v x -> num_ok b k = true -> rc_scale_left cl b a k v = Ok v' ->
    exists y, n_op OpMul b a k x = Ok y /\ O (arith_rep a b) v' y;
  ob_op : forall o a b v w x y v', D a b -> O a v x -> O b w y -> rc_op cl o a b v w = Ok v' ->
    exists z, n_op o a b x y = Ok z /\ O (arith_rep a b) v' z;
  ob_neg : forall a v x v', D a a -> O a v x -> rc_neg cl a v = Ok v' ->
    exists y, n_neg a x = Ok y /\ O (promote_rep a) v' y;
  ob_eqb : forall a v w x y, O a v x -> O a w y -> rc_eqb cl a v w = Ok true -> n_eqb x y = Ok true }.

(** The operand types a cast between [V<from>] and [V<to>] meets. *)
Definition cast_types (cl : repclass) (D : rep -> rep -> Prop) (from to : rep) : Prop :=
  let cm := common_rep from to in
  let rt := common_rep cm (RInt I64) in
  if rc_mixes cl then
    D from rt /\ D (RInt I64) rt /\ D rt rt /\ D rt to /\ (floating rt = true -> D (RFlt F64) rt)
  else D from cm /\ D cm rt /\ D rt rt /\ D rt to.

(** Does the conversion of [from] to the common type of [from] and [to] turn negative
    numbers into positive ones of less than 64 bits? *)
Definition sign_lost (from to : rep) : bool :=
  match from, common_rep from to with
  | RInt s, RInt t => isigned s && negb (isigned t) && negb (width_eqb (iwidth t) W64)
  | _, _ => false
  end.
Definition negative (x : number) : bool := match x with NInt z => z <? 0 | NFlt _ => false end.
Definition sign_kept (cl : repclass) (from to : rep) (x : number) : Prop :=
  rc_mixes cl = true \/ sign_lost from to = false \/ negative x = false.
