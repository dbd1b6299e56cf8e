(** Model of [src/core/include/units/bits/external/type_list.h].

    A type list [List<Types...>] is a list; a type-level predicate
    [Pred<A, B>::value] is a boolean function. *)

From Coq Require Import Arith List.
Import ListNotations.

Section TypeList.
Context {A : Type}.

(** [type_list_push_front], type_list.h:49-64. *)
Definition push_front (l new : list A) : list A := new ++ l.

(** [split_impl], type_list.h:104-128: the element at position [idx] goes to the
    first list if [idx < n], else to the second. *)
Fixpoint split_impl (idx n : nat) (l : list A) : list A * list A :=
  match l with
  | [] => ([], [])
  | x :: r =>
      let (a, b) := split_impl (S idx) n r in
      if idx <? n then (push_front a [x], b) else (a, push_front b [x])
  end.

(** [type_list_split_half], type_list.h:145-150. *)
Definition split_half (l : list A) : list A * list A :=
  split_impl 0 (Nat.div2 (length l + 1)) l.

Context (pred : A -> A -> bool).

(** [type_list_merge_sorted_impl], type_list.h:154-187: the head of the left list
    goes first only if [pred lhs rhs]; otherwise the head of the right list. *)
Fixpoint merge_sorted (l1 : list A) : list A -> list A :=
  fix aux (l2 : list A) : list A :=
    match l1, l2 with
    | [], _ => l2
    | _, [] => l1
    | x :: r1, y :: r2 =>
        if pred x y then push_front (merge_sorted r1 l2) [x]
        else push_front (aux r2) [y]
    end.

(** [type_list_sort_impl], type_list.h:195-218.  The recursion is on the length;
    [fuel] is the recursion depth allowed. *)
Fixpoint sort_impl (fuel : nat) (l : list A) : list A :=
  match l with
  | [] => []
  | [x] => [x]
  | _ =>
      match fuel with
      | O => l
      | S f =>
          let (a, b) := split_half l in
          merge_sorted (sort_impl f a) (sort_impl f b)
      end
  end.
Definition type_list_sort (l : list A) : list A := sort_impl (length l) l.

End TypeList.
