(** Proofs about the type list algorithms of [TypeList.v]. *)

From Coq Require Import Arith List Permutation Sorted Lia Bool.
From Verif Require Import TypeList.
Import ListNotations.

Section Proofs.
Context {A : Type}.

Lemma split_impl_spec : forall n (l : list A) idx,
  split_impl idx n l = (firstn (n - idx) l, skipn (n - idx) l).
Proof.
  intros n l; induction l as [|x l IH]; intros idx; simpl.
  - now rewrite firstn_nil, skipn_nil.
  - rewrite IH. destruct (idx <? n) eqn:E.
    + apply Nat.ltb_lt in E. replace (n - idx) with (S (n - S idx)) by lia. reflexivity.
    + apply Nat.ltb_ge in E. replace (n - idx) with 0 by lia.
      replace (n - S idx) with 0 by lia. reflexivity.
Qed.

Lemma split_half_spec : forall (l : list A),
  split_half l = (firstn (Nat.div2 (length l + 1)) l, skipn (Nat.div2 (length l + 1)) l).
Proof. intros; unfold split_half; rewrite split_impl_spec, Nat.sub_0_r; reflexivity. Qed.

Context (pred : A -> A -> bool).

Lemma merge_sorted_nil_l : forall l, merge_sorted pred [] l = l.
Proof. intros [|x l]; reflexivity. Qed.
Lemma merge_sorted_nil_r : forall l, merge_sorted pred l [] = l.
Proof. intros [|x l]; reflexivity. Qed.
Lemma merge_sorted_cons : forall x l y r,
  merge_sorted pred (x :: l) (y :: r) =
  if pred x y then x :: merge_sorted pred l (y :: r) else y :: merge_sorted pred (x :: l) r.
Proof. reflexivity. Qed.

Lemma merge_sorted_perm : forall l1 l2, Permutation (merge_sorted pred l1 l2) (l1 ++ l2).
Proof.
  induction l1 as [|x l1 IH]; intros l2.
  - now rewrite merge_sorted_nil_l.
  - induction l2 as [|y l2 IH2].
    + rewrite merge_sorted_nil_r, app_nil_r. reflexivity.
    + rewrite merge_sorted_cons. destruct (pred x y).
      * simpl. constructor. apply IH.
      * rewrite IH2. change (Permutation ([y] ++ (x :: l1) ++ l2) ((x :: l1) ++ [y] ++ l2)).
        rewrite !app_assoc. apply Permutation_app_tail, Permutation_app_comm.
Qed.

(** Strict weak order. *)
Context (ntrans : forall x y z, pred x y = false -> pred y z = false -> pred x z = false)
        (asym : forall x y, pred x y = true -> pred y x = false).

(** [y] may come after [x]. *)
Let ord x y := pred y x = false.

Lemma merge_sorted_sorted : forall l1 l2,
  StronglySorted ord l1 -> StronglySorted ord l2 -> StronglySorted ord (merge_sorted pred l1 l2).
Proof.
  induction l1 as [|x l1 IH]; intros l2 S1 S2.
  - now rewrite merge_sorted_nil_l.
  - induction l2 as [|y l2 IH2]; [now rewrite merge_sorted_nil_r|].
    rewrite merge_sorted_cons.
    pose proof (StronglySorted_inv S1) as [S1' F1].
    pose proof (StronglySorted_inv S2) as [S2' F2].
    destruct (pred x y) eqn:E.
    + constructor; [apply IH; auto|].
      rewrite Forall_forall in *. intros z Hz.
      apply (Permutation_in _ (merge_sorted_perm _ _)) in Hz.
      apply in_app_or in Hz as [Hz|[->|Hz]].
      * apply F1; auto.
      * unfold ord. apply asym; auto.
      * unfold ord. apply ntrans with y; [apply F2; auto|apply asym; auto].
    + constructor; [apply IH2; auto|].
      rewrite Forall_forall in *. intros z Hz.
      apply (Permutation_in _ (merge_sorted_perm _ _)) in Hz.
      apply in_app_or in Hz as [[->|Hz]|Hz].
      * exact E.
      * unfold ord. apply ntrans with x; [apply F1; auto|exact E].
      * apply F2; auto.
Qed.

Lemma sort_impl_spec : forall fuel l, length l <= fuel ->
  Permutation (sort_impl pred fuel l) l /\ StronglySorted ord (sort_impl pred fuel l).
Proof.
  induction fuel as [|f IH]; intros l Hl.
  - destruct l; [|simpl in Hl; lia]. simpl. split; constructor.
  - destruct l as [|x [|y r]].
    + simpl; split; constructor.
    + simpl; split; [reflexivity|repeat constructor].
    + change (sort_impl pred (S f) (x :: y :: r)) with
        (let (a, b) := split_half (x :: y :: r) in
         merge_sorted pred (sort_impl pred f a) (sort_impl pred f b)).
      rewrite split_half_spec.
      set (l := x :: y :: r) in *.
      set (k := Nat.div2 (length l + 1)).
      assert (Hk : 0 < k < length l).
      { unfold k. replace (length l + 1) with (S (S (length r + 1))) by (unfold l; simpl; lia).
        simpl Nat.div2. unfold l; simpl length.
        pose proof (Nat.div2_decr (length r + 1) (length r)). lia. }
      destruct (IH (firstn k l)) as [P1 S1]; [rewrite firstn_length; lia|].
      destruct (IH (skipn k l)) as [P2 S2]; [rewrite skipn_length; lia|].
      split.
      * rewrite merge_sorted_perm, P1, P2. now rewrite firstn_skipn.
      * apply merge_sorted_sorted; auto.
Qed.

Lemma type_list_sort_spec : forall l,
  Permutation (type_list_sort pred l) l /\ StronglySorted ord (type_list_sort pred l).
Proof. intros; apply sort_impl_spec; auto. Qed.

End Proofs.
