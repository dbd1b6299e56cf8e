(** Texts of numbers. *)

From Coq Require Import ZArith Ascii String List Bool Lia.
From Verif Require Import Outcome CInt FixedString StringProofs TextTools SpecText.
Import ListNotations.
Local Open Scope string_scope.
Local Open Scope Z_scope.
Local Open Scope res_scope.

Lemma st_add_append : forall a b, st_add a b =
  SymbolText (st_standard a ++ st_standard b) (st_ascii a ++ st_ascii b).
Proof. intros [a1 a2] [b1 b2]. unfold st_add. cbn [st_standard st_ascii]. now rewrite !fs_add_append. Qed.

Lemma concat_app : forall l r, String.concat "" (l ++ r) = String.concat "" l ++ String.concat "" r.
Proof.
  induction l as [|x l IH]; intros r; [reflexivity|]. cbn [app].
  assert (C : forall y m, String.concat "" (y :: m) = y ++ String.concat "" m).
  { intros y m. cbn [String.concat]. destruct m; [now rewrite append_nil_r|reflexivity]. }
  rewrite !C, IH. now rewrite append_assoc.
Qed.
Lemma write_app : forall f a b, write f (a ++ b) = write f a ++ write f b.
Proof. intros. unfold write. now rewrite map_app, concat_app. Qed.
Lemma write_one : forall f d, write f [d] = f d.
Proof. reflexivity. Qed.
Lemma write_cons : forall f d ds, write f (d :: ds) = f d ++ write f ds.
Proof. intros. apply (write_app f [d] ds). Qed.

Lemma value_snoc : forall ds d, digits_value (ds ++ [d]) = 10 * digits_value ds + d.
Proof. intros. unfold digits_value. now rewrite fold_left_app. Qed.

Lemma decimal_one : forall n, 0 <= n <= 9 -> decimal [n] n.
Proof.
  intros n H. split; [now constructor|]. split; [unfold digits_value; cbn; lia|].
  destruct (Z.eq_dec n 0) as [->|N]; [now left|right; now exists n, []].
Qed.
Lemma decimal_snoc : forall ds n d, 0 < n -> 0 <= d <= 9 -> decimal ds n -> decimal (ds ++ [d]) (10 * n + d).
Proof.
  intros ds n d P D (F & V & H). split; [apply Forall_app; split; auto|]. split; [rewrite value_snoc; now rewrite V|].
  right. destruct H as [->|(x & r & -> & X)]; [unfold digits_value in V; cbn in V; lia|]. now exists x, (r ++ [d])%list.
Qed.

Lemma sup_digit : forall d, 0 <= d <= 9 -> superscript_number d = Ok (superscript_of_digit d) /\ digit_char d = char_of_digit d.
Proof.
  intros d H. assert (C : d = 0 \/ d = 1 \/ d = 2 \/ d = 3 \/ d = 4 \/ d = 5 \/ d = 6 \/ d = 7 \/ d = 8 \/ d = 9) by lia.
  repeat (destruct C as [->|C]; [split; reflexivity|]). subst d. split; reflexivity.
Qed.


Lemma helper_small : forall k d, 0 <= d <= 9 ->
  superscript_helper (S k) d = Ok (SymbolText (superscript_of_digit d) (char_of_digit d)) /\
  regular_loop (S k) d = Ok (st_of_ascii (char_of_digit d)).
Proof.
  intros k d H. destruct (sup_digit d H) as [A B]. cbn [superscript_helper regular_loop].
  destruct (Z.ltb_spec d 0); [lia|]. destruct (Z.ltb_spec d 10); [|lia]. rewrite A, B. split; reflexivity.
Qed.
Lemma helper_digits : forall k v, 0 <= v < 10 ^ Z.of_nat (S k) -> exists ds, decimal ds v /\
  superscript_helper (S k) v = Ok (SymbolText (write superscript_of_digit ds) (write char_of_digit ds)) /\
  regular_loop (S k) v = Ok (st_of_ascii (write char_of_digit ds)).
Proof.
  induction k as [|k IH]; intros v H.
  - change (10 ^ Z.of_nat 1) with 10 in H. exists [v]. split; [apply decimal_one; lia|]. apply helper_small. lia.
  - destruct (Z.ltb_spec v 10) as [L|L].
    { exists [v]. split; [apply decimal_one; lia|]. apply helper_small. lia. }
    assert (Q : Z.quot v 10 = v / 10) by (apply Z.quot_div_nonneg; lia).
    assert (R : Z.rem v 10 = v mod 10) by (apply Z.rem_mod_nonneg; lia).
    pose proof (Z.mod_pos_bound v 10 ltac:(lia)) as M. pose proof (Z.div_mod v 10 ltac:(lia)) as E.
    assert (D : 0 < v / 10) by (apply Z.div_str_pos; lia).
    rewrite (Nat2Z.inj_succ (S k)), Z.pow_succ_r in H by lia.
    destruct (IH (v / 10)) as (ds & Dc & A & B).
    { split; [lia|]. apply Z.div_lt_upper_bound; lia. }
    exists (ds ++ [v mod 10])%list. split.
    { rewrite E at 2. apply decimal_snoc; auto. lia. }
    destruct (helper_small k (v mod 10) ltac:(lia)) as [A' B'].
    rewrite !write_app, !write_one.
    remember (S k) as k' eqn:Ek. cbn [superscript_helper regular_loop].
    destruct (Z.ltb_spec v 0); [lia|]. destruct (Z.ltb_spec v 10); [lia|]. rewrite Q, R, A, B, A', B'. cbn [bind].
    split; [|]; rewrite st_add_append; reflexivity.
Qed.

(** ** Reading back *)

Lemma char_reads : forall d acc r, 0 <= d <= 9 -> read_digits acc (char_of_digit d ++ r) = read_digits (10 * acc + d) r.
Proof.
  intros d acc r H. assert (C : d = 0 \/ d = 1 \/ d = 2 \/ d = 3 \/ d = 4 \/ d = 5 \/ d = 6 \/ d = 7 \/ d = 8 \/ d = 9) by lia.
  repeat (destruct C as [->|C]; [reflexivity|]). subst d. reflexivity.
Qed.
Lemma sup_reads : forall d acc r, 0 <= d <= 9 -> read_superscripts acc (superscript_of_digit d ++ r) = read_superscripts (10 * acc + d) r.
Proof.
  intros d acc r H. assert (C : d = 0 \/ d = 1 \/ d = 2 \/ d = 3 \/ d = 4 \/ d = 5 \/ d = 6 \/ d = 7 \/ d = 8 \/ d = 9) by lia.
  repeat (destruct C as [->|C]; [reflexivity|]). subst d. reflexivity.
Qed.
Lemma write_reads : forall ds acc, Forall (fun d => 0 <= d <= 9) ds ->
  read_digits acc (write char_of_digit ds) = Some (fold_left (fun a d => 10 * a + d) ds acc) /\
  read_superscripts acc (write superscript_of_digit ds) = Some (fold_left (fun a d => 10 * a + d) ds acc).
Proof.
  induction ds as [|d ds IH]; intros acc F; [split; reflexivity|]. inversion F; subst. rewrite !write_cons, char_reads, sup_reads by auto.
  cbn [fold_left]. now apply IH.
Qed.
Lemma decimal_reads : forall ds n, decimal ds n ->
  read_nat (write char_of_digit ds) = Some n /\ read_superscript_nat (write superscript_of_digit ds) = Some n.
Proof.
  intros ds n (F & V & H). destruct (write_reads ds 0 F) as [A B].
  assert (Ne : ds <> []) by (destruct H as [->|(x & r & -> & _)]; discriminate).
  unfold read_nat, read_superscript_nat. rewrite A, B. fold (digits_value ds). rewrite V.
  destruct ds as [|d ds]; [contradiction|]. rewrite !write_cons. inversion F as [|? ? D _]; subst.
  assert (C : d = 0 \/ d = 1 \/ d = 2 \/ d = 3 \/ d = 4 \/ d = 5 \/ d = 6 \/ d = 7 \/ d = 8 \/ d = 9) by lia.
  repeat (destruct C as [->|C]; [split; reflexivity|]). subst d. split; reflexivity.
Qed.

(** ** The whole texts *)

Lemma decimal_first : forall ds n, decimal ds n -> exists d r, ds = d :: r /\ 0 <= d <= 9.
Proof.
  intros ds n (F & _ & H). destruct H as [->|(x & r & -> & _)]; inversion F; subst; eauto.
Qed.
Lemma decimal_reads_int : forall ds n, decimal ds n ->
  read_int (write char_of_digit ds) = Some n /\ read_superscript (write superscript_of_digit ds) = Some n.
Proof.
  intros ds n D. destruct (decimal_reads ds n D) as [A B]. destruct (decimal_first ds n D) as (d & r & -> & R).
  enough (read_int (write char_of_digit (d :: r)) = read_nat (write char_of_digit (d :: r)) /\
    read_superscript (write superscript_of_digit (d :: r)) = read_superscript_nat (write superscript_of_digit (d :: r))) as [X Y]
    by (split; congruence).
  rewrite !write_cons. clear - R.
  assert (C : d = 0 \/ d = 1 \/ d = 2 \/ d = 3 \/ d = 4 \/ d = 5 \/ d = 6 \/ d = 7 \/ d = 8 \/ d = 9) by lia.
  repeat (destruct C as [->|C]; [split; [reflexivity|destruct (write superscript_of_digit r); reflexivity]|]).
  subst d. split; [reflexivity|destruct (write superscript_of_digit r); reflexivity].
Qed.

Lemma pow_fuel : INTMAX_MAX < 10 ^ Z.of_nat 20.
Proof. reflexivity. Qed.

Lemma regular_pos : forall v, 0 <= v <= INTMAX_MAX -> exists ds, decimal ds v /\ regular v = Ok (st_of_ascii (write char_of_digit ds)).
Proof.
  intros v H. pose proof pow_fuel as P. destruct (helper_digits 20 v) as (ds & D & _ & B).
  { rewrite Nat2Z.inj_succ, Z.pow_succ_r by lia. lia. }
  exists ds. split; auto.
Qed.
Lemma neg_ok : forall v, INTMAX_MIN < v < 0 -> cneg I64 v = Ok (- v).
Proof.
  intros v H. unfold cneg. assert (E : in_range I64 (- v) = true).
  { apply in_range_spec. change (imin I64) with INTMAX_MIN. change (imax I64) with INTMAX_MAX. unfold INTMAX_MIN, INTMAX_MAX in *. lia. }
  unfold arith. cbn. now rewrite E.
Qed.
Lemma helper_neg : forall k v, INTMAX_MIN < v < 0 ->
  superscript_helper (S k) v = (t <- superscript_helper k (- v); Ok (st_add superscript_minus t)) /\
  regular_loop (S k) v = (t <- superscript_helper k (- v); Ok (st_add (st_of_ascii "-") t)).
Proof.
  intros k v H. cbn [superscript_helper regular_loop]. destruct (Z.ltb_spec v 0); [|lia]. rewrite neg_ok by lia. split; reflexivity.
Qed.
Lemma superscript_digits : forall v, INTMAX_MIN < v <= INTMAX_MAX -> exists ds, decimal ds (Z.abs v) /\
  superscript v = Ok (if v <? 0 then SymbolText ("⁻" ++ write superscript_of_digit ds) ("^-" ++ write char_of_digit ds)
                      else SymbolText (write superscript_of_digit ds) ("^" ++ write char_of_digit ds)).
Proof.
  intros v H. pose proof pow_fuel as P. unfold superscript. change fuel_digits with 21%nat.
  destruct (Z.ltb_spec v 0) as [L|L].
  - destruct (helper_digits 19 (- v)) as (ds & D & A & _); [unfold INTMAX_MIN, INTMAX_MAX in *; lia|].
    exists ds. rewrite Z.abs_neq by lia. split; auto. rewrite (proj1 (helper_neg 20 v ltac:(lia))), A. cbn [bind].
    rewrite !st_add_append. reflexivity.
  - destruct (helper_digits 20 v) as (ds & D & A & _).
    { rewrite Nat2Z.inj_succ, Z.pow_succ_r by lia. lia. }
    exists ds. rewrite Z.abs_eq by lia. split; auto. rewrite A. cbn [bind]. rewrite st_add_append. reflexivity.
Qed.
Lemma regular_neg : forall v, INTMAX_MIN < v < 0 -> exists ds, decimal ds (- v) /\
  regular v = Ok (SymbolText ("-" ++ write superscript_of_digit ds) ("-" ++ write char_of_digit ds)).
Proof.
  intros v H. pose proof pow_fuel as P. unfold regular. change fuel_digits with 21%nat.
  destruct (helper_digits 19 (- v)) as (ds & D & A & _); [unfold INTMAX_MIN, INTMAX_MAX in *; lia|].
  exists ds. split; auto. rewrite (proj2 (helper_neg 20 v ltac:(lia))), A. cbn [bind]. rewrite st_add_append. reflexivity.
Qed.
