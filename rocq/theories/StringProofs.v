(** Facts about fixed strings (model of fixed_string.h). *)

From Coq Require Import Ascii String Arith NArith Bool List Lia.
From Verif Require Import FixedString.
Import ListNotations.

Lemma nat_ascii_compare : forall x y,
  Nat.compare (nat_of_ascii x) (nat_of_ascii y) = Ascii.compare x y.
Proof.
  intros; unfold nat_of_ascii, Ascii.compare.
  symmetry. apply N2Nat.inj_compare.
Qed.

Lemma fs_compare_string : forall a b, fs_compare a b = String.compare a b.
Proof.
  induction a as [|x a IH]; destruct b as [|y b]; simpl; auto.
  rewrite nat_ascii_compare. destruct (Ascii.compare x y); auto.
Qed.

Lemma str_compare_refl : forall a, String.compare a a = Eq.
Proof.
  intros a. pose proof (String.compare_antisym a a) as H.
  destruct (String.compare a a); simpl in H; congruence.
Qed.

Lemma ascii_lt_trans : forall x y z,
  Ascii.compare x y = Lt -> Ascii.compare y z = Lt -> Ascii.compare x z = Lt.
Proof. unfold Ascii.compare; intros x y z; rewrite !N.compare_lt_iff; lia. Qed.

Lemma str_lt_trans : forall a b c,
  String.compare a b = Lt -> String.compare b c = Lt -> String.compare a c = Lt.
Proof.
  induction a as [|x a IH]; intros [|y b] [|z c]; simpl; try discriminate; auto.
  destruct (Ascii.compare x y) eqn:E1; try discriminate.
  - apply Ascii.compare_eq_iff in E1; subst.
    destruct (Ascii.compare y z) eqn:E2; try discriminate; eauto.
  - intros _. destruct (Ascii.compare y z) eqn:E2; try discriminate.
    + apply Ascii.compare_eq_iff in E2; subst. now rewrite E1.
    + now rewrite (ascii_lt_trans _ _ _ E1 E2).
Qed.

Lemma str_compare_antisym : forall a b, String.compare a b = CompOpp (String.compare b a).
Proof. intros; apply String.compare_antisym. Qed.

Lemma str_not_lt : forall a b, String.compare a b <> Lt ->
  a = b \/ String.compare b a = Lt.
Proof.
  intros a b H. destruct (String.compare a b) eqn:E.
  - left; now apply String.compare_eq_iff.
  - congruence.
  - right. rewrite str_compare_antisym, E. reflexivity.
Qed.

(** ** operator== *)
Lemma get_nth : forall s i, fs_get s i = nth i (list_ascii_of_string s) zero.
Proof.
  unfold fs_get; induction s as [|c s IH]; intros [|i]; simpl; auto.
Qed.

Lemma eq_loop_spec : forall k i a b,
  eq_loop k i a b = true <-> forall j, i <= j < i + k -> fs_get a j = fs_get b j.
Proof.
  induction k as [|k IH]; intros i a b; simpl.
  - split; [intros _ j; lia|auto].
  - destruct (Ascii.eqb_spec (fs_get a i) (fs_get b i)) as [E|E].
    + rewrite IH. split; intros H j Hj.
      * destruct (Nat.eq_dec j i); [subst; auto|apply H; lia].
      * apply H; lia.
    + split; [discriminate|]. intros H. exfalso; apply E, H; lia.
Qed.

Lemma fs_size_list : forall s, fs_size s = List.length (list_ascii_of_string s).
Proof. induction s; simpl; auto. Qed.

Lemma fs_eqb_eq : forall a b, fs_eqb a b = true <-> a = b.
Proof.
  intros a b; unfold fs_eqb. destruct (Nat.eqb_spec (fs_size a) (fs_size b)) as [E|E].
  - rewrite eq_loop_spec. split.
    + intros H. rewrite <- (string_of_list_ascii_of_string a), <- (string_of_list_ascii_of_string b).
      f_equal. apply nth_ext with zero zero.
      * now rewrite <- !fs_size_list.
      * intros n Hn. rewrite <- !get_nth. apply H. rewrite fs_size_list; lia.
    + intros ->; auto.
  - split; [discriminate|]. intros ->; congruence.
Qed.

Lemma fs_ltb_lt : forall a b, fs_ltb a b = true <-> String.compare a b = Lt.
Proof.
  intros; unfold fs_ltb; rewrite fs_compare_string.
  destruct (String.compare a b); split; congruence.
Qed.

Lemma st_ltb_irrefl : forall s, st_ltb s s = false.
Proof.
  intros; unfold st_ltb, st_compare. rewrite !fs_compare_string, !str_compare_refl. reflexivity.
Qed.

(** ** operator+ *)
Lemma set_nth_length : forall l i c, length (set_nth i c l) = length l.
Proof. induction l; intros [|i] c; simpl; auto. Qed.
Lemma set_nth_nth : forall l i c j, i < length l ->
  nth j (set_nth i c l) zero = if Nat.eqb j i then c else nth j l zero.
Proof.
  induction l as [|x l IH]; intros i c j H; simpl in H; [lia|].
  destruct i as [|i]; destruct j as [|j]; simpl; auto. apply IH; lia.
Qed.

Lemma copy_loop_length : forall k i base s txt, length (copy_loop k i base s txt) = length txt.
Proof. induction k; intros; simpl; auto. rewrite IHk. apply set_nth_length. Qed.

Lemma copy_loop_nth : forall k i base s txt j, base + i + k <= length txt ->
  nth j (copy_loop k i base s txt) zero =
  if (base + i <=? j) && (j <? base + i + k) then fs_get s (j - base) else nth j txt zero.
Proof.
  induction k as [|k IH]; intros i base s txt j H; cbn [copy_loop].
  - destruct (Nat.leb_spec (base + i) j); destruct (Nat.ltb_spec j (base + i + 0)); simpl; auto; lia.
  - rewrite IH by (rewrite set_nth_length; lia). rewrite set_nth_nth by lia.
    destruct (Nat.leb_spec (base + S i) j); destruct (Nat.ltb_spec j (base + S i + k));
    destruct (Nat.leb_spec (base + i) j); destruct (Nat.ltb_spec j (base + i + S k));
    destruct (Nat.eqb_spec j (base + i)); simpl; auto; try lia.
    subst. f_equal. lia.
Qed.

Lemma list_ascii_app : forall a b,
  list_ascii_of_string (a ++ b) = (list_ascii_of_string a ++ list_ascii_of_string b)%list.
Proof. induction a; intros; simpl; auto. now rewrite IHa. Qed.

Lemma fs_add_append : forall a b, fs_add a b = String.append a b.
Proof.
  intros a b. unfold fs_add, fs_of_array.
  rewrite <- (string_of_list_ascii_of_string (a ++ b)). f_equal. rewrite list_ascii_app.
  assert (La : fs_size a = length (list_ascii_of_string a)) by apply fs_size_list.
  assert (Lb : fs_size b = length (list_ascii_of_string b)) by apply fs_size_list.
  assert (Lz : length (zeros (fs_size a + fs_size b)) = fs_size a + fs_size b) by apply repeat_length.
  apply nth_ext with zero zero.
  - rewrite !copy_loop_length, Lz, app_length. lia.
  - rewrite !copy_loop_length, Lz. intros n Hn.
    rewrite copy_loop_nth by (rewrite copy_loop_length; lia).
    rewrite copy_loop_nth by lia.
    destruct (Nat.leb_spec (fs_size a + 0) n); destruct (Nat.ltb_spec n (fs_size a + 0 + fs_size b));
    destruct (Nat.leb_spec (0 + 0) n); destruct (Nat.ltb_spec n (0 + 0 + fs_size a)); simpl; try lia.
    + rewrite app_nth2 by lia. rewrite get_nth, La. reflexivity.
    + rewrite app_nth1 by lia. rewrite get_nth. f_equal; lia.
Qed.

Lemma append_assoc : forall a b c : string, ((a ++ b) ++ c = a ++ (b ++ c))%string.
Proof. induction a; intros; simpl; auto. now rewrite IHa. Qed.
Lemma append_nil_r : forall a : string, (a ++ "" = a)%string.
Proof. induction a; simpl; auto. now rewrite IHa. Qed.
Lemma append_length : forall a b : string, String.length (a ++ b) = String.length a + String.length b.
Proof. induction a; intros; simpl; auto. Qed.

(** ** Orders *)
Lemma fs_compare_eq : forall a b, fs_compare a b = Eq <-> a = b.
Proof.
  intros; rewrite fs_compare_string. split; [apply String.compare_eq_iff|].
  intros ->; apply str_compare_refl.
Qed.
Lemma fs_compare_antisym : forall a b, fs_compare a b = CompOpp (fs_compare b a).
Proof. intros; rewrite !fs_compare_string; apply str_compare_antisym. Qed.
Lemma fs_lt_trans : forall a b c, fs_compare a b = Lt -> fs_compare b c = Lt -> fs_compare a c = Lt.
Proof. intros a b c; rewrite !fs_compare_string; apply str_lt_trans. Qed.

Lemma st_eqb_eq : forall a b, st_eqb a b = true <-> a = b.
Proof.
  intros [a1 a2] [b1 b2]; unfold st_eqb; simpl. rewrite andb_true_iff, !fs_eqb_eq.
  split; [intros [-> ->]; auto|intros H; inversion H; auto].
Qed.
Lemma st_compare_eq : forall a b, st_compare a b = Eq <-> a = b.
Proof.
  intros [a1 a2] [b1 b2]; unfold st_compare; simpl.
  destruct (fs_compare a1 b1) eqn:E.
  - apply fs_compare_eq in E; subst. rewrite fs_compare_eq. split; [intros ->; auto|intros H; inversion H; auto].
  - split; [discriminate|]. intros H; inversion H; subst.
    rewrite (proj2 (fs_compare_eq b1 b1)) in E by auto. discriminate.
  - split; [discriminate|]. intros H; inversion H; subst.
    rewrite (proj2 (fs_compare_eq b1 b1)) in E by auto. discriminate.
Qed.
Lemma st_compare_antisym : forall a b, st_compare a b = CompOpp (st_compare b a).
Proof.
  intros [a1 a2] [b1 b2]; unfold st_compare; simpl. rewrite (fs_compare_antisym a1 b1).
  destruct (fs_compare b1 a1) eqn:E; simpl; auto. apply fs_compare_antisym.
Qed.
Lemma st_lt_trans : forall a b c, st_compare a b = Lt -> st_compare b c = Lt -> st_compare a c = Lt.
Proof.
  intros [a1 a2] [b1 b2] [c1 c2]; unfold st_compare; simpl.
  destruct (fs_compare a1 b1) eqn:E1; try discriminate; intros H1.
  - apply fs_compare_eq in E1; subst. destruct (fs_compare b1 c1); auto.
    intros H2. eapply fs_lt_trans; eauto.
  - destruct (fs_compare b1 c1) eqn:E2; try discriminate; intros _.
    + apply fs_compare_eq in E2; subst. now rewrite E1.
    + now rewrite (fs_lt_trans _ _ _ E1 E2).
Qed.

(** The order is lexicographic: the shorter prefix, or the first differing character, decides. *)
Lemma fs_lt_lexicographic : forall a b, fs_compare a b = Lt <->
  (exists c r, b = (a ++ String c r)%string) \/
  (exists p x y ra rb, a = (p ++ String x ra)%string /\ b = (p ++ String y rb)%string /\
     nat_of_ascii x < nat_of_ascii y).
Proof.
  induction a as [|x a IH]; intros [|y b]; simpl.
  - split; [discriminate|]. intros [(c & r & H)|(p & x & y & ra & rb & H & _)].
    + discriminate.
    + destruct p; discriminate.
  - split; auto. intros _. left. now exists y, b.
  - split; [discriminate|]. intros [(c & r & H)|(p & x' & y & ra & rb & _ & H & _)].
    + discriminate.
    + destruct p; discriminate.
  - destruct (Nat.compare (nat_of_ascii x) (nat_of_ascii y)) eqn:E.
    + apply Nat.compare_eq_iff in E.
      assert (x = y) by (rewrite <- (ascii_nat_embedding x), <- (ascii_nat_embedding y); congruence).
      subst y. rewrite IH. split.
      * intros [(c & r & ->)|(p & u & v & ra & rb & -> & -> & H)].
        -- left. now exists c, r.
        -- right. exists (String x p), u, v, ra, rb. auto.
      * intros [(c & r & H)|(p & u & v & ra & rb & H1 & H2 & H)].
        -- left. inversion H. now exists c, r.
        -- destruct p as [|z p]; simpl in H1, H2.
           ++ inversion H1; inversion H2; subst. lia.
           ++ inversion H1; inversion H2; subst. right. exists p, u, v, ra, rb. auto.
    + apply Nat.compare_lt_iff in E. split; auto. intros _. right.
      exists ""%string, x, y, a, b. auto.
    + apply Nat.compare_gt_iff in E. split; [discriminate|].
      intros [(c & r & H)|(p & u & v & ra & rb & H1 & H2 & H)].
      * inversion H; subst. lia.
      * destruct p as [|z p]; simpl in H1, H2; inversion H1; inversion H2; subst; lia.
Qed.
