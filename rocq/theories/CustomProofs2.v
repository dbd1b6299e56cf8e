(** Vectors, measurements and [min_expl] as representations. *)

From Coq Require Import ZArith List Bool Lia SpecFloat.
From Verif Require Import Outcome CInt RatioMaths Pow Root Ratio FixedString Unit Dim DimOp Equivalent Rep Reference
  QuantityCast CommonQuantity Quantity SpecRatio RatioProofs CastProofs SpecReal FloatProofs FloatCastProofs FloatAddProofs ChronoProofs
  ExprProofs3 Custom SpecCustom CustomProofs.
Import ListNotations.
Local Open Scope Z_scope.
Local Open Scope res_scope.

(** ** Vectors *)

Lemma collect_map : forall (A B : Type) (f : A -> res B) l m, collect (map f l) = Ok m <-> Forall2 (fun x y => f x = Ok y) l m.
Proof.
  intros A B f l. induction l as [|x l IH]; intros m; cbn [map collect]; split; intros H.
  - inversion H. constructor.
  - now inversion H.
  - step H as a E. step H as s S. inversion H; subst m. constructor; auto. now apply IH.
  - inversion H as [|? y ? m' Y M]; subst. rewrite Y. cbn [bind]. apply IH in M. rewrite M. reflexivity.
Qed.
Lemma zip_with_spec : forall (A B : Type) (f : A -> A -> res B) l m r, zip_with f l m = Ok r <->
  length l = length m /\ Forall2 (fun p z => f (fst p) (snd p) = Ok z) (combine l m) r.
Proof.
  intros A B f l. induction l as [|x l IH]; intros [|y m] r; cbn [zip_with length combine]; split; intros H; try discriminate;
    try (destruct H; discriminate).
  - inversion H. split; constructor.
  - destruct H as [_ H]. now inversion H.
  - step H as z Z. step H as s S. inversion H; subst r. apply IH in S. destruct S. split; [lia|]. now constructor.
  - destruct H as [L H]. inversion H as [|? z ? r' Z R]; subst. cbn [fst snd] in Z. rewrite Z. cbn [bind].
    assert (S : zip_with f l m = Ok r') by (apply IH; split; [lia|exact R]). rewrite S. reflexivity.
Qed.

(** Component [i] of a vector with elements of type [a]. *)
Definition component (i : nat) (a : rep) (v : list number) (x : number) : Prop :=
  Forall (fun y => num_ok a y = true) v /\ nth_error v i = Some x.

Lemma Forall2_nth : forall (A B : Type) (P : A -> B -> Prop) l m i x, Forall2 P l m -> nth_error l i = Some x ->
  exists y, nth_error m i = Some y /\ P x y.
Proof.
  intros A B P l m i x F. revert i. induction F as [|a b l m H F IH]; intros [|i] N; try discriminate; cbn [nth_error] in *.
  - inversion N; subst. eauto.
  - auto.
Qed.
Lemma map_component : forall (f : number -> res number) i a b v x v', (forall y z, num_ok a y = true -> f y = Ok z -> num_ok b z = true) ->
  component i a v x -> collect (map f v) = Ok v' -> exists y, f x = Ok y /\ component i b v' y.
Proof.
  intros f i a b v x v' P (F & N) H. apply collect_map in H. destruct (Forall2_nth _ _ _ _ _ i x H N) as (y & Y & E). exists y. split; [exact E|].
  split; [|exact Y]. clear - P F H. induction H as [|p q v v' E H IH]; constructor; inversion F; subst; eauto.
Qed.
Lemma nth_combine : forall (A B : Type) (l : list A) (m : list B) i x y, nth_error l i = Some x -> nth_error m i = Some y ->
  nth_error (combine l m) i = Some (x, y).
Proof.
  intros A B l. induction l as [|a l IH]; intros [|b m] [|i] x y X Y; try discriminate; cbn [nth_error combine] in *.
  - congruence.
  - auto.
Qed.
Lemma n_neg_ok : forall a x y, num_ok a x = true -> n_neg a x = Ok y -> num_ok (promote_rep a) y = true.
Proof.
  intros [t|f] [z|v] y X H; try discriminate; cbn [n_neg promote_rep num_ok] in *.
  - step H as r R. inversion H; subst y. cbn [num_ok]. eapply arith_result_in_range; eauto.
  - inversion H; subst y. now apply opp_valid.
Qed.

Lemma vector_observation : forall i, observation vector_class (fun _ _ => True) (component i).
Proof.
  intros i. constructor; cbn [vector_class rc_val rc_convert rc_mixes rc_inject rc_result rc_scale rc_scale_left rc_op rc_neg rc_eqb].
  - intros a v x (F & N). apply nth_error_In in N. rewrite Forall_forall in F. auto.
  - intros a b v x v' _ V H. apply (map_component (n_convert b) i a b v x v'); auto. intros y z _. apply convert_ok.
  - discriminate.
  - reflexivity.
  - intros o a b v x k v' _ V K H. unfold vector_scale in H.
    destruct o; try discriminate; apply (map_component (fun x => n_op _ a b x k) i a (arith_rep a b) v x v'); auto; intros y z _; apply n_op_ok.
  - intros a b v x k v' _ V K H.
    apply (map_component (fun x => n_op OpMul b a k x) i a (arith_rep a b) v x v'); auto. intros y z _ E. rewrite arith_rep_comm. eapply n_op_ok; eauto.
  - intros o a b v w x y v' _ (Fv & Nv) (Fw & Nw) H.
    assert (Z : zip_with (n_op o a b) v w = Ok v') by (destruct o; try discriminate; exact H).
    apply zip_with_spec in Z. destruct Z as [L Z].
    destruct (Forall2_nth _ _ _ _ _ i (x, y) Z (nth_combine _ _ _ _ _ _ _ Nv Nw)) as (z & Nz & E). cbn [fst snd] in E.
    exists z. split; [exact E|]. split; [|exact Nz]. clear - Z.
    remember (combine v w) as l. clear Heql. induction Z as [|[p q] r l m E Z IH]; constructor; auto. eapply n_op_ok; eauto.
  - intros a v x v' _ V H. apply (map_component (n_neg a) i a (promote_rep a) v x v'); auto. intros y z Y. now apply n_neg_ok.
  - intros a v w x y (_ & V) (_ & W) H. revert v w V W H. induction i as [|i IH]; intros [|p v] [|q w] V W H; try discriminate; cbn [nth_error all_equal] in *.
    + inversion V; inversion W; subst. step H as b B. destruct b; [exact B|discriminate].
    + step H as b B. destruct b; [|discriminate]. eapply IH; eauto.
Qed.

(** All components at once. *)
Lemma chain : forall (A B C : Type) (f : A -> res B) (F : list B -> res (list C)) (g : B -> res C) l r,
  (forall m, length m = length l -> (F m = Ok r <-> Forall2 (fun x y => g x = Ok y) m r)) ->
  ((m <- collect (map f l); F m) = Ok r <-> Forall2 (fun x y => (a <- f x; g a) = Ok y) l r).
Proof.
  intros A B C f F g l r G. split; intros H.
  - step H as m M. apply collect_map in M. assert (L : length l = length m) by (clear - M; induction M; cbn [length]; congruence). apply (G m (eq_sym L)) in H. clear G L. revert r H.
    induction M as [|x y l m E M IH]; intros r H; inversion H; subst; constructor; [now rewrite E|auto].
  - assert (X : exists m, collect (map f l) = Ok m /\ length m = length l /\ Forall2 (fun x y => g x = Ok y) m r).
    { clear G. induction H as [|x y l r E H (m & M & L & IH)]; [exists []; repeat split; constructor|].
      step E as b Eb. exists (b :: m). cbn [map collect]. rewrite Eb, M. cbn [bind length]. repeat split; [congruence|]. now constructor. }
    destruct X as (m & M & L & X). rewrite M. cbn [bind]. now apply (G m L).
Qed.

(** The same computation on one number. *)
Definition number_scaled (c : ratio) (from to : rep) (n : number) : res number :=
  let cm := common_rep from to in
  let rt := class_ratio_type from to in
  match rt with
  | RFlt f =>
      x <- n_convert cm n;
      let k := SFmul (fprec f) (femax f) (float_of_int f (rnum c)) (fpow10 f (rexp c)) in
      let k := SFdiv (fprec f) (femax f) k (float_of_int f (rden c)) in
      y <- n_op OpMul cm rt x (NFlt k);
      n_convert to y
  | RInt t =>
      x <- n_convert cm n;
      num <- n_convert rt (NInt (rnum c));
      den <- n_convert rt (NInt (rden c));
      if 0 <? rexp c then
        p <- ipow10 (rexp c);
        p <- n_convert rt (NInt p);
        k <- op_in OpMul rt num p;
        y <- n_op OpMul cm rt x k;
        z <- n_op OpDiv (arith_rep cm rt) rt y den;
        n_convert to z
      else
        y <- n_op OpMul cm rt x num;
        e <- cneg I64 (rexp c);
        p <- ipow10 e;
        p <- n_convert rt (NInt p);
        k <- op_in OpMul rt den p;
        z <- n_op OpDiv (arith_rep cm rt) rt y k;
        n_convert to z
  end.

Lemma never : forall (A B : Type) (l : list A) (m : list B) (P : A -> B -> Prop), l <> [] -> (forall x y, ~ P x y) -> ~ Forall2 P l m.
Proof. intros A B [|x l] m P N F H; [congruence|]. inversion H; subst. eapply F; eauto. Qed.

Lemma vector_scaled : forall c from to l l', l <> [] ->
  (class_cast_scaled vector_class c from to l = Ok l' <-> Forall2 (fun x y => number_scaled c from to x = Ok y) l l').
Proof.
  intros c from to l l' N. unfold class_cast_scaled, number_scaled. cbv zeta.
  cbn [vector_class rc_val rc_convert rc_mixes rc_inject rc_result rc_scale rc_scale_left rc_op rc_neg rc_eqb vector_scale].
  set (cm := common_rep from to). set (rt := class_ratio_type from to).
  destruct rt as [t|f] eqn:Ert.
  - cbn [n_convert bind]. set (num := NInt (wrap t (rnum c))). set (den := NInt (wrap t (rden c))).
    apply chain. intros m L. assert (Nm : m <> []) by (destruct m, l; cbn in L; congruence).
    destruct (0 <? rexp c).
    + destruct (ipow10 (rexp c)) as [p| | | |]; cbn [bind];
        try (split; [discriminate|intros H; exfalso; revert H; apply never; auto; discriminate]).
      destruct (op_in OpMul (RInt t) num (NInt (wrap t p))) as [k| | | |]; cbn [bind];
        try (split; [discriminate|intros H; exfalso; revert H; apply never; auto; discriminate]).
      apply chain. intros m2 _. apply chain. intros m3 _. apply collect_map.
    + apply chain. intros m2 L2. assert (Nm2 : m2 <> []) by (destruct m, m2; cbn in L2; congruence).
      destruct (cneg I64 (rexp c)) as [e| | | |]; cbn [bind];
        try (split; [discriminate|intros H; exfalso; revert H; apply never; auto; discriminate]).
      destruct (ipow10 e) as [p| | | |]; cbn [bind];
        try (split; [discriminate|intros H; exfalso; revert H; apply never; auto; discriminate]).
      destruct (op_in OpMul (RInt t) den (NInt (wrap t p))) as [k| | | |]; cbn [bind];
        try (split; [discriminate|intros H; exfalso; revert H; apply never; auto; discriminate]).
      apply chain. intros m3 _. apply collect_map.
  - apply chain. intros m _. apply chain. intros m2 _. apply collect_map.
Qed.

Lemma number_scaled_cast : forall c from to x, num_ok from x = true -> (sign_lost from to = false \/ negative x = false) ->
  number_scaled c from to x = cast_number c from to x.
Proof.
  intros c from to x X S. pose proof (convert_through from to x X S) as T. cbv zeta in T.
  unfold number_scaled, cast_number, cast_rep, class_ratio_type. cbv zeta.
  set (cm := common_rep from to) in *. pose proof (ratio_type_wide cm) as RW. pose proof (ratio_type_same cm) as RS.
  set (rt := common_rep cm (RInt I64)) in *. rewrite RW.
  assert (MUL : forall y k, num_ok rt k = true -> n_op OpMul cm rt y k = (z <- n_convert rt y; op_in OpMul rt z k)).
  { intros y k K. unfold n_op. rewrite RW. cbv zeta. rewrite (convert_same rt k) by exact K. reflexivity. }
  destruct rt as [t|f] eqn:Ert; rewrite <- T; destruct (n_convert cm x) as [y| | | |] eqn:Y; cbn [bind]; try reflexivity.
  - cbn [n_convert bind]. set (num := NInt (wrap t (rnum c))). set (den := NInt (wrap t (rden c))).
    assert (Kn : num_ok (RInt t) num = true) by apply wrap_in_range. assert (Kd : num_ok (RInt t) den = true) by apply wrap_in_range.
    destruct y as [y|y]; [|exfalso; assert (C := convert_ok _ _ _ Y); destruct cm as [u|g]; [discriminate|destruct g; discriminate Ert]].
    cbn [n_convert bind].
    destruct (0 <? rexp c).
    + destruct (ipow10 (rexp c)) as [p| | | |]; cbn [bind]; try reflexivity.
      destruct (op_in OpMul (RInt t) num (NInt (wrap t p))) as [k| | | |] eqn:K; cbn [bind]; try reflexivity.
      assert (Kk : num_ok (RInt t) k = true) by (eapply op_in_ok; [exact Kn| |exact K]; apply wrap_in_range).
      rewrite MUL by exact Kk. cbn [n_convert bind].
      destruct (op_in OpMul (RInt t) (NInt (wrap t y)) k) as [z| | | |] eqn:Z; cbn [bind]; try reflexivity.
      rewrite n_op_same; auto. eapply op_in_ok; [|exact Kk|exact Z]. apply wrap_in_range.
    + rewrite MUL by exact Kn. cbn [n_convert bind].
      destruct (op_in OpMul (RInt t) (NInt (wrap t y)) num) as [z| | | |] eqn:Z; cbn [bind]; try reflexivity.
      destruct (cneg I64 (rexp c)) as [e| | | |]; cbn [bind]; try reflexivity.
      destruct (ipow10 e) as [p| | | |]; cbn [bind]; try reflexivity.
      destruct (op_in OpMul (RInt t) den (NInt (wrap t p))) as [k| | | |] eqn:K; cbn [bind]; try reflexivity.
      assert (Kk : num_ok (RInt t) k = true) by (eapply op_in_ok; [exact Kd| |exact K]; apply wrap_in_range).
      rewrite n_op_same; auto. eapply op_in_ok; [|exact Kn|exact Z]. apply wrap_in_range.
  - rewrite MUL; [destruct (n_convert (RFlt f) y); reflexivity|]. apply div_valid; [apply mul_valid|]; try apply normalize_valid. apply fpow10_valid.
Qed.

Lemma Forall2_iff : forall (A B : Type) (P Q : A -> B -> Prop) (R : A -> Prop) l m, Forall R l -> (forall x y, R x -> (P x y <-> Q x y)) ->
  (Forall2 P l m <-> Forall2 Q l m).
Proof.
  intros A B P Q R l m F E. split; intros H; induction H; constructor; inversion F; subst; auto; now apply E.
Qed.

Lemma vector_cast : forall est from to l l', l <> [] ->
  Forall (fun x => num_ok (q_rep from) x = true) l -> Forall (sign_kept vector_class (q_rep from) (q_rep to)) l ->
  (class_quantity_cast vector_class est from to l = Ok l' <-> Forall2 (fun x y => quantity_cast est from to x = Ok y) l l').
Proof.
  intros est from to l l' N F S. unfold class_quantity_cast, quantity_cast, class_cast_number. cbn [vector_class rc_mixes].
  destruct (constrained (dim_equivalent (q_dim to) (q_dim from))) as [u| | | |]; cbn [bind];
    try (split; [discriminate|intros H; exfalso; revert H; apply never; auto; discriminate]).
  destruct (cast_ratio est (q_dim from) (q_unit from) (q_dim to) (q_unit to)) as [c| | | |]; cbn [bind];
    try (split; [discriminate|intros H; exfalso; revert H; apply never; auto; discriminate]).
  assert (V := vector_scaled c (q_rep from) (q_rep to) l l' N). rewrite V.
  apply (Forall2_iff _ _ _ _ (fun x => num_ok (q_rep from) x = true /\ sign_kept vector_class (q_rep from) (q_rep to) x)).
  - rewrite Forall_forall in *. auto.
  - intros x y [X K]. rewrite number_scaled_cast; auto; [tauto|]. destruct K as [K|K]; [discriminate|exact K].
Qed.

(** ** Measurements *)

(** The central value of a measurement. *)
Definition central (a : rep) (v : number * number) (x : number) : Prop := fst v = x /\ num_ok a x = true.
(** Operand types on which [measurement] keeps the type of the numbers. *)
Definition meas_types (a b : rep) : Prop := arith_rep a b = a /\ floating a = true.

Lemma SFmul_comm : forall p e x y, SFmul p e x y = SFmul p e y x.
Proof.
  intros p e [s|s| |s m q] [t|t| |t n r]; cbn [SFmul]; rewrite ?(xorb_comm s t); try reflexivity.
  now rewrite (Pos.mul_comm m n), (Z.add_comm q r).
Qed.
Lemma measurement_observation : forall hyp, observation (measurement_class hyp) meas_types central.
Proof.
  intros hyp. assert (SC : forall o a b v x k v', meas_types a b -> central a v x -> num_ok b k = true -> meas_scale o a v k = Ok v' ->
    exists y, (n_op o a b x k = Ok y /\ central a v' y)).
  { intros o a b v x k v' (A & _) (X & N) K H. unfold meas_scale in H. destruct a as [t|f]; [discriminate|].
    step H as k' K'. step H as val V. step H as rel R. step H as err E. destruct err as [|e]; [discriminate|]. inversion H; subst v'.
    exists val. assert (Nk : num_ok (RFlt f) k' = true) by (eapply convert_ok; eauto). subst x.
    split; [|split; [reflexivity|exact (op_in_ok _ _ _ _ _ N Nk V)]]. unfold n_op. rewrite A. cbv zeta.
    rewrite convert_same by exact N. cbn [bind]. rewrite K'. exact V. }
  constructor; cbn [measurement_class rc_val rc_convert rc_mixes rc_inject rc_result rc_scale rc_scale_left rc_op rc_neg rc_eqb].
  - intros a v x (_ & N). exact N.
  - intros a b v x v' _ (X & N) H. destruct (rep_eq_dec a b) as [<-|]; [|discriminate]. inversion H; subst v'. exists x.
    split; [now apply convert_same|now split].
  - discriminate.
  - intros o a b (A & _). now rewrite A.
  - intros o a b v x k v' T V K H. destruct T as [A Fl]. rewrite A.
    destruct o; try discriminate; (eapply SC; [split; [exact A|exact Fl]|exact V|exact K|exact H]).
  - intros a b v x k v' T V K H. destruct (SC OpMul a b v x k v' T V K H) as (y & Y & C). destruct T as [A Fl]. rewrite A. exists y. split; [|exact C].
    destruct a as [t|f]; [discriminate|]. destruct V as (X & N). destruct x as [z|x]; [discriminate|].
    assert (A' : arith_rep b (RFlt f) = RFlt f) by now rewrite arith_rep_comm.
    unfold n_op in Y |- *. cbv zeta in *. rewrite A in Y. rewrite A'. rewrite convert_same in Y by exact N. cbn [bind] in Y.
    destruct (n_convert (RFlt f) k) as [k'| | | |]; try discriminate. cbn [bind] in *. rewrite convert_same by exact N. cbn [bind].
    destruct k' as [z|k']; [discriminate|]. cbn [op_in float_op bind] in *. rewrite <- Y. f_equal. f_equal. apply SFmul_comm.
  - intros o a b v w x y v' (A & Fl) (X & N) (Y & M) H. unfold meas_op in H. destruct a as [t|f]; [discriminate|].
    destruct (rep_eq_dec (RFlt f) b) as [<-|]; [|discriminate]. rewrite A. rewrite n_op_same by assumption. subst x y.
    destruct o; try discriminate; step H as val V; exists val; (split; [exact V|]).
    + step H as err E. inversion H; subst v'. split; [reflexivity|exact (op_in_ok _ _ _ _ _ N M V)].
    + step H as err E. inversion H; subst v'. split; [reflexivity|exact (op_in_ok _ _ _ _ _ N M V)].
    + step H as rv R. step H as rw W. step H as h Hh. step H as err E. destruct err; [discriminate|]. inversion H; subst v'.
      split; [reflexivity|exact (op_in_ok _ _ _ _ _ N M V)].
    + step H as rv R. step H as rw W. step H as h Hh. step H as err E. destruct err; [discriminate|]. inversion H; subst v'.
      split; [reflexivity|exact (op_in_ok _ _ _ _ _ N M V)].
  - intros a v x v' _ (X & N) H. step H as y Y. inversion H; subst v'. rewrite X in Y. exists y. split; [exact Y|].
    split; [reflexivity|]. exact (n_neg_ok _ _ _ N Y).
  - intros a v w x y (X & _) (Y & _) H. step H as b B. step H as c C. rewrite X, Y in B. destruct b; [exact B|discriminate].
Qed.

(** ** [min_expl] *)

Definition wrapped (a : rep) (v x : number) : Prop := v = x /\ num_ok a x = true.
Definition only_intmax (a b : rep) : Prop := a = RInt I64 /\ b = RInt I64.
Lemma min_expl_observation : observation min_expl only_intmax wrapped.
Proof.
  constructor; cbn [min_expl rc_val rc_convert rc_mixes rc_inject rc_result rc_scale rc_scale_left rc_op rc_neg rc_eqb].
  - intros a v x (_ & N). exact N.
  - intros a b v x v' (-> & ->) (-> & N) H. cbn in H. inversion H; subst v'. exists x. split; [now apply convert_same|now split].
  - intros a b n v' (-> & ->) N H. change (n_convert (RInt I64) n = Ok v') in H. exists v'. split; [exact H|]. split; [reflexivity|]. eapply convert_ok; eauto.
  - intros o a b (-> & ->). reflexivity.
  - discriminate.
  - discriminate.
  - intros o a b v w x y v' (-> & ->) (-> & N) (-> & M) H. exists v'.
    assert (E : op_in o (RInt I64) x y = Ok v') by (destruct o; try discriminate; exact H).
    split; [rewrite n_op_same; auto|]. split; [reflexivity|]. exact (op_in_ok _ _ _ _ _ N M E).
  - discriminate.
  - intros a v w x y (-> & _) (-> & _) H. exact H.
Qed.
