(** Proofs: types of expressions of kinds are decided before the program runs. *)

From Coq Require Import ZArith List Bool Lia.
From Verif Require Import Outcome CInt RatioMaths Pow Root Ratio Unit Downcast Dim DimOp Equivalent Rep Reference QuantityCast CommonQuantity Quantity
  Point Affine Static SpecStatic StaticProofs Kind PointKind KindExpr StaticKind SpecStaticKind.
Import ListNotations.
Local Open Scope Z_scope.
Local Open Scope res_scope.

(** ** Quantity kinds *)

Definition k_sound (x : qkind) : Prop := num_ok (kt_rep (qk_type x)) (qk_num x) = true.
Definition k_has (t : ktype) (x : qkind) : Prop := qk_type x = t /\ k_sound x.
Lemma khas : forall t n, num_ok (kt_rep t) n = true -> k_has t (QKind t n).
Proof. intros. now split. Qed.
Lemma common_sound : forall x, k_sound x -> q_sound (common x).
Proof. intros x H. exact H. Qed.

Lemma k_construct_runs : forall est t q s, q_sound q -> t_k_construct est t (q_type q) = Ok s -> runs (k_has s) (k_construct est t q).
Proof.
  intros est t q s Q H. unfold t_k_construct in H. step H as u U. destruct u. inversion H. subst s. unfold k_construct.
  eapply runs_bind; [now apply q_convert_runs|]. intros n N. now apply runs_ok, khas.
Qed.
Lemma k_construct_static : forall est t q x, k_construct est t q = Ok x -> t_k_construct est t (q_type q) = Ok (qk_type x).
Proof.
  intros est t q x H. unfold k_construct in H. step H as n N. inversion H. apply q_convert_static in N. unfold t_k_construct. now rewrite N.
Qed.
Lemma k_make_runs : forall est k q s, q_sound q -> t_k_make est k (q_type q) = Ok s -> runs (k_has s) (k_make est k q).
Proof.
  intros est k q s Q H. unfold t_k_make in H. step H as t T. unfold k_make. rewrite T; cbn [bind]. now apply k_construct_runs.
Qed.
Lemma k_make_static : forall est k q x, k_make est k q = Ok x -> t_k_make est k (q_type q) = Ok (qk_type x).
Proof.
  intros est k q x H. unfold k_make in H. step H as t T. unfold t_k_make. rewrite T; cbn [bind]. now apply k_construct_static.
Qed.
Lemma k_down_runs : forall est g x q s, q_sound q -> t_k_downcasted est g (qk_type x) (q_type q) = Ok s -> runs (k_has s) (k_downcasted est g x q).
Proof. intros est g x q s Q H. unfold k_downcasted. now apply k_make_runs. Qed.
Lemma k_down_static : forall est g x q s, k_downcasted est g x q = Ok s -> t_k_downcasted est g (qk_type x) (q_type q) = Ok (qk_type s).
Proof. intros est g x q s H. unfold t_k_downcasted. now apply k_make_static in H. Qed.
(** An operator of quantities, then one of the two. *)
Lemma then_make : forall est k t s r, runs (q_has t) r -> t_k_make est k t = Ok s -> runs (k_has s) (q <- r; k_make est k q).
Proof. intros est k t s r R H. eapply runs_bind; [exact R|]. intros q [<- Q]. now apply k_make_runs. Qed.
Lemma then_down : forall est g x t s r, runs (q_has t) r -> t_k_downcasted est g (qk_type x) t = Ok s ->
  runs (k_has s) (q <- r; k_downcasted est g x q).
Proof. intros est g x t s r R H. eapply runs_bind; [exact R|]. intros q [<- Q]. now apply k_down_runs. Qed.

Lemma k_to_runs : forall est t x s, k_sound x -> t_k_to est t (qk_type x) = Ok s -> runs (k_has s) (k_to est t x).
Proof.
  intros est t x s X H. unfold t_k_to in H. step H as c C. unfold k_to, qk_kind. rewrite C; cbn [bind]. now apply (k_construct_runs est t (common x)).
Qed.
Lemma k_to_static : forall est t x s, k_to est t x = Ok s -> t_k_to est t (qk_type x) = Ok (qk_type s).
Proof.
  intros est t x s H. unfold k_to, qk_kind in H. step H as c C. unfold t_k_to. rewrite C; cbn [bind]. now apply (k_construct_static est t (common x)).
Qed.
Lemma k_addsub_runs : forall o est w a b s, o <> OpRem -> k_sound a -> k_sound b -> t_k_addsub est w (qk_type a) (qk_type b) = Ok s ->
  runs (k_has s) (k_addsub o est w a b).
Proof.
  intros o est w a b s O A B H. unfold t_k_addsub in H. step H as c C. step H as t T. unfold k_addsub, qk_kind. rewrite C; cbn [bind].
  apply (then_make _ _ t); [|exact H]. now apply (addsub_runs o est w (common a) (common b)).
Qed.
Lemma k_addsub_static : forall o est w a b s, k_addsub o est w a b = Ok s -> t_k_addsub est w (qk_type a) (qk_type b) = Ok (qk_type s).
Proof.
  intros o est w a b s H. unfold k_addsub, qk_kind in H. step H as c C. step H as q Q. apply addsub_static in Q. cbn [common q_type] in Q.
  unfold t_k_addsub. rewrite C; cbn [bind]. rewrite Q; cbn [bind]. now apply k_make_static.
Qed.

Lemma unary_kind_runs : forall est w g o x s, k_sound x -> t_unary_kind est w g o (qk_type x) = Ok s -> runs (k_has s) (unary_kind est w g o x).
Proof.
  intros est w g o x s X H.
  assert (U : forall t, t_unary est w o (kt_qtype (qk_type x)) = Ok t -> runs (q_has t) (unary_quantity est w o (common x)))
    by (intros t; exact (unary_runs est w o (common x) t X)).
  destruct o as [| |r v|r v|r v|r v|r v|u|c]; cbn [t_unary_kind unary_kind] in *; try discriminate;
    try (step H as t T; apply (then_make _ _ t); [exact (U t T)|exact H]).
  - inversion H. unfold k_plus. apply runs_ok. now split.
  - step H as t T. apply (then_down _ _ _ t); [|exact H]. exact (U t T).
Qed.
Lemma unary_kind_static : forall est w g o x s, unary_kind est w g o x = Ok s -> t_unary_kind est w g o (qk_type x) = Ok (qk_type s).
Proof.
  intros est w g o x s H.
  assert (U : forall q, unary_quantity est w o (common x) = Ok q -> t_unary est w o (kt_qtype (qk_type x)) = Ok (q_type q))
    by (intros q; exact (unary_static est w o (common x) q)).
  destruct o as [| |r v|r v|r v|r v|r v|u|c]; cbn [t_unary_kind unary_kind] in *; try discriminate.
  - unfold k_plus in H. now inversion H.
  - unfold k_neg in H. step H as q Q. rewrite (U q Q); cbn [bind]. now apply k_make_static.
  - unfold k_mul_value, k_scale in H. step H as q Q. rewrite (U q Q); cbn [bind]. now apply k_make_static.
  - unfold value_mul_k, k_scale in H. step H as q Q. rewrite (U q Q); cbn [bind]. now apply k_make_static.
  - unfold k_div_value, k_scale in H. step H as q Q. rewrite (U q Q); cbn [bind]. now apply k_make_static.
  - unfold value_div_k in H. step H as q Q. pose proof (U q Q) as T. cbn [t_unary] in T. rewrite T; cbn [bind]. now apply k_down_static.
  - unfold k_rem_value in H. step H as q Q. rewrite (U q Q); cbn [bind]. now apply k_make_static.
Qed.

Lemma k_rem_q_runs : forall est x q s, t_k_rem_q est (qk_type x) (q_type q) = Ok s -> runs (k_has s) (k_rem_q est x q).
Proof.
  intros est x q s H. unfold t_k_rem_q in H. step H as c C. step H as t T. unfold k_rem_q, qk_kind. rewrite C; cbn [bind].
  apply (then_make _ _ t); [|exact H]. now apply (rem_runs (common x) q).
Qed.
Lemma k_rem_q_static : forall est x q s, k_rem_q est x q = Ok s -> t_k_rem_q est (qk_type x) (q_type q) = Ok (qk_type s).
Proof.
  intros est x q s H. unfold k_rem_q, qk_kind in H. step H as c C. step H as p P. apply rem_static in P. cbn [common q_type] in P.
  unfold t_k_rem_q. rewrite C; cbn [bind]. rewrite P; cbn [bind]. now apply k_make_static.
Qed.
Lemma k_rem_runs : forall est a b s, t_k_rem est (qk_type a) (qk_type b) = Ok s -> runs (k_has s) (k_rem est a b).
Proof.
  intros est a b s H. unfold t_k_rem in H. step H as c C. step H as t T. unfold k_rem, qk_kind. rewrite C; cbn [bind].
  apply (then_make _ _ t); [|exact H]. now apply (rem_runs (common a) (common b)).
Qed.
Lemma k_rem_static : forall est a b s, k_rem est a b = Ok s -> t_k_rem est (qk_type a) (qk_type b) = Ok (qk_type s).
Proof.
  intros est a b s H. unfold k_rem, qk_kind in H. step H as c C. step H as p P. apply rem_static in P. cbn [common q_type] in P.
  unfold t_k_rem. rewrite C; cbn [bind]. rewrite P; cbn [bind]. now apply k_make_static.
Qed.
Lemma k_times_k_runs : forall est w g a b s, t_k_times est w g (qk_type a) (qk_type b) = Ok s -> runs (k_has s) (k_times_k est w g a b).
Proof.
  intros est w g a b s H. unfold t_k_times, t_related in H. step H as c C. step H as t T. unfold k_times_k, related, qk_kind. rewrite C; cbn [bind].
  apply (then_down _ _ _ t); [|exact H]. now apply (times_runs w (common a) (common b)).
Qed.
Lemma k_times_k_static : forall est w g a b s, k_times_k est w g a b = Ok s -> t_k_times est w g (qk_type a) (qk_type b) = Ok (qk_type s).
Proof.
  intros est w g a b s H. unfold k_times_k, related, qk_kind in H. step H as c C. step H as p P. apply times_static in P. cbn [common q_type] in P.
  unfold t_k_times, t_related. rewrite C; cbn [bind]. rewrite P; cbn [bind]. now apply k_down_static.
Qed.
Lemma k_over_k_runs : forall est w g a b s, t_k_over est w g (qk_type a) (qk_type b) = Ok s -> runs (k_has s) (k_over_k est w g a b).
Proof.
  intros est w g a b s H. unfold t_k_over, t_related in H. step H as c C. step H as t T. unfold k_over_k, related, qk_kind. rewrite C; cbn [bind].
  apply (then_down _ _ _ t); [|exact H]. now apply (over_runs w (common a) (common b)).
Qed.
Lemma k_over_k_static : forall est w g a b s, k_over_k est w g a b = Ok s -> t_k_over est w g (qk_type a) (qk_type b) = Ok (qk_type s).
Proof.
  intros est w g a b s H. unfold k_over_k, related, qk_kind in H. step H as c C. step H as p P. apply over_static in P. cbn [common q_type] in P.
  unfold t_k_over, t_related. rewrite C; cbn [bind]. rewrite P; cbn [bind]. now apply k_down_static.
Qed.
Lemma kcast_runs : forall est w c x s, k_sound x -> t_kcast est w c (qk_type x) = Ok s -> runs (k_has s) (kind_cast est w c x).
Proof.
  intros est w c x s X H. destruct c as [t|k|c]; cbn [t_kcast kind_cast] in *.
  - step H as u U. destruct u. inversion H. subst t. unfold kind_cast_to.
    eapply runs_bind; [now apply cast_runs|]. intros n N. now apply runs_ok, khas.
  - step H as t T. unfold kind_cast_kind. rewrite T; cbn [bind]. now apply (k_construct_runs est t (common x)).
  - step H as t T. apply (then_make _ _ t); [|exact H]. now apply (qcast_runs est w c (common x)).
Qed.
Lemma kcast_static : forall est w c x s, kind_cast est w c x = Ok s -> t_kcast est w c (qk_type x) = Ok (qk_type s).
Proof.
  intros est w c x s H. destruct c as [t|k|c]; cbn [t_kcast kind_cast] in *.
  - unfold kind_cast_to in H. step H as n N. inversion H. apply cast_static in N. now rewrite N.
  - unfold kind_cast_kind in H. step H as t T. rewrite T; cbn [bind]. now apply (k_construct_static est t (common x)).
  - step H as q Q. apply qcast_static in Q. cbn [common q_type] in Q. rewrite Q; cbn [bind]. now apply k_make_static.
Qed.

(** ** Quantity point kinds *)

Definition pk_sound (x : qpkind) : Prop := num_ok (pkt_rep (qpk_type x)) (qpk_num x) = true.
Definition pk_has (t : pktype) (x : qpkind) : Prop := qpk_type x = t /\ pk_sound x.
Lemma pkhas : forall t n, num_ok (pkt_rep t) n = true -> pk_has t (QPKind t n).
Proof. intros. now split. Qed.

Lemma pk_construct_runs : forall est t x s, k_sound x -> t_pk_construct est t (qk_type x) = Ok s -> runs (pk_has s) (pk_construct est t x).
Proof.
  intros est t x s X H. unfold t_pk_construct in H. step H as u U. inversion H. subst s. unfold pk_construct.
  assert (u = pkt_ktype t). { unfold t_k_to in U. step U as c C. unfold t_k_construct in U. step U as v V. now inversion U. } subst u.
  eapply runs_bind; [exact (k_to_runs est _ x _ X U)|]. intros n [E N]. apply runs_ok, pkhas. unfold k_sound in N. rewrite E in N. exact N.
Qed.
Lemma pk_construct_static : forall est t x s, pk_construct est t x = Ok s -> t_pk_construct est t (qk_type x) = Ok (qpk_type s).
Proof.
  intros est t x s H. unfold pk_construct in H. step H as n N. inversion H. apply k_to_static in N. unfold t_pk_construct. now rewrite N.
Qed.
Lemma pk_to_runs : forall rb est t x s, pk_sound x -> t_pk_to rb est t (qpk_type x) = Ok s -> runs (pk_has s) (pk_to rb est t x).
Proof.
  intros rb est t x s X H. unfold t_pk_to in H. step H as c C. unfold pk_to, qpk_kind. rewrite C; cbn [bind]. now apply (pk_construct_runs est t (pk_relative x)).
Qed.
Lemma pk_to_static : forall rb est t x s, pk_to rb est t x = Ok s -> t_pk_to rb est t (qpk_type x) = Ok (qpk_type s).
Proof.
  intros rb est t x s H. unfold pk_to, qpk_kind in H. step H as c C. unfold t_pk_to. rewrite C; cbn [bind]. now apply (pk_construct_static est t (pk_relative x)).
Qed.
Lemma pk_deduced_runs : forall g x s, k_sound x -> t_pk_deduced g (qk_type x) = Ok s -> runs (pk_has s) (pk_deduced g x).
Proof.
  intros g x s X H. unfold t_pk_deduced in H. step H as p P. inversion H. unfold pk_deduced, qk_kind. rewrite P; cbn [bind]. now apply runs_ok, pkhas.
Qed.
Lemma pk_deduced_static : forall g x s, pk_deduced g x = Ok s -> t_pk_deduced g (qk_type x) = Ok (qpk_type s).
Proof. intros g x s H. unfold pk_deduced, qk_kind in H. step H as p P. inversion H. unfold t_pk_deduced. now rewrite P. Qed.
Lemma then_deduced : forall g t s r, runs (k_has t) r -> t_pk_deduced g t = Ok s -> runs (pk_has s) (x <- r; pk_deduced g x).
Proof. intros g t s r R H. eapply runs_bind; [exact R|]. intros q [<- Q]. now apply pk_deduced_runs. Qed.

Lemma pk_addsub_runs : forall o est w g a b s, o <> OpRem -> k_sound a -> k_sound b -> t_pk_addsub est w g (qk_type a) (qk_type b) = Ok s ->
  runs (pk_has s) (x <- k_addsub o est w a b; pk_deduced g x).
Proof.
  intros o est w g a b s O A B H. unfold t_pk_addsub in H. step H as t T. apply (then_deduced _ t); [|exact H]. now apply k_addsub_runs.
Qed.
Lemma pk_addsub_static : forall o est w g a b s, (x <- k_addsub o est w a b; pk_deduced g x) = Ok s ->
  t_pk_addsub est w g (qk_type a) (qk_type b) = Ok (qpk_type s).
Proof.
  intros o est w g a b s H. step H as x X. apply k_addsub_static in X. unfold t_pk_addsub. rewrite X; cbn [bind]. now apply pk_deduced_static.
Qed.
Lemma pk_diff_runs : forall rb est w a b s, pk_sound a -> pk_sound b -> t_pk_diff rb est w (qpk_type a) (qpk_type b) = Ok s ->
  runs (k_has s) (pk_diff rb est w a b).
Proof.
  intros rb est w a b s A B H. unfold t_pk_diff in H. step H as c C. unfold pk_diff, qpk_kind. rewrite C; cbn [bind].
  apply (k_addsub_runs OpSub est w (pk_relative a) (pk_relative b)); auto. discriminate.
Qed.
Lemma pk_diff_static : forall rb est w a b s, pk_diff rb est w a b = Ok s -> t_pk_diff rb est w (qpk_type a) (qpk_type b) = Ok (qk_type s).
Proof.
  intros rb est w a b s H. unfold pk_diff, qpk_kind in H. step H as c C. unfold t_pk_diff. rewrite C; cbn [bind].
  exact (k_addsub_static OpSub est w (pk_relative a) (pk_relative b) s H).
Qed.
Lemma pk_cast_to_runs : forall rb est t x s, t_pk_cast_to rb est t (qpk_type x) = Ok s -> runs (pk_has s) (pk_cast_to rb est t x).
Proof.
  intros rb est t x s H. unfold t_pk_cast_to in H. step H as c C. step H as u U. destruct u. inversion H. subst s.
  unfold pk_cast_to, qpk_kind, kind_cast_to. rewrite C; cbn [bind].
  eapply (runs_bind _ _ (k_has (pkt_ktype t))).
  - eapply runs_bind; [now apply cast_runs|]. intros n N. now apply runs_ok, khas.
  - intros k [E N]. apply runs_ok, pkhas. unfold k_sound in N. rewrite E in N. exact N.
Qed.
Lemma pk_cast_to_static : forall rb est t x s, pk_cast_to rb est t x = Ok s -> t_pk_cast_to rb est t (qpk_type x) = Ok (qpk_type s).
Proof.
  intros rb est t x s H. unfold pk_cast_to, qpk_kind in H. step H as c C. step H as k K. inversion H. unfold kind_cast_to in K. step K as n N.
  apply cast_static in N. unfold t_pk_cast_to. rewrite C; cbn [bind]. cbn [pk_relative qk_type] in N. now rewrite N.
Qed.
Lemma pk_cast_runs : forall est w g c x s, pk_sound x -> t_pk_cast est w g c (qpk_type x) = Ok s -> runs (pk_has s) (pk_cast est w g c x).
Proof.
  intros est w g c x s X H. unfold t_pk_cast in H. step H as t T. unfold pk_cast. apply (then_deduced _ t); [|exact H].
  now apply (kcast_runs est w c (pk_relative x)).
Qed.
Lemma pk_cast_static : forall est w g c x s, pk_cast est w g c x = Ok s -> t_pk_cast est w g c (qpk_type x) = Ok (qpk_type s).
Proof.
  intros est w g c x s H. unfold pk_cast in H. step H as k K. apply kcast_static in K. cbn [pk_relative qk_type] in K.
  unfold t_pk_cast. rewrite K; cbn [bind]. now apply pk_deduced_static.
Qed.

(** ** Expressions *)

Definition w_has (t : ktyp) (v : kvalue) : Prop := kvtype v = t /\ ksound v.
Lemma runs_wq : forall r t, runs (q_has t) r -> runs (w_has (TyQuantity t)) (s <- r; Ok (WQuantity s)).
Proof. intros r t H. eapply runs_bind; [exact H|]. intros q [<- Q]. apply runs_ok. now split. Qed.
Lemma runs_wk : forall r t, runs (k_has t) r -> runs (w_has (TyKind t)) (s <- r; Ok (WKind s)).
Proof. intros r t H. eapply runs_bind; [exact H|]. intros q [<- Q]. apply runs_ok. now split. Qed.
Lemma runs_wp : forall r t, runs (pk_has t) r -> runs (w_has (TyPoint t)) (s <- r; Ok (WPoint s)).
Proof. intros r t H. eapply runs_bind; [exact H|]. intros q [<- Q]. apply runs_ok. now split. Qed.

Lemma kunary_runs : forall est w g o v t, ksound v -> t_kunary est w g o (kvtype v) = Ok t -> runs (w_has t) (kunary est w g o v).
Proof.
  intros est w g o v t V H. destruct v as [q|x|x]; cbn [kvtype t_kunary kunary] in *; [| |discriminate]; step H as s T; inversion H.
  - now apply runs_wq, unary_runs.
  - now apply runs_wk, unary_kind_runs.
Qed.
Lemma kunary_static : forall est w g o v s, kunary est w g o v = Ok s -> t_kunary est w g o (kvtype v) = Ok (kvtype s).
Proof.
  intros est w g o v s H. destruct v as [q|x|x]; cbn [kvtype t_kunary kunary] in *; [| |discriminate]; step H as y Y; inversion H.
  - apply unary_static in Y. now rewrite Y.
  - apply unary_kind_static in Y. now rewrite Y.
Qed.
Lemma kbinary_runs : forall rb est w g gp o x y t, ksound x -> ksound y -> t_kbinary rb est w g gp o (kvtype x) (kvtype y) = Ok t ->
  runs (w_has t) (kbinary rb est w g gp o x y).
Proof.
  intros rb est w g gp o x y t X Y H.
  assert (QQ : forall a b, x = WQuantity a -> y = WQuantity b ->
    (s <- t_binary_quantity est w o (q_type a) (q_type b); Ok (TyQuantity s)) = Ok t ->
    runs (w_has t) (s <- binary_quantity est w o a b; Ok (WQuantity s))).
  { intros a b -> -> E. step E as s S. inversion E. now apply runs_wq, binary_quantity_runs. }
  assert (AS : forall o' a b, o' <> OpRem -> k_sound a -> k_sound b -> (s <- t_k_addsub est w (qk_type a) (qk_type b); Ok (TyKind s)) = Ok t ->
    runs (w_has t) (s <- k_addsub o' est w a b; Ok (WKind s))).
  { intros o' a b O A B E. step E as s S. inversion E. now apply runs_wk, k_addsub_runs. }
  assert (PS : forall o' a b, o' <> OpRem -> k_sound a -> k_sound b -> (s <- t_pk_addsub est w gp (qk_type a) (qk_type b); Ok (TyPoint s)) = Ok t ->
    runs (w_has t) (s <- (z <- k_addsub o' est w a b; pk_deduced gp z); Ok (WPoint s))).
  { intros o' a b O A B E. step E as s S. inversion E. now apply runs_wp, pk_addsub_runs. }
  assert (TD : forall c r d, (p <- r; s <- t_k_downcasted est g (qk_type c) p; Ok (TyKind s)) = Ok t ->
    (forall p, r = Ok p -> runs (q_has p) d) -> runs (w_has t) (s <- (p <- d; k_downcasted est g c p); Ok (WKind s))).
  { intros c r d E D. step E as p P. step E as s S. inversion E. apply runs_wk. apply (then_down _ _ _ p); [now apply D|exact S]. }
  destruct o, x as [a|a|a], y as [b|b|b]; cbn [kvtype t_kbinary] in H; try discriminate; cbn [kbinary];
    try (exact (QQ a b eq_refl eq_refl H)).
  - apply AS; auto. discriminate.
  - apply (PS OpAdd a (pk_relative b)); auto. discriminate.
  - apply (PS OpAdd (pk_relative a) b); auto. discriminate.
  - apply AS; auto. discriminate.
  - apply (PS OpSub (pk_relative a) b); auto. discriminate.
  - step H as s S. inversion H. now apply runs_wk, pk_diff_runs.
  - apply (TD b _ (q_times w a (common b)) H). intros p P. now apply times_runs.
  - apply (TD a _ (q_times w (common a) b) H). intros p P. now apply times_runs.
  - step H as s S. inversion H. now apply runs_wk, k_times_k_runs.
  - apply (TD b _ (q_over w a (common b)) H). intros p P. now apply over_runs.
  - apply (TD a _ (q_over w (common a) b) H). intros p P. now apply over_runs.
  - step H as s S. inversion H. now apply runs_wk, k_over_k_runs.
  - step H as s S. inversion H. now apply runs_wk, k_rem_q_runs.
  - step H as s S. inversion H. now apply runs_wk, k_rem_runs.
Qed.
Lemma kbinary_static : forall rb est w g gp o x y v, kbinary rb est w g gp o x y = Ok v ->
  t_kbinary rb est w g gp o (kvtype x) (kvtype y) = Ok (kvtype v).
Proof.
  intros rb est w g gp o x y v H.
  assert (QQ : forall a b, (s <- binary_quantity est w o a b; Ok (WQuantity s)) = Ok v ->
    (s <- t_binary_quantity est w o (q_type a) (q_type b); Ok (TyQuantity s)) = Ok (kvtype v)).
  { intros a b E. step E as s S. inversion E. apply binary_quantity_static in S. now rewrite S. }
  assert (AS : forall o' a b, (s <- k_addsub o' est w a b; Ok (WKind s)) = Ok v ->
    (s <- t_k_addsub est w (qk_type a) (qk_type b); Ok (TyKind s)) = Ok (kvtype v)).
  { intros o' a b E. step E as s S. inversion E. apply k_addsub_static in S. now rewrite S. }
  assert (PS : forall o' a b, (s <- (z <- k_addsub o' est w a b; pk_deduced gp z); Ok (WPoint s)) = Ok v ->
    (s <- t_pk_addsub est w gp (qk_type a) (qk_type b); Ok (TyPoint s)) = Ok (kvtype v)).
  { intros o' a b E. step E as s S. inversion E. apply pk_addsub_static in S. now rewrite S. }
  assert (TD : forall c d t, (s <- (p <- d; k_downcasted est g c p); Ok (WKind s)) = Ok v ->
    (forall p, d = Ok p -> t = Ok (q_type p)) -> (p <- t; s <- t_k_downcasted est g (qk_type c) p; Ok (TyKind s)) = Ok (kvtype v)).
  { intros c d t E D. step E as s S. inversion E. step S as p P. rewrite (D p P); cbn [bind]. apply k_down_static in S. now rewrite S. }
  destruct o, x as [a|a|a], y as [b|b|b]; cbn [kbinary] in H; try discriminate; cbn [kvtype t_kbinary];
    try (exact (QQ a b H)); try (exact (AS _ a b H)).
  - exact (PS OpAdd a (pk_relative b) H).
  - exact (PS OpAdd (pk_relative a) b H).
  - exact (PS OpSub (pk_relative a) b H).
  - step H as s S. inversion H. apply pk_diff_static in S. now rewrite S.
  - apply (TD b _ _ H). intros p P. now apply times_static in P.
  - apply (TD a _ _ H). intros p P. now apply times_static in P.
  - step H as s S. inversion H. apply k_times_k_static in S. now rewrite S.
  - apply (TD b _ _ H). intros p P. now apply over_static in P.
  - apply (TD a _ _ H). intros p P. now apply over_static in P.
  - step H as s S. inversion H. apply k_over_k_static in S. now rewrite S.
  - step H as s S. inversion H. apply k_rem_q_static in S. now rewrite S.
  - step H as s S. inversion H. apply k_rem_static in S. now rewrite S.
Qed.

Lemma want_wq : forall v t q, w_has t v -> t_as_quantity t = Ok q -> exists x, v = WQuantity x /\ q_type x = q /\ q_sound x.
Proof. intros v t q [T S] H. destruct v as [x|x|x]; subst t; cbn in H; try discriminate. exists x. inversion H. now split. Qed.
Lemma want_wk : forall v t q, w_has t v -> t_as_kind t = Ok q -> exists x, v = WKind x /\ qk_type x = q /\ k_sound x.
Proof. intros v t q [T S] H. destruct v as [x|x|x]; subst t; cbn in H; try discriminate. exists x. inversion H. now split. Qed.
Lemma want_wp : forall v t q, w_has t v -> t_as_point t = Ok q -> exists x, v = WPoint x /\ qpk_type x = q /\ pk_sound x.
Proof. intros v t q [T S] H. destruct v as [x|x|x]; subst t; cbn in H; try discriminate. exists x. inversion H. now split. Qed.

Theorem ktype_sound : forall rb est w g gp e t, kexpr_sound e -> ktype_of rb est w g gp e = Ok t -> runs (w_has t) (keval rb est w g gp e).
Proof.
  intros rb est w g gp.
  induction e as [q|x|x|o a IH|o a IHa b IHb|u a IH|u a IH|a IH|c a IH|u a IH|a IH|u a IH|a IH|c a IH|u a IH]; intros t S H; cbn [ktype_of keval kexpr_sound] in *;
    try (inversion H; apply runs_ok; now split).
  - destruct S as [O S]. step H as x X. eapply runs_bind; [exact (IH _ S X)|]. intros v [<- V]. now apply kunary_runs.
  - destruct S as [A B]. step H as x X. step H as y Y. eapply runs_bind; [exact (IHa _ A X)|]. intros v [<- V].
    eapply runs_bind; [exact (IHb _ B Y)|]. intros v' [<- V']. now apply kbinary_runs.
  - step H as x X. step H as q Q. step H as s T. inversion H. eapply runs_bind; [exact (IH _ S X)|]. intros v V.
    destruct (want_wq v x q V Q) as (z & -> & <- & Z). cbn [as_quantity bind]. now apply runs_wk, k_construct_runs.
  - step H as x X. step H as q Q. step H as s T. inversion H. eapply runs_bind; [exact (IH _ S X)|]. intros v V.
    destruct (want_wk v x q V Q) as (z & -> & <- & Z). cbn [as_kind bind]. now apply runs_wk, k_to_runs.
  - step H as x X. step H as q Q. inversion H. eapply runs_bind; [exact (IH _ S X)|]. intros v V.
    destruct (want_wk v x q V Q) as (z & -> & <- & Z). cbn [as_kind bind]. apply runs_ok. now split.
  - step H as x X. step H as q Q. step H as s T. inversion H. eapply runs_bind; [exact (IH _ S X)|]. intros v V.
    destruct (want_wk v x q V Q) as (z & -> & <- & Z). cbn [as_kind bind]. now apply runs_wk, kcast_runs.
  - step H as x X. step H as q Q. step H as s T. inversion H. eapply runs_bind; [exact (IH _ S X)|]. intros v V.
    destruct (want_wk v x q V Q) as (z & -> & <- & Z). cbn [as_kind bind]. now apply runs_wp, pk_construct_runs.
  - step H as x X. step H as q Q. step H as s T. inversion H. eapply runs_bind; [exact (IH _ S X)|]. intros v V.
    destruct (want_wk v x q V Q) as (z & -> & <- & Z). cbn [as_kind bind]. now apply runs_wp, pk_deduced_runs.
  - step H as x X. step H as q Q. step H as s T. inversion H. eapply runs_bind; [exact (IH _ S X)|]. intros v V.
    destruct (want_wp v x q V Q) as (z & -> & <- & Z). cbn [as_point bind]. now apply runs_wp, pk_to_runs.
  - step H as x X. step H as q Q. inversion H. eapply runs_bind; [exact (IH _ S X)|]. intros v V.
    destruct (want_wp v x q V Q) as (z & -> & <- & Z). cbn [as_point bind]. apply runs_ok. now split.
  - step H as x X. step H as q Q. step H as s T. inversion H. eapply runs_bind; [exact (IH _ S X)|]. intros v V.
    destruct (want_wp v x q V Q) as (z & -> & <- & Z). cbn [as_point bind]. now apply runs_wp, pk_cast_runs.
  - step H as x X. step H as q Q. step H as s T. inversion H. eapply runs_bind; [exact (IH _ S X)|]. intros v V.
    destruct (want_wp v x q V Q) as (z & -> & <- & Z). cbn [as_point bind]. now apply runs_wp, pk_cast_to_runs.
Qed.

Theorem ktype_complete : forall rb est w g gp e v, keval rb est w g gp e = Ok v -> ktype_of rb est w g gp e = Ok (kvtype v).
Proof.
  intros rb est w g gp.
  assert (WQ : forall x q, as_quantity x = Ok q -> t_as_quantity (kvtype x) = Ok (q_type q)).
  { intros [x|x|x] q H; cbn in *; try discriminate. now inversion H. }
  assert (WK : forall x q, as_kind x = Ok q -> t_as_kind (kvtype x) = Ok (qk_type q)).
  { intros [x|x|x] q H; cbn in *; try discriminate. now inversion H. }
  assert (WP : forall x q, as_point x = Ok q -> t_as_point (kvtype x) = Ok (qpk_type q)).
  { intros [x|x|x] q H; cbn in *; try discriminate. now inversion H. }
  induction e as [q|x|x|o a IH|o a IHa b IHb|u a IH|u a IH|a IH|c a IH|u a IH|a IH|u a IH|a IH|c a IH|u a IH]; intros v H; cbn [ktype_of keval] in *;
    try (now inversion H).
  - step H as x X. rewrite (IH _ X); cbn [bind]. now apply kunary_static.
  - step H as x X. step H as y Y. rewrite (IHa _ X); cbn [bind]. rewrite (IHb _ Y); cbn [bind]. now apply kbinary_static.
  - step H as x X. step H as q Q. step H as s T. inversion H. rewrite (IH _ X); cbn [bind]. rewrite (WQ _ _ Q); cbn [bind].
    apply k_construct_static in T. now rewrite T.
  - step H as x X. step H as q Q. step H as s T. inversion H. rewrite (IH _ X); cbn [bind]. rewrite (WK _ _ Q); cbn [bind].
    apply k_to_static in T. now rewrite T.
  - step H as x X. step H as q Q. inversion H. rewrite (IH _ X); cbn [bind]. now rewrite (WK _ _ Q).
  - step H as x X. step H as q Q. step H as s T. inversion H. rewrite (IH _ X); cbn [bind]. rewrite (WK _ _ Q); cbn [bind].
    apply kcast_static in T. now rewrite T.
  - step H as x X. step H as q Q. step H as s T. inversion H. rewrite (IH _ X); cbn [bind]. rewrite (WK _ _ Q); cbn [bind].
    apply pk_construct_static in T. now rewrite T.
  - step H as x X. step H as q Q. step H as s T. inversion H. rewrite (IH _ X); cbn [bind]. rewrite (WK _ _ Q); cbn [bind].
    apply pk_deduced_static in T. now rewrite T.
  - step H as x X. step H as q Q. step H as s T. inversion H. rewrite (IH _ X); cbn [bind]. rewrite (WP _ _ Q); cbn [bind].
    apply pk_to_static in T. now rewrite T.
  - step H as x X. step H as q Q. inversion H. rewrite (IH _ X); cbn [bind]. now rewrite (WP _ _ Q).
  - step H as x X. step H as q Q. step H as s T. inversion H. rewrite (IH _ X); cbn [bind]. rewrite (WP _ _ Q); cbn [bind].
    apply pk_cast_static in T. now rewrite T.
  - step H as x X. step H as q Q. step H as s T. inversion H. rewrite (IH _ X); cbn [bind]. rewrite (WP _ _ Q); cbn [bind].
    apply pk_cast_to_static in T. now rewrite T.
Qed.

(** The types read no numbers. *)
Lemma unary_kind_text : forall est w g o o' t, same_unary o o' -> t_kunary est w g o t = t_kunary est w g o' t.
Proof. intros est w g o o' t H. destruct H; reflexivity. Qed.
Theorem ktype_text : forall rb est w g gp e e', ksame_text e e' -> ktype_of rb est w g gp e = ktype_of rb est w g gp e'.
Proof.
  intros rb est w g gp e e' H. induction H; cbn [ktype_of];
    repeat match goal with E : ktype_of _ _ _ _ _ _ = _ |- _ => rewrite E; clear E end; try reflexivity.
  destruct (ktype_of rb est w g gp a') as [x| | | |]; cbn [bind]; try reflexivity. now apply unary_kind_text.
Qed.

(** ** Comparisons *)

Lemma k_compare_runs : forall est w a b, k_sound a -> k_sound b ->
  (_ <- constrained (kind_equivalent (qk_kind b) (qk_kind a)); t_common est w (kt_qtype (qk_type a)) (kt_qtype (qk_type b))) = Ok tt ->
  runs (fun _ => True) (k_compare est w a b) /\ runs (fun _ => True) (k_eqb est w a b).
Proof.
  intros est w a b A B H. step H as c C. unfold k_compare, k_eqb. rewrite C; cbn [bind].
  pose proof (common_runs est w (common a) (common b) A B H) as R.
  split; (eapply runs_bind; [exact R|]); intros x (r & X & Y); now apply (compare_total r).
Qed.
Lemma k_compare_static : forall est w a b c, k_compare est w a b = Ok c ->
  (_ <- constrained (kind_equivalent (qk_kind b) (qk_kind a)); t_common est w (kt_qtype (qk_type a)) (kt_qtype (qk_type b))) = Ok tt.
Proof.
  intros est w a b c H. unfold k_compare in H. step H as u U. rewrite U; cbn [bind]. unfold q_compare in H. step H as p P.
  now apply common_static in P.
Qed.
Lemma w_compare_runs : forall rb est w x y, ksound x -> ksound y -> t_kcompare rb est w (kvtype x) (kvtype y) = Ok tt ->
  runs (fun _ => True) (w_compare rb est w x y) /\ runs (fun _ => True) (w_eqb rb est w x y).
Proof.
  intros rb est w [a|a|a] [b|b|b] X Y H; cbn [kvtype t_kcompare] in H; try discriminate; cbn [w_compare w_eqb].
  - pose proof (common_runs est w a b X Y H) as R. split; (eapply runs_bind; [exact R|]); intros p (r & P & Q); now apply (compare_total r).
  - now apply k_compare_runs.
  - step H as c C. unfold pk_compare, pk_eqb, qpk_kind. rewrite C; cbn [bind]. now apply (k_compare_runs est w (pk_relative a) (pk_relative b)).
Qed.
Lemma w_compare_static : forall rb est w x y c, w_compare rb est w x y = Ok c -> t_kcompare rb est w (kvtype x) (kvtype y) = Ok tt.
Proof.
  intros rb est w [a|a|a] [b|b|b] c H; cbn [w_compare] in H; try discriminate; cbn [kvtype t_kcompare].
  - unfold q_compare in H. step H as p P. now apply common_static in P.
  - now apply k_compare_static in H.
  - unfold pk_compare, qpk_kind in H. step H as u U. rewrite U; cbn [bind]. exact (k_compare_static est w (pk_relative a) (pk_relative b) c H).
Qed.
Lemma w_eqb_static : forall rb est w x y c, w_eqb rb est w x y = Ok c -> t_kcompare rb est w (kvtype x) (kvtype y) = Ok tt.
Proof.
  intros rb est w [a|a|a] [b|b|b] c H; cbn [w_eqb] in H; try discriminate; cbn [kvtype t_kcompare].
  - unfold q_eqb in H. step H as p P. now apply common_static in P.
  - unfold k_eqb, qk_kind in H. step H as u U. rewrite U; cbn [bind]. unfold q_eqb in H. step H as p P. now apply common_static in P.
  - unfold pk_eqb, qpk_kind in H. step H as u U. rewrite U; cbn [bind]. unfold k_eqb in H. step H as v V. cbn [pk_relative qk_kind qk_type pkt_ktype kt_kind] in V.
    rewrite V; cbn [bind]. unfold q_eqb in H. step H as p P. now apply common_static in P.
Qed.
