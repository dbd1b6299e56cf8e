(** Proofs: programs of quantities and points as programs of numbers. *)

From Coq Require Import ZArith List Bool Lia SpecFloat.
From Verif Require Import Outcome CInt RatioMaths Pow Root Ratio Unit Downcast Dim DimOp Equivalent Rep Reference QuantityCast CommonQuantity Quantity
  Point Affine Static SpecStatic StaticProofs Program SpecProgram ProgramProofs SpecNumbers KindEraseProofs LowerProofs.
Import ListNotations.
Local Open Scope res_scope.

Section Lower.
Variables (rb : rebinding) (est : estimate) (w : world) (d : declared).

Definition rep_of (t : atype) : rep := q_rep (qtype_of t).
Lemma sound_number : forall t v, v_has t v -> ok (rep_of t) (number_in v).
Proof. intros t v [<- S]. destruct v; exact S. Qed.
Lemma runs_number : forall t r, runs (v_has t) r -> runs (ok (rep_of t)) (rmap number_in r).
Proof. intros t r R. unfold rmap. eapply runs_bind; [exact R|]. intros v V. apply runs_ok. now apply sound_number. Qed.
Lemma has_quantity : forall t v, v_has (TQuantity t) v -> v = VQuantity (Quantity t (number_in v)).
Proof. intros t [[u n]|p] [T _]; cbn in T; [|discriminate]. injection T as ->. reflexivity. Qed.
Lemma has_point : forall t v, v_has (TPoint t) v -> v = VPoint (Point t (number_in v)).
Proof. intros t [q|[u n]] [T _]; cbn in T; [discriminate|]. injection T as ->. reflexivity. Qed.

(** ** Stores *)

Lemma nth_numbers : forall m x v, nth_error m x = Some v -> nth_error (numbers m) x = Some (number_in v).
Proof. intros m x v H. unfold numbers. rewrite nth_error_map, H. reflexivity. Qed.
Lemma numbers_update : forall m x v, numbers (update m x v) = nupdate (numbers m) x (number_in v).
Proof. induction m as [|a m IH]; intros x v; [reflexivity|]. destruct x as [|x]; cbn; [reflexivity|]. unfold numbers in IH. now rewrite IH. Qed.
Lemma retyped : forall m, well_typed d m -> of_types d (numbers m) = m.
Proof.
  intros m W. induction W as [|t v g m V F IH]; [reflexivity|]. cbn. unfold numbers in IH. rewrite IH. f_equal. destruct t as [t|t]; cbn [of_type].
  - symmetry. now apply has_quantity.
  - symmetry. now apply has_point.
Qed.

(** ** Expressions *)

Definition lowered (e : pexpr) (f : nexpr) : Prop := forall m, well_typed d m -> neval (numbers m) f = rmap number_in (peval rb est w m e).
Lemma lower1 : forall a t fa k Q F e (G : avalue -> res avalue), pexpr_sound a -> ptype_of rb est w d a = Ok t -> lowered a fa ->
  low1 k (ok (rep_of t)) Q F -> (forall m, peval rb est w m e = (x <- peval rb est w m a; G x)) ->
  (forall v, v_has t v -> rmap number_in (G v) = F (number_in v)) -> exists f, nops f <= nops fa + k /\ lowered e f.
Proof.
  intros a t fa k Q F e G S T L [_ (f & N & H)] E GF. exists (f fa). split; [apply N|]. intros m W. pose proof (peval_runs rb est w d m a t W S T) as R.
  rewrite H by (rewrite (L m W); now apply runs_number). rewrite (L m W), E. unfold rmap. destruct R as [(v & -> & V)| ->]; cbn [bind]; [|reflexivity].
  rewrite <- (GF v V). reflexivity.
Qed.
Lemma lower2 : forall a b t u fa fb k Q F e (G : avalue -> avalue -> res avalue), pexpr_sound a -> pexpr_sound b ->
  ptype_of rb est w d a = Ok t -> ptype_of rb est w d b = Ok u -> lowered a fa -> lowered b fb ->
  low2 k (ok (rep_of t)) (ok (rep_of u)) Q F -> (forall m, well_typed d m -> peval rb est w m e = (x <- peval rb est w m a; y <- peval rb est w m b; G x y)) ->
  (forall x y, v_has t x -> v_has u y -> rmap number_in (G x y) = F (number_in x) (number_in y)) -> exists f, nops f <= nops fa + nops fb + k /\ lowered e f.
Proof.
  intros a b t u fa fb k Q F e G Sa Sb Ta Tb La Lb [_ (f & N & H)] E GF. exists (f fa fb). split; [apply N|]. intros m W.
  pose proof (peval_runs rb est w d m a t W Sa Ta) as Ra. pose proof (peval_runs rb est w d m b u W Sb Tb) as Rb.
  rewrite H by (first [rewrite (La m W)|rewrite (Lb m W)]; now apply runs_number). rewrite (La m W), (Lb m W), (E m W). unfold rmap.
  destruct Ra as [(x & -> & X)| ->]; cbn [bind]; [|reflexivity]. destruct Rb as [(y & -> & Y)| ->]; cbn [bind]; [|reflexivity].
  rewrite <- (GF x y X Y). reflexivity.
Qed.

Ltac by_close := intros m; unfold peval; cbn [close]; match goal with |- context [close m ?a] => destruct (close m a) end; reflexivity.
Lemma peval_binary : forall o a b u, pexpr_sound b -> ptype_of rb est w d b = Ok u -> forall m, well_typed d m ->
  peval rb est w m (EBinary o a b) = (x <- peval rb est w m a; y <- peval rb est w m b; binary_value rb est w o x y).
Proof.
  intros o a b u S T m W. pose proof (peval_runs rb est w d m b u W S T) as R. unfold peval in *. cbn [close]. destruct (close m a); [|reflexivity].
  destruct (close m b); [reflexivity|]. destruct R as [(v & E & _)|E]; discriminate.
Qed.
Lemma is_of_type : forall e a t, is_of rb est w d e t -> ptype_of rb est w d e = Ok a -> t = qtype_of a.
Proof. intros e a t (a' & H & E) H'. rewrite H in H'. injection H' as ->. now symmetry. Qed.

Lemma rmap_number_q : forall r, rmap number_in (s <- r; Ok (VQuantity s)) = rmap q_num r.
Proof. now intros [q| | | |]. Qed.
Lemma rmap_number_p : forall r, rmap number_in (s <- r; Ok (VPoint s)) = rmap pt_num r.
Proof. now intros [q| | | |]. Qed.
Lemma rmap_make : forall t q, rmap pt_num (p_make est t q) = q_convert est (q_type q) (p_qtype t) (q_num q).
Proof. intros t q. unfold p_make, rmap. now destruct (q_convert est (q_type q) (p_qtype t) (q_num q)). Qed.

Lemma lower_binary : forall o x y t, t_binary rb est w o x y = Ok t ->
  exists k F, k <= 13 /\
    (arith_rep (rep_of x) (rep_of y) = rep_of x -> rep_of x = rep_of y -> match o with BAdd | BSub => qtype_of x = qtype_of y | _ => True end -> k <= 1) /\
    low2 k (ok (rep_of x)) (ok (rep_of y)) (ok (rep_of t)) F /\
    forall u v, v_has x u -> v_has y v -> rmap number_in (binary_value rb est w o u v) = F (number_in u) (number_in v).
Proof.
  intros o x y t H.
  assert (QQ : forall a b, x = TQuantity a -> y = TQuantity b -> (s <- t_binary_quantity est w o a b; Ok (TQuantity s)) = Ok t -> exists k F, k <= 13 /\
    (arith_rep (rep_of x) (rep_of y) = rep_of x -> rep_of x = rep_of y -> match o with BAdd | BSub => qtype_of x = qtype_of y | _ => True end -> k <= 1) /\
    low2 k (ok (rep_of x)) (ok (rep_of y)) (ok (rep_of t)) F /\
    forall u v, v_has x u -> v_has y v -> rmap number_in (binary_value rb est w o u v) = F (number_in u) (number_in v)).
  { intros a b -> -> E. step E as s Hs. injection E as <-. destruct (on_binary est w o a b s Hs) as (k & K1 & K2 & L). eexists k, _. split; [lia|]. split; [exact K2|].
    split; [exact L|]. intros u v U V. rewrite (has_quantity a u U), (has_quantity b v V). cbn [binary_value number_in q_num].
    destruct o; apply rmap_number_q. }
  destruct o, x as [a|a], y as [b|b]; cbn [t_binary] in H; try discriminate; try (exact (QQ a b eq_refl eq_refl H)); clear QQ.
  - step H as s Hs. injection H as <-. destruct (on_point_addsub OpAdd rb est w b a s ltac:(discriminate) Hs) as (k & K1 & K2 & L). eexists k, _. split; [exact K1|].
    split; [|split; [exact (low2_swap _ _ _ _ _ L)|]].
    + intros W E T. cbn [qtype_of] in T. apply K2; [now symmetry|]. unfold rep_of in W, E. cbn [qtype_of p_qtype q_rep] in W, E. rewrite <- E, E in W. congruence.
    + intros u v U V. rewrite (has_quantity a u U), (has_point b v V). cbn [binary_value number_in q_num pt_num]. unfold q_plus_point, p_add. apply rmap_number_p.
  - step H as s Hs. injection H as <-. destruct (on_point_addsub OpAdd rb est w a b s ltac:(discriminate) Hs) as (k & K1 & K2 & L). eexists k, _. split; [exact K1|].
    split; [|split; [exact L|]].
    + intros W E T. apply K2; [exact T|exact W].
    + intros u v U V. rewrite (has_point a u U), (has_quantity b v V). cbn [binary_value number_in q_num pt_num]. unfold p_add. apply rmap_number_p.
  - step H as s Hs. injection H as <-. destruct (on_point_addsub OpSub rb est w a b s ltac:(discriminate) Hs) as (k & K1 & K2 & L). eexists k, _. split; [exact K1|].
    split; [|split; [exact L|]].
    + intros W E T. apply K2; [exact T|exact W].
    + intros u v U V. rewrite (has_point a u U), (has_quantity b v V). cbn [binary_value number_in q_num pt_num]. unfold p_sub. apply rmap_number_p.
  - step H as s Hs. injection H as <-. unfold t_point_diff in Hs. step Hs as c C.
    destruct (on_addsub OpSub est w (p_qtype a) (p_qtype b) s ltac:(discriminate) Hs) as (k & K1 & K2 & L). eexists k, _. split; [lia|].
    split; [|split; [exact L|]].
    + intros W E T. now apply K2.
    + intros u v U V. rewrite (has_point a u U), (has_point b v V). cbn [binary_value number_in q_num pt_num]. rewrite rmap_number_q. unfold p_diff. cbn [pt_type]. rewrite C. reflexivity.
Qed.

Lemma lower_expr : forall e t, pexpr_sound e -> ptype_of rb est w d e = Ok t ->
  exists f, nops f <= 13 * operators e /\ (direct rb est w d e -> nops f <= operators e) /\ lowered e f.
Proof.
  induction e as [x|v|o a IH|o a IHa b IHb|p a IH|c a IH|p a IH|a IH|p a IH]; intros t S T; cbn [pexpr_sound ptype_of operators direct] in *.
  - destruct (nth_error d x) as [t'|] eqn:E; [|discriminate]. exists (NVar x). split; [cbn; lia|]. split; [cbn; lia|]. intros m W.
    destruct (typed_at d m x t' W E) as (v & V & _). cbn [neval]. rewrite (nth_numbers m x v V). unfold peval. cbn [close]. rewrite V. cbn [option_map]. now destruct v.
  - exists (NLit (number_in v)). split; [cbn; lia|]. split; [cbn; lia|]. intros m W. now destruct v.
  - destruct S as [So S]. unfold t_on_quantity in T. step T as ta Ta. step T as q Q. step T as s Hs. destruct ta as [ta|ta]; [|discriminate]. injection Q as ->.
    destruct (IH _ S Ta) as (fa & N1 & N2 & L). destruct (on_unary est w o q s Hs) as (k & K1 & K2 & U).
    destruct (lower1 a (TQuantity q) fa k _ _ (EUnary o a) (fun x => q <- want_quantity x; s <- unary_quantity est w o q; Ok (VQuantity s)) S Ta L U) as (f & N & F).
    + by_close.
    + intros v V. rewrite (has_quantity q v V). cbn [want_quantity bind number_in q_num]. apply rmap_number_q.
    + exists f. split; [lia|]. split; [|exact F]. intros [D1 (t' & D2 & D3)]. specialize (N2 D1). rewrite (is_of_type a _ t' D2 Ta) in D3. specialize (K2 D3). lia.
  - destruct S as [Sa Sb]. step T as ta Ta. step T as tb Tb. destruct (IHa _ Sa Ta) as (fa & N1 & N2 & La). destruct (IHb _ Sb Tb) as (fb & N3 & N4 & Lb).
    destruct (lower_binary o ta tb t T) as (k & F & K1 & K2 & L & E).
    destruct (lower2 a b ta tb fa fb k _ F (EBinary o a b) (binary_value rb est w o) Sa Sb Ta Tb La Lb L (peval_binary o a b tb Sb Tb) E) as (f & N & H).
    exists f. split; [lia|]. split; [|exact H]. intros (D1 & D2 & t1 & t2 & I1 & I2 & D3 & D4 & D5). specialize (N2 D1). specialize (N4 D2).
    rewrite (is_of_type a _ t1 I1 Ta), (is_of_type b _ t2 I2 Tb) in *. specialize (K2 D3 D4 D5). lia.
  - unfold t_on_point in T. step T as ta Ta. step T as q Q. step T as s Hs. destruct s, ta as [ta|ta]; [discriminate|]. injection Q as ->.
    destruct (IH _ S Ta) as (fa & N1 & N2 & L). unfold t_move in Hs. step Hs as c C.
    destruct (lower1 a (TPoint q) fa _ _ _ (EMove p a) (fun x => q <- want_point x; s <- p_to rb est p q; Ok (VPoint s)) S Ta L (low1_convert est (p_qtype q) (p_qtype p) Hs)) as (f & N & F).
    + by_close.
    + intros v V. rewrite (has_point q v V). cbn [want_point bind number_in pt_num]. rewrite rmap_number_p. unfold p_to. cbn [pt_type]. rewrite C; cbn [bind]. apply rmap_make.
    + pose proof (convert_cost_le (p_qtype q) (p_qtype p)) as CL. exists f. split; [lia|]. split; [|exact F]. intros [D1 D2]. specialize (N2 D1). pose proof (is_of_type a _ _ D2 Ta) as Eq.
      cbn [qtype_of] in Eq. rewrite Eq, convert_cost_same in N. lia.
  - unfold t_on_point in T. step T as ta Ta. step T as q Q. step T as s Hs. destruct ta as [ta|ta]; [discriminate|]. injection Q as ->.
    destruct (IH _ S Ta) as (fa & N1 & N2 & L).
    destruct (lower1 a (TPoint q) fa _ _ _ (EPointCast c a) (fun x => q <- want_point x; s <- point_cast est w c q; Ok (VPoint s)) S Ta L (on_qcast est w c (p_qtype q) s Hs)) as (f & N & F).
    + by_close.
    + intros v V. rewrite (has_point q v V). cbn [want_point bind number_in pt_num]. rewrite rmap_number_p. unfold point_cast.
      change (relative (Point q (number_in v))) with (Quantity (p_qtype q) (number_in v)). now destruct (q_cast est w c (Quantity (p_qtype q) (number_in v))).
    + exists f. split; [lia|]. split; [contradiction|exact F].
  - unfold t_on_point in T. step T as ta Ta. step T as q Q. step T as s Hs. step T as s' Hs'. destruct s, s', ta as [ta|ta]; [discriminate|]. injection Q as ->.
    destruct (IH _ S Ta) as (fa & N1 & N2 & L).
    destruct (lower1 a (TPoint q) fa _ _ _ (EPointCastTo p a) (fun x => q <- want_point x; s <- point_cast_to rb est p q; Ok (VPoint s)) S Ta L (low1_quantity_cast est (p_qtype q) (p_qtype p) Hs')) as (f & N & F).
    + by_close.
    + intros v V. rewrite (has_point q v V). cbn [want_point bind number_in pt_num]. rewrite rmap_number_p. unfold point_cast_to. cbn [pt_type pt_num]. rewrite Hs; cbn [bind].
      now destruct (quantity_cast est (p_qtype q) (p_qtype p) (number_in v)).
    + exists f. split; [lia|]. split; [contradiction|exact F].
  - unfold t_on_point in T. step T as ta Ta. step T as q Q. destruct ta as [ta|ta]; [discriminate|]. injection Q as ->.
    destruct (IH _ S Ta) as (fa & N1 & N2 & L).
    destruct (lower1 a (TPoint q) fa _ _ _ (ERelative a) (fun x => q <- want_point x; Ok (VQuantity (relative q))) S Ta L (low1_id _)) as (f & N & F).
    + by_close.
    + intros v V. rewrite (has_point q v V). reflexivity.
    + exists f. split; [lia|]. split; [|exact F]. intros D. specialize (N2 D). lia.
  - unfold t_on_quantity in T. step T as ta Ta. step T as q Q. step T as s Hs. destruct s, ta as [ta|ta]; [|discriminate]. injection Q as ->.
    destruct (IH _ S Ta) as (fa & N1 & N2 & L).
    destruct (lower1 a (TQuantity q) fa _ _ _ (EMake p a) (fun x => q <- want_quantity x; s <- p_make est p q; Ok (VPoint s)) S Ta L (low1_convert est q (p_qtype p) Hs)) as (f & N & F).
    + by_close.
    + intros v V. rewrite (has_quantity q v V). cbn [want_quantity bind number_in q_num]. rewrite rmap_number_p. apply rmap_make.
    + pose proof (convert_cost_le q (p_qtype p)) as CL. exists f. split; [lia|]. split; [|exact F]. intros [D1 D2]. specialize (N2 D1). pose proof (is_of_type a _ _ D2 Ta) as Eq.
      cbn [qtype_of] in Eq. rewrite Eq, convert_cost_same in N. lia.
Qed.

(** ** Conditions *)

Lemma lower_compare : forall x y, t_compare rb est w x y = Ok tt -> exists k1 k2 F1 F2 Q1 Q2, low1 k1 (ok (rep_of x)) Q1 F1 /\ low1 k2 (ok (rep_of y)) Q2 F2 /\
  k1 + k2 <= 8 /\ (qtype_of x = qtype_of y -> k1 + k2 = 0) /\
  forall o u v, v_has x u -> v_has y v -> relation rb est w o u v = (a <- F1 (number_in u); b <- F2 (number_in v); nrelation o a b).
Proof.
  intros x y H.
  assert (C : forall a b, t_common est w a b = Ok tt -> exists k1 k2 F1 F2 Q1 Q2, low1 k1 (ok (q_rep a)) Q1 F1 /\ low1 k2 (ok (q_rep b)) Q2 F2 /\
    k1 + k2 <= 8 /\ (a = b -> k1 + k2 = 0) /\ forall x y, q_common est w (Quantity a x) (Quantity b y) = (x <- F1 x; y <- F2 y; Ok (x, y))).
  { intros a b E. unfold t_common in E. unfold q_common. cbn [q_type q_num]. destruct (qtype_eq_dec a b) as [Eq|Ne].
    - exists 0, 0, Ok, Ok. eexists _, _. split; [apply low1_id|]. split; [apply low1_id|]. split; [lia|]. split; [lia|]. reflexivity.
    - step E as t T. step E as u U. destruct u. exists (convert_cost a t), (convert_cost b t). eexists _, _, _, _. split; [exact (low1_convert est a t U)|].
      split; [exact (low1_convert est b t E)|]. split; [pose proof (convert_cost_le a t); pose proof (convert_cost_le b t); lia|]. split; [contradiction|].
      intros x0 y0. rewrite T. reflexivity. }
  destruct x as [a|a], y as [b|b]; cbn [t_compare] in H; try discriminate.
  - destruct (C a b H) as (k1 & k2 & F1 & F2 & Q1 & Q2 & L1 & L2 & K1 & K2 & E). exists k1, k2, F1, F2, Q1, Q2. repeat (split; [assumption|]).
    intros o u v U V. rewrite (has_quantity a u U), (has_quantity b v V). cbn [number_in q_num].
    destruct o; cbn [relation v_compare v_eqb nrelation]; unfold q_compare, q_eqb; rewrite E; destruct (F1 (number_in u)); cbn [bind]; auto; destruct (F2 (number_in v)); reflexivity.
  - step H as c O. destruct (C (p_qtype a) (p_qtype b) H) as (k1 & k2 & F1 & F2 & Q1 & Q2 & L1 & L2 & K1 & K2 & E). exists k1, k2, F1, F2, Q1, Q2.
    repeat (split; [assumption|]).
    intros o u v U V. rewrite (has_point a u U), (has_point b v V). cbn [number_in pt_num].
    destruct o; cbn [relation v_compare v_eqb nrelation]; unfold p_compare, p_eqb; cbn [pt_type]; rewrite O; cbn [bind]; unfold q_compare, q_eqb;
      change (relative (Point a (number_in u))) with (Quantity (p_qtype a) (number_in u)); change (relative (Point b (number_in v))) with (Quantity (p_qtype b) (number_in v));
      rewrite E; destruct (F1 (number_in u)); cbn [bind]; auto; destruct (F2 (number_in v)); reflexivity.
Qed.
Lemma lower_cond : forall c, pcond_sound c -> compiles_cond rb est w d c = Ok tt ->
  exists f, nops_cond f <= 13 * operators_cond c /\ (direct_cond rb est w d c -> nops_cond f <= operators_cond c) /\
    forall m, well_typed d m -> nholds (numbers m) f = holds rb est w m c.
Proof.
  induction c as [o a b|c IH|c IHc e IHe|c IHc e IHe]; intros S H; cbn [pcond_sound compiles_cond operators_cond direct_cond holds] in *.
  - destruct S as [Sa Sb]. step H as x X. step H as y Y. destruct (lower_expr a x Sa X) as (fa & N1 & N2 & La). destruct (lower_expr b y Sb Y) as (fb & N3 & N4 & Lb).
    destruct (lower_compare x y H) as (k1 & k2 & F1 & F2 & Q1 & Q2 & [R1 (f1 & M1 & H1)] & [R2 (f2 & M2 & H2)] & K1 & K2 & E).
    exists (NRel o (f1 fa) (f2 fb)). cbn [nops_cond]. specialize (M1 fa). specialize (M2 fb). split; [lia|]. split.
    + intros (D1 & D2 & t & I1 & I2). specialize (N2 D1). specialize (N4 D2). rewrite (is_of_type b _ t I2 Y) in I1. pose proof (is_of_type a _ _ I1 X) as Eq. symmetry in Eq.
      specialize (K2 Eq). lia.
    + intros m W. cbn [nholds]. pose proof (peval_runs rb est w d m a x W Sa X) as Ra. pose proof (peval_runs rb est w d m b y W Sb Y) as Rb.
      rewrite H1 by (rewrite (La m W); now apply runs_number). rewrite H2 by (rewrite (Lb m W); now apply runs_number).
      rewrite (La m W), (Lb m W). unfold rmap. destruct Ra as [(u & -> & U)| ->]; cbn [bind]; [|reflexivity].
      destruct Rb as [(v & -> & V)| ->]; cbn [bind].
      * now rewrite (E o u v U V).
      * destruct (R1 (number_in u) (sound_number x u U)) as [(z & -> & _)| ->]; reflexivity.
  - destruct (IH S H) as (f & N1 & N2 & E). exists (NNot f). split; [exact N1|]. split; [exact N2|]. intros m W. cbn [nholds]. now rewrite (E m W).
  - destruct S as [S1 S2]. step H as u U. destruct u. destruct (IHc S1 U) as (f & N1 & N2 & E). destruct (IHe S2 H) as (g & N3 & N4 & E').
    exists (NAnd f g). cbn [nops_cond]. split; [lia|]. split; [intros [D1 D2]; specialize (N2 D1); specialize (N4 D2); lia|]. intros m W. cbn [nholds]. now rewrite (E m W), (E' m W).
  - destruct S as [S1 S2]. step H as u U. destruct u. destruct (IHc S1 U) as (f & N1 & N2 & E). destruct (IHe S2 H) as (g & N3 & N4 & E').
    exists (NOr f g). cbn [nops_cond]. split; [lia|]. split; [intros [D1 D2]; specialize (N2 D1); specialize (N4 D2); lia|]. intros m W. cbn [nholds]. now rewrite (E m W), (E' m W).
Qed.

(** ** Changes *)

Lemma lower_assigned : forall old new, t_assigned rb est old new = Ok tt ->
  low1 (convert_cost (qtype_of new) (qtype_of old)) (ok (rep_of new)) (ok (rep_of old)) (q_convert est (qtype_of new) (qtype_of old)) /\
  forall u v, v_has old u -> v_has new v -> rmap number_in (assigned rb est u v) = q_convert est (qtype_of new) (qtype_of old) (number_in v).
Proof.
  intros [a|a] [b|b] H; cbn [t_assigned] in H; try discriminate; cbn [qtype_of].
  - split; [exact (low1_convert est b a H)|]. intros u v U V. rewrite (has_quantity a u U), (has_quantity b v V). cbn [assigned number_in q_num q_type].
    rewrite rmap_number_q. unfold q_to, rmap. cbn [q_type q_num]. now destruct (q_convert est b a (number_in v)).
  - unfold t_move in H. step H as c C. split; [exact (low1_convert est (p_qtype b) (p_qtype a) H)|]. intros u v U V. rewrite (has_point a u U), (has_point b v V).
    cbn [assigned number_in pt_num pt_type]. rewrite rmap_number_p. unfold p_to. cbn [pt_type]. rewrite C; cbn [bind]. apply rmap_make.
Qed.
Lemma low1_assign : forall o a b v, (o = OpRem -> floating (arith_rep a b) = false) -> exists k, k <= 3 /\ (works_in a b -> k <= 1) /\
  low1 k (ok a) (ok a) (fun x => n_assign o a b x v).
Proof.
  intros o a b v O. exists (cast_cost a (arith_rep a b) + 1 + cast_cost (arith_rep a b) a). pose proof (cast_cost_le a (arith_rep a b)). pose proof (cast_cost_le (arith_rep a b) a).
  split; [lia|]. split; [unfold works_in; intros E; rewrite E, cast_cost_same; lia|]. unfold n_assign.
  exact (low1_comp _ _ _ _ _ _ _ (low1_n_op_right o a b v O) (low1_cast _ (arith_rep a b) a)).
Qed.
Lemma low2_assign : forall o t u, (o = OpRem -> floating (arith_rep (q_rep t) (q_rep t)) = false) -> t_convert est u t = Ok tt ->
  exists k, k <= 8 /\ (works_in (q_rep t) (q_rep t) -> u = t -> k <= 1) /\
  low2 k (ok (q_rep t)) (ok (q_rep u)) (ok (q_rep t)) (fun x y => y <- q_convert est u t y; n_assign o (q_rep t) (q_rep t) x y).
Proof.
  intros o t u O H. set (r := q_rep t) in *. exists (0 + convert_cost u t + (cast_cost r (arith_rep r r) + cast_cost r (arith_rep r r) + 1 + cast_cost (arith_rep r r) r)).
  pose proof (cast_cost_le r (arith_rep r r)). pose proof (cast_cost_le (arith_rep r r) r). pose proof (convert_cost_le u t).
  split; [lia|]. split; [unfold works_in; intros E ->; rewrite E, cast_cost_same, convert_cost_same; lia|].
  pose proof (low2_post _ _ _ _ _ _ _ _ (low2_n_op o r r O) (low1_cast (ok (arith_rep r r)) (arith_rep r r) r)) as L.
  exact (low2_pre _ _ _ _ _ _ _ _ _ _ _ (low1_id (ok r)) (low1_convert est u t H) L).
Qed.

Lemma changed_number : forall old a, match old with VPoint _ => exists pa, point_action a = Ok pa | _ => True end ->
  rmap number_in (changed est old a) = rmap q_num (q_act est (Quantity (qtype_of (vtype old)) (number_in old)) a).
Proof.
  intros [q|p] a H; cbn [changed].
  - destruct q. apply rmap_number_q.
  - destruct H as [pa Pa]. rewrite Pa; cbn [bind]. rewrite rmap_number_p. unfold p_act. assert (Ea : p_action pa = a) by (destruct a; cbn in Pa; inversion Pa; reflexivity). rewrite Ea.
    destruct p as [t n]. cbn [vtype qtype_of number_in pt_num pt_type]. change (relative (Point t n)) with (Quantity (p_qtype t) n). now destruct (q_act est (Quantity (p_qtype t) n) a).
Qed.
Definition does (x : nat) (t : atype) (h : change) (f : nexpr) : Prop := forall m old, well_typed d m -> nth_error m x = Some old -> v_has t old ->
  neval (numbers m) f = rmap number_in (a <- action_of rb est w m h; changed est old a).
Lemma does_value : forall x t h a o r v, t_changed rb est w d t h = Ok tt -> (forall m, action_of rb est w m h = Ok a) -> (o = OpRem -> floating (arith_rep (rep_of t) r) = false) ->
  match t with TPoint _ => exists pa, point_action a = Ok pa | _ => True end ->
  (forall n, rmap q_num (q_act est (Quantity (qtype_of t) n) a) = n_assign o (rep_of t) r n v) ->
  exists f, nops f <= 13 /\ (works_in (rep_of t) r -> nops f <= 1) /\ does x t h f.
Proof.
  intros x t h a o r v H A O P E. destruct (low1_assign o (rep_of t) r v O) as (k & K1 & K2 & [R (f & N & L)]). exists (f (NVar x)). specialize (N (NVar x)). cbn [nops] in N.
  split; [lia|]. split; [intros W; specialize (K2 W); lia|]. intros m old W X V. rewrite L.
  - cbn [neval]. rewrite (nth_numbers m x old X). cbn [bind]. rewrite A; cbn [bind]. rewrite changed_number.
    + destruct V as [<- _]. now rewrite E.
    + destruct V as [<- _]. now destruct old.
  - cbn [neval]. rewrite (nth_numbers m x old X). apply runs_ok. now apply sound_number.
Qed.
Lemma does_operand : forall x t h (a : quantity -> action) o e u, pexpr_sound e -> ptype_of rb est w d e = Ok (TQuantity u) -> t_convert est u (qtype_of t) = Ok tt ->
  (forall m, action_of rb est w m h = (x <- peval rb est w m e; q <- want_quantity x; Ok (a q))) -> (o = OpRem -> floating (rep_of t) = false) ->
  match t with TPoint _ => forall q, exists pa, point_action (a q) = Ok pa | _ => True end ->
  (forall n q, rmap q_num (q_act est (Quantity (qtype_of t) n) (a q)) = (y <- q_convert est (q_type q) (qtype_of t) (q_num q); n_assign o (rep_of t) (rep_of t) n y)) ->
  exists f, nops f <= 13 * (1 + operators e) /\
    (direct rb est w d e -> is_of rb est w d e (qtype_of t) -> works_in (rep_of t) (rep_of t) -> nops f <= 1 + operators e) /\ does x t h f.
Proof.
  intros x t h a o e u S T H A O P E. destruct (lower_expr e (TQuantity u) S T) as (fe & N1 & N2 & Le).
  assert (O' : o = OpRem -> floating (arith_rep (q_rep (qtype_of t)) (q_rep (qtype_of t))) = false) by (intros Eo; specialize (O Eo); now apply arith_floating).
  destruct (low2_assign o (qtype_of t) u O' H) as (k & K1 & K2 & [R (f & N & L)]). exists (f (NVar x) fe). specialize (N (NVar x) fe). cbn [nops] in N.
  split; [lia|]. split.
  - intros D I W. specialize (N2 D). pose proof (is_of_type e _ _ I T) as Eq. cbn [qtype_of] in Eq. symmetry in Eq. specialize (K2 W Eq). lia.
  - intros m old W X V. pose proof (peval_runs rb est w d m e _ W S T) as Re. rewrite L.
    + cbn [neval]. rewrite (nth_numbers m x old X). cbn [bind]. rewrite (Le m W), A. unfold rmap at 1. destruct Re as [(y & -> & Y)| ->]; cbn [bind]; [|reflexivity].
      rewrite (has_quantity u y Y). cbn [want_quantity bind number_in q_num]. rewrite changed_number.
      * destruct V as [<- _]. rewrite E. reflexivity.
      * destruct V as [<- _]. now destruct old.
    + cbn [neval]. rewrite (nth_numbers m x old X). apply runs_ok. now apply sound_number.
    + rewrite (Le m W). exact (runs_number _ _ Re).
Qed.
Lemma lower_change : forall x t h, change_sound h -> t_changed rb est w d t h = Ok tt ->
  exists f, nops f <= 13 * operators_change h /\ (direct_change rb est w d (qtype_of t) h -> nops f <= operators_change h) /\ does x t h f.
Proof.
  intros x t h S H.
  assert (RA : forall n a (r : res number), q_act est (Quantity (qtype_of t) n) a = (n <- r; Ok (Quantity (qtype_of t) n)) -> rmap q_num (q_act est (Quantity (qtype_of t) n) a) = r)
    by (intros n a r ->; now destruct r).
  assert (OP : forall e, pexpr_sound e -> forall k, (y <- ptype_of rb est w d e; o <- t_want_quantity y; k o) = Ok tt -> exists u, ptype_of rb est w d e = Ok (TQuantity u) /\ k u = Ok tt).
  { intros e Se k E. step E as y Y. step E as u U. destruct y as [y|y]; [|discriminate]. injection U as ->. now exists u. }
  destruct h as [| |e|e|e|r v|r v|r v]; cbn [change_sound operators_change direct_change] in *.
  - destruct (does_value x t HInc AInc OpAdd (RInt I32) (NInt 1) H (fun _ => eq_refl) ltac:(discriminate)) as (f & N1 & N2 & D); [destruct t; eauto; eexists; reflexivity| |exists f; split; [exact N1|now split]].
    intros n. apply RA. reflexivity.
  - destruct (does_value x t HDec ADec OpSub (RInt I32) (NInt 1) H (fun _ => eq_refl) ltac:(discriminate)) as (f & N1 & N2 & D); [destruct t; eauto; eexists; reflexivity| |exists f; split; [exact N1|now split]].
    intros n. apply RA. reflexivity.
  - destruct (OP e S (fun o => t_convert est o (qtype_of t))) as (u & Tu & C); [destruct t; exact H|].
    destruct (does_operand x t (HAdd e) AAdd OpAdd e u S Tu C (fun _ => eq_refl) ltac:(discriminate)) as (f & N1 & N2 & D);
      [destruct t; eauto; intros; eexists; reflexivity| |exists f; split; [exact N1|]; split; [intros (D1 & D2 & D3); now apply N2|exact D]].
    intros n q. apply RA. reflexivity.
  - destruct (OP e S (fun o => t_convert est o (qtype_of t))) as (u & Tu & C); [destruct t; exact H|].
    destruct (does_operand x t (HSub e) ASub OpSub e u S Tu C (fun _ => eq_refl) ltac:(discriminate)) as (f & N1 & N2 & D);
      [destruct t; eauto; intros; eexists; reflexivity| |exists f; split; [exact N1|]; split; [intros (D1 & D2 & D3); now apply N2|exact D]].
    intros n q. apply RA. reflexivity.
  - destruct t as [t|t]; [|discriminate].
    destruct (OP e S (fun o => _ <- constrained (negb (floating (q_rep t))); t_convert est o t) H) as (u & Tu & C). step C as c Cc. destruct c.
    pose proof (constrained_ok _ _ Cc) as Fl. apply negb_true_iff in Fl.
    destruct (does_operand x (TQuantity t) (HRem e) ARem OpRem e u S Tu C (fun _ => eq_refl) (fun _ => Fl)) as (f & N1 & N2 & D);
      [exact I| |exists f; split; [exact N1|]; split; [intros (D1 & D2 & D3); now apply N2|exact D]].
    intros n q. apply RA. cbn [qtype_of q_act q_type q_num]. unfold q_act. cbv zeta. cbn [q_type q_num]. rewrite Cc. reflexivity.
  - destruct t as [t|t]; [|discriminate].
    destruct (does_value x (TQuantity t) (HMulV r v) (AMulV r v) OpMul r v H (fun _ => eq_refl) ltac:(discriminate) I) as (f & N1 & N2 & D); [|exists f; split; [exact N1|now split]].
    intros n. apply RA. reflexivity.
  - destruct t as [t|t]; [|discriminate].
    destruct (does_value x (TQuantity t) (HDivV r v) (ADivV r v) OpDiv r v H (fun _ => eq_refl) ltac:(discriminate) I) as (f & N1 & N2 & D); [|exists f; split; [exact N1|now split]].
    intros n. apply RA. reflexivity.
  - destruct t as [t|t]; [|discriminate]. pose proof H as Hc. cbn [t_changed] in Hc. pose proof (constrained_ok _ _ Hc) as Fl. apply andb_prop in Fl as [F1 F2]. apply negb_true_iff in F1, F2.
    destruct (does_value x (TQuantity t) (HRemV r v) (ARemV r v) OpRem r v H (fun _ => eq_refl) (fun _ => arith_floating _ _ F1 F2) I) as (f & N1 & N2 & D); [|exists f; split; [exact N1|now split]].
    intros n. apply RA. unfold q_act. cbv zeta. cbn [qtype_of q_type q_num]. rewrite Hc. reflexivity.
Qed.

(** ** Programs *)

Lemma lower_stmt : forall s, compiles rb est w d s = Ok tt -> pstmt_sound s ->
  exists p, nops_stmt p <= 13 * operators_stmt s /\ (direct_stmt rb est w d s -> nops_stmt p <= operators_stmt s) /\
    forall n m, well_typed d m -> nrun n p (numbers m) = rmap numbers (run rb est w n s m).
Proof.
  induction s as [|a IHa b IHb|x e|x h|c a IHa b IHb|c a IHa]; intros H S; pose proof H as H0; pose proof S as S0; cbn [compiles pstmt_sound operators_stmt direct_stmt] in *.
  - exists NSkip. split; [cbn; lia|]. split; [cbn; lia|]. intros [|n] m W; reflexivity.
  - step H as u U. destruct u, S as [Sa Sb]. destruct (IHa U Sa) as (p & N1 & N2 & E). destruct (IHb H Sb) as (q & N3 & N4 & E'). exists (NSeq p q). cbn [nops_stmt].
    split; [lia|]. split; [intros [D1 D2]; specialize (N2 D1); specialize (N4 D2); lia|]. intros [|n] m W; [reflexivity|]. cbn [nrun run]. rewrite (E n m W).
    pose proof (run_goes rb est w n a d m W Sa U) as G. unfold rmap. destruct G as [[(m' & -> & W')| ->]| ->]; cbn [bind]; [|reflexivity|reflexivity]. exact (E' n m' W').
  - step H as old O. step H as new N. unfold declared_type in O. destruct (nth_error d x) as [t|] eqn:X; [|discriminate]. injection O as ->.
    destruct (lower_expr e new S N) as (fe & N1 & N2 & Le). destruct (lower_assigned old new H) as [[R (f & M & L)] E].
    exists (NAssign x (f fe)). cbn [nops_stmt]. specialize (M fe). pose proof (convert_cost_le (qtype_of new) (qtype_of old)). split; [lia|]. split.
    + intros (D1 & t & Et & I). injection Et as <-. specialize (N2 D1). rewrite (is_of_type e _ _ I N), convert_cost_same in M. lia.
    + intros [|n] m W; [reflexivity|]. cbn [nrun run]. destruct (typed_at d m x old W X) as (v & V & Tv & Sv). unfold lookup. rewrite V; cbn [bind].
      pose proof (peval_runs rb est w d m e new W S N) as Re. rewrite L by (rewrite (Le m W); now apply runs_number). rewrite (Le m W). unfold rmap at 1.
      destruct Re as [(y & -> & Y)| ->]; cbn [bind]; [|reflexivity]. rewrite <- (E v y (conj Tv Sv) Y). unfold rmap. destruct (assigned rb est v y); cbn [bind]; auto.
      now rewrite numbers_update.
  - step H as old O. unfold declared_type in O. destruct (nth_error d x) as [t|] eqn:X; [|discriminate]. injection O as ->.
    destruct (lower_change x old h S H) as (f & N1 & N2 & D). exists (NAssign x f). cbn [nops_stmt]. split; [exact N1|]. split.
    + intros (t & Et & I). injection Et as <-. exact (N2 I).
    + intros [|n] m W; [reflexivity|]. cbn [nrun run]. destruct (typed_at d m x old W X) as (v & V & Tv & Sv). unfold lookup. rewrite V; cbn [bind].
      rewrite (D m v W V (conj Tv Sv)). unfold rmap. destruct (action_of rb est w m h) as [a| | | |]; cbn [bind]; auto. destruct (changed est v a); cbn [bind]; auto.
      now rewrite numbers_update.
  - destruct S as (Sc & Sa & Sb). step H as u U. step H as u' U'. destruct u, u'. destruct (lower_cond c Sc U) as (f & N1 & N2 & E).
    destruct (IHa U' Sa) as (p & N3 & N4 & Ea). destruct (IHb H Sb) as (q & N5 & N6 & Eb). exists (NIf f p q). cbn [nops_stmt]. split; [lia|].
    split; [intros (D1 & D2 & D3); specialize (N2 D1); specialize (N4 D2); specialize (N6 D3); lia|]. intros [|n] m W; [reflexivity|]. cbn [nrun run]. rewrite (E m W).
    destruct (holds rb est w m c) as [[|]| | | |]; cbn [bind]; auto.
  - destruct S as (Sc & Sa). step H as u U. destruct u. destruct (lower_cond c Sc U) as (f & N1 & N2 & E). destruct (IHa H Sa) as (p & N3 & N4 & Ea).
    exists (NWhile f p). cbn [nops_stmt]. split; [lia|]. split; [intros (D1 & D2); specialize (N2 D1); specialize (N4 D2); lia|].
    induction n as [|n IH]; intros m W; [reflexivity|]. cbn [nrun run]. rewrite (E m W). destruct (holds rb est w m c) as [[|]| | | |]; cbn [bind]; auto.
    rewrite (Ea n m W). pose proof (run_goes rb est w n a d m W Sa H) as G. unfold rmap at 1. destruct G as [[(m' & -> & W')| ->]| ->]; cbn [bind]; [|reflexivity|reflexivity].
    exact (IH m' W').
Qed.

Theorem lower_program : forall s, compiles rb est w d s = Ok tt -> pstmt_sound s ->
  exists p, nops_stmt p <= 13 * operators_stmt s /\ (direct_stmt rb est w d s -> nops_stmt p <= operators_stmt s) /\
    forall n m, well_typed d m -> run rb est w n s m = typed_as d (nrun n p (numbers m)).
Proof.
  intros s H S. destruct (lower_stmt s H S) as (p & N1 & N2 & E). exists p. split; [exact N1|]. split; [exact N2|]. intros n m W. rewrite (E n m W).
  pose proof (run_goes rb est w n s d m W S H) as G. unfold typed_as, rmap. destruct G as [[(m' & -> & W')| ->]| ->]; cbn [bind]; [|reflexivity|reflexivity].
  now rewrite (retyped m' W').
Qed.
Theorem lower_expression : forall e t, ptype_of rb est w d e = Ok t -> pexpr_sound e ->
  exists f, nops f <= 13 * operators e /\ (direct rb est w d e -> nops f <= operators e) /\
    forall m, well_typed d m -> peval rb est w m e = (n <- neval (numbers m) f; Ok (of_type t n)).
Proof.
  intros e t T S. destruct (lower_expr e t S T) as (f & N1 & N2 & L). exists f. split; [exact N1|]. split; [exact N2|]. intros m W. rewrite (L m W).
  pose proof (peval_runs rb est w d m e t W S T) as R. unfold rmap. destruct R as [(v & -> & V)| ->]; cbn [bind]; [|reflexivity].
  destruct t as [t|t]; cbn [of_type]; f_equal; [now apply has_quantity|now apply has_point].
Qed.
End Lower.
